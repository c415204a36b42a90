(** * SpecPlain: a receipt of plain text, from the bytes to the dots.

    Lines of text, each ended by a line feed, possibly after one ESC ! n (print mode).  This is all one
    has to know to tell every dot of the image. *)
From Verif Require Import Base Vec GTypes ImageRenderer SpecScene.
Local Open Scope Z_scope.
Local Open Scope list_scope.

(** The bytes: every line is followed by LF. *)
Definition typed (lines : list (list Z)) : list Z := flat_map (fun l => l ++ [10]) lines.
Definition printable (b : Z) : Prop := 32 <= b <= 126.

(** What ESC ! n says: bit 0 the small font, bit 3 bold, bit 4 double height, bit 5 double width, bit 6 underlined. *)
Definition small_font (n : Z) : bool := Z.testbit n 0.
Definition bold_face (n : Z) : bool := Z.testbit n 3.
Definition tall (n : Z) : Z := if Z.testbit n 4 then 2 else 1.
Definition wide (n : Z) : Z := if Z.testbit n 5 then 2 else 1.
Definition underlined (n : Z) : bool := Z.testbit n 6.
Definition typeface (n : Z) : font := if small_font n then FontB else FontA.
(** The cell of a character, and how far the lines are apart. *)
Definition cell_width (n : Z) : Z := (if small_font n then 9 else 12) * wide n.
Definition cell_height (n : Z) : Z := (if small_font n then 17 else 24) * tall n.
Definition line_pitch (n : Z) (l : list Z) : Z := match l with [] => 24 | _ => Z.max 24 (cell_height n) end.
(** in which row of the cell the underline runs *)
Definition rule_row (n : Z) : Z := 3 + cell_height n * base_line (typeface n) / 1000000.

(** How black (0..255) the dot in column [i], row [j] of the cell of [ch] is: the character comes from the font
    library at the larger of the two enlargements, and is shrunk to the cell. *)
Definition blackness (fo : fonts) (n ch i j : Z) : Z :=
  if underlined n && (j =? rule_row n) then 255
  else let scale := Z.max (wide n) (tall n) in
       match fo (bold_face n) false (typeface n) scale ch with
       | Some g => coverage g (i * scale / wide n) (j * scale / tall n)
       | None => 0
       end.
(** Which character, and which dot of its cell, is in column [x], row [y] of the text, whose first cell begins at (0, 0). *)
Fixpoint cell_of (n : Z) (lines : list (list Z)) (x y : Z) : option (Z * Z * Z) :=
  match lines with
  | [] => None
  | l :: r =>
      if (x <? 0) || (y <? 0) then None
      else if y <? line_pitch n l then
        if y <? cell_height n then
          match nth_error l (Z.to_nat (x / cell_width n)) with Some ch => Some (ch, x mod cell_width n, y) | None => None end
        else None
      else cell_of n r x (y - line_pitch n l)
  end.
(** Between and beside the characters the paper is white. *)
Definition text_dot (fo : fonts) (n : Z) (lines : list (list Z)) (x y : Z) : Z :=
  match cell_of n lines x y with Some (ch, i, j) => blackness fo n ch i j | None => 0 end.
Definition text_height (n : Z) (lines : list (list Z)) : Z := fold_right (fun l h => line_pitch n l + h) 0 lines.
(** The lines are short enough for the paper, which is 609 dots wide. *)
Definition fits_paper (n : Z) (lines : list (list Z)) : Prop :=
  Forall (fun l => Forall printable l /\ Z.of_nat (length l) * cell_width n <= 609) lines.
