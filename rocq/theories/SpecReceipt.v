(** * SpecReceipt: a receipt of lines, each with its own style and alignment, of spaces and cuts, from the bytes to
    the dots. *)
From Verif Require Import Base Vec GTypes ImageRenderer SpecScene SpecPlain.
Local Open Scope Z_scope.
Local Open Scope list_scope.

Inductive part :=
| Line (style align : Z) (text : list Z)  (* ESC a align, ESC ! style, the text, LF *)
| Lines (n : Z)                           (* ESC d n *)
| Dots (n : Z)                            (* ESC J n *)
| Cut (m : Z)                             (* GS V m *)
| CutFeed (m n : Z).                      (* GS V m n *)

Definition part_bytes (p : part) : list Z :=
  match p with
  | Line n a t => [27; 97; a; 27; 33; n] ++ t ++ [10]
  | Lines n => [27; 100; n]
  | Dots n => [27; 74; n]
  | Cut m => [29; 86; m]
  | CutFeed m n => [29; 86; m; n]
  end.
Definition receipt_bytes (l : list part) : list Z := flat_map part_bytes l.

(** How much paper a part takes. *)
Definition part_height (p : part) : Z :=
  match p with
  | Line n _ t => line_pitch n t
  | Lines n => 24 * n
  | Dots n => n
  | Cut _ => 48
  | CutFeed _ n => 48 + n
  end.
Definition receipt_height (l : list part) : Z := fold_right (fun p h => part_height p + h) 0 l.
(** Where the first character of a line begins: ESC a 1 (or 49) centres, ESC a 2 (or 50) moves the line to the right edge. *)
Definition indent (n a : Z) (t : list Z) : Z :=
  let w := Z.of_nat (length t) * cell_width n in
  if (a =? 1) || (a =? 49) then (609 - w) / 2 else if (a =? 2) || (a =? 50) then 609 - w else 0.
(** Which character, in which style, and which dot of its cell, is in column [x], row [y]. *)
Fixpoint cell_at (l : list part) (x y : Z) : option (Z * Z * Z * Z) :=
  match l with
  | [] => None
  | p :: r =>
      if y <? part_height p then
        match p with
        | Line n a t =>
            let x := x - indent n a t in
            if (x <? 0) || (y <? 0) || (cell_height n <=? y) then None
            else match nth_error t (Z.to_nat (x / cell_width n)) with Some ch => Some (n, ch, x mod cell_width n, y) | None => None end
        | _ => None
        end
      else cell_at r x (y - part_height p)
  end.
Definition receipt_dot (fo : fonts) (l : list part) (x y : Z) : Z :=
  match cell_at l x y with Some (n, ch, i, j) => blackness fo n ch i j | None => 0 end.

(** Parameters are bytes, lines are printable and short enough, and the cuts are cuts. *)
Definition part_ok (p : part) : Prop :=
  match p with
  | Line n a t => 0 <= n <= 255 /\ 0 <= a <= 255 /\ Forall printable t /\ Z.of_nat (length t) * cell_width n <= 609
  | Lines n | Dots n => 0 <= n <= 255
  | Cut m => In m [0; 1; 48; 49]
  | CutFeed m n => In m [65; 97; 103; 66; 98; 104] /\ 0 <= n <= 255
  end.
