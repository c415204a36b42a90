(** * SpecLines: lines of text and the motion of the paper.

    How a typewriter sets text: the pen stands at (x, y); a word is put at the pen, which moves to its
    right end; a tab moves the pen to the next tab stop; a line feed moves it to the left edge of the
    next line. *)
From Verif Require Import Base Command Vec GTypes Float32 Context Text Renderer ImageRenderer SpecImage.
Local Open Scope Z_scope.
Local Open Scope list_scope.

(** ** One line of text *)

(** dots a word takes up *)
Definition word_dots (w : text_span) : Z := Z.of_nat (length (s_text w)) * s_character_width w.
Definition row_dots (ws : list text_span) : Z := fold_right (fun w n => word_dots w + n) 0 ws.
(** how far a line [total] dots wide is shifted on paper [width] dots wide *)
Definition shift_for (j : text_justify) (width total : Z) : Z :=
  match j with
  | JLeft => 0
  | JCenter => Z.max 0 ((width - total) / 2)
  | JRight => width - total
  end.
(** [h] is the height of the highest characters of the line *)
Definition highest_of (ws : list text_span) (h : Z) : Prop :=
  Exists (fun w => s_character_height w = h) ws /\ Forall (fun w => s_character_height w <= h) ws.
(** A line is printed as its first word asks for. *)
Definition line_call (width : Z) (line : list text_span) (off h : Z) (j : text_justify) : Prop :=
  exists first rest, line = first :: rest /\ j = s_justify first /\
    off = shift_for j width (row_dots line) /\ 0 <= off /\ highest_of line h.

(** ** Several lines *)

Definition lf (w : text_span) : Prop := s_text w = [10].
Definition is_tab (w : text_span) : bool := match s_text w with [c] => c =? 9 | _ => false end.
(** the tab stops: the left edge, and then one more every so many characters (ESC D); the last
    entry of the table leads nowhere *)
Fixpoint stops (from : Z) (tabs : list Z) (cw : Z) : list Z :=
  match tabs with [] => [] | t :: r => from :: stops (from + t * cw) r cw end.
(** the pen goes to the first stop that is not to its left, if there is one *)
Definition next_stop (tabs : list Z) (cw x : Z) : Z :=
  match find (fun p => x <=? p) (stops 0 tabs cw) with Some p => p | None => x end.
Definition put_at (x y : Z) (w : text_span) : text_span :=
  set_s_dimensions (Some (mk_dims x y (word_dots w) (s_character_height w))) w.
(** the words of a line with their places *)
Fixpoint row (tabs : list Z) (x y : Z) (ws : list text_span) : list text_span :=
  match ws with
  | [] => []
  | w :: r => if is_tab w then row tabs (next_stop tabs (s_character_width w) x) y r
              else put_at x y w :: row tabs (x + word_dots w) y r
  end.
(** where the pen stands after a line *)
Fixpoint row_end (tabs : list Z) (x : Z) (ws : list text_span) : Z :=
  match ws with
  | [] => x
  | w :: r => row_end tabs (if is_tab w then next_stop tabs (s_character_width w) x else x + word_dots w) r
  end.
(** every word ends before the right edge *)
Fixpoint row_fits (width : Z) (tabs : list Z) (x : Z) (ws : list text_span) : Prop :=
  match ws with
  | [] => True
  | w :: r => ~ lf w /\ if is_tab w then row_fits width tabs (next_stop tabs (s_character_width w) x) r
              else x + word_dots w <= width /\ row_fits width tabs (x + word_dots w) r
  end.
(** the height of a line: the line spacing, or the highest printed word *)
Definition row_height (spacing : Z) (ws : list text_span) : Z :=
  fold_right (fun w h => if is_tab w then h else Z.max (s_character_height w) h) spacing ws.

(** Complete lines, the first beginning at (x, y): the rows, and where the next line begins. *)
Fixpoint rows (spacing : Z) (tabs : list Z) (x y : Z) (lines : list (list text_span)) : list (list text_span) :=
  match lines with
  | [] => []
  | l :: r => row tabs x y l :: rows spacing tabs 0 (y + row_height spacing l) r
  end.
Definition rows_bottom (spacing y : Z) (lines : list (list text_span)) : Z :=
  fold_left (fun y l => y + row_height spacing l) lines y.
Fixpoint rows_fit (width : Z) (tabs : list Z) (x : Z) (lines : list (list text_span)) : Prop :=
  match lines with [] => True | l :: r => row_fits width tabs x l /\ rows_fit width tabs 0 r end.
(** where the unfinished line after the complete ones begins *)
Definition last_start (x : Z) (lines : list (list text_span)) : Z := match lines with [] => x | _ => 0 end.

(** The words of a text of complete lines and an unfinished one. *)
Inductive lines_of_text : list (list text_span) -> list text_span -> list text_span -> Prop :=
| Unfinished last : lines_of_text [] last last
| Finished l e more lines last : lf e -> lines_of_text lines last more -> lines_of_text (l :: lines) last (l ++ e :: more).

(** only lines with something on them are printed *)
Definition nonempty (l : list text_span) : bool := match l with [] => false | _ => true end.

(** the lines a text is printed as *)
Definition printed_rows (spacing : Z) (tabs : list Z) (x y : Z) (lines : list (list text_span)) (last : list text_span) : list (list text_span) :=
  filter nonempty (rows spacing tabs x y lines ++ [row tabs (last_start x lines) (rows_bottom spacing y lines) last]).
Definition placed_line (width : Z) (l : list text_span) : list text_span * Z :=
  (l, shift_for (match l with f :: _ => s_justify f | [] => JLeft end) width (row_dots l)).

(** ** Paper motion *)

(** dots the paper is moved by a command, for a line spacing *)
Definition fed (spacing : Z) (c : command) : option Z :=
  match c_commands c, c_data c with
  | [27; 74], [n] => Some n                                        (* ESC J n: n dots *)
  | [27; 100], [n] => Some (n * spacing)                           (* ESC d n: n lines *)
  | [29; 86], [m] =>                                               (* GS V: cut *)
      if existsb (Z.eqb m) [0; 1; 48; 49] then Some (2 * spacing) else None
  | [29; 86], [m; n] =>                                            (* GS V: cut and feed *)
      if existsb (Z.eqb m) [65; 97; 103; 66; 98; 104] then Some (2 * spacing + n) else None
  | _, _ => None
  end.

(** the upper edges of the things a call prints *)
Definition printed_tops (ev : event) : list Z :=
  match ev with
  | EText line _ _ _ => flat_map (fun w => match s_dimensions w with Some d => [d_y d] | None => [] end) line
  | EImage i => [i_y i]
  | EGraphics rects => map r_y rects
  | _ => []
  end.

(** ** Characters of different size on a line *)

(** In the picture the characters of the word [w] stand in cells whose upper edge is [top]; underline,
    strike through and turning upside down come after them. *)
Definition cells_at (fo : ImageRenderer.fonts) (off h : Z) (w : text_span) (d : dims) (top : Z) : Prop :=
  exists decoration, span_strokes fo off h w = cells fo w (d_x d + off) top (s_text w) ++ decoration /\ (length decoration <= 3)%nat.
(** how far below the upper edge of its cells a word's base line is: a fixed part of the height *)
Definition base_depth (w : text_span) : Z :=
  f32_trunc (f32_mul (f32_of (s_character_height w)) (baseline_of (s_font w))).
