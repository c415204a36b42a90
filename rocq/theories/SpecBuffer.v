(** * SpecBuffer: the vocabulary of C53: pictures collected in the print buffer and printed together. *)
From Verif Require Import Base Command Vec GTypes SpecGraphics SpecSymbol SpecMemory SpecStored.
Local Open Scope Z_scope.
Local Open Scope list_scope.

(** GS ( L / GS 8 L functions 112 and 113 add a picture (function number and parameters) to the print
    buffer, in raster and in column format; functions 2 and 50 print the buffer and empty it, and ESC @
    empties it. *)
Definition buffer_after (b : list (Z * list Z)) (c : command) : list (Z * list Z) :=
  if list_eq_dec Z.eq_dec (c_commands c) [27; 64] then []
  else match picture_function c with
       | Some fn => if (fn =? 112) || (fn =? 113) then b ++ [(fn, c_data c)] else if (fn =? 2) || (fn =? 50) then [] else b
       | None => b
       end.
Definition buffered (l : list command) : list (Z * list Z) := fold_left buffer_after l [].

(** A picture of [w] x [h] dots, each shown [bx] dots wide and [by_] dots high, in colour [c]. *)
Record layer := mk_layer { l_column : bool; l_bx : Z; l_by : Z; l_colour : Z; l_xl : Z; l_xh : Z; l_yl : Z; l_yh : Z; l_dots : list Z }.
Definition l_w (l : layer) : Z := num2 (l_xl l) (l_xh l).
Definition l_h (l : layer) : Z := num2 (l_yl l) (l_yh l).
Definition width_of (l : layer) : Z := l_w l * l_bx l.
Definition height_of (l : layer) : Z := l_h l * l_by l.
(** the command that sends it ([a] is not used) *)
Definition sends (l : layer) (q : Z * list Z) : Prop :=
  fst q = (if l_column l then 113 else 112) /\
  exists a, snd q = [a; l_bx l; l_by l; l_colour l; l_xl l; l_xh l; l_yl l; l_yh l] ++ l_dots l.
(** as large as it says *)
Definition complete (l : layer) : Prop :=
  0 < l_w l /\ 0 < l_h l /\ 1 <= l_bx l /\ 1 <= l_by l /\
  vlen (l_dots l) = (if l_column l then l_w l * line_bytes (l_h l) else line_bytes (l_w l) * l_h l).
Definition layer_dot (x y : Z) (l : layer) : rgba :=
  ink (plane_colour (l_colour l))
      (if l_column l then column_dot (l_dots l) (l_h l) (x / l_bx l) (y / l_by l) else raster_dot (l_dots l) (l_w l) (x / l_bx l) (y / l_by l)).
