(** * SpecSymbol: the vocabulary of C48 - C52: where things are put and how large they come out. *)
From Verif Require Import Base Command GTypes.
Local Open Scope Z_scope.
Local Open Scope list_scope.

(** Left edge of something [w] dots wide in an area of [area] dots under the justification ESC a has
    set; what is too wide starts at the left edge. *)
Definition justified (j : text_justify) (area w : Z) : Z :=
  if area <? w then 0
  else match j with JLeft => 0 | JCenter => (area - w) / 2 | JRight => area - w end.

(** GS v 0 m: horizontal and vertical magnification.  m = 51 and m = 52 are left out, see
    C48_quadruple_refuted. *)
Definition raster_scale (m : Z) : option (Z * Z) :=
  if (m =? 1) || (m =? 49) then Some (2, 1)
  else if (m =? 2) || (m =? 50) then Some (1, 2)
  else if m =? 3 then Some (2, 2)
  else if (m =? 51) || (m =? 52) then None
  else Some (1, 1).
(** ESC * m: rows of dots in a column, and the magnification ("single density ... stretched by 2 on the
    w and 3 on the h", bit_image.rs:78-79). *)
Definition bit_image_rows (m : Z) : Z := if (m =? 32) || (m =? 33) then 24 else 8.
Definition bit_image_scale (m : Z) : Z * Z := if (m =? 0) || (m =? 32) then (2, 3) else (1, 1).

(** Two-byte numbers, low byte first. *)
Definition num2 (l h : Z) : Z := l + 256 * h.
