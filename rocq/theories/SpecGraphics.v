(** * SpecGraphics: what the ESC/POS image formats mean, independently of the decoder. *)
From Verif Require Import Base Vec GTypes.

(** Bytes needed for [n] dots in one line. *)
Definition line_bytes (n : Z) : Z := (n + 7) / 8.

(** Raster format: rows top to bottom, each row [line_bytes w] bytes, most significant bit
    leftmost. *)
Definition raster_dot (data : list Z) (w x y : Z) : bool :=
  Z.testbit (at_ 0 data (y * line_bytes w + x / 8)) (7 - x mod 8).

(** Column format: columns left to right, each column [line_bytes h] bytes, most significant
    bit topmost. *)
Definition column_dot (data : list Z) (h x y : Z) : bool :=
  Z.testbit (at_ 0 data (x * line_bytes h + y / 8)) (7 - y mod 8).

(** A picture element of an image. *)
Definition transparent : rgba := mk_rgba 0 0 0 0.
Definition px (i : image) (x y : Z) : rgba := at_ transparent (i_pixels i) (y * i_w i + x).
(** The image is rectangular: exactly w*h pixels. *)
Definition rect (i : image) : Prop := 0 <= i_w i /\ 0 <= i_h i /\ vlen (i_pixels i) = i_w i * i_h i.

(** The ink colour, opaque or absent. *)
Definition ink (c : rgba) (on : bool) : rgba :=
  mk_rgba (c_r c) (c_g c) (c_b c) (if on then 255 else 0).

(** Painter's order: the last (topmost) opaque colour of [above] wins, [under] shows where there
    is none. *)
Definition topmost (under : rgba) (above : list rgba) : rgba :=
  match find (fun q => c_a q =? 255) (rev above) with Some q => q | None => under end.
