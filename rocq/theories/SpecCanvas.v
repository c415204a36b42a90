(** * SpecCanvas: what it means for a canvas to show a picture. *)
From Verif Require Import Base Vec GTypes Graphics ThermalImage.
Local Open Scope Z_scope.

(** A picture gives a colour to every column X and row Y. *)
Definition picture := Z -> Z -> rgba.

(** The canvas is [W] pixels wide and [H] rows high and shows [p]. *)
Definition shows (c : canvas) (W H : Z) (p : picture) : Prop :=
  0 < W /\ 0 <= H /\ cv_width c = W /\ vlen (cv_bytes c) = W * H /\
  forall X Y, 0 <= X < W -> 0 <= Y < H -> at_ rgba_blank (cv_bytes c) (Y * W + X) = p X Y.

(** Everything but the pixels and the size. *)
Definition same_setup (c c' : canvas) : Prop :=
  cv_auto_grow c' = cv_auto_grow c /\ cv_paper_color c' = cv_paper_color c /\ cv_errors c' = cv_errors c.

(** A block of [w] x [h] pixels given row by row. *)
Definition block (pixels : list rgba) (w : Z) : picture := fun X Y => at_ rgba_blank pixels (Y * w + X).

(** Rectangular: the buffer is a whole number of rows. *)
Definition rectangular (c : canvas) : Prop :=
  0 <= cv_width c /\ exists H, 0 <= H /\ vlen (cv_bytes c) = cv_width c * H.

(** Turning a picture of size W x H clockwise. *)
Definition turn_90 (H : Z) (p : picture) : picture := fun X Y => p Y (H - 1 - X).
Definition turn_180 (W H : Z) (p : picture) : picture := fun X Y => p (W - 1 - X) (H - 1 - Y).
Definition turn_270 (W : Z) (p : picture) : picture := fun X Y => p (W - 1 - Y) X.
