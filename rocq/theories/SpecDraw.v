(** * SpecDraw: what the drawing library may return, and the paper the claim C59 is made for. *)
From Verif Require Import Base Vec GTypes Graphics Context Text Handlers Renderer ThermalImage ImageRenderer HtmlRenderer.
Local Open Scope Z_scope.

(** The font library: sizes and offsets are unsigned.  Nothing is assumed about the number of
    coverage values or about the values. *)
Definition fonts_ok (fo : fonts) : Prop := forall b i f scale ch,
  match fo b i f scale ch with Some g => 0 <= gl_width g /\ 0 <= gl_x g /\ 0 <= gl_y g | None => True end.

(** 6 400 000 dots of paper: 800 metres at 203 dots per inch.  The image of a receipt is one buffer whose
    size has to fit 32 bits, which ends a little above that. *)
Definition longest_paper : Z := 6400000.
(** Every call of the job is made at a paper position within that length. *)
Definition within_paper (calls : list (context * event)) : Prop :=
  Forall (fun call => get_y (fst call) <= longest_paper) calls.

(** The picture encoder of the HTML renderer takes every picture that has at least one dot and four bytes for each dot. *)
Definition pngs_ok (pn : pngs) : Prop := forall w h data,
  0 < w -> 0 < h -> vlen data = 4 * (w * h) -> pn w h data <> None.
(** No picture of the job is empty. *)
Definition no_empty_images (calls : list (context * event)) : Prop :=
  forall x i, In (x, EImage i) calls -> 0 < i_w i /\ 0 < i_h i.
