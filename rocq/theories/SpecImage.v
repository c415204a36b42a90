(** * SpecImage: what a printed sheet shows.

    A sheet is an endless strip of paper [W] pixels wide.  Whatever is printed leaves strokes on
    it, one after the other; the picture is what the strokes leave behind. *)
From Verif Require Import Base Vec Float32 GTypes Graphics Context Renderer ThermalImage SpecCanvas ImageRenderer.
Local Open Scope Z_scope.
Local Open Scope list_scope.

Inductive stroke :=
| Paint (x y w h : Z) (pixels : list rgba)   (* a block of pixels, multiplied onto the paper *)
| Mirror (x y w h : Z).                      (* the rectangle is turned upside down *)

(** (X, Y) lies in the rectangle of width [w] and height [h] with top left corner (x, y). *)
Definition covers (x y w h X Y : Z) : bool := (x <=? X) && (X <? x + w) && (y <=? Y) && (Y <? y + h).

(** What a stroke does to the picture on a strip [W] pixels wide.  (Nothing can be seen right of
    column [W]; a rectangle that sticks out is not mirrored.) *)
Definition draw (W : Z) (s : stroke) (p : picture) : picture :=
  match s with
  | Paint x y w h px => fun X Y =>
      if covers x y w h X Y then multiply_foreground (p X Y) (block px w (X - x) (Y - y)) else p X Y
  | Mirror x y w h =>
      if x + w <=? W
      then fun X Y => if covers x y w h X Y then blend_foreground (p X Y) (p X (y + (h - 1 - (Y - y)))) else p X Y
      else p
  end.
(** How far down the stroke makes the sheet reach. *)
Definition bottom (W : Z) (s : stroke) : Z :=
  match s with
  | Paint x y w h _ => if x <? W then y + h else 0
  | Mirror x y w h => if x + w <=? W then y + h else 0
  end.
Definition drawing (W : Z) (l : list stroke) (p : picture) : picture := fold_left (fun p s => draw W s p) l p.
Definition bottoms (W : Z) (l : list stroke) (H : Z) : Z := fold_left (fun h s => Z.max h (bottom W s)) l H.

(** ** The strokes of a call *)

(** The cells of a text: character [k] of the span, [k] counted from [k0], is painted at
    x + k * character width; control characters leave a gap. *)
Fixpoint cells (fo : fonts) (s : text_span) (x top : Z) (chars : ustring) : list stroke :=
  match chars with
  | [] => []
  | ch :: r =>
      match render_char fo s ch with
      | Ok (Some (px, w, h)) => [Paint x top w h px]
      | _ => []
      end ++ cells fo s (x + s_character_width s) top r
  end.
Definition line_of (x y w h : Z) (color : rgba) : stroke := Paint x y w h (repeat color (Z.to_nat (w * h))).
(** A span: its characters, then the underline, then the strike through, then upside down. *)
Definition span_strokes (fo : fonts) (x_offset max_height : Z) (s : text_span) : list stroke :=
  match s_dimensions s, lowered max_height s with
  | Some d, Ok low =>
      let x := d_x d + x_offset in
      let top := d_y d + low in
      let base := f32_trunc (f32_mul (f32_of (s_character_height s)) (baseline_of (s_font s))) in
      let middle := f32_trunc (f32_div (f32_of (s_character_height s)) (f32_round 25 10)) in
      cells fo s x top (s_text s) ++
      (if 0 <? s_underline s then [line_of x (top + 3 + base) (d_w d) 1 (s_text_color s)] else []) ++
      (if 0 <? s_strikethrough s then [line_of x (top + middle) (d_w d) (s_strikethrough s) (s_text_color s)] else []) ++
      (if s_upside_down s then [Mirror x top (d_w d) (d_h d)] else [])
  | _, _ => []
  end.
(** In page mode nothing goes to the sheet until the page is printed. *)
Definition strokes (fo : fonts) (call : context * event) : list stroke :=
  let '(x, ev) := call in
  if p_enabled (c_page x) then []
  else match ev with
       | EGraphics rects => map (fun r => line_of (r_x r) (r_y r) (r_w r) (r_h r) (t_color (c_text x))) rects
       | EImage i => Paint (i_x i) (i_y i) (i_w i) (i_h i) (i_pixels i)
                     :: (if i_upside_down i then [Mirror (i_x i) (i_y i) (i_w i) (i_h i)] else [])
       | EText spans off mh _ => flat_map (span_strokes fo off mh) spans
       | _ => []
       end.

(** ** The finished image *)

(** Colour of the pixel in column X, row Y of an image, three bytes per pixel, row by row. *)
Definition rgb_at (r : receipt_image) (X Y : Z) : Z * Z * Z :=
  let i := 3 * (Y * r_width r + X) in (at_ 0 (r_bytes r) i, at_ 0 (r_bytes r) (i + 1), at_ 0 (r_bytes r) (i + 2)).
Definition rgb_of (p : rgba) : Z * Z * Z := (c_r p, c_g p, c_b p).
