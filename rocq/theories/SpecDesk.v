(** * SpecDesk: the sheet and the page beside it.

    In page mode everything is drawn on a page lying beside the paper.  The page can be turned and
    enlarged; when it is printed, what it shows is copied onto the paper where the paper stands. *)
From Verif Require Import Base Vec Float32 GTypes Graphics Context Renderer ThermalImage SpecCanvas ImageRenderer SpecImage.
Local Open Scope Z_scope.
Local Open Scope list_scope.

Definition paper_white : rgba := mk_rgba 255 255 255 255.

(** A page: its size and what it shows.  A page without columns or rows shows nothing. *)
Record leaf := mk_leaf { lf_w : Z; lf_h : Z; lf_pic : picture }.
Definition blank_leaf : leaf := mk_leaf 0 0 (fun _ _ => paper_white).

(** turned clockwise by quarter turns; turned by one quarter, a page without rows has no columns left *)
Definition turn_leaf (r : rotation) (l : leaf) : leaf :=
  let w := lf_w l in let h := lf_h l in
  match r with
  | R0 => l
  | R90 => if h =? 0 then blank_leaf else mk_leaf h w (turn_90 h (lf_pic l))
  | R180 => mk_leaf w h (turn_180 w h (lf_pic l))
  | R270 => if h =? 0 then blank_leaf else mk_leaf h w (turn_270 w (lf_pic l))
  end.
(** enlarged to at least w x h: new columns on both sides, new rows below *)
Definition enlarge_leaf (w h : Z) (l : leaf) : leaf :=
  let w' := Z.max (lf_w l) w in
  let left := (w' - lf_w l) / 2 in
  mk_leaf w' (if w' =? 0 then 0 else Z.max (lf_h l) h)
    (fun X Y => if covers left 0 (lf_w l) (lf_h l) X Y then lf_pic l (X - left) Y else paper_white).
(** the page with rows added below *)
Definition lengthen (h : Z) (l : leaf) : leaf :=
  if lf_w l =? 0 then l
  else mk_leaf (lf_w l) (Z.max (lf_h l) h) (fun X Y => if Y <? lf_h l then lf_pic l X Y else paper_white).

(** Drawing on the page.  What begins outside the page is not drawn.  A block that sticks out on the
    right is cut off there; whether it is cut off at the bottom depends on its width (the page is
    lengthened otherwise: C38_page_does_not_grow_refuted). *)
Definition rows_drawn (l : leaf) (x y w h : Z) : Z :=
  if (lf_w l <? x + w) || (lf_h l <? y + w) then Z.min h (lf_h l - y) else h.
Definition draw_leaf (s : stroke) (l : leaf) : leaf :=
  match s with
  | Paint x y w h px =>
      if (x <? lf_w l) && (y <? lf_h l) then
        let n := rows_drawn l x y w h in
        let l' := lengthen (y + n) l in
        mk_leaf (lf_w l') (lf_h l') (fun X Y =>
          if covers x y w n X Y then multiply_foreground (lf_pic l' X Y) (block px w (X - x) (Y - y)) else lf_pic l' X Y)
      else l
  | Mirror x y w h =>
      if x + w <=? lf_w l then
        let l' := lengthen (y + h) l in
        mk_leaf (lf_w l') (lf_h l') (fun X Y =>
          if covers x y w h X Y then blend_foreground (lf_pic l' X Y) (lf_pic l' X (y + (h - 1 - (Y - y)))) else lf_pic l' X Y)
      else l
  end.

(** The sheet - an endless strip, used down to [dk_low] - and the page. *)
Record desk := mk_desk { dk_pic : picture; dk_low : Z; dk_leaf : leaf }.
Definition empty_desk : desk := mk_desk (fun _ _ => paper_white) 0 blank_leaf.
Definition on_leaf (f : leaf -> leaf) (d : desk) : desk := mk_desk (dk_pic d) (dk_low d) (f (dk_leaf d)).

(** the strokes of a call, wherever they go *)
Definition marks (fo : fonts) (call : context * event) : list stroke :=
  match snd call with
  | EGraphics rects => map (fun r => line_of (r_x r) (r_y r) (r_w r) (r_h r) (t_color (c_text (fst call)))) rects
  | EImage i => Paint (i_x i) (i_y i) (i_w i) (i_h i) (i_pixels i)
                :: (if i_upside_down i then [Mirror (i_x i) (i_y i) (i_w i) (i_h i)] else [])
  | EText spans off mh _ => flat_map (span_strokes fo off mh) spans
  | _ => []
  end.
(** The page, turned so that it can be read, is copied to (x, y) on a strip [W] wide. *)
Definition upright (x : context) (l : leaf) : leaf := turn_leaf (calculate_directional_rotation (p_direction (c_page x)) TopLeft2Right) l.
Definition put_back (x : context) (l : leaf) : leaf := turn_leaf (calculate_directional_rotation TopLeft2Right (p_direction (c_page x))) l.
Definition stamp (W x y : Z) (l : leaf) (d : desk) : desk :=
  mk_desk (fun X Y => if covers x y (lf_w l) (lf_h l) X Y then blend_foreground (dk_pic d X Y) (lf_pic l (X - x) (Y - y)) else dk_pic d X Y)
    (if x <? W then Z.max (dk_low d) (y + lf_h l) else dk_low d) (dk_leaf d).

Definition desk_call (fo : fonts) (W : Z) (call : context * event) (d : desk) : desk :=
  let x := fst call in
  match snd call with
  | EPageBegin => on_leaf (fun _ => blank_leaf) d
  | EPageAreaChanged r w h => on_leaf (fun l => enlarge_leaf w h (turn_leaf r l)) d
  | ERenderPage =>
      let a := g_render_area (c_graphics x) in
      let l := upright x (dk_leaf d) in
      on_leaf (fun _ => put_back x l) (stamp W (a_x a) (a_y a) l d)
  | _ => if p_enabled (c_page x)
         then on_leaf (fun l => fold_left (fun l s => draw_leaf s l) (marks fo call) l) d
         else mk_desk (drawing W (marks fo call) (dk_pic d)) (bottoms W (marks fo call) (dk_low d)) (dk_leaf d)
  end.
Definition desk_calls (fo : fonts) (W : Z) (calls : list (context * event)) (d : desk) : desk :=
  fold_left (fun d c => desk_call fo W c d) calls d.
