(** * SpecStage: the sheet and the page beside it, dot for dot, in whole numbers.

    SpecScene says what is drawn on paper looks like; here the same for the page of page mode (which,
    other than the paper, has edges), and for printing the page. *)
From Verif Require Import Base Vec GTypes Graphics Context Renderer ThermalImage SpecCanvas ImageRenderer SpecImage SpecDesk SpecScene SpecPrintout.
Local Open Scope Z_scope.
Local Open Scope list_scope.

(** Ink on the page: a block w x h at (x, y) whose dot in column i, row j is [ink i j].  What begins
    outside the page is not drawn; [rows_drawn] of the rows are, and the page is lengthened for them (see SpecDesk). *)
Definition press_leaf (x y w h : Z) (ink : Z -> Z -> rgba) (l : leaf) : leaf :=
  if (x <? lf_w l) && (y <? lf_h l) then
    let n := rows_drawn l x y w h in
    let l := lengthen (y + n) l in
    mk_leaf (lf_w l) (lf_h l) (fun X Y => if covers x y w n X Y then press (lf_pic l X Y) (ink (X - x) (Y - y)) else lf_pic l X Y)
  else l.
Definition upside_down_leaf (x y w h : Z) (l : leaf) : leaf :=
  if x + w <=? lf_w l then
    let l := lengthen (y + h) l in
    mk_leaf (lf_w l) (lf_h l) (fun X Y => if covers x y w h X Y then lf_pic l X (y + (h - 1 - (Y - y))) else lf_pic l X Y)
  else l.
(** Character number [k] of a word. *)
Definition letter_leaf (fo : fonts) (w : text_span) (x y k : Z) (l : leaf) : leaf :=
  match fo (s_bold w) (s_italic w) (s_font w) (drawn_at w) (at_ 0 (s_text w) k) with
  | Some g => press_leaf (x + k * s_character_width w) y (s_character_width w) (s_character_height w) (dot w g) l
  | None => l
  end.
Definition word_leaf (fo : fonts) (off mh : Z) (w : text_span) (l : leaf) : leaf :=
  match s_dimensions w with
  | None => l
  | Some d =>
      let h := s_character_height w in
      let x := d_x d + off in
      let y := d_y d + (mh - h) * base_line (s_font w) / 1000000 in
      let l := fold_left (fun l k => letter_leaf fo w x y k l) (zrange (vlen (s_text w))) l in
      let l := if 0 <? s_underline w then press_leaf x (y + 3 + h * base_line (s_font w) / 1000000) (d_w d) 1 (fun _ _ => s_text_color w) l else l in
      let l := if 0 <? s_strikethrough w then press_leaf x (y + h * 2 / 5) (d_w d) (s_strikethrough w) (fun _ _ => s_text_color w) l else l in
      if s_upside_down w then upside_down_leaf x y (d_w d) (d_h d) l else l
  end.
Definition sketch_leaf (fo : fonts) (call : context * event) (l : leaf) : leaf :=
  match snd call with
  | EGraphics rects => fold_left (fun l r => press_leaf (r_x r) (r_y r) (r_w r) (r_h r) (fun _ _ => t_color (c_text (fst call))) l) rects l
  | EImage i => let l := press_leaf (i_x i) (i_y i) (i_w i) (i_h i) (block (i_pixels i) (i_w i)) l in
                if i_upside_down i then upside_down_leaf (i_x i) (i_y i) (i_w i) (i_h i) l else l
  | EText spans off mh _ => fold_left (fun l w => word_leaf fo off mh w l) spans l
  | _ => l
  end.

(** The sheet and the page.  A printed page covers what was there. *)
Record stage := mk_stage { sg_sheet : picture; sg_leaf : leaf }.
Definition paste (x y : Z) (l : leaf) (p : picture) : picture := fun X Y =>
  if covers x y (lf_w l) (lf_h l) X Y then lf_pic l (X - x) (Y - y) else p X Y.
Definition stage_call (fo : fonts) (call : context * event) (s : stage) : stage :=
  let x := fst call in
  match snd call with
  | EPageBegin => mk_stage (sg_sheet s) blank_leaf
  | EPageAreaChanged r w h => mk_stage (sg_sheet s) (enlarge_leaf w h (turn_leaf r (sg_leaf s)))
  | ERenderPage =>
      let a := g_render_area (c_graphics x) in
      let l := upright x (sg_leaf s) in
      mk_stage (paste (a_x a) (a_y a) l (sg_sheet s)) (put_back x l)
  | _ => if p_enabled (c_page x) then mk_stage (sg_sheet s) (sketch_leaf fo call (sg_leaf s))
         else mk_stage (sketch fo 609 call (sg_sheet s)) (sg_leaf s)
  end.
Definition stage_calls (fo : fonts) (calls : list (context * event)) : stage :=
  fold_left (fun s c => stage_call fo c s) calls (mk_stage (fun _ _ => paper_white) blank_leaf).
