(** * ImageRenderer: thermal_renderer/src/image_renderer/mod.rs and the text part of thermal_image.rs.

    The image renderer as an interpreter of the calls [Renderer] makes (Renderer.v records each call
    with the context it is given; no method of ImageRenderer changes the context).  The debug profile
    is the default one: no borders, no base lines. *)
From Verif Require Import Base Vec Float32 GTypes Graphics Context Handlers Renderer ThermalImage.
Local Open Scope Z_scope.
Local Open Scope list_scope.

(** ** Text *)

(** What the font library (the external crate fontdue and the bundled fonts) says about a character:
    its bitmap of coverages row by row, and the offsets computed from its metrics
    (thermal_image.rs:238-252).  [None]: a control character. *)
Record glyph := mk_glyph { gl_width : Z; gl_alpha : list Z; gl_x : Z; gl_y : Z }.
(** bold, italic, font, scale, character.  The fonts are not in the model: every theorem quantifies
    over them.  The library is assumed not to panic. *)
Definition fonts := bool -> bool -> font -> Z -> Z -> option glyph.

(** thermal_image.rs:254-266: [chunks(metrics.width)] visits the coverages in storage order *)
Definition draw_glyph (g : glyph) (color : rgba) (rw rh : Z) (bytes : list rgba) : res (list rgba) :=
  for_range (vlen (gl_alpha g)) (fun k acc =>
    let tx := Z.min u32_max (k mod gl_width g + gl_x g) in
    let ty := Z.min u32_max (k / gl_width g + gl_y g) in
    if (tx <? rw) && (ty <? rh) then
      do r <- mul_u32 ty rw;
      do idx <- add_u32 r tx;
      do old <- vget acc idx;
      vset acc idx (blend_with_alpha old color (at_ 0 (gl_alpha g) k))
    else Ok acc) bytes.

(** thermal_image.rs:378-413 *)
Definition scale_bitmap (bitmap : list rgba) (width height sw sh : Z) : res (list rgba) :=
  do n <- mul_u32 sw sh;
  let x_ratio := f32_div (f32_of width) (f32_of sw) in
  let y_ratio := f32_div (f32_of height) (f32_of sh) in
  for_range sh (fun sy acc => for_range sw (fun sx acc =>
    let src_x := f32_trunc (f32_mul (f32_of sx) x_ratio) in
    let src_y := f32_trunc (f32_mul (f32_of sy) y_ratio) in
    do r <- mul_u32 src_y width;
    do src <- add_u32 r src_x;
    do r <- mul_u32 sy sw;
    do dst <- add_u32 r sx;
    if (src <? vlen bitmap) && (dst <? vlen acc) then
      do p <- vget bitmap src; vset acc dst p
    else Ok acc) acc) (repeat rgba_blank (Z.to_nat n)).

(** thermal_image.rs:214-283.  [None] for a control character. *)
Definition render_char (fo : fonts) (s : text_span) (ch : Z) : res (option (list rgba * Z * Z)) :=
  do w_scale <- div_u (s_character_width s) (s_base_character_width s);
  do h_scale <- div_u (s_character_height s) (s_base_character_height s);
  let scale := Z.max h_scale w_scale in
  do rw <- mul_u32 (s_base_character_width s) scale;
  do rh <- mul_u32 (s_base_character_height s) scale;
  match fo (s_bold s) (s_italic s) (s_font s) scale ch with
  | None => Ok None
  | Some g =>
      let blank := repeat (s_background_color s) (Z.to_nat (rw * rh)) in
      do bytes <- (if 0 <? gl_width g then draw_glyph g (s_text_color s) rw rh blank else Ok blank);
      if 1 <? scale then
        do b <- scale_bitmap bytes rw rh (s_character_width s) (s_character_height s);
        Ok (Some (b, s_character_width s, s_character_height s))
      else Ok (Some (bytes, s_character_width s, s_character_height s))
  end.

(** thermal_image.rs:11-12, 97, 115-128: the base line as a fraction of the character height *)
Definition font_size : f32 := f32_mul (f32_of 12) (f32_round 168 100).
Definition baseline_of (f : font) : f32 :=
  let ratio := f32_round 315 10000 in
  match f with
  | FontB => f32_mul (f32_mul font_size (f32_round 8 10)) ratio
  | FontC => f32_mul (f32_mul font_size (f32_round 5 10)) ratio
  | _ => f32_mul font_size ratio
  end.

(** thermal_image.rs:293-302: how far a span is lowered in a line with higher characters *)
Definition lowered (max_height : Z) (s : text_span) : res Z :=
  do y <- sub_u32 max_height (s_character_height s);
  let b := baseline_of (s_font s) in
  Ok (if 0 <? y then f32_trunc (f32_sub (f32_mul (f32_of max_height) b) (f32_mul (f32_of (s_character_height s)) b))
      else y).

(** thermal_image.rs:304-341: one character; [continue] skips the advance *)
Definition span_char (fo : fonts) (s : text_span) (top : res Z) (ch : Z) (st : Z * canvas) : res (Z * canvas) :=
  let '(cur_x, c) := st in
  do bm <- render_char fo s ch;
  match bm with
  | Some (px, w, h) =>
      if (w =? 0) || (h =? 0) then Ok (cur_x, c)
      else do y <- top;
           do c <- put_pixels cur_x y w h px true c;
           do x <- add_u32 cur_x (s_character_width s); Ok (x, c)
  | None => do x <- add_u32 cur_x (s_character_width s); Ok (x, c)
  end.

(** thermal_image.rs:285-376.  [top] is [dimensions.y + y_offset], evaluated where it is used. *)
Definition render_span (fo : fonts) (x_offset max_height : Z) (s : text_span) (c : canvas) : res canvas :=
  match s_dimensions s with
  | None => Ok c
  | Some d =>
      let b := baseline_of (s_font s) in
      do x <- add_u32 (d_x d) x_offset;
      do low <- lowered max_height s;
      let top := add_u32 (d_y d) low in
      do (_, c) <- fold_res (span_char fo s top) (s_text s) (x, c);
      do c <- (if 0 <? s_underline s then
                 do y <- top; do y <- add_u32 y 3;
                 do y <- add_u32 y (f32_trunc (f32_mul (f32_of (s_character_height s)) b));
                 draw_rect x y (d_w d) 1 (s_text_color s) true c
               else Ok c);
      do c <- (if 0 <? s_strikethrough s then
                 do y <- top;
                 do y <- add_u32 y (f32_trunc (f32_div (f32_of (s_character_height s)) (f32_round 25 10)));
                 draw_rect x y (d_w d) (s_strikethrough s) (s_text_color s) true c
               else Ok c);
      if s_upside_down s then do y <- top; flip_pixels x y (d_w d) (d_h d) c else Ok c
  end.

(** ** The renderer *)

(** image_renderer/mod.rs:56-60 *)
Record receipt_image := mk_receipt { r_width : Z; r_height : Z; r_bytes : list Z }.

(** image_renderer/mod.rs:28-32; with what was returned so far: the finished images and the error
    texts handed to [Renderer] *)
Record istate := mk_istate {
  im_paper : canvas;
  im_page : canvas;
  im_out : list receipt_image;
  im_reported : list canvas_error }.
Definition with_paper c s := mk_istate c (im_page s) (im_out s) (im_reported s).
Definition with_page c s := mk_istate (im_paper s) c (im_out s) (im_reported s).
Definition on_paper (f : canvas -> res canvas) (s : istate) : res istate := do c <- f (im_paper s); Ok (with_paper c s).
Definition on_page (f : canvas -> res canvas) (s : istate) : res istate := do c <- f (im_page s); Ok (with_page c s).

(** image_renderer/mod.rs:34-41 *)
Definition image_new : istate := mk_istate (canvas_new 0) (canvas_new 0) [] [].

Definition rotate (r : rotation) (c : canvas) : res canvas :=
  match r with R90 => rotate_90 c | R180 => rotate_180 c | R270 => rotate_270 c | R0 => Ok c end.

(** page_area_changed, image_renderer/mod.rs:93-117 *)
Definition page_area_changed (r : rotation) (w h : Z) (c : canvas) : res canvas :=
  do c <- rotate r c;
  do c <- (if cv_width c <? w then expand_to_width w c else Ok c);
  if get_canvas_height c <? h then expand_to_height h c else Ok c.

(** render_page, image_renderer/mod.rs:119-174 *)
Definition render_page (x : context) (s : istate) : res istate :=
  let d := p_direction (c_page x) in
  do turned <- rotate (calculate_directional_rotation d TopLeft2Right) (im_page s);
  let '(w, h, pixels) := copy turned in
  do back <- rotate (calculate_directional_rotation TopLeft2Right d) turned;
  let a := g_render_area (c_graphics x) in
  on_paper (put_pixels (a_x a) (a_y a) w h pixels false) (with_page back s).

(** The canvas a drawing call goes to: image_renderer/mod.rs:177, 193, 208-212 *)
Definition on_canvas (x : context) (f : canvas -> res canvas) (s : istate) : res istate :=
  if p_enabled (c_page x) then on_page f s else on_paper f s.

(** put_rect, thermal_image.rs:452-461 *)
Definition put_rect (color : rgba) (r : rectangle) (c : canvas) : res canvas :=
  draw_rect (r_x r) (r_y r) (r_w r) (r_h r) color true c.

(** end_render, image_renderer/mod.rs:234-252 *)
Definition end_render (x : context) (s : istate) : res istate :=
  do c <- expand_to_width (a_w (g_paper_area (c_graphics x))) (im_paper s);
  do c <- expand_to_height (a_y (g_render_area (c_graphics x))) c;
  do (out, c) <- consume_rgb_u8 c;
  let '(w, h, b) := out in
  Ok (mk_istate c (im_page s) (im_out s ++ [mk_receipt w h b]) (im_reported s)).

(** begin_render, image_renderer/mod.rs:67-87 *)
Definition begin_render (x : context) (s : istate) : istate :=
  let color := rc_paper_color (g_render_colors (c_graphics x)) in
  with_page (set_cv_auto_grow false (set_width 0 (set_cv_paper_color color (im_page s))))
    (with_paper (set_width (a_w (g_render_area (c_graphics x))) (empty (set_cv_paper_color color (im_paper s)))) s).

(** One call.  [device_command] and [page_end] are the trait's empty defaults (renderer.rs:591-643). *)
Definition image_event (fo : fonts) (x : context) (ev : event) (s : istate) : res istate :=
  match ev with
  | EDevice _ | EPageEnd => Ok s
  | EBeginRender => Ok (begin_render x s)
  | EPageBegin => Ok (with_page (set_width 0 (im_page s)) s)
  | EPageAreaChanged r w h => on_page (page_area_changed r w h) s
  | ERenderPage => render_page x s
  | EGraphics rects => on_canvas x (fold_res (put_rect (t_color (c_text x))) rects) s
  | EImage i => on_canvas x (put_render_img i) s
  | EText spans x_offset max_height _ => on_canvas x (fold_res (render_span fo x_offset max_height) spans) s
  | EGetErrors => (* image_renderer/mod.rs:218-232 *)
      Ok (mk_istate (im_paper s) (im_page s) (im_out s)
            (im_reported s ++ cv_errors (im_paper s) ++ cv_errors (im_page s)))
  | EEndRender => end_render x s
  end.
Definition image_calls (fo : fonts) (l : list (context * event)) (s : istate) : res istate :=
  fold_res (fun call => image_event fo (fst call) (snd call)) l s.

(** ImageRenderer::render, image_renderer/mod.rs:43-53: the images and errors of one job *)
Definition render_images (fo : fonts) (e : encoders) (bytes : list Z) : res istate :=
  do s <- render e bytes renderer_new;
  image_calls fo (rs_calls s) image_new.
