(** * HtmlRenderer: thermal_renderer/src/html_renderer/mod.rs and thermal_html.rs.

    The HTML renderer as an interpreter of the calls [Renderer] makes (compare ImageRenderer.v).
    The debug profile is the default one. *)
From Verif Require Import Base Vec Float32 GTypes Graphics Context Handlers Renderer ThermalImage ImageRenderer ThermalFile HtmlTemplate.
Local Open Scope Z_scope.
Local Open Scope list_scope.

(** ** Strings *)

(** [format!("{}", n)] of a u32 *)
Fixpoint digits (fuel : nat) (n : Z) : list Z :=
  match fuel with
  | O => []
  | S f => (if n <? 10 then [] else digits f (n / 10)) ++ [48 + n mod 10]
  end.
Definition dec_u32 (n : Z) : list Z := digits 10 n.
(** [str::replace] (Rust library): non-overlapping matches from the left *)
Fixpoint replace_from (fuel : nat) (pat rep l : list Z) : list Z :=
  match fuel, l with
  | O, _ => l
  | S f, [] => []
  | S f, c :: r => if starts_with pat l then rep ++ replace_from f pat rep (skipn (length pat) l)
                   else c :: replace_from f pat rep r
  end.
Definition replace_str (pat rep l : list Z) : list Z := replace_from (length l) pat rep l.
(** [Vec<String>::join] *)
Fixpoint join (sep : list Z) (l : list (list Z)) : list Z :=
  match l with [] => [] | [x] => x | x :: r => x ++ sep ++ join sep r end.

(** graphics.rs:28-30 *)
Definition as_hex (c : rgba) : list Z := 35 :: hex2 (c_r c) ++ hex2 (c_g c) ++ hex2 (c_b c) ++ hex2 (c_a c).
(** graphics.rs:142-153 *)
Definition as_rgba_u8 (i : image) : list Z := flat_map (fun p => [c_r p; c_g p; c_b p; c_a p]) (i_pixels i).
(** graphics.rs: impl PartialEq for RGBA *)
Definition rgba_eqb (a b : rgba) : bool := (c_r a =? c_r b) && (c_g a =? c_g b) && (c_b a =? c_b b) && (c_a a =? c_a b).

(** ** Rows *)

(** The external crates png and base64: the text of an RGBA image of the given width and height.
    [None]: the encoder refuses, and [expect] panics (thermal_html.rs:17-22). *)
Definition pngs := Z -> Z -> list Z -> option (list Z).

(** html_renderer/mod.rs:43-57 *)
Record html_row := mk_row { row_y : Z; row_height : Z; row_content : list Z }.
Definition empty_row : html_row := mk_row 0 0 [].

(** thermal_html.rs:9-33 *)
Definition encode_html_image (pn : pngs) (i : image) : res html_row :=
  match pn (i_w i) (i_h i) (as_rgba_u8 i) with
  | None => Panic PUnwrap
  | Some data =>
      Ok (mk_row (i_y i) (i_h i)
            (str "<img style='left: " ++ dec_u32 (i_x i) ++ str "px;' class='img' width='" ++ dec_u32 (i_w i)
             ++ str "' src='data:image/png;base64, " ++ data ++ str "' />"))
  end.

(** thermal_html.rs:46-53 *)
Definition least_x (l : list rectangle) : Z := fold_left (fun m r => Z.min m (r_x r)) l u32_max.
Definition least_y (l : list rectangle) : Z := fold_left (fun m r => Z.min m (r_y r)) l u32_max.
(** thermal_html.rs:55-69: one rectangle *)
Definition svg_rect (r : rectangle) (x y : Z) : list Z :=
  str "<rect width='" ++ dec_u32 (r_w r) ++ str "' height='" ++ dec_u32 (r_h r) ++ str "' x='" ++ dec_u32 x ++ str "' y='" ++ dec_u32 y ++
  str "' fill='black' />".
Definition svg_step (min_x min_y : Z) (r : rectangle) (st : Z * Z * list (list Z)) : res (Z * Z * list (list Z)) :=
  let '(width, height, svg) := st in
  let x := sat_sub (r_x r) min_x in
  let y := sat_sub (r_y r) min_y in
  do xe <- add_u32 x (r_w r);
  do ye <- add_u32 y (r_h r);
  Ok (Z.max width xe, Z.max height ye, svg ++ [svg_rect r x y]).
(** thermal_html.rs:35-82 *)
Definition graphics_to_svg (l : list rectangle) : res html_row :=
  match l with
  | [] => Ok empty_row
  | _ =>
      let min_x := least_x l in
      let min_y := least_y l in
      do (width, height, svg) <- fold_res (svg_step min_x min_y) l (0, 0, []);
      Ok (mk_row min_y height
            (str "<svg style='left: " ++ dec_u32 min_x ++ str "px;' class='gfx' width='" ++ dec_u32 width ++ str "' height='" ++ dec_u32 height
             ++ str "'>" ++ join [10] svg ++ str "</svg>"))
  end.

(** thermal_html.rs:226-243 *)
Definition color_to_class (c : rgba) (colors : render_colors) (fg : bool) : list Z :=
  if rgba_eqb c (rc_color_1 colors) then (if fg then [] else str "bg_1")
  else if rgba_eqb c (rc_color_2 colors) then (if fg then str "fg_2" else str "bg_2")
  else if rgba_eqb c (rc_color_3 colors) then (if fg then str "fg_3" else str "bg_3")
  else (if fg then str "fg_0" else []).

(** thermal_html.rs:114-115, 155-164, 170-179 *)
Definition stretch_class (letter : Z) (n : Z) : list Z :=
  if (2 <=? n) && (n <=? 8) then [letter; 48 + n] else [].
(** a class pushed only when it is not the empty string *)
Definition opt_class (c : list Z) : list (list Z) := match c with [] => [] | _ => [c] end.
Definition if_class (b : bool) (c : string) : list (list Z) := if b then [str c] else [].
(** thermal_html.rs:131-213: the class list *)
Definition span_classes (s : text_span) (colors : render_colors) : list (list Z) :=
  let str_w := stretch_class 119 (s_stretch_width s) in
  let str_h := stretch_class 104 (s_stretch_height s) in
  if_class (s_bold s) "b" ++ if_class (s_italic s) "i" ++
  if_class (0 <? s_strikethrough s) "s" ++ if_class (1 <? s_strikethrough s) "sd" ++
  opt_class str_w ++ opt_class str_h ++
  match opt_class str_w ++ opt_class str_h with [] => [] | _ => [str "str"] end ++
  if_class (0 <? s_underline s) "u" ++ if_class (1 <? s_underline s) "ud" ++
  if_class (s_upside_down s) "upd" ++
  match s_font s with FontB => [str "fb"] | FontC => [str "fc"] | _ => [] end ++
  opt_class (color_to_class (s_text_color s) colors true) ++
  opt_class (color_to_class (s_background_color s) colors false).

(** thermal_html.rs:117-224 *)
Definition span_to_html (colors : render_colors) (x_offset max_height : Z) (s : text_span) : res (Z * list Z) :=
  let ratio := f32_round 78 100 in
  let low := f32_trunc (f32_sub (f32_mul (f32_of max_height) ratio) (f32_mul (f32_of (s_character_height s)) ratio)) in
  let '(x, y) := match s_dimensions s with None => (0, 0) | Some d => (d_x d, d_y d) end in
  do left_px <- add_u32 x_offset x;
  Ok (y, str "<span style='left: " ++ dec_u32 left_px ++ str "px; top: " ++ dec_u32 low ++ str "px' class='" ++
         join [32] (span_classes s colors) ++ str "'>" ++ s_text s ++ str "</span>").

(** thermal_html.rs:85-112 *)
Definition spans_step (colors : render_colors) (x_offset max_height : Z) (s : text_span) (st : Z * Z * list (list Z)) : res (Z * Z * list (list Z)) :=
  let '(height, min_y, html) := st in
  do (y, content) <- span_to_html colors x_offset max_height s;
  Ok (Z.max height (s_character_height s), Z.min min_y y, html ++ [content]).
Definition spans_to_html (colors : render_colors) (spans : list text_span) (x_offset max_height : Z) : res html_row :=
  match spans with
  | [] => Ok empty_row
  | _ =>
      do (height, min_y, html) <- fold_res (spans_step colors x_offset max_height) spans (0, u32_max, []);
      Ok (mk_row min_y height (join [10] html))
  end.

(** ** The renderer *)

(** html_renderer/mod.rs:35-41; with the finished documents *)
Record hstate := mk_hstate { h_last_y : Z; h_content : list (list Z); h_page : canvas; h_out : list (list Z) }.
(** html_renderer/mod.rs:60-68 *)
Definition html_new : hstate := mk_hstate 0 [] (canvas_new 0) [].

(** html_renderer/mod.rs:83-91 *)
Definition paragraph (height margin : Z) (content : list Z) : list Z :=
  str "<p style='height: " ++ dec_u32 height ++ str "px; margin-top: " ++ dec_u32 margin ++ str "px'>" ++ content ++ str "</p>".
Definition push_row (r : html_row) (s : hstate) : res hstate :=
  do y <- add_u32 (row_y r) (row_height r);
  Ok (mk_hstate y (h_content s ++ [paragraph (row_height r) (sat_sub (row_y r) (h_last_y s)) (row_content r)]) (h_page s) (h_out s)).

Definition with_hpage (c : canvas) (s : hstate) := mk_hstate (h_last_y s) (h_content s) c (h_out s).
Definition on_hpage (f : canvas -> res canvas) (s : hstate) : res hstate := do c <- f (h_page s); Ok (with_hpage c s).

(** html_renderer/mod.rs:99-123 *)
Definition html_begin (x : context) (s : hstate) : res hstate :=
  let page := set_cv_auto_grow false (set_width 0 (set_cv_paper_color (rc_paper_color (g_render_colors (c_graphics x))) (h_page s))) in
  push_row (mk_row 0 (get_y x) []) (mk_hstate (get_y x) [] page (h_out s)).

(** html_renderer/mod.rs:154-199 *)
Definition html_page (pn : pngs) (x : context) (s : hstate) : res hstate :=
  let d := p_direction (c_page x) in
  do turned <- rotate (calculate_directional_rotation d TopLeft2Right) (h_page s);
  let '(w, h, pixels) := copy turned in
  do back <- rotate (calculate_directional_rotation TopLeft2Right d) turned;
  let a := g_render_area (c_graphics x) in
  do r <- encode_html_image pn (mk_image pixels (a_x a) (a_y a) w h FlowBlock false);
  push_row r (with_hpage back s).

(** html_renderer/mod.rs:241-275 *)
Definition receipt_style (x : context) (padding : Z) : list Z :=
  let a := g_paper_area (c_graphics x) in
  str "width: " ++ dec_u32 (a_w a) ++ str "px; padding-left: " ++ dec_u32 (a_x a) ++ str "px; padding-right: " ++ dec_u32 (a_y a) ++
  str "px; padding-bottom: " ++ dec_u32 padding ++ str "px;".
Definition document (x : context) (content : list (list Z)) (padding : Z) : list Z :=
  let colors := g_render_colors (c_graphics x) in
  replace_str (str "{{receipt-style}}") (receipt_style x padding)
    (replace_str (str "{{content}}") (concat content)
      (replace_str (str "{{color-3}}") (as_hex (rc_color_3 colors))
        (replace_str (str "{{color-2}}") (as_hex (rc_color_2 colors))
          (replace_str (str "{{color-1}}") (as_hex (rc_color_1 colors))
            (replace_str (str "{{color-0}}") (as_hex (rc_paper_color colors)) TEMPLATE))))).
Definition html_end (x : context) (s : hstate) : hstate :=
  mk_hstate (h_last_y s) (h_content s) (h_page s) (h_out s ++ [document x (h_content s) (sat_sub (get_y x) (h_last_y s))]).

(** One call.  [device_command], [page_end] and [get_render_errors] are the trait's defaults
    (renderer.rs:591-643); the drawing calls are html_renderer/mod.rs:201-239, page_begin and
    page_area_changed 125-152 (the code of the latter is that of the image renderer). *)
Definition html_event (fo : fonts) (pn : pngs) (x : context) (ev : event) (s : hstate) : res hstate :=
  match ev with
  | EDevice _ | EPageEnd | EGetErrors => Ok s
  | EBeginRender => html_begin x s
  | EPageBegin => Ok (with_hpage (set_width 0 (h_page s)) s)
  | EPageAreaChanged r w h => on_hpage (page_area_changed r w h) s
  | ERenderPage => html_page pn x s
  | EGraphics rects =>
      if p_enabled (c_page x) then on_hpage (fold_res (put_rect (t_color (c_text x))) rects) s
      else do r <- graphics_to_svg rects; push_row r s
  | EImage i =>
      if p_enabled (c_page x) then on_hpage (put_render_img i) s
      else do r <- encode_html_image pn i; push_row r s
  | EText spans x_offset max_height _ =>
      if p_enabled (c_page x) then on_hpage (fold_res (render_span fo x_offset max_height) spans) s
      else do r <- spans_to_html (g_render_colors (c_graphics x)) spans x_offset max_height; push_row r s
  | EEndRender => Ok (html_end x s)
  end.
Definition html_calls (fo : fonts) (pn : pngs) (l : list (context * event)) (s : hstate) : res hstate :=
  fold_res (fun call => html_event fo pn (fst call) (snd call)) l s.

(** HtmlRenderer::render, html_renderer/mod.rs:71-81: the documents of one job *)
Definition render_html (fo : fonts) (pn : pngs) (e : encoders) (bytes : list Z) : res (list (list Z)) :=
  do s <- render e bytes renderer_new;
  do h <- html_calls fo pn (rs_calls s) html_new;
  Ok (h_out h).
