(** * Context: thermal_parser/src/context.rs (settings, cursor, page-mode geometry). *)
From Verif Require Import Base Vec Float32 GTypes Decoder.
Local Open Scope Z_scope.


(** ** Access paths ([self.text.f = v] etc.) *)
Definition c_text (c : context) := x_text (ctx_now c).
Definition c_barcode (c : context) := x_barcode (ctx_now c).
Definition c_code2d (c : context) := x_code2d (ctx_now c).
Definition c_graphics (c : context) := x_graphics (ctx_now c).
Definition c_page (c : context) := x_page_mode (ctx_now c).
Definition upd_now (f : settings -> settings) (c : context) : context := set_ctx_now (f (ctx_now c)) c.
Definition upd_text (f : text_ctx -> text_ctx) : context -> context :=
  upd_now (fun s => set_x_text (f (x_text s)) s).
Definition upd_barcode (f : barcode_ctx -> barcode_ctx) : context -> context :=
  upd_now (fun s => set_x_barcode (f (x_barcode s)) s).
Definition upd_code2d (f : code2d_ctx -> code2d_ctx) : context -> context :=
  upd_now (fun s => set_x_code2d (f (x_code2d s)) s).
Definition upd_graphics (f : graphics_ctx -> graphics_ctx) : context -> context :=
  upd_now (fun s => set_x_graphics (f (x_graphics s)) s).
Definition upd_page (f : page_ctx -> page_ctx) : context -> context :=
  upd_now (fun s => set_x_page_mode (f (x_page_mode s)) s).
(** [self.graphics.render_area.x = v] and friends *)
Definition upd_gra (f : area -> area) : context -> context :=
  upd_graphics (fun g => set_g_render_area (f (g_render_area g)) g).
Definition upd_pra (f : area -> area) (p : page_ctx) : page_ctx := set_p_render_area (f (p_render_area p)) p.
Definition upd_ppa (f : area -> area) (p : page_ctx) : page_ctx := set_p_page_area (f (p_page_area p)) p.

(** [x as i32] of a u32 (bit reinterpretation), checked i32 addition *)
Definition as_i32 (x : Z) : Z := if x <? 2147483648 then x else x - 4294967296.
Definition add_i32 a b := chk (-2147483648) 2147483647 (a + b).
(** [f as u32] of a non-negative f32: truncation (saturation does not arise) *)
Definition f32_trunc (a : f32) : Z := fst a / snd a.
(** unsigned / i16 [saturating_div]: panics on zero.  i16::MIN / -1 cannot occur, the divisor is a
    non-negative u8 *)
Definition div_u (a b : Z) : res Z := if b =? 0 then Panic PDivZero else Ok (a / b).
Definition div_i16 (a b : Z) : res Z := if b =? 0 then Panic PDivZero else Ok (Z.quot a b).

(** ** Fonts *)
(** context.rs:41-52 *)
Definition font_from_raw (b : Z) : font :=
  match b with
  | 0 | 48 => FontA
  | 1 | 49 => FontB
  | 2 | 50 => FontC
  | 3 | 51 => FontD
  | 4 | 52 => FontE
  | 97 => FontSpecialA
  | 98 => FontSpecialB
  | _ => FontA
  end.
(** context.rs:55-61 *)
Definition font_to_size (f : font) : Z * Z := match f with FontA => (12, 24) | _ => (9, 17) end.

(** ** Page mode geometry *)

(** context.rs:345-350 *)
Definition should_dimension_swap (d : direction) : bool :=
  match d with TopLeft2Right | BottomRight2Left => false | _ => true end.

(** context.rs:352-361 *)
Definition translate_top_left_to_right (p : page_ctx) : res page_ctx :=
  let l := p_logical_area p in
  Ok (set_p_render_area (mk_area (a_x l) (a_y l) (a_w l) (a_h l)) p).

(** context.rs:363-373 *)
Definition translate_bottom_right_to_left (p : page_ctx) : res page_ctx :=
  let l := p_logical_area p in
  do far <- add_u32 (a_x l) (a_w l);
  Ok (set_p_render_area (mk_area (sat_sub (a_w (p_page_area p)) far) (a_y l) (a_w l) (a_h l)) p).

(** context.rs:375-385 *)
Definition translate_top_right_to_bottom (p : page_ctx) : res page_ctx :=
  let l := p_logical_area p in
  do fy <- add_u32 (a_y l) (a_h l);
  do fx <- add_u32 (a_x l) (a_w l);
  Ok (set_p_render_area (mk_area (sat_sub (a_w (p_page_area p)) fy) (sat_sub (a_h (p_page_area p)) fx) (a_h l) (a_w l)) p).

(** context.rs:387-396 *)
Definition translate_bottom_left_to_top (p : page_ctx) : res page_ctx :=
  let l := p_logical_area p in
  do fy <- add_u32 (a_y l) (a_h l);
  Ok (set_p_render_area (mk_area (sat_sub (a_w (p_page_area p)) fy) (a_x l) (a_h l) (a_w l)) p).

(** context.rs:403-415 *)
Definition direction_number (d : direction) : Z :=
  match d with TopRight2Bottom => 3 | BottomRight2Left => 2 | BottomLeft2Top => 1 | TopLeft2Right => 0 end.

(** context.rs:398-427 *)
Definition calculate_directional_rotation (from to : direction) : rotation :=
  match (direction_number to - direction_number from) mod 4 with
  | 1 => R90
  | 2 => R180
  | 3 => R270
  | _ => R0
  end.

(** context.rs:253-283 *)
Definition apply_logical_area (p : page_ctx) : res (rotation * Z * Z * page_ctx) :=
  let rot := calculate_directional_rotation (p_previous_direction p) (p_direction p) in
  let previously_swapped := should_dimension_swap (p_previous_direction p) in
  let should_swap := should_dimension_swap (p_direction p) in
  let p := if (negb previously_swapped && should_swap) || (negb should_swap && previously_swapped)
           then upd_ppa (fun a => set_a_w (a_h a) (set_a_h (a_w a) a)) p else p in
  do p <- match p_direction p with
          | TopLeft2Right => translate_top_left_to_right p
          | BottomRight2Left => translate_bottom_right_to_left p
          | TopRight2Bottom => translate_top_right_to_bottom p
          | BottomLeft2Top => translate_bottom_left_to_top p
          end;
  let r := p_render_area p in
  let p := upd_ppa (fun a => set_a_y (a_y r) (set_a_x (a_x r) a)) p in
  do rmw <- add_u32 (a_x r) (a_w r);
  do rmh <- add_u32 (a_y r) (a_h r);
  let p := upd_ppa (fun a => set_a_h (Z.max rmh (a_h a)) (set_a_w (Z.max rmw (a_w a)) a)) p in
  Ok (rot, a_w (p_page_area p), a_h (p_page_area p), p).

(** context.rs:287-291 *)
Definition pm_set_x (x : Z) (p : page_ctx) : res page_ctx :=
  do v <- add_u32 (a_x (p_page_area p)) x; Ok (upd_pra (set_a_x v) p).
(** context.rs:293-297 *)
Definition pm_set_y (y : Z) (p : page_ctx) : res page_ctx :=
  do v <- add_u32 (a_y (p_page_area p)) y; Ok (upd_pra (set_a_y v) p).

(** context.rs:300-309 *)
Definition pm_set_x_absolute (x : Z) (p : page_ctx) : res page_ctx :=
  let r := p_render_area p in let pa := p_page_area p in
  match p_direction p with
  | TopLeft2Right => do v <- add_u32 (a_x pa) x; Ok (upd_pra (set_a_x v) p)
  | BottomRight2Left => do v <- add_u32 (a_x pa) (a_w r); Ok (upd_pra (set_a_x (sat_sub v x)) p)
  | TopRight2Bottom => Ok (upd_pra (set_a_y (sat_sub (a_h r) x)) p)
  | BottomLeft2Top => do v <- add_u32 (a_y pa) x; Ok (upd_pra (set_a_y v) p)
  end.

(** context.rs:312-321 *)
Definition pm_set_y_absolute (y : Z) (p : page_ctx) : res page_ctx :=
  let r := p_render_area p in let pa := p_page_area p in
  match p_direction p with
  | TopLeft2Right => do v <- add_u32 (a_y pa) y; Ok (upd_pra (set_a_y v) p)
  | BottomRight2Left => do v <- add_u32 (a_y pa) (sat_sub (a_h r) y); Ok (upd_pra (set_a_y v) p)
  | TopRight2Bottom => do v <- add_u32 (a_x pa) y; Ok (upd_pra (set_a_x v) p)
  | BottomLeft2Top => do v <- add_u32 (a_x pa) (sat_sub (a_w r) y); Ok (upd_pra (set_a_x v) p)
  end.

(** context.rs:323-329 *)
Definition pm_offset_x (x : Z) (p : page_ctx) : res page_ctx :=
  do v <- add_u32 (a_x (p_render_area p)) x; Ok (upd_pra (set_a_x v) p).
Definition pm_offset_y (y : Z) (p : page_ctx) : res page_ctx :=
  do v <- add_u32 (a_y (p_render_area p)) y; Ok (upd_pra (set_a_y v) p).

(** context.rs:331-337 *)
Definition pm_offset_x_relative (x : Z) (p : page_ctx) : res page_ctx :=
  do v <- add_i32 (as_i32 (a_x (p_render_area p))) x; Ok (upd_pra (set_a_x (Z.max v 0)) p).
(** context.rs:339-345 *)
Definition pm_offset_y_relative (y : Z) (p : page_ctx) : res page_ctx :=
  do v <- add_i32 (as_i32 (a_y (p_render_area p))) y; Ok (upd_pra (set_a_y (Z.max v 0)) p).

(** ** Defaults: context.rs:431-565 *)
Definition default_dpi : Z := 203.
(** [(dots_per_inch as f32 * 0.1f32) as u32], [(... * 3.2f32) as u32] *)
Definition paper_margin : Z := f32_trunc (f32_mul (f32_of default_dpi) (f32_round 1 10)).
Definition paper_width : Z := f32_trunc (f32_mul (f32_of default_dpi) (f32_round 32 10)).
Definition render_width : Z := paper_width - (paper_margin + paper_margin).
Definition default_colors : render_colors :=
  mk_render_colors (mk_rgba 255 255 255 255) (mk_rgba 0 0 0 255) (mk_rgba 158 22 22 255) (mk_rgba 27 57 169 255).
Definition default_text : text_ctx :=
  mk_text_ctx 12 24 0 0 (get_codepage 0 0) 10 JLeft FontA false false UnderOff StrikeOff false 1 1 false 24
    (rc_color_1 default_colors) (rc_paper_color default_colors) (rc_color_1 default_colors) false false (repeat 8 32%nat).
Definition default_barcode : barcode_ctx := mk_barcode_ctx HriNone 3 40 FontA.
Definition default_code2d : code2d_ctx :=
  mk_code2d_ctx None QrModel1 QrL 3 0 0 0 0 0 false 0 0 0 0 0 FontA 0 0 0 0 0 0 0 0.
Definition default_graphics : graphics_ctx :=
  mk_graphics_ctx (mk_area 0 (paper_margin * 3) render_width 0) default_colors
    (mk_area paper_margin paper_margin paper_width 0) default_dpi 1 1 0 [] [].
Definition default_page : page_ctx :=
  mk_page_ctx false (mk_area 0 0 0 0) (mk_area 0 0 0 0) (mk_area 0 0 0 0) TopLeft2Right TopLeft2Right.
Definition default_settings : settings :=
  mk_settings default_text default_barcode default_code2d default_graphics default_page.

(** context.rs:574-579 *)
Definition context_new : context := mk_context (Some default_settings) default_settings.

(** context.rs:581-588 *)
Definition reset (c : context) : context :=
  match ctx_default c with
  | Some d => mk_context (ctx_default c)
                (mk_settings (x_text d) (x_barcode d) (x_code2d d) (x_graphics d) (x_page_mode (ctx_now c)))
  | None => c
  end.

(** context.rs:596-599; [points] is an integer-valued f32 here (1.0 or 2.0) *)
Definition points_to_pixels (c : context) (points : Z) : Z :=
  f32_trunc (f32_mul (f32_of points) (f32_div (f32_of (g_dots_per_inch (c_graphics c))) (f32_of 96))).

(** context.rs:601-605 *)
Definition set_tab_len (tab_count at_ : Z) (c : context) : context :=
  if at_ <? vlen (t_tabs (c_text c)) mod 256
  then upd_text (fun t => set_t_tabs (set_nth (t_tabs t) (Z.to_nat at_) tab_count) t) c
  else c.

(** context.rs:627-633, 635-641 *)
Definition get_base_x (c : context) : Z := if p_enabled (c_page c) then a_x (p_page_area (c_page c)) else 0.
Definition get_base_y (c : context) : Z := if p_enabled (c_page c) then a_y (p_page_area (c_page c)) else 0.
(** context.rs:609-615, 617-623 *)
Definition reset_x (c : context) : context :=
  if p_enabled (c_page c) then upd_page (upd_pra (set_a_x (get_base_x c))) c
  else upd_gra (set_a_x (get_base_x c)) c.
Definition reset_y (c : context) : context :=
  if p_enabled (c_page c) then upd_page (upd_pra (set_a_y (get_base_y c))) c
  else upd_gra (set_a_y (get_base_y c)) c.
(** context.rs:643-657 *)
Definition get_x (c : context) : Z :=
  if p_enabled (c_page c) then a_x (p_render_area (c_page c)) else a_x (g_render_area (c_graphics c)).
Definition get_y (c : context) : Z :=
  if p_enabled (c_page c) then a_y (p_render_area (c_page c)) else a_y (g_render_area (c_graphics c)).

(** run a page-mode operation inside the context *)
Definition in_page (f : page_ctx -> res page_ctx) (c : context) : res context :=
  do p <- f (c_page c); Ok (upd_page (fun _ => p) c).

(** context.rs:659-665 *)
Definition offset_x (x : Z) (c : context) : res context :=
  if p_enabled (c_page c) then in_page (pm_offset_x x) c
  else do v <- add_u32 (a_x (g_render_area (c_graphics c))) x; Ok (upd_gra (set_a_x v) c).
(** context.rs:667-673 *)
Definition offset_y (y : Z) (c : context) : res context :=
  if p_enabled (c_page c) then in_page (pm_offset_y y) c
  else do v <- add_u32 (a_y (g_render_area (c_graphics c))) y; Ok (upd_gra (set_a_y v) c).

(** context.rs:676-688 *)
Definition offset_x_relative (x : Z) (c : context) : res context :=
  do adj <- div_i16 x (g_h_motion_unit (c_graphics c));
  if p_enabled (c_page c) then in_page (pm_offset_x_relative adj) c
  else do v <- add_i32 (as_i32 (a_x (g_render_area (c_graphics c)))) adj; Ok (upd_gra (set_a_x (Z.max v 0)) c).
(** context.rs:691-703 *)
Definition offset_y_relative (y : Z) (c : context) : res context :=
  do adj <- div_i16 y (g_v_motion_unit (c_graphics c));
  if p_enabled (c_page c) then in_page (pm_offset_y_relative adj) c
  else do v <- add_i32 (as_i32 (a_y (g_render_area (c_graphics c)))) adj; Ok (upd_gra (set_a_y (Z.max v 0)) c).

(** context.rs:705-708 *)
Definition feed (motion_units : Z) (c : context) : res context :=
  do c <- offset_y motion_units c; Ok (reset_x c).

(** context.rs:710-714 *)
Definition newline (count : Z) (c : context) : res context :=
  let line_height := t_line_spacing (c_text c) in
  let c := reset_x c in
  do n <- mul_u32 line_height count; offset_y n c.

(** context.rs:716-725 *)
Definition newline_for_spans (spans : list text_span) (c : context) : res context :=
  let line_height := fold_left (fun h s => Z.max h (s_character_height s)) spans (t_line_spacing (c_text c)) in
  offset_y line_height (reset_x c).

(** context.rs:727-732 *)
Definition set_font (f : font) (c : context) : context :=
  let size := font_to_size f in
  upd_text (fun t => set_t_character_height (snd size) (set_t_character_width (fst size) (set_t_font f t))) c.

(** context.rs:734-740, 742-748 *)
Definition set_x (x : Z) (c : context) : res context :=
  if p_enabled (c_page c) then in_page (pm_set_x x) c else Ok (upd_gra (set_a_x x) c).
Definition set_y (y : Z) (c : context) : res context :=
  if p_enabled (c_page c) then in_page (pm_set_y y) c else Ok (upd_gra (set_a_y y) c).
(** context.rs:751-758, 761-768 *)
Definition set_x_absolute (x : Z) (c : context) : res context :=
  do adj <- div_u x (g_h_motion_unit (c_graphics c));
  if p_enabled (c_page c) then in_page (pm_set_x_absolute adj) c else Ok (upd_gra (set_a_x adj) c).
Definition set_y_absolute (y : Z) (c : context) : res context :=
  do adj <- div_u y (g_v_motion_unit (c_graphics c));
  if p_enabled (c_page c) then in_page (pm_set_y_absolute adj) c else Ok (upd_gra (set_a_y adj) c).

(** context.rs:770-788 *)
Definition set_page_area (a : area) (c : context) : res context :=
  let h := g_h_motion_unit (c_graphics c) in
  let v := g_v_motion_unit (c_graphics c) in
  do ax <- div_u (a_x a) h;
  do ay <- div_u (a_y a) v;
  do aw <- div_u (a_w a) h;
  do ah <- div_u (a_h a) v;
  Ok (upd_page (set_p_logical_area (mk_area ax ay aw ah)) c).

(** context.rs:790-796 *)
Definition get_width (c : context) : Z :=
  if p_enabled (c_page c) then a_w (p_render_area (c_page c)) else a_w (g_render_area (c_graphics c)).

(** context.rs:798-816 *)
Definition get_available_width (c : context) : Z :=
  if p_enabled (c_page c)
  then sat_sub (a_w (p_render_area (c_page c)))
         (sat_sub (a_x (p_render_area (c_page c))) (a_x (p_page_area (c_page c))))
  else let r := g_render_area (c_graphics c) in
       if a_x r <=? a_w r then sat_sub (a_w r) (a_x r) else 0.

(** context.rs:818-824 *)
Definition get_height (c : context) : Z :=
  if p_enabled (c_page c) then a_h (p_render_area (c_page c)) else a_h (g_render_area (c_graphics c)).

(** context.rs:826-848 *)
Definition calculate_justification (width : Z) (c : context) : Z :=
  let rw := get_width c in
  if rw <? width then 0
  else match t_justify (c_text c) with
       | JCenter => if 0 <? rw - width then (rw - width) / 2 else 0
       | JRight => rw - width
       | JLeft => 0
       end.

(** context.rs:855-864 *)
Definition update_decoder (c : context) : context :=
  let cp := get_codepage (t_code_table (c_text c)) (t_character_set (c_text c)) in
  upd_text (set_t_decoder {| cp_table := cp_table cp; cp_name := cp_name cp; cp_language := cp_language cp;
                             cp_utf8 := t_code_table (c_text c) =? 255 |}) c.
