(** * GTypes: data types of graphics.rs, text.rs and context.rs, with one field setter per field
    (a Rust assignment [s.f = v] is [set_f v s]).  Generated by a script from the Rust structs. *)
From Verif Require Import Base.

(** thermal_parser/src/graphics.rs:4-10 *)
Record rgba := mk_rgba {
  c_r : Z;
  c_g : Z;
  c_b : Z;
  c_a : Z }.
Definition set_c_r (v : Z) (r : rgba) : rgba := mk_rgba v (c_g r) (c_b r) (c_a r).
Definition set_c_g (v : Z) (r : rgba) : rgba := mk_rgba (c_r r) v (c_b r) (c_a r).
Definition set_c_b (v : Z) (r : rgba) : rgba := mk_rgba (c_r r) (c_g r) v (c_a r).
Definition set_c_a (v : Z) (r : rgba) : rgba := mk_rgba (c_r r) (c_g r) (c_b r) v.

(** context.rs:8-13 *)
Inductive text_justify := JLeft | JCenter | JRight.
(** context.rs:15-20 *)
Inductive strikethrough := StrikeOff | StrikeOn | StrikeDouble.
(** context.rs:22-27 *)
Inductive underline := UnderOff | UnderOn | UnderDouble.
(** context.rs:29-38 *)
Inductive font := FontA | FontB | FontC | FontD | FontE | FontSpecialA | FontSpecialB.
(** context.rs:64-70 *)
Inductive hri := HriNone | HriAbove | HriBelow | HriBoth.
(** graphics.rs:121-126 *)
Inductive image_flow := FlowInline | FlowBlock | FlowNone.

(** text.rs:27-33 Dimensions *)
Record dims := mk_dims {
  d_x : Z;
  d_y : Z;
  d_w : Z;
  d_h : Z }.
Definition set_d_x (v : Z) (r : dims) : dims := mk_dims v (d_y r) (d_w r) (d_h r).
Definition set_d_y (v : Z) (r : dims) : dims := mk_dims (d_x r) v (d_w r) (d_h r).
Definition set_d_w (v : Z) (r : dims) : dims := mk_dims (d_x r) (d_y r) v (d_h r).
Definition set_d_h (v : Z) (r : dims) : dims := mk_dims (d_x r) (d_y r) (d_w r) v.

(** A Rust [String]: its Unicode scalar values. *)
Definition ustring := list Z.

(** text.rs:5-25.  [stretch_width]/[stretch_height] are f32 copies of small integers: kept as integers. *)
Record text_span := mk_text_span {
  s_font : font;
  s_character_width : Z;
  s_character_height : Z;
  s_base_character_width : Z;
  s_base_character_height : Z;
  s_text : ustring;
  s_bold : bool;
  s_italic : bool;
  s_underline : Z;
  s_strikethrough : Z;
  s_stretch_width : Z;
  s_stretch_height : Z;
  s_inverted : bool;
  s_upside_down : bool;
  s_justify : text_justify;
  s_dimensions : option dims;
  s_background_color : rgba;
  s_text_color : rgba }.
Definition set_s_font (v : font) (r : text_span) : text_span := mk_text_span v (s_character_width r) (s_character_height r) (s_base_character_width r) (s_base_character_height r) (s_text r) (s_bold r) (s_italic r) (s_underline r) (s_strikethrough r) (s_stretch_width r) (s_stretch_height r) (s_inverted r) (s_upside_down r) (s_justify r) (s_dimensions r) (s_background_color r) (s_text_color r).
Definition set_s_character_width (v : Z) (r : text_span) : text_span := mk_text_span (s_font r) v (s_character_height r) (s_base_character_width r) (s_base_character_height r) (s_text r) (s_bold r) (s_italic r) (s_underline r) (s_strikethrough r) (s_stretch_width r) (s_stretch_height r) (s_inverted r) (s_upside_down r) (s_justify r) (s_dimensions r) (s_background_color r) (s_text_color r).
Definition set_s_character_height (v : Z) (r : text_span) : text_span := mk_text_span (s_font r) (s_character_width r) v (s_base_character_width r) (s_base_character_height r) (s_text r) (s_bold r) (s_italic r) (s_underline r) (s_strikethrough r) (s_stretch_width r) (s_stretch_height r) (s_inverted r) (s_upside_down r) (s_justify r) (s_dimensions r) (s_background_color r) (s_text_color r).
Definition set_s_base_character_width (v : Z) (r : text_span) : text_span := mk_text_span (s_font r) (s_character_width r) (s_character_height r) v (s_base_character_height r) (s_text r) (s_bold r) (s_italic r) (s_underline r) (s_strikethrough r) (s_stretch_width r) (s_stretch_height r) (s_inverted r) (s_upside_down r) (s_justify r) (s_dimensions r) (s_background_color r) (s_text_color r).
Definition set_s_base_character_height (v : Z) (r : text_span) : text_span := mk_text_span (s_font r) (s_character_width r) (s_character_height r) (s_base_character_width r) v (s_text r) (s_bold r) (s_italic r) (s_underline r) (s_strikethrough r) (s_stretch_width r) (s_stretch_height r) (s_inverted r) (s_upside_down r) (s_justify r) (s_dimensions r) (s_background_color r) (s_text_color r).
Definition set_s_text (v : ustring) (r : text_span) : text_span := mk_text_span (s_font r) (s_character_width r) (s_character_height r) (s_base_character_width r) (s_base_character_height r) v (s_bold r) (s_italic r) (s_underline r) (s_strikethrough r) (s_stretch_width r) (s_stretch_height r) (s_inverted r) (s_upside_down r) (s_justify r) (s_dimensions r) (s_background_color r) (s_text_color r).
Definition set_s_bold (v : bool) (r : text_span) : text_span := mk_text_span (s_font r) (s_character_width r) (s_character_height r) (s_base_character_width r) (s_base_character_height r) (s_text r) v (s_italic r) (s_underline r) (s_strikethrough r) (s_stretch_width r) (s_stretch_height r) (s_inverted r) (s_upside_down r) (s_justify r) (s_dimensions r) (s_background_color r) (s_text_color r).
Definition set_s_italic (v : bool) (r : text_span) : text_span := mk_text_span (s_font r) (s_character_width r) (s_character_height r) (s_base_character_width r) (s_base_character_height r) (s_text r) (s_bold r) v (s_underline r) (s_strikethrough r) (s_stretch_width r) (s_stretch_height r) (s_inverted r) (s_upside_down r) (s_justify r) (s_dimensions r) (s_background_color r) (s_text_color r).
Definition set_s_underline (v : Z) (r : text_span) : text_span := mk_text_span (s_font r) (s_character_width r) (s_character_height r) (s_base_character_width r) (s_base_character_height r) (s_text r) (s_bold r) (s_italic r) v (s_strikethrough r) (s_stretch_width r) (s_stretch_height r) (s_inverted r) (s_upside_down r) (s_justify r) (s_dimensions r) (s_background_color r) (s_text_color r).
Definition set_s_strikethrough (v : Z) (r : text_span) : text_span := mk_text_span (s_font r) (s_character_width r) (s_character_height r) (s_base_character_width r) (s_base_character_height r) (s_text r) (s_bold r) (s_italic r) (s_underline r) v (s_stretch_width r) (s_stretch_height r) (s_inverted r) (s_upside_down r) (s_justify r) (s_dimensions r) (s_background_color r) (s_text_color r).
Definition set_s_stretch_width (v : Z) (r : text_span) : text_span := mk_text_span (s_font r) (s_character_width r) (s_character_height r) (s_base_character_width r) (s_base_character_height r) (s_text r) (s_bold r) (s_italic r) (s_underline r) (s_strikethrough r) v (s_stretch_height r) (s_inverted r) (s_upside_down r) (s_justify r) (s_dimensions r) (s_background_color r) (s_text_color r).
Definition set_s_stretch_height (v : Z) (r : text_span) : text_span := mk_text_span (s_font r) (s_character_width r) (s_character_height r) (s_base_character_width r) (s_base_character_height r) (s_text r) (s_bold r) (s_italic r) (s_underline r) (s_strikethrough r) (s_stretch_width r) v (s_inverted r) (s_upside_down r) (s_justify r) (s_dimensions r) (s_background_color r) (s_text_color r).
Definition set_s_inverted (v : bool) (r : text_span) : text_span := mk_text_span (s_font r) (s_character_width r) (s_character_height r) (s_base_character_width r) (s_base_character_height r) (s_text r) (s_bold r) (s_italic r) (s_underline r) (s_strikethrough r) (s_stretch_width r) (s_stretch_height r) v (s_upside_down r) (s_justify r) (s_dimensions r) (s_background_color r) (s_text_color r).
Definition set_s_upside_down (v : bool) (r : text_span) : text_span := mk_text_span (s_font r) (s_character_width r) (s_character_height r) (s_base_character_width r) (s_base_character_height r) (s_text r) (s_bold r) (s_italic r) (s_underline r) (s_strikethrough r) (s_stretch_width r) (s_stretch_height r) (s_inverted r) v (s_justify r) (s_dimensions r) (s_background_color r) (s_text_color r).
Definition set_s_justify (v : text_justify) (r : text_span) : text_span := mk_text_span (s_font r) (s_character_width r) (s_character_height r) (s_base_character_width r) (s_base_character_height r) (s_text r) (s_bold r) (s_italic r) (s_underline r) (s_strikethrough r) (s_stretch_width r) (s_stretch_height r) (s_inverted r) (s_upside_down r) v (s_dimensions r) (s_background_color r) (s_text_color r).
Definition set_s_dimensions (v : option dims) (r : text_span) : text_span := mk_text_span (s_font r) (s_character_width r) (s_character_height r) (s_base_character_width r) (s_base_character_height r) (s_text r) (s_bold r) (s_italic r) (s_underline r) (s_strikethrough r) (s_stretch_width r) (s_stretch_height r) (s_inverted r) (s_upside_down r) (s_justify r) v (s_background_color r) (s_text_color r).
Definition set_s_background_color (v : rgba) (r : text_span) : text_span := mk_text_span (s_font r) (s_character_width r) (s_character_height r) (s_base_character_width r) (s_base_character_height r) (s_text r) (s_bold r) (s_italic r) (s_underline r) (s_strikethrough r) (s_stretch_width r) (s_stretch_height r) (s_inverted r) (s_upside_down r) (s_justify r) (s_dimensions r) v (s_text_color r).
Definition set_s_text_color (v : rgba) (r : text_span) : text_span := mk_text_span (s_font r) (s_character_width r) (s_character_height r) (s_base_character_width r) (s_base_character_height r) (s_text r) (s_bold r) (s_italic r) (s_underline r) (s_strikethrough r) (s_stretch_width r) (s_stretch_height r) (s_inverted r) (s_upside_down r) (s_justify r) (s_dimensions r) (s_background_color r) v.

(** graphics.rs:83-90 Barcode *)
Record barcode_g := mk_barcode_g {
  b_points : list Z;
  b_point_width : Z;
  b_point_height : Z;
  b_hri : hri;
  b_text : text_span }.
Definition set_b_points (v : list Z) (r : barcode_g) : barcode_g := mk_barcode_g v (b_point_width r) (b_point_height r) (b_hri r) (b_text r).
Definition set_b_point_width (v : Z) (r : barcode_g) : barcode_g := mk_barcode_g (b_points r) v (b_point_height r) (b_hri r) (b_text r).
Definition set_b_point_height (v : Z) (r : barcode_g) : barcode_g := mk_barcode_g (b_points r) (b_point_width r) v (b_hri r) (b_text r).
Definition set_b_hri (v : hri) (r : barcode_g) : barcode_g := mk_barcode_g (b_points r) (b_point_width r) (b_point_height r) v (b_text r).
Definition set_b_text (v : text_span) (r : barcode_g) : barcode_g := mk_barcode_g (b_points r) (b_point_width r) (b_point_height r) (b_hri r) v.

(** graphics.rs:97-103 Rectangle *)
Record rectangle := mk_rectangle {
  r_x : Z;
  r_y : Z;
  r_w : Z;
  r_h : Z }.
Definition set_r_x (v : Z) (r : rectangle) : rectangle := mk_rectangle v (r_y r) (r_w r) (r_h r).
Definition set_r_y (v : Z) (r : rectangle) : rectangle := mk_rectangle (r_x r) v (r_w r) (r_h r).
Definition set_r_w (v : Z) (r : rectangle) : rectangle := mk_rectangle (r_x r) (r_y r) v (r_h r).
Definition set_r_h (v : Z) (r : rectangle) : rectangle := mk_rectangle (r_x r) (r_y r) (r_w r) v.

(** graphics.rs:113-119 Code2D (points, width, point_width, point_height) *)
Record code2d_g := mk_code2d_g {
  q_points : list Z;
  q_width : Z;
  q_point_width : Z;
  q_point_height : Z }.
Definition set_q_points (v : list Z) (r : code2d_g) : code2d_g := mk_code2d_g v (q_width r) (q_point_width r) (q_point_height r).
Definition set_q_width (v : Z) (r : code2d_g) : code2d_g := mk_code2d_g (q_points r) v (q_point_width r) (q_point_height r).
Definition set_q_point_width (v : Z) (r : code2d_g) : code2d_g := mk_code2d_g (q_points r) (q_width r) v (q_point_height r).
Definition set_q_point_height (v : Z) (r : code2d_g) : code2d_g := mk_code2d_g (q_points r) (q_width r) (q_point_width r) v.

(** graphics.rs:128-137 Image *)
Record image := mk_image {
  i_pixels : list rgba;
  i_x : Z;
  i_y : Z;
  i_w : Z;
  i_h : Z;
  i_flow : image_flow;
  i_upside_down : bool }.
Definition set_i_pixels (v : list rgba) (r : image) : image := mk_image v (i_x r) (i_y r) (i_w r) (i_h r) (i_flow r) (i_upside_down r).
Definition set_i_x (v : Z) (r : image) : image := mk_image (i_pixels r) v (i_y r) (i_w r) (i_h r) (i_flow r) (i_upside_down r).
Definition set_i_y (v : Z) (r : image) : image := mk_image (i_pixels r) (i_x r) v (i_w r) (i_h r) (i_flow r) (i_upside_down r).
Definition set_i_w (v : Z) (r : image) : image := mk_image (i_pixels r) (i_x r) (i_y r) v (i_h r) (i_flow r) (i_upside_down r).
Definition set_i_h (v : Z) (r : image) : image := mk_image (i_pixels r) (i_x r) (i_y r) (i_w r) v (i_flow r) (i_upside_down r).
Definition set_i_flow (v : image_flow) (r : image) : image := mk_image (i_pixels r) (i_x r) (i_y r) (i_w r) (i_h r) v (i_upside_down r).
Definition set_i_upside_down (v : bool) (r : image) : image := mk_image (i_pixels r) (i_x r) (i_y r) (i_w r) (i_h r) (i_flow r) v.

(** graphics.rs:512-520.  Error messages keep their static text only; [Line] and [Rectangle] are
    never constructed by the library and are left out. *)
Inductive gfx :=
| GError (msg : string)
| GCode2D (c : code2d_g)
| GBarcode (b : barcode_g)
| GImage (i : image).

(** graphics.rs:506-510 *)
Inductive storage := Disc | Ram.
(** graphics.rs:486-491 *)
Record image_ref := { kc1 : Z; kc2 : Z; ref_storage : storage }.

(** decoder/mod.rs:14-21.  A table entry is the decoded string of one byte. *)
Record codepage := {
  cp_table : list ustring;
  cp_name : string;
  cp_language : string;
  cp_utf8 : bool }.

(** context.rs:82-107 TextContext *)
Record text_ctx := mk_text_ctx {
  t_character_width : Z;
  t_character_height : Z;
  t_character_set : Z;
  t_code_table : Z;
  t_decoder : codepage;
  t_font_size : Z;
  t_justify : text_justify;
  t_font : font;
  t_bold : bool;
  t_italic : bool;
  t_underline : underline;
  t_strikethrough : strikethrough;
  t_invert : bool;
  t_width_mult : Z;
  t_height_mult : Z;
  t_upside_down : bool;
  t_line_spacing : Z;
  t_color : rgba;
  t_background_color : rgba;
  t_shadow_color : rgba;
  t_shadow : bool;
  t_smoothing : bool;
  t_tabs : list Z }.
Definition set_t_character_width (v : Z) (r : text_ctx) : text_ctx := mk_text_ctx v (t_character_height r) (t_character_set r) (t_code_table r) (t_decoder r) (t_font_size r) (t_justify r) (t_font r) (t_bold r) (t_italic r) (t_underline r) (t_strikethrough r) (t_invert r) (t_width_mult r) (t_height_mult r) (t_upside_down r) (t_line_spacing r) (t_color r) (t_background_color r) (t_shadow_color r) (t_shadow r) (t_smoothing r) (t_tabs r).
Definition set_t_character_height (v : Z) (r : text_ctx) : text_ctx := mk_text_ctx (t_character_width r) v (t_character_set r) (t_code_table r) (t_decoder r) (t_font_size r) (t_justify r) (t_font r) (t_bold r) (t_italic r) (t_underline r) (t_strikethrough r) (t_invert r) (t_width_mult r) (t_height_mult r) (t_upside_down r) (t_line_spacing r) (t_color r) (t_background_color r) (t_shadow_color r) (t_shadow r) (t_smoothing r) (t_tabs r).
Definition set_t_character_set (v : Z) (r : text_ctx) : text_ctx := mk_text_ctx (t_character_width r) (t_character_height r) v (t_code_table r) (t_decoder r) (t_font_size r) (t_justify r) (t_font r) (t_bold r) (t_italic r) (t_underline r) (t_strikethrough r) (t_invert r) (t_width_mult r) (t_height_mult r) (t_upside_down r) (t_line_spacing r) (t_color r) (t_background_color r) (t_shadow_color r) (t_shadow r) (t_smoothing r) (t_tabs r).
Definition set_t_code_table (v : Z) (r : text_ctx) : text_ctx := mk_text_ctx (t_character_width r) (t_character_height r) (t_character_set r) v (t_decoder r) (t_font_size r) (t_justify r) (t_font r) (t_bold r) (t_italic r) (t_underline r) (t_strikethrough r) (t_invert r) (t_width_mult r) (t_height_mult r) (t_upside_down r) (t_line_spacing r) (t_color r) (t_background_color r) (t_shadow_color r) (t_shadow r) (t_smoothing r) (t_tabs r).
Definition set_t_decoder (v : codepage) (r : text_ctx) : text_ctx := mk_text_ctx (t_character_width r) (t_character_height r) (t_character_set r) (t_code_table r) v (t_font_size r) (t_justify r) (t_font r) (t_bold r) (t_italic r) (t_underline r) (t_strikethrough r) (t_invert r) (t_width_mult r) (t_height_mult r) (t_upside_down r) (t_line_spacing r) (t_color r) (t_background_color r) (t_shadow_color r) (t_shadow r) (t_smoothing r) (t_tabs r).
Definition set_t_font_size (v : Z) (r : text_ctx) : text_ctx := mk_text_ctx (t_character_width r) (t_character_height r) (t_character_set r) (t_code_table r) (t_decoder r) v (t_justify r) (t_font r) (t_bold r) (t_italic r) (t_underline r) (t_strikethrough r) (t_invert r) (t_width_mult r) (t_height_mult r) (t_upside_down r) (t_line_spacing r) (t_color r) (t_background_color r) (t_shadow_color r) (t_shadow r) (t_smoothing r) (t_tabs r).
Definition set_t_justify (v : text_justify) (r : text_ctx) : text_ctx := mk_text_ctx (t_character_width r) (t_character_height r) (t_character_set r) (t_code_table r) (t_decoder r) (t_font_size r) v (t_font r) (t_bold r) (t_italic r) (t_underline r) (t_strikethrough r) (t_invert r) (t_width_mult r) (t_height_mult r) (t_upside_down r) (t_line_spacing r) (t_color r) (t_background_color r) (t_shadow_color r) (t_shadow r) (t_smoothing r) (t_tabs r).
Definition set_t_font (v : font) (r : text_ctx) : text_ctx := mk_text_ctx (t_character_width r) (t_character_height r) (t_character_set r) (t_code_table r) (t_decoder r) (t_font_size r) (t_justify r) v (t_bold r) (t_italic r) (t_underline r) (t_strikethrough r) (t_invert r) (t_width_mult r) (t_height_mult r) (t_upside_down r) (t_line_spacing r) (t_color r) (t_background_color r) (t_shadow_color r) (t_shadow r) (t_smoothing r) (t_tabs r).
Definition set_t_bold (v : bool) (r : text_ctx) : text_ctx := mk_text_ctx (t_character_width r) (t_character_height r) (t_character_set r) (t_code_table r) (t_decoder r) (t_font_size r) (t_justify r) (t_font r) v (t_italic r) (t_underline r) (t_strikethrough r) (t_invert r) (t_width_mult r) (t_height_mult r) (t_upside_down r) (t_line_spacing r) (t_color r) (t_background_color r) (t_shadow_color r) (t_shadow r) (t_smoothing r) (t_tabs r).
Definition set_t_italic (v : bool) (r : text_ctx) : text_ctx := mk_text_ctx (t_character_width r) (t_character_height r) (t_character_set r) (t_code_table r) (t_decoder r) (t_font_size r) (t_justify r) (t_font r) (t_bold r) v (t_underline r) (t_strikethrough r) (t_invert r) (t_width_mult r) (t_height_mult r) (t_upside_down r) (t_line_spacing r) (t_color r) (t_background_color r) (t_shadow_color r) (t_shadow r) (t_smoothing r) (t_tabs r).
Definition set_t_underline (v : underline) (r : text_ctx) : text_ctx := mk_text_ctx (t_character_width r) (t_character_height r) (t_character_set r) (t_code_table r) (t_decoder r) (t_font_size r) (t_justify r) (t_font r) (t_bold r) (t_italic r) v (t_strikethrough r) (t_invert r) (t_width_mult r) (t_height_mult r) (t_upside_down r) (t_line_spacing r) (t_color r) (t_background_color r) (t_shadow_color r) (t_shadow r) (t_smoothing r) (t_tabs r).
Definition set_t_strikethrough (v : strikethrough) (r : text_ctx) : text_ctx := mk_text_ctx (t_character_width r) (t_character_height r) (t_character_set r) (t_code_table r) (t_decoder r) (t_font_size r) (t_justify r) (t_font r) (t_bold r) (t_italic r) (t_underline r) v (t_invert r) (t_width_mult r) (t_height_mult r) (t_upside_down r) (t_line_spacing r) (t_color r) (t_background_color r) (t_shadow_color r) (t_shadow r) (t_smoothing r) (t_tabs r).
Definition set_t_invert (v : bool) (r : text_ctx) : text_ctx := mk_text_ctx (t_character_width r) (t_character_height r) (t_character_set r) (t_code_table r) (t_decoder r) (t_font_size r) (t_justify r) (t_font r) (t_bold r) (t_italic r) (t_underline r) (t_strikethrough r) v (t_width_mult r) (t_height_mult r) (t_upside_down r) (t_line_spacing r) (t_color r) (t_background_color r) (t_shadow_color r) (t_shadow r) (t_smoothing r) (t_tabs r).
Definition set_t_width_mult (v : Z) (r : text_ctx) : text_ctx := mk_text_ctx (t_character_width r) (t_character_height r) (t_character_set r) (t_code_table r) (t_decoder r) (t_font_size r) (t_justify r) (t_font r) (t_bold r) (t_italic r) (t_underline r) (t_strikethrough r) (t_invert r) v (t_height_mult r) (t_upside_down r) (t_line_spacing r) (t_color r) (t_background_color r) (t_shadow_color r) (t_shadow r) (t_smoothing r) (t_tabs r).
Definition set_t_height_mult (v : Z) (r : text_ctx) : text_ctx := mk_text_ctx (t_character_width r) (t_character_height r) (t_character_set r) (t_code_table r) (t_decoder r) (t_font_size r) (t_justify r) (t_font r) (t_bold r) (t_italic r) (t_underline r) (t_strikethrough r) (t_invert r) (t_width_mult r) v (t_upside_down r) (t_line_spacing r) (t_color r) (t_background_color r) (t_shadow_color r) (t_shadow r) (t_smoothing r) (t_tabs r).
Definition set_t_upside_down (v : bool) (r : text_ctx) : text_ctx := mk_text_ctx (t_character_width r) (t_character_height r) (t_character_set r) (t_code_table r) (t_decoder r) (t_font_size r) (t_justify r) (t_font r) (t_bold r) (t_italic r) (t_underline r) (t_strikethrough r) (t_invert r) (t_width_mult r) (t_height_mult r) v (t_line_spacing r) (t_color r) (t_background_color r) (t_shadow_color r) (t_shadow r) (t_smoothing r) (t_tabs r).
Definition set_t_line_spacing (v : Z) (r : text_ctx) : text_ctx := mk_text_ctx (t_character_width r) (t_character_height r) (t_character_set r) (t_code_table r) (t_decoder r) (t_font_size r) (t_justify r) (t_font r) (t_bold r) (t_italic r) (t_underline r) (t_strikethrough r) (t_invert r) (t_width_mult r) (t_height_mult r) (t_upside_down r) v (t_color r) (t_background_color r) (t_shadow_color r) (t_shadow r) (t_smoothing r) (t_tabs r).
Definition set_t_color (v : rgba) (r : text_ctx) : text_ctx := mk_text_ctx (t_character_width r) (t_character_height r) (t_character_set r) (t_code_table r) (t_decoder r) (t_font_size r) (t_justify r) (t_font r) (t_bold r) (t_italic r) (t_underline r) (t_strikethrough r) (t_invert r) (t_width_mult r) (t_height_mult r) (t_upside_down r) (t_line_spacing r) v (t_background_color r) (t_shadow_color r) (t_shadow r) (t_smoothing r) (t_tabs r).
Definition set_t_background_color (v : rgba) (r : text_ctx) : text_ctx := mk_text_ctx (t_character_width r) (t_character_height r) (t_character_set r) (t_code_table r) (t_decoder r) (t_font_size r) (t_justify r) (t_font r) (t_bold r) (t_italic r) (t_underline r) (t_strikethrough r) (t_invert r) (t_width_mult r) (t_height_mult r) (t_upside_down r) (t_line_spacing r) (t_color r) v (t_shadow_color r) (t_shadow r) (t_smoothing r) (t_tabs r).
Definition set_t_shadow_color (v : rgba) (r : text_ctx) : text_ctx := mk_text_ctx (t_character_width r) (t_character_height r) (t_character_set r) (t_code_table r) (t_decoder r) (t_font_size r) (t_justify r) (t_font r) (t_bold r) (t_italic r) (t_underline r) (t_strikethrough r) (t_invert r) (t_width_mult r) (t_height_mult r) (t_upside_down r) (t_line_spacing r) (t_color r) (t_background_color r) v (t_shadow r) (t_smoothing r) (t_tabs r).
Definition set_t_shadow (v : bool) (r : text_ctx) : text_ctx := mk_text_ctx (t_character_width r) (t_character_height r) (t_character_set r) (t_code_table r) (t_decoder r) (t_font_size r) (t_justify r) (t_font r) (t_bold r) (t_italic r) (t_underline r) (t_strikethrough r) (t_invert r) (t_width_mult r) (t_height_mult r) (t_upside_down r) (t_line_spacing r) (t_color r) (t_background_color r) (t_shadow_color r) v (t_smoothing r) (t_tabs r).
Definition set_t_smoothing (v : bool) (r : text_ctx) : text_ctx := mk_text_ctx (t_character_width r) (t_character_height r) (t_character_set r) (t_code_table r) (t_decoder r) (t_font_size r) (t_justify r) (t_font r) (t_bold r) (t_italic r) (t_underline r) (t_strikethrough r) (t_invert r) (t_width_mult r) (t_height_mult r) (t_upside_down r) (t_line_spacing r) (t_color r) (t_background_color r) (t_shadow_color r) (t_shadow r) v (t_tabs r).
Definition set_t_tabs (v : list Z) (r : text_ctx) : text_ctx := mk_text_ctx (t_character_width r) (t_character_height r) (t_character_set r) (t_code_table r) (t_decoder r) (t_font_size r) (t_justify r) (t_font r) (t_bold r) (t_italic r) (t_underline r) (t_strikethrough r) (t_invert r) (t_width_mult r) (t_height_mult r) (t_upside_down r) (t_line_spacing r) (t_color r) (t_background_color r) (t_shadow_color r) (t_shadow r) (t_smoothing r) v.

(** context.rs:109-115 RenderColors *)
Record render_colors := mk_render_colors {
  rc_paper_color : rgba;
  rc_color_1 : rgba;
  rc_color_2 : rgba;
  rc_color_3 : rgba }.
Definition set_rc_paper_color (v : rgba) (r : render_colors) : render_colors := mk_render_colors v (rc_color_1 r) (rc_color_2 r) (rc_color_3 r).
Definition set_rc_color_1 (v : rgba) (r : render_colors) : render_colors := mk_render_colors (rc_paper_color r) v (rc_color_2 r) (rc_color_3 r).
Definition set_rc_color_2 (v : rgba) (r : render_colors) : render_colors := mk_render_colors (rc_paper_color r) (rc_color_1 r) v (rc_color_3 r).
Definition set_rc_color_3 (v : rgba) (r : render_colors) : render_colors := mk_render_colors (rc_paper_color r) (rc_color_1 r) (rc_color_2 r) v.

(** context.rs:214-220 RenderArea *)
Record area := mk_area {
  a_x : Z;
  a_y : Z;
  a_w : Z;
  a_h : Z }.
Definition set_a_x (v : Z) (r : area) : area := mk_area v (a_y r) (a_w r) (a_h r).
Definition set_a_y (v : Z) (r : area) : area := mk_area (a_x r) v (a_w r) (a_h r).
Definition set_a_w (v : Z) (r : area) : area := mk_area (a_x r) (a_y r) v (a_h r).
Definition set_a_h (v : Z) (r : area) : area := mk_area (a_x r) (a_y r) (a_w r) v.

(** context.rs:129-146 GraphicsContext; the HashMap is an association list without duplicate keys *)
Record graphics_ctx := mk_graphics_ctx {
  g_render_area : area;
  g_render_colors : render_colors;
  g_paper_area : area;
  g_dots_per_inch : Z;
  g_v_motion_unit : Z;
  g_h_motion_unit : Z;
  g_graphics_count : Z;
  g_stored_graphics : list (image_ref * gfx);
  g_buffer_graphics : list gfx }.
Definition set_g_render_area (v : area) (r : graphics_ctx) : graphics_ctx := mk_graphics_ctx v (g_render_colors r) (g_paper_area r) (g_dots_per_inch r) (g_v_motion_unit r) (g_h_motion_unit r) (g_graphics_count r) (g_stored_graphics r) (g_buffer_graphics r).
Definition set_g_render_colors (v : render_colors) (r : graphics_ctx) : graphics_ctx := mk_graphics_ctx (g_render_area r) v (g_paper_area r) (g_dots_per_inch r) (g_v_motion_unit r) (g_h_motion_unit r) (g_graphics_count r) (g_stored_graphics r) (g_buffer_graphics r).
Definition set_g_paper_area (v : area) (r : graphics_ctx) : graphics_ctx := mk_graphics_ctx (g_render_area r) (g_render_colors r) v (g_dots_per_inch r) (g_v_motion_unit r) (g_h_motion_unit r) (g_graphics_count r) (g_stored_graphics r) (g_buffer_graphics r).
Definition set_g_dots_per_inch (v : Z) (r : graphics_ctx) : graphics_ctx := mk_graphics_ctx (g_render_area r) (g_render_colors r) (g_paper_area r) v (g_v_motion_unit r) (g_h_motion_unit r) (g_graphics_count r) (g_stored_graphics r) (g_buffer_graphics r).
Definition set_g_v_motion_unit (v : Z) (r : graphics_ctx) : graphics_ctx := mk_graphics_ctx (g_render_area r) (g_render_colors r) (g_paper_area r) (g_dots_per_inch r) v (g_h_motion_unit r) (g_graphics_count r) (g_stored_graphics r) (g_buffer_graphics r).
Definition set_g_h_motion_unit (v : Z) (r : graphics_ctx) : graphics_ctx := mk_graphics_ctx (g_render_area r) (g_render_colors r) (g_paper_area r) (g_dots_per_inch r) (g_v_motion_unit r) v (g_graphics_count r) (g_stored_graphics r) (g_buffer_graphics r).
Definition set_g_graphics_count (v : Z) (r : graphics_ctx) : graphics_ctx := mk_graphics_ctx (g_render_area r) (g_render_colors r) (g_paper_area r) (g_dots_per_inch r) (g_v_motion_unit r) (g_h_motion_unit r) v (g_stored_graphics r) (g_buffer_graphics r).
Definition set_g_stored_graphics (v : list (image_ref * gfx)) (r : graphics_ctx) : graphics_ctx := mk_graphics_ctx (g_render_area r) (g_render_colors r) (g_paper_area r) (g_dots_per_inch r) (g_v_motion_unit r) (g_h_motion_unit r) (g_graphics_count r) v (g_buffer_graphics r).
Definition set_g_buffer_graphics (v : list gfx) (r : graphics_ctx) : graphics_ctx := mk_graphics_ctx (g_render_area r) (g_render_colors r) (g_paper_area r) (g_dots_per_inch r) (g_v_motion_unit r) (g_h_motion_unit r) (g_graphics_count r) (g_stored_graphics r) v.

(** context.rs:148-154 BarcodeContext *)
Record barcode_ctx := mk_barcode_ctx {
  bc_human_readable : hri;
  bc_width : Z;
  bc_height : Z;
  bc_font : font }.
Definition set_bc_human_readable (v : hri) (r : barcode_ctx) : barcode_ctx := mk_barcode_ctx v (bc_width r) (bc_height r) (bc_font r).
Definition set_bc_width (v : Z) (r : barcode_ctx) : barcode_ctx := mk_barcode_ctx (bc_human_readable r) v (bc_height r) (bc_font r).
Definition set_bc_height (v : Z) (r : barcode_ctx) : barcode_ctx := mk_barcode_ctx (bc_human_readable r) (bc_width r) v (bc_font r).
Definition set_bc_font (v : font) (r : barcode_ctx) : barcode_ctx := mk_barcode_ctx (bc_human_readable r) (bc_width r) (bc_height r) v.

(** context.rs:156-161 *)
Inductive qr_model := QrModel1 | QrModel2 | QrMicro.
(** context.rs:163-169 *)
Inductive qr_ec := QrL | QrM | QrQ | QrH.

(** context.rs:171-204 Code2DContext *)
Record code2d_ctx := mk_code2d_ctx {
  k_symbol_storage : option code2d_g;
  k_qr_model : qr_model;
  k_qr_error_correction : qr_ec;
  k_qr_size : Z;
  k_pdf417_columns : Z;
  k_pdf417_rows : Z;
  k_pdf417_width : Z;
  k_pdf417_row_height : Z;
  k_pdf417_err_correction : Z;
  k_pdf417_is_truncated : bool;
  k_maxicode_mode : Z;
  k_gs1_databar_width : Z;
  k_gs1_databar_max_width : Z;
  k_composite_width : Z;
  k_composite_max_width : Z;
  k_composite_font : font;
  k_aztec_mode : Z;
  k_aztec_layers : Z;
  k_aztec_size : Z;
  k_aztec_error_correction : Z;
  k_datamatrix_type : Z;
  k_datamatrix_columns : Z;
  k_datamatrix_rows : Z;
  k_datamatrix_width : Z }.
Definition set_k_symbol_storage (v : option code2d_g) (r : code2d_ctx) : code2d_ctx := mk_code2d_ctx v (k_qr_model r) (k_qr_error_correction r) (k_qr_size r) (k_pdf417_columns r) (k_pdf417_rows r) (k_pdf417_width r) (k_pdf417_row_height r) (k_pdf417_err_correction r) (k_pdf417_is_truncated r) (k_maxicode_mode r) (k_gs1_databar_width r) (k_gs1_databar_max_width r) (k_composite_width r) (k_composite_max_width r) (k_composite_font r) (k_aztec_mode r) (k_aztec_layers r) (k_aztec_size r) (k_aztec_error_correction r) (k_datamatrix_type r) (k_datamatrix_columns r) (k_datamatrix_rows r) (k_datamatrix_width r).
Definition set_k_qr_model (v : qr_model) (r : code2d_ctx) : code2d_ctx := mk_code2d_ctx (k_symbol_storage r) v (k_qr_error_correction r) (k_qr_size r) (k_pdf417_columns r) (k_pdf417_rows r) (k_pdf417_width r) (k_pdf417_row_height r) (k_pdf417_err_correction r) (k_pdf417_is_truncated r) (k_maxicode_mode r) (k_gs1_databar_width r) (k_gs1_databar_max_width r) (k_composite_width r) (k_composite_max_width r) (k_composite_font r) (k_aztec_mode r) (k_aztec_layers r) (k_aztec_size r) (k_aztec_error_correction r) (k_datamatrix_type r) (k_datamatrix_columns r) (k_datamatrix_rows r) (k_datamatrix_width r).
Definition set_k_qr_error_correction (v : qr_ec) (r : code2d_ctx) : code2d_ctx := mk_code2d_ctx (k_symbol_storage r) (k_qr_model r) v (k_qr_size r) (k_pdf417_columns r) (k_pdf417_rows r) (k_pdf417_width r) (k_pdf417_row_height r) (k_pdf417_err_correction r) (k_pdf417_is_truncated r) (k_maxicode_mode r) (k_gs1_databar_width r) (k_gs1_databar_max_width r) (k_composite_width r) (k_composite_max_width r) (k_composite_font r) (k_aztec_mode r) (k_aztec_layers r) (k_aztec_size r) (k_aztec_error_correction r) (k_datamatrix_type r) (k_datamatrix_columns r) (k_datamatrix_rows r) (k_datamatrix_width r).
Definition set_k_qr_size (v : Z) (r : code2d_ctx) : code2d_ctx := mk_code2d_ctx (k_symbol_storage r) (k_qr_model r) (k_qr_error_correction r) v (k_pdf417_columns r) (k_pdf417_rows r) (k_pdf417_width r) (k_pdf417_row_height r) (k_pdf417_err_correction r) (k_pdf417_is_truncated r) (k_maxicode_mode r) (k_gs1_databar_width r) (k_gs1_databar_max_width r) (k_composite_width r) (k_composite_max_width r) (k_composite_font r) (k_aztec_mode r) (k_aztec_layers r) (k_aztec_size r) (k_aztec_error_correction r) (k_datamatrix_type r) (k_datamatrix_columns r) (k_datamatrix_rows r) (k_datamatrix_width r).
Definition set_k_pdf417_columns (v : Z) (r : code2d_ctx) : code2d_ctx := mk_code2d_ctx (k_symbol_storage r) (k_qr_model r) (k_qr_error_correction r) (k_qr_size r) v (k_pdf417_rows r) (k_pdf417_width r) (k_pdf417_row_height r) (k_pdf417_err_correction r) (k_pdf417_is_truncated r) (k_maxicode_mode r) (k_gs1_databar_width r) (k_gs1_databar_max_width r) (k_composite_width r) (k_composite_max_width r) (k_composite_font r) (k_aztec_mode r) (k_aztec_layers r) (k_aztec_size r) (k_aztec_error_correction r) (k_datamatrix_type r) (k_datamatrix_columns r) (k_datamatrix_rows r) (k_datamatrix_width r).
Definition set_k_pdf417_rows (v : Z) (r : code2d_ctx) : code2d_ctx := mk_code2d_ctx (k_symbol_storage r) (k_qr_model r) (k_qr_error_correction r) (k_qr_size r) (k_pdf417_columns r) v (k_pdf417_width r) (k_pdf417_row_height r) (k_pdf417_err_correction r) (k_pdf417_is_truncated r) (k_maxicode_mode r) (k_gs1_databar_width r) (k_gs1_databar_max_width r) (k_composite_width r) (k_composite_max_width r) (k_composite_font r) (k_aztec_mode r) (k_aztec_layers r) (k_aztec_size r) (k_aztec_error_correction r) (k_datamatrix_type r) (k_datamatrix_columns r) (k_datamatrix_rows r) (k_datamatrix_width r).
Definition set_k_pdf417_width (v : Z) (r : code2d_ctx) : code2d_ctx := mk_code2d_ctx (k_symbol_storage r) (k_qr_model r) (k_qr_error_correction r) (k_qr_size r) (k_pdf417_columns r) (k_pdf417_rows r) v (k_pdf417_row_height r) (k_pdf417_err_correction r) (k_pdf417_is_truncated r) (k_maxicode_mode r) (k_gs1_databar_width r) (k_gs1_databar_max_width r) (k_composite_width r) (k_composite_max_width r) (k_composite_font r) (k_aztec_mode r) (k_aztec_layers r) (k_aztec_size r) (k_aztec_error_correction r) (k_datamatrix_type r) (k_datamatrix_columns r) (k_datamatrix_rows r) (k_datamatrix_width r).
Definition set_k_pdf417_row_height (v : Z) (r : code2d_ctx) : code2d_ctx := mk_code2d_ctx (k_symbol_storage r) (k_qr_model r) (k_qr_error_correction r) (k_qr_size r) (k_pdf417_columns r) (k_pdf417_rows r) (k_pdf417_width r) v (k_pdf417_err_correction r) (k_pdf417_is_truncated r) (k_maxicode_mode r) (k_gs1_databar_width r) (k_gs1_databar_max_width r) (k_composite_width r) (k_composite_max_width r) (k_composite_font r) (k_aztec_mode r) (k_aztec_layers r) (k_aztec_size r) (k_aztec_error_correction r) (k_datamatrix_type r) (k_datamatrix_columns r) (k_datamatrix_rows r) (k_datamatrix_width r).
Definition set_k_pdf417_err_correction (v : Z) (r : code2d_ctx) : code2d_ctx := mk_code2d_ctx (k_symbol_storage r) (k_qr_model r) (k_qr_error_correction r) (k_qr_size r) (k_pdf417_columns r) (k_pdf417_rows r) (k_pdf417_width r) (k_pdf417_row_height r) v (k_pdf417_is_truncated r) (k_maxicode_mode r) (k_gs1_databar_width r) (k_gs1_databar_max_width r) (k_composite_width r) (k_composite_max_width r) (k_composite_font r) (k_aztec_mode r) (k_aztec_layers r) (k_aztec_size r) (k_aztec_error_correction r) (k_datamatrix_type r) (k_datamatrix_columns r) (k_datamatrix_rows r) (k_datamatrix_width r).
Definition set_k_pdf417_is_truncated (v : bool) (r : code2d_ctx) : code2d_ctx := mk_code2d_ctx (k_symbol_storage r) (k_qr_model r) (k_qr_error_correction r) (k_qr_size r) (k_pdf417_columns r) (k_pdf417_rows r) (k_pdf417_width r) (k_pdf417_row_height r) (k_pdf417_err_correction r) v (k_maxicode_mode r) (k_gs1_databar_width r) (k_gs1_databar_max_width r) (k_composite_width r) (k_composite_max_width r) (k_composite_font r) (k_aztec_mode r) (k_aztec_layers r) (k_aztec_size r) (k_aztec_error_correction r) (k_datamatrix_type r) (k_datamatrix_columns r) (k_datamatrix_rows r) (k_datamatrix_width r).
Definition set_k_maxicode_mode (v : Z) (r : code2d_ctx) : code2d_ctx := mk_code2d_ctx (k_symbol_storage r) (k_qr_model r) (k_qr_error_correction r) (k_qr_size r) (k_pdf417_columns r) (k_pdf417_rows r) (k_pdf417_width r) (k_pdf417_row_height r) (k_pdf417_err_correction r) (k_pdf417_is_truncated r) v (k_gs1_databar_width r) (k_gs1_databar_max_width r) (k_composite_width r) (k_composite_max_width r) (k_composite_font r) (k_aztec_mode r) (k_aztec_layers r) (k_aztec_size r) (k_aztec_error_correction r) (k_datamatrix_type r) (k_datamatrix_columns r) (k_datamatrix_rows r) (k_datamatrix_width r).
Definition set_k_gs1_databar_width (v : Z) (r : code2d_ctx) : code2d_ctx := mk_code2d_ctx (k_symbol_storage r) (k_qr_model r) (k_qr_error_correction r) (k_qr_size r) (k_pdf417_columns r) (k_pdf417_rows r) (k_pdf417_width r) (k_pdf417_row_height r) (k_pdf417_err_correction r) (k_pdf417_is_truncated r) (k_maxicode_mode r) v (k_gs1_databar_max_width r) (k_composite_width r) (k_composite_max_width r) (k_composite_font r) (k_aztec_mode r) (k_aztec_layers r) (k_aztec_size r) (k_aztec_error_correction r) (k_datamatrix_type r) (k_datamatrix_columns r) (k_datamatrix_rows r) (k_datamatrix_width r).
Definition set_k_gs1_databar_max_width (v : Z) (r : code2d_ctx) : code2d_ctx := mk_code2d_ctx (k_symbol_storage r) (k_qr_model r) (k_qr_error_correction r) (k_qr_size r) (k_pdf417_columns r) (k_pdf417_rows r) (k_pdf417_width r) (k_pdf417_row_height r) (k_pdf417_err_correction r) (k_pdf417_is_truncated r) (k_maxicode_mode r) (k_gs1_databar_width r) v (k_composite_width r) (k_composite_max_width r) (k_composite_font r) (k_aztec_mode r) (k_aztec_layers r) (k_aztec_size r) (k_aztec_error_correction r) (k_datamatrix_type r) (k_datamatrix_columns r) (k_datamatrix_rows r) (k_datamatrix_width r).
Definition set_k_composite_width (v : Z) (r : code2d_ctx) : code2d_ctx := mk_code2d_ctx (k_symbol_storage r) (k_qr_model r) (k_qr_error_correction r) (k_qr_size r) (k_pdf417_columns r) (k_pdf417_rows r) (k_pdf417_width r) (k_pdf417_row_height r) (k_pdf417_err_correction r) (k_pdf417_is_truncated r) (k_maxicode_mode r) (k_gs1_databar_width r) (k_gs1_databar_max_width r) v (k_composite_max_width r) (k_composite_font r) (k_aztec_mode r) (k_aztec_layers r) (k_aztec_size r) (k_aztec_error_correction r) (k_datamatrix_type r) (k_datamatrix_columns r) (k_datamatrix_rows r) (k_datamatrix_width r).
Definition set_k_composite_max_width (v : Z) (r : code2d_ctx) : code2d_ctx := mk_code2d_ctx (k_symbol_storage r) (k_qr_model r) (k_qr_error_correction r) (k_qr_size r) (k_pdf417_columns r) (k_pdf417_rows r) (k_pdf417_width r) (k_pdf417_row_height r) (k_pdf417_err_correction r) (k_pdf417_is_truncated r) (k_maxicode_mode r) (k_gs1_databar_width r) (k_gs1_databar_max_width r) (k_composite_width r) v (k_composite_font r) (k_aztec_mode r) (k_aztec_layers r) (k_aztec_size r) (k_aztec_error_correction r) (k_datamatrix_type r) (k_datamatrix_columns r) (k_datamatrix_rows r) (k_datamatrix_width r).
Definition set_k_composite_font (v : font) (r : code2d_ctx) : code2d_ctx := mk_code2d_ctx (k_symbol_storage r) (k_qr_model r) (k_qr_error_correction r) (k_qr_size r) (k_pdf417_columns r) (k_pdf417_rows r) (k_pdf417_width r) (k_pdf417_row_height r) (k_pdf417_err_correction r) (k_pdf417_is_truncated r) (k_maxicode_mode r) (k_gs1_databar_width r) (k_gs1_databar_max_width r) (k_composite_width r) (k_composite_max_width r) v (k_aztec_mode r) (k_aztec_layers r) (k_aztec_size r) (k_aztec_error_correction r) (k_datamatrix_type r) (k_datamatrix_columns r) (k_datamatrix_rows r) (k_datamatrix_width r).
Definition set_k_aztec_mode (v : Z) (r : code2d_ctx) : code2d_ctx := mk_code2d_ctx (k_symbol_storage r) (k_qr_model r) (k_qr_error_correction r) (k_qr_size r) (k_pdf417_columns r) (k_pdf417_rows r) (k_pdf417_width r) (k_pdf417_row_height r) (k_pdf417_err_correction r) (k_pdf417_is_truncated r) (k_maxicode_mode r) (k_gs1_databar_width r) (k_gs1_databar_max_width r) (k_composite_width r) (k_composite_max_width r) (k_composite_font r) v (k_aztec_layers r) (k_aztec_size r) (k_aztec_error_correction r) (k_datamatrix_type r) (k_datamatrix_columns r) (k_datamatrix_rows r) (k_datamatrix_width r).
Definition set_k_aztec_layers (v : Z) (r : code2d_ctx) : code2d_ctx := mk_code2d_ctx (k_symbol_storage r) (k_qr_model r) (k_qr_error_correction r) (k_qr_size r) (k_pdf417_columns r) (k_pdf417_rows r) (k_pdf417_width r) (k_pdf417_row_height r) (k_pdf417_err_correction r) (k_pdf417_is_truncated r) (k_maxicode_mode r) (k_gs1_databar_width r) (k_gs1_databar_max_width r) (k_composite_width r) (k_composite_max_width r) (k_composite_font r) (k_aztec_mode r) v (k_aztec_size r) (k_aztec_error_correction r) (k_datamatrix_type r) (k_datamatrix_columns r) (k_datamatrix_rows r) (k_datamatrix_width r).
Definition set_k_aztec_size (v : Z) (r : code2d_ctx) : code2d_ctx := mk_code2d_ctx (k_symbol_storage r) (k_qr_model r) (k_qr_error_correction r) (k_qr_size r) (k_pdf417_columns r) (k_pdf417_rows r) (k_pdf417_width r) (k_pdf417_row_height r) (k_pdf417_err_correction r) (k_pdf417_is_truncated r) (k_maxicode_mode r) (k_gs1_databar_width r) (k_gs1_databar_max_width r) (k_composite_width r) (k_composite_max_width r) (k_composite_font r) (k_aztec_mode r) (k_aztec_layers r) v (k_aztec_error_correction r) (k_datamatrix_type r) (k_datamatrix_columns r) (k_datamatrix_rows r) (k_datamatrix_width r).
Definition set_k_aztec_error_correction (v : Z) (r : code2d_ctx) : code2d_ctx := mk_code2d_ctx (k_symbol_storage r) (k_qr_model r) (k_qr_error_correction r) (k_qr_size r) (k_pdf417_columns r) (k_pdf417_rows r) (k_pdf417_width r) (k_pdf417_row_height r) (k_pdf417_err_correction r) (k_pdf417_is_truncated r) (k_maxicode_mode r) (k_gs1_databar_width r) (k_gs1_databar_max_width r) (k_composite_width r) (k_composite_max_width r) (k_composite_font r) (k_aztec_mode r) (k_aztec_layers r) (k_aztec_size r) v (k_datamatrix_type r) (k_datamatrix_columns r) (k_datamatrix_rows r) (k_datamatrix_width r).
Definition set_k_datamatrix_type (v : Z) (r : code2d_ctx) : code2d_ctx := mk_code2d_ctx (k_symbol_storage r) (k_qr_model r) (k_qr_error_correction r) (k_qr_size r) (k_pdf417_columns r) (k_pdf417_rows r) (k_pdf417_width r) (k_pdf417_row_height r) (k_pdf417_err_correction r) (k_pdf417_is_truncated r) (k_maxicode_mode r) (k_gs1_databar_width r) (k_gs1_databar_max_width r) (k_composite_width r) (k_composite_max_width r) (k_composite_font r) (k_aztec_mode r) (k_aztec_layers r) (k_aztec_size r) (k_aztec_error_correction r) v (k_datamatrix_columns r) (k_datamatrix_rows r) (k_datamatrix_width r).
Definition set_k_datamatrix_columns (v : Z) (r : code2d_ctx) : code2d_ctx := mk_code2d_ctx (k_symbol_storage r) (k_qr_model r) (k_qr_error_correction r) (k_qr_size r) (k_pdf417_columns r) (k_pdf417_rows r) (k_pdf417_width r) (k_pdf417_row_height r) (k_pdf417_err_correction r) (k_pdf417_is_truncated r) (k_maxicode_mode r) (k_gs1_databar_width r) (k_gs1_databar_max_width r) (k_composite_width r) (k_composite_max_width r) (k_composite_font r) (k_aztec_mode r) (k_aztec_layers r) (k_aztec_size r) (k_aztec_error_correction r) (k_datamatrix_type r) v (k_datamatrix_rows r) (k_datamatrix_width r).
Definition set_k_datamatrix_rows (v : Z) (r : code2d_ctx) : code2d_ctx := mk_code2d_ctx (k_symbol_storage r) (k_qr_model r) (k_qr_error_correction r) (k_qr_size r) (k_pdf417_columns r) (k_pdf417_rows r) (k_pdf417_width r) (k_pdf417_row_height r) (k_pdf417_err_correction r) (k_pdf417_is_truncated r) (k_maxicode_mode r) (k_gs1_databar_width r) (k_gs1_databar_max_width r) (k_composite_width r) (k_composite_max_width r) (k_composite_font r) (k_aztec_mode r) (k_aztec_layers r) (k_aztec_size r) (k_aztec_error_correction r) (k_datamatrix_type r) (k_datamatrix_columns r) v (k_datamatrix_width r).
Definition set_k_datamatrix_width (v : Z) (r : code2d_ctx) : code2d_ctx := mk_code2d_ctx (k_symbol_storage r) (k_qr_model r) (k_qr_error_correction r) (k_qr_size r) (k_pdf417_columns r) (k_pdf417_rows r) (k_pdf417_width r) (k_pdf417_row_height r) (k_pdf417_err_correction r) (k_pdf417_is_truncated r) (k_maxicode_mode r) (k_gs1_databar_width r) (k_gs1_databar_max_width r) (k_composite_width r) (k_composite_max_width r) (k_composite_font r) (k_aztec_mode r) (k_aztec_layers r) (k_aztec_size r) (k_aztec_error_correction r) (k_datamatrix_type r) (k_datamatrix_columns r) (k_datamatrix_rows r) v.

(** context.rs:206-212 *)
Inductive direction := TopLeft2Right | BottomRight2Left | TopRight2Bottom | BottomLeft2Top.

(** context.rs:222-241 PageModeContext *)
Record page_ctx := mk_page_ctx {
  p_enabled : bool;
  p_logical_area : area;
  p_render_area : area;
  p_page_area : area;
  p_direction : direction;
  p_previous_direction : direction }.
Definition set_p_enabled (v : bool) (r : page_ctx) : page_ctx := mk_page_ctx v (p_logical_area r) (p_render_area r) (p_page_area r) (p_direction r) (p_previous_direction r).
Definition set_p_logical_area (v : area) (r : page_ctx) : page_ctx := mk_page_ctx (p_enabled r) v (p_render_area r) (p_page_area r) (p_direction r) (p_previous_direction r).
Definition set_p_render_area (v : area) (r : page_ctx) : page_ctx := mk_page_ctx (p_enabled r) (p_logical_area r) v (p_page_area r) (p_direction r) (p_previous_direction r).
Definition set_p_page_area (v : area) (r : page_ctx) : page_ctx := mk_page_ctx (p_enabled r) (p_logical_area r) (p_render_area r) v (p_direction r) (p_previous_direction r).
Definition set_p_direction (v : direction) (r : page_ctx) : page_ctx := mk_page_ctx (p_enabled r) (p_logical_area r) (p_render_area r) (p_page_area r) v (p_previous_direction r).
Definition set_p_previous_direction (v : direction) (r : page_ctx) : page_ctx := mk_page_ctx (p_enabled r) (p_logical_area r) (p_render_area r) (p_page_area r) (p_direction r) v.

(** context.rs:244-250 *)
Inductive rotation := R0 | R90 | R180 | R270.

(** context.rs:72-80: the settings of a [Context], without the boxed default *)
(** context.rs:72-80 (all fields except [default]) *)
Record settings := mk_settings {
  x_text : text_ctx;
  x_barcode : barcode_ctx;
  x_code2d : code2d_ctx;
  x_graphics : graphics_ctx;
  x_page_mode : page_ctx }.
Definition set_x_text (v : text_ctx) (r : settings) : settings := mk_settings v (x_barcode r) (x_code2d r) (x_graphics r) (x_page_mode r).
Definition set_x_barcode (v : barcode_ctx) (r : settings) : settings := mk_settings (x_text r) v (x_code2d r) (x_graphics r) (x_page_mode r).
Definition set_x_code2d (v : code2d_ctx) (r : settings) : settings := mk_settings (x_text r) (x_barcode r) v (x_graphics r) (x_page_mode r).
Definition set_x_graphics (v : graphics_ctx) (r : settings) : settings := mk_settings (x_text r) (x_barcode r) (x_code2d r) v (x_page_mode r).
Definition set_x_page_mode (v : page_ctx) (r : settings) : settings := mk_settings (x_text r) (x_barcode r) (x_code2d r) (x_graphics r) v.

(** context.rs:72-80: [default] is [None] only inside the boxed default itself, so a context is a
    pair of its settings and the optional boxed default settings. *)
(** context.rs:72-80 *)
Record context := mk_context {
  ctx_default : option settings;
  ctx_now : settings }.
Definition set_ctx_default (v : option settings) (r : context) : context := mk_context v (ctx_now r).
Definition set_ctx_now (v : settings) (r : context) : context := mk_context (ctx_default r) v.

