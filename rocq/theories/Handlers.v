(** * Handlers: what each command handler does when it is executed.

    The parser's handlers only collect bytes (Command.v); here are the methods the renderer calls:
    [get_text], [get_graphics], [apply_context] and [get_device_command] of every file in
    thermal_parser/src/commands and thermal_parser/src/subcommands.  A method a handler does not
    override does nothing (command.rs:176-198). *)
From Verif Require Import Base Command Vec Float32 GTypes Graphics Utf8 Decoder Context Text Upce.
Local Open Scope Z_scope.
Local Open Scope list_scope.

(** command.rs:7-29 *)
Inductive device_command :=
| BeginPrint | Initialize | PartialCut | FullCut | Feed (n : Z) | FeedLine (n : Z) | Cancel | Pulse
| EndPrint | BeginPageMode | EndPageMode | PrintPageMode | ChangePageModeDirection | ChangePageArea
| Justify (j : text_justify) | SetTextWidth (w : Z) | SetTextHeight (h : Z)
| ChangeTabs (count at_ : Z) | Transmit (bytes : list Z) | MoveX (x : Z) | ClearBufferGraphics.

(** The symbol encoders of the external crates [barcoders] and [qr_code]: not in the repository, so
    every theorem quantifies over them.  [None] is the crates' [Err].  They are assumed not to
    panic.  [e_qr data micro version level] is [QrCode::with_version]. *)
Record encoders := mk_encoders {
  e_code128 : ustring -> option (list Z);
  e_codabar : ustring -> option (list Z);
  e_code39 : ustring -> option (list Z);
  e_code93 : ustring -> option (list Z);
  e_ean13 : ustring -> option (list Z);
  e_upca : ustring -> option (list Z);
  e_ean8 : ustring -> option (list Z);
  e_itf : ustring -> option (list Z);
  e_qr : list Z -> bool -> Z -> qr_ec -> option (list bool * Z) }.

(** [command.data.get(i).unwrap_or(&d)] *)
Definition arg (d : Z) (c : command) (i : nat) : Z := get_or d (c_data c) i.

(** ** Text *)

(** commands/text.rs:8-11, carriage_return.rs:8-10, horizontal_tab.rs:8-10, linefeed.rs:8-10 *)
Definition plain_text (id : plain_id) (data : list Z) (x : context) : option text_span :=
  match id with
  | P_text => Some (span_new (decode_utf8 (t_decoder (c_text x)) data) x)
  | P_carriage_return => Some (span_new [CR] x)
  | P_horizontal_tab => Some (span_new [HT] x)
  | P_linefeed => Some (span_new [LF] x)
  | _ => None
  end.

(** subcommands/mod.rs:85-90 (sub-command handlers never return text) *)
Definition get_text (c : command) (x : context) : option text_span :=
  match c_handler c with
  | HPlain id => plain_text id (c_data c) x
  | _ => None
  end.

(** ** Graphics *)

(** commands/barcode.rs:87-112 *)
Definition validate_data_length (k : barcode_type) (length : Z) : bool :=
  if 255 <? length then false
  else match k with
       | UpcA => (length =? 11) || (length =? 12)
       | UpcE => (length =? 6) || (length =? 7) || (length =? 8) || (length =? 11) || (length =? 12)
       | Ean13 => (length =? 12) || (length =? 13)
       | Ean8 => (length =? 7) || (length =? 8)
       | Code39 => 0 <? length
       | Nw7Codabar | Itf => 2 <? length
       | Gs1DatabarLimited | Gs1DatabarTruncated | Gs1DatabarOmni => length =? 13
       | Code128 | Gs1128 | Gs1DatabarExpanded => 1 <? length
       | Code128Auto => 0 <? length
       | _ => 0 <? length
       end.

(** [str::replace] with a two-character pattern: left to right, non-overlapping *)
Fixpoint replace2 (a b : Z) (by_ : ustring) (l : ustring) : ustring :=
  match l with
  | x :: ((y :: r) as t) =>
      if (x =? a) && (y =? b) then by_ ++ replace2 a b by_ r else x :: replace2 a b by_ t
  | _ => l
  end.
(** [str::replace("*", "")] *)
Definition remove1 (a : Z) (l : ustring) : ustring := filter (fun x => negb (x =? a)) l.

(** commands/barcode.rs:117-122: the finished barcode *)
Definition finish_barcode (points : option (list Z)) (text : ustring) (x : context) : gfx :=
  match points with
  | Some p => GBarcode (mk_barcode_g p (bc_width (c_barcode x)) (bc_height (c_barcode x))
                          (bc_human_readable (c_barcode x)) (span_new_for_barcode text x))
  | None => GError "Encoding error"
  end.
Arguments GError msg%string.

(** commands/barcode.rs:115-254.  The error message keeps its static part only. *)
Definition barcode_graphics (e : encoders) (s : barcode_st) (raw : list Z) (x : context) : res gfx :=
  let utf8 := from_utf8 raw in
  let data := match utf8 with Some d => d | None => [] end in
  let len := match utf8 with Some _ => vlen raw | None => 0 end in
  if negb (validate_data_length (bc_kind s) len) then Ok (GError "Invalid data length")
  else match bc_kind s with
  | Code128 =>
      (* 123 '{', 'A' 'B' 'C' 65-67; the stand-ins are U+00C0, U+0181 and U+0106 *)
      let adjusted := replace2 123 67 [262] (replace2 123 66 [385] (replace2 123 65 [192] data)) in
      let text := replace2 123 67 [] (replace2 123 66 [] (replace2 123 65 [] data)) in
      Ok (finish_barcode (e_code128 e adjusted) text x)
  | Nw7Codabar => Ok (finish_barcode (e_codabar e data) data x)
  | Code39 => Ok (finish_barcode (e_code39 e (remove1 42 data)) data x)
  | Code93 => Ok (finish_barcode (e_code93 e data) data x)
  | Ean13 =>
      (* &data[..12]: byte slicing, panics unless byte 12 starts a character *)
      if (12 <? vlen raw) && is_cont (get_or 0 raw 12) then Panic PIndex
      else match from_utf8 (firstn 12 raw) with
           | Some sp => Ok (finish_barcode (e_ean13 e sp) data x)
           | None => Panic PIndex
           end
  | UpcA => Ok (finish_barcode (e_upca e data) data x)
  | UpcE => do u <- upce_new raw;
            match u with
            | UOk code => do p <- upce_encode code; Ok (finish_barcode (Some p) data x)
            | UErr _ => Ok (finish_barcode None data x)
            end
  | Ean8 => Ok (finish_barcode (e_ean8 e data) data x)
  | Itf => Ok (finish_barcode (e_itf e data) data x)
  | _ => Ok (GError "Unknown barcode type")
  end.

(** commands/bit_image.rs:15-39 *)
Definition bit_image_graphics (s : bit_image_st) (data : list Z) (x : context) : res gfx :=
  let color := rc_color_1 (g_render_colors (c_graphics x)) in
  if bi_col_encoded s
  then image_from_column_single (bi_width s) (bi_height s) (bi_stretch s) color FlowInline data
  else image_from_raster_single (bi_width s) (bi_height s) (bi_stretch s) color FlowInline data false.

(** commands/raster_bit_image.rs:14-31 *)
Definition raster_stretch (scaling : Z) : Z * Z :=
  match scaling with
  | 0 | 48 => (1, 1)
  | 1 | 49 => (2, 1)
  | 2 | 50 => (1, 2)
  | 3 | 52 => (2, 2)
  | _ => (1, 1)
  end.
Definition raster_graphics (s : raster_st) (data : list Z) (x : context) : res gfx :=
  image_from_raster_single (ra_width s) (ra_height s) (raster_stretch (ra_scaling s))
    (color_for_number (g_render_colors (c_graphics x)) 1) FlowBlock data true.

(** HashMap<ImageRef, GraphicsCommand> as an association list *)
Definition storage_eqb (a b : storage) : bool :=
  match a, b with Disc, Disc => true | Ram, Ram => true | _, _ => false end.
Definition ref_eqb (a b : image_ref) : bool :=
  (kc1 a =? kc1 b) && (kc2 a =? kc2 b) && storage_eqb (ref_storage a) (ref_storage b).
Definition map_get (r : image_ref) (m : list (image_ref * gfx)) : option gfx :=
  match find (fun kv => ref_eqb (fst kv) r) m with Some kv => Some (snd kv) | None => None end.
Definition map_remove (r : image_ref) (m : list (image_ref * gfx)) : list (image_ref * gfx) :=
  filter (fun kv => negb (ref_eqb (fst kv) r)) m.
Definition map_insert (r : image_ref) (g : gfx) (m : list (image_ref * gfx)) : list (image_ref * gfx) :=
  (r, g) :: map_remove r m.
Definition map_retain_not (s : storage) (m : list (image_ref * gfx)) : list (image_ref * gfx) :=
  filter (fun kv => negb (storage_eqb (ref_storage (fst kv)) s)) m.

(** subcommands/gs_graphics/print_buffer_graphics.rs:13-30: the images up to the first error *)
Fixpoint buffer_layers (l : list gfx) : list image + gfx :=
  match l with
  | [] => inl []
  | GError m :: _ => inr (GError m)
  | GImage i :: r => match buffer_layers r with inl t => inl (i :: t) | inr e => inr e end
  | _ :: r => buffer_layers r
  end.
(** print_buffer_graphics.rs:12-37 *)
Definition print_buffer (x : context) : res (option gfx) :=
  match buffer_layers (g_buffer_graphics (c_graphics x)) with
  | inr e => Ok (Some e)
  | inl [] => Ok None
  | inl layers =>
      do m <- merge_image_layers layers;
      Ok (Some (match m with inl i => GImage i | inr _ => GError "Could not merge image layers" end))
  end.

(** subcommands/gs_code2d/*_print.rs:7-14, gs_graphics/print_*.rs:7-12 *)
Definition sub_graphics (id : sub_id) (data : list Z) (x : context) : res (option gfx) :=
  let stored := k_symbol_storage (c_code2d x) in
  let saved s := match ref_from_data data s with
                 | Some r => map_get r (g_stored_graphics (c_graphics x))
                 | None => None end in
  match id with
  | S_qr_print => Ok (Some (match stored with Some q => GCode2D q | None => GError "QR Not setup properly" end))
  | S_pdf417_print | S_maxi_print | S_gs1_print | S_composite_print | S_aztec_print | S_datamatrix_print =>
      Ok (match stored with Some q => Some (GCode2D q) | None => None end)
  | S_print_nv_graphic => Ok (saved Disc)
  | S_print_download_graphics => Ok (saved Ram)
  | S_print_buffer_graphics => print_buffer x
  | _ => Ok None
  end.

(** subcommands/mod.rs:92-97: the proxy passes the outer command's data *)
Definition get_graphics (e : encoders) (c : command) (x : context) : res (option gfx) :=
  match c_handler c with
  | HBarcode s => do g <- barcode_graphics e s (c_data c) x; Ok (Some g)
  | HBitImage s => do g <- bit_image_graphics s (c_data c) x; Ok (Some g)
  | HRaster s => do g <- raster_graphics s (c_data c) x; Ok (Some g)
  | HSubPlain id => sub_graphics id (c_data c) x
  | HSub s => match ss_subcommand s with Some sc => sub_graphics (sc_id sc) (c_data c) x | None => Ok None end
  | _ => Ok None
  end.

(** ** Context updates *)

(** [(n & 1) == 1] *)
Definition low_bit (n : Z) : bool := Z.land n 1 =? 1.
(** util.rs bitflags_lsb: bit [k] of a byte *)
Definition flag (n k : Z) : bool := Z.testbit n k.
(** [u16 as i16] *)
Definition as_i16 (n : Z) : Z := if n <? 32768 then n else n - 65536.
(** set_horizontal_pos.rs:13-18, set_vertical_pos.rs:19-24, offset_vertical_pos.rs:25-32 *)
Definition get_pos (c : command) : Z := arg 0 c 0 + arg 0 c 1 * 256.

(** page_mode_print_direction.rs:69-83 *)
Definition direction_of (n : Z) : direction :=
  match n with
  | 0 | 48 => TopLeft2Right
  | 1 | 49 => BottomLeft2Top
  | 2 | 50 => BottomRight2Left
  | 3 | 51 => TopRight2Bottom
  | _ => TopLeft2Right
  end.
(** page_mode_print_area.rs:41-53 *)
Definition calculate_page_area (c : command) : area :=
  mk_area (parse_u16 (c_data c) 0) (parse_u16 (c_data c) 2) (parse_u16 (c_data c) 4) (parse_u16 (c_data c) 6).

(** set_barcode_hri.rs:9-14 *)
Definition hri_of (n : Z) : hri :=
  match n with 1 | 49 => HriAbove | 2 | 50 => HriBelow | 3 | 51 => HriBoth | _ => HriNone end.
(** set_underline.rs:9-14 *)
Definition underline_of (n : Z) : underline :=
  match n with 0 | 48 => UnderOff | 1 | 49 => UnderOn | 2 | 50 => UnderDouble | _ => UnderOff end.

(** set_character_effects.rs:32-64 *)
Definition character_effects (c : command) (x : context) : context :=
  let rc := g_render_colors (c_graphics x) in
  if vlen (c_data c) <? 3 then x
  else match arg 0 c 2 with
       | 48 => upd_text (set_t_color (color_for_number rc (arg 48 c 3))) x
       | 49 => upd_text (set_t_background_color (color_for_number rc (arg 48 c 3))) x
       | 50 => upd_text (fun t => set_t_shadow (match arg 0 c 4 with 0 | 48 => false | _ => true end)
                                    (set_t_shadow_color (color_for_number rc (arg 48 c 3)) t)) x
       | _ => x
       end.

(** set_motion_units.rs:14-40 (the [x > 0] tests are always true there); [as u8] truncates *)
Definition set_motion_units (c : command) (x : context) : context :=
  let px := arg 0 c 0 in let py := arg 0 c 1 in
  let dpi := g_dots_per_inch (c_graphics x) in
  if (px =? 0) || (py =? 0) then x
  else upd_graphics (fun g => set_g_v_motion_unit ((dpi / py) mod 256)
                                (set_g_h_motion_unit ((dpi / px) mod 256) g)) x.

(** set_print_mode.rs:7-20 *)
Definition set_print_mode (c : command) (x : context) : context :=
  let n := arg 0 c 0 in
  upd_text (fun t => set_t_underline (if flag n 6 then UnderOn else UnderOff)
                     (set_t_width_mult (if flag n 5 then 2 else 1)
                     (set_t_height_mult (if flag n 4 then 2 else 1)
                     (set_t_bold (flag n 3) t))))
    (set_font (if flag n 0 then FontB else FontA) x).

(** set_double_strike.rs:8-22 *)
Definition double_strike (enable : bool) (old : strikethrough) : strikethrough :=
  if enable then StrikeDouble
  else match old with StrikeDouble => StrikeOn | _ => StrikeOff end.

(** [context.default.as_ref().unwrap().text.line_spacing], evaluated eagerly by [unwrap_or] *)
Definition default_spacing (x : context) : res Z :=
  match ctx_default x with Some d => Ok (t_line_spacing (x_text d)) | None => Panic PUnwrap end.

(** apply_context of the unit-struct handlers; each line cites its file *)
Definition apply_plain (id : plain_id) (c : command) (x : context) : res context :=
  let n := arg 0 c 0 in
  let rc := g_render_colors (c_graphics x) in
  match id with
  | P_default_line_spacing => (* default_line_spacing.rs:7-11 *)
      Ok (match ctx_default x with
          | Some d => upd_text (set_t_line_spacing (t_line_spacing (x_text d))) x
          | None => x end)
  | P_initialize => Ok (reset x)   (* initialize.rs:14-16 *)
  | P_offset_vertical_pos => (* offset_vertical_pos.rs:13-18 *)
      if p_enabled (c_page x) then offset_y_relative (as_i16 (get_pos c)) x else Ok x
  | P_page_mode_print_area => (* page_mode_print_area.rs:56-63 *)
      if p_enabled (c_page x) then set_page_area (calculate_page_area c) x else Ok x
  | P_page_mode_print_direction => (* page_mode_print_direction.rs:65-91 *)
      Ok (if p_enabled (c_page x)
          then upd_page (fun p => set_p_direction (direction_of n) (set_p_previous_direction (p_direction p) p)) x
          else x)
  | P_select_standard_mode => Ok (upd_page (set_p_enabled false) x)  (* select_standard_mode.rs:14-16 *)
  | P_set_alt_color => (* set_alt_color.rs:7-13 *)
      Ok (upd_text (set_t_color (match n with 1 | 49 => rc_color_2 rc | _ => rc_color_1 rc end)) x)
  | P_set_barcode_font => Ok (upd_barcode (set_bc_font (font_from_raw n)) x)  (* set_barcode_font.rs:7-10 *)
  | P_set_barcode_height => Ok (upd_barcode (set_bc_height n) x)  (* set_barcode_height.rs:7-10 *)
  | P_set_barcode_hri => Ok (upd_barcode (set_bc_human_readable (hri_of n)) x)  (* set_barcode_hri.rs:7-15 *)
  | P_set_barcode_width => (* set_barcode_width.rs:13-29 *)
      let n := arg 2 c 0 in
      let n := if n <? 2 then 2 else n in
      Ok (if 6 <? n then x else upd_barcode (set_bc_width n) x)
  | P_set_black_white_invert => (* set_black_white_invert.rs:7-19 *)
      Ok (upd_text (fun t =>
            set_t_invert (n =? 1)
              (if n =? 1 then set_t_color (rc_paper_color rc) (set_t_background_color (rc_color_1 rc) t)
               else set_t_color (rc_color_1 rc) (set_t_background_color (rc_paper_color rc) t))) x)
  | P_set_code_table => Ok (update_decoder (upd_text (set_t_code_table n) x))  (* set_code_table.rs:78-82 *)
  | P_set_international_charset => (* set_international_charset.rs:45-49 *)
      Ok (update_decoder (upd_text (set_t_character_set n) x))
  | P_set_double_strike => (* set_double_strike.rs:8-22 *)
      Ok (upd_text (fun t => set_t_strikethrough (double_strike (low_bit n) (t_strikethrough t)) t) x)
  | P_set_emphasis => Ok (upd_text (set_t_bold (low_bit n)) x)         (* set_emphasis.rs:7-10 *)
  | P_set_italic => Ok (upd_text (set_t_italic (low_bit n)) x)         (* set_italic.rs:7-10 *)
  | P_set_smoothing => Ok (upd_text (set_t_smoothing (low_bit n)) x)   (* set_smoothing.rs:7-10 *)
  | P_set_upside_down => Ok (upd_text (set_t_upside_down (low_bit n)) x)  (* set_upside_down.rs:7-10 *)
  | P_set_font => Ok (set_font (font_from_raw n) x)                    (* set_font.rs:7-10 *)
  | P_set_horizontal_pos => set_x_absolute (get_pos c) x               (* set_horizontal_pos.rs:21-23 *)
  | P_set_vertical_pos => (* set_vertical_pos.rs:27-31 *)
      if p_enabled (c_page x) then set_y_absolute (get_pos c) x else Ok x
  | P_set_line_spacing => (* set_line_spacing.rs:7-14 *)
      do d <- default_spacing x; Ok (upd_text (set_t_line_spacing (arg d c 0)) x)
  | P_set_motion_units => Ok (set_motion_units c x)
  | P_set_print_mode => Ok (set_print_mode c x)
  | P_set_underline => Ok (upd_text (set_t_underline (underline_of n)) x)  (* set_underline.rs:7-15 *)
  | _ => Ok x
  end.

(** subcommands/gs_code2d/qr_store.rs:13-18 *)
Definition VERSION_CAPACITIES : list Z :=
  [17; 32; 53; 78; 106; 134; 154; 192; 230; 271;
   321; 367; 425; 458; 520; 586; 644; 718; 792; 858;
   929; 1003; 1091; 1171; 1273; 1367; 1465; 1528; 1628; 1732;
   1840; 1952; 2068; 2188; 2303; 2431; 2563; 2699; 2809; 2953].
(** qr_store.rs:23-33: first version (from 1) with enough room, at most [max] *)
Fixpoint first_version (v : Z) (caps : list Z) (byte_len : Z) (max : Z) : Z :=
  match caps with
  | [] => max
  | c :: r => if byte_len <=? c then v else first_version (v + 1) r byte_len max
  end.
Definition minimum_version_for_bytes (byte_len max : Z) : Z :=
  if 40 <? max then 40 else first_version 1 (firstn (Z.to_nat max) VERSION_CAPACITIES) byte_len max.
(** qr_store.rs:40-44 *)
Definition max_modules (m : qr_model) : Z := match m with QrModel1 => 14 | QrModel2 => 40 | QrMicro => 4 end.

(** qr_store.rs:36-87; [data.len() as i16] truncates *)
Definition qr_store (e : encoders) (data : list Z) (x : context) : context :=
  let k := c_code2d x in
  let version := minimum_version_for_bytes (as_i16 (vlen data mod 65536)) (max_modules (k_qr_model k)) in
  let micro := match k_qr_model k with QrMicro => true | _ => false end in
  match e_qr e data micro version (k_qr_error_correction k) with
  | Some (bits, w) =>
      upd_code2d (set_k_symbol_storage
        (Some (mk_code2d_g (map (fun b : bool => if b then 1 else 0) bits) w (k_qr_size k) (k_qr_size k)))) x
  | None => x
  end.

(** subcommands/gs_code2d/pdf417_set_correction_level.rs:7-44 *)
Definition f32_lt_int (a : f32) (n : Z) : bool := fst a <? n * snd a.
Definition f32_gt_int (a : f32) (n : Z) : bool := n * snd a <? fst a.
Definition pdf417_level (m n codewords : Z) : res Z :=
  do level <- sub_u8 m 48;
  Ok (if m =? 49 then
        let a := f32_mul (f32_mul (f32_of codewords) (f32_of n)) (f32_round 1 100) in
        let level := if f32_lt_int a 4 then 1 else level in
        let level := if f32_lt_int a 11 then 2 else level in
        let level := if f32_lt_int a 21 then 3 else level in
        let level := if f32_lt_int a 46 then 4 else level in
        let level := if f32_lt_int a 101 then 5 else level in
        let level := if f32_lt_int a 201 then 6 else level in
        let level := if f32_lt_int a 401 then 7 else level in
        if f32_gt_int a 400 then 8 else level
      else level).

(** subcommands/gs_code2d/datamatrix_set_options.rs:7-43; [None]: returns without a change *)
Definition datamatrix_options (m d1 d2 : Z) : res (option (Z * Z * Z)) :=
  match m with
  | 0 | 48 => do s <- add_u8 d1 d2; Ok (Some (if 0 <? s then (d1, d2, 0) else (0, 0, 0)))
  | 1 | 49 =>
      Ok (Some (if (d2 =? 0) && ((d1 =? 8) || (d1 =? 12) || (d1 =? 16)) then (d1, 0, 2) else (d1, d2, 2)))
  | _ => Ok None
  end.

(** define_{nv,download}_graphics_raster.rs:8-36 *)
Definition define_raster (s : storage) (data : list Z) (x : context) : res context :=
  if vlen data <? 8 then Ok x
  else
    do k1 <- get_chk PUnwrap data 1;
    do k2 <- get_chk PUnwrap data 2;
    do b <- get_chk PUnwrap data 3;
    do body <- vslice_from data 8;
    do g <- image_from_raster_multi (parse_u16 data 4) (parse_u16 data 6) (1, 1) b
              (g_render_colors (c_graphics x)) FlowBlock body true;
    Ok (upd_graphics (fun gc => set_g_stored_graphics
          (map_insert {| kc1 := k1; kc2 := k2; ref_storage := s |} g (g_stored_graphics gc)) gc) x).
(** define_{nv,download}_graphics_column.rs:8-36: no early return, and the raster decoder *)
Definition define_column (s : storage) (data : list Z) (x : context) : res context :=
  do _a <- get_chk PUnwrap data 0;
  do k1 <- get_chk PUnwrap data 1;
  do k2 <- get_chk PUnwrap data 2;
  do b <- get_chk PUnwrap data 3;
  do body <- vslice_from data 8;
  do g <- image_from_raster_multi (parse_u16 data 4) (parse_u16 data 6) (1, 1) b
            (g_render_colors (c_graphics x)) FlowBlock body true;
  Ok (upd_graphics (fun gc => set_g_stored_graphics
        (map_insert {| kc1 := k1; kc2 := k2; ref_storage := s |} g (g_stored_graphics gc)) gc) x).

Definition push_buffer (g : gfx) (x : context) : context :=
  upd_graphics (fun gc => set_g_buffer_graphics (g_buffer_graphics gc ++ [g]) gc) x.
(** store_buffer_graphics_{raster,column}.rs:8-33 *)
Definition store_buffer (column : bool) (data : list Z) (x : context) : res context :=
  if vlen data <? 4 then Ok (push_buffer (GError "Not enough parameters for buffer graphics") x)
  else
    do bx <- get_chk PUnwrap data 1;
    do by_ <- get_chk PUnwrap data 2;
    do c <- get_chk PUnwrap data 3;
    do body <- vslice_from data 8;
    let color := color_for_number (g_render_colors (c_graphics x)) c in
    let w := parse_u16 data 4 in let h := parse_u16 data 6 in
    do g <- (if column then image_from_column_single w h (bx, by_) color FlowBlock body
             else image_from_raster_single w h (bx, by_) color FlowBlock body true);
    Ok (push_buffer g x).

Definition upd_stored (f : list (image_ref * gfx) -> list (image_ref * gfx)) : context -> context :=
  upd_graphics (fun gc => set_g_stored_graphics (f (g_stored_graphics gc)) gc).
Definition clear_one (s : storage) (data : list Z) (x : context) : context :=
  match ref_from_data data s with Some r => upd_stored (map_remove r) x | None => x end.

(** apply_context of the sub-command handlers *)
Definition apply_sub (e : encoders) (id : sub_id) (c : command) (x : context) : res context :=
  let n := arg 0 c 0 in
  match id with
  | S_aztec_set_correction_level => Ok (upd_code2d (set_k_aztec_error_correction (arg 5 c 0)) x)
  | S_aztec_set_function_and_layers => (* aztec_set_function_and_layers.rs:7-24 *)
      let n2 := arg 0 c 1 in
      Ok (upd_code2d (fun k => set_k_aztec_layers (if (0 <? n2) && (n2 <? 33) then n2 else 0)
                                 (set_k_aztec_mode (match n with 1 | 49 => 1 | _ => 0 end) k)) x)
  | S_aztec_set_size => (* aztec_set_size.rs:7-13 *)
      let n := arg 1 c 0 in
      Ok (if (n <? 2) || (16 <? n) then x else upd_code2d (set_k_aztec_size n) x)
  | S_composite_set_hri => Ok (upd_code2d (set_k_composite_font (font_from_raw n)) x)
  | S_composite_set_max_width => (* composite_set_max_width.rs:7-11 writes the GS1 field *)
      Ok (upd_code2d (set_k_gs1_databar_max_width (n + arg 0 c 1 * 256)) x)
  | S_composite_set_width => Ok (upd_code2d (set_k_composite_width (arg 1 c 0)) x)
  | S_datamatrix_set_options =>
      do o <- datamatrix_options n (arg 0 c 1) (arg 0 c 2);
      Ok (match o with
          | Some (cols, rows, ty) =>
              upd_code2d (fun k => set_k_datamatrix_type ty (set_k_datamatrix_columns cols (set_k_datamatrix_rows rows k))) x
          | None => x
          end)
  | S_datamatrix_set_width => Ok (upd_code2d (set_k_datamatrix_width (arg 1 c 0)) x)
  | S_gs1_set_max_width => Ok (upd_code2d (set_k_gs1_databar_max_width (n + arg 0 c 1 * 256)) x)
  | S_gs1_set_width => Ok (upd_code2d (set_k_gs1_databar_width (arg 1 c 0)) x)
  | S_maxi_set_mode => do v <- sub_u8 (arg 50 c 0) 48; Ok (upd_code2d (set_k_maxicode_mode v) x)
  | S_pdf417_set_column_count => Ok (upd_code2d (set_k_pdf417_columns n) x)
  | S_pdf417_set_row_count => Ok (upd_code2d (set_k_pdf417_rows n) x)
  | S_pdf417_set_width => Ok (upd_code2d (set_k_pdf417_width n) x)
  | S_pdf417_set_options => Ok (upd_code2d (set_k_pdf417_is_truncated (negb (n =? 0))) x)
  | S_pdf417_set_correction_level => (* pdf417_set_correction_level.rs:7-44 *)
      if vlen (c_data c) <? 2 then Panic POverflow
      else do l <- pdf417_level (arg 48 c 0) (arg 48 c 1) (vlen (c_data c) - 2);
           Ok (upd_code2d (set_k_pdf417_err_correction l) x)
  | S_qr_set_correction_level => (* qr_set_correction_level.rs:7-16 *)
      Ok (upd_code2d (set_k_qr_error_correction
            (match arg 48 c 0 with 1 => QrM | 2 => QrQ | 3 => QrH | _ => QrL end)) x)
  | S_qr_set_model => (* qr_set_model.rs:7-16 *)
      Ok (upd_code2d (set_k_qr_model
            (match arg 49 c 0 with 49 => QrModel1 | 50 => QrModel2 | 51 => QrMicro | _ => QrModel1 end)) x)
  | S_qr_set_size => Ok (upd_code2d (set_k_qr_size (arg 1 c 0)) x)
  | S_qr_store => Ok (qr_store e (c_data c) x)
  | S_clear_all_download_graphics => Ok (upd_stored (map_retain_not Ram) x)
  | S_clear_all_nv_graphics => Ok (upd_stored (map_retain_not Disc) x)
  | S_clear_download_graphic => Ok (clear_one Ram (c_data c) x)
  | S_clear_nv_graphic => Ok (clear_one Disc (c_data c) x)
  | S_define_download_graphics_column => define_column Ram (c_data c) x
  | S_define_download_graphics_raster => define_raster Ram (c_data c) x
  | S_define_nv_graphics_column => define_column Disc (c_data c) x
  | S_define_nv_graphics_raster => define_raster Disc (c_data c) x
  | S_set_dot_density => (* set_dot_density.rs:7-18 *)
      let dx := arg 50 c 0 in let dy := arg 50 c 1 in
      Ok (if (dx =? 50) && (dy =? 50) then upd_graphics (set_g_dots_per_inch 180) x
          else if (dx =? 51) && (dy =? 51) then upd_graphics (set_g_dots_per_inch 360) x
          else x)
  | S_store_buffer_graphics_raster => store_buffer false (c_data c) x
  | S_store_buffer_graphics_column => store_buffer true (c_data c) x
  | _ => Ok x
  end.

(** The dispatch; subcommands/mod.rs:99-103 is the proxy *)
Definition apply_context (e : encoders) (c : command) (x : context) : res context :=
  match c_handler c with
  | HPlain id => apply_plain id c x
  | HCharEffects _ => Ok (character_effects c x)
  | HSubPlain id => apply_sub e id c x
  | HSub s => match ss_subcommand s with Some sc => apply_sub e (sc_id sc) c x | None => Ok x end
  | _ => Ok x
  end.

(** ** Device commands *)

(** set_justification.rs:8-19 *)
Definition justify_of (n : Z) : text_justify :=
  match n with 0 | 48 => JLeft | 1 | 49 => JCenter | 2 | 50 => JRight | _ => JLeft end.

(** get_device_command of the unit-struct handlers; [\[\]] stands for [None] *)
Definition device_plain (id : plain_id) (c : command) (x : context) : res (list device_command) :=
  let n := arg 0 c 0 in
  match id with
  | P_begin_print => Ok [BeginPrint]                 (* begin_print.rs:8-14 *)
  | P_end_print => Ok [EndPrint]                     (* end_print.rs:8-14 *)
  | P_cancel => Ok [Cancel]                          (* cancel.rs:7-13 *)
  | P_formfeed =>                                    (* formfeed.rs:9-18 *)
      Ok (if p_enabled (c_page x) then [EndPageMode; PrintPageMode] else [EndPrint])
  | P_initialize => Ok [Initialize]                  (* initialize.rs:7-13 *)
  | P_page_mode_print_area => Ok [ChangePageArea]    (* page_mode_print_area.rs:65-71 *)
  | P_page_mode_print_data =>                        (* page_mode_print_data.rs:12-22 *)
      Ok (if p_enabled (c_page x) then [PrintPageMode] else [])
  | P_page_mode_print_direction => Ok [ChangePageModeDirection]  (* page_mode_print_direction.rs:93-99 *)
  | P_print_and_feed => Ok [Feed n]                  (* print_and_feed.rs:7-14 *)
  | P_print_and_feed_lines => Ok [FeedLine n]        (* print_and_feed_lines.rs:7-14 *)
  | P_print_and_reverse_feed_lines => Ok [FeedLine (0 - n)]  (* print_and_reverse_feed_lines.rs:7-14 *)
  | P_select_standard_mode =>                        (* select_standard_mode.rs:18-27 *)
      Ok (if p_enabled (c_page x) then [EndPageMode] else [])
  | P_set_character_size =>                          (* set_character_size.rs:9-37 *)
      Ok [SetTextWidth (Z.shiftr (Z.land 112 n) 4 + 1); SetTextHeight (Z.land 7 n + 1)]
  | P_set_justification => Ok [Justify (justify_of n)]
  | P_set_page_mode => Ok [BeginPageMode]            (* set_page_mode.rs:9-15 *)
  | P_set_tab_len =>                                 (* set_tab_len.rs:7-23 *)
      do d <- default_spacing x; Ok [ChangeTabs (arg d c 0) (arg d c 1)]
  | _ => Ok []
  end.

(** feed_and_cut.rs:7-25 *)
Definition feed_cut_device (c : command) : list device_command :=
  let n := arg 0 c 1 in
  match arg 0 c 0 with
  | 0 | 48 => [FullCut]
  | 1 | 49 => [PartialCut]
  | 65 | 97 | 103 => [FullCut; Feed n]
  | 66 | 98 | 104 => [PartialCut; Feed n]
  | _ => []
  end.

(** The dispatch ([SubCommandHandler] does not proxy this method) *)
Definition get_device_command (c : command) (x : context) : res (list device_command) :=
  match c_handler c with
  | HPlain id => device_plain id c x
  | HFeedCut => Ok (feed_cut_device c)
  | HSubPlain S_print_buffer_graphics => Ok [ClearBufferGraphics]  (* print_buffer_graphics.rs:39-45 *)
  | _ => Ok []
  end.
