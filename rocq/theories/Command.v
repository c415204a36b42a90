(** * Command: model of thermal_parser/src/command.rs and of every stateful
    [CommandHandler::push] implementation. *)
From Verif Require Import Base.

(** command.rs:59-69 *)
Inductive ckind :=
| KControl | KText | KTextStyle | KGraphics | KContext | KContextControl | KSubcommand | KUnknown.

(** command.rs:71-83 *)
Inductive dkind :=
| DEmpty | DSingle | DDouble | DTriple | DQuad | DOctet | DText | DCustom | DSubcommand | DUnknown.

(** One constructor per unit-struct handler (thermal_parser/src/commands/<name>.rs). *)
Inductive plain_id :=
| P_begin_print
| P_cancel
| P_carriage_return
| P_default_line_spacing
| P_end_print
| P_formfeed
| P_horizontal_tab
| P_initialize
| P_linefeed
| P_offset_vertical_pos
| P_page_mode_print_area
| P_page_mode_print_data
| P_page_mode_print_direction
| P_paper_end_sensor
| P_print_and_feed
| P_print_and_feed_lines
| P_print_and_reverse_feed_lines
| P_print_stop_sensor
| P_pulse
| P_select_standard_mode
| P_set_alt_color
| P_set_barcode_font
| P_set_barcode_height
| P_set_barcode_hri
| P_set_barcode_width
| P_set_black_white_invert
| P_set_character_size
| P_set_code_table
| P_set_double_strike
| P_set_emphasis
| P_set_font
| P_set_horizontal_pos
| P_set_international_charset
| P_set_italic
| P_set_justification
| P_set_line_spacing
| P_set_motion_units
| P_set_page_mode
| P_set_panel_buttons
| P_set_peripheral_device
| P_set_print_mode
| P_set_smoothing
| P_set_tab_len
| P_set_underline
| P_set_upside_down
| P_set_vertical_pos
| P_text
| P_transmit_printer_id
| P_unknown
| P_unknown_gs_g.

(** One constructor per sub-command handler (thermal_parser/src/subcommands/gs_*/<name>.rs). *)
Inductive sub_id :=
| S_pdf417_set_column_count
| S_pdf417_set_row_count
| S_pdf417_set_width
| S_pdf417_set_correction_level
| S_pdf417_set_options
| S_pdf417_store
| S_pdf417_print
| S_pdf417_transmit_size
| S_maxi_transmit_size
| S_qr_transmit_size
| S_gs1_transmit_size
| S_aztec_transmit_size
| S_datamatrix_transmit_size
| S_qr_print
| S_maxi_print
| S_composite_transmit_size
| S_gs1_print
| S_composite_print
| S_aztec_print
| S_datamatrix_print
| S_datamatrix_store
| S_aztec_store
| S_composite_store
| S_gs1_store
| S_maxi_store
| S_qr_store
| S_qr_set_model
| S_qr_set_size
| S_qr_set_correction_level
| S_maxi_set_mode
| S_gs1_set_width
| S_gs1_set_max_width
| S_composite_set_width
| S_composite_set_max_width
| S_composite_set_hri
| S_aztec_set_function_and_layers
| S_aztec_set_size
| S_aztec_set_correction_level
| S_datamatrix_set_options
| S_datamatrix_set_width
| S_clear_all_download_graphics
| S_clear_all_nv_graphics
| S_clear_download_graphic
| S_clear_nv_graphic
| S_define_download_graphics_column
| S_define_download_graphics_raster
| S_define_nv_graphics_column
| S_define_nv_graphics_raster
| S_get_download_keycodes
| S_get_nv_capacity
| S_get_nv_keycodes
| S_get_nv_remaining_capacity
| S_print_buffer_graphics
| S_print_download_graphics
| S_print_nv_graphic
| S_set_dot_density
| S_store_buffer_graphics_raster
| S_store_buffer_graphics_column.

(** A sub-command of the tables in thermal_parser/src/subcommands.  In Rust this is an
    ordinary [Command]; its handler never receives bytes (its data is moved in by
    [SubCommandHandler::push]), so the model keeps only the handler's identity. *)
Record subcmd := mk_subcmd {
  sc_name : string;
  sc_commands : list Z;
  sc_data : list Z;
  sc_kind : ckind;
  sc_id : sub_id }.

Definition mk_sub (name : string) (commands : list Z) (k : ckind) (id : sub_id) : subcmd :=
  {| sc_name := name; sc_commands := commands; sc_data := []; sc_kind := k; sc_id := id |}.

(** commands/barcode.rs:19-37 *)
Inductive barcode_type :=
| UpcA | UpcE | Ean13 | Ean8 | Code39 | Itf | Nw7Codabar | Code93 | Code128 | Gs1128
| Gs1DatabarOmni | Gs1DatabarTruncated | Gs1DatabarLimited | Gs1DatabarExpanded
| Code128Auto | BUnknown.

(** commands/barcode.rs:39-44 *)
Inductive encoding := NulTerminated | ExplicitSize | EncUnknown.

(** commands/barcode.rs:46-55 *)
Record barcode_st := {
  bc_kind : barcode_type;
  bc_kind_id : Z;
  bc_encoding : encoding;
  bc_capacity : Z;
  bc_has_capacity : bool;
  bc_accept : bool;
  bc_raw_params : list Z }.

(** commands/barcode.rs:364-372 *)
Definition barcode_init : barcode_st :=
  {| bc_kind := BUnknown; bc_kind_id := 0; bc_encoding := EncUnknown; bc_capacity := 0;
     bc_has_capacity := false; bc_accept := false; bc_raw_params := [] |}.

(** commands/bit_image.rs:3-13 *)
Record bit_image_st := {
  bi_width : Z; bi_height : Z; bi_capacity : Z; bi_col_encoded : bool; bi_size : Z;
  bi_accept : bool; bi_stretch : Z * Z; bi_params : list Z }.

(** commands/bit_image.rs:106-115 *)
Definition bit_image_init : bit_image_st :=
  {| bi_width := 0; bi_height := 0; bi_capacity := 0; bi_col_encoded := true; bi_size := 0;
     bi_accept := false; bi_stretch := (1, 1); bi_params := [] |}.

(** commands/raster_bit_image.rs:3-11 *)
Record raster_st := {
  ra_width : Z; ra_height : Z; ra_capacity : Z; ra_scaling : Z; ra_accept : bool;
  ra_params : list Z }.

(** commands/raster_bit_image.rs:82-89 *)
Definition raster_init : raster_st :=
  {| ra_width := 0; ra_height := 0; ra_capacity := 0; ra_scaling := 0; ra_accept := false;
     ra_params := [] |}.

(** subcommands/mod.rs:11-21 *)
Record sub_st := {
  ss_commands : list subcmd;
  ss_subcommand : option subcmd;
  ss_is_large : bool;
  ss_m : Z;
  ss_id : Z;
  ss_capacity : Z;
  ss_accept : bool;
  ss_use_m : bool }.

(** subcommands/mod.rs:162-173 *)
Definition sub_init (is_large use_m : bool) (cmds : list subcmd) : sub_st :=
  {| ss_commands := cmds; ss_subcommand := None; ss_is_large := is_large; ss_m := 0;
     ss_id := 0; ss_capacity := 0; ss_accept := false; ss_use_m := use_m |}.

(** [Box<dyn CommandHandler>]: the concrete handler together with its private state. *)
Inductive handler :=
| HPlain (id : plain_id)
| HFeedCut
| HCharEffects (capacity : Z)
| HBarcode (s : barcode_st)
| HBitImage (s : bit_image_st)
| HRaster (s : raster_st)
| HSub (s : sub_st)
| HSubPlain (id : sub_id).

(** command.rs:85-93 ([Rc] sharing dropped: values are immutable in Gallina) *)
Record command := mk_command {
  c_name : string;
  c_commands : list Z;
  c_data : list Z;
  c_kind : ckind;
  c_dkind : dkind;
  c_handler : handler }.

(** command.rs:95-113 [Command::new] *)
Definition mk_cmd (name : string) (commands : list Z) (k : ckind) (dk : dkind) (h : handler)
  : command :=
  {| c_name := name; c_commands := commands; c_data := []; c_kind := k; c_dkind := dk;
     c_handler := h |}.

Definition with_data (c : command) (d : list Z) : command :=
  {| c_name := c_name c; c_commands := c_commands c; c_data := d; c_kind := c_kind c;
     c_dkind := c_dkind c; c_handler := c_handler c |}.
Definition with_handler (c : command) (h : handler) : command :=
  {| c_name := c_name c; c_commands := c_commands c; c_data := c_data c; c_kind := c_kind c;
     c_dkind := c_dkind c; c_handler := h |}.

(** ** The handlers' [push] methods.
    Each takes the handler state, the command's data and the byte, and returns
    (accepted?, new handler state, new data). *)

(** commands/barcode.rs:299-316 *)
Definition barcode_kind (b : Z) : barcode_type :=
  if (b =? 0) || (b =? 65) then UpcA
  else if (b =? 1) || (b =? 66) then UpcE
  else if (b =? 2) || (b =? 67) then Ean13
  else if (b =? 3) || (b =? 68) then Ean8
  else if (b =? 4) || (b =? 69) then Code39
  else if (b =? 5) || (b =? 70) then Itf
  else if (b =? 6) || (b =? 71) then Nw7Codabar
  else if b =? 72 then Code93
  else if b =? 73 then Code128
  else if b =? 80 then Gs1128
  else if b =? 81 then Gs1DatabarOmni
  else if b =? 82 then Gs1DatabarTruncated
  else if b =? 83 then Gs1DatabarLimited
  else if b =? 84 then Gs1DatabarExpanded
  else if b =? 85 then Code128Auto
  else BUnknown.

(** commands/barcode.rs:318-326 *)
Definition barcode_encoding (b : Z) : encoding :=
  if b <=? 6 then NulTerminated
  else if (65 <=? b) && (b <=? 79) then ExplicitSize
  else EncUnknown.

(** commands/barcode.rs:292-355 *)
Definition barcode_push (s : barcode_st) (data : list Z) (byte : Z)
  : bool * barcode_st * list Z :=
  if negb (bc_accept s) then
    (true,
     {| bc_kind := barcode_kind byte; bc_kind_id := byte; bc_encoding := barcode_encoding byte;
        bc_capacity := bc_capacity s; bc_has_capacity := bc_has_capacity s; bc_accept := true;
        bc_raw_params := bc_raw_params s ++ [byte] |}, data)
  else
    match bc_encoding s with
    | NulTerminated =>
        if last data 1 =? NUL then (false, s, removelast data)
        else (true, s, data ++ [byte])
    | ExplicitSize =>
        if negb (bc_has_capacity s) then
          (true,
           {| bc_kind := bc_kind s; bc_kind_id := bc_kind_id s; bc_encoding := bc_encoding s;
              bc_capacity := byte; bc_has_capacity := true; bc_accept := bc_accept s;
              bc_raw_params := bc_raw_params s ++ [byte] |}, data)
        else if Z.of_nat (length data) <? bc_capacity s then (true, s, data ++ [byte])
        else (false, s, data)
    | EncUnknown => (false, s, data)
    end.

(** commands/bit_image.rs:40-89.  All u32 arithmetic stays in range for byte operands. *)
Definition bit_image_push (s : bit_image_st) (data : list Z) (byte : Z)
  : bool * bit_image_st * list Z :=
  if bi_accept s then
    if bi_capacity s <=? bi_size s then (false, s, data)
    else (true,
          {| bi_width := bi_width s; bi_height := bi_height s; bi_capacity := bi_capacity s;
             bi_col_encoded := bi_col_encoded s; bi_size := bi_size s + 1; bi_accept := true;
             bi_stretch := bi_stretch s; bi_params := bi_params s |}, data ++ [byte])
  else if (length data <? 2)%nat then (true, s, data ++ [byte])
  else
    let m := get_or 0 data 0 in
    let p1 := get_or 0 data 1 in
    let w := p1 + byte * 256 in
    let h := if (m =? 32) || (m =? 33) then 24 else 8 in
    (true,
     {| bi_width := w; bi_height := h; bi_capacity := w * h / 8;
        bi_col_encoded := if (m =? 32) || (m =? 33) then true else bi_col_encoded s;
        bi_size := bi_size s; bi_accept := true;
        bi_stretch := if (m =? 0) || (m =? 32) then (2, 3) else bi_stretch s;
        bi_params := [m; p1; byte] |}, []).

(** commands/raster_bit_image.rs:33-65.  width*height <= 65535*65535 fits u32. *)
Definition raster_push (s : raster_st) (data : list Z) (byte : Z)
  : bool * raster_st * list Z :=
  if negb (ra_accept s) then
    if (length data <? 4)%nat then (true, s, data ++ [byte])
    else
      let scaling := get_or 0 data 0 in
      let xl := get_or 0 data 1 in
      let xh := get_or 0 data 2 in
      let yl := get_or 0 data 3 in
      let w := xl + xh * 256 in
      let h := yl + byte * 256 in
      (true,
       {| ra_width := w * 8; ra_height := h; ra_capacity := w * h; ra_scaling := scaling;
          ra_accept := true; ra_params := [scaling; xl; xh; yl; byte] |}, [])
  else if ra_capacity s <=? Z.of_nat (length data) then (false, s, data)
  else (true, s, data ++ [byte]).

(** commands/feed_and_cut.rs:27-42 *)
Definition feed_cut_push (data : list Z) (byte : Z) : bool * list Z :=
  match data with
  | [] => (true, [byte])
  | [m] => if (m =? 0) || (m =? 48) || (m =? 1) || (m =? 49) then (false, data)
           else (true, data ++ [byte])
  | _ => (false, data)
  end.

(** commands/set_character_effects.rs:10-30 *)
Definition char_effects_push (cap : Z) (data : list Z) (byte : Z) : bool * Z * list Z :=
  if (length data <? 2)%nat then (true, cap, data ++ [byte])
  else if (length data =? 2)%nat then
    (true, (get_or 0 data 0 + get_or 0 data 1 * 256) + 2, data ++ [byte])
  else if Z.of_nat (length data) <? cap then (true, cap, data ++ [byte])
  else (false, cap, data).

(** subcommands/mod.rs:25-32: first table entry having the id anywhere among its bytes. *)
Definition detect_kind (cmds : list subcmd) (id : Z) : option subcmd :=
  find (fun c => mem_byte id (sc_commands c)) cmds.

(** subcommands/mod.rs:34-49: the loop over the table has no [break], so the last entry
    whose first byte is [m] (an entry with no bytes at all would pass the first test but can
    never match below) and which has the id at a later position wins. *)
Definition detect_kind_use_m (cmds : list subcmd) (m id : Z) : option subcmd :=
  fold_left
    (fun acc c =>
       match sc_commands c with
       | [] => acc
       | b :: rest => if negb (b =? m) then acc
                      else if mem_byte id rest then Some c else acc
       end) cmds None.

(** subcommands/mod.rs:52-83 *)
Definition parse_meta (s : sub_st) (meta : list Z) : res sub_st :=
  let n := length meta in
  do s1 <- (if (n =? 4)%nat then
              let cap := parse_u16 meta 0 in
              if cap <? 2 then Panic POverflow else
              Ok (cap - 2, get_or 0 meta 2, get_or 0 meta 3)
            else if (n =? 6)%nat then
              let cap := parse_u32 meta 0 in
              if cap <? 2 then Panic POverflow else
              Ok (cap - 2, get_or 0 meta 4, get_or 0 meta 5)
            else Ok (ss_capacity s, ss_m s, ss_id s));
  let '(cap, m, id) := s1 in
  let found := if ss_use_m s then detect_kind_use_m (ss_commands s) m id
               else detect_kind (ss_commands s) id in
  let found' := match found with Some c => Some c | None => ss_subcommand s end in
  Ok {| ss_commands := ss_commands s;
        ss_subcommand :=
          match found' with
          | Some c => Some {| sc_name := sc_name c; sc_commands := meta; sc_data := sc_data c;
                              sc_kind := sc_kind c; sc_id := sc_id c |}
          | None => None
          end;
        ss_is_large := ss_is_large s; ss_m := m; ss_id := id; ss_capacity := cap;
        ss_accept := true; ss_use_m := ss_use_m s |}.

(** subcommands/mod.rs:137-151 (the [println!] is not modelled) *)
Definition sub_take (s : sub_st) (data : list Z) (byte : Z) : bool * sub_st * list Z :=
  if Z.of_nat (length data) <? ss_capacity s then (true, s, data ++ [byte])
  else
    match ss_subcommand s with
    | Some c =>
        (false,
         {| ss_commands := ss_commands s;
            ss_subcommand := Some {| sc_name := sc_name c; sc_commands := sc_commands c;
                                     sc_data := data; sc_kind := sc_kind c; sc_id := sc_id c |};
            ss_is_large := ss_is_large s; ss_m := ss_m s; ss_id := ss_id s;
            ss_capacity := ss_capacity s; ss_accept := ss_accept s; ss_use_m := ss_use_m s |},
         sc_data c)
    | None => (false, s, data)
    end.

(** subcommands/mod.rs:115-152 *)
Definition sub_push (s : sub_st) (data : list Z) (byte : Z) : res (bool * sub_st * list Z) :=
  if negb (ss_accept s) then
    let n := if ss_is_large s then 6%nat else 4%nat in
    if (length data <? n)%nat then Ok (true, s, data ++ [byte])
    else
      do s' <- parse_meta s (firstn n data);
      Ok (sub_take s' [] byte)
  else Ok (sub_take s data byte).

(** The dispatch of [CommandHandler::push]; the trait default (command.rs:208-210) rejects. *)
Definition handler_push (h : handler) (data : list Z) (byte : Z)
  : res (bool * handler * list Z) :=
  match h with
  | HPlain id => Ok (false, HPlain id, data)
  | HSubPlain id => Ok (false, HSubPlain id, data)
  | HFeedCut => let '(a, d) := feed_cut_push data byte in Ok (a, HFeedCut, d)
  | HCharEffects cap =>
      let '(a, cap', d) := char_effects_push cap data byte in Ok (a, HCharEffects cap', d)
  | HBarcode s => let '(a, s', d) := barcode_push s data byte in Ok (a, HBarcode s', d)
  | HBitImage s => let '(a, s', d) := bit_image_push s data byte in Ok (a, HBitImage s', d)
  | HRaster s => let '(a, s', d) := raster_push s data byte in Ok (a, HRaster s', d)
  | HSub s => do r <- sub_push s data byte; let '(a, s', d) := r in Ok (a, HSub s', d)
  end.

(** Fixed capacities of command.rs:123-148; [None]: not a fixed-size kind. *)
Definition fixed_arity (k : dkind) : option nat :=
  match k with
  | DEmpty => Some 0%nat | DSingle => Some 1%nat | DDouble => Some 2%nat | DTriple => Some 3%nat
  | DQuad => Some 4%nat | DOctet => Some 8%nat
  | DText | DUnknown | DCustom | DSubcommand => None
  end.

(** command.rs:116-153 [Command::push] *)
Definition cmd_push (c : command) (byte : Z) : res (bool * command) :=
  match c_dkind c with
  | DCustom | DSubcommand =>
      do r <- handler_push (c_handler c) (c_data c) byte;
      let '(a, h, d) := r in
      Ok (a, with_handler (with_data c d) h)
  | DText | DUnknown => Ok (true, with_data c (c_data c ++ [byte]))
  | k =>
      match fixed_arity k with
      | Some n => if (n <=? length (c_data c))%nat then Ok (false, c)
                  else Ok (true, with_data c (c_data c ++ [byte]))
      | None => Ok (false, c)
      end
  end.

(** [CommandHandler::get_subcommand] (command.rs:213-215 default; subcommands/mod.rs:155-159) *)
Definition get_subcommand (h : handler) : option subcmd :=
  match h with HSub s => ss_subcommand s | _ => None end.

(** [CommandHandler::get_command_bytes]: command.rs:220-224 (default),
    barcode.rs:277-287, bit_image.rs:92-97, raster_bit_image.rs:68-73. *)
Definition get_command_bytes (c : command) : list Z * list Z :=
  match c_handler c with
  | HBarcode s =>
      (c_commands c ++ bc_raw_params s,
       match bc_encoding s with NulTerminated => c_data c ++ [NUL] | _ => c_data c end)
  | HBitImage s => (c_commands c, bi_params s ++ c_data c)
  | HRaster s => (c_commands c, ra_params s ++ c_data c)
  | _ => (c_commands c, c_data c)
  end.
