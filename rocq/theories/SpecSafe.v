(** * SpecSafe: what "printing does not crash" is claimed for (C33).

    The renderer is built on unchecked indexing and overflow-checked arithmetic, and some inputs do
    make it panic (PropsSafe lists them, each with a proof).  [gentle] is the list of conditions a
    command has to meet, one line per command that is not unconditionally harmless; everything not
    named there is harmless whatever its bytes are. *)
From Verif Require Import Base Command CommandSet Parser Vec GTypes Graphics SpecGraphics Context Text Handlers Utf8.
Local Open Scope Z_scope.
Local Open Scope list_scope.

(** A single-colour image of [w] by [h] dots stretched by [sx], [sy] has fewer than 2^32 dots. *)
Definition small_image (w h sx sy : Z) : Prop :=
  (w * Z.max sx 1) * (h * Z.max sy 1) <= u32_max /\ w * Z.max sx 1 <= u32_max /\ h * Z.max sy 1 <= u32_max.

(** Column format data: at least one dot high, and all the bytes it announces. *)
Definition complete_columns (w h : Z) (body : list Z) : Prop := 0 < h /\ vlen body = line_bytes h * w.

(** The bytes that follow the eight parameters of a GS ( L / GS 8 L graphics function. *)
Definition body (data : list Z) : list Z := skipn 8 data.

(** [right] chooses between two ways to keep right-justified lines inside the paper: [false] no right
    justification at all, [true] right justification with characters at most doubled in width. *)
Definition gentle (right : bool) (c : command) : Prop :=
  match c_handler c with
  | HPlain P_set_page_mode => False                                   (* ESC L: page mode *)
  | HPlain P_print_and_reverse_feed_lines => arg 0 c 0 = 0            (* ESC e n *)
  | HPlain P_set_motion_units => arg 0 c 0 <= 180                     (* GS P x y *)
  | HPlain P_set_justification => right = false -> justify_of (arg 0 c 0) <> JRight   (* ESC a n *)
  | HPlain P_set_character_size =>                                    (* GS ! n *)
      right = true -> Z.shiftr (Z.land 112 (arg 0 c 0)) 4 + 1 <= 2
  | HRaster s =>                                                      (* GS v 0 *)
      small_image (ra_width s) (ra_height s) (fst (raster_stretch (ra_scaling s))) (snd (raster_stretch (ra_scaling s)))
  | HBitImage s =>                                                    (* ESC * *)
      bi_col_encoded s = true -> complete_columns (bi_width s) (bi_height s) (c_data c)
  | HBarcode s =>                                                     (* GS k, EAN-13 *)
      bc_kind s = Ean13 -> is_cont (get_or 0 (c_data c) 12) = false
  | HSubPlain S_define_nv_graphics_column | HSubPlain S_define_download_graphics_column =>
      8 <= vlen (c_data c)
  | HSubPlain S_store_buffer_graphics_raster =>
      vlen (c_data c) < 4 \/
      (8 <= vlen (c_data c) /\
       small_image (parse_u16 (c_data c) 4) (parse_u16 (c_data c) 6) (arg 0 c 1) (arg 0 c 2) /\
       parse_u16 (c_data c) 6 * Z.max (arg 0 c 2) 1 <= 131070)
  | HSubPlain S_store_buffer_graphics_column =>
      vlen (c_data c) < 4 \/
      (8 <= vlen (c_data c) /\
       small_image (parse_u16 (c_data c) 4) (parse_u16 (c_data c) 6) (arg 0 c 1) (arg 0 c 2) /\
       parse_u16 (c_data c) 6 * Z.max (arg 0 c 2) 1 <= 131070 /\
       complete_columns (parse_u16 (c_data c) 4) (parse_u16 (c_data c) 6) (body (c_data c)))
  | HSubPlain S_pdf417_set_correction_level => 2 <= vlen (c_data c) /\ 48 <= arg 48 c 0
  | HSubPlain S_maxi_set_mode => 48 <= arg 50 c 0
  | HSubPlain S_datamatrix_set_options =>
      arg 0 c 0 = 0 \/ arg 0 c 0 = 48 -> arg 0 c 1 + arg 0 c 2 <= 255
  | _ => True
  end.

(** The encoders of the external crates return symbols of a sane size: at most 2^20 bars, QR symbols
    square with 1 to 177 modules a side. *)
Definition short (o : option (list Z)) : Prop := match o with Some l => vlen l <= 1048576 | None => True end.
Record encoders_ok (e : encoders) : Prop := mk_encoders_ok {
  eo_bars : forall t, short (e_code128 e t) /\ short (e_codabar e t) /\ short (e_code39 e t) /\ short (e_code93 e t) /\
                      short (e_ean13 e t) /\ short (e_upca e t) /\ short (e_ean8 e t) /\ short (e_itf e t);
  eo_qr : forall d m v l, match e_qr e d m v l with
                          | Some (bits, w) => 1 <= w <= 177 /\ vlen bits = w * w
                          | None => True end }.

(** An upper bound on the paper one command can use, in dots. *)
Definition paper_for (c : command) : Z :=
  match c_kind c with
  | KText => 255 * (1 + vlen (c_data c))
  | KGraphics => 200000
  | KControl | KContextControl | KTextStyle => 65025
  | _ => 0
  end.
Definition paper_for_all (l : list command) : Z := fold_right (fun c a => paper_for c + a) 0 l.

(** Several jobs for one renderer: each parses and has only gentle commands. *)
Definition good_job (right : bool) (bs : list Z) : Prop :=
  bytes_ok bs = true /\ exists cmds, parse_esc_pos bs = Ok cmds /\ Forall (gentle right) cmds.
Definition paper_for_job (bs : list Z) : Z :=
  match parse_esc_pos bs with Ok cmds => paper_for_all cmds | Panic _ => 0 end.
Definition paper_for_jobs (jobs : list (list Z)) : Z := fold_right (fun bs a => paper_for_job bs + a) 0 jobs.
