(** * CommandSet: the ESC/POS command table and the two sub-command tables.
    Transcribed mechanically from the [pub fn new()] of every file under
    thermal_parser/src/commands and thermal_parser/src/subcommands. *)
From Verif Require Import Base Command.
Local Open Scope string_scope.
Local Open Scope Z_scope.
Local Open Scope list_scope.

(** subcommands/gs_code2d/pdf417_set_column_count.rs:12-20 *)
Definition sub_pdf417_set_column_count : subcmd :=
  mk_sub "PDF417 Sets the Column Width" [48; 65] KContext S_pdf417_set_column_count.
(** subcommands/gs_code2d/pdf417_set_row_count.rs:12-20 *)
Definition sub_pdf417_set_row_count : subcmd :=
  mk_sub "PDF417 Sets the number of rows" [48; 66] KContext S_pdf417_set_row_count.
(** subcommands/gs_code2d/pdf417_set_width.rs:12-20 *)
Definition sub_pdf417_set_width : subcmd :=
  mk_sub "PDF417 Sets the Module Width" [48; 67] KContext S_pdf417_set_width.
(** subcommands/gs_code2d/pdf417_set_correction_level.rs:47-55 *)
Definition sub_pdf417_set_correction_level : subcmd :=
  mk_sub "PDF417 Set Error Correction Level" [48; 69] KContext S_pdf417_set_correction_level.
(** subcommands/gs_code2d/pdf417_set_options.rs:14-22 *)
Definition sub_pdf417_set_options : subcmd :=
  mk_sub "PDF417 Set Options" [48; 70] KContext S_pdf417_set_options.
(** subcommands/gs_code2d/pdf417_store.rs:13-21 *)
Definition sub_pdf417_store : subcmd :=
  mk_sub "PDF417 Store the Code2D data" [48; 80] KContext S_pdf417_store.
(** subcommands/gs_code2d/pdf417_print.rs:17-25 *)
Definition sub_pdf417_print : subcmd :=
  mk_sub "Print the Code2D data" [48; 81] KGraphics S_pdf417_print.
(** subcommands/gs_code2d/pdf417_transmit_size.rs:10-18 *)
Definition sub_pdf417_transmit_size : subcmd :=
  mk_sub "Transmit Size of storage area" [48; 82] KControl S_pdf417_transmit_size.
(** subcommands/gs_code2d/maxi_transmit_size.rs:10-18 *)
Definition sub_maxi_transmit_size : subcmd :=
  mk_sub "Transmit Size of storage area" [50; 82] KControl S_maxi_transmit_size.
(** subcommands/gs_code2d/qr_transmit_size.rs:10-18 *)
Definition sub_qr_transmit_size : subcmd :=
  mk_sub "Transmit Size of storage area" [49; 82] KControl S_qr_transmit_size.
(** subcommands/gs_code2d/gs1_transmit_size.rs:10-18 *)
Definition sub_gs1_transmit_size : subcmd :=
  mk_sub "Transmit Size of storage area" [51; 82] KControl S_gs1_transmit_size.
(** subcommands/gs_code2d/aztec_transmit_size.rs:10-18 *)
Definition sub_aztec_transmit_size : subcmd :=
  mk_sub "Transmit Size of storage area" [53; 82] KControl S_aztec_transmit_size.
(** subcommands/gs_code2d/datamatrix_transmit_size.rs:10-18 *)
Definition sub_datamatrix_transmit_size : subcmd :=
  mk_sub "Transmit Size of storage area" [54; 82] KControl S_datamatrix_transmit_size.
(** subcommands/gs_code2d/qr_print.rs:17-25 *)
Definition sub_qr_print : subcmd :=
  mk_sub "Print the Code2D data" [49; 81] KGraphics S_qr_print.
(** subcommands/gs_code2d/maxi_print.rs:17-25 *)
Definition sub_maxi_print : subcmd :=
  mk_sub "Print the Code2D data" [50; 81] KGraphics S_maxi_print.
(** subcommands/gs_code2d/composite_transmit_size.rs:10-18 *)
Definition sub_composite_transmit_size : subcmd :=
  mk_sub "Transmit Size of storage area" [52; 82] KControl S_composite_transmit_size.
(** subcommands/gs_code2d/gs1_print.rs:17-25 *)
Definition sub_gs1_print : subcmd :=
  mk_sub "Print the Code2D data" [51; 81] KGraphics S_gs1_print.
(** subcommands/gs_code2d/composite_print.rs:17-25 *)
Definition sub_composite_print : subcmd :=
  mk_sub "Print the Code2D data" [52; 81] KGraphics S_composite_print.
(** subcommands/gs_code2d/aztec_print.rs:17-25 *)
Definition sub_aztec_print : subcmd :=
  mk_sub "Print the Code2D data" [53; 81] KGraphics S_aztec_print.
(** subcommands/gs_code2d/datamatrix_print.rs:17-25 *)
Definition sub_datamatrix_print : subcmd :=
  mk_sub "Print the Code2D data" [54; 81] KGraphics S_datamatrix_print.
(** subcommands/gs_code2d/datamatrix_store.rs:13-21 *)
Definition sub_datamatrix_store : subcmd :=
  mk_sub "PDF417 Store the Code2D data" [54; 80] KContext S_datamatrix_store.
(** subcommands/gs_code2d/aztec_store.rs:13-21 *)
Definition sub_aztec_store : subcmd :=
  mk_sub "PDF417 Store the Code2D data" [53; 80] KContext S_aztec_store.
(** subcommands/gs_code2d/composite_store.rs:13-21 *)
Definition sub_composite_store : subcmd :=
  mk_sub "PDF417 Store the Code2D data" [52; 80] KContext S_composite_store.
(** subcommands/gs_code2d/gs1_store.rs:13-21 *)
Definition sub_gs1_store : subcmd :=
  mk_sub "PDF417 Store the Code2D data" [51; 80] KContext S_gs1_store.
(** subcommands/gs_code2d/maxi_store.rs:13-21 *)
Definition sub_maxi_store : subcmd :=
  mk_sub "PDF417 Store the Code2D data" [50; 80] KContext S_maxi_store.
(** subcommands/gs_code2d/qr_store.rs:90-98 *)
Definition sub_qr_store : subcmd :=
  mk_sub "QR Store the Code2D data" [49; 80] KContext S_qr_store.
(** subcommands/gs_code2d/qr_set_model.rs:19-27 *)
Definition sub_qr_set_model : subcmd :=
  mk_sub "QR Sets the Model" [49; 65] KContext S_qr_set_model.
(** subcommands/gs_code2d/qr_set_size.rs:12-20 *)
Definition sub_qr_set_size : subcmd :=
  mk_sub "QR Sets the dot count" [49; 67] KContext S_qr_set_size.
(** subcommands/gs_code2d/qr_set_correction_level.rs:19-27 *)
Definition sub_qr_set_correction_level : subcmd :=
  mk_sub "QR Sets Error Correction Level" [49; 69] KContext S_qr_set_correction_level.
(** subcommands/gs_code2d/maxi_set_mode.rs:15-23 *)
Definition sub_maxi_set_mode : subcmd :=
  mk_sub "Maxi Sets the Mode" [50; 65] KContext S_maxi_set_mode.
(** subcommands/gs_code2d/gs1_set_width.rs:12-20 *)
Definition sub_gs1_set_width : subcmd :=
  mk_sub "GS1 Sets the dot Width" [51; 67] KContext S_gs1_set_width.
(** subcommands/gs_code2d/gs1_set_max_width.rs:14-22 *)
Definition sub_gs1_set_max_width : subcmd :=
  mk_sub "GS1 Sets Max Width" [51; 71] KContext S_gs1_set_max_width.
(** subcommands/gs_code2d/composite_set_width.rs:12-20 *)
Definition sub_composite_set_width : subcmd :=
  mk_sub "Composite Sets the dot Width" [52; 67] KContext S_composite_set_width.
(** subcommands/gs_code2d/composite_set_max_width.rs:14-22 *)
Definition sub_composite_set_max_width : subcmd :=
  mk_sub "Composite Sets Max Width" [52; 71] KContext S_composite_set_max_width.
(** subcommands/gs_code2d/composite_set_hri.rs:13-21 *)
Definition sub_composite_set_hri : subcmd :=
  mk_sub "Composite Sets Human Readable Options" [52; 72] KContext S_composite_set_hri.
(** subcommands/gs_code2d/aztec_set_function_and_layers.rs:27-35 *)
Definition sub_aztec_set_function_and_layers : subcmd :=
  mk_sub "Aztec Set Function and Layers" [53; 66] KContext S_aztec_set_function_and_layers.
(** subcommands/gs_code2d/aztec_set_size.rs:16-24 *)
Definition sub_aztec_set_size : subcmd :=
  mk_sub "Aztec Set Size" [53; 67] KContext S_aztec_set_size.
(** subcommands/gs_code2d/aztec_set_correction_level.rs:13-21 *)
Definition sub_aztec_set_correction_level : subcmd :=
  mk_sub "Aztec Set Error Correction Level" [53; 69] KContext S_aztec_set_correction_level.
(** subcommands/gs_code2d/datamatrix_set_options.rs:46-54 *)
Definition sub_datamatrix_set_options : subcmd :=
  mk_sub "Datamatrix Set Options" [54; 66] KContext S_datamatrix_set_options.
(** subcommands/gs_code2d/datamatrix_set_width.rs:12-20 *)
Definition sub_datamatrix_set_width : subcmd :=
  mk_sub "Datamatrix Sets the dot Width" [52; 67] KContext S_datamatrix_set_width.

(** subcommands/gs_code2d/mod.rs:46-91, in source order. *)
Definition code2d_table : list subcmd :=
  [sub_pdf417_set_column_count;
   sub_pdf417_set_row_count;
   sub_pdf417_set_width;
   sub_pdf417_set_correction_level;
   sub_pdf417_set_options;
   sub_pdf417_store;
   sub_pdf417_print;
   sub_pdf417_transmit_size;
   sub_maxi_transmit_size;
   sub_qr_transmit_size;
   sub_gs1_transmit_size;
   sub_aztec_transmit_size;
   sub_datamatrix_transmit_size;
   sub_qr_print;
   sub_maxi_print;
   sub_composite_transmit_size;
   sub_gs1_print;
   sub_composite_print;
   sub_aztec_print;
   sub_datamatrix_print;
   sub_datamatrix_store;
   sub_aztec_store;
   sub_composite_store;
   sub_gs1_store;
   sub_maxi_store;
   sub_qr_store;
   sub_qr_set_model;
   sub_qr_set_size;
   sub_qr_set_correction_level;
   sub_maxi_set_mode;
   sub_gs1_set_width;
   sub_gs1_set_max_width;
   sub_composite_set_width;
   sub_composite_set_max_width;
   sub_composite_set_hri;
   sub_aztec_set_function_and_layers;
   sub_aztec_set_size;
   sub_aztec_set_correction_level;
   sub_datamatrix_set_options;
   sub_datamatrix_set_width].

(** subcommands/gs_graphics/clear_all_download_graphics.rs:15-23 *)
Definition sub_clear_all_download_graphics : subcmd :=
  mk_sub "Clears Download RAM Graphics Data" [81] KContext S_clear_all_download_graphics.
(** subcommands/gs_graphics/clear_all_nv_graphics.rs:18-26 *)
Definition sub_clear_all_nv_graphics : subcmd :=
  mk_sub "Clears NV Graphics Data" [65] KContext S_clear_all_nv_graphics.
(** subcommands/gs_graphics/clear_download_graphic.rs:14-22 *)
Definition sub_clear_download_graphic : subcmd :=
  mk_sub "Clear Download (RAM) Graphic" [82] KContext S_clear_download_graphic.
(** subcommands/gs_graphics/clear_nv_graphic.rs:15-23 *)
Definition sub_clear_nv_graphic : subcmd :=
  mk_sub "Clear NV Graphic" [66] KContext S_clear_nv_graphic.
(** subcommands/gs_graphics/define_download_graphics_column.rs:39-47 *)
Definition sub_define_download_graphics_column : subcmd :=
  mk_sub "Define Download Graphics in Column Format" [84] KContext S_define_download_graphics_column.
(** subcommands/gs_graphics/define_download_graphics_raster.rs:39-47 *)
Definition sub_define_download_graphics_raster : subcmd :=
  mk_sub "Define Download Graphics in Raster Format" [83] KContext S_define_download_graphics_raster.
(** subcommands/gs_graphics/define_nv_graphics_column.rs:39-47 *)
Definition sub_define_nv_graphics_column : subcmd :=
  mk_sub "Define NV Graphics in Column Format" [68] KContext S_define_nv_graphics_column.
(** subcommands/gs_graphics/define_nv_graphics_raster.rs:39-47 *)
Definition sub_define_nv_graphics_raster : subcmd :=
  mk_sub "Define NV Graphics in Raster Format" [67] KContext S_define_nv_graphics_raster.
(** subcommands/gs_graphics/get_download_keycodes.rs:11-19 *)
Definition sub_get_download_keycodes : subcmd :=
  mk_sub "Get Download RAM Key Codes" [80] KControl S_get_download_keycodes.
(** subcommands/gs_graphics/get_nv_capacity.rs:11-19 *)
Definition sub_get_nv_capacity : subcmd :=
  mk_sub "Get NV Capacity" [0; 48] KControl S_get_nv_capacity.
(** subcommands/gs_graphics/get_nv_keycodes.rs:11-19 *)
Definition sub_get_nv_keycodes : subcmd :=
  mk_sub "Get NV Key Codes" [64] KControl S_get_nv_keycodes.
(** subcommands/gs_graphics/get_nv_remaining_capacity.rs:11-19 *)
Definition sub_get_nv_remaining_capacity : subcmd :=
  mk_sub "Get NV Remaining Capacity" [4; 52] KControl S_get_nv_remaining_capacity.
(** subcommands/gs_graphics/print_buffer_graphics.rs:48-56 *)
Definition sub_print_buffer_graphics : subcmd :=
  mk_sub "Print Buffer Graphics" [2; 50] KGraphics S_print_buffer_graphics.
(** subcommands/gs_graphics/print_download_graphics.rs:15-23 *)
Definition sub_print_download_graphics : subcmd :=
  mk_sub "Print Download (RAM) Graphics" [85] KGraphics S_print_download_graphics.
(** subcommands/gs_graphics/print_nv_graphic.rs:16-24 *)
Definition sub_print_nv_graphic : subcmd :=
  mk_sub "Print NV Graphic" [69] KGraphics S_print_nv_graphic.
(** subcommands/gs_graphics/set_dot_density.rs:22-30 *)
Definition sub_set_dot_density : subcmd :=
  mk_sub "Set Dot Density" [1; 49] KContext S_set_dot_density.
(** subcommands/gs_graphics/store_buffer_graphics_raster.rs:37-45 *)
Definition sub_store_buffer_graphics_raster : subcmd :=
  mk_sub "Store Print Buffer Graphics Raster Format" [112] KContext S_store_buffer_graphics_raster.
(** subcommands/gs_graphics/store_buffer_graphics_column.rs:36-44 *)
Definition sub_store_buffer_graphics_column : subcmd :=
  mk_sub "Store Print Buffer Graphics Table Format" [113] KContext S_store_buffer_graphics_column.

(** subcommands/gs_graphics/mod.rs:24-48, in source order. *)
Definition graphics_table : list subcmd :=
  [sub_clear_all_download_graphics;
   sub_clear_all_nv_graphics;
   sub_clear_download_graphic;
   sub_clear_nv_graphic;
   sub_define_download_graphics_column;
   sub_define_download_graphics_raster;
   sub_define_nv_graphics_column;
   sub_define_nv_graphics_raster;
   sub_define_download_graphics_raster;
   sub_get_download_keycodes;
   sub_get_nv_capacity;
   sub_get_nv_keycodes;
   sub_get_nv_remaining_capacity;
   sub_print_buffer_graphics;
   sub_print_download_graphics;
   sub_print_nv_graphic;
   sub_set_dot_density;
   sub_store_buffer_graphics_raster;
   sub_store_buffer_graphics_column].

(** commands/barcode.rs:358-374 *)
Definition cmd_barcode : command :=
  mk_cmd "Barcode" [GS; 107] KGraphics DCustom (HBarcode barcode_init).
(** commands/bit_image.rs:100-117 *)
Definition cmd_bit_image : command :=
  mk_cmd "Bit Image" [ESC; 42] KGraphics DCustom (HBitImage bit_image_init).
(** commands/cancel.rs:16-24 *)
Definition cmd_cancel : command :=
  mk_cmd "Cancel" [CAN; 64] KControl DEmpty (HPlain P_cancel).
(** commands/carriage_return.rs:13-21 *)
Definition cmd_carriage_return : command :=
  mk_cmd "Line Feed" [CR] KText DEmpty (HPlain P_carriage_return).
(** commands/code_2d.rs:4-12 *)
Definition cmd_code_2d : command :=
  mk_cmd "QR Code" [GS; 40; 107] KSubcommand DCustom (HSub (sub_init false true code2d_table)).
(** commands/default_line_spacing.rs:14-22 *)
Definition cmd_default_line_spacing : command :=
  mk_cmd "Default Line Spacing" [ESC; 50] KContext DEmpty (HPlain P_default_line_spacing).
(** commands/feed_and_cut.rs:45-53 *)
Definition cmd_feed_and_cut : command :=
  mk_cmd "Feed and Cut" [GS; 86] KControl DCustom (HFeedCut).
(** commands/formfeed.rs:21-29 *)
Definition cmd_formfeed : command :=
  mk_cmd "Form Feed" [FF] KControl DEmpty (HPlain P_formfeed).
(** commands/graphics.rs:3-11 *)
Definition cmd_graphics : command :=
  mk_cmd "Graphics" [GS; 40; 76] KSubcommand DCustom (HSub (sub_init false false graphics_table)).
(** commands/horizontal_tab.rs:13-21 *)
Definition cmd_horizontal_tab : command :=
  mk_cmd "Horizontal Tab" [HT] KText DEmpty (HPlain P_horizontal_tab).
(** commands/initialize.rs:19-27 *)
Definition cmd_initialize : command :=
  mk_cmd "Initialize" [ESC; 64] KContextControl DEmpty (HPlain P_initialize).
(** commands/large_graphics.rs:3-11 *)
Definition cmd_large_graphics : command :=
  mk_cmd "Large Graphics" [GS; 56; 76] KSubcommand DCustom (HSub (sub_init true false graphics_table)).
(** commands/linefeed.rs:13-21 *)
Definition cmd_linefeed : command :=
  mk_cmd "Line Feed" [LF] KText DEmpty (HPlain P_linefeed).
(** commands/paper_end_sensor.rs:8-16 *)
Definition cmd_paper_end_sensor : command :=
  mk_cmd "Select Paper End Sensors" [ESC; 99; 3] KControl DSingle (HPlain P_paper_end_sensor).
(** commands/print_and_feed_lines.rs:17-25 *)
Definition cmd_print_and_feed_lines : command :=
  mk_cmd "Print and Feed Lines" [ESC; 100] KControl DSingle (HPlain P_print_and_feed_lines).
(** commands/print_and_feed.rs:17-25 *)
Definition cmd_print_and_feed : command :=
  mk_cmd "Print and Feed" [ESC; 74] KControl DSingle (HPlain P_print_and_feed).
(** commands/print_and_reverse_feed_lines.rs:17-25 *)
Definition cmd_print_and_reverse_feed_lines : command :=
  mk_cmd "Print and Reverse Feed Lines" [ESC; 101] KControl DSingle (HPlain P_print_and_reverse_feed_lines).
(** commands/print_stop_sensor.rs:8-16 *)
Definition cmd_print_stop_sensor : command :=
  mk_cmd "Print Stop Sensors" [ESC; 99; 4] KControl DSingle (HPlain P_print_stop_sensor).
(** commands/pulse.rs:8-16 *)
Definition cmd_pulse : command :=
  mk_cmd "Pulse" [ESC; 112] KControl DTriple (HPlain P_pulse).
(** commands/raster_bit_image.rs:76-91 *)
Definition cmd_raster_bit_image : command :=
  mk_cmd "Raster Bit Image" [GS; 118; 48] KGraphics DCustom (HRaster raster_init).
(** commands/request_response_transmission.rs:3-11 *)
Definition cmd_request_response_transmission : command :=
  mk_cmd "Request Response Transmission" [GS; 40; 72] KControl DCustom (HSub (sub_init false false [])).
(** commands/set_horizontal_pos.rs:30-38 *)
Definition cmd_set_horizontal_pos : command :=
  mk_cmd "Set Absolute Horizontal Position" [ESC; 36] KContext DDouble (HPlain P_set_horizontal_pos).
(** commands/set_alt_color.rs:16-24 *)
Definition cmd_set_alt_color : command :=
  mk_cmd "Set Print Color to Alternate" [ESC; 114] KTextStyle DSingle (HPlain P_set_alt_color).
(** commands/set_barcode_height.rs:13-21 *)
Definition cmd_set_barcode_height : command :=
  mk_cmd "Set Barcode Height" [GS; 104] KContext DSingle (HPlain P_set_barcode_height).
(** commands/set_barcode_width.rs:32-40 *)
Definition cmd_set_barcode_width : command :=
  mk_cmd "Set Barcode Width" [GS; 119] KContext DSingle (HPlain P_set_barcode_width).
(** commands/set_black_white_invert.rs:22-30 *)
Definition cmd_set_black_white_invert : command :=
  mk_cmd "Set Black White Invert" [GS; 66] KTextStyle DSingle (HPlain P_set_black_white_invert).
(** commands/set_character_size.rs:39-47 *)
Definition cmd_set_character_size : command :=
  mk_cmd "Set Character Size" [GS; 33] KTextStyle DSingle (HPlain P_set_character_size).
(** commands/set_code_table.rs:95-103 *)
Definition cmd_set_code_table : command :=
  mk_cmd "Set Code Table" [ESC; 116] KTextStyle DSingle (HPlain P_set_code_table).
(** commands/set_double_strike.rs:25-33 *)
Definition cmd_set_double_strike : command :=
  mk_cmd "Enable Double Strike Through" [ESC; 71] KTextStyle DSingle (HPlain P_set_double_strike).
(** commands/set_emphasis.rs:13-21 *)
Definition cmd_set_emphasis : command :=
  mk_cmd "Enable Emphasis" [ESC; 69] KTextStyle DSingle (HPlain P_set_emphasis).
(** commands/set_font.rs:13-21 *)
Definition cmd_set_font : command :=
  mk_cmd "Set Font" [ESC; 77] KTextStyle DSingle (HPlain P_set_font).
(** commands/set_motion_units.rs:43-51 *)
Definition cmd_set_motion_units : command :=
  mk_cmd "Set Vertical and Horizontal Motion Units" [GS; 80] KContext DDouble (HPlain P_set_motion_units).
(** commands/set_barcode_font.rs:14-22 *)
Definition cmd_set_barcode_font : command :=
  mk_cmd "Set Hri Barcode Font" [GS; 102] KContext DSingle (HPlain P_set_barcode_font).
(** commands/set_barcode_hri.rs:19-27 *)
Definition cmd_set_barcode_hri : command :=
  mk_cmd "Set Hri Print POS" [GS; 72] KContext DSingle (HPlain P_set_barcode_hri).
(** commands/set_international_charset.rs:62-70 *)
Definition cmd_set_international_charset : command :=
  mk_cmd "Set International Character Set" [ESC; 82] KTextStyle DSingle (HPlain P_set_international_charset).
(** commands/set_italic.rs:13-21 *)
Definition cmd_set_italic : command :=
  mk_cmd "Enable Italic" [ESC; 52] KTextStyle DSingle (HPlain P_set_italic).
(** commands/set_justification.rs:22-30 *)
Definition cmd_set_justification : command :=
  mk_cmd "Set Text Justification" [ESC; 97] KControl DSingle (HPlain P_set_justification).
(** commands/set_line_spacing.rs:17-25 *)
Definition cmd_set_line_spacing : command :=
  mk_cmd "Set Line Spacing" [ESC; 51] KContext DSingle (HPlain P_set_line_spacing).
(** commands/set_panel_buttons.rs:8-16 *)
Definition cmd_set_panel_buttons : command :=
  mk_cmd "Enable Panel Buttons" [ESC; 99; 5] KControl DSingle (HPlain P_set_panel_buttons).
(** commands/set_peripheral_device.rs:8-16 *)
Definition cmd_set_peripheral_device : command :=
  mk_cmd "Set Peripheral Device" [ESC; 61] KControl DSingle (HPlain P_set_peripheral_device).
(** commands/set_print_mode.rs:50-58 *)
Definition cmd_set_print_mode : command :=
  mk_cmd "Set Print Mode" [ESC; 33] KTextStyle DSingle (HPlain P_set_print_mode).
(** commands/offset_vertical_pos.rs:34-42 *)
Definition cmd_offset_vertical_pos : command :=
  mk_cmd "Set Relative Vertical Position" [GS; 92] KContext DDouble (HPlain P_offset_vertical_pos).
(** commands/set_smoothing.rs:13-21 *)
Definition cmd_set_smoothing : command :=
  mk_cmd "Set Smoothing" [GS; 98] KTextStyle DSingle (HPlain P_set_smoothing).
(** commands/set_tab_len.rs:26-34 *)
Definition cmd_set_tab_len : command :=
  mk_cmd "Set Tab Len" [ESC; 68] KTextStyle DDouble (HPlain P_set_tab_len).
(** commands/set_underline.rs:18-26 *)
Definition cmd_set_underline : command :=
  mk_cmd "Enable Underline" [ESC; 45] KTextStyle DSingle (HPlain P_set_underline).
(** commands/set_upside_down.rs:13-21 *)
Definition cmd_set_upside_down : command :=
  mk_cmd "Enable Upside Down Mode" [ESC; 123] KTextStyle DSingle (HPlain P_set_upside_down).
(** commands/transmit_printer_id.rs:8-16 *)
Definition cmd_transmit_printer_id : command :=
  mk_cmd "Transmit Printer ID" [GS; 73] KControl DSingle (HPlain P_transmit_printer_id).
(** commands/set_page_mode.rs:18-26 *)
Definition cmd_set_page_mode : command :=
  mk_cmd "Set page mode" [ESC; 76] KContextControl DEmpty (HPlain P_set_page_mode).
(** commands/set_vertical_pos.rs:38-46 *)
Definition cmd_set_vertical_pos : command :=
  mk_cmd "Set Absolute Vertical Position" [GS; 36] KContext DDouble (HPlain P_set_vertical_pos).
(** commands/page_mode_print_area.rs:78-86 *)
Definition cmd_page_mode_print_area : command :=
  mk_cmd "Set Print Area" [ESC; 87] KContextControl DOctet (HPlain P_page_mode_print_area).
(** commands/page_mode_print_direction.rs:102-110 *)
Definition cmd_page_mode_print_direction : command :=
  mk_cmd "Set Page Mode Print Direction" [ESC; 84] KContextControl DSingle (HPlain P_page_mode_print_direction).
(** commands/page_mode_print_data.rs:25-33 *)
Definition cmd_page_mode_print_data : command :=
  mk_cmd "Print Contents of Page Mode" [ESC; FF] KControl DCustom (HPlain P_page_mode_print_data).
(** commands/select_standard_mode.rs:30-38 *)
Definition cmd_select_standard_mode : command :=
  mk_cmd "Select standard mode" [ESC; 83] KContext DEmpty (HPlain P_select_standard_mode).
(** commands/set_character_effects.rs:67-75 *)
Definition cmd_set_character_effects : command :=
  mk_cmd "Set Character Effects" [GS; 40; 78] KTextStyle DCustom (HCharEffects 2).
(** commands/unknown_gs_g.rs:16-24 *)
Definition cmd_unknown_gs_g : command :=
  mk_cmd "Unknown GS ( G" [GS; 40; 71] KContext DQuad (HPlain P_unknown_gs_g).
(** commands/text.rs:20-28 *)
Definition cmd_text : command :=
  mk_cmd "Text" [] KText DText (HPlain P_text).
(** commands/unknown.rs:8-16 *)
Definition cmd_unknown : command :=
  mk_cmd "Unknown Command" [DLE; ESC; FS; GS] KUnknown DUnknown (HPlain P_unknown).
(** commands/begin_print.rs:17-25 *)
Definition cmd_begin_print : command :=
  mk_cmd "Begin Print" [] KControl DEmpty (HPlain P_begin_print).
(** commands/end_print.rs:17-25 *)
Definition cmd_end_print : command :=
  mk_cmd "End Print" [] KControl DEmpty (HPlain P_end_print).

(** command_sets/esc_pos.rs:4-61: the command table, in source order. *)
Definition esc_pos_commands : list command :=
  [cmd_barcode;
   cmd_bit_image;
   cmd_cancel;
   cmd_carriage_return;
   cmd_code_2d;
   cmd_default_line_spacing;
   cmd_feed_and_cut;
   cmd_formfeed;
   cmd_graphics;
   cmd_horizontal_tab;
   cmd_initialize;
   cmd_large_graphics;
   cmd_linefeed;
   cmd_paper_end_sensor;
   cmd_print_and_feed_lines;
   cmd_print_and_feed;
   cmd_print_and_reverse_feed_lines;
   cmd_print_stop_sensor;
   cmd_pulse;
   cmd_raster_bit_image;
   cmd_request_response_transmission;
   cmd_set_horizontal_pos;
   cmd_set_alt_color;
   cmd_set_barcode_height;
   cmd_set_barcode_width;
   cmd_set_black_white_invert;
   cmd_set_character_size;
   cmd_set_code_table;
   cmd_set_double_strike;
   cmd_set_emphasis;
   cmd_set_font;
   cmd_set_motion_units;
   cmd_set_barcode_font;
   cmd_set_barcode_hri;
   cmd_set_international_charset;
   cmd_set_italic;
   cmd_set_justification;
   cmd_set_line_spacing;
   cmd_set_panel_buttons;
   cmd_set_peripheral_device;
   cmd_set_print_mode;
   cmd_offset_vertical_pos;
   cmd_set_smoothing;
   cmd_set_tab_len;
   cmd_set_underline;
   cmd_set_upside_down;
   cmd_transmit_printer_id;
   cmd_set_page_mode;
   cmd_set_vertical_pos;
   cmd_page_mode_print_area;
   cmd_page_mode_print_direction;
   cmd_page_mode_print_data;
   cmd_select_standard_mode;
   cmd_set_character_effects;
   cmd_unknown_gs_g].

(** command_sets/mod.rs CommandSet *)
Record command_set := {
  cs_commands : list command;
  cs_default : command;
  cs_unknown : command;
  cs_begin : command;
  cs_end : command }.

(** command_sets/esc_pos.rs:63-69 *)
Definition esc_pos : command_set :=
  {| cs_default := cmd_text; cs_unknown := cmd_unknown; cs_begin := cmd_begin_print;
     cs_end := cmd_end_print; cs_commands := esc_pos_commands |}.

(** Conversion hint only (no logical content): unfold the big tables last. *)
Global Strategy 1000 [esc_pos_commands code2d_table graphics_table].
