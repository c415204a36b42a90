{
 "claims": [
  {
   "property": "C01",
   "status": "proved",
   "theorems": [
    "C01_stream_parses_exactly",
    "C01_every_byte_string",
    "C01_reading_unique"
   ],
   "note": "for every stream of well-formed commands and for every byte string"
  },
  {
   "property": "C02",
   "status": "proved",
   "theorems": [
    "C02_framed"
   ],
   "note": ""
  },
  {
   "property": "C03",
   "status": "proved",
   "theorems": [
    "C03_parser_reuse"
   ],
   "note": ""
  },
  {
   "property": "C04",
   "status": "proved",
   "theorems": [
    "C04_panic_iff",
    "C04_no_sub_no_panic"
   ],
   "note": ""
  },
  {
   "property": "C05",
   "status": "proved",
   "theorems": [
    "C05_text_verbatim",
    "C05_leading_text_spurious_unknown"
   ],
   "note": "second theorem: text at the very start is preceded by a spurious empty Unknown command"
  },
  {
   "property": "C06",
   "status": "proved",
   "theorems": [
    "C06_fixed_arguments"
   ],
   "note": ""
  },
  {
   "property": "C07",
   "status": "proved",
   "theorems": [
    "C07_next_byte_starts_afresh",
    "C07_payload_verbatim"
   ],
   "note": ""
  },
  {
   "property": "C08",
   "status": "proved",
   "theorems": [
    "C08_table_prefix_free",
    "C08_each_prefix_recognised"
   ],
   "note": ""
  },
  {
   "property": "C09",
   "status": "proved",
   "theorems": [
    "C09_nothing_invented",
    "C09_nul_barcode_at_end_invents_nul",
    "C09_nothing_lost",
    "C09_items_lossless",
    "C09_losses_are_real"
   ],
   "note": "the exact exceptions are theorems"
  },
  {
   "property": "C10",
   "status": "proved",
   "theorems": [
    "C10_unknown_reported"
   ],
   "note": ""
  },
  {
   "property": "C11",
   "status": "proved",
   "theorems": [
    "C11_compositional"
   ],
   "note": ""
  },
  {
   "property": "C12",
   "status": "proved",
   "theorems": [
    "C12_subcommand_recovered",
    "C12_last_subcommand_loses_payload",
    "C12_function_tables"
   ],
   "note": ""
  },
  {
   "property": "C13",
   "status": "proved",
   "theorems": [
    "C13_parse_str",
    "C13_lines_independent",
    "C13_only_bytes",
    "C13_token_before_quote_lost",
    "C13_bad_hex_dropped",
    "C13_big_number_is_text"
   ],
   "note": "the last three say what happens to lines outside the format"
  },
  {
   "property": "C14",
   "status": "proved",
   "theorems": [
    "C14_round_trip",
    "C14_stream_round_trip",
    "C14_bytes_round_trip",
    "C14_carriage_return_lost",
    "C14_quote_lost",
    "C14_backslash_lost",
    "C14_latin1_replaced",
    "C14_leading_text_gains_bytes"
   ],
   "note": "the last five show each part of the guard is needed"
  },
  {
   "property": "C15",
   "status": "proved",
   "theorems": [
    "C15_raster_pixels",
    "C15_raster_ink",
    "C15_raster_ink_refuted",
    "C15_wrong_length_is_error"
   ],
   "note": ""
  },
  {
   "property": "C16",
   "status": "proved",
   "theorems": [
    "C16_column_pixels",
    "C16_column_is_transposed_raster",
    "C16_truncated_column_data_panics",
    "C16_multicolour_column_never_decodes"
   ],
   "note": ""
  },
  {
   "property": "C17",
   "status": "proved",
   "theorems": [
    "C17_scaling",
    "C17_scaling_by_one"
   ],
   "note": ""
  },
  {
   "property": "C18",
   "status": "proved",
   "theorems": [
    "C18_topmost_opaque_layer_wins",
    "C18_layers_blend_in_order",
    "C18_larger_layer_refused",
    "C18_smaller_layer_misplaced_refuted",
    "C18_multicolour_raster",
    "C18_multicolour_raster_odd_width_refuted"
   ],
   "note": ""
  },
  {
   "property": "C19",
   "status": "proved",
   "theorems": [
    "C19_initialize_restores_defaults",
    "C19_initialize_never_fails",
    "C19_initialize_rewinds_paper"
   ],
   "note": "consequence for the user: the paper position is rewound to the top (last theorem)"
  },
  {
   "property": "C20",
   "status": "proved",
   "theorems": [
    "C20_style_commands_touch_only_their_setting",
    "C20_style_table_complete",
    "C20_setting_commands_touch_only_their_part",
    "C20_setting_table_complete",
    "C20_switches",
    "C20_font",
    "C20_underline",
    "C20_code_page",
    "C20_international_set",
    "C20_invert",
    "C20_alternate_color",
    "C20_print_mode",
    "C20_print_mode_underline_refuted",
    "C20_double_strike",
    "C20_double_strike_off_refuted",
    "C20_character_size",
    "C20_tab_entry",
    "C20_justification",
    "C20_line_spacing",
    "C20_barcode_settings"
   ],
   "note": "frame conditions and the exact new values; two documented meanings are false of the code (_refuted)"
  },
  {
   "property": "C21",
   "status": "proved",
   "theorems": [
    "C21_settings_invariant"
   ],
   "note": ""
  },
  {
   "property": "C22",
   "status": "proved",
   "theorems": [
    "C22_justification",
    "C22_block_images_inside"
   ],
   "note": ""
  },
  {
   "property": "C23",
   "status": "proved",
   "theorems": [
    "C23_rotations_compose",
    "C23_turns_match_direction",
    "C23_direction_change_keeps_page",
    "C23_walks",
    "C23_direction_in_standard_mode_refuted"
   ],
   "note": "ESC T outside page mode repeats the last turn (the _refuted theorem), so the history theorem is about ESC T in page mode"
  },
  {
   "property": "C24",
   "status": "proved",
   "theorems": [
    "C24_page_covers_print_area",
    "C24_print_area_command"
   ],
   "note": ""
  },
  {
   "property": "C25",
   "status": "proved",
   "theorems": [
    "C25_words_lossless",
    "C25_words_shape",
    "C25_words_unique",
    "C25_break_apart_panic_iff",
    "C25_break_apart"
   ],
   "note": ""
  },
  {
   "property": "C26",
   "status": "proved",
   "theorems": [
    "C26_unknown_selection_falls_back",
    "C26_bytewise",
    "C26_one_char_per_byte",
    "C26_length_preserved",
    "C26_ascii",
    "C26_pages_437_860_863_exact",
    "C26_page_850_refuted",
    "C26_page_865_refuted",
    "C26_page_857_but_three",
    "C26_katakana",
    "C26_utf8_roundtrip",
    "C26_utf8_strict_iff",
    "C26_utf8_total"
   ],
   "note": "pages 851 and 853 have no published mapping at hand: only the one-character property is proved for them"
  },
  {
   "property": "C27",
   "status": "proved",
   "theorems": [
    "C27_only_listed_positions_change",
    "C27_high_half_untouched",
    "C27_indian_digits",
    "C27_national_sets_refuted"
   ],
   "note": "sets 11-16 not compared with a published table"
  },
  {
   "property": "C28",
   "status": "proved",
   "theorems": [
    "C28_check_digit",
    "C28_check_digit_unique",
    "C30_seven_digits",
    "C30_eleven_digits",
    "C28_given_check_digit_unverified_refuted"
   ],
   "note": "inputs that carry a check digit (8 or 12 digits) are accepted whatever it is: the _refuted theorem"
  },
  {
   "property": "C29",
   "status": "proved",
   "theorems": [
    "C29_symbol",
    "C29_symbol_determines_code"
   ],
   "note": ""
  },
  {
   "property": "C30",
   "status": "proved",
   "theorems": [
    "C30_compress_expand",
    "C30_six_digits",
    "C30_seven_digits",
    "C30_eight_digits",
    "C30_eleven_digits",
    "C30_accepted_keeps",
    "C30_distinct_numbers_same_symbol_refuted"
   ],
   "note": "the second half of the statement is false of the code: the _refuted theorem gives two UPC-A numbers with one symbol"
  },
  {
   "property": "C31",
   "status": "proved",
   "theorems": [
    "C31_outputs",
    "C31_framed"
   ],
   "note": ""
  },
  {
   "property": "C32",
   "status": "proved",
   "theorems": [
    "C32_each_command",
    "C32_every_character_once",
    "C32_reading_order",
    "C32_right_edge",
    "C32_wraps_words",
    "C32_wide_word_refuted",
    "C32_tab_right_refuted",
    "C32_position_right_refuted",
    "C32_right_panics"
   ],
   "note": "containment under the stated conditions; the _refuted theorems show each condition is needed"
  },
  {
   "property": "C33",
   "status": "proved",
   "theorems": [
    "C33_no_crash",
    "C33_no_crash_jobs",
    "C33_receipts_print",
    "C33_reverse_feed",
    "C33_absolute_position",
    "C33_motion_units",
    "C33_crashes",
    "C33_exceptions_needed"
   ],
   "note": "standard mode; the exceptions are listed in SpecSafe.gentle, each with a crashing stream; the external symbol encoders are assumed to return (encoders_ok: sane sizes)"
  },
  {
   "property": "C34",
   "status": "proved",
   "theorems": [
    "C34_paper_painting",
    "C34_nothing_else_changes",
    "C34_refused_painting",
    "C34_white_and_transparent_do_not_cover",
    "C34_black_covers",
    "C34_upside_down_mirrors"
   ],
   "note": ""
  },
  {
   "property": "C35",
   "status": "proved",
   "theorems": [
    "C35_rotation_moves_pixels",
    "C35_four_quarter_turns",
    "C35_half_turn_is_two_quarters",
    "C35_three_quarters_undo_one",
    "C35_empty_page_forgets_its_width"
   ],
   "note": "for canvases with at least one row; an empty canvas loses its width (last theorem)"
  },
  {
   "property": "C36",
   "status": "proved",
   "theorems": [
    "C36_pixels_fill_the_rectangle",
    "C36_rgb_export",
    "C36_turning_and_widening_never_fail"
   ],
   "note": ""
  },
  {
   "property": "C37",
   "status": "proved",
   "theorems": [
    "C37_growing_height_keeps_the_picture",
    "C37_growing_width_centres_the_picture",
    "C37_narrower_width_changes_nothing",
    "C37_top_margin_shifts_the_picture"
   ],
   "note": "there is no add_left_margin in the code"
  },
  {
   "property": "C38",
   "status": "proved",
   "theorems": [
    "C38_page_painting",
    "C38_page_does_not_grow_refuted"
   ],
   "note": "The page grows although it must not because the bottom-edge test uses the block width (thermal_image.rs:534); C38_page_painting says exactly when. Sizes must fit the code's u32 arithmetic."
  },
  {
   "property": "C39",
   "status": "proved",
   "theorems": [
    "C39_images"
   ],
   "note": ""
  },
  {
   "property": "C40",
   "status": "proved",
   "theorems": [
    "C40_sheet",
    "C40_first_image"
   ],
   "note": "sheets on which no page-mode page is printed; fonts are an arbitrary parameter"
  },
  {
   "property": "C41",
   "status": "proved",
   "theorems": [
    "C41_no_sheet",
    "C41_only_the_first_image_shows_anything",
    "C41_form_feed_loses_the_bitmap"
   ],
   "note": "the expected behaviour is false of the code; proved is what happens instead"
  },
  {
   "property": "C42",
   "status": "proved",
   "theorems": [
    "C42_bitmap_printed_exactly"
   ],
   "note": ""
  },
  {
   "property": "C43",
   "status": "proved",
   "theorems": [
    "C43_number_of_documents",
    "C43_document_text",
    "C43_standard_job",
    "C43_markup_refuted",
    "C43_placeholder_refuted"
   ],
   "note": "text without the characters < & {; the _refuted theorems show the condition is needed. Line feeds between spans are markup white space and are not compared"
  },
  {
   "property": "C44",
   "status": "proved",
   "theorems": [
    "C44_rows",
    "C44_same_line_refuted"
   ],
   "note": "the gaps are exact for every document; positions agree when the things printed are stacked"
  },
  {
   "property": "C45",
   "status": "proved",
   "theorems": [
    "C45_repeats"
   ],
   "note": "the expected behaviour is false of the code; proved is what happens instead"
  },
  {
   "property": "C46",
   "status": "proved",
   "theorems": [
    "C46_empty_image_stops",
    "C46_stops_refuted"
   ],
   "note": "the expected behaviour is false of the code; proved is what happens instead"
  },
  {
   "property": "C47",
   "status": "proved",
   "theorems": [
    "C47_each_command",
    "C47_errors",
    "C47_unknown_commands",
    "C47_image_errors",
    "C47_reported_once_refuted"
   ],
   "note": "the image renderer reports a complaint again at every sheet (the _refuted theorem)"
  },
  {
   "property": "C48",
   "status": "proved",
   "theorems": [
    "C48_raster",
    "C48_raster_page",
    "C48_raster_cut_short",
    "C48_bit_image",
    "C48_quadruple_refuted",
    "C48_single_density_refuted"
   ],
   "note": "the mode bytes 51/52 of GS v 0 and 32 of ESC * are not what the manual says (_refuted)"
  },
  {
   "property": "C49",
   "status": "proved",
   "theorems": [
    "C49_printed"
   ],
   "note": "standard mode; the text is placed by C32 rules, its exact line breaks are not restated"
  },
  {
   "property": "C50",
   "status": "proved",
   "theorems": [
    "C49_printed",
    "C50_refused",
    "C50_gs1_refuted",
    "C50_check_digit_refuted",
    "C50_brace_refuted"
   ],
   "note": "the accepted half is C49_printed with SpecBarcode.barcode; the _refuted theorems are documented meanings the code does not have"
  },
  {
   "property": "C51",
   "status": "proved",
   "theorems": [
    "C51_printed",
    "C51_other_symbols_refuted",
    "C51_overlap_refuted",
    "C51_level_refuted",
    "C51_stale_refuted"
   ],
   "note": "standard mode, symbols that fit the paper width; the _refuted theorems are documented meanings the code does not have"
  },
  {
   "property": "C52",
   "status": "proved",
   "theorems": [
    "C52_printed",
    "C52_damaged",
    "C52_odd_width_refuted",
    "C52_initialize_deletes_refuted",
    "C52_column_refuted"
   ],
   "note": "placement in standard mode; the _refuted theorems are documented meanings the code does not have"
  },
  {
   "property": "C53",
   "status": "proved",
   "theorems": [
    "C53_printed",
    "C53_empty",
    "C53_damaged"
   ],
   "note": "standard mode, pictures of equal size; unequal sizes are C18_larger_layer_refused and C18_smaller_layer_misplaced_refuted"
  },
  {
   "property": "C54",
   "status": "proved",
   "theorems": [
    "C54_line",
    "C54_lines",
    "C54_feed",
    "C54_position",
    "C54_paper_moves_forward",
    "C54_cells",
    "C54_base_line",
    "C54_tab_at_stop_refuted",
    "C54_initialize_goes_back_refuted",
    "C54_feed_overprints_refuted"
   ],
   "note": "standard mode; lines that need wrapping are C32. Counterexamples: C54_tab_at_stop_refuted, C54_initialize_goes_back_refuted, C54_feed_overprints_refuted"
  },
  {
   "property": "C55",
   "status": "proved",
   "theorems": [
    "C55_sheet",
    "C55_image",
    "C55_page_printed",
    "C55_image_shows_page",
    "C55_paper_waits",
    "C55_print_page",
    "C55_form_feed",
    "C55_page_goes_where_the_paper_stood",
    "C55_print_page_outside",
    "C55_page_needs_an_area",
    "C55_paper_moves_past_the_print_refuted",
    "C55_enlarging_keeps_the_page_refuted"
   ],
   "note": "the pixel-for-pixel copy assumes that painted colours are bytes (their type in the program). Counterexamples: the two _refuted theorems; C55_page_needs_an_area is the general form of the third"
  },
  {
   "property": "C56",
   "status": "proved",
   "theorems": [
    "C56_rows_show"
   ],
   "note": "Content of every row of the HTML document against SpecRow.shows; C56_demo is a mixed-size line and a picture, C56_applies meets all hypotheses."
  },
  {
   "property": "C57",
   "status": "proved",
   "theorems": [
    "C57_look",
    "C57_four_colours",
    "C57_double_underline_refuted",
    "C57_stretch_refuted",
    "C57_strike_refuted"
   ],
   "note": "Cascade of the template's style sheet, read by a small CSS reader in SpecRow (element, class and two-class selectors, which is all the template uses for text)."
  },
  {
   "property": "C58",
   "status": "proved",
   "theorems": [
    "C58_horizontal",
    "C58_vertical",
    "C58_relative",
    "C58_vertical_only_in_page_mode",
    "C58_area",
    "C58_area_enlarges",
    "C58_turn",
    "C58_area_stays_refuted",
    "C58_third_direction_refuted",
    "C58_relative_stays_inside_refuted",
    "C58_area_must_fit_refuted"
   ],
   "note": "Places are stated on the upright page (SpecPosition); with no text waiting. Counterexamples: the four _refuted theorems."
  },
  {
   "property": "C59",
   "status": "proved",
   "theorems": [
    "C59_image",
    "C59_short_job",
    "C59_html",
    "C59_longer_paper_refuted",
    "C59_empty_picture_refuted"
   ],
   "note": "C59_image/C59_short_job: image renderer; C59_html: HTML renderer; the refutations show both limits are needed. Page-mode jobs are outside (as in C33)."
  },
  {
   "property": "C60",
   "status": "proved",
   "theorems": [
    "C60_sheet",
    "C60_first_image",
    "C60_ink",
    "C60_inks",
    "C60_never_lighter"
   ],
   "note": "Exact, all f32 rounding eliminated. Sheets printed in standard mode (page-mode pages are C41/C38). The scene is specified in SpecScene.v without any renderer code; non-vacuity: Example C60_demo computes single dots of a job's image through the theorem."
  },
  {
   "property": "C61",
   "status": "proved",
   "theorems": [
    "C61_settings",
    "C61_job",
    "C61_text",
    "C61_printed",
    "C61_whole_text",
    "C61_whole_job"
   ],
   "note": "The manual (SpecManual.v) reads command bytes and parameters only; the theorem is an equality of the whole flat settings record with a fold over the stream. C61_whole_text and C61_whole_job give the text with the texts of barcodes (SpecTitles.v; the symbol encoders are parameters; CODE128 data with a doubled opening brace, refuted in C50, are outside). Demos: C61_demo, C61_titles_demo."
  },
  {
   "property": "C62",
   "status": "proved",
   "theorems": [
    "C62_protocol",
    "C62_page_mode",
    "C62_job",
    "C62_page_end_refuted"
   ],
   "note": "Equality of the whole sequence of non-drawing calls with a list computed from the command bytes; the payload of the page-shape call is left to C23/C24."
  },
  {
   "property": "C63",
   "status": "proved",
   "theorems": [
    "C63_rows",
    "C63_same_page"
   ],
   "note": "Generalises C56 (which excluded printed pages) to all jobs; C63_same_page compares the two renderers. The PNG encoder and the fonts are parameters."
  },
  {
   "property": "C64",
   "status": "proved",
   "theorems": [
    "C64_sheet",
    "C64_image",
    "C64_html_page"
   ],
   "note": "SpecStage: the sheet (as in SpecScene) and the page beside it, both in whole numbers. Generalises C60 to jobs that print pages. C64_html_page gives the picture a page becomes in an HTML receipt (with C63)."
  },
  {
   "property": "C65",
   "status": "proved",
   "theorems": [
    "C65_typed",
    "C65_plain",
    "C65_prints"
   ],
   "note": "From raw job bytes to every dot of the image; the specification (SpecPlain.v) is a page long and mentions no state of the printer. Composes the parser (C01), decoder (C26), layout (C54), image (C40) and dot (C60) theorems. The font library is a parameter (fonts_fine: sizes and offsets unsigned, coverages bytes)."
  },
  {
   "property": "C66",
   "status": "proved",
   "theorems": [
    "C66_receipt",
    "C66_prints"
   ],
   "note": "SpecReceipt gives the bytes of a part, its height, the indent of a line and the cell a dot lies in; C66_receipt: the one image of the job, its size and all its dots; C66_prints: up to 29000 parts and 800 m the job does become an image. Demo: C66_demo, C66_demo_prints. The font library is a parameter (fonts_fine)."
  },
  {
   "property": "C67",
   "status": "proved",
   "theorems": [
    "C67_document",
    "C67_prints"
   ],
   "note": "End to end in HTML: the exact text of the one document for every receipt of styled, aligned lines, feeds and cuts. Non-vacuity: C67_demo and C67_demo_prints give the slip of C66 as text."
  },
  {
   "property": "C68",
   "status": "proved",
   "theorems": [
    "C68_slip",
    "C68_prints"
   ],
   "note": "SpecSlip gives the bytes of an element, its height, the place of a picture and the bit of the data at a dot; C68_slip: the one image of the job, its size and all its dots; C68_prints: up to 16000 elements and 800 m the job does become an image. Demo: C68_demo, C68_demo_prints (two pictures, a line, a feed and a cut). The font library is a parameter (fonts_fine)."
  },
  {
   "property": "C69",
   "status": "proved",
   "theorems": [
    "C69_document",
    "C69_prints"
   ],
   "note": "End to end in HTML with pictures: the exact text of the one document for every receipt of lines, feeds, cuts and GS v 0 pictures. The PNG encoder is a parameter (its text has base64 characters; it takes pictures that have dots). Non-vacuity: C69_demo and C69_demo_prints give the slip of C68 as text."
  },
  {
   "property": "C70",
   "status": "proved",
   "theorems": [
    "C70_ticket",
    "C70_prints"
   ],
   "note": "SpecTicket adds barcodes to the elements of SpecSlip: their bytes (ESC a, GS k function B), the width of the symbol and the module at a dot. C70_ticket: the one image of the job, its size and all its dots; C70_prints: up to 16000 entries and 800 m the job does become an image. The symbol is the one SpecBarcode assigns to the data (encoders of the external crates are parameters, UPC-E is modelled). EAN-13 data is assumed to be ASCII: the slice of its first twelve bytes crashes inside a longer character, see C33. No GS H, GS h, GS w before: C49 has these. Demo: C70_demo, C70_demo_prints."
  },
  {
   "property": "C71",
   "status": "proved",
   "theorems": [
    "C71_document",
    "C71_prints"
   ],
   "note": "End to end in HTML with pictures and barcodes: the exact text of the one document for every receipt of C70. A symbol without any bar is excluded: the code puts its empty paragraph at the top of the sheet (row 0) and loses the gaps. Encoders of barcodes and pictures are parameters. Non-vacuity: C71_demo and C71_demo_prints give the ticket of C70 as text."
  }
 ]
}