M.update({
'C25':('proved',['C25_words_lossless','C25_words_shape','C25_words_unique','C25_break_apart_panic_iff','C25_break_apart'],''),
'C28':('proved',['C28_check_digit','C28_check_digit_unique','C30_seven_digits','C30_eleven_digits','C28_given_check_digit_unverified_refuted'],'inputs that carry a check digit (8 or 12 digits) are accepted whatever it is: the _refuted theorem'),
'C29':('proved',['C29_symbol','C29_symbol_determines_code'],''),
'C30':('proved',['C30_compress_expand','C30_six_digits','C30_seven_digits','C30_eight_digits','C30_eleven_digits','C30_accepted_keeps','C30_distinct_numbers_same_symbol_refuted'],'the second half of the statement is false of the code: the _refuted theorem gives two UPC-A numbers with one symbol'),
})
M.update({
'C34':('proved',['C34_paper_painting','C34_nothing_else_changes','C34_refused_painting','C34_white_and_transparent_do_not_cover','C34_black_covers','C34_upside_down_mirrors'],''),
'C35':('proved',['C35_rotation_moves_pixels','C35_four_quarter_turns','C35_half_turn_is_two_quarters','C35_three_quarters_undo_one','C35_empty_page_forgets_its_width'],'for canvases with at least one row; an empty canvas loses its width (last theorem)'),
'C36':('proved',['C36_pixels_fill_the_rectangle','C36_rgb_export','C36_turning_and_widening_never_fail'],''),
'C37':('proved',['C37_growing_height_keeps_the_picture','C37_growing_width_centres_the_picture','C37_narrower_width_changes_nothing','C37_top_margin_shifts_the_picture'],'there is no add_left_margin in the code'),
'C38':('partial',['C38_page_painting_partial','C38_page_does_not_grow_refuted'],'false in general: the bottom-edge test uses the block width (thermal_image.rs:534); proved whenever that test gives the right answer'),
})
M.update({
'C19':('proved',['C19_initialize_restores_defaults','C19_initialize_never_fails','C19_initialize_rewinds_paper'],'consequence for the user: the paper position is rewound to the top (last theorem)'),
'C20':('proved',['C20_style_commands_touch_only_their_setting','C20_style_table_complete','C20_setting_commands_touch_only_their_part','C20_setting_table_complete','C20_switches','C20_font','C20_underline','C20_code_page','C20_international_set','C20_invert','C20_alternate_color','C20_print_mode','C20_print_mode_underline_refuted','C20_double_strike','C20_double_strike_off_refuted','C20_character_size','C20_tab_entry','C20_justification','C20_line_spacing','C20_barcode_settings'],'frame conditions and the exact new values; two documented meanings are false of the code (_refuted)'),
'C21':('proved',['C21_settings_invariant'],''),
'C22':('proved',['C22_justification','C22_block_images_inside'],''),
'C23':('proved',['C23_rotations_compose','C23_turns_match_direction','C23_direction_change_keeps_page','C23_walks','C23_direction_in_standard_mode_refuted'],'ESC T outside page mode repeats the last turn (the _refuted theorem), so the history theorem is about ESC T in page mode'),
'C24':('proved',['C24_page_covers_print_area','C24_print_area_command'],''),
})
M.update({'C31':('proved',['C31_outputs','C31_framed'],'')})

M.update({'C32':('proved',['C32_each_command','C32_every_character_once','C32_reading_order','C32_right_edge','C32_wraps_words','C32_wide_word_refuted','C32_tab_right_refuted','C32_position_right_refuted','C32_right_panics'],'containment under the stated conditions; the _refuted theorems show each condition is needed')})

M.update({
'C13':('proved',['C13_parse_str','C13_lines_independent','C13_only_bytes','C13_token_before_quote_lost','C13_bad_hex_dropped','C13_big_number_is_text'],'the last three say what happens to lines outside the format'),
'C14':('proved',['C14_round_trip','C14_stream_round_trip','C14_bytes_round_trip','C14_carriage_return_lost','C14_quote_lost','C14_backslash_lost','C14_latin1_replaced','C14_leading_text_gains_bytes'],'the last five show each part of the guard is needed'),
})

M.update({'C33':('proved',['C33_no_crash','C33_no_crash_jobs','C33_receipts_print','C33_reverse_feed','C33_absolute_position','C33_motion_units','C33_crashes','C33_exceptions_needed'],'standard mode; the exceptions are listed in SpecSafe.gentle, each with a crashing stream; the external symbol encoders are assumed to return (encoders_ok: sane sizes)')})

M.update({
'C39':('proved',['C39_images'],''),
'C40':('proved',['C40_sheet','C40_first_image'],'sheets on which no page-mode page is printed; fonts are an arbitrary parameter'),
'C41':('proved',['C41_no_sheet','C41_only_the_first_image_shows_anything','C41_form_feed_loses_the_bitmap'],'the expected behaviour is false of the code; proved is what happens instead'),
'C42':('proved',['C42_bitmap_printed_exactly'],''),
})

M.update({
'C43':('proved',['C43_number_of_documents','C43_document_text','C43_standard_job','C43_markup_refuted','C43_placeholder_refuted'],'text without the characters < & {; the _refuted theorems show the condition is needed. Line feeds between spans are markup white space and are not compared'),
'C44':('proved',['C44_rows','C44_same_line_refuted'],'the gaps are exact for every document; positions agree when the things printed are stacked'),
'C45':('proved',['C45_repeats'],'the expected behaviour is false of the code; proved is what happens instead'),
'C46':('proved',['C46_empty_image_stops','C46_stops_refuted'],'the expected behaviour is false of the code; proved is what happens instead'),
})

M.update({'C47':('proved',['C47_each_command','C47_errors','C47_unknown_commands','C47_image_errors','C47_reported_once_refuted'],'the image renderer reports a complaint again at every sheet (the _refuted theorem)')})

M.update({'C48':('proved',['C48_raster','C48_raster_page','C48_raster_cut_short','C48_bit_image','C48_quadruple_refuted','C48_single_density_refuted'],'the mode bytes 51/52 of GS v 0 and 32 of ESC * are not what the manual says (_refuted)')})

M.update({
'C49':('proved',['C49_printed'],'standard mode; the text is placed by C32 rules, its exact line breaks are not restated'),
'C50':('proved',['C49_printed','C50_refused','C50_gs1_refuted','C50_check_digit_refuted','C50_brace_refuted'],'the accepted half is C49_printed with SpecBarcode.barcode; the _refuted theorems are documented meanings the code does not have'),
})

M.update({'C51':('proved',['C51_printed','C51_other_symbols_refuted','C51_overlap_refuted','C51_level_refuted','C51_stale_refuted'],'standard mode, symbols that fit the paper width; the _refuted theorems are documented meanings the code does not have')})

M.update({
'C52':('proved',['C52_printed','C52_damaged','C52_odd_width_refuted','C52_initialize_deletes_refuted','C52_column_refuted'],'placement in standard mode; the _refuted theorems are documented meanings the code does not have'),
'C53':('proved',['C53_printed','C53_empty','C53_damaged'],'standard mode, pictures of equal size; unequal sizes are C18_larger_layer_refused and C18_smaller_layer_misplaced_refuted'),
})
M.update({"C54":("proved",["C54_line","C54_lines","C54_feed","C54_position","C54_paper_moves_forward","C54_cells","C54_base_line","C54_tab_at_stop_refuted","C54_initialize_goes_back_refuted","C54_feed_overprints_refuted"],"standard mode; lines that need wrapping are C32. Counterexamples: C54_tab_at_stop_refuted, C54_initialize_goes_back_refuted, C54_feed_overprints_refuted")})
M.update({"C55":("proved",["C55_sheet","C55_image","C55_page_printed","C55_image_shows_page","C55_paper_waits","C55_print_page","C55_form_feed","C55_page_goes_where_the_paper_stood","C55_print_page_outside","C55_page_needs_an_area","C55_paper_moves_past_the_print_refuted","C55_enlarging_keeps_the_page_refuted"],"the pixel-for-pixel copy assumes that painted colours are bytes (their type in the program). Counterexamples: the two _refuted theorems; C55_page_needs_an_area is the general form of the third")})

M.update({"C56":("proved",["C56_rows_show"],"Content of every row of the HTML document against SpecRow.shows; C56_demo is a mixed-size line and a picture, C56_applies meets all hypotheses."),
"C57":("proved",["C57_look","C57_four_colours","C57_double_underline_refuted","C57_stretch_refuted","C57_strike_refuted"],"Cascade of the template's style sheet, read by a small CSS reader in SpecRow (element, class and two-class selectors, which is all the template uses for text).")})

M.update({"C58":("proved",["C58_horizontal","C58_vertical","C58_relative","C58_vertical_only_in_page_mode","C58_area","C58_area_enlarges","C58_turn","C58_area_stays_refuted","C58_third_direction_refuted","C58_relative_stays_inside_refuted","C58_area_must_fit_refuted"],"Places are stated on the upright page (SpecPosition); with no text waiting. Counterexamples: the four _refuted theorems.")})

M.update({"C38":("proved",["C38_page_painting","C38_page_does_not_grow_refuted"],"The page grows although it must not because the bottom-edge test uses the block width (thermal_image.rs:534); C38_page_painting says exactly when. Sizes must fit the code's u32 arithmetic.")})
M.update({"C59":("proved",["C59_image","C59_short_job","C59_html","C59_longer_paper_refuted","C59_empty_picture_refuted"],"C59_image/C59_short_job: image renderer; C59_html: HTML renderer; the refutations show both limits are needed. Page-mode jobs are outside (as in C33).")})
M.update({"C60":("proved",["C60_sheet","C60_first_image","C60_ink","C60_inks","C60_never_lighter"],"Exact, all f32 rounding eliminated. Sheets printed in standard mode (page-mode pages are C41/C38). The scene is specified in SpecScene.v without any renderer code; non-vacuity: Example C60_demo computes single dots of a job's image through the theorem.")})
M.update({"C61":("proved",["C61_settings","C61_job","C61_text","C61_printed"],"The manual (SpecManual.v) reads command bytes and parameters only; the theorem is an equality of the whole flat settings record with a fold over the stream. The text part assumes that no GS k comes while GS H asks for barcode text.")})
M.update({"C62":("proved",["C62_protocol","C62_page_mode","C62_job","C62_page_end_refuted"],"Equality of the whole sequence of non-drawing calls with a list computed from the command bytes; the payload of the page-shape call is left to C23/C24.")})
M.update({"C63":("proved",["C63_rows","C63_same_page"],"Generalises C56 (which excluded printed pages) to all jobs; C63_same_page compares the two renderers. The PNG encoder and the fonts are parameters.")})
M.update({"C64":("proved",["C64_sheet","C64_image","C64_html_page"],"SpecStage: the sheet (as in SpecScene) and the page beside it, both in whole numbers. Generalises C60 to jobs that print pages. C64_html_page gives the picture a page becomes in an HTML receipt (with C63).")})
M.update({"C65":("proved",["C65_typed","C65_plain","C65_prints"],"From raw job bytes to every dot of the image; the specification (SpecPlain.v) is a page long and mentions no state of the printer. Composes the parser (C01), decoder (C26), layout (C54), image (C40) and dot (C60) theorems. The font library is a parameter (fonts_fine: sizes and offsets unsigned, coverages bytes).")})
M.update({"C66":("proved",["C66_receipt","C66_prints"],"SpecReceipt gives the bytes of a part, its height, the indent of a line and the cell a dot lies in; C66_receipt: the one image of the job, its size and all its dots; C66_prints: up to 29000 parts and 800 m the job does become an image. Demo: C66_demo, C66_demo_prints. The font library is a parameter (fonts_fine).")})
M.update({"C67":("proved",["C67_document","C67_prints"],"End to end in HTML: the exact text of the one document for every receipt of styled, aligned lines, feeds and cuts. Non-vacuity: C67_demo and C67_demo_prints give the slip of C66 as text.")})
M.update({"C68":("proved",["C68_slip","C68_prints"],"SpecSlip gives the bytes of an element, its height, the place of a picture and the bit of the data at a dot; C68_slip: the one image of the job, its size and all its dots; C68_prints: up to 16000 elements and 800 m the job does become an image. Demo: C68_demo, C68_demo_prints (two pictures, a line, a feed and a cut). The font library is a parameter (fonts_fine).")})
M.update({"C69":("proved",["C69_document","C69_prints"],"End to end in HTML with pictures: the exact text of the one document for every receipt of lines, feeds, cuts and GS v 0 pictures. The PNG encoder is a parameter (its text has base64 characters; it takes pictures that have dots). Non-vacuity: C69_demo and C69_demo_prints give the slip of C68 as text.")})
M.update({"C61":("proved",["C61_settings","C61_job","C61_text","C61_printed","C61_whole_text","C61_whole_job"],"The manual (SpecManual.v) reads command bytes and parameters only; the theorem is an equality of the whole flat settings record with a fold over the stream. C61_whole_text and C61_whole_job give the text with the texts of barcodes (SpecTitles.v; the symbol encoders are parameters; CODE128 data with a doubled opening brace, refuted in C50, are outside). Demos: C61_demo, C61_titles_demo.")})
M.update({"C70":("proved",["C70_ticket","C70_prints"],"SpecTicket adds barcodes to the elements of SpecSlip: their bytes (ESC a, GS k function B), the width of the symbol and the module at a dot. C70_ticket: the one image of the job, its size and all its dots; C70_prints: up to 16000 entries and 800 m the job does become an image. The symbol is the one SpecBarcode assigns to the data (encoders of the external crates are parameters, UPC-E is modelled). EAN-13 data is assumed to be ASCII: the slice of its first twelve bytes crashes inside a longer character, see C33. No GS H, GS h, GS w before: C49 has these. Demo: C70_demo, C70_demo_prints.")})
M.update({"C71":("proved",["C71_document","C71_prints"],"End to end in HTML with pictures and barcodes: the exact text of the one document for every receipt of C70. A symbol without any bar is excluded: the code puts its empty paragraph at the top of the sheet (row 0) and loses the gaps. Encoders of barcodes and pictures are parameters. Non-vacuity: C71_demo and C71_demo_prints give the ticket of C70 as text.")})
