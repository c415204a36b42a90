(** * Assumptions: what every theorem of MANIFEST.json rests on (generated by tools/assumptions.py). *)
From Verif Require Import PropsParser PropsGraphics PropsDecoder PropsUpce PropsText PropsCanvas PropsContext PropsPage PropsOutput PropsLayout PropsPlace PropsThermal PropsSafe PropsImage PropsBitmap PropsHtml PropsErrors PropsPicture PropsBarcode PropsQr PropsStored PropsBuffer PropsLines PropsMotion PropsCells DemoLines PropsDesk PropsRow PropsLook PropsPosition PropsCrop PropsDraw PropsDrawHtml PropsScene PropsManual PropsProtocol PropsPrintout PropsStage PropsPlain PropsReceipt PropsReceiptHtml PropsSlip PropsSlipHtml PropsTitles PropsTicket PropsTicketHtml.

Print Assumptions C01_stream_parses_exactly.
Print Assumptions C01_every_byte_string.
Print Assumptions C01_reading_unique.
Print Assumptions C02_framed.
Print Assumptions C03_parser_reuse.
Print Assumptions C04_panic_iff.
Print Assumptions C04_no_sub_no_panic.
Print Assumptions C05_text_verbatim.
Print Assumptions C05_leading_text_spurious_unknown.
Print Assumptions C06_fixed_arguments.
Print Assumptions C07_next_byte_starts_afresh.
Print Assumptions C07_payload_verbatim.
Print Assumptions C08_table_prefix_free.
Print Assumptions C08_each_prefix_recognised.
Print Assumptions C09_nothing_invented.
Print Assumptions C09_nul_barcode_at_end_invents_nul.
Print Assumptions C09_nothing_lost.
Print Assumptions C09_items_lossless.
Print Assumptions C09_losses_are_real.
Print Assumptions C10_unknown_reported.
Print Assumptions C11_compositional.
Print Assumptions C12_subcommand_recovered.
Print Assumptions C12_last_subcommand_loses_payload.
Print Assumptions C12_function_tables.
Print Assumptions C13_parse_str.
Print Assumptions C13_lines_independent.
Print Assumptions C13_only_bytes.
Print Assumptions C13_token_before_quote_lost.
Print Assumptions C13_bad_hex_dropped.
Print Assumptions C13_big_number_is_text.
Print Assumptions C14_round_trip.
Print Assumptions C14_stream_round_trip.
Print Assumptions C14_bytes_round_trip.
Print Assumptions C14_carriage_return_lost.
Print Assumptions C14_quote_lost.
Print Assumptions C14_backslash_lost.
Print Assumptions C14_latin1_replaced.
Print Assumptions C14_leading_text_gains_bytes.
Print Assumptions C15_raster_pixels.
Print Assumptions C15_raster_ink.
Print Assumptions C15_raster_ink_refuted.
Print Assumptions C15_wrong_length_is_error.
Print Assumptions C16_column_pixels.
Print Assumptions C16_column_is_transposed_raster.
Print Assumptions C16_truncated_column_data_panics.
Print Assumptions C16_multicolour_column_never_decodes.
Print Assumptions C17_scaling.
Print Assumptions C17_scaling_by_one.
Print Assumptions C18_topmost_opaque_layer_wins.
Print Assumptions C18_layers_blend_in_order.
Print Assumptions C18_larger_layer_refused.
Print Assumptions C18_smaller_layer_misplaced_refuted.
Print Assumptions C18_multicolour_raster.
Print Assumptions C18_multicolour_raster_odd_width_refuted.
Print Assumptions C19_initialize_restores_defaults.
Print Assumptions C19_initialize_never_fails.
Print Assumptions C19_initialize_rewinds_paper.
Print Assumptions C20_style_commands_touch_only_their_setting.
Print Assumptions C20_style_table_complete.
Print Assumptions C20_setting_commands_touch_only_their_part.
Print Assumptions C20_setting_table_complete.
Print Assumptions C20_switches.
Print Assumptions C20_font.
Print Assumptions C20_underline.
Print Assumptions C20_code_page.
Print Assumptions C20_international_set.
Print Assumptions C20_invert.
Print Assumptions C20_alternate_color.
Print Assumptions C20_print_mode.
Print Assumptions C20_print_mode_underline_refuted.
Print Assumptions C20_double_strike.
Print Assumptions C20_double_strike_off_refuted.
Print Assumptions C20_character_size.
Print Assumptions C20_tab_entry.
Print Assumptions C20_justification.
Print Assumptions C20_line_spacing.
Print Assumptions C20_barcode_settings.
Print Assumptions C21_settings_invariant.
Print Assumptions C22_justification.
Print Assumptions C22_block_images_inside.
Print Assumptions C23_rotations_compose.
Print Assumptions C23_turns_match_direction.
Print Assumptions C23_direction_change_keeps_page.
Print Assumptions C23_walks.
Print Assumptions C23_direction_in_standard_mode_refuted.
Print Assumptions C24_page_covers_print_area.
Print Assumptions C24_print_area_command.
Print Assumptions C25_words_lossless.
Print Assumptions C25_words_shape.
Print Assumptions C25_words_unique.
Print Assumptions C25_break_apart_panic_iff.
Print Assumptions C25_break_apart.
Print Assumptions C26_unknown_selection_falls_back.
Print Assumptions C26_bytewise.
Print Assumptions C26_one_char_per_byte.
Print Assumptions C26_length_preserved.
Print Assumptions C26_ascii.
Print Assumptions C26_pages_437_860_863_exact.
Print Assumptions C26_page_850_refuted.
Print Assumptions C26_page_865_refuted.
Print Assumptions C26_page_857_but_three.
Print Assumptions C26_katakana.
Print Assumptions C26_utf8_roundtrip.
Print Assumptions C26_utf8_strict_iff.
Print Assumptions C26_utf8_total.
Print Assumptions C27_only_listed_positions_change.
Print Assumptions C27_high_half_untouched.
Print Assumptions C27_indian_digits.
Print Assumptions C27_national_sets_refuted.
Print Assumptions C28_check_digit.
Print Assumptions C28_check_digit_unique.
Print Assumptions C30_seven_digits.
Print Assumptions C30_eleven_digits.
Print Assumptions C28_given_check_digit_unverified_refuted.
Print Assumptions C29_symbol.
Print Assumptions C29_symbol_determines_code.
Print Assumptions C30_compress_expand.
Print Assumptions C30_six_digits.
Print Assumptions C30_eight_digits.
Print Assumptions C30_accepted_keeps.
Print Assumptions C30_distinct_numbers_same_symbol_refuted.
Print Assumptions C31_outputs.
Print Assumptions C31_framed.
Print Assumptions C32_each_command.
Print Assumptions C32_every_character_once.
Print Assumptions C32_reading_order.
Print Assumptions C32_right_edge.
Print Assumptions C32_wraps_words.
Print Assumptions C32_wide_word_refuted.
Print Assumptions C32_tab_right_refuted.
Print Assumptions C32_position_right_refuted.
Print Assumptions C32_right_panics.
Print Assumptions C33_no_crash.
Print Assumptions C33_no_crash_jobs.
Print Assumptions C33_receipts_print.
Print Assumptions C33_reverse_feed.
Print Assumptions C33_absolute_position.
Print Assumptions C33_motion_units.
Print Assumptions C33_crashes.
Print Assumptions C33_exceptions_needed.
Print Assumptions C34_paper_painting.
Print Assumptions C34_nothing_else_changes.
Print Assumptions C34_refused_painting.
Print Assumptions C34_white_and_transparent_do_not_cover.
Print Assumptions C34_black_covers.
Print Assumptions C34_upside_down_mirrors.
Print Assumptions C35_rotation_moves_pixels.
Print Assumptions C35_four_quarter_turns.
Print Assumptions C35_half_turn_is_two_quarters.
Print Assumptions C35_three_quarters_undo_one.
Print Assumptions C35_empty_page_forgets_its_width.
Print Assumptions C36_pixels_fill_the_rectangle.
Print Assumptions C36_rgb_export.
Print Assumptions C36_turning_and_widening_never_fail.
Print Assumptions C37_growing_height_keeps_the_picture.
Print Assumptions C37_growing_width_centres_the_picture.
Print Assumptions C37_narrower_width_changes_nothing.
Print Assumptions C37_top_margin_shifts_the_picture.
Print Assumptions C38_page_painting.
Print Assumptions C38_page_does_not_grow_refuted.
Print Assumptions C39_images.
Print Assumptions C40_sheet.
Print Assumptions C40_first_image.
Print Assumptions C41_no_sheet.
Print Assumptions C41_only_the_first_image_shows_anything.
Print Assumptions C41_form_feed_loses_the_bitmap.
Print Assumptions C42_bitmap_printed_exactly.
Print Assumptions C43_number_of_documents.
Print Assumptions C43_document_text.
Print Assumptions C43_standard_job.
Print Assumptions C43_markup_refuted.
Print Assumptions C43_placeholder_refuted.
Print Assumptions C44_rows.
Print Assumptions C44_same_line_refuted.
Print Assumptions C45_repeats.
Print Assumptions C46_empty_image_stops.
Print Assumptions C46_stops_refuted.
Print Assumptions C47_each_command.
Print Assumptions C47_errors.
Print Assumptions C47_unknown_commands.
Print Assumptions C47_image_errors.
Print Assumptions C47_reported_once_refuted.
Print Assumptions C48_raster.
Print Assumptions C48_raster_page.
Print Assumptions C48_raster_cut_short.
Print Assumptions C48_bit_image.
Print Assumptions C48_quadruple_refuted.
Print Assumptions C48_single_density_refuted.
Print Assumptions C49_printed.
Print Assumptions C50_refused.
Print Assumptions C50_gs1_refuted.
Print Assumptions C50_check_digit_refuted.
Print Assumptions C50_brace_refuted.
Print Assumptions C51_printed.
Print Assumptions C51_other_symbols_refuted.
Print Assumptions C51_overlap_refuted.
Print Assumptions C51_level_refuted.
Print Assumptions C51_stale_refuted.
Print Assumptions C52_printed.
Print Assumptions C52_damaged.
Print Assumptions C52_odd_width_refuted.
Print Assumptions C52_initialize_deletes_refuted.
Print Assumptions C52_column_refuted.
Print Assumptions C53_printed.
Print Assumptions C53_empty.
Print Assumptions C53_damaged.
Print Assumptions C54_line.
Print Assumptions C54_lines.
Print Assumptions C54_feed.
Print Assumptions C54_position.
Print Assumptions C54_paper_moves_forward.
Print Assumptions C54_cells.
Print Assumptions C54_base_line.
Print Assumptions C54_tab_at_stop_refuted.
Print Assumptions C54_initialize_goes_back_refuted.
Print Assumptions C54_feed_overprints_refuted.
Print Assumptions C55_sheet.
Print Assumptions C55_image.
Print Assumptions C55_page_printed.
Print Assumptions C55_image_shows_page.
Print Assumptions C55_paper_waits.
Print Assumptions C55_print_page.
Print Assumptions C55_form_feed.
Print Assumptions C55_page_goes_where_the_paper_stood.
Print Assumptions C55_print_page_outside.
Print Assumptions C55_page_needs_an_area.
Print Assumptions C55_paper_moves_past_the_print_refuted.
Print Assumptions C55_enlarging_keeps_the_page_refuted.
Print Assumptions C56_rows_show.
Print Assumptions C57_look.
Print Assumptions C57_four_colours.
Print Assumptions C57_double_underline_refuted.
Print Assumptions C57_stretch_refuted.
Print Assumptions C57_strike_refuted.
Print Assumptions C58_horizontal.
Print Assumptions C58_vertical.
Print Assumptions C58_relative.
Print Assumptions C58_vertical_only_in_page_mode.
Print Assumptions C58_area.
Print Assumptions C58_area_enlarges.
Print Assumptions C58_turn.
Print Assumptions C58_area_stays_refuted.
Print Assumptions C58_third_direction_refuted.
Print Assumptions C58_relative_stays_inside_refuted.
Print Assumptions C58_area_must_fit_refuted.
Print Assumptions C59_image.
Print Assumptions C59_short_job.
Print Assumptions C59_html.
Print Assumptions C59_longer_paper_refuted.
Print Assumptions C59_empty_picture_refuted.
Print Assumptions C60_sheet.
Print Assumptions C60_first_image.
Print Assumptions C60_ink.
Print Assumptions C60_inks.
Print Assumptions C60_never_lighter.
Print Assumptions C61_settings.
Print Assumptions C61_job.
Print Assumptions C61_text.
Print Assumptions C61_printed.
Print Assumptions C61_whole_text.
Print Assumptions C61_whole_job.
Print Assumptions C62_protocol.
Print Assumptions C62_page_mode.
Print Assumptions C62_job.
Print Assumptions C62_page_end_refuted.
Print Assumptions C63_rows.
Print Assumptions C63_same_page.
Print Assumptions C64_sheet.
Print Assumptions C64_image.
Print Assumptions C64_html_page.
Print Assumptions C65_typed.
Print Assumptions C65_plain.
Print Assumptions C65_prints.
Print Assumptions C66_receipt.
Print Assumptions C66_prints.
Print Assumptions C67_document.
Print Assumptions C67_prints.
Print Assumptions C68_slip.
Print Assumptions C68_prints.
Print Assumptions C69_document.
Print Assumptions C69_prints.
Print Assumptions C70_ticket.
Print Assumptions C70_prints.
Print Assumptions C71_document.
Print Assumptions C71_prints.
