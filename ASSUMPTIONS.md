# What `Print Assumptions` lists for every property theorem

Generated by `tools/assumptions.py` from the compiled development.  All axioms are from Coq's standard library:

* (a) `ClassicalDedekindReals.sig_forall_dec`
* (b) `ClassicalDedekindReals.sig_not_dec`
* (c) `Classical_Prop.classic`
* (d) `FunctionalExtensionality.functional_extensionality_dep`

`-` means "Closed under the global context".

| Theorem | File | Axioms |
|---|---|---|
| `C110_the_bitmap_is_the_covered_area` | Props_Area | abcd |
| `C110_same_area_same_bitmap` | Props_Area | abcd |
| `C110_cutting_a_rectangle_changes_nothing_refuted` | Props_Area | abcd |
| `C20_is_crc32` | Props_Base64 | - |
| `C20_reads_only_the_given_length` | Props_Base64 | - |
| `C20_rejected` | Props_Base64 | - |
| `C20_value_is_32_bit` | Props_Base64 | - |
| `C21_bursts_detected` | Props_Base64 | - |
| `C21_five_byte_bursts_detected_refuted` | Props_Base64 | - |
| `C22_standard` | Props_Base64 | - |
| `C22_url` | Props_Base64 | - |
| `C22_unknown_encoding` | Props_Base64 | - |
| `C22_empty` | Props_Base64 | - |
| `C23_round_trip` | Props_Base64 | - |
| `C23_injective` | Props_Base64 | - |
| `C24_exact` | Props_Base64 | - |
| `C24_covers_every_text` | Props_Base64 | - |
| `C24_only_one_reading` | Props_Base64 | - |
| `C24_empty` | Props_Base64 | - |
| `C24_accepts_only_canonical_texts_refuted` | Props_Base64 | - |
| `C25_length` | Props_Base64 | - |
| `C25_alphabet` | Props_Base64 | - |
| `C26_mime` | Props_Base64 | - |
| `C26_pem` | Props_Base64 | - |
| `C26_lines_unique` | Props_Base64 | - |
| `C27_round_trip` | Props_Base64 | - |
| `C27_line_breaks_irrelevant` | Props_Base64 | - |
| `C28_round_trip` | Props_Base64 | - |
| `C28_encoder` | Props_Base64 | - |
| `C28_encoder_long` | Props_Base64 | - |
| `C28_always_encodes_refuted` | Props_Base64 | - |
| `C29_accepted_means_checksum` | Props_Base64 | - |
| `C29_payload_burst_rejected` | Props_Base64 | - |
| `C29_checksum_change_rejected` | Props_Base64 | - |
| `C29_any_burst_rejected` | Props_Base64 | - |
| `C29_short_text_rejected` | Props_Base64 | - |
| `C04_constructor_zero` | Props_BitMatrix | - |
| `C04_constructor_no_memory` | Props_BitMatrix | - |
| `C04_resize_zero` | Props_BitMatrix | - |
| `C04_resize_bad_arguments` | Props_BitMatrix | - |
| `C04_resize_no_memory_breaks_object` | Props_BitMatrix | - |
| `C05_set` | Props_BitMatrix | - |
| `C05_set_get` | Props_BitMatrix | - |
| `C05_out_of_range` | Props_BitMatrix | - |
| `C06_histories_refine` | Props_BitMatrix | - |
| `C07_range_filled` | Props_BitMatrix | - |
| `C07_rejected` | Props_BitMatrix | - |
| `C07_last_row_check_off_by_one` | Props_BitMatrix | - |
| `C07_last_column_multiple_of_8` | Props_BitMatrix | - |
| `C07_last_column_otherwise` | Props_BitMatrix | - |
| `C07_range_check_is_sound_refuted` | Props_BitMatrix | - |
| `C08_byte_written` | Props_BitMatrix | - |
| `C08_rejected` | Props_BitMatrix | - |
| `C08_column_check_off_by_one` | Props_BitMatrix | - |
| `C08_unsafe_set_byte` | Props_BitMatrix | - |
| `C09_ones` | Props_BitMatrix | - |
| `C09_zeros` | Props_BitMatrix | - |
| `C09_empty` | Props_BitMatrix | - |
| `C112_random_fill` | Props_BitMatrix | - |
| `C10_xor` | Props_BitMatrix | - |
| `C10_sizes_differ` | Props_BitMatrix | - |
| `C10_no_result` | Props_BitMatrix | - |
| `C14_copies` | Props_BitMatrix | - |
| `C14_copies_independent` | Props_BitMatrix | - |
| `C14_moved_from_broken` | Props_BitMatrix | - |
| `C14_move_assignment` | Props_BitMatrix | - |
| `C14_self_move` | Props_BitMatrix | - |
| `C15_serialize_layout` | Props_BitMatrix | - |
| `C15_serialize_length` | Props_BitMatrix | - |
| `C15_empty_throws` | Props_BitMatrix | - |
| `C15_serialize_injective_refuted` | Props_BitMatrix | - |
| `C16_round_trip` | Props_BitMatrix | - |
| `C16_round_trip_ub` | Props_BitMatrix | - |
| `C17_empty` | Props_BitMatrix | - |
| `C17_bad_header_ub` | Props_BitMatrix | - |
| `C17_short_payload_ub` | Props_BitMatrix | - |
| `C17_accepted` | Props_BitMatrix | - |
| `C17_no_memory` | Props_BitMatrix | - |
| `C18_length_check` | Props_BitMatrix | - |
| `C18_no_wrap` | Props_BitMatrix | - |
| `C18_wrap` | Props_BitMatrix | - |
| `C18_long_enough` | Props_BitMatrix | - |
| `C18_wrap_instance` | Props_BitMatrix | - |
| `C19_constructor` | Props_BitMatrix | - |
| `C19_constructor_out_of_limits` | Props_BitMatrix | - |
| `C19_resize` | Props_BitMatrix | - |
| `C19_at` | Props_BitMatrix | - |
| `C19_at_assignment` | Props_BitMatrix | - |
| `C19_not` | Props_BitMatrix | - |
| `C19_colcount` | Props_BitMatrix | - |
| `C91_nothing_in_the_box` | Props_Blank | abcd |
| `C91_box_too_large` | Props_Blank | abcd |
| `C91_gdsii_layouts_are_blank` | Props_Blank | abcd |
| `C01_get_reads_the_bit` | Props_ByteHandler | - |
| `C01_set_changes_one_bit` | Props_ByteHandler | - |
| `C01_out_of_range_throws` | Props_ByteHandler | - |
| `C02_higher` | Props_ByteHandler | - |
| `C02_lower` | Props_ByteHandler | - |
| `C02_byte_count` | Props_ByteHandler | - |
| `C03_array_low_positions_are_ub` | Props_ByteHandler | - |
| `C03_array_other_positions_do_nothing` | Props_ByteHandler | - |
| `C03_array_arguments` | Props_ByteHandler | - |
| `C03_documented_contract_refuted` | Props_ByteHandler | - |
| `C124_encoding_in_pieces` | Props_Concat | - |
| `C124_decoding_in_pieces` | Props_Concat | - |
| `C124_after_padding_ignored` | Props_Concat | - |
| `C124_cut_encodings` | Props_Concat | - |
| `C124_any_pieces_refuted` | Props_Concat | - |
| `C53_paths_collapse_to_the_origin` | Props_Converter | - |
| `C53_exactly` | Props_Converter | - |
| `C53_rejects_everything_else` | Props_Converter | - |
| `C53_empty_path_undefined` | Props_Converter | - |
| `C53_boxes_surround_the_path_refuted` | Props_Converter | - |
| `C54_discarded_values_overflow` | Props_Converter | - |
| `C54_exactly` | Props_Converter | - |
| `C54_points_do_not_overflow` | Props_Converter | - |
| `C55_flattening_is_the_specification` | Props_Converter | - |
| `C55_any_result_is_the_expansion` | Props_Converter | - |
| `C55_acyclic_structures_expand` | Props_Converter | - |
| `C55_shapes_and_their_offsets` | Props_Converter | - |
| `C55_placement_is_ignored` | Props_Converter | - |
| `C55_null_is_empty` | Props_Converter | - |
| `C55_never_throws` | Props_Converter | - |
| `C56_cycles_never_return` | Props_Converter | - |
| `C56_the_stack_is_exhausted` | Props_Converter | - |
| `C56_deeper_stacks_agree` | Props_Converter | - |
| `C57_converter_boxes` | Props_Converter | - |
| `C57_converter_boxes_reject` | Props_Converter | - |
| `C136_assignment_interrupted` | Props_Copying | - |
| `C136_a_mixture` | Props_Copying | - |
| `C136_when_it_can_be_read` | Props_Copying | - |
| `C136_layout_matrix_assignment_interrupted` | Props_Copying | - |
| `C136_repair_and_constructors` | Props_Copying | - |
| `C136_with_enough_memory` | Props_Copying | - |
| `C136_left_as_it_was_refuted` | Props_Copying | - |
| `C136_always_readable_refuted` | Props_Copying | - |
| `C136_noexcept_or_the_program_ends` | Props_Copying | - |
| `C138_windows_of_layouts` | Props_Crop | abcd |
| `C138_windows_of_files` | Props_Crop | abcd |
| `C138_score_of_a_window` | Props_Crop | abcd |
| `C138_exactly_the_block_refuted` | Props_Crop | abcd |
| `C125_cut_files` | Props_Cut | - |
| `C125_whole_lines` | Props_Cut | - |
| `C125_torn_rectangles` | Props_Cut | - |
| `C125_recognised` | Props_Cut | - |
| `C125_only_objects_of_the_file_refuted` | Props_Cut | - |
| `C137_damage_is_noticed` | Props_Damage | - |
| `C137_the_search` | Props_Damage | abcd |
| `C137_the_nearest_is_found` | Props_Damage | abcd |
| `C137_a_drawing_is_recognised` | Props_Damage | abcd |
| `C137_right_or_nothing_refuted` | Props_Damage | abcd |
| `C101_fewer_objects_fewer_cells` | Props_Degrade | abcd |
| `C102_few_cells_change` | Props_Degrade | abcd |
| `C102_small_changes_go_unnoticed` | Props_Degrade | abcd |
| `C103_large_changes_are_noticed` | Props_Degrade | abcd |
| `C68_covered_cells_are_set` | Props_EndToEnd | abcd |
| `C69_set_cells_are_near_a_rectangle` | Props_EndToEnd | abcd |
| `C70_one_rectangle_aborts_the_bitmap` | Props_EndToEnd | abcd |
| `C71_polygons_leave_no_mark` | Props_EndToEnd | abcd |
| `C105_exactly_the_marked_cells` | Props_Exact | abcd |
| `C105_whole_cells` | Props_Exact | abcd |
| `C106_same_places_same_bitmap` | Props_Exact | abcd |
| `C106_scaling` | Props_Exact | abcd |
| `C106_scaling_of_any_layout_refuted` | Props_Exact | abcd |
| `C99_flips_detected` | Props_Flips | - |
| `C99_three_flips_in_11455_bytes_detected_refuted` | Props_Flips | - |
| `C99_four_flips_in_376_bytes_detected_refuted` | Props_Flips | - |
| `C99_five_flips_in_38_bytes_detected_refuted` | Props_Flips | - |
| `C100_payload_flips_rejected` | Props_Flips | - |
| `C100_any_two_flips_rejected` | Props_Flips | - |
| `C100_hash_flips_rejected` | Props_Flips | - |
| `C123_any_checksum_by_four_bytes` | Props_Forge | - |
| `C123_twins` | Props_Forge | - |
| `C123_residue` | Props_Forge | - |
| `C123_effect_of_a_change` | Props_Forge | - |
| `C123_equal_checksums_equal_texts_refuted` | Props_Forge | - |
| `C88_settings` | Props_Fragment | - |
| `C88_outcomes` | Props_Fragment | abcd |
| `C88_intersection` | Props_Fragment | abcd |
| `C88_zond` | Props_Fragment | abcd |
| `C66_the_reader_never_reads` | Props_Gdsii | abcd |
| `C74_format_detection` | Props_Gdsii | - |
| `C74_short_files` | Props_Gdsii | - |
| `C74_libraries_are_recognised` | Props_Gdsii | - |
| `C75_reading_ends` | Props_Gdsii | abcd |
| `C76_well_formed_files` | Props_Gdsii | abcd |
| `C76_property_values_refuted` | Props_Gdsii | abcd |
| `C77_references` | Props_Gdsii | abcd |
| `C78_layers` | Props_Gdsii | abcd |
| `C78_pairs_are_determined` | Props_Gdsii | - |
| `C78_pairs_refuted` | Props_Gdsii | abcd |
| `C79_library_boxes` | Props_Gdsii | abcd |
| `C79_nothing_after_a_failure` | Props_Gdsii | abcd |
| `C79_boxes_refuted` | Props_Gdsii | abcd |
| `C80_second_property` | Props_Gdsii | abcd |
| `C80_array_references` | Props_Gdsii | abcd |
| `C80_refused_records` | Props_Gdsii | abcd |
| `C80_unknown_records_skipped` | Props_Gdsii | abcd |
| `C127_cut_files` | Props_GdsiiCut | abcd |
| `C127_where_it_stops_is_determined` | Props_GdsiiCut | - |
| `C127_between_records` | Props_GdsiiCut | abcd |
| `C127_the_end_is_not_needed` | Props_GdsiiCut | abcd |
| `C127_truncation_noticed_refuted` | Props_GdsiiCut | abcd |
| `C63_words` | Props_GdsiiNumbers | - |
| `C63_double_words` | Props_GdsiiNumbers | - |
| `C63_all_images` | Props_GdsiiNumbers | - |
| `C63_writing` | Props_GdsiiNumbers | - |
| `C63_most_negative_refuted` | Props_GdsiiNumbers | - |
| `C64_reals_are_read_correctly_rounded` | Props_GdsiiNumbers | abcd |
| `C64_value_is_unique` | Props_GdsiiNumbers | ad |
| `C65_writing_reals` | Props_GdsiiNumbers | abcd |
| `C65_special_values` | Props_GdsiiNumbers | abcd |
| `C65_round_trip_refuted` | Props_GdsiiNumbers | abcd |
| `C48_first_init` | Props_Generator | abcd |
| `C48_later_init_throws` | Props_Generator | abcd |
| `C48_rejected_arguments_change_nothing` | Props_Generator | abcd |
| `C48_inverted_box_is_final` | Props_Generator | abcd |
| `C49_process_after_init_is_undefined` | Props_Generator | abcd |
| `C49_process_before_init_is_undefined` | Props_Generator | abcd |
| `C49_no_bitmap_under_strict_rules` | Props_Generator | abcd |
| `C49_the_value_read_is_irrelevant` | Props_Generator | abcd |
| `C50_settings_exist` | Props_Generator | - |
| `C50_process_depends_only_on_its_inputs` | Props_Generator | abcd |
| `C50_repeating_a_call` | Props_Generator | abcd |
| `C51_only_the_first_selected_layer_counts` | Props_Generator | abcd |
| `C51_all_selected_layers_are_drawn_refuted` | Props_Generator | abcd |
| `C52_every_layout_has_its_candidates` | Props_Generator | - |
| `C52_the_bitmap_is_the_union` | Props_Generator | abcd |
| `C52_order_does_not_matter` | Props_Generator | abcd |
| `C52_outside_contributes_nothing` | Props_Generator | - |
| `C109_growing_moves_at_most_one_cell` | Props_Grow | abcd |
| `C109_ends_in_first_halves` | Props_Grow | abcd |
| `C109_growing_never_clears_a_cell_refuted` | Props_Grow | abcd |
| `C34_encode` | Props_Hash | - |
| `C34_decode_strict` | Props_Hash | - |
| `C34_other_lengths` | Props_Hash | - |
| `C34_decode_x86` | Props_Hash | - |
| `C34_survival_of_usual_sizes` | Props_Hash | - |
| `C34_every_size_decodes_refuted` | Props_Hash | - |
| `C35_encode` | Props_Hash | - |
| `C35_decode` | Props_Hash | - |
| `C35_round_trip` | Props_Hash | - |
| `C35_base64_flag_round_trip_refuted` | Props_Hash | - |
| `C36_format` | Props_Hash | - |
| `C36_encode_outcomes` | Props_Hash | - |
| `C36_round_trip` | Props_Hash | - |
| `C36_spoiled_sizes` | Props_Hash | - |
| `C37_equal_hashes` | Props_Hash | - |
| `C37_equal_hashes_equal_matrices` | Props_Hash | - |
| `C37_hash_depends_on_visible_bits_only` | Props_Hash | - |
| `C38_no_begin` | Props_Hash | - |
| `C38_no_end` | Props_Hash | - |
| `C38_empty` | Props_Hash | - |
| `C38_burst_rejected` | Props_Hash | - |
| `C38_truncation_rejected` | Props_Hash | - |
| `C38_short_payload` | Props_Hash | - |
| `C38_missing_sections` | Props_Hash | - |
| `C38_strict_never_returns` | Props_Hash | - |
| `C38_crafted_text_is_safe_refuted` | Props_Hash | - |
| `C39_file_round_trip` | Props_Hash | - |
| `C39_cannot_open` | Props_Hash | - |
| `C40_read_is_atomic` | Props_Hash | - |
| `C40_init_is_atomic` | Props_Hash | - |
| `C40_flush_of_empty_destroys` | Props_Hash | - |
| `C40_flush_truncates_first` | Props_Hash | - |
| `C40_torn_files_are_rejected` | Props_Hash | - |
| `C40_flush_true_means_written_refuted` | Props_Hash | - |
| `C119_unsealed_is_refused` | Props_HashAccept | - |
| `C119_accepts_exactly` | Props_HashAccept | - |
| `C119_result` | Props_HashAccept | - |
| `C119_undefined_exactly` | Props_HashAccept | - |
| `C119_marker_in_place_refuted` | Props_HashAccept | - |
| `C84_same_objects_same_bitmap_and_hash` | Props_Identify | abcd |
| `C84_same_hash_same_bitmap` | Props_Identify | abcd |
| `C85_files_with_the_same_shapes` | Props_Identify | abcd |
| `C86_moving_layout_and_box` | Props_Identify | abcd |
| `C86_moved_files` | Props_Identify | abcd |
| `C86_moving_never_matters_refuted` | Props_Identify | abcd |
| `C126_the_library_reads_back` | Props_Library | - |
| `C126_a_crash_costs_one_file` | Props_Library | - |
| `C126_the_best_score_is_the_nearest` | Props_Library | abcd |
| `C126_from_drawings_to_recognition` | Props_Library | abcd |
| `C126_old_or_new_refuted` | Props_Library | - |
| `C122_xor_algebra` | Props_Metric | - |
| `C122_common_changes_do_not_matter` | Props_Metric | abcd |
| `C122_score_of_the_difference` | Props_Metric | abcd |
| `C122_opposite_by_xor` | Props_Metric | - |
| `C122_opposites` | Props_Metric | abcd |
| `C122_triangle` | Props_Metric | abcd |
| `C122_chains_of_equal_matrices` | Props_Metric | abcd |
| `C135_image_bitmaps` | Props_Mirror | abcd |
| `C135_image_scores` | Props_Mirror | abcd |
| `C135_images_of_points_and_cells` | Props_Mirror | - |
| `C135_images_of_files` | Props_Mirror | abcd |
| `C139_the_search` | Props_Mixed | abcd |
| `C139_the_nearest_is_found` | Props_Mixed | abcd |
| `C139_a_drawing_is_recognised` | Props_Mixed | abcd |
| `C139_right_size_refuted` | Props_Mixed | abcd |
| `C118_xor` | Props_Moved | - |
| `C118_matches_everything` | Props_Moved | abcd |
| `C118_right_operand` | Props_Moved | abcd |
| `C118_other_calls` | Props_Moved | abcd |
| `C118_revived` | Props_Moved | - |
| `C57_msk_boxes` | Props_Msk | - |
| `C58_well_formed_files` | Props_Msk | - |
| `C59_layers_hold_the_objects` | Props_Msk | - |
| `C60_element_bounding_box` | Props_Msk | - |
| `C60_no_shape_is_undefined` | Props_Msk | - |
| `C61_fatal_lines` | Props_Msk | - |
| `C61_short_bounding_boxes` | Props_Msk | - |
| `C62_format_detection` | Props_Msk | - |
| `C72_failing_reads` | Props_Msk | - |
| `C73_second_file_has_no_bounding_box` | Props_Msk | - |
| `C83_from_file_to_bitmap` | Props_MskBitmap | abcd |
| `C81_library_and_element_names` | Props_MskNames | - |
| `C81_stem_is_unique` | Props_MskNames | - |
| `C81_unencodable_names` | Props_MskNames | - |
| `C82_readers_can_be_used_again` | Props_MskNames | - |
| `C82_reading_twice` | Props_MskNames | - |
| `C82_an_empty_file_blocks_the_reader` | Props_MskNames | - |
| `C132_the_score_under_noise` | Props_Noise | abcd |
| `C132_the_right_reference_wins` | Props_Noise | abcd |
| `C132_found_in_the_library` | Props_Noise | abcd |
| `C140_without_accuracy` | Props_NotANumber | abcd |
| `C140_above_throws` | Props_NotANumber | abcd |
| `C140_left_throws` | Props_NotANumber | abcd |
| `C140_without_cell_height` | Props_NotANumber | abcd |
| `C140_without_cell_width` | Props_NotANumber | abcd |
| `C140_infinite_cells` | Props_NotANumber | abcd |
| `C140_the_setters_accept` | Props_NotANumber | abcd |
| `C140_covering_rectangle_drawn_refuted` | Props_NotANumber | abcd |
| `C133_slightly_different_files` | Props_Nudge | abcd |
| `C92_defined` | Props_Ownership | - |
| `C92_undefined` | Props_Ownership | - |
| `C92_releases` | Props_Ownership | - |
| `C93_copied_layout` | Props_Ownership | - |
| `C93_copied_library` | Props_Ownership | - |
| `C93_copied_element` | Props_Ownership | - |
| `C94_read` | Props_Ownership | - |
| `C94_lost` | Props_Ownership | - |
| `C94_failed` | Props_Ownership | - |
| `C94_undefined` | Props_Ownership | - |
| `C94_twice` | Props_Ownership | - |
| `C95_indices` | Props_Partition | - |
| `C95_all_covered` | Props_Partition | - |
| `C95_no_fragments` | Props_Partition | - |
| `C95_too_many_refuted` | Props_Partition | - |
| `C96_workspaces` | Props_Partition | abcd |
| `C96_last_edge_refuted` | Props_Partition | abcd |
| `C97_handing_out` | Props_Partition | - |
| `C97_walks` | Props_Partition | - |
| `C97_every_second` | Props_Partition | - |
| `C97_at_most_two_fragments` | Props_Partition | - |
| `C97_count` | Props_Partition | - |
| `C98_one_fragment` | Props_Partition | abcd |
| `C98_left_of_the_box_refuted` | Props_Partition | abcd |
| `C97_own_fragments_only_refuted` | Props_Partition | abcd |
| `C87_printed_text` | Props_Print | - |
| `C87_the_text_tells_the_matrix` | Props_Print | - |
| `C90_rectangle_text` | Props_Printer | - |
| `C90_the_text_tells_the_rectangle` | Props_Printer | - |
| `C90_other_arguments` | Props_Printer | - |
| `C107_score_is_the_share_of_equal_cells` | Props_Rank | abcd |
| `C107_greater_score_fewer_differences` | Props_Rank | abcd |
| `C107_one_means_identical` | Props_Rank | abcd |
| `C108_triangle` | Props_Rank | abcd |
| `C108_no_confusion` | Props_Rank | abcd |
| `C108_almost_transitive` | Props_Rank | abcd |
| `C11_equality` | Props_Ratio | abcd |
| `C11_unequal_or_empty` | Props_Ratio | abcd |
| `C11_empty_is_not_equal_to_itself` | Props_Ratio | abcd |
| `C11_equality_is_bit_equality_refuted` | Props_Ratio | abcd |
| `C11_eq_and_ne_overlap` | Props_Ratio | abcd |
| `C11_equality_is_transitive_refuted` | Props_Ratio | abcd |
| `C12_symmetric` | Props_Ratio | abcd |
| `C12_score` | Props_Ratio | abcd |
| `C12_minus_one` | Props_Ratio | abcd |
| `C12_total` | Props_Ratio | abcd |
| `C13_ratios` | Props_Ratio | abcd |
| `C13_empty_is_nan` | Props_Ratio | abcd |
| `C13_hidden_bits` | Props_Ratio | abcd |
| `C67_byte_coefficient` | Props_Ratio | abcd |
| `C67_string_coefficient` | Props_Ratio | abcd |
| `C67_matrix_coefficient` | Props_Ratio | abcd |
| `C67_empty_matrix` | Props_Ratio | abcd |
| `C134_recognised_with_errors` | Props_Recognise | abcd |
| `C134_once_is_enough_refuted` | Props_Recognise | abcd |
| `C121_room` | Props_Reserve | - |
| `C121_no_room` | Props_Reserve | - |
| `C121_room_for_the_text_suffices_refuted` | Props_Reserve | - |
| `C121_asks_for_the_square` | Props_Reserve | - |
| `C121_wraps` | Props_Reserve | - |
| `C128_two_resolutions` | Props_Resolution | abcd |
| `C128_blank_at_one_blank_at_all` | Props_Resolution | abcd |
| `C128_small_rectangles_kept_refuted` | Props_Resolution | abcd |
| `C14_layout_copies` | Props_Rle | - |
| `C14_layout_from_rvalue_loses_columns` | Props_Rle | - |
| `C14_layout_moved_from_broken` | Props_Rle | - |
| `C14_layout_self_move_empties` | Props_Rle | - |
| `C30_faithful_and_bounded` | Props_Rle | - |
| `C30_empty` | Props_Rle | - |
| `C31_total` | Props_Rle | - |
| `C31_no_memory` | Props_Rle | - |
| `C31_empty_text` | Props_Rle | - |
| `C31_surplus_ignored` | Props_Rle | - |
| `C32_round_trip` | Props_Rle | - |
| `C33_byte_encode_faithful` | Props_Rle | - |
| `C33_byte_encode_empty` | Props_Rle | - |
| `C33_byte_decode_is_a_stub` | Props_Rle | - |
| `C33_byte_round_trip_refuted` | Props_Rle | - |
| `C33_string_functions_are_stubs` | Props_Rle | - |
| `C120_exact_text` | Props_RleExact | - |
| `C120_exact_bytes` | Props_RleExact | - |
| `C120_maximal_runs` | Props_RleExact | - |
| `C120_length` | Props_RleExact | - |
| `C120_distance_from_shortest` | Props_RleExact | - |
| `C120_shortest_refuted` | Props_RleExact | - |
| `C120_hash_length` | Props_RleExact | - |
| `C113_value_semantics` | Props_Shared | abcd |
| `C114_one_bitmap` | Props_Shared | abcd |
| `C114_kept_pointers_compare_equal` | Props_Shared | abcd |
| `C115_bitmaps_apart` | Props_Shared | abcd |
| `C116_copies_share` | Props_Shared | abcd |
| `C116_assignment_shares` | Props_Shared | abcd |
| `C117_layout_read_by_process` | Props_Shared | abcd |
| `C114_pointer_keeps_its_bitmap_refuted` | Props_Shared | abcd |
| `C104_stored_bitmaps_are_as_good` | Props_Stored | abcd |
| `C104_recognised_by_the_stored_bitmap` | Props_Stored | abcd |
| `C111_turning_over` | Props_Turn | abcd |
| `C111_turning_twice` | Props_Turn | - |
| `C111_scores_of_turned_bitmaps` | Props_Turn | abcd |
| `C111_mirroring_respected_refuted` | Props_Turn | abcd |
| `C129_few_cells_differ` | Props_Wobble | abcd |
| `C129_small_inaccuracies_go_unnoticed` | Props_Wobble | abcd |
| `C129_half_a_cell_goes_unnoticed_refuted` | Props_Wobble | abcd |
| `C41_set_angle_coords` | Props_Zond | - |
| `C41_is_in_workspace` | Props_Zond | - |
| `C41_always_ordered` | Props_Zond | - |
| `C42_argument_not_checked` | Props_Zond | abcd |
| `C42_fresh_accepts_anything` | Props_Zond | abcd |
| `C42_stuck` | Props_Zond | abcd |
| `C42_one_bad_value_blocks` | Props_Zond | abcd |
| `C42_set_deltas` | Props_Zond | abcd |
| `C43_only_adds` | Props_Zond | abcd |
| `C43_null_pointer` | Props_Zond | abcd |
| `C43_other_types` | Props_Zond | abcd |
| `C44_covering_rectangle_fills` | Props_Zond | abcd |
| `C45_left_or_above_throws` | Props_Zond | abcd |
| `C46_covered_centres_are_set` | Props_Zond | abcd |
| `C47_at_most_one_cell_too_far` | Props_Zond | abcd |
| `C47_overshoot_columns` | Props_Zond | abcd |
| `C47_overshoot_rows` | Props_Zond | abcd |
| `C89_covered_cells` | Props_ZondOffset | abcd |
| `C89_near_the_rectangle` | Props_ZondOffset | abcd |
| `C89_far_parts_stay_empty` | Props_ZondOffset | abcd |
| `C89_drawing_moves_with_the_bounds_refuted` | Props_ZondOffset | abcd |
| `C130_last_accepted_call_counts` | Props_ZondUse | abcd |
| `C130_accuracy` | Props_ZondUse | abcd |
| `C131_cells_without_size` | Props_ZondUse | abcd |
| `C131_before_the_deltas` | Props_ZondUse | abcd |
| `C131_no_deltas_no_drawing_refuted` | Props_ZondUse | abcd |
