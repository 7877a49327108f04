{
 "claims": [
  {
   "property": "C01",
   "status": "proved",
   "theorems": [
    "C01_get_reads_the_bit",
    "C01_set_changes_one_bit",
    "C01_out_of_range_throws"
   ],
   "note": ""
  },
  {
   "property": "C02",
   "status": "proved",
   "theorems": [
    "C02_higher",
    "C02_lower",
    "C02_byte_count"
   ],
   "note": ""
  },
  {
   "property": "C03",
   "status": "proved",
   "theorems": [
    "C03_array_low_positions_are_ub",
    "C03_array_other_positions_do_nothing",
    "C03_array_arguments",
    "C03_documented_contract_refuted"
   ],
   "note": ""
  },
  {
   "property": "C04",
   "status": "proved",
   "theorems": [
    "C04_constructor_zero",
    "C04_constructor_no_memory",
    "C04_resize_zero",
    "C04_resize_bad_arguments",
    "C04_resize_no_memory_breaks_object"
   ],
   "note": ""
  },
  {
   "property": "C05",
   "status": "proved",
   "theorems": [
    "C05_set",
    "C05_set_get",
    "C05_out_of_range"
   ],
   "note": ""
  },
  {
   "property": "C06",
   "status": "proved",
   "theorems": [
    "C06_histories_refine"
   ],
   "note": ""
  },
  {
   "property": "C07",
   "status": "proved",
   "theorems": [
    "C07_range_filled",
    "C07_rejected",
    "C07_last_row_check_off_by_one",
    "C07_last_column_multiple_of_8",
    "C07_last_column_otherwise",
    "C07_range_check_is_sound_refuted"
   ],
   "note": ""
  },
  {
   "property": "C08",
   "status": "proved",
   "theorems": [
    "C08_byte_written",
    "C08_rejected",
    "C08_column_check_off_by_one",
    "C08_unsafe_set_byte"
   ],
   "note": ""
  },
  {
   "property": "C09",
   "status": "proved",
   "theorems": [
    "C09_ones",
    "C09_zeros",
    "C09_empty"
   ],
   "note": ""
  },
  {
   "property": "C10",
   "status": "proved",
   "theorems": [
    "C10_xor",
    "C10_sizes_differ",
    "C10_no_result"
   ],
   "note": ""
  },
  {
   "property": "C11",
   "status": "proved",
   "theorems": [
    "C11_equality",
    "C11_unequal_or_empty",
    "C11_empty_is_not_equal_to_itself",
    "C11_equality_is_bit_equality_refuted",
    "C11_eq_and_ne_overlap",
    "C11_equality_is_transitive_refuted"
   ],
   "note": ""
  },
  {
   "property": "C12",
   "status": "proved",
   "theorems": [
    "C12_symmetric",
    "C12_score",
    "C12_minus_one",
    "C12_total"
   ],
   "note": ""
  },
  {
   "property": "C13",
   "status": "proved",
   "theorems": [
    "C13_ratios",
    "C13_empty_is_nan",
    "C13_hidden_bits"
   ],
   "note": ""
  },
  {
   "property": "C14",
   "status": "proved",
   "theorems": [
    "C14_copies",
    "C14_copies_independent",
    "C14_moved_from_broken",
    "C14_move_assignment",
    "C14_self_move",
    "C14_layout_copies",
    "C14_layout_from_rvalue_loses_columns",
    "C14_layout_moved_from_broken",
    "C14_layout_self_move_empties"
   ],
   "note": ""
  },
  {
   "property": "C15",
   "status": "proved",
   "theorems": [
    "C15_serialize_layout",
    "C15_serialize_length",
    "C15_empty_throws",
    "C15_serialize_injective_refuted"
   ],
   "note": ""
  },
  {
   "property": "C16",
   "status": "proved",
   "theorems": [
    "C16_round_trip",
    "C16_round_trip_ub"
   ],
   "note": ""
  },
  {
   "property": "C17",
   "status": "proved",
   "theorems": [
    "C17_empty",
    "C17_bad_header_ub",
    "C17_short_payload_ub",
    "C17_accepted",
    "C17_no_memory"
   ],
   "note": ""
  },
  {
   "property": "C18",
   "status": "proved",
   "theorems": [
    "C18_length_check",
    "C18_no_wrap",
    "C18_wrap",
    "C18_long_enough",
    "C18_wrap_instance"
   ],
   "note": ""
  },
  {
   "property": "C19",
   "status": "proved",
   "theorems": [
    "C19_constructor",
    "C19_constructor_out_of_limits",
    "C19_resize",
    "C19_at",
    "C19_at_assignment",
    "C19_not",
    "C19_colcount"
   ],
   "note": ""
  },
  {
   "property": "C20",
   "status": "proved",
   "theorems": [
    "C20_is_crc32",
    "C20_reads_only_the_given_length",
    "C20_rejected",
    "C20_value_is_32_bit"
   ],
   "note": ""
  },
  {
   "property": "C21",
   "status": "proved",
   "theorems": [
    "C21_bursts_detected",
    "C21_five_byte_bursts_detected_refuted"
   ],
   "note": ""
  },
  {
   "property": "C22",
   "status": "proved",
   "theorems": [
    "C22_standard",
    "C22_url",
    "C22_unknown_encoding",
    "C22_empty"
   ],
   "note": ""
  },
  {
   "property": "C23",
   "status": "proved",
   "theorems": [
    "C23_round_trip",
    "C23_injective"
   ],
   "note": ""
  },
  {
   "property": "C24",
   "status": "proved",
   "theorems": [
    "C24_exact",
    "C24_covers_every_text",
    "C24_only_one_reading",
    "C24_empty",
    "C24_accepts_only_canonical_texts_refuted"
   ],
   "note": ""
  },
  {
   "property": "C25",
   "status": "proved",
   "theorems": [
    "C25_length",
    "C25_alphabet"
   ],
   "note": ""
  },
  {
   "property": "C26",
   "status": "proved",
   "theorems": [
    "C26_mime",
    "C26_pem",
    "C26_lines_unique"
   ],
   "note": ""
  },
  {
   "property": "C27",
   "status": "proved",
   "theorems": [
    "C27_round_trip",
    "C27_line_breaks_irrelevant"
   ],
   "note": ""
  },
  {
   "property": "C28",
   "status": "proved",
   "theorems": [
    "C28_round_trip",
    "C28_encoder",
    "C28_encoder_long",
    "C28_always_encodes_refuted"
   ],
   "note": ""
  },
  {
   "property": "C29",
   "status": "proved",
   "theorems": [
    "C29_accepted_means_checksum",
    "C29_payload_burst_rejected",
    "C29_checksum_change_rejected",
    "C29_any_burst_rejected",
    "C29_short_text_rejected"
   ],
   "note": ""
  },
  {
   "property": "C30",
   "status": "proved",
   "theorems": [
    "C30_faithful_and_bounded",
    "C30_empty"
   ],
   "note": ""
  },
  {
   "property": "C31",
   "status": "proved",
   "theorems": [
    "C31_total",
    "C31_no_memory",
    "C31_empty_text",
    "C31_surplus_ignored"
   ],
   "note": ""
  },
  {
   "property": "C32",
   "status": "proved",
   "theorems": [
    "C32_round_trip"
   ],
   "note": ""
  },
  {
   "property": "C33",
   "status": "proved",
   "theorems": [
    "C33_byte_encode_faithful",
    "C33_byte_encode_empty",
    "C33_byte_decode_is_a_stub",
    "C33_byte_round_trip_refuted",
    "C33_string_functions_are_stubs"
   ],
   "note": ""
  },
  {
   "property": "C34",
   "status": "proved",
   "theorems": [
    "C34_encode",
    "C34_decode_strict",
    "C34_other_lengths",
    "C34_decode_x86",
    "C34_survival_of_usual_sizes",
    "C34_every_size_decodes_refuted"
   ],
   "note": ""
  },
  {
   "property": "C35",
   "status": "proved",
   "theorems": [
    "C35_encode",
    "C35_decode",
    "C35_round_trip",
    "C35_base64_flag_round_trip_refuted"
   ],
   "note": ""
  },
  {
   "property": "C36",
   "status": "proved",
   "theorems": [
    "C36_format",
    "C36_encode_outcomes",
    "C36_round_trip",
    "C36_spoiled_sizes"
   ],
   "note": ""
  },
  {
   "property": "C37",
   "status": "proved",
   "theorems": [
    "C37_equal_hashes",
    "C37_equal_hashes_equal_matrices",
    "C37_hash_depends_on_visible_bits_only"
   ],
   "note": ""
  },
  {
   "property": "C38",
   "status": "proved",
   "theorems": [
    "C38_no_begin",
    "C38_no_end",
    "C38_empty",
    "C38_burst_rejected",
    "C38_truncation_rejected",
    "C38_short_payload",
    "C38_missing_sections",
    "C38_strict_never_returns",
    "C38_crafted_text_is_safe_refuted"
   ],
   "note": ""
  },
  {
   "property": "C39",
   "status": "proved",
   "theorems": [
    "C39_file_round_trip",
    "C39_cannot_open"
   ],
   "note": ""
  },
  {
   "property": "C40",
   "status": "proved",
   "theorems": [
    "C40_read_is_atomic",
    "C40_init_is_atomic",
    "C40_flush_of_empty_destroys",
    "C40_flush_truncates_first",
    "C40_torn_files_are_rejected",
    "C40_flush_true_means_written_refuted"
   ],
   "note": ""
  },
  {
   "property": "C41",
   "status": "proved",
   "theorems": [
    "C41_set_angle_coords",
    "C41_is_in_workspace",
    "C41_always_ordered"
   ],
   "note": ""
  },
  {
   "property": "C42",
   "status": "proved",
   "theorems": [
    "C42_argument_not_checked",
    "C42_fresh_accepts_anything",
    "C42_stuck",
    "C42_one_bad_value_blocks",
    "C42_set_deltas"
   ],
   "note": ""
  },
  {
   "property": "C43",
   "status": "proved",
   "theorems": [
    "C43_only_adds",
    "C43_null_pointer",
    "C43_other_types"
   ],
   "note": ""
  },
  {
   "property": "C44",
   "status": "proved",
   "theorems": [
    "C44_covering_rectangle_fills"
   ],
   "note": ""
  },
  {
   "property": "C45",
   "status": "proved",
   "theorems": [
    "C45_left_or_above_throws"
   ],
   "note": ""
  },
  {
   "property": "C46",
   "status": "proved",
   "theorems": [
    "C46_covered_centres_are_set"
   ],
   "note": ""
  },
  {
   "property": "C47",
   "status": "proved",
   "theorems": [
    "C47_at_most_one_cell_too_far",
    "C47_overshoot_columns",
    "C47_overshoot_rows"
   ],
   "note": ""
  },
  {
   "property": "C48",
   "status": "proved",
   "theorems": [
    "C48_first_init",
    "C48_later_init_throws",
    "C48_rejected_arguments_change_nothing",
    "C48_inverted_box_is_final"
   ],
   "note": ""
  },
  {
   "property": "C49",
   "status": "proved",
   "theorems": [
    "C49_process_after_init_is_undefined",
    "C49_process_before_init_is_undefined",
    "C49_no_bitmap_under_strict_rules",
    "C49_the_value_read_is_irrelevant"
   ],
   "note": ""
  },
  {
   "property": "C50",
   "status": "proved",
   "theorems": [
    "C50_settings_exist",
    "C50_process_depends_only_on_its_inputs",
    "C50_repeating_a_call"
   ],
   "note": ""
  },
  {
   "property": "C51",
   "status": "proved",
   "theorems": [
    "C51_only_the_first_selected_layer_counts",
    "C51_all_selected_layers_are_drawn_refuted"
   ],
   "note": ""
  },
  {
   "property": "C52",
   "status": "proved",
   "theorems": [
    "C52_every_layout_has_its_candidates",
    "C52_the_bitmap_is_the_union",
    "C52_order_does_not_matter",
    "C52_outside_contributes_nothing"
   ],
   "note": ""
  },
  {
   "property": "C53",
   "status": "proved",
   "theorems": [
    "C53_paths_collapse_to_the_origin",
    "C53_exactly",
    "C53_rejects_everything_else",
    "C53_empty_path_undefined",
    "C53_boxes_surround_the_path_refuted"
   ],
   "note": ""
  },
  {
   "property": "C54",
   "status": "proved",
   "theorems": [
    "C54_discarded_values_overflow",
    "C54_exactly",
    "C54_points_do_not_overflow"
   ],
   "note": ""
  },
  {
   "property": "C55",
   "status": "proved",
   "theorems": [
    "C55_flattening_is_the_specification",
    "C55_any_result_is_the_expansion",
    "C55_acyclic_structures_expand",
    "C55_shapes_and_their_offsets",
    "C55_placement_is_ignored",
    "C55_null_is_empty",
    "C55_never_throws"
   ],
   "note": ""
  },
  {
   "property": "C56",
   "status": "proved",
   "theorems": [
    "C56_cycles_never_return",
    "C56_the_stack_is_exhausted",
    "C56_deeper_stacks_agree"
   ],
   "note": ""
  },
  {
   "property": "C57",
   "status": "proved",
   "theorems": [
    "C57_converter_boxes",
    "C57_converter_boxes_reject",
    "C57_msk_boxes"
   ],
   "note": ""
  },
  {
   "property": "C58",
   "status": "proved",
   "theorems": [
    "C58_well_formed_files"
   ],
   "note": ""
  },
  {
   "property": "C59",
   "status": "proved",
   "theorems": [
    "C59_layers_hold_the_objects"
   ],
   "note": ""
  },
  {
   "property": "C60",
   "status": "proved",
   "theorems": [
    "C60_element_bounding_box",
    "C60_no_shape_is_undefined"
   ],
   "note": ""
  },
  {
   "property": "C61",
   "status": "proved",
   "theorems": [
    "C61_fatal_lines",
    "C61_short_bounding_boxes"
   ],
   "note": ""
  },
  {
   "property": "C62",
   "status": "proved",
   "theorems": [
    "C62_format_detection"
   ],
   "note": ""
  },
  {
   "property": "C63",
   "status": "proved",
   "theorems": [
    "C63_words",
    "C63_double_words",
    "C63_all_images",
    "C63_writing",
    "C63_most_negative_refuted"
   ],
   "note": ""
  },
  {
   "property": "C64",
   "status": "proved",
   "theorems": [
    "C64_reals_are_read_correctly_rounded",
    "C64_value_is_unique"
   ],
   "note": ""
  },
  {
   "property": "C65",
   "status": "proved",
   "theorems": [
    "C65_writing_reals",
    "C65_special_values",
    "C65_round_trip_refuted"
   ],
   "note": ""
  },
  {
   "property": "C66",
   "status": "proved",
   "theorems": [
    "C66_the_reader_never_reads"
   ],
   "note": ""
  },
  {
   "property": "C67",
   "status": "proved",
   "theorems": [
    "C67_byte_coefficient",
    "C67_string_coefficient",
    "C67_matrix_coefficient",
    "C67_empty_matrix"
   ],
   "note": ""
  },
  {
   "property": "C68",
   "status": "proved",
   "theorems": [
    "C68_covered_cells_are_set"
   ],
   "note": ""
  },
  {
   "property": "C69",
   "status": "proved",
   "theorems": [
    "C69_set_cells_are_near_a_rectangle"
   ],
   "note": ""
  },
  {
   "property": "C70",
   "status": "proved",
   "theorems": [
    "C70_one_rectangle_aborts_the_bitmap"
   ],
   "note": ""
  },
  {
   "property": "C71",
   "status": "proved",
   "theorems": [
    "C71_polygons_leave_no_mark"
   ],
   "note": ""
  },
  {
   "property": "C72",
   "status": "proved",
   "theorems": [
    "C72_failing_reads"
   ],
   "note": ""
  },
  {
   "property": "C73",
   "status": "proved",
   "theorems": [
    "C73_second_file_has_no_bounding_box"
   ],
   "note": ""
  },
  {
   "property": "C74",
   "status": "proved",
   "theorems": [
    "C74_format_detection",
    "C74_short_files",
    "C74_libraries_are_recognised"
   ],
   "note": ""
  },
  {
   "property": "C75",
   "status": "proved",
   "theorems": [
    "C75_reading_ends"
   ],
   "note": ""
  },
  {
   "property": "C76",
   "status": "proved",
   "theorems": [
    "C76_well_formed_files",
    "C76_property_values_refuted"
   ],
   "note": ""
  },
  {
   "property": "C77",
   "status": "proved",
   "theorems": [
    "C77_references"
   ],
   "note": ""
  },
  {
   "property": "C78",
   "status": "proved",
   "theorems": [
    "C78_layers",
    "C78_pairs_are_determined",
    "C78_pairs_refuted"
   ],
   "note": ""
  },
  {
   "property": "C79",
   "status": "proved",
   "theorems": [
    "C79_library_boxes",
    "C79_nothing_after_a_failure",
    "C79_boxes_refuted"
   ],
   "note": ""
  },
  {
   "property": "C80",
   "status": "proved",
   "theorems": [
    "C80_second_property",
    "C80_array_references",
    "C80_refused_records",
    "C80_unknown_records_skipped"
   ],
   "note": ""
  },
  {
   "property": "C81",
   "status": "proved",
   "theorems": [
    "C81_library_and_element_names",
    "C81_stem_is_unique",
    "C81_unencodable_names"
   ],
   "note": ""
  },
  {
   "property": "C82",
   "status": "proved",
   "theorems": [
    "C82_readers_can_be_used_again",
    "C82_reading_twice",
    "C82_an_empty_file_blocks_the_reader"
   ],
   "note": ""
  },
  {
   "property": "C83",
   "status": "proved",
   "theorems": [
    "C83_from_file_to_bitmap"
   ],
   "note": ""
  },
  {
   "property": "C84",
   "status": "proved",
   "theorems": [
    "C84_same_objects_same_bitmap_and_hash",
    "C84_same_hash_same_bitmap"
   ],
   "note": ""
  },
  {
   "property": "C85",
   "status": "proved",
   "theorems": [
    "C85_files_with_the_same_shapes"
   ],
   "note": ""
  },
  {
   "property": "C86",
   "status": "proved",
   "theorems": [
    "C86_moving_layout_and_box",
    "C86_moved_files",
    "C86_moving_never_matters_refuted"
   ],
   "note": ""
  },
  {
   "property": "C87",
   "status": "proved",
   "theorems": [
    "C87_printed_text",
    "C87_the_text_tells_the_matrix"
   ],
   "note": ""
  },
  {
   "property": "C88",
   "status": "proved",
   "theorems": [
    "C88_settings",
    "C88_outcomes",
    "C88_intersection",
    "C88_zond"
   ],
   "note": ""
  },
  {
   "property": "C89",
   "status": "proved",
   "theorems": [
    "C89_covered_cells",
    "C89_near_the_rectangle",
    "C89_far_parts_stay_empty",
    "C89_drawing_moves_with_the_bounds_refuted"
   ],
   "note": ""
  },
  {
   "property": "C90",
   "status": "proved",
   "theorems": [
    "C90_rectangle_text",
    "C90_the_text_tells_the_rectangle",
    "C90_other_arguments"
   ],
   "note": ""
  },
  {
   "property": "C91",
   "status": "proved",
   "theorems": [
    "C91_nothing_in_the_box",
    "C91_box_too_large",
    "C91_gdsii_layouts_are_blank"
   ],
   "note": ""
  },
  {
   "property": "C92",
   "status": "proved",
   "theorems": [
    "C92_defined",
    "C92_undefined",
    "C92_releases"
   ],
   "note": ""
  },
  {
   "property": "C93",
   "status": "proved",
   "theorems": [
    "C93_copied_layout",
    "C93_copied_library",
    "C93_copied_element"
   ],
   "note": ""
  },
  {
   "property": "C94",
   "status": "proved",
   "theorems": [
    "C94_read",
    "C94_lost",
    "C94_failed",
    "C94_undefined",
    "C94_twice"
   ],
   "note": ""
  },
  {
   "property": "C95",
   "status": "proved",
   "theorems": [
    "C95_indices",
    "C95_all_covered",
    "C95_no_fragments",
    "C95_too_many_refuted"
   ],
   "note": ""
  },
  {
   "property": "C96",
   "status": "proved",
   "theorems": [
    "C96_workspaces",
    "C96_last_edge_refuted"
   ],
   "note": ""
  },
  {
   "property": "C97",
   "status": "proved",
   "theorems": [
    "C97_handing_out",
    "C97_walks",
    "C97_every_second",
    "C97_at_most_two_fragments",
    "C97_count",
    "C97_own_fragments_only_refuted"
   ],
   "note": ""
  },
  {
   "property": "C98",
   "status": "proved",
   "theorems": [
    "C98_one_fragment",
    "C98_left_of_the_box_refuted"
   ],
   "note": ""
  },
  {
   "property": "C99",
   "status": "proved",
   "theorems": [
    "C99_flips_detected",
    "C99_three_flips_in_11455_bytes_detected_refuted",
    "C99_four_flips_in_376_bytes_detected_refuted",
    "C99_five_flips_in_38_bytes_detected_refuted"
   ],
   "note": ""
  },
  {
   "property": "C100",
   "status": "proved",
   "theorems": [
    "C100_payload_flips_rejected",
    "C100_any_two_flips_rejected",
    "C100_hash_flips_rejected"
   ],
   "note": ""
  },
  {
   "property": "C101",
   "status": "proved",
   "theorems": [
    "C101_fewer_objects_fewer_cells"
   ],
   "note": ""
  },
  {
   "property": "C102",
   "status": "proved",
   "theorems": [
    "C102_few_cells_change",
    "C102_small_changes_go_unnoticed"
   ],
   "note": ""
  },
  {
   "property": "C103",
   "status": "proved",
   "theorems": [
    "C103_large_changes_are_noticed"
   ],
   "note": ""
  },
  {
   "property": "C104",
   "status": "proved",
   "theorems": [
    "C104_stored_bitmaps_are_as_good",
    "C104_recognised_by_the_stored_bitmap"
   ],
   "note": ""
  },
  {
   "property": "C105",
   "status": "proved",
   "theorems": [
    "C105_exactly_the_marked_cells",
    "C105_whole_cells"
   ],
   "note": ""
  },
  {
   "property": "C106",
   "status": "proved",
   "theorems": [
    "C106_same_places_same_bitmap",
    "C106_scaling",
    "C106_scaling_of_any_layout_refuted"
   ],
   "note": ""
  },
  {
   "property": "C107",
   "status": "proved",
   "theorems": [
    "C107_score_is_the_share_of_equal_cells",
    "C107_greater_score_fewer_differences",
    "C107_one_means_identical"
   ],
   "note": ""
  },
  {
   "property": "C108",
   "status": "proved",
   "theorems": [
    "C108_triangle",
    "C108_no_confusion",
    "C108_almost_transitive"
   ],
   "note": ""
  },
  {
   "property": "C109",
   "status": "proved",
   "theorems": [
    "C109_growing_moves_at_most_one_cell",
    "C109_ends_in_first_halves",
    "C109_growing_never_clears_a_cell_refuted"
   ],
   "note": ""
  },
  {
   "property": "C110",
   "status": "proved",
   "theorems": [
    "C110_the_bitmap_is_the_covered_area",
    "C110_same_area_same_bitmap",
    "C110_cutting_a_rectangle_changes_nothing_refuted"
   ],
   "note": ""
  },
  {
   "property": "C111",
   "status": "proved",
   "theorems": [
    "C111_turning_over",
    "C111_turning_twice",
    "C111_scores_of_turned_bitmaps",
    "C111_mirroring_respected_refuted"
   ],
   "note": ""
  },
  {
   "property": "C112",
   "status": "proved",
   "theorems": [
    "C112_random_fill"
   ],
   "note": ""
  },
  {
   "property": "C113",
   "status": "proved",
   "theorems": [
    "C113_value_semantics"
   ],
   "note": ""
  },
  {
   "property": "C114",
   "status": "proved",
   "theorems": [
    "C114_one_bitmap",
    "C114_kept_pointers_compare_equal",
    "C114_pointer_keeps_its_bitmap_refuted"
   ],
   "note": ""
  },
  {
   "property": "C115",
   "status": "proved",
   "theorems": [
    "C115_bitmaps_apart"
   ],
   "note": ""
  },
  {
   "property": "C116",
   "status": "proved",
   "theorems": [
    "C116_copies_share",
    "C116_assignment_shares"
   ],
   "note": ""
  },
  {
   "property": "C117",
   "status": "proved",
   "theorems": [
    "C117_layout_read_by_process"
   ],
   "note": ""
  },
  {
   "property": "C118",
   "status": "proved",
   "theorems": [
    "C118_xor",
    "C118_matches_everything",
    "C118_right_operand",
    "C118_other_calls",
    "C118_revived"
   ],
   "note": ""
  },
  {
   "property": "C119",
   "status": "proved",
   "theorems": [
    "C119_unsealed_is_refused",
    "C119_accepts_exactly",
    "C119_result",
    "C119_undefined_exactly",
    "C119_marker_in_place_refuted"
   ],
   "note": ""
  },
  {
   "property": "C120",
   "status": "proved",
   "theorems": [
    "C120_exact_text",
    "C120_exact_bytes",
    "C120_maximal_runs",
    "C120_length",
    "C120_distance_from_shortest",
    "C120_shortest_refuted",
    "C120_hash_length"
   ],
   "note": ""
  },
  {
   "property": "C121",
   "status": "proved",
   "theorems": [
    "C121_room",
    "C121_no_room",
    "C121_room_for_the_text_suffices_refuted",
    "C121_asks_for_the_square",
    "C121_wraps"
   ],
   "note": ""
  },
  {
   "property": "C122",
   "status": "proved",
   "theorems": [
    "C122_xor_algebra",
    "C122_common_changes_do_not_matter",
    "C122_score_of_the_difference",
    "C122_opposite_by_xor",
    "C122_opposites",
    "C122_triangle",
    "C122_chains_of_equal_matrices"
   ],
   "note": ""
  },
  {
   "property": "C123",
   "status": "proved",
   "theorems": [
    "C123_any_checksum_by_four_bytes",
    "C123_twins",
    "C123_residue",
    "C123_effect_of_a_change",
    "C123_equal_checksums_equal_texts_refuted"
   ],
   "note": ""
  },
  {
   "property": "C124",
   "status": "proved",
   "theorems": [
    "C124_encoding_in_pieces",
    "C124_decoding_in_pieces",
    "C124_after_padding_ignored",
    "C124_cut_encodings",
    "C124_any_pieces_refuted"
   ],
   "note": ""
  },
  {
   "property": "C125",
   "status": "proved",
   "theorems": [
    "C125_cut_files",
    "C125_whole_lines",
    "C125_torn_rectangles",
    "C125_recognised",
    "C125_only_objects_of_the_file_refuted"
   ],
   "note": ""
  },
  {
   "property": "C126",
   "status": "proved",
   "theorems": [
    "C126_the_library_reads_back",
    "C126_a_crash_costs_one_file",
    "C126_the_best_score_is_the_nearest",
    "C126_from_drawings_to_recognition",
    "C126_old_or_new_refuted"
   ],
   "note": ""
  },
  {
   "property": "C127",
   "status": "proved",
   "theorems": [
    "C127_cut_files",
    "C127_where_it_stops_is_determined",
    "C127_between_records",
    "C127_the_end_is_not_needed",
    "C127_truncation_noticed_refuted"
   ],
   "note": ""
  },
  {
   "property": "C128",
   "status": "proved",
   "theorems": [
    "C128_two_resolutions",
    "C128_blank_at_one_blank_at_all",
    "C128_small_rectangles_kept_refuted"
   ],
   "note": ""
  },
  {
   "property": "C129",
   "status": "proved",
   "theorems": [
    "C129_few_cells_differ",
    "C129_small_inaccuracies_go_unnoticed",
    "C129_half_a_cell_goes_unnoticed_refuted"
   ],
   "note": ""
  },
  {
   "property": "C130",
   "status": "proved",
   "theorems": [
    "C130_last_accepted_call_counts",
    "C130_accuracy"
   ],
   "note": ""
  },
  {
   "property": "C131",
   "status": "proved",
   "theorems": [
    "C131_cells_without_size",
    "C131_before_the_deltas",
    "C131_no_deltas_no_drawing_refuted"
   ],
   "note": ""
  },
  {
   "property": "C132",
   "status": "proved",
   "theorems": [
    "C132_the_score_under_noise",
    "C132_the_right_reference_wins",
    "C132_found_in_the_library"
   ],
   "note": ""
  },
  {
   "property": "C133",
   "status": "proved",
   "theorems": [
    "C133_slightly_different_files"
   ],
   "note": ""
  },
  {
   "property": "C134",
   "status": "proved",
   "theorems": [
    "C134_recognised_with_errors",
    "C134_once_is_enough_refuted"
   ],
   "note": ""
  },
  {
   "property": "C135",
   "status": "proved",
   "theorems": [
    "C135_image_bitmaps",
    "C135_image_scores",
    "C135_images_of_points_and_cells",
    "C135_images_of_files"
   ],
   "note": ""
  },
  {
   "property": "C136",
   "status": "proved",
   "theorems": [
    "C136_assignment_interrupted",
    "C136_a_mixture",
    "C136_when_it_can_be_read",
    "C136_layout_matrix_assignment_interrupted",
    "C136_repair_and_constructors",
    "C136_with_enough_memory",
    "C136_left_as_it_was_refuted",
    "C136_always_readable_refuted",
    "C136_noexcept_or_the_program_ends"
   ],
   "note": ""
  },
  {
   "property": "C137",
   "status": "proved",
   "theorems": [
    "C137_damage_is_noticed",
    "C137_the_search",
    "C137_the_nearest_is_found",
    "C137_a_drawing_is_recognised",
    "C137_right_or_nothing_refuted"
   ],
   "note": ""
  },
  {
   "property": "C138",
   "status": "proved",
   "theorems": [
    "C138_windows_of_layouts",
    "C138_windows_of_files",
    "C138_score_of_a_window",
    "C138_exactly_the_block_refuted"
   ],
   "note": ""
  },
  {
   "property": "C139",
   "status": "proved",
   "theorems": [
    "C139_the_search",
    "C139_the_nearest_is_found",
    "C139_a_drawing_is_recognised",
    "C139_right_size_refuted"
   ],
   "note": ""
  },
  {
   "property": "C140",
   "status": "proved",
   "theorems": [
    "C140_without_accuracy",
    "C140_above_throws",
    "C140_left_throws",
    "C140_without_cell_height",
    "C140_without_cell_width",
    "C140_infinite_cells",
    "C140_the_setters_accept",
    "C140_covering_rectangle_drawn_refuted"
   ],
   "note": ""
  }
 ]
}