{
 "claims": [
  {
   "property": "C01",
   "status": "proved",
   "theorems": [
    "C01_buint128_roundtrip",
    "C01_buint128_length",
    "C01_buint128_sequence"
   ],
   "note": ""
  },
  {
   "property": "C02",
   "status": "proved",
   "theorems": [
    "C02_bint128_roundtrip",
    "C02_bint128_sequence",
    "C02_bint128_corrupted_interval_refuted",
    "C02_bint128_overlong_refuted"
   ],
   "note": ""
  },
  {
   "property": "C03",
   "status": "proved",
   "theorems": [
    "C03_swap_reverses_bytes_and_is_involutive",
    "C03_array_swap_elementwise",
    "C03_array_swap_involution",
    "C03_single_byte_throws"
   ],
   "note": ""
  },
  {
   "property": "C04",
   "status": "proved",
   "theorems": [
    "C04_get_reads_own_bits",
    "C04_get_after_set",
    "C04_set_frame",
    "C04_set_preserves_other_members",
    "C04_members_disjoint",
    "C04_member_positions"
   ],
   "note": ""
  },
  {
   "property": "C05",
   "status": "proved",
   "theorems": [
    "C05_out_in_restores_members",
    "C05_out_in_full_layout",
    "C05_in_out_full_layout"
   ],
   "note": ""
  },
  {
   "property": "C06",
   "status": "proved",
   "theorems": [
    "C06_flags_history",
    "C06_flags_query_bit",
    "C06_flags_construct",
    "C06_flags_equality",
    "C06_flags_index_past_store_ignored"
   ],
   "note": ""
  },
  {
   "property": "C07",
   "status": "proved",
   "theorems": [
    "C07_padding_least",
    "C07_is_pow2",
    "C07_padding_other_alignment_refuted"
   ],
   "note": ""
  },
  {
   "property": "C08",
   "status": "proved",
   "theorems": [
    "C08_skip_start",
    "C08_skip_end",
    "C08_trim",
    "C08_stripping_is_unique",
    "C08_all_blank_reads_outside"
   ],
   "note": ""
  },
  {
   "property": "C09",
   "status": "proved",
   "theorems": [
    "C09_compile_bytes",
    "C09_compile_injective",
    "C09_render_alnum",
    "C09_render_injective",
    "C09_non_ascii_refuted"
   ],
   "note": ""
  },
  {
   "property": "C10",
   "status": "proved",
   "theorems": [
    "C10_load_total",
    "C10_decompose"
   ],
   "note": ""
  },
  {
   "property": "C11",
   "status": "proved",
   "theorems": [
    "C11_filename",
    "C11_filename_domain",
    "C11_dotted_directory_refuted"
   ],
   "note": ""
  },
  {
   "property": "C12",
   "status": "proved",
   "theorems": [
    "C12_explode",
    "C12_components_unique"
   ],
   "note": ""
  },
  {
   "property": "C13",
   "status": "proved",
   "theorems": [
    "C13_alloc_history",
    "C13_first_allocation_is_external",
    "C13_external_never_deleted",
    "C13_growth_refuted",
    "C13_copy_aliases_refuted"
   ],
   "note": ""
  },
  {
   "property": "C14",
   "status": "proved",
   "theorems": [
    "C14_ownership"
   ],
   "note": ""
  },
  {
   "property": "C15",
   "status": "proved",
   "theorems": [
    "C15_xor_bytes",
    "C15_xor_round_trip",
    "C15_xor_fails_iff",
    "C15_xor_bytes_ok"
   ],
   "note": ""
  },
  {
   "property": "C16",
   "status": "proved",
   "theorems": [
    "C16_block_inverse",
    "C16_block_permutation",
    "C16_block_is_blowfish"
   ],
   "note": ""
  },
  {
   "property": "C17",
   "status": "proved",
   "theorems": [
    "C17_round_trip",
    "C17_encode_is_the_mode",
    "C17_length_and_tail",
    "C17_ofb_symmetric",
    "C17_large_buffers_refuted"
   ],
   "note": ""
  },
  {
   "property": "C18",
   "status": "proved",
   "theorems": [
    "C18_cannon_is_one_at_a_time",
    "C18_wide_formula",
    "C18_literal_agrees",
    "C18_range",
    "C18_cannon_single_character",
    "C18_wide_single_character_refuted",
    "C18_comparisons"
   ],
   "note": ""
  },
  {
   "property": "C19",
   "status": "proved",
   "theorems": [
    "C19_is_lookup3",
    "C19_last_twelve_ignored_refuted",
    "C19_trailing_nul_refuted"
   ],
   "note": ""
  },
  {
   "property": "C20",
   "status": "proved",
   "theorems": [
    "C20_operators",
    "C20_compare_sign",
    "C20_strict_total_order"
   ],
   "note": ""
  },
  {
   "property": "C21",
   "status": "proved",
   "theorems": [
    "C21_find_first_of",
    "C21_find_last_of",
    "C21_find_last_of_empty_refuted",
    "C21_find_first_not_of",
    "C21_find_last_not_of",
    "C21_empty_set_refuted",
    "C21_find_char",
    "C21_find_char_last_refuted",
    "C21_rfind_char"
   ],
   "note": ""
  },
  {
   "property": "C22",
   "status": "proved",
   "theorems": [
    "C22_rfind_view_refuted",
    "C22_rfind_view_exact",
    "C22_find_view_exact",
    "C22_find_view_no_skip",
    "C22_find_view_refuted"
   ],
   "note": ""
  },
  {
   "property": "C23",
   "status": "proved",
   "theorems": [
    "C23_at",
    "C23_substr",
    "C23_copy_exact"
   ],
   "note": ""
  },
  {
   "property": "C24",
   "status": "proved",
   "theorems": [
    "C24_always",
    "C24_on_return",
    "C24_returns",
    "C24_zero_hardware_threads_refuted"
   ],
   "note": ""
  },
  {
   "property": "C25",
   "status": "proved",
   "theorems": [
    "C25_thread_messages",
    "C25_every_moment",
    "C25_at_the_end",
    "C25_no_deadlock",
    "C25_registration",
    "C25_register_twice",
    "C25_colour_broadcast_refuted",
    "C25_colour_count_refuted",
    "C25_bare_flush_refuted"
   ],
   "note": ""
  },
  {
   "property": "C26",
   "status": "proved",
   "theorems": [
    "C26_write_puts_encoding",
    "C26_read_back",
    "C26_records_read_back",
    "C26_short_read_fails",
    "C26_failure_is_permanent"
   ],
   "note": ""
  },
  {
   "property": "C27",
   "status": "proved",
   "theorems": [
    "C27_container_read_back",
    "C27_whole_container",
    "C27_write_always_succeeds",
    "C27_elements_read_back",
    "C27_short_stream",
    "C27_lambda_read_back"
   ],
   "note": ""
  },
  {
   "property": "C28",
   "status": "proved",
   "theorems": [
    "C28_string_read_back",
    "C28_wide_string_read_back",
    "C28_unterminated",
    "C28_failed_reader_refuted"
   ],
   "note": ""
  },
  {
   "property": "C29",
   "status": "proved",
   "theorems": [
    "C29_tell",
    "C29_unusable_refuted",
    "C29_seek_tell_identity",
    "C29_seek_then_tell",
    "C29_set_origin",
    "C29_push_pop",
    "C29_nested_push_refuted",
    "C29_get_size"
   ],
   "note": ""
  },
  {
   "property": "C30",
   "status": "proved",
   "theorems": [
    "C30_writer_skip",
    "C30_skip_backwards",
    "C30_reader_skip",
    "C30_padding",
    "C30_skip_erases"
   ],
   "note": ""
  },
  {
   "property": "C31",
   "status": "proved",
   "theorems": [
    "C31_scan",
    "C31_quote_refuted",
    "C31_backslash_refuted"
   ],
   "note": ""
  },
  {
   "property": "C32",
   "status": "proved",
   "theorems": [
    "C32_many",
    "C32_many_exist",
    "C32_one"
   ],
   "note": ""
  },
  {
   "property": "C33",
   "status": "proved",
   "theorems": [
    "C33_contents",
    "C33_listing",
    "C33_rejects",
    "C33_unknown_block",
    "C33_hang_refuted"
   ],
   "note": ""
  },
  {
   "property": "C34",
   "status": "proved",
   "theorems": [
    "C34_signed",
    "C34_unsigned",
    "C34_malformed",
    "C34_no_member",
    "C34_bitfield",
    "C34_bitfield_negative_refuted",
    "C34_bitfield_malformed_refuted",
    "C34_wide_bitfield_refuted",
    "C34_newline_refuted"
   ],
   "note": ""
  },
  {
   "property": "C35",
   "status": "proved",
   "theorems": [
    "C35_int_arrays",
    "C35_vector_arrays",
    "C35_integers",
    "C35_integers_text",
    "C35_unsigned_bits",
    "C35_bits_text",
    "C35_signed_bits_refuted",
    "C35_bool",
    "C35_bool_text",
    "C35_bool_set"
   ],
   "note": ""
  },
  {
   "property": "C36",
   "status": "proved",
   "theorems": [
    "C36_set",
    "C36_get",
    "C36_round_trip",
    "C36_refused",
    "C36_flags_set",
    "C36_flags_round_trip",
    "C36_negative_refuted",
    "C36_unnamed_flag_refuted",
    "C36_large_flag_refuted"
   ],
   "note": ""
  },
  {
   "property": "C37",
   "status": "proved",
   "theorems": [
    "C37_values",
    "C37_names",
    "C37_expressions_refuted"
   ],
   "note": ""
  },
  {
   "property": "C38",
   "status": "proved",
   "theorems": [
    "C38_set_array",
    "C38_array_any_text",
    "C38_set_element",
    "C38_set_element_value",
    "C38_get_out_of_range",
    "C38_get_element",
    "C38_set_no_bound_refuted",
    "C38_element_bound_refuted",
    "C38_number_element_zero_refuted",
    "C38_bool_overrun_refuted",
    "C38_silent_refuted",
    "C38_flag_set_refuted",
    "C38_flag_get_refuted"
   ],
   "note": ""
  },
  {
   "property": "C39",
   "status": "proved",
   "theorems": [
    "C39_round_trip",
    "C39_unknown_members_skipped",
    "C39_other_class_refused",
    "C39_other_member_count_refused",
    "C39_low_signed_refuted",
    "C39_unsupported_refused",
    "C39_two_levels_refuted",
    "C39_member_error_lost_refuted"
   ],
   "note": ""
  },
  {
   "property": "C40",
   "status": "proved",
   "theorems": [
    "C40_morton_order",
    "C40_bijective",
    "C40_tall_refuted",
    "C40_tall_injective",
    "C40_small_or_huge_refuted"
   ],
   "note": ""
  },
  {
   "property": "C41",
   "status": "proved",
   "theorems": [
    "C41_bc4",
    "C41_bc5",
    "C41_bc5_ga",
    "C41_bc2",
    "C41_bc3",
    "C41_palette_range"
   ],
   "note": ""
  },
  {
   "property": "C42",
   "status": "proved",
   "theorems": [
    "C42_video_bits",
    "C42_consecutive",
    "C42_too_many_levels",
    "C42_plain_sizes",
    "C42_block_sizes",
    "C42_square_block_chain",
    "C42_wrong_sizes",
    "C42_block_formats",
    "C42_bits_per_texel",
    "C42_video_counts",
    "C42_known_bits_kept",
    "C42_legacy_bits",
    "C42_legacy_bits_agree",
    "C42_uyvy_unsized",
    "C42_mip_flags"
   ],
   "note": ""
  },
  {
   "property": "C43",
   "status": "proved",
   "theorems": [
    "C43_named_formats",
    "C43_coded_formats",
    "C43_legacy_round_trip",
    "C43_forced_round_trip",
    "C43_modern_round_trip",
    "C43_premultiplied_not_cleared",
    "C43_other_fields_kept",
    "C43_same_bits",
    "C43_channel_masks",
    "C43_refused"
   ],
   "note": ""
  },
  {
   "property": "C44",
   "status": "proved",
   "theorems": [
    "C44_ToFloat_exact",
    "C44_ToFloat_negative_tiny_wrong",
    "C44_ToVector4_exact",
    "C44_FromFloat_truncates",
    "C44_FromFloat_subnormal",
    "C44_FromFloat_loses",
    "C44_FromVector4_truncates",
    "C44_FromVector4_subnormal",
    "C44_FromVector4_loses",
    "C44_scalar_round_trip",
    "C44_vector_round_trip",
    "C44_lanes_independent",
    "C44_ufloat_6_5",
    "C44_float_5_5",
    "C44_packed_ufloat_as_is",
    "C44_packed_ufloat_wrong"
   ],
   "note": ""
  },
  {
   "property": "C45",
   "status": "proved",
   "theorems": [
    "C45_product_entries",
    "C45_product_associative",
    "C45_identity_unit",
    "C45_identity_unit_single",
    "C45_identity_not_unit_infinite",
    "C45_full_transpose_entries",
    "C45_full_transpose_involution",
    "C45_full_transpose_product",
    "C45_transpose_entries",
    "C45_transpose_involution",
    "C45_rotate_entries",
    "C45_rotate_product",
    "C45_rotate_product_needs_zero_lanes",
    "C45_rotate_isometry",
    "C45_quaternion_rotation",
    "C45_quaternion_product",
    "C45_quaternion_rotates",
    "C45_quaternion_conjugate",
    "C45_quaternion_readback",
    "C45_matrix_readback",
    "C45_compose_decompose",
    "C45_decompose_compose",
    "C45_decompose_one_sign",
    "C45_inverse_columns",
    "C45_inverse_product",
    "C45_inverse_product_iff",
    "C45_inverse_translation_wrong",
    "C45_inverse_small_wrong"
   ],
   "note": ""
  },
  {
   "property": "C46",
   "status": "proved",
   "theorems": [
    "C46_operator_lanes",
    "C46_compound_is_operator",
    "C46_or_assign_four",
    "C46_or_assign_wrong",
    "C46_scalar_lanes",
    "C46_defined",
    "C46_equality",
    "C46_symmetrical",
    "C46_sign",
    "C46_dot",
    "C46_cross",
    "C46_simd_lanes",
    "C46_simd_shifts",
    "C46_simd_not",
    "C46_simd_equality",
    "C46_to_float_exact",
    "C46_to_int_nearest",
    "C46_float_roundtrip",
    "C46_unsigned_to_float_wrong",
    "C46_to_int_out_of_range",
    "C46_float_not",
    "C46_float_sign",
    "C46_float_equality",
    "C46_float_equality_asymmetric",
    "C46_float_order",
    "C46_float_le_wrong",
    "C46_float_symmetrical",
    "C46_float_symmetrical_wrong",
    "C46_float_cross",
    "C46_float_normalized",
    "C46_float_normalized_zero",
    "C46_quat_element",
    "C46_quat_element_stale"
   ],
   "note": ""
  },
  {
   "property": "C47",
   "status": "proved",
   "theorems": [
    "C47_UINT",
    "C47_INT",
    "C47_UNORM",
    "C47_NORM",
    "C47_normalised_monotone",
    "C47_lanes_that_mix",
    "C47_lanes_that_mix_wrong",
    "C47_NORM_unclamped",
    "C47_FLOAT_single",
    "C47_FLOAT_half",
    "C47_FLOAT_one_half",
    "C47_FLOAT_packed",
    "C47_packed_blue"
   ],
   "note": ""
  },
  {
   "property": "C48",
   "status": "proved",
   "theorems": [
    "C48_one_value",
    "C48_sample",
    "C48_small_stride_throws",
    "C48_short_buffer_faults",
    "C48_tight_buffer",
    "C48_local"
   ],
   "note": ""
  },
  {
   "property": "C49",
   "status": "proved",
   "theorems": [
    "C49_get",
    "C49_wrong_kind_throws",
    "C49_descriptor"
   ],
   "note": ""
  },
  {
   "property": "C50",
   "status": "proved",
   "theorems": [
    "C50_visits_all",
    "C50_accessor",
    "C50_shrinking_throws",
    "C50_iterators",
    "C50_borrowed_owner",
    "C50_owning_owner_dangles"
   ],
   "note": ""
  },
  {
   "property": "C51",
   "status": "proved",
   "theorems": [
    "C51_tables_are_pi",
    "C51_schedule_over_tables",
    "C51_published_schedule",
    "C51_through_interface",
    "C51_interface_palindromes",
    "C51_interface_refuted",
    "C51_set_key_usable",
    "C51_set_key_discards_vector",
    "C51_ascii_key_words",
    "C51_key_bytes_lost_refuted"
   ],
   "note": ""
  },
  {
   "property": "C52",
   "status": "proved",
   "theorems": [
    "C52_bc1",
    "C52_bc1a_transparent",
    "C52_bc1a_opaque",
    "C52_color_monotone_ends",
    "C52_white_mean_not_white"
   ],
   "note": ""
  },
  {
   "property": "C53",
   "status": "proved",
   "theorems": [
    "C53_blue_exact",
    "C53_blue_signed_char_undefined"
   ],
   "note": ""
  },
  {
   "property": "C54",
   "status": "proved",
   "theorems": [
    "C54_fixup_once",
    "C54_results",
    "C54_x86_reach",
    "C54_x86_assign",
    "C54_x86_assign_null_refuted",
    "C54_second_fixup_refuted",
    "C54_stale_address_refuted",
    "C54_clear_then_reload"
   ],
   "note": ""
  },
  {
   "property": "C55",
   "status": "proved",
   "theorems": [
    "C55_valid_chunk",
    "C55_riff_size",
    "C55_riff_short_refuted",
    "C55_data",
    "C55_next_refuted",
    "C55_next_counts_header",
    "C55_calc_data",
    "C55_adpcm_refuted",
    "C55_other_formats",
    "C55_sample_loops"
   ],
   "note": ""
  },
  {
   "property": "C56",
   "status": "proved",
   "theorems": [
    "C56_utf32_to_utf8",
    "C56_utf16_to_utf8",
    "C56_utf8_to_wide",
    "C56_forms_exist",
    "C56_malformed_throws",
    "C56_utf16_malformed_throws",
    "C56_utf32_malformed_throws",
    "C56_cut_short_refuted",
    "C56_round_trip_2",
    "C56_round_trip_4",
    "C56_round_trip_4_refuted",
    "C56_pointer",
    "C56_embedded_zero",
    "C56_empty_refuted"
   ],
   "note": ""
  },
  {
   "property": "C57",
   "status": "proved",
   "theorems": [
    "C57_resample",
    "C57_unpacks",
    "C57_rts"
   ],
   "note": ""
  },
  {
   "property": "C58",
   "status": "proved",
   "theorems": [
    "C58_handlers_refuted",
    "C58_all_calls",
    "C58_modify_refuted",
    "C58_modify_message_refuted"
   ],
   "note": ""
  },
  {
   "property": "C59",
   "status": "proved",
   "theorems": [
    "C59_texels",
    "C59_near",
    "C59_far",
    "C59_other_sizes"
   ],
   "note": ""
  },
  {
   "property": "C60",
   "status": "proved",
   "theorems": [
    "C60_result",
    "C60_elements",
    "C60_query",
    "C60_query_none",
    "C60_empty_array_refuted"
   ],
   "note": ""
  },
  {
   "property": "C61",
   "status": "proved",
   "theorems": [
    "C61_lookup",
    "C61_same_member",
    "C61_unknown",
    "C61_no_alias_refuted",
    "C61_bitfield_order_refuted",
    "C61_description",
    "C61_pair",
    "C61_pair_none",
    "C61_pair_refuted",
    "C61_unit_refuted"
   ],
   "note": ""
  },
  {
   "property": "C62",
   "status": "proved",
   "theorems": [
    "C62_members",
    "C62_kinds",
    "C62_bit_members",
    "C62_elements",
    "C62_alias_refuted",
    "C62_vector_items",
    "C62_nested_refuted"
   ],
   "note": ""
  },
  {
   "property": "C63",
   "status": "proved",
   "theorems": [
    "C63_set",
    "C63_range_refuted",
    "C63_refused",
    "C63_first_element_refuted",
    "C63_set_float"
   ],
   "note": ""
  },
  {
   "property": "C64",
   "status": "proved",
   "theorems": [
    "C64_loops",
    "C64_last_lost_refuted",
    "C64_extra_refuted",
    "C64_limit"
   ],
   "note": ""
  },
  {
   "property": "C65",
   "status": "proved",
   "theorems": [
    "C65_held_class_refuted",
    "C65_held_enum_refuted",
    "C65_save_elsewhere_refuted",
    "C65_save_at_start",
    "C65_round_trip",
    "C65_alias_hashes_lost",
    "C65_file",
    "C65_refuses",
    "C65_counts_believed",
    "C65_alias_hash_pointer_misplaced"
   ],
   "note": ""
  },
  {
   "property": "C66",
   "status": "proved",
   "theorems": [
    "C66_exact",
    "C66_joins",
    "C66_relative_file_loses_separator",
    "C66_other_place",
    "C66_place_ending_with_name_refuted",
    "C66_place_starting_with_name_refuted",
    "C66_double_slash",
    "C66_lone_slash_refuted"
   ],
   "note": ""
  },
  {
   "property": "C67",
   "status": "proved",
   "theorems": [
    "C67_float_values",
    "C67_float_refuted",
    "C67_round_trip",
    "C67_bytes",
    "C67_class_node",
    "C67_second_refuted",
    "C67_no_class_node",
    "C67_any_elements",
    "C67_unknown",
    "C67_signed_bits_refuted",
    "C67_unnamed_refuted"
   ],
   "note": ""
  },
  {
   "property": "C68",
   "status": "proved",
   "theorems": [
    "C68_round_trip",
    "C68_class_node",
    "C68_no_class_node",
    "C68_any_order",
    "C68_any_part",
    "C68_unknown_attribute",
    "C68_unknown_element",
    "C68_unknown_element_refuted",
    "C68_hashed_array_refuted",
    "C68_vector_array_refuted",
    "C68_array_class_refuted",
    "C68_components_refuted",
    "C68_axis_refuted",
    "C68_no_index",
    "C68_flag31_refuted"
   ],
   "note": ""
  },
  {
   "property": "C69",
   "status": "proved",
   "theorems": [
    "C69_writes_local_file",
    "C69_writes_central_file",
    "C69_writes_end",
    "C69_writes_signature",
    "C69_writes_locator",
    "C69_writes_end64",
    "C69_end64_mixes_byte_orders",
    "C69_reads_fields",
    "C69_round_trip",
    "C69_archive_round_trip"
   ],
   "note": ""
  },
  {
   "property": "C70",
   "status": "proved",
   "theorems": [
    "C70_constructors",
    "C70_reading",
    "C70_modifier_history",
    "C70_legal_step",
    "C70_overrun_refuted",
    "C70_swap",
    "C70_substr",
    "C70_compare",
    "C70_compare_parts"
   ],
   "note": ""
  },
  {
   "property": "C71",
   "status": "proved",
   "theorems": [
    "C71_protocol",
    "C71_for_visits_all",
    "C71_loops_release_refuted",
    "C71_for_temporary_refuted",
    "C71_nested_refuted",
    "C71_parent_of_root_refuted",
    "C71_enum",
    "C71_module_enums",
    "C71_enum_names",
    "C71_reflected_enum",
    "C71_bone_compare"
   ],
   "note": ""
  },
  {
   "property": "C72",
   "status": "proved",
   "theorems": [
    "C72_header_message",
    "C72_defined",
    "C72_negative_refuted",
    "C72_distinct",
    "C72_version_and_files"
   ],
   "note": ""
  },
  {
   "property": "C73",
   "status": "proved",
   "theorems": [
    "C73_help",
    "C73_help_all",
    "C73_help_exists",
    "C73_every_member",
    "C73_incomplete_refuted",
    "C73_log",
    "C73_log_refuted"
   ],
   "note": ""
  },
  {
   "property": "C74",
   "status": "proved",
   "theorems": [
    "C74_last_wins",
    "C74_found",
    "C74_kinds_apart",
    "C74_unnamed_refuted",
    "C74_collision_refuted"
   ],
   "note": ""
  },
  {
   "property": "C75",
   "status": "proved",
   "theorems": [
    "C75_file_type",
    "C75_socket_refuted",
    "C75_windows",
    "C75_is_help"
   ],
   "note": ""
  },
  {
   "property": "C76",
   "status": "proved",
   "theorems": [
    "C76_suffix",
    "C76_order_irrelevant",
    "C76_ambiguous_refuted",
    "C76_matrix",
    "C76_matrix_refuted"
   ],
   "note": ""
  },
  {
   "property": "C77",
   "status": "proved",
   "theorems": [
    "C77_function",
    "C77_check_any",
    "C77_check_operator_refuted",
    "C77_equal_operator_refuted",
    "C77_cases",
    "C77_last_case_refuted",
    "C77_cancel_refuted"
   ],
   "note": ""
  },
  {
   "property": "C78",
   "status": "proved",
   "theorems": [
    "C78_accessors",
    "C78_constructors",
    "C78_maps",
    "C78_resize",
    "C78_resize_count",
    "C78_delete",
    "C78_negative_refuted"
   ],
   "note": ""
  },
  {
   "property": "C79",
   "status": "proved",
   "theorems": [
    "C79_to_string_int",
    "C79_injective",
    "C79_stream",
    "C79_stream_bytes_refuted",
    "C79_to_string_float",
    "C79_float_text_refuted"
   ],
   "note": ""
  },
  {
   "property": "C80",
   "status": "proved",
   "theorems": [
    "C80_flags",
    "C80_children",
    "C80_load",
    "C80_messages",
    "C80_offset_refuted"
   ],
   "note": ""
  },
  {
   "property": "C81",
   "status": "proved",
   "theorems": [
    "C81_reaches",
    "C81_open",
    "C81_files",
    "C81_reopen_refuted",
    "C81_move_refuted"
   ],
   "note": ""
  },
  {
   "property": "C82",
   "status": "proved",
   "theorems": [
    "C82_terminal",
    "C82_terminal_no_colour",
    "C82_escape",
    "C82_escape_safe",
    "C82_escape_distinct",
    "C82_windows_colour",
    "C82_windows_history",
    "C82_restore_refuted",
    "C82_lost_refuted",
    "C82_log_on_terminals"
   ],
   "note": ""
  },
  {
   "property": "C83",
   "status": "proved",
   "theorems": [
    "C83_layout",
    "C83_headers",
    "C83_fields",
    "C83_big_endian",
    "C83_bytes_swapped_refuted",
    "C83_signatures",
    "C83_codecs"
   ],
   "note": ""
  },
  {
   "property": "C84",
   "status": "proved",
   "theorems": [
    "C84_restored",
    "C84_decimal_restored",
    "C84_settles",
    "C84_same_text",
    "C84_accuracy",
    "C84_set_nearest",
    "C84_set_zero",
    "C84_set_too_large",
    "C84_set_too_small",
    "C84_invalid",
    "C84_print",
    "C84_print_zero",
    "C84_special",
    "C84_text_stable",
    "C84_digits_survive",
    "C84_precision_refuted",
    "C84_smallest_normal_refuted",
    "C84_subnormal_refuted",
    "C84_sign_refuted",
    "C84_trailing_text_refuted"
   ],
   "note": ""
  },
  {
   "property": "C85",
   "status": "proved",
   "theorems": [
    "C85_narrow_operators",
    "C85_negate",
    "C85_negate_refuted",
    "C85_length",
    "C85_length_close",
    "C85_length_refuted",
    "C85_normalize",
    "C85_normalize_refuted",
    "C85_convert",
    "C85_classes",
    "C85_swap",
    "C85_real_length",
    "C85_real_normalize",
    "C85_real_equal"
   ],
   "note": ""
  },
  {
   "property": "C86",
   "status": "proved",
   "theorems": [
    "C86_saved",
    "C86_scale_restored",
    "C86_faithful",
    "C86_matrix_refuted"
   ],
   "note": ""
  },
  {
   "property": "C87",
   "status": "proved",
   "theorems": [
    "C87_again",
    "C87_settled",
    "C87_floats",
    "C87_subnormal_refuted"
   ],
   "note": ""
  },
  {
   "property": "C88",
   "status": "proved",
   "theorems": [
    "C88_again",
    "C88_settled",
    "C88_floats",
    "C88_subnormal_refuted"
   ],
   "note": ""
  },
  {
   "property": "C89",
   "status": "proved",
   "theorems": [
    "C89_values",
    "C89_latest",
    "C89_own_time_refuted",
    "C89_not_numbers",
    "C89_outcomes",
    "C89_transform",
    "C89_transform_outcomes",
    "C89_framerate",
    "C89_owner",
    "C89_lifetime",
    "C89_safe",
    "C89_lifetime_refuted",
    "C89_blocks"
   ],
   "note": ""
  }
 ]
}