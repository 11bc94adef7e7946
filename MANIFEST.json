{
 "claims": [
  {
   "property": "C01",
   "status": "proved",
   "theorems": [
    "C01_total",
    "C01_matrix_symbol_total",
    "C01_budget_irrelevant"
   ],
   "note": ""
  },
  {
   "property": "C02",
   "status": "proved",
   "theorems": [
    "C02_accepted_iff",
    "C02_rejected_iff",
    "C02_no_parenthesis_accepted"
   ],
   "note": ""
  },
  {
   "property": "C03",
   "status": "proved",
   "theorems": [
    "C03_every_text_has_a_reading",
    "C03_written_symbol_is_read",
    "C03_usual_form_is_read"
   ],
   "note": ""
  },
  {
   "property": "C04",
   "status": "proved",
   "theorems": [
    "C04_directions",
    "C04_omitted_directions",
    "C04_explicit_axis_kept",
    "C04_explicit_axis_refuted"
   ],
   "note": ""
  },
  {
   "property": "C05",
   "status": "proved",
   "theorems": [
    "C05_round_trip_iff",
    "C05_always_kept",
    "C05_round_trip_refuted",
    "C05_same_operations"
   ],
   "note": ""
  },
  {
   "property": "C06",
   "status": "proved",
   "theorems": [
    "C06_defined_iff",
    "C06_matrix_of_symbol",
    "C06_axis_and_sense"
   ],
   "note": ""
  },
  {
   "property": "C07",
   "status": "proved",
   "theorems": [
    "C07_screw_translation",
    "C07_rejected_iff",
    "C07_valid_screws_refuted"
   ],
   "note": ""
  },
  {
   "property": "C08",
   "status": "proved",
   "theorems": [
    "C08_letters_add_up",
    "C08_letter_order_irrelevant",
    "C08_letters_never_rejected"
   ],
   "note": ""
  },
  {
   "property": "C09",
   "status": "proved",
   "theorems": [
    "C09_shift_formula",
    "C09_shift_is_conjugation",
    "C09_shift_of_product",
    "C09_shifts_compose",
    "C09_zero_shift",
    "C09_shift_congruent",
    "C09_shift_undone"
   ],
   "note": ""
  },
  {
   "property": "C10",
   "status": "proved",
   "theorems": [
    "C10_shift_congruent",
    "C10_shift_range",
    "C10_shift_idempotent",
    "C10_documented_interval_iff",
    "C10_documented_interval_refuted"
   ],
   "note": ""
  },
  {
   "property": "C11",
   "status": "proved",
   "theorems": [
    "C11_group_moves",
    "C11_positions_move",
    "C11_with_minus_iff",
    "C11_with_minus_half_lattice",
    "C11_positions_move_with_minus",
    "C11_with_minus_refuted",
    "C11_positions_move_with_extra_translations"
   ],
   "note": ""
  },
  {
   "property": "C12",
   "status": "proved",
   "theorems": [
    "C12_product_acts_as_composition",
    "C12_product_is_affine",
    "C12_product_associative",
    "C12_identity_neutral",
    "C12_product_translation_range"
   ],
   "note": ""
  },
  {
   "property": "C13",
   "status": "proved",
   "theorems": [
    "C13_eq_iff_same_action",
    "C13_eq_equivalence",
    "C13_eq_congruence",
    "C13_eq_ignores_last_row"
   ],
   "note": ""
  },
  {
   "property": "C14",
   "status": "proved",
   "theorems": [
    "C14_hash_agrees_iff",
    "C14_partial_cmp_equal_iff",
    "C14_contract_refuted"
   ],
   "note": ""
  },
  {
   "property": "C15",
   "status": "proved",
   "theorems": [
    "C15_powi_is_repeated_composition",
    "C15_powi_equals_product",
    "C15_powi_add",
    "C15_powi_mul"
   ],
   "note": ""
  },
  {
   "property": "C16",
   "status": "proved",
   "theorems": [
    "C16_inverse_quarter_translations",
    "C16_no_inverse_when_singular",
    "C16_inverse_signed_permutations",
    "C16_inverse_within_one",
    "C16_negative_powers",
    "C16_negative_power_panics_iff_no_inverse",
    "C16_negative_powers_signed_permutations",
    "C16_hexagonal_inverse_within_one",
    "C16_hexagonal_inverse_off_by_one",
    "C16_negative_power_off_refuted",
    "C16_inverse_of_every_tabulated_operation",
    "C16_hexagonal_inverse_exact_iff"
   ],
   "note": ""
  },
  {
   "property": "C17",
   "status": "proved",
   "theorems": [
    "C17_finite_order_classified",
    "C17_only_orders_1_2_3_4_6",
    "C17_type_implies_finite_order_refuted"
   ],
   "note": ""
  },
  {
   "property": "C18",
   "status": "proved",
   "theorems": [
    "C18_determinant_saturates",
    "C18_determinant_exact",
    "C18_small_entries_exact",
    "C18_large_entries_refuted"
   ],
   "note": ""
  },
  {
   "property": "C19",
   "status": "proved",
   "theorems": [
    "C19_eigenvector_is_canonical_axis",
    "C19_panics_iff_no_unit_axis",
    "C19_hypothesis_met",
    "C19_operation_without_unit_axis",
    "C19_tabulated_groups_that_cannot_be_printed"
   ],
   "note": ""
  },
  {
   "property": "C20",
   "status": "proved",
   "theorems": [
    "C20_equal_iff_same",
    "C20_identity_first",
    "C20_antisymmetry_violations",
    "C20_not_total_order_refuted"
   ],
   "note": ""
  },
  {
   "property": "C21",
   "status": "proved",
   "theorems": [
    "C21_positive_mod_spec",
    "C21_positive_mod_is_residue",
    "C21_float_modulus",
    "C21_float_modulus_not_finite"
   ],
   "note": ""
  },
  {
   "property": "C22",
   "status": "proved",
   "theorems": [
    "C22_text_reads_back",
    "C22_same_text_same_operation",
    "C22_equal_operations_different_texts",
    "C22_reduced_operations_same_text",
    "C22_text_exists_iff"
   ],
   "note": ""
  },
  {
   "property": "C23",
   "status": "proved",
   "theorems": [
    "C23_rotation_text_reads_back",
    "C23_rotation_text_injective",
    "C23_injective_refuted_for_large_entries",
    "C23_order_48_is_the_cubic_rotations",
    "C23_order_24_is_the_hexagonal_rotations",
    "C23_order_12_is_the_rhombohedral_rotations",
    "C23_order_tables_closed"
   ],
   "note": ""
  },
  {
   "property": "C24",
   "status": "proved",
   "theorems": [
    "C24_centring_group",
    "C24_lattice_generators",
    "C24_number_of_generators"
   ],
   "note": ""
  },
  {
   "property": "C25",
   "status": "proved",
   "theorems": [
    "C25_positions_sound",
    "C25_full_sets_sound"
   ],
   "note": ""
  },
  {
   "property": "C26",
   "status": "proved",
   "theorems": [
    "C26_point_group_complete",
    "C26_full_sets_complete",
    "C26_unconditional_refuted"
   ],
   "note": ""
  },
  {
   "property": "C27",
   "status": "proved",
   "theorems": [
    "C27_no_duplicates",
    "C27_one_position_per_rotation"
   ],
   "note": ""
  },
  {
   "property": "C28",
   "status": "proved",
   "theorems": [
    "C28_normalised",
    "C28_identity_first"
   ],
   "note": ""
  },
  {
   "property": "C29",
   "status": "proved",
   "theorems": [
    "C29_fuel_irrelevant",
    "C29_terminates_iff_finite",
    "C29_invalid_symbol_panics",
    "C29_oversized_panics",
    "C29_finite_iff_compatible",
    "C29_terminates_iff_compatible",
    "C29_a_symbol_that_never_terminates"
   ],
   "note": ""
  },
  {
   "property": "C30",
   "status": "proved",
   "theorems": [
    "C30_sort_stable_reordering",
    "C30_sort_panics_iff",
    "C30_no_symbols_panics"
   ],
   "note": ""
  },
  {
   "property": "C31",
   "status": "proved",
   "theorems": [
    "C31_every_variant_gives_its_crystal_class"
   ],
   "note": ""
  },
  {
   "property": "C32",
   "status": "proved",
   "theorems": [
    "C32_every_default_row_gives_its_crystal_class"
   ],
   "note": ""
  },
  {
   "property": "C33",
   "status": "proved",
   "theorems": [
    "C33_one_set_per_centring_vector",
    "C33_all_distinct"
   ],
   "note": ""
  },
  {
   "property": "C34",
   "status": "proved",
   "theorems": [
    "C34_full_sets_group"
   ],
   "note": ""
  },
  {
   "property": "C35",
   "status": "proved",
   "theorems": [
    "C35_text_format_lines",
    "C35_pure_txt_entries",
    "C35_listing_defined",
    "C35_unit_rotations_have_a_listing"
   ],
   "note": ""
  },
  {
   "property": "C36",
   "status": "proved",
   "theorems": [
    "C36_rotations_centrosymmetric",
    "C36_full_sets_centrosymmetric"
   ],
   "note": ""
  },
  {
   "property": "C37",
   "status": "proved",
   "theorems": [
    "C37_full_index_defined",
    "C37_default_index_defined",
    "C37_variants_have_rows",
    "C37_lookup_is_the_row",
    "C37_variant_is_the_row"
   ],
   "note": ""
  },
  {
   "property": "C38",
   "status": "proved",
   "theorems": [
    "C38_by_hm_first_row",
    "C38_by_hall_first_row"
   ],
   "note": ""
  },
  {
   "property": "C39",
   "status": "proved",
   "theorems": [
    "C39_full_hm_round_trip",
    "C39_full_hm_unique",
    "C39_default_hm_round_trip_iff"
   ],
   "note": ""
  },
  {
   "property": "C40",
   "status": "proved",
   "theorems": [
    "C40_full_hall_round_trip_iff",
    "C40_default_hall_round_trip"
   ],
   "note": ""
  },
  {
   "property": "C41",
   "status": "proved",
   "theorems": [
    "C41_default_row_number",
    "C41_full_numbers_sorted",
    "C41_full_numbers_cover",
    "C41_labels_unique"
   ],
   "note": ""
  },
  {
   "property": "C42",
   "status": "proved",
   "theorems": [
    "C42_default_agrees_iff"
   ],
   "note": ""
  },
  {
   "property": "C43",
   "status": "proved",
   "theorems": [
    "C43_number_24_is_23_refuted"
   ],
   "note": ""
  },
  {
   "property": "C44",
   "status": "proved",
   "theorems": [
    "C44_variant_names",
    "C44_names_unique"
   ],
   "note": ""
  },
  {
   "property": "C45",
   "status": "proved",
   "theorems": [
    "C45_generation_never_overflows",
    "C45_terminating_generation_never_overflows",
    "C45_listing_never_overflows",
    "C45_parsed_listing_never_overflows",
    "C45_debug_build_exact_or_panics",
    "C45_debug_operations_exact_or_panic",
    "C45_debug_oversized_panics",
    "C45_release_oversized_refuted",
    "C45_invalid_symbol_panics_in_both_builds",
    "C45_letter_bound_sharp",
    "C45_release_letters_refuted",
    "C45_machine_generation_ends",
    "C45_debug_incompatible_overflows",
    "C45_product_fits",
    "C45_equality_fits",
    "C45_release_equality_refuted",
    "C45_positive_powers_fit",
    "C45_powers_of_generated_positions_fit",
    "C45_origin_shift_fits",
    "C45_debug_more_operations_exact_or_panic",
    "C45_sum_difference_fit",
    "C45_unique_rotation_fits",
    "C45_rotation_type_fits",
    "C45_eigenvector_fits",
    "C45_release_eigenvector_refuted",
    "C45_debug_texts_exact_or_panic",
    "C45_texts_never_overflow",
    "C45_smallest_exponent_panics"
   ],
   "note": ""
  },
  {
   "property": "C46",
   "status": "proved",
   "theorems": [
    "C46_same_coset",
    "C46_never_longer",
    "C46_in_cell",
    "C46_choice",
    "C46_minimal_refuted",
    "C46_unique_refuted",
    "C46_float_comparison_is_exact"
   ],
   "note": ""
  },
  {
   "property": "C47",
   "status": "proved",
   "theorems": [
    "C47_build_last_setter_wins",
    "C47_build_fails_iff_no_fold",
    "C47_setters_last_wins",
    "C47_minus_setter",
    "C47_setters_and_builder"
   ],
   "note": ""
  },
  {
   "property": "C48",
   "status": "proved",
   "theorems": [
    "C48_rows_denote_different_groups"
   ],
   "note": ""
  },
  {
   "property": "C49",
   "status": "proved",
   "theorems": [
    "C49_fractions_exact",
    "C49_printed_words",
    "C49_same_text_same_operation",
    "C49_printed_iff_unit_axis",
    "C49_printed_lines",
    "C49_error_text",
    "C49_positions_printed_iff",
    "C49_positions_words",
    "C49_tabulated_groups_printed"
   ],
   "note": ""
  },
  {
   "property": "C50",
   "status": "proved",
   "theorems": [
    "C50_notations_totally_ordered",
    "C50_equality_is_identity",
    "C50_order_of_parts",
    "C50_order_of_matrix_symbols",
    "C50_order_of_shifts",
    "C50_same_text_equal",
    "C50_same_text_refuted"
   ],
   "note": ""
  },
  {
   "property": "C51",
   "status": "proved",
   "theorems": [
    "C51_equal_iff",
    "C51_compares_equal_iff_identical",
    "C51_generated_equal_iff_identical",
    "C51_contract_refuted",
    "C51_not_comparable",
    "C51_equal_positions_same_group",
    "C51_equal_positions_same_group_refuted"
   ],
   "note": ""
  },
  {
   "property": "C52",
   "status": "proved",
   "theorems": [
    "C52_symbol_order_irrelevant",
    "C52_same_group_same_operations",
    "C52_same_group_different_positions",
    "C52_symbol_order_same_operations"
   ],
   "note": ""
  },
  {
   "property": "C53",
   "status": "proved",
   "theorems": [
    "C53_float_form_accurate",
    "C53_float_form_injective",
    "C53_translation_exact_refuted"
   ],
   "note": ""
  },
  {
   "property": "C54",
   "status": "proved",
   "theorems": [
    "C54_order_is_entrywise",
    "C54_partial_order",
    "C54_total_refuted"
   ],
   "note": ""
  },
  {
   "property": "C55",
   "status": "proved",
   "theorems": [
    "C55_sum_and_difference_entrywise",
    "C55_never_an_operation",
    "C55_add_undoes_sub",
    "C55_equal_iff_difference_vanishes",
    "C55_adding_a_vector_translates",
    "C55_vectors_add_up"
   ],
   "note": ""
  },
  {
   "property": "C56",
   "status": "proved",
   "theorems": [
    "C56_unique_iff",
    "C56_unique_symmetric",
    "C56_proper_rotation"
   ],
   "note": ""
  },
  {
   "property": "C57",
   "status": "proved",
   "theorems": [
    "C57_types_are_classes",
    "C57_variant_has_the_type_of_its_number",
    "C57_variants_same_type_iff"
   ],
   "note": ""
  },
  {
   "property": "C58",
   "status": "proved",
   "theorems": [
    "C58_default_rows_are_different_types"
   ],
   "note": ""
  },
  {
   "property": "C59",
   "status": "proved",
   "theorems": [
    "C59_mirror_images"
   ],
   "note": ""
  },
  {
   "property": "C60",
   "status": "proved",
   "theorems": [
    "C60_repeated_rotation_fully_fractional",
    "C60_unlisted_has_whole_coordinate"
   ],
   "note": ""
  },
  {
   "property": "C61",
   "status": "proved",
   "theorems": [
    "C61_operation_text",
    "C61_rotation_text",
    "C61_no_empty_coordinate",
    "C61_listed_positions"
   ],
   "note": ""
  },
  {
   "property": "C62",
   "status": "proved",
   "theorems": [
    "C62_returns_iff_one_family",
    "C62_outcome"
   ],
   "note": ""
  },
  {
   "property": "C63",
   "status": "proved",
   "theorems": [
    "C63_tabulated_cells",
    "C63_every_operation_is_an_isometry"
   ],
   "note": ""
  },
  {
   "property": "C64",
   "status": "proved",
   "theorems": [
    "C64_orbit_closed",
    "C64_every_image_equally_often",
    "C64_sites_times_multiplicity",
    "C64_general_point"
   ],
   "note": ""
  },
  {
   "property": "C65",
   "status": "proved",
   "theorems": [
    "C65_more_symbols_larger_group",
    "C65_subgroup_listed",
    "C65_orders_divide",
    "C65_positions_divide"
   ],
   "note": ""
  },
  {
   "property": "C66",
   "status": "proved",
   "theorems": [
    "C66_finite_order_powers",
    "C66_powers_repeat",
    "C66_inverse_is_a_power",
    "C66_period_without_extra_translations"
   ],
   "note": ""
  },
  {
   "property": "C67",
   "status": "proved",
   "theorems": [
    "C67_listings_exist",
    "C67_pure_txt_determines_operations",
    "C67_text_format_determines_positions",
    "C67_pure_txt_determines_positions_refuted"
   ],
   "note": ""
  },
  {
   "property": "C68",
   "status": "proved",
   "theorems": [
    "C68_one_of_the_32_classes",
    "C68_classes_told_apart",
    "C68_positions_counted",
    "C68_every_class_occurs",
    "C68_handedness"
   ],
   "note": ""
  },
  {
   "property": "C69",
   "status": "proved",
   "theorems": [
    "C69_rotations_in_table_order",
    "C69_same_group_same_order",
    "C69_primitive_positions_identical",
    "C69_order_depends_on_first_symbol",
    "C69_centrosymmetric_by_halves",
    "C69_by_halves_refuted",
    "C69_order_tables"
   ],
   "note": ""
  },
  {
   "property": "C70",
   "status": "proved",
   "theorems": [
    "C70_complete_iff_closed",
    "C70_closed_not_enough",
    "C70_not_closed_occurs",
    "C70_no_extra_translations_iff"
   ],
   "note": ""
  },
  {
   "property": "C71",
   "status": "proved",
   "theorems": [
    "C71_fixed_point_iff",
    "C71_screw_part_is_fraction_of_lattice_vector",
    "C71_screw_part_independent_of_origin"
   ],
   "note": ""
  },
  {
   "property": "C72",
   "status": "proved",
   "theorems": [
    "C72_type_of_product_symmetric",
    "C72_conjugate",
    "C72_inverse",
    "C72_opposite"
   ],
   "note": ""
  },
  {
   "property": "C73",
   "status": "proved",
   "theorems": [
    "C73_translations_invariant",
    "C73_rotations_permute_centring",
    "C73_unfit_lattice_has_extra_translations"
   ],
   "note": ""
  },
  {
   "property": "C74",
   "status": "proved",
   "theorems": [
    "C74_result_independent_of_hashing",
    "C74_two_seeds_agree",
    "C74_buckets_lawful"
   ],
   "note": ""
  },
  {
   "property": "C75",
   "status": "proved",
   "theorems": [
    "C75_rounds_at_most_positions",
    "C75_positions_bounded",
    "C75_halting_decided",
    "C75_48_rounds"
   ],
   "note": ""
  },
  {
   "property": "C76",
   "status": "proved",
   "theorems": [
    "C76_debug_text_identifies",
    "C76_error_text_identifies",
    "C76_first_invalid_symbol_named",
    "C76_messages_cover_panics",
    "C76_messages",
    "C76_parse_error"
   ],
   "note": ""
  },
  {
   "property": "C77",
   "status": "proved",
   "theorems": [
    "C77_site_symmetry_is_a_group",
    "C77_site_symmetry_is_a_crystal_class",
    "C77_multiplicity",
    "C77_equivalent_sites",
    "C77_conjugate_sites"
   ],
   "note": ""
  },
  {
   "property": "C78",
   "status": "proved",
   "theorems": [
    "C78_kinds_of_rows",
    "C78_symmorphic_rows",
    "C78_fixed_point_free_rows",
    "C78_sizes"
   ],
   "note": ""
  },
  {
   "property": "C79",
   "status": "proved",
   "theorems": [
    "C79_group_relabelled",
    "C79_positions_relabelled",
    "C79_returns_alike",
    "C79_same_type"
   ],
   "note": ""
  },
  {
   "property": "C80",
   "status": "proved",
   "theorems": [
    "C80_group_mirrored",
    "C80_returns_alike",
    "C80_positions_mirrored",
    "C80_minus_is_its_own_mirror_image",
    "C80_same_type_up_to_mirror"
   ],
   "note": ""
  },
  {
   "property": "C81",
   "status": "proved",
   "theorems": [
    "C81_notation_debug_identifies",
    "C81_operation_debug_identifies",
    "C81_positions_debug_identifies",
    "C81_operation_debug_numbers",
    "C81_positions_debug_numbers",
    "C81_crystal_system_text",
    "C81_crystal_systems_differ",
    "C81_default_crystal_system",
    "C81_crystal_system_order"
   ],
   "note": ""
  },
  {
   "property": "C82",
   "status": "proved",
   "theorems": [
    "C82_origin_shift",
    "C82_relabelled_axes",
    "C82_mirror_image"
   ],
   "note": ""
  },
  {
   "property": "C83",
   "status": "proved",
   "theorems": [
    "C83_product_has_one_place",
    "C83_rows_and_columns"
   ],
   "note": ""
  },
  {
   "property": "C84",
   "status": "proved",
   "theorems": [
    "C84_phases_balanced",
    "C84_forbidden_iff_balanced",
    "C84_lattice_conditions",
    "C84_general_reflections"
   ],
   "note": ""
  },
  {
   "property": "C85",
   "status": "proved",
   "theorems": [
    "C85_printed_same_positions",
    "C85_full_rows_printed",
    "C85_default_rows_printed",
    "C85_how_many"
   ],
   "note": ""
  },
  {
   "property": "C86",
   "status": "proved",
   "theorems": [
    "C86_exactly_one_of_the_230_types",
    "C86_same_type_iff_same_row",
    "C86_texts"
   ],
   "note": ""
  },
  {
   "property": "C87",
   "status": "proved",
   "theorems": [
    "C87_exactly_one_number",
    "C87_number_range",
    "C87_class_of_the_number",
    "C87_positions_of_the_number",
    "C87_kinds_of_results",
    "C87_sites_of_groups",
    "C87_sites_of_results",
    "C87_minus_signs"
   ],
   "note": ""
  },
  {
   "property": "C88",
   "status": "proved",
   "theorems": [
    "C88_shift_keeps_the_number",
    "C88_relabelling_keeps_the_number",
    "C88_shift_with_minus_refuted",
    "C88_mirror_image_has_the_mirror_number",
    "C88_chiral_numbers"
   ],
   "note": ""
  },
  {
   "property": "C89",
   "status": "proved",
   "theorems": [
    "C89_partition",
    "C89_class_of_the_number",
    "C89_exactly_one_class",
    "C89_same_class_iff"
   ],
   "note": ""
  },
  {
   "property": "C90",
   "status": "proved",
   "theorems": [
    "C90_bare_returns",
    "C90_bare_group",
    "C90_bare_positions",
    "C90_bare_is_the_symmorphic_type",
    "C90_bare_translations_zero"
   ],
   "note": ""
  },
  {
   "property": "C91",
   "status": "proved",
   "theorems": [
    "C91_printed_type",
    "C91_printed_positions",
    "C91_type_texts_differ",
    "C91_subscript_conversions",
    "C91_letter_conversions"
   ],
   "note": ""
  },
  {
   "property": "C92",
   "status": "proved",
   "theorems": [
    "C92_names_fit",
    "C92_names_complete"
   ],
   "note": ""
  },
  {
   "property": "C93",
   "status": "proved",
   "theorems": [
    "C93_name_tells_the_number",
    "C93_exceptions_real"
   ],
   "note": ""
  },
  {
   "property": "C94",
   "status": "proved",
   "theorems": [
    "C94_free_parameters",
    "C94_some_real_cell"
   ],
   "note": ""
  },
  {
   "property": "C95",
   "status": "proved",
   "theorems": [
    "C95_partition",
    "C95_lattice_of_the_number",
    "C95_exactly_one_lattice",
    "C95_same_lattice_iff"
   ],
   "note": ""
  },
  {
   "property": "C96",
   "status": "proved",
   "theorems": [
    "C96_vectors_between_points",
    "C96_patterson_group",
    "C96_partition",
    "C96_patterson_number",
    "C96_patterson_returns",
    "C96_exactly_one_symmetry"
   ],
   "note": ""
  },
  {
   "property": "C97",
   "status": "proved",
   "theorems": [
    "C97_equivalent_reflections",
    "C97_friedel",
    "C97_forbidden_together",
    "C97_laue_class",
    "C97_multiplicity_of_reflections"
   ],
   "note": ""
  },
  {
   "property": "C98",
   "status": "proved",
   "theorems": [
    "C98_components_decide",
    "C98_shift_written",
    "C98_positions_of_shifted_text",
    "C98_mirror_written",
    "C98_minus_written",
    "C98_lattice_letter",
    "C98_symbol_appended"
   ],
   "note": ""
  },
  {
   "property": "C99",
   "status": "proved",
   "theorems": [
    "C99_same_group_iff",
    "C99_every_operation",
    "C99_displacements_form_a_group",
    "C99_returns_alike",
    "C99_same_operations"
   ],
   "note": ""
  },
  {
   "property": "C100",
   "status": "proved",
   "theorems": [
    "C100_labels_name_settings",
    "C100_codes_distinct",
    "C100_origin_choices"
   ],
   "note": ""
  },
  {
   "property": "C101",
   "status": "proved",
   "theorems": [
    "C101_listed_print_reads_back",
    "C101_found_in_full_table",
    "C101_found_in_default_table",
    "C101_row_print_never_another_row"
   ],
   "note": ""
  },
  {
   "property": "C102",
   "status": "proved",
   "theorems": [
    "C102_default_origin_1_is_2",
    "C102_default_24_in_no_full_row",
    "C102_default_origin_at_inversion",
    "C102_tables_number_differently"
   ],
   "note": ""
  },
  {
   "property": "C103",
   "status": "proved",
   "theorems": [
    "C103_multi_line_text",
    "C103_same_text_without_layout",
    "C103_notation_identified",
    "C103_symbol_identified",
    "C103_operation_identified",
    "C103_positions_identified"
   ],
   "note": ""
  },
  {
   "property": "C104",
   "status": "proved",
   "theorems": [
    "C104_default_names_padded",
    "C104_full_names_unpadded",
    "C104_names_found_in_default",
    "C104_names_in_both_tables",
    "C104_full_names_in_default",
    "C104_default_names_in_full"
   ],
   "note": ""
  }
 ]
}