{
 "claims": [
  {
   "property": "C01",
   "status": "proved",
   "theorems": [
    "C01_complementary",
    "C01_meaning",
    "C01_default_tolerance",
    "C01_trichotomy",
    "C01_negative_eps_refuted",
    "C01_unknown_condition"
   ],
   "note": "Parts of the claim that are false of the code, each with a witness: C01_negative_eps_refuted. The remaining theorems hold for all inputs."
  },
  {
   "property": "C02",
   "status": "proved",
   "theorems": [
    "C02_order_laws",
    "C02_default_symmetry_refuted",
    "C02_transitivity_refuted"
   ],
   "note": "Parts of the claim that are false of the code, each with a witness: C02_default_symmetry_refuted, C02_transitivity_refuted. The remaining theorems hold for all inputs."
  },
  {
   "property": "C03",
   "status": "proved",
   "theorems": [
    "C03_forms_agree",
    "C03_zero_iff_dependent",
    "C03_basis_change",
    "C03_scaling",
    "C03_params_form",
    "C03_params_form_get_params",
    "C03_other_arguments"
   ],
   "note": ""
  },
  {
   "property": "C04",
   "status": "proved",
   "theorems": [
    "C04_defined",
    "C04_is_the_angle",
    "C04_symmetric_scale_supplement"
   ],
   "note": ""
  },
  {
   "property": "C05",
   "status": "proved",
   "theorems": [
    "C05_permutations",
    "C05_error_mode",
    "C05_realisable",
    "C05_tolerance_sound",
    "C05_rejection_is_near_degenerate"
   ],
   "note": ""
  },
  {
   "property": "C06",
   "status": "proved",
   "theorems": [
    "C06_params_roundtrip",
    "C06_rejected",
    "C06_accepted_iff",
    "C06_orientation",
    "C06_cell_roundtrip"
   ],
   "note": ""
  },
  {
   "property": "C07",
   "status": "proved",
   "theorems": [
    "C07_ranges",
    "C07_reconstruct",
    "C07_poles",
    "C07_parallel_zero_line_refuted"
   ],
   "note": "Parts of the claim that are false of the code, each with a witness: C07_parallel_zero_line_refuted. The remaining theorems hold for all inputs."
  },
  {
   "property": "C08",
   "status": "proved",
   "theorems": [
    "C08_duality",
    "C08_defined",
    "C08_involution_volume",
    "C08_unique"
   ],
   "note": ""
  },
  {
   "property": "C09",
   "status": "proved",
   "theorems": [
    "C09_correct_unique",
    "C09_defined",
    "C09_positions"
   ],
   "note": ""
  },
  {
   "property": "C10",
   "status": "proved",
   "theorems": [
    "C10_params",
    "C10_isometry_invariant"
   ],
   "note": ""
  },
  {
   "property": "C11",
   "status": "proved",
   "theorems": [
    "C11_lattice_preserved"
   ],
   "note": ""
  },
  {
   "property": "C12",
   "status": "proved",
   "theorems": [
    "C12_tracked_reduced",
    "C12_returned_cell_reduced",
    "C12_total_correctness",
    "C12_returned_cell_reduced_refuted"
   ],
   "note": "Parts of the claim that are false of the code, each with a witness: C12_returned_cell_reduced_refuted. The remaining theorems hold for all inputs."
  },
  {
   "property": "C13",
   "status": "proved",
   "theorems": [
    "C13_bounded",
    "C13_negative_limit",
    "C13_rejects",
    "C13_external"
   ],
   "note": ""
  },
  {
   "property": "C14",
   "status": "proved",
   "theorems": [
    "C14_exact_enumeration",
    "C14_no_repetition",
    "C14_inversion",
    "C14_centre_is_origin",
    "C14_absolute_is_relative_times_cell",
    "C14_grid_indexing"
   ],
   "note": ""
  },
  {
   "property": "C15",
   "status": "proved",
   "theorems": [
    "C15_origin_index",
    "C15_voronoi_graph",
    "C15_succeeds",
    "C15_no_wall_raises",
    "C15_scipy_missing",
    "C15_brillouin_zone",
    "C15_vertices_nearest_origin",
    "C15_window_sufficient_refuted",
    "C15_reduced_neighbours",
    "C15_window_sufficient",
    "C15_niggli_window",
    "C15_brillouin_window"
   ],
   "note": "Parts of the claim that are false of the code, each with a witness: C15_window_sufficient_refuted. The remaining theorems hold for all inputs."
  },
  {
   "property": "C16",
   "status": "proved",
   "theorems": [
    "C16_passes_bounded",
    "C16_valid_answer",
    "C16_answer_is_classification",
    "C16_niggli_first",
    "C16_no_axes_triclinic",
    "C16_failures",
    "C16_axes_sound",
    "C16_axes_complete",
    "C16_axes_distinct",
    "C16_axes_ordered",
    "C16_always_answers_refuted"
   ],
   "note": "Parts of the claim that are false of the code, each with a witness: C16_always_answers_refuted. The remaining theorems hold for all inputs."
  },
  {
   "property": "C17",
   "status": "proved",
   "theorems": [
    "C17_string_round_trip",
    "C17_list_round_trip",
    "C17_accepts",
    "C17_every_string_has_parts",
    "C17_empty_path_refuted"
   ],
   "note": "Parts of the claim that are false of the code, each with a witness: C17_empty_path_refuted. The remaining theorems hold for all inputs."
  },
  {
   "property": "C18",
   "status": "proved",
   "theorems": [
    "C18_consistent",
    "C18_failing_call_changes_nothing",
    "C18_add_point",
    "C18_remove_point",
    "C18_set_path",
    "C18_default_path",
    "C18_too_few_points_raises",
    "C18_n_nonnegative_refuted",
    "C18_duplicate_names_refuted",
    "C18_shared_list_refuted",
    "C18_own_list",
    "C18_duplicate_path_refuted",
    "C18_hs_table"
   ],
   "note": "Parts of the claim that are false of the code, each with a witness: C18_n_nonnegative_refuted, C18_duplicate_names_refuted, C18_shared_list_refuted, C18_duplicate_path_refuted. The remaining theorems hold for all inputs."
  },
  {
   "property": "C19",
   "status": "proved",
   "theorems": [
    "C19_known_path_works",
    "C19_unknown_path_raises",
    "C19_remove_keeps_working_refuted",
    "C19_only_by_removal"
   ],
   "note": "Parts of the claim that are false of the code, each with a witness: C19_remove_keeps_working_refuted. The remaining theorems hold for all inputs."
  },
  {
   "property": "C20",
   "status": "proved",
   "theorems": [
    "C20_sizes",
    "C20_labels_content",
    "C20_empty_path_refuted"
   ],
   "note": "Parts of the claim that are false of the code, each with a witness: C20_empty_path_refuted. The remaining theorems hold for all inputs."
  },
  {
   "property": "C21",
   "status": "proved",
   "theorems": [
    "C21_ticks_monotone",
    "C21_flat_alignment",
    "C21_flat_monotone",
    "C21_flat_steps"
   ],
   "note": ""
  },
  {
   "property": "C22",
   "status": "proved",
   "theorems": [
    "C22_interpolation",
    "C22_segment_ends",
    "C22_relative_times_rcell"
   ],
   "note": ""
  },
  {
   "property": "C23",
   "status": "proved",
   "theorems": [
    "C23_centred",
    "C23_rigid",
    "C23_idempotent",
    "C23_failures"
   ],
   "note": ""
  },
  {
   "property": "C24",
   "status": "proved",
   "theorems": [
    "C24_nonnegative_and_minimal",
    "C24_rigid",
    "C24_idempotent",
    "C24_failures"
   ],
   "note": ""
  },
  {
   "property": "C25",
   "status": "proved",
   "theorems": [
    "C25_wraps",
    "C25_same_number",
    "C25_idempotent",
    "C25_canonical"
   ],
   "note": ""
  },
  {
   "property": "C26",
   "status": "proved",
   "theorems": [
    "C26_antisymmetric",
    "C26_chain",
    "C26_relative_times_cell",
    "C26_total",
    "C26_distance_symmetric",
    "C26_distance_triangle",
    "C26_distance_zero",
    "C26_distance_rigid"
   ],
   "note": ""
  },
  {
   "property": "C27",
   "status": "proved",
   "theorems": [
    "C27_sound",
    "C27_fails_iff_none",
    "C27_choice",
    "C27_decorated_symbol",
    "C27_case_insensitive",
    "C27_leading_symbol_refuted",
    "C27_atoms",
    "C27_lower",
    "C27_occurs",
    "C27_any_case",
    "C27_decorated_any_case"
   ],
   "note": "Parts of the claim that are false of the code, each with a witness: C27_leading_symbol_refuted. The remaining theorems hold for all inputs."
  },
  {
   "property": "C28",
   "status": "proved",
   "theorems": [
    "C28_result",
    "C28_unique_without_digits",
    "C28_unique_all_refuted",
    "C28_unique_repeated_refuted",
    "C28_callers_list",
    "C28_input_untouched_refuted",
    "C28_second_call",
    "C28_failures",
    "C28_whole"
   ],
   "note": "Parts of the claim that are false of the code, each with a witness: C28_unique_all_refuted, C28_unique_repeated_refuted, C28_input_untouched_refuted. The remaining theorems hold for all inputs."
  },
  {
   "property": "C29",
   "status": "proved",
   "theorems": [
    "C29_modes_agree",
    "C29_accepts_exactly_valid",
    "C29_error_kinds",
    "C29_positions_numeric_refuted",
    "C29_empty_structure_refuted"
   ],
   "note": "Parts of the claim that are false of the code, each with a witness: C29_positions_numeric_refuted, C29_empty_structure_refuted. The remaining theorems hold for all inputs."
  },
  {
   "property": "C30",
   "status": "proved",
   "theorems": [
    "C30_types_encode_identifiers",
    "C30_order_independent",
    "C30_rules",
    "C30_names_rule",
    "C30_result_is_valid",
    "C30_dictionary_order"
   ],
   "note": ""
  },
  {
   "property": "C31",
   "status": "proved",
   "theorems": [
    "C31_round_trip",
    "C31_not_a_dict",
    "C31_attributes_are_items",
    "C31_state_follows",
    "C31_methods_stay",
    "C31_shadowed_refuted",
    "C31_copy_is_independent"
   ],
   "note": "Parts of the claim that are false of the code, each with a witness: C31_shadowed_refuted. The remaining theorems hold for all inputs."
  },
  {
   "property": "C32",
   "status": "proved",
   "theorems": [
    "C32_change_of_basis",
    "C32_same_crystal",
    "C32_input_crystal",
    "C32_properties_of_last_atom",
    "C32_convention_names",
    "C32_data_reused"
   ],
   "note": ""
  },
  {
   "property": "C33",
   "status": "proved",
   "theorems": [
    "C33_ordered",
    "C33_fails_exactly_on_ties",
    "C33_equal_lengths_refuted"
   ],
   "note": "Parts of the claim that are false of the code, each with a witness: C33_equal_lengths_refuted. The remaining theorems hold for all inputs."
  },
  {
   "property": "C34",
   "status": "proved",
   "theorems": [
    "C34_setting_in_tolerance",
    "C34_standard_setting",
    "C34_internal_error_iff"
   ],
   "note": ""
  },
  {
   "property": "C35",
   "status": "proved",
   "theorems": [
    "C35_setting_in_tolerance",
    "C35_sc_setting",
    "C35_sc_no_internal_error",
    "C35_hpkot_setting",
    "C35_hpkot_no_internal_error"
   ],
   "note": ""
  },
  {
   "property": "C36",
   "status": "proved",
   "theorems": [
    "C36_equal_lengths_and_angles",
    "C36_internal_error_iff",
    "C36_odd_beta_fails",
    "C36_odd_beta_refuted"
   ],
   "note": "Parts of the claim that are false of the code, each with a witness: C36_odd_beta_refuted. The remaining theorems hold for all inputs."
  },
  {
   "property": "C37",
   "status": "proved",
   "theorems": [
    "C37_primitive_lattice",
    "C37_spglib_cell",
    "C37_hpkot_hR_volume",
    "C37_hpkot_hR_accepted",
    "C37_hpkot_hR_volume_refuted"
   ],
   "note": "Parts of the claim that are false of the code, each with a witness: C37_hpkot_hR_volume_refuted. The remaining theorems hold for all inputs."
  },
  {
   "property": "C38",
   "status": "proved",
   "theorems": [
    "C38_representatives",
    "C38_number_of_atoms",
    "C38_properties_of_first_atom",
    "C38_last_atom_refuted",
    "C38_wraparound_refuted"
   ],
   "note": "Parts of the claim that are false of the code, each with a witness: C38_last_atom_refuted, C38_wraparound_refuted. The remaining theorems hold for all inputs."
  },
  {
   "property": "C39",
   "status": "proved",
   "theorems": [
    "C39_tetragonal",
    "C39_orthorhombic",
    "C39_rhombohedral",
    "C39_monoclinic",
    "C39_triclinic",
    "C39_single_variation",
    "C39_documented",
    "C39_every_tetragonal_refuted"
   ],
   "note": "Parts of the claim that are false of the code, each with a witness: C39_every_tetragonal_refuted. The remaining theorems hold for all inputs."
  },
  {
   "property": "C40",
   "status": "proved",
   "theorems": [
    "C40_by_space_group",
    "C40_tetragonal",
    "C40_orthorhombic_faces",
    "C40_orthorhombic_F",
    "C40_orthorhombic_I",
    "C40_rhombohedral",
    "C40_monoclinic",
    "C40_triclinic",
    "C40_documented",
    "C40_no_internal_error"
   ],
   "note": ""
  },
  {
   "property": "C41",
   "status": "proved",
   "theorems": [
    "C41_tables",
    "C41_no_other_groups",
    "C41_data_consistent"
   ],
   "note": ""
  },
  {
   "property": "C42",
   "status": "proved",
   "theorems": [
    "C42_path_points_defined",
    "C42_from_crystal",
    "C42_spglib_convention_refuted"
   ],
   "note": "Parts of the claim that are false of the code, each with a witness: C42_spglib_convention_refuted. The remaining theorems hold for all inputs."
  },
  {
   "property": "C43",
   "status": "proved",
   "theorems": [
    "C43_inversion",
    "C43_no_inversion"
   ],
   "note": ""
  },
  {
   "property": "C44",
   "status": "proved",
   "theorems": [
    "C44_hpkot_cubic_hexagonal",
    "C44_hpkot_tetragonal",
    "C44_hpkot_orthorhombic",
    "C44_hpkot_rhombohedral",
    "C44_hpkot_monoclinic",
    "C44_hpkot_triclinic",
    "C44_hpkot_aP2_refuted",
    "C44_sc_cubic_hexagonal",
    "C44_sc_tetragonal",
    "C44_sc_orthorhombic",
    "C44_sc_rhombohedral",
    "C44_sc_monoclinic",
    "C44_sc_triclinic",
    "C44_hpkot_tI_tie",
    "C44_sc_ORCF3_tie",
    "C44_hpkot_tI_refuted",
    "C44_sc_ORCF3_refuted"
   ],
   "note": "Parts of the claim that are false of the code, each with a witness: C44_hpkot_aP2_refuted, C44_hpkot_tI_refuted, C44_sc_ORCF3_refuted. The remaining theorems hold for all inputs."
  },
  {
   "property": "C45",
   "status": "proved",
   "theorems": [
    "C45_labels_identify_points",
    "C45_only_shared_labels",
    "C45_labels_distinct_refuted"
   ],
   "note": "Parts of the claim that are false of the code, each with a witness: C45_labels_distinct_refuted. The remaining theorems hold for all inputs."
  },
  {
   "property": "C46",
   "status": "proved",
   "theorems": [
    "C46_alphabetical",
    "C46_round_trip",
    "C46_through_a_file",
    "C46_exact",
    "C46_second_round_trip",
    "C46_carriage_return_refuted"
   ],
   "note": "Parts of the claim that are false of the code, each with a witness: C46_carriage_return_refuted. The remaining theorems hold for all inputs."
  },
  {
   "property": "C47",
   "status": "proved",
   "theorems": [
    "C47_single_factor",
    "C47_negative_factor",
    "C47_refused",
    "C47_equal_factors",
    "C47_three_factors_refuted"
   ],
   "note": "Parts of the claim that are false of the code, each with a witness: C47_three_factors_refuted. The remaining theorems hold for all inputs."
  },
  {
   "property": "C48",
   "status": "proved",
   "theorems": [
    "C48_key_error",
    "C48_value_error",
    "C48_documented_error_refuted",
    "C48_short_list",
    "C48_long_list_ignored",
    "C48_missing_keys",
    "C48_mode"
   ],
   "note": "Parts of the claim that are false of the code, each with a witness: C48_documented_error_refuted. The remaining theorems hold for all inputs."
  },
  {
   "property": "C49",
   "status": "proved",
   "theorems": [
    "C49_orthogonal_lattices",
    "C49_hexagonal",
    "C49_rhombohedral",
    "C49_monoclinic",
    "C49_triclinic",
    "C49_k_gamma",
    "C49_names",
    "C49_not_a_string",
    "C49_unreachable_branches",
    "C49_variation",
    "C49_triclinic_setting_refuted"
   ],
   "note": "Parts of the claim that are false of the code, each with a witness: C49_triclinic_setting_refuted. The remaining theorems hold for all inputs."
  },
  {
   "property": "C50",
   "status": "proved",
   "theorems": [
    "C50_contrast",
    "C50_contrast_monotone",
    "C50_contrast_grey",
    "C50_table",
    "C50_species",
    "C50_names",
    "C50_positions_only",
    "C50_palladium_refuted",
    "C50_one_color_refuted",
    "C50_color_list",
    "C50_named_color_refuted"
   ],
   "note": "Parts of the claim that are false of the code, each with a witness: C50_palladium_refuted, C50_one_color_refuted, C50_named_color_refuted. The remaining theorems hold for all inputs."
  },
  {
   "property": "C51",
   "status": "proved",
   "theorems": [
    "C51_bounding_box",
    "C51_monotone",
    "C51_kpath_refuted",
    "C51_kpath_empty_refuted",
    "C51_shown",
    "C51_shown_refuted",
    "C51_flat_refuted",
    "C51_legend_position"
   ],
   "note": "Parts of the claim that are false of the code, each with a witness: C51_kpath_refuted, C51_kpath_empty_refuted, C51_shown_refuted, C51_flat_refuted. The remaining theorems hold for all inputs."
  },
  {
   "property": "C52",
   "status": "proved",
   "theorems": [
    "C52_default_refuted",
    "C52_given_types"
   ],
   "note": "Parts of the claim that are false of the code, each with a witness: C52_default_refuted. The remaining theorems hold for all inputs."
  },
  {
   "property": "C53",
   "status": "proved",
   "theorems": [
    "C53_relative_coordinates",
    "C53_relative_possible"
   ],
   "note": ""
  },
  {
   "property": "C54",
   "status": "proved",
   "theorems": [
    "C54_only_adds",
    "C54_line",
    "C54_vector",
    "C54_points",
    "C54_cell",
    "C54_cell_vectors",
    "C54_wigner_seitz",
    "C54_brillouin_zone",
    "C54_kpath",
    "C54_kpoints",
    "C54_lattice",
    "C54_legend"
   ],
   "note": ""
  },
  {
   "property": "C55",
   "status": "proved",
   "theorems": [
    "C55_hpkot_cubic",
    "C55_hpkot_tetragonal",
    "C55_hpkot_orthorhombic",
    "C55_hpkot_hexagonal",
    "C55_hpkot_rhombohedral",
    "C55_hpkot_monoclinic",
    "C55_hpkot_triclinic",
    "C55_hpkot_aP2_Z",
    "C55_sc_cubic",
    "C55_sc_tetragonal",
    "C55_sc_hexagonal",
    "C55_sc_orthorhombic",
    "C55_sc_rhombohedral",
    "C55_sc_monoclinic",
    "C55_sc_triclinic",
    "C55_hpkot_oF_refuted",
    "C55_sc_F3_refuted",
    "C55_sc_TRI1b_refuted",
    "C55_hpkot_hR_inside"
   ],
   "note": "Parts of the claim that are false of the code, each with a witness: C55_hpkot_oF_refuted, C55_sc_F3_refuted, C55_sc_TRI1b_refuted. The remaining theorems hold for all inputs."
  },
  {
   "property": "C56",
   "status": "proved",
   "theorems": [
    "C56_integers",
    "C56_numbers",
    "C56_special",
    "C56_refused",
    "C56_integers_refused",
    "C56_words",
    "C56_comment",
    "C56_lines",
    "C56_newlines"
   ],
   "note": ""
  },
  {
   "property": "C57",
   "status": "proved",
   "theorems": [
    "C57_reads_documented_files",
    "C57_writes_documented_files",
    "C57_fields"
   ],
   "note": ""
  },
  {
   "property": "C58",
   "status": "proved",
   "theorems": [
    "C58_cut_between_lines",
    "C58_cut_in_a_line_refuted"
   ],
   "note": "Parts of the claim that are false of the code, each with a witness: C58_cut_in_a_line_refuted. The remaining theorems hold for all inputs."
  },
  {
   "property": "C59",
   "status": "proved",
   "theorems": [
    "C59_contents",
    "C59_failures",
    "C59_orientation",
    "C59_reused",
    "C59_defaults",
    "C59_checked",
    "C59_not_data"
   ],
   "note": ""
  },
  {
   "property": "C60",
   "status": "proved",
   "theorems": [
    "C60_identifies",
    "C60_monoclinic",
    "C60_base_centred_monoclinic",
    "C60_triclinic",
    "C60_orientation",
    "C60_scale_refuted",
    "C60_elongated_refuted"
   ],
   "note": "Parts of the claim that are false of the code, each with a witness: C60_scale_refuted, C60_elongated_refuted. The remaining theorems hold for all inputs."
  },
  {
   "property": "C61",
   "status": "proved",
   "theorems": [
    "C61_examples",
    "C61_short_names",
    "C61_refused",
    "C61_only_ValueError_refuted",
    "C61_total"
   ],
   "note": "Parts of the claim that are false of the code, each with a witness: C61_only_ValueError_refuted. The remaining theorems hold for all inputs."
  },
  {
   "property": "C62",
   "status": "proved",
   "theorems": [
    "C62_shape",
    "C62_fifty_characters_refuted",
    "C62_in_order",
    "C62_rotated",
    "C62_in_order_refuted",
    "C62_comment"
   ],
   "note": "Parts of the claim that are false of the code, each with a witness: C62_fifty_characters_refuted, C62_in_order_refuted. The remaining theorems hold for all inputs."
  },
  {
   "property": "C63",
   "status": "proved",
   "theorems": [
    "C63_trichotomy",
    "C63_complementary",
    "C63_order_laws",
    "C63_sound",
    "C63_complete",
    "C63_nan",
    "C63_default_tolerance",
    "C63_infinity",
    "C63_unknown_condition",
    "C63_default_values",
    "C63_default_width"
   ],
   "note": ""
  },
  {
   "property": "C64",
   "status": "proved",
   "theorems": [
    "C64_twice",
    "C64_once_refuted",
    "C64_positions",
    "C64_accuracy"
   ],
   "note": "Parts of the claim that are false of the code, each with a witness: C64_once_refuted. The remaining theorems hold for all inputs."
  },
  {
   "property": "C65",
   "status": "proved",
   "theorems": [
    "C65_table",
    "C65_refused",
    "C65_columns"
   ],
   "note": ""
  },
  {
   "property": "C66",
   "status": "proved",
   "theorems": [
    "C66_load_poscar",
    "C66_kpoints_calls",
    "C66_conventions",
    "C66_plot_atoms"
   ],
   "note": ""
  },
  {
   "property": "C67",
   "status": "proved",
   "theorems": [
    "C67_path_in_zone",
    "C67_recommended_path"
   ],
   "note": ""
  },
  {
   "property": "C68",
   "status": "proved",
   "theorems": [
    "C68_data",
    "C68_orientation",
    "C68_given_data",
    "C68_any_data"
   ],
   "note": ""
  },
  {
   "property": "C69",
   "status": "proved",
   "theorems": [
    "C69_units",
    "C69_units_sc",
    "C69_units_oF_refuted"
   ],
   "note": "Parts of the claim that are false of the code, each with a witness: C69_units_oF_refuted. The remaining theorems hold for all inputs."
  },
  {
   "property": "C70",
   "status": "proved",
   "theorems": [
    "C70_equivalent_names"
   ],
   "note": ""
  },
  {
   "property": "C71",
   "status": "proved",
   "theorems": [
    "C71_path_on_faces",
    "C71_path_on_surface",
    "C71_plain_shapes",
    "C71_inside_from_gamma"
   ],
   "note": ""
  },
  {
   "property": "C72",
   "status": "proved",
   "theorems": [
    "C72_shortest_vectors",
    "C72_niggli_shortest"
   ],
   "note": ""
  },
  {
   "property": "C73",
   "status": "proved",
   "theorems": [
    "C73_reduced_cell_unique",
    "C73_lattices_compared",
    "C73_any_cell"
   ],
   "note": ""
  },
  {
   "property": "C74",
   "status": "proved",
   "theorems": [
    "C74_identifies",
    "C74_cubic",
    "C74_orientation",
    "C74_any_cell",
    "C74_own_reduction"
   ],
   "note": ""
  },
  {
   "property": "C75",
   "status": "proved",
   "theorems": [
    "C75_identifies",
    "C75_exact",
    "C75_exclusive",
    "C75_many",
    "C75_few",
    "C75_never_wrong",
    "C75_reversed_vector",
    "C75_unreduced_refuted"
   ],
   "note": "Parts of the claim that are false of the code, each with a witness: C75_unreduced_refuted. The remaining theorems hold for all inputs."
  },
  {
   "property": "C76",
   "status": "proved",
   "theorems": [
    "C76_MCL",
    "C76_MCLC",
    "C76_TRI",
    "C76_base_centred_refuted"
   ],
   "note": "Parts of the claim that are false of the code, each with a witness: C76_base_centred_refuted. The remaining theorems hold for all inputs."
  },
  {
   "property": "C77",
   "status": "proved",
   "theorems": [
    "C77_private",
    "C77_copy",
    "C77_constructed",
    "C77_one_list_refuted"
   ],
   "note": "Parts of the claim that are false of the code, each with a witness: C77_one_list_refuted. The remaining theorems hold for all inputs."
  },
  {
   "property": "C78",
   "status": "proved",
   "theorems": [
    "C78_exact_returns",
    "C78_exists",
    "C78_never_returns_refuted",
    "C78_hexagonal_refuted",
    "C78_sheared_refuted"
   ],
   "note": "Parts of the claim that are false of the code, each with a witness: C78_never_returns_refuted, C78_hexagonal_refuted, C78_sheared_refuted. The remaining theorems hold for all inputs."
  },
  {
   "property": "C79",
   "status": "proved",
   "theorems": [
    "C79_data",
    "C79_conventional",
    "C79_primitive",
    "C79_names_and_paths",
    "C79_usual_calls",
    "C79_attributes_refuted"
   ],
   "note": "Parts of the claim that are false of the code, each with a witness: C79_attributes_refuted. The remaining theorems hold for all inputs."
  },
  {
   "property": "C80",
   "status": "proved",
   "theorems": [
    "C80_cells_and_names",
    "C80_absolute_points",
    "C80_relative_points",
    "C80_change_of_basis",
    "C80_band_path"
   ],
   "note": ""
  },
  {
   "property": "C81",
   "status": "proved",
   "theorems": [
    "C81_ensure_000",
    "C81_canonical",
    "C81_two_calls",
    "C81_one_call_refuted",
    "C81_cure_negative",
    "C81_within_the_cell",
    "C81_vector_accuracy",
    "C81_opposite_refuted"
   ],
   "note": "Parts of the claim that are false of the code, each with a witness: C81_one_call_refuted, C81_opposite_refuted. The remaining theorems hold for all inputs."
  },
  {
   "property": "C82",
   "status": "proved",
   "theorems": [
    "C82_points",
    "C82_flat_monotone",
    "C82_ticks_monotone",
    "C82_ticks_are_flat_points",
    "C82_flat_distance",
    "C82_ticks_distance"
   ],
   "note": ""
  }
 ]
}