{
 "claims": [
  {
   "property": "C01",
   "status": "proved",
   "theorems": [
    "C01_preserves_SI_value",
    "C01_groupoid"
   ],
   "note": ""
  },
  {
   "property": "C02",
   "status": "proved",
   "theorems": [
    "C02_names",
    "C02_documented_energy_names_refuted",
    "C02_energy_to_pressure_names"
   ],
   "note": ""
  },
  {
   "property": "C03",
   "status": "proved",
   "theorems": [
    "C03_order_and_linearity"
   ],
   "note": ""
  },
  {
   "property": "C04",
   "status": "proved",
   "theorems": [
    "C04_inverse",
    "C04_SI_density",
    "C04_agrees_with_converters"
   ],
   "note": ""
  },
  {
   "property": "C05",
   "status": "proved",
   "theorems": [
    "C05_converters_never_write",
    "C05_in_place_effect",
    "C05_in_place_effect_inverse",
    "C05_returned_values",
    "C05_base_units_alias",
    "C05_in_place_other_arguments",
    "C05_failed_call_untouched_refuted",
    "C05_success_untouched_refuted"
   ],
   "note": ""
  },
  {
   "property": "C06",
   "status": "proved",
   "theorems": [
    "C06_number_symbol_number",
    "C06_symbol_number_symbol",
    "C06_domain",
    "C06_IUPAC_numbers"
   ],
   "note": ""
  },
  {
   "property": "C07",
   "status": "proved",
   "theorems": [
    "C07_F_is_U_minus_TS",
    "C07_total"
   ],
   "note": ""
  },
  {
   "property": "C08",
   "status": "proved",
   "theorems": [
    "C08_heat_capacity_is_dU_dT",
    "C08_entropy_is_minus_dF_dT",
    "C08_T_dS_dT_is_heat_capacity"
   ],
   "note": ""
  },
  {
   "property": "C09",
   "status": "proved",
   "theorems": [
    "C09_bounds"
   ],
   "note": ""
  },
  {
   "property": "C10",
   "status": "proved",
   "theorems": [
    "C10_zero_temperature_is_limit"
   ],
   "note": ""
  },
  {
   "property": "C11",
   "status": "proved",
   "theorems": [
    "C11_monotone",
    "C11_strictly_monotone"
   ],
   "note": ""
  },
  {
   "property": "C12",
   "status": "proved",
   "theorems": [
    "C12_imaginary_modes_inert",
    "C12_imaginary_modes_inert_tables",
    "C12_appended_inert_modes"
   ],
   "note": ""
  },
  {
   "property": "C13",
   "status": "proved",
   "theorems": [
    "C13_schedule_independent",
    "C13_some_schedule",
    "C13_row_locality",
    "C13_is_weighted_sum",
    "C13_linear_in_weights",
    "C13_additive_over_qpoints",
    "C13_permutation_invariant",
    "C13_schedule_independent_any_arithmetic",
    "C13_assembly_schedule_independent"
   ],
   "note": ""
  },
  {
   "property": "C14",
   "status": "proved",
   "theorems": [
    "C14_schedule_independent",
    "C14_Legendre",
    "C14_affine_in_pressure"
   ],
   "note": ""
  },
  {
   "property": "C15",
   "status": "proved",
   "theorems": [
    "C15_degenerate",
    "C15_gruneisen_relation",
    "C15_KS_ge_KT",
    "C15_KS_gt_KT",
    "C15_heat_capacity_ratio"
   ],
   "note": ""
  },
  {
   "property": "C16",
   "status": "proved",
   "theorems": [
    "C16_murnaghan",
    "C16_birch_murnaghan",
    "C16_natural_strain",
    "C16_vinet",
    "C16_tait"
   ],
   "note": ""
  },
  {
   "property": "C17",
   "status": "proved",
   "theorems": [
    "C17_implied_second_derivative",
    "C17_vinet_second_derivative_refuted"
   ],
   "note": ""
  },
  {
   "property": "C18",
   "status": "proved",
   "theorems": [
    "C18_birch_murnaghan",
    "C18_natural_strain",
    "C18_vinet",
    "C18_tait_is_murnaghan",
    "C18_tait_order_3",
    "C18_order_raising",
    "C18_idempotent"
   ],
   "note": ""
  },
  {
   "property": "C19",
   "status": "proved",
   "theorems": [
    "C19_derivative_is_minus_pressure",
    "C19_tags",
    "C19_minimum",
    "C19_global_minimum",
    "C19_pressure_consistent",
    "C19_pressure_error",
    "C19_pressure_inconsistent"
   ],
   "note": ""
  },
  {
   "property": "C20",
   "status": "proved",
   "theorems": [
    "C20_murnaghan_decreasing",
    "C20_murnaghan_inverse",
    "C20_tait_inverse",
    "C20_tait_decreasing",
    "C20_compression"
   ],
   "note": ""
  },
  {
   "property": "C21",
   "status": "proved",
   "theorems": [
    "C21_weighting",
    "C21_pressure_uncertainties_ignored",
    "C21_check_values",
    "C21_free_parameters",
    "C21_start_values"
   ],
   "note": ""
  },
  {
   "property": "C22",
   "status": "proved",
   "theorems": [
    "C22_parameters_kept",
    "C22_parameters_overwritten",
    "C22_fitted_array_changed_refuted",
    "C22_normalised_curve",
    "C22_observed_on_curve",
    "C22_observed_from_data_only"
   ],
   "note": ""
  },
  {
   "property": "C23",
   "status": "proved",
   "theorems": [
    "C23_rows_are_polynomials",
    "C23_paths_agree",
    "C23_linear_in_coefficients"
   ],
   "note": ""
  },
  {
   "property": "C24",
   "status": "proved",
   "theorems": [
    "C24_returns_exactly_the_minima",
    "C24_no_pressure",
    "C24_strict_local_minimum",
    "C24_raises_iff_no_minimum",
    "C24_smallest_volume",
    "C24_global_minimum_refuted"
   ],
   "note": ""
  },
  {
   "property": "C25",
   "status": "proved",
   "theorems": [
    "C25_outcomes",
    "C25_exact_on_lines",
    "C25_quadratics",
    "C25_linear_in_Y"
   ],
   "note": ""
  },
  {
   "property": "C26",
   "status": "proved",
   "theorems": [
    "C26_label_means",
    "C26_first_match",
    "C26_total",
    "C26_unsymmetric",
    "C26_tetragonal_high_never"
   ],
   "note": ""
  },
  {
   "property": "C27",
   "status": "proved",
   "theorems": [
    "C27_cubic",
    "C27_hexagonal",
    "C27_tetragonal_high_is_called_trigonal",
    "C27_trigonal_high_is_called_low",
    "C27_trigonal_low",
    "C27_tetragonal_low",
    "C27_orthorhombic",
    "C27_orthorhombic_uniaxial",
    "C27_monoclinic",
    "C27_triclinic",
    "C27_hexagonal_sound_refuted"
   ],
   "note": ""
  },
  {
   "property": "C28",
   "status": "proved",
   "theorems": [
    "C28_minor_symmetries",
    "C28_major_symmetry",
    "C28_hooke",
    "C28_hooke_inverse",
    "C28_contraction"
   ],
   "note": ""
  },
  {
   "property": "C29",
   "status": "proved",
   "theorems": [
    "C29_bulk_order",
    "C29_shear_order",
    "C29_rows",
    "C29_table",
    "C29_hill",
    "C29_sound",
    "C29_isotropic"
   ],
   "note": ""
  },
  {
   "property": "C30",
   "status": "proved",
   "theorems": [
    "C30_unit",
    "C30_antipodal",
    "C30_half_ranges_suffice",
    "C30_half_ranges_reach_pairs"
   ],
   "note": ""
  },
  {
   "property": "C31",
   "status": "proved",
   "theorems": [
    "C31_reversal",
    "C31_shear_exchange",
    "C31_poisson_reciprocity",
    "C31_compressibilities_sum",
    "C31_energies",
    "C31_positive"
   ],
   "note": ""
  },
  {
   "property": "C32",
   "status": "proved",
   "theorems": [
    "C32_young",
    "C32_linear_compressibility",
    "C32_shear",
    "C32_poisson",
    "C32_tolerance_refuted"
   ],
   "note": ""
  },
  {
   "property": "C33",
   "status": "proved",
   "theorems": [
    "C33_gate_iff_all_zero",
    "C33_gate_dead",
    "C33_unstable_refuted"
   ],
   "note": ""
  },
  {
   "property": "C34",
   "status": "proved",
   "theorems": [
    "C34_min_le_max",
    "C34_anisotropy",
    "C34_axes_single",
    "C34_global_single",
    "C34_global_dual",
    "C34_axes_dual_refuted"
   ],
   "note": ""
  },
  {
   "property": "C35",
   "status": "proved",
   "theorems": [
    "C35_full",
    "C35_upper",
    "C35_forms_agree",
    "C35_lower_refuted",
    "C35_signed_first_entry_refuted"
   ],
   "note": ""
  },
  {
   "property": "C36",
   "status": "proved",
   "theorems": [
    "C36_completed_is_symmetric",
    "C36_failure_keeps_matrix",
    "C36_short",
    "C36_blank_first_line_raises",
    "C36_non_numeric",
    "C36_many_columns_raise",
    "C36_nan_accepted_refuted"
   ],
   "note": ""
  },
  {
   "property": "C37",
   "status": "proved",
   "theorems": [
    "C37_roundtrip",
    "C37_blank_title_refuted",
    "C37_digit_title_refuted"
   ],
   "note": ""
  },
  {
   "property": "C38",
   "status": "proved",
   "theorems": [
    "C38_soec_complete_file_isolated",
    "C38_soec_stale_refuted",
    "C38_soec_last_file_refuted",
    "C38_eos_first_title_stays_refuted",
    "C38_eos_stale_format_refuted",
    "C38_eos_stale_column_refuted",
    "C38_vasp_isolated",
    "C38_vasp_last_file_refuted",
    "C38_vasp_mixture_refuted",
    "C38_crystal_density",
    "C38_crystal_not_isolated_refuted",
    "C38_qha_isolated",
    "C38_qha_stale_dim",
    "C38_qha_stale_weights",
    "C38_qha_stale_dim_refuted"
   ],
   "note": ""
  },
  {
   "property": "C39",
   "status": "proved",
   "theorems": [
    "C39_reads",
    "C39_column_order"
   ],
   "note": ""
  },
  {
   "property": "C40",
   "status": "proved",
   "theorems": [
    "C40_comments",
    "C40_data_before_format",
    "C40_no_pressure_raises",
    "C40_alias_dropped_refuted",
    "C40_keyword_title_refuted",
    "C40_data_title_refuted",
    "C40_endless_iff"
   ],
   "note": ""
  },
  {
   "property": "C41",
   "status": "proved",
   "theorems": [
    "C41_mapping",
    "C41_accepted_has_no_error",
    "C41_parse_failure",
    "C41_missing_section_reported",
    "C41_empty_document_refuted",
    "C41_sentence_accepted_refuted",
    "C41_four_volumes",
    "C41_scalar_volume_refuted",
    "C41_job_name"
   ],
   "note": ""
  },
  {
   "property": "C42",
   "status": "proved",
   "theorems": [
    "C42_list_forms",
    "C42_unbracketed_refuted",
    "C42_frequencies",
    "C42_too_many_qpoints",
    "C42_weights",
    "C42_uneven_band"
   ],
   "note": ""
  },
  {
   "property": "C43",
   "status": "proved",
   "theorems": [
    "C43_zero_step",
    "C43_points",
    "C43_negative_step",
    "C43_whole_range",
    "C43_beyond_max",
    "C43_empty_iff"
   ],
   "note": ""
  },
  {
   "property": "C44",
   "status": "proved",
   "theorems": [
    "C44_grid",
    "C44_symmetric",
    "C44_even_refuted",
    "C44_volumes"
   ],
   "note": ""
  },
  {
   "property": "C45",
   "status": "proved",
   "theorems": [
    "C45_thermodynamic_scheme",
    "C45_frequency_scheme",
    "C45_acoustic_correction",
    "C45_acoustic_never_completes",
    "C45_enthalpy_and_gibbs"
   ],
   "note": ""
  },
  {
   "property": "C46",
   "status": "proved",
   "theorems": [
    "C46_short_grid",
    "C46_Cp_below_Cv_refuted"
   ],
   "note": ""
  },
  {
   "property": "C47",
   "status": "proved",
   "theorems": [
    "C47_forward_differences",
    "C47_sign",
    "C47_exact_for_linear_volume"
   ],
   "note": ""
  },
  {
   "property": "C48",
   "status": "proved",
   "theorems": [
    "C48_same_as_elastic",
    "C48_same_velocity",
    "C48_symmetric",
    "C48_homogeneous",
    "C48_positive_definite",
    "C48_real_velocities"
   ],
   "note": ""
  },
  {
   "property": "C49",
   "status": "proved",
   "theorems": [
    "C49_gradient",
    "C49_hessian",
    "C49_hessian_symmetric"
   ],
   "note": ""
  },
  {
   "property": "C50",
   "status": "proved",
   "theorems": [
    "C50_projection",
    "C50_group_faster",
    "C50_powerflow"
   ],
   "note": ""
  },
  {
   "property": "C51",
   "status": "proved",
   "theorems": [
    "C51_never_stale",
    "C51_no_direction",
    "C51_history_irrelevant"
   ],
   "note": ""
  },
  {
   "property": "C52",
   "status": "proved",
   "theorems": [
    "C52_matrix",
    "C52_recorded_angles",
    "C52_round_trip_iff",
    "C52_equivalent_refuted",
    "C52_group_angles"
   ],
   "note": ""
  },
  {
   "property": "C53",
   "status": "proved",
   "theorems": [
    "C53_modes_sorted",
    "C53_modes_are_eigenpairs",
    "C53_waves",
    "C53_only_waves",
    "C53_reported",
    "C53_velocities",
    "C53_group_velocity",
    "C53_group_speed",
    "C53_no_focusing",
    "C53_same_reported"
   ],
   "note": ""
  },
  {
   "property": "C54",
   "status": "proved",
   "theorems": [
    "C54_textbook",
    "C54_adjugate",
    "C54_branch_free"
   ],
   "note": ""
  },
  {
   "property": "C55",
   "status": "proved",
   "theorems": [
    "C55_row",
    "C55_rows",
    "C55_ends",
    "C55_distinct",
    "C55_single_refuted",
    "C55_empty"
   ],
   "note": ""
  },
  {
   "property": "C56",
   "status": "proved",
   "theorems": [
    "C56_exchanged",
    "C56_right_components",
    "C56_correct_iff",
    "C56_reads",
    "C56_total_table",
    "C56_clamped_table",
    "C56_second_total_refuted",
    "C56_refuted"
   ],
   "note": ""
  },
  {
   "property": "C57",
   "status": "proved",
   "theorems": [
    "C57_loop",
    "C57_stops_iff",
    "C57_hangs_iff",
    "C57_too_many",
    "C57_no_blank",
    "C57_mode_frequency",
    "C57_bands",
    "C57_band_order",
    "C57_file_hangs"
   ],
   "note": ""
  },
  {
   "property": "C58",
   "status": "proved",
   "theorems": [
    "C58_first",
    "C58_history",
    "C58_second_iff",
    "C58_again_refuted",
    "C58_density"
   ],
   "note": ""
  },
  {
   "property": "C59",
   "status": "proved",
   "theorems": [
    "C59_ordered",
    "C59_no_cell",
    "C59_close_volumes_refuted",
    "C59_points",
    "C59_cut_refuted",
    "C59_frequencies",
    "C59_pairing",
    "C59_reported",
    "C59_missing_cells"
   ],
   "note": ""
  },
  {
   "property": "C60",
   "status": "proved",
   "theorems": [
    "C60_roundtrip",
    "C60_own_values",
    "C60_single_roundtrip",
    "C60_reference",
    "C60_history",
    "C60_second_run_refuted",
    "C60_failed_read",
    "C60_blank_line",
    "C60_missing_band",
    "C60_description_refuted"
   ],
   "note": ""
  },
  {
   "property": "C61",
   "status": "proved",
   "theorems": [
    "C61_quiet_same_files",
    "C61_log_complete",
    "C61_quiet_screen",
    "C61_not_saved_said_refuted",
    "C61_fresh",
    "C61_eosfit_log"
   ],
   "note": ""
  },
  {
   "property": "C62",
   "status": "proved",
   "theorems": [
    "C62_names",
    "C62_log_not_result",
    "C62_frame",
    "C62_kept",
    "C62_completed",
    "C62_input_kept",
    "C62_input_lost_refuted",
    "C62_log_unasked_refuted",
    "C62_eosfit_named",
    "C62_eosfit_log_name",
    "C62_eosfit_input_lost_refuted"
   ],
   "note": ""
  },
  {
   "property": "C63",
   "status": "proved",
   "theorems": [
    "C63_qha_table",
    "C63_ha_table",
    "C63_titles",
    "C63_qha_aligned",
    "C63_vector_fails",
    "C63_short_fails",
    "C63_last_loaded",
    "C63_qha_export",
    "C63_cp_unit_refuted",
    "C63_ha_export",
    "C63_ha_static_refuted",
    "C63_ha_zero_point_refuted",
    "C63_exporters_mixed_refuted",
    "C63_overwrite",
    "C63_typed_overwritten_refuted",
    "C63_distinct_files"
   ],
   "note": ""
  },
  {
   "property": "C64",
   "status": "proved",
   "theorems": [
    "C64_every_fit_is_offered",
    "C64_rejected_answers_change_nothing",
    "C64_exit_only_when_declined",
    "C64_can_always_exit",
    "C64_no_trap"
   ],
   "note": ""
  },
  {
   "property": "C65",
   "status": "proved",
   "theorems": [
    "C65_start_values_history",
    "C65_implied_parameters_left_free"
   ],
   "note": ""
  },
  {
   "property": "C66",
   "status": "proved",
   "theorems": [
    "C66_value",
    "C66_least_squares",
    "C66_single_path",
    "C66_constant_row_refuted"
   ],
   "note": ""
  },
  {
   "property": "C67",
   "status": "proved",
   "theorems": [
    "C67_wave_sections",
    "C67_average_velocities_always_printed_refuted"
   ],
   "note": ""
  },
  {
   "property": "C68",
   "status": "proved",
   "theorems": [
    "C68_young_rows",
    "C68_compressibility_rows",
    "C68_poisson_rows",
    "C68_shear_rows",
    "C68_sampling",
    "C68_closed_curve"
   ],
   "note": ""
  },
  {
   "property": "C69",
   "status": "proved",
   "theorems": [
    "C69_polynomial_equilibrium",
    "C69_no_minimum_raises",
    "C69_eos_equilibrium"
   ],
   "note": ""
  },
  {
   "property": "C70",
   "status": "proved",
   "theorems": [
    "C70_Cp_minus_Cv",
    "C70_gruneisen",
    "C70_ratio",
    "C70_order"
   ],
   "note": ""
  },
  {
   "property": "C71",
   "status": "proved",
   "theorems": [
    "C71_table",
    "C71_values"
   ],
   "note": ""
  },
  {
   "property": "C72",
   "status": "proved",
   "theorems": [
    "C72_unit_invariance"
   ],
   "note": ""
  },
  {
   "property": "C73",
   "status": "proved",
   "theorems": [
    "C73_harmonic_completes",
    "C73_run_completes"
   ],
   "note": ""
  },
  {
   "property": "C74",
   "status": "proved",
   "theorems": [
    "C74_eigenvalue_gradient",
    "C74_group_velocity",
    "C74_eigenvalue_hessian",
    "C74_ray_direction",
    "C74_enhancement"
   ],
   "note": ""
  },
  {
   "property": "C75",
   "status": "proved",
   "theorems": [
    "C75_per_unit_cell",
    "C75_gamma",
    "C75_lattice_iff",
    "C75_uniform_expansion",
    "C75_energy_printed",
    "C75_expansion_printed",
    "C75_lattice_printed",
    "C75_modes",
    "C75_supercell_without_mesh",
    "C75_lattice_refuted",
    "C75_missing_bands_refuted"
   ],
   "note": ""
  },
  {
   "property": "C76",
   "status": "proved",
   "theorems": [
    "C76_zero_step",
    "C76_count",
    "C76_none_missing",
    "C76_whole_range",
    "C76_clear_count",
    "C76_points",
    "C76_exact",
    "C76_extra_point_refuted"
   ],
   "note": ""
  },
  {
   "property": "C77",
   "status": "proved",
   "theorems": [
    "C77_table",
    "C77_export",
    "C77_offered",
    "C77_accepts",
    "C77_no_polar_refuted",
    "C77_exporters_mixed_refuted",
    "C77_nothing",
    "C77_compliance_unit_refuted",
    "C77_wide_refuted"
   ],
   "note": ""
  },
  {
   "property": "C78",
   "status": "proved",
   "theorems": [
    "C78_table",
    "C78_export",
    "C78_enhancement_label_refuted",
    "C78_accepts",
    "C78_density",
    "C78_negative_density_refuted"
   ],
   "note": ""
  },
  {
   "property": "C79",
   "status": "proved",
   "theorems": [
    "C79_zero",
    "C79_values",
    "C79_heat_capacity",
    "C79_free_energy",
    "C79_scaling",
    "C79_entropy_value",
    "C79_entropy_refuted"
   ],
   "note": ""
  },
  {
   "property": "C80",
   "status": "proved",
   "theorems": [
    "C80_reads",
    "C80_no_energy_refuted",
    "C80_positions_refuted",
    "C80_left_handed_refuted",
    "C80_no_displacements",
    "C80_yaml_error_refuted",
    "C80_missing_key",
    "C80_generated"
   ],
   "note": ""
  },
  {
   "property": "C81",
   "status": "proved",
   "theorems": [
    "C81_thermodynamic_columns",
    "C81_frequency_columns",
    "C81_polynomial_volume",
    "C81_eos_volume",
    "C81_thermodynamic_moduli",
    "C81_frequency_moduli",
    "C81_parabola_refuted"
   ],
   "note": ""
  },
  {
   "property": "C82",
   "status": "proved",
   "theorems": [
    "C82_crystal",
    "C82_vasp",
    "C82_nothing_written",
    "C82_exceptions",
    "C82_messages",
    "C82_directory",
    "C82_reasons",
    "C82_replaces_refuted",
    "C82_own_input_refuted",
    "C82_blank_title_refuted"
   ],
   "note": ""
  },
  {
   "property": "C83",
   "status": "proved",
   "theorems": [
    "C83_zero_point",
    "C83_thermal",
    "C83_entropy",
    "C83_free_energy",
    "C83_heat_capacity",
    "C83_at_zero",
    "C83_tables",
    "C83_negligible_quantum_refuted",
    "C83_cold_refuted"
   ],
   "note": ""
  },
  {
   "property": "C84",
   "status": "proved",
   "theorems": [
    "C84_disc",
    "C84_injective",
    "C84_equal_area",
    "C84_conformal",
    "C84_loads",
    "C84_files",
    "C84_map",
    "C84_sphere",
    "C84_ratios",
    "C84_arrows",
    "C84_opposite",
    "C84_well_defined",
    "C84_command",
    "C84_refused",
    "C84_foreign_refuted",
    "C84_no_2D_refuted",
    "C84_no_matplotlib_refuted",
    "C84_only_plot_refuted",
    "C84_not_saved_refuted",
    "C84_switch_refuted",
    "C84_ratios_replaced_refuted",
    "C84_polarization_refuted"
   ],
   "note": ""
  },
  {
   "property": "C85",
   "status": "proved",
   "theorems": [
    "C85_registered",
    "C85_that_one",
    "C85_unknown",
    "C85_found",
    "C85_found_few",
    "C85_nothing",
    "C85_long",
    "C85_begins",
    "C85_typo",
    "C85_beginning",
    "C85_seismic_refuted",
    "C85_capitals_refuted"
   ],
   "note": ""
  },
  {
   "property": "C86",
   "status": "proved",
   "theorems": [
    "C86_figures",
    "C86_values",
    "C86_limit",
    "C86_inside",
    "C86_compressibility_refuted",
    "C86_auxetic_refuted",
    "C86_names_refuted",
    "C86_plot_alone_refuted"
   ],
   "note": ""
  },
  {
   "property": "C87",
   "status": "proved",
   "theorems": [
    "C87_input",
    "C87_averages",
    "C87_velocities",
    "C87_no_density_refuted",
    "C87_eigenvalues",
    "C87_moduli",
    "C87_shear",
    "C87_dual_table",
    "C87_second_axis_refuted",
    "C87_waves",
    "C87_figures",
    "C87_isotropic"
   ],
   "note": ""
  },
  {
   "property": "C88",
   "status": "proved",
   "theorems": [
    "C88_parameters",
    "C88_trailing_zero_refuted",
    "C88_nearly_ten_refuted",
    "C88_input",
    "C88_warning",
    "C88_one_volume_refuted",
    "C88_input_eos",
    "C88_input_eos_refuted",
    "C88_nan_error_refuted",
    "C88_fits",
    "C88_fits_average",
    "C88_constant_mode_refuted",
    "C88_results",
    "C88_volume_label_refuted",
    "C88_harmonic"
   ],
   "note": ""
  },
  {
   "property": "C89",
   "status": "proved",
   "theorems": [
    "C89_input",
    "C89_file",
    "C89_leftover_refuted",
    "C89_fit",
    "C89_parameters",
    "C89_errors",
    "C89_calculated",
    "C89_marks",
    "C89_implied_value",
    "C89_implied_value_refuted",
    "C89_observed_refuted"
   ],
   "note": ""
  },
  {
   "property": "C90",
   "status": "proved",
   "theorems": [
    "C90_data",
    "C90_rows",
    "C90_out_of_range",
    "C90_attribute",
    "C90_listing",
    "C90_qha_recognised",
    "C90_ha_recognised",
    "C90_ha_recognised_refuted",
    "C90_other_refuted",
    "C90_job_refuted",
    "C90_dialogue",
    "C90_any_dialogue",
    "C90_unknown_refuted",
    "C90_expansion_refuted",
    "C90_ha_export",
    "C90_ha_zero_point_refuted"
   ],
   "note": ""
  },
  {
   "property": "C91",
   "status": "proved",
   "theorems": [
    "C91_accuracy",
    "C91_there_and_back",
    "C91_energy_density",
    "C91_density_back",
    "C91_temperature",
    "C91_temperature_back",
    "C91_order",
    "C91_sign",
    "C91_missing",
    "C91_names",
    "C91_identity",
    "C91_exact_pressure",
    "C91_same_scale_refuted"
   ],
   "note": ""
  },
  {
   "property": "C92",
   "status": "proved",
   "theorems": [
    "C92_schedule",
    "C92_zero_pressure",
    "C92_enthalpy_above_gibbs",
    "C92_infinite_pressure",
    "C92_pressure_order",
    "C92_accuracy",
    "C92_fallback",
    "C92_KS_above",
    "C92_gamma_accuracy",
    "C92_gamma_sign",
    "C92_no_expansion",
    "C92_KS_accuracy",
    "C92_relation",
    "C92_tiny_heat_refuted"
   ],
   "note": ""
  },
  {
   "property": "C93",
   "status": "proved",
   "theorems": [
    "C93_refused",
    "C93_broken",
    "C93_failed",
    "C93_not_started",
    "C93_report_raises",
    "C93_run_raises",
    "C93_completed",
    "C93_kept",
    "C93_debug",
    "C93_references",
    "C93_credits",
    "C93_works"
   ],
   "note": ""
  },
  {
   "property": "C94",
   "status": "proved",
   "theorems": [
    "C94_input",
    "C94_averages",
    "C94_moduli",
    "C94_shear",
    "C94_waves",
    "C94_saved",
    "C94_polar",
    "C94_refused",
    "C94_singular",
    "C94_unstable_refuted",
    "C94_forms_agree"
   ],
   "note": ""
  },
  {
   "property": "C95",
   "status": "proved",
   "theorems": [
    "C95_saved",
    "C95_log",
    "C95_refused",
    "C95_empty_document_refuted",
    "C95_zero_step_refuted",
    "C95_few_energies_refuted",
    "C95_scalar_volume_refuted",
    "C95_too_many_qpoints_refuted",
    "C95_surplus_energies_refuted",
    "C95_from_outputs",
    "C95_uneven_band_refuted"
   ],
   "note": ""
  },
  {
   "property": "C96",
   "status": "proved",
   "theorems": [
    "C96_refused",
    "C96_empty_document_refuted",
    "C96_zero_step_refuted",
    "C96_scalar_volume_refuted",
    "C96_uneven_energies_refuted",
    "C96_acoustic_refuted",
    "C96_no_minimum_refuted",
    "C96_saved",
    "C96_minimum",
    "C96_thermodynamic_columns",
    "C96_frequency_columns",
    "C96_thermodynamic_moduli",
    "C96_frequency_moduli",
    "C96_eos",
    "C96_best_curve",
    "C96_expansion",
    "C96_few_temperatures_refuted",
    "C96_log",
    "C96_log_input",
    "C96_log_settings",
    "C96_log_eos",
    "C96_log_fits",
    "C96_uneven_band_refuted"
   ],
   "note": ""
  },
  {
   "property": "C97",
   "status": "proved",
   "theorems": [
    "C97_session",
    "C97_file",
    "C97_any_answers",
    "C97_no_structure",
    "C97_no_format",
    "C97_no_pressure_refuted",
    "C97_bad_row_refuted",
    "C97_named_refuted",
    "C97_guess_fails"
   ],
   "note": ""
  },
  {
   "property": "C98",
   "status": "proved",
   "theorems": [
    "C98_qha_session",
    "C98_qha_any_answers",
    "C98_result_lost_refuted",
    "C98_ha_session",
    "C98_ha_any_answers",
    "C98_ha_static_refuted",
    "C98_kept",
    "C98_refused",
    "C98_no_unit_refuted",
    "C98_other_kind",
    "C98_harmonic",
    "C98_quasiharmonic",
    "C98_qha_screen",
    "C98_ha_screen"
   ],
   "note": ""
  },
  {
   "property": "C99",
   "status": "proved",
   "theorems": [
    "C99_any_answers",
    "C99_kept",
    "C99_session",
    "C99_refused",
    "C99_stale_refuted",
    "C99_across",
    "C99_extremes",
    "C99_elastic",
    "C99_no_polar_refuted"
   ],
   "note": ""
  },
  {
   "property": "C100",
   "status": "proved",
   "theorems": [
    "C100_crystal",
    "C100_announced",
    "C100_negative_reference_refuted",
    "C100_positions",
    "C100_replaced_refuted",
    "C100_invalid_reference",
    "C100_reference_refuted",
    "C100_only_output",
    "C100_not_a_file",
    "C100_qha_list",
    "C100_missing_file",
    "C100_no_frequencies",
    "C100_binary_refuted",
    "C100_directory_refuted",
    "C100_endless_refuted",
    "C100_to_harmonic",
    "C100_phonopy",
    "C100_crystal_qha"
   ],
   "note": ""
  },
  {
   "property": "C101",
   "status": "proved",
   "theorems": [
    "C101_prepared",
    "C101_volumes",
    "C101_potentials",
    "C101_elastic",
    "C101_vasp",
    "C101_vasp_refuted",
    "C101_softest_refuted"
   ],
   "note": ""
  },
  {
   "property": "C102",
   "status": "proved",
   "theorems": [
    "C102_guess",
    "C102_empty",
    "C102_parabola",
    "C102_units",
    "C102_fit",
    "C102_pv",
    "C102_pv_line",
    "C102_pv_reference",
    "C102_axis_refuted",
    "C102_minimum_refuted"
   ],
   "note": ""
  },
  {
   "property": "C103",
   "status": "proved",
   "theorems": [
    "C103_determined",
    "C103_three_refuted",
    "C103_recovered"
   ],
   "note": ""
  },
  {
   "property": "C104",
   "status": "proved",
   "theorems": [
    "C104_murnaghan",
    "C104_minimise",
    "C104_no_curve_refuted",
    "C104_least_squares_zero",
    "C104_least_squares",
    "C104_zero_pressure",
    "C104_command",
    "C104_recovers"
   ],
   "note": ""
  },
  {
   "property": "C105",
   "status": "proved",
   "theorems": [
    "C105_determined",
    "C105_tait",
    "C105_fourth",
    "C105_fourth_refuted",
    "C105_recovers",
    "C105_recovers_tait",
    "C105_recovers_refuted"
   ],
   "note": ""
  },
  {
   "property": "C106",
   "status": "proved",
   "theorems": [
    "C106_log",
    "C106_saved",
    "C106_kept",
    "C106_isotropic",
    "C106_unstable_refuted",
    "C106_single_refuted",
    "C106_empty_refuted",
    "C106_negative",
    "C106_not_started",
    "C106_refused",
    "C106_singular",
    "C106_azimuths",
    "C106_720_refuted",
    "C106_forms_agree"
   ],
   "note": ""
  },
  {
   "property": "C107",
   "status": "proved",
   "theorems": [
    "C107_session",
    "C107_any_answers",
    "C107_other_files",
    "C107_refused",
    "C107_kept",
    "C107_stale_refuted",
    "C107_waves"
   ],
   "note": ""
  },
  {
   "property": "C108",
   "status": "proved",
   "theorems": [
    "C108_crystal",
    "C108_vasp_refuted",
    "C108_light_refuted"
   ],
   "note": ""
  },
  {
   "property": "C109",
   "status": "proved",
   "theorems": [
    "C109_averages",
    "C109_directions",
    "C109_extremes",
    "C109_shear_extremes",
    "C109_couplings",
    "C109_waves",
    "C109_report",
    "C109_soft_refuted"
   ],
   "note": ""
  }
 ]
}