# Formal model of quantas: design

Everything lives in `rocq/theories/`. For each area `X` there is

* `XModel.v`  - Gallina transcription of the Python/Cython functions, each definition citing file and lines in /repo;
* `XSpec.v`   - small specification written without the model's helpers (only where the statement needs vocabulary;
  in the other areas the vocabulary opens the `XProps.v` file);
* `XProofs.v` - lemmas;
* `XProps.v`  - the property theorems (`Cnn_...`), concrete cases next to them, and `Print Assumptions`.

`properties.jsonl` lists the claims, `MANIFEST.json` maps claims to theorems (regenerated by `tools/manifest.py` from the
theorem names), `seeded/LOG.jsonl` records wrong programs tried against the theorems.

## Conventions

* Floating point numbers are exact reals (`R`), or `fl` = a real or NaN where text is parsed. Rounding, overflow,
  infinities and signed zero are *not* modelled, except that decimal formatting (`FormatModel`) rounds as Python does.
* Exceptions are values (`option`, or an `outcome`/`res`/`result` type keeping the Python exception name); an endless loop
  is a value too where one exists (`Hangs`, `Endless`).
* numpy arrays are lists or functions from indices; where aliasing matters (C05, C22, C65) they live in a heap or are
  threaded explicitly. Class-level attributes shared by instances are an explicit state threaded through histories.
* External code (LAPACK eigen-solvers, pinv, scipy optimisers/ODR/curve_fit, numpy polyfit and roots, PyYAML, h5py) is a
  parameter of a Section or record; what is assumed about it is a hypothesis of the theorem that needs it. Such
  hypotheses are shown satisfiable by an instance (for example a Gram-Schmidt solver for polyfit).
* When the statement a user would expect is false of the code, the theorem proved is the exact behaviour plus a
  `_refuted` theorem with a concrete witness; the claim in `properties.jsonl` then says so, and the defect is listed
  under *Findings*. A status of "proved" in the manifest is about the claim as worded, including such a split.

## Trusted base

* Coq 8.16.1 kernel (no `Admitted`, no own axioms, no disabled kernel checks, no functors or module types).
* The transcription itself, line by line against the cited source, and the abstractions listed here.
* The standard library axioms below, as `Print Assumptions` lists them for each theorem (regenerate with
  `tools/assumptions.py`):

<!-- assumptions -->
* *closed under the global context* (52 theorems): C06_number_symbol_number, C06_symbol_number_symbol, C06_domain, C06_IUPAC_numbers, C13_schedule_independent_any_arithmetic, C21_check_values, C40_endless_iff, C41_mapping, C41_accepted_has_no_error, C41_job_name, C56_total_table, C56_clamped_table, C56_second_total_refuted, C59_points, C59_cut_refuted, C61_quiet_same_files, C61_not_saved_said_refuted, C61_eosfit_log, C62_names, C62_log_not_result, C62_log_unasked_refuted, C62_eosfit_named, C62_eosfit_log_name, C63_overwrite, C63_typed_overwritten_refuted, C63_distinct_files, C77_accepts, C78_accepts, C84_only_plot_refuted, C85_registered, C85_that_one, C85_unknown, C85_found, C85_found_few, C85_nothing, C85_long, C85_begins, C85_typo, C85_beginning, C85_seismic_refuted, C85_capitals_refuted, C90_data, C90_attribute, C90_listing, C90_qha_recognised, C90_ha_recognised, C90_job_refuted, C93_references, C93_works, C100_announced, C100_negative_reference_refuted, C106_720_refuted
* `sig_forall_dec` (16 theorems): C13_schedule_independent, C13_some_schedule, C13_assembly_schedule_independent, C14_schedule_independent, C21_weighting, C21_pressure_uncertainties_ignored, C21_free_parameters, C60_own_values, C64_every_fit_is_offered, C64_rejected_answers_change_nothing, C64_exit_only_when_declined, C64_can_always_exit, C64_no_trap, C65_implied_parameters_left_free, C90_rows, C90_out_of_range
* `functional_extensionality_dep` (19 theorems): C61_log_complete, C61_quiet_screen, C61_fresh, C62_frame, C62_kept, C62_completed, C62_input_kept, C62_input_lost_refuted, C62_eosfit_input_lost_refuted, C93_refused, C93_broken, C93_failed, C93_not_started, C93_report_raises, C93_run_raises, C93_completed, C93_kept, C93_debug, C93_credits
* `functional_extensionality_dep`, `sig_forall_dec` (213 theorems): C01_preserves_SI_value, C01_groupoid, C02_names, C02_documented_energy_names_refuted, C02_energy_to_pressure_names, C03_order_and_linearity, C04_inverse, C04_SI_density, C04_agrees_with_converters, C05_converters_never_write, C05_in_place_effect, C05_in_place_effect_inverse, C05_returned_values, C05_base_units_alias, C05_in_place_other_arguments, C05_failed_call_untouched_refuted, C05_success_untouched_refuted, C13_row_locality, C13_is_weighted_sum, C13_linear_in_weights, C13_additive_over_qpoints, C13_permutation_invariant, C14_Legendre, C14_affine_in_pressure, C15_degenerate, C15_gruneisen_relation, C15_KS_ge_KT, C15_KS_gt_KT, C15_heat_capacity_ratio, C21_start_values, C23_rows_are_polynomials, C23_paths_agree, C23_linear_in_coefficients, C24_global_minimum_refuted, C25_outcomes, C25_exact_on_lines, C25_quadratics, C25_linear_in_Y, C26_label_means, C26_first_match, C26_total, C26_unsymmetric, C26_tetragonal_high_never, C27_cubic, C27_hexagonal, C27_tetragonal_high_is_called_trigonal, C27_trigonal_high_is_called_low, C27_trigonal_low, C27_tetragonal_low, C27_orthorhombic, C27_orthorhombic_uniaxial, C27_monoclinic, C27_triclinic, C27_hexagonal_sound_refuted, C28_minor_symmetries, C28_major_symmetry, C28_hooke, C28_hooke_inverse, C28_contraction, C29_bulk_order, C29_shear_order, C29_rows, C29_table, C29_hill, C31_shear_exchange, C31_poisson_reciprocity, C31_compressibilities_sum, C31_energies, C33_gate_iff_all_zero, C33_gate_dead, C33_unstable_refuted, C38_eos_first_title_stays_refuted, C38_eos_stale_format_refuted, C38_eos_stale_column_refuted, C38_vasp_isolated, C38_vasp_last_file_refuted, C38_vasp_mixture_refuted, C38_crystal_density, C38_crystal_not_isolated_refuted, C38_qha_isolated, C38_qha_stale_dim, C38_qha_stale_weights, C38_qha_stale_dim_refuted, C39_reads, C39_column_order, C40_comments, C40_data_before_format, C40_no_pressure_raises, C40_alias_dropped_refuted, C40_keyword_title_refuted, C40_data_title_refuted, C41_parse_failure, C41_missing_section_reported, C41_empty_document_refuted, C41_sentence_accepted_refuted, C41_four_volumes, C41_scalar_volume_refuted, C42_list_forms, C42_unbracketed_refuted, C42_frequencies, C42_too_many_qpoints, C42_weights, C42_uneven_band, C43_zero_step, C43_points, C43_negative_step, C43_whole_range, C43_beyond_max, C43_empty_iff, C44_grid, C44_symmetric, C44_even_refuted, C44_volumes, C48_same_as_elastic, C48_symmetric, C48_homogeneous, C48_positive_definite, C48_real_velocities, C49_hessian_symmetric, C53_modes_sorted, C53_modes_are_eigenpairs, C53_waves, C53_only_waves, C54_textbook, C54_adjugate, C54_branch_free, C56_exchanged, C56_right_components, C56_correct_iff, C56_reads, C56_refuted, C57_loop, C57_stops_iff, C57_hangs_iff, C57_too_many, C57_no_blank, C57_mode_frequency, C57_bands, C57_band_order, C57_file_hangs, C58_first, C58_history, C58_second_iff, C58_again_refuted, C58_density, C59_ordered, C59_no_cell, C59_close_volumes_refuted, C59_frequencies, C59_pairing, C59_reported, C59_missing_cells, C65_start_values_history, C66_value, C66_least_squares, C66_single_path, C66_constant_row_refuted, C67_wave_sections, C67_average_velocities_always_printed_refuted, C75_per_unit_cell, C75_gamma, C75_lattice_iff, C75_uniform_expansion, C75_energy_printed, C75_expansion_printed, C75_lattice_printed, C75_modes, C75_supercell_without_mesh, C75_lattice_refuted, C75_missing_bands_refuted, C77_table, C77_nothing, C77_wide_refuted, C78_table, C80_reads, C80_no_energy_refuted, C80_positions_refuted, C80_left_handed_refuted, C82_nothing_written, C82_exceptions, C82_messages, C82_directory, C82_reasons, C82_replaces_refuted, C82_own_input_refuted, C87_input, C87_dual_table, C88_fits, C88_fits_average, C88_constant_mode_refuted, C89_input, C89_file, C89_leftover_refuted, C97_file, C99_any_answers, C99_kept, C99_session, C99_refused, C99_stale_refuted, C101_softest_refuted, C102_empty, C107_session, C107_any_answers, C107_other_files, C107_refused, C107_kept, C107_stale_refuted, C109_averages, C109_directions, C109_extremes, C109_shear_extremes, C109_couplings, C109_soft_refuted
* `functional_extensionality_dep`, `sig_forall_dec`, `sig_not_dec` (100 theorems): C24_returns_exactly_the_minima, C24_no_pressure, C24_raises_iff_no_minimum, C24_smallest_volume, C29_sound, C29_isotropic, C30_unit, C30_antipodal, C31_reversal, C31_positive, C32_young, C32_linear_compressibility, C32_shear, C32_poisson, C32_tolerance_refuted, C34_min_le_max, C34_anisotropy, C34_axes_single, C34_axes_dual_refuted, C35_full, C35_upper, C35_forms_agree, C35_lower_refuted, C35_signed_first_entry_refuted, C36_completed_is_symmetric, C36_failure_keeps_matrix, C36_short, C36_blank_first_line_raises, C36_non_numeric, C36_many_columns_raise, C36_nan_accepted_refuted, C37_roundtrip, C37_blank_title_refuted, C37_digit_title_refuted, C38_soec_complete_file_isolated, C38_soec_stale_refuted, C38_soec_last_file_refuted, C48_same_velocity, C53_reported, C53_velocities, C53_same_reported, C55_rows, C55_ends, C55_distinct, C55_single_refuted, C55_empty, C68_young_rows, C68_compressibility_rows, C68_poisson_rows, C68_shear_rows, C68_sampling, C68_closed_curve, C69_no_minimum_raises, C74_enhancement, C77_export, C77_offered, C77_no_polar_refuted, C77_exporters_mixed_refuted, C77_compliance_unit_refuted, C78_density, C78_negative_density_refuted, C82_crystal, C82_vasp, C82_blank_title_refuted, C84_disc, C84_loads, C86_figures, C86_values, C86_limit, C86_inside, C86_compressibility_refuted, C86_auxetic_refuted, C86_plot_alone_refuted, C87_averages, C87_velocities, C87_no_density_refuted, C87_eigenvalues, C87_waves, C87_figures, C94_input, C94_averages, C94_waves, C94_saved, C94_polar, C94_refused, C94_singular, C94_unstable_refuted, C94_forms_agree, C99_elastic, C99_no_polar_refuted, C101_elastic, C101_vasp, C101_vasp_refuted, C102_guess, C102_parabola, C102_pv, C102_pv_line, C102_pv_reference, C109_waves, C109_report
* `classic`, `functional_extensionality_dep`, `sig_forall_dec`, `sig_not_dec` (347 theorems): C07_F_is_U_minus_TS, C07_total, C08_heat_capacity_is_dU_dT, C08_entropy_is_minus_dF_dT, C08_T_dS_dT_is_heat_capacity, C09_bounds, C10_zero_temperature_is_limit, C11_monotone, C11_strictly_monotone, C12_imaginary_modes_inert, C12_imaginary_modes_inert_tables, C12_appended_inert_modes, C16_murnaghan, C16_birch_murnaghan, C16_natural_strain, C16_vinet, C16_tait, C17_implied_second_derivative, C17_vinet_second_derivative_refuted, C18_birch_murnaghan, C18_natural_strain, C18_vinet, C18_tait_is_murnaghan, C18_tait_order_3, C18_order_raising, C18_idempotent, C19_derivative_is_minus_pressure, C19_tags, C19_minimum, C19_global_minimum, C19_pressure_consistent, C19_pressure_error, C19_pressure_inconsistent, C20_murnaghan_decreasing, C20_murnaghan_inverse, C20_tait_inverse, C20_tait_decreasing, C20_compression, C22_parameters_kept, C22_parameters_overwritten, C22_fitted_array_changed_refuted, C22_normalised_curve, C22_observed_on_curve, C22_observed_from_data_only, C24_strict_local_minimum, C30_half_ranges_suffice, C30_half_ranges_reach_pairs, C34_global_single, C34_global_dual, C45_thermodynamic_scheme, C45_frequency_scheme, C45_acoustic_correction, C45_acoustic_never_completes, C45_enthalpy_and_gibbs, C46_short_grid, C46_Cp_below_Cv_refuted, C47_forward_differences, C47_sign, C47_exact_for_linear_volume, C49_gradient, C49_hessian, C50_projection, C50_group_faster, C50_powerflow, C51_never_stale, C51_no_direction, C51_history_irrelevant, C52_matrix, C52_recorded_angles, C52_round_trip_iff, C52_equivalent_refuted, C52_group_angles, C53_group_velocity, C53_group_speed, C53_no_focusing, C55_row, C60_roundtrip, C60_single_roundtrip, C60_reference, C60_history, C60_second_run_refuted, C60_failed_read, C60_blank_line, C60_missing_band, C60_description_refuted, C63_qha_table, C63_ha_table, C63_titles, C63_qha_aligned, C63_vector_fails, C63_short_fails, C63_last_loaded, C63_qha_export, C63_cp_unit_refuted, C63_ha_export, C63_ha_static_refuted, C63_ha_zero_point_refuted, C63_exporters_mixed_refuted, C69_polynomial_equilibrium, C69_eos_equilibrium, C70_Cp_minus_Cv, C70_gruneisen, C70_ratio, C70_order, C71_table, C71_values, C72_unit_invariance, C73_harmonic_completes, C73_run_completes, C74_eigenvalue_gradient, C74_group_velocity, C74_eigenvalue_hessian, C74_ray_direction, C76_zero_step, C76_count, C76_none_missing, C76_whole_range, C76_clear_count, C76_points, C76_exact, C76_extra_point_refuted, C78_export, C78_enhancement_label_refuted, C79_zero, C79_values, C79_heat_capacity, C79_free_energy, C79_scaling, C79_entropy_value, C79_entropy_refuted, C80_no_displacements, C80_yaml_error_refuted, C80_missing_key, C80_generated, C81_thermodynamic_columns, C81_frequency_columns, C81_polynomial_volume, C81_eos_volume, C81_thermodynamic_moduli, C81_frequency_moduli, C81_parabola_refuted, C83_zero_point, C83_thermal, C83_entropy, C83_free_energy, C83_heat_capacity, C83_at_zero, C83_tables, C83_negligible_quantum_refuted, C83_cold_refuted, C84_injective, C84_equal_area, C84_conformal, C84_files, C84_map, C84_sphere, C84_ratios, C84_arrows, C84_opposite, C84_well_defined, C84_command, C84_refused, C84_foreign_refuted, C84_no_2D_refuted, C84_no_matplotlib_refuted, C84_not_saved_refuted, C84_switch_refuted, C84_ratios_replaced_refuted, C84_polarization_refuted, C86_names_refuted, C87_moduli, C87_shear, C87_second_axis_refuted, C87_isotropic, C88_parameters, C88_trailing_zero_refuted, C88_nearly_ten_refuted, C88_input, C88_warning, C88_one_volume_refuted, C88_input_eos, C88_input_eos_refuted, C88_nan_error_refuted, C88_results, C88_volume_label_refuted, C88_harmonic, C89_fit, C89_parameters, C89_errors, C89_calculated, C89_marks, C89_implied_value, C89_implied_value_refuted, C89_observed_refuted, C90_ha_recognised_refuted, C90_other_refuted, C90_dialogue, C90_any_dialogue, C90_unknown_refuted, C90_expansion_refuted, C90_ha_export, C90_ha_zero_point_refuted, C91_accuracy, C91_there_and_back, C91_energy_density, C91_density_back, C91_temperature, C91_temperature_back, C91_order, C91_sign, C91_missing, C91_names, C91_identity, C91_exact_pressure, C91_same_scale_refuted, C92_schedule, C92_zero_pressure, C92_enthalpy_above_gibbs, C92_infinite_pressure, C92_pressure_order, C92_accuracy, C92_fallback, C92_KS_above, C92_gamma_accuracy, C92_gamma_sign, C92_no_expansion, C92_KS_accuracy, C92_relation, C92_tiny_heat_refuted, C94_moduli, C94_shear, C95_saved, C95_log, C95_refused, C95_empty_document_refuted, C95_zero_step_refuted, C95_few_energies_refuted, C95_scalar_volume_refuted, C95_too_many_qpoints_refuted, C95_surplus_energies_refuted, C95_from_outputs, C95_uneven_band_refuted, C96_refused, C96_empty_document_refuted, C96_zero_step_refuted, C96_scalar_volume_refuted, C96_uneven_energies_refuted, C96_acoustic_refuted, C96_no_minimum_refuted, C96_saved, C96_minimum, C96_thermodynamic_columns, C96_frequency_columns, C96_thermodynamic_moduli, C96_frequency_moduli, C96_eos, C96_best_curve, C96_expansion, C96_few_temperatures_refuted, C96_log, C96_log_input, C96_log_settings, C96_log_eos, C96_log_fits, C96_uneven_band_refuted, C97_session, C97_any_answers, C97_no_structure, C97_no_format, C97_no_pressure_refuted, C97_bad_row_refuted, C97_named_refuted, C97_guess_fails, C98_qha_session, C98_qha_any_answers, C98_result_lost_refuted, C98_ha_session, C98_ha_any_answers, C98_ha_static_refuted, C98_kept, C98_refused, C98_no_unit_refuted, C98_other_kind, C98_harmonic, C98_quasiharmonic, C98_qha_screen, C98_ha_screen, C99_across, C99_extremes, C100_crystal, C100_positions, C100_replaced_refuted, C100_invalid_reference, C100_reference_refuted, C100_only_output, C100_not_a_file, C100_qha_list, C100_missing_file, C100_no_frequencies, C100_binary_refuted, C100_directory_refuted, C100_endless_refuted, C100_to_harmonic, C100_phonopy, C100_crystal_qha, C101_prepared, C101_volumes, C101_potentials, C102_units, C102_fit, C102_axis_refuted, C102_minimum_refuted, C103_determined, C103_three_refuted, C103_recovered, C104_murnaghan, C104_minimise, C104_no_curve_refuted, C104_least_squares_zero, C104_least_squares, C104_zero_pressure, C104_command, C104_recovers, C105_determined, C105_tait, C105_fourth, C105_fourth_refuted, C105_recovers, C105_recovers_tait, C105_recovers_refuted, C106_log, C106_saved, C106_kept, C106_isotropic, C106_unstable_refuted, C106_single_refuted, C106_empty_refuted, C106_negative, C106_not_started, C106_refused, C106_singular, C106_azimuths, C106_forms_agree, C107_waves, C108_crystal, C108_vasp_refuted, C108_light_refuted
<!-- end assumptions -->


## What is modelled

| part of /repo/quantas | model | left out or simplified |
|---|---|---|
| utils/physics/units.py | UnitsModel, UnitsHeapModel | float rounding; constants are positive parameters |
| utils/chemistry | ChemModel | - |
| utils/physics/statistical_mechanics.pyx (prange loops) | ParModel, StatMechModel | float rounding; threads are interleavings of whole element updates |
| utils/physics/thermodynamics.pyx | ThermoModel | as above |
| eosfit/utils/pv_eos.py, qha/utils/ev_eos.py | PvEosModel, EvEosModel | arrays one element at a time |
| eosfit/eosfit.py, eosfit/utils/interactive.py | EosFitModel | the optimiser itself (ODR/curve_fit) is a parameter; screen text left out |
| utils/math/polynomials.py, derivative.py | PolyModel, PolyfitProofs | numpy polyfit/roots are parameters with contracts |
| soec/utils/symmetry.py, soec/utils/soec_obj.py, soec/soec.py (run, report) | SymmetryModel, TensorModel, SoecRunModel | eigenvalues, brute/fmin optimisers are parameters; text layout of the report |
| IO/soec_reader.py, IO/soec_writer.py | SoecIOModel, DecimalModel | text decoding |
| IO/eos_reader.py | EosReaderModel | text decoding |
| IO/qha_reader.py, calculators' read_input | QhaReaderModel | PyYAML (parameter; `YamlSpec` specifies the subset the writer produces) |
| qha/qha.py run, harmonic/harmonic.py run | GridModel, QhaRunModel | numpy's rounding in arange; terminal output; Kieffer integrals are parameters |
| seismic/utils/seismic_obj.py, seismic/seismic.py (run), utils/math/fast_math.pyx | SeismicModel | eigh, pinv, inv are parameters (exact Moore-Penrose, no rcond cut-off); nan/inf of divisions by zero |
| interfaces/vasp.py, interfaces/crystal.py | SoecInterfaceModel, CrystalModel | int() with underscores; text decoding; left-handed expansion matrices raise slightly earlier |
| IO/qha_writer.py, harmonic inpgen command | FormatModel, QhaWriterModel | negative zero, infinities |
| cmdline/utils/messages.py, core/calculator.py echo methods, the five calculation commands | CliModel | colours, figures, permissions, missing directories, links |
| qha and harmonic utils/table.py, utils/export.py, export_hdf5 | TableModel, StoreModel | HDF5 is a list of named arrays with a unit; 'desc' attributes |
| core: set_range of qha.py / harmonic.py in double precision | GridFloatModel | numpy.arange element formula and length as in numpy's C code; FLT(53) rounding to nearest even, no overflow |
| soec/utils/export.py, soec/utils/table.py, soec/soec.py (export_hdf5, polar tables) | SoecTableModel | screen menus; `info` text shortened; wave velocities are a parameter; names iterated in byte order as h5py does |
| seismic/utils/export.py, seismic/seismic.py (read_input, run, export_hdf5) | SeismicTableModel | screen menus and debug lines; splitlines on newlines only; one selection per exporter |
| qha/utils/kieffer.py | KiefferModel | scipy.integrate.quad is a parameter returning the (possibly improper) integral; the requested accuracies are left out; exact reals |
| interfaces/phonopy.py | PhonopyModel | yaml.safe_load and ElementTree are parameters (parsed document, or failure); values of other types than phonopy writes are outside the model; exact reals |
| soec/commands/cmd_inpgen.py, IO/soec_writer.py (class), messages.prompt | SoecInpgenModel | files and terminal of CliModel; one reader per process; "is text" is one question about the whole file; sign of zero not printed |
| utils/physics/statistical_mechanics.pyx in C doubles | HoFloatModel | Flocq's FLT rounding plus infinities and NaN; one zero; exp, expm1, log, pow(.,2) and pow(10,-3) are parameters of bounded error; temperatures, frequencies, weights finite; no fused multiply-add |
| seismic/utils/seismic_plotter.py, seismic.py (flag, plot), cmd_seismic.py:108-151, IO/hdf5_reader.py (read, get_data_column) | SeismicPlotModel | what is handed to matplotlib and plotly: coordinates, values, marks, arrows, titles, file names; drawing, contouring and colours are not; exact reals; the missing core/plotter.py is taken to provide echo |
| cmdline/utils/general.py (MostSimilarCommandGroup), registration of commands, Python's difflib (get_close_matches, SequenceMatcher with its quick ratios and automatic junk) | CommandModel | characters are bytes; ratios compared as fractions; click's usage lines around the message |
| soec/utils/plotting.py, plotting part of soec.py | PolarPlotModel | what is handed to matplotlib: angles, radii, outer limit, texts, legends, file names; drawing, colours and dashes are not; exact reals |
| soec/soec.py: printed report (formats, input, averages, directional tables, seismic table) | ReportModel, SoecReportModel | one string per printed line; numbers are exact until printed; the shortest text of the density, timing and polar progress lines are parameters; eigenvalues, velocities and the search are parameters |
| qha/qha.py report_input_data, frequency fit report, report_results; harmonic/harmonic.py report_input_data | QhaReportModel | one string per printed line; numbers are exact until printed; the shortest text of a float is a parameter except for numbers rounded to a given decimal (no exponent notation, no negative zero); timing lines and the colour of the warning are left out |
| eosfit.py report_input_data, report_fit; interactive.py names and labels; pv_eos.py __repr__ | EosReportModel | scipy's output (a parameter); the text of the prompts. That scipy evaluates the curve on the start array before it begins, which writes implied values into it, and that it leaves parameters without influence alone, are hypotheses of C89_implied_value_refuted; the session model (EosFitModel) does not follow this writing when the start array is a previous result |
| IO/hdf5_reader.py, IO/hdf5_export.py; attributes and info text written by qha.py and harmonic.py export_hdf5 | H5Model | h5py (a file is an info text and named arrays of one or two dimensions with text attributes); h5py's exception for an index out of range is a parameter; axes are vectors; reading from a closed terminal is EOFError |
| utils/physics/units.py in doubles | UnitsFloatModel | one element of a float64 array; the two zeros are one number; np.power(10., n) is exact for 3 <= n <= 14; the cubes of the two length units are given with an error of two units of roundoff |
| utils/physics/thermodynamics.pyx in doubles | ThermoFloatModel | the two zeros are one number; no fused multiply-add; fast_math.pyx:cofactor (used nowhere; it ends in a bare return) is not modelled |
| quantas/citations.py, cmdline/utils/messages.py (the texts) | CitationsModel | colours; the version is that of the pinned commit |
| soec/commands/cmd_soec.py with soec/soec.py and soec_obj.py:SOECOrtho, composed | SoecCommandModel | files with nan among their numbers (a parameter); numpy inverse and eigenvalues, scipy searches, phase velocities, the bytes of h5py are parameters |
| harmonic/commands/cmd_ha.py with harmonic/harmonic.py and IO/qha_reader.py (supercell, indexing), composed | PhononInputModel, HaCommandModel | runs on documents with nan or with weights that sum to zero (a parameter); supercells that are not three rows of three numbers; PyYAML, printed times, the bytes of h5py and what lies behind the end of an array are parameters |
| qha/commands/cmd_qha.py with qha/qha.py and IO/qha_reader.py, composed | QhaCommandModel | runs on documents with nan, with weights that sum to zero or one energy for an equation of state, and on empty ranges (a parameter); PyYAML, polyfit, roots and the EoS fit, printed times, the shortest text of a float and the bytes of h5py are parameters; progress bars |
| eosfit/commands/cmd_eosfit.py with eosfit/eosfit.py, utils/interactive.py and IO/eos_reader.py, composed | EosCommandModel | menus and prompts (screen only); EOS.guess, scipy's ODR, click's conversions of typed numbers and np.round are parameters; the endless loop of a job called 'Unknown' is an outcome of its own; in the code set_parameters changes the guess in place, which is modelled as the state it leaves |
| harmonic/commands/cmd_export.py, qha/commands/cmd_export.py with their utils/export.py and utils/table.py, composed | ExportCommandModel | the screen is kept only as the messages echoed; h5py is a decoder from bytes to stored arrays (no groups); click's complaint about a wrong choice is a parameter; a typed line answers the last question and Abort ends the run when there are none left |
| soec/commands/cmd_export.py with soec/utils/export.py and soec/utils/table.py, composed | SoecExportModel | the screen as messages and questions; h5py is a decoder from bytes to stored matrices with a unit; the class dictionary is empty when the process starts; a typed line answers the last question and Abort ends the run when there are none left |
| harmonic/commands/cmd_inpgen.py with IO/qha_writer.py and the readers of CRYSTAL and phonopy outputs, composed | HaInpgenModel | whether Python can decode a file is a parameter, as are the YAML and XML parsers; a zero shrinking factor is not modelled; a directory in place of a second phonopy file raises before anything else; one process per command |
| qha/utils/ev_eos.py:67-156 (`EnergyEOS.fit`, `guess`), eosfit/utils/pv_eos.py:43-69 (`EOS.guess`) | GuessModel | exact reals; np.polyfit, np.roots and scipy's curve_fit are parameters; curve_fit has no contract but, in C103 and C104, that its curve goes through the points; its tolerances are not modelled |
| seismic/commands/cmd_seismic.py with seismic/seismic.py, composed, without --plot and --only-plot | SeismicCommandModel | numpy's inverse, eigh, pinv and inv are parameters, as are the line with the time, str of a float and the bytes h5py writes; files with 'nan' among their numbers are left to a parameter; the progress bar is left out; roots of negative averages and divisions by zero velocities, nan in numpy, are not modelled and excluded by the hypotheses of the theorems about the columns they enter |
| seismic/commands/cmd_export.py with seismic/utils/export.py, composed | SeismicExportModel | what h5py makes of the bytes of a file and click's complaint about a wrong choice are parameters; one process runs one export, so the dictionary of the class starts empty |

Not modelled at all: setup and documentation,
timing lines, HDF5 reader helper classes that no command uses.

## Plan per property

| id | property | what is modelled, how it is proved | files |
|----|----------|-------------------------------------|-------|
| C01 | Unit conversions are a consistent groupoid | the seven converters over the reals with their factor tables; an SI factor per unit name in a separate spec; case analysis on the unit names, field | `UnitsProps` |
| C02 | Unit names are recognised case-insensitively and everything else is rejected | the same tables; each accepted name is looked up and every other string is shown to raise; refutation: documented energy names that raise | `UnitsProps` |
| C03 | Unit conversions preserve order and differences scale linearly | a converter is multiplication by a positive factor; order and linearity follow by nra/field over every pair of names | `UnitsProps` |
| C04 | energy/volume <-> pressure conversions are mutually inverse and agree with the scalar converters | composition of a converter with its inverse call; the density helpers against the SI definition and against the general converters | `UnitsProps` |
| C05 | Which conversions leave the caller's array untouched | a heap of arrays, each converter as reads and writes on it; frame theorems by induction on the writes; refutations for the in-place helpers | `UnitsProps` |
| C06 | Chemical symbol table is a bijection | the element table as a list; exhaustive computation on the 118 numbers, lookups proved total and injective | `ChemProps` |
| C07 | Harmonic thermodynamic identity F = U - TS | the five harmonic functions and the frequency/volume/temperature loops over the reals; sums compared term by term, field on each mode | `StatMechProps` |
| C08 | Heat capacity and entropy are the temperature derivatives of the returned energies | is_derive of each single-mode function, then of the finite weighted sums | `StatMechProps` |
| C09 | Physical bounds of harmonic functions | single-mode bounds by exp and ln inequalities, lifted to weighted sums with non-negative weights | `StatMechProps` |
| C10 | Zero temperature is the continuous limit | epsilon-delta limit at 0+ of each single-mode function bounded by c*T, then of the finite sums | `StatMechProps` |
| C11 | Monotonicity in temperature | sign of the derivatives of C08 and the mean value theorem, lifted to the weighted sums | `StatMechProps` |
| C12 | Imaginary and zero-frequency modes are inert | a frequency at or below zero contributes 0 in each of the five functions; sums compared term by term, appended modes split off | `StatMechProps` |
| C13 | Parallel band sums are independent of thread schedule and linear in the weights | prange as an arbitrary interleaving of per-row writes; disjoint rows give one final table (ParProofs); sums are linear, additive and permutation invariant; also over an abstract arithmetic | `StatMechProps` |
| C14 | Enthalpy and Gibbs energy are the Legendre shifts of U and F | the Cython enthalpy/Gibbs loops as interleaved row writes; every cell equals the textbook expression, field | `ThermoProps` |
| C15 | Adiabatic bulk modulus relations | isentropic modulus, Grueneisen and heat capacity helpers with their branches; field and sign arguments | `ThermoProps` |
| C16 | Every pressure-volume equation of state is anchored at the reference state | the five P(V) formulae and order switches; is_derive at V0 gives P(V0)=0, K0, K' (and K'' where it is a parameter) | `PvEosProps` |
| C17 | Implied higher derivatives of fitted EoS | second and third derivatives of each P(V) at V0 by is_derive; refutation for the Vinet constant by numbers | `PvEosProps` |
| C18 | Order reduction of equations of state | each lower order formula rewritten into the higher one at the implied coefficient, field and Rpower identities | `PvEosProps` |
| C19 | Energy EoS: minimum, curvature, and consistency with the reported pressure | is_derive of each E(V) form at and away from V0; refutation witnesses for the pressure method | `EvEosProps` |
| C20 | Murnaghan and Tait are invertible, P decreases with V | sign of dP/dV and the explicit inverse checked by Rpower identities | `PvEosProps` |
| C21 | Weighting scheme selected by the EoS fit | the set-up handed to ODR (weights, fixed flags, start vector) as a function of data and options; ODR itself a parameter | `EosFitProps` |
| C22 | Normalised-pressure analysis and the caller's parameter vector | the fit routine with the optimiser as a parameter; what is stored in the parameter vector and in the arrays follows for every optimiser result | `EosFitProps` |
| C23 | Polynomial interpolation evaluates the fitted polynomial | Horner loop and the fast path as functions on coefficient lists; induction on the coefficients | `PolyProps` |
| C24 | Polynomial minimiser returns only genuine minima at the target pressure | polynomial derivative, real-root filter and second derivative test; the root finder is a parameter assumed to return the roots; strictness from the derivative's sign near a simple root | `PolyProps` |
| C25 | Finite-difference derivative is exact on lines and never fails on valid grids | the one-sided and central difference branches; exactness by field for affine and quadratic data; error outcomes by case analysis on lengths | `PolyProps` |
| C26 | Crystal-system detection is total and sound | the rounded comparisons that assign a label, in source order; each label is unfolded into the equalities it checked | `SymmetryProofs`, `SymmetryProps` |
| C27 | Crystal-system detection on genuine crystal classes | for each crystal family a matrix of that family (separate spec of invariance) is run through the classifier; refutations where the label differs | `SymmetryProps` |
| C28 | Voigt <-> tensor representation is faithful | Voigt index maps and the 6x6 to 3x3x3x3 expansion; finite case analysis on the indices and sums, ring | `TensorProps` |
| C29 | Bulk, shear and Young averages | Voigt/Reuss/Hill rows of soec_obj.py as sums of Voigt entries; the order of averages by Cauchy-Schwarz for the positive definite quadratic form, Hill and the isotropic case by field | `AverageProps` |
| C30 | Direction vectors are orthonormal | the direction parametrisations by angles; sin/cos identities, half ranges reach every direction up to sign | `TensorProps` |
| C31 | Directional elastic properties: invariances | finite sums over tensor components, ring | `TensorProps` |
| C32 | Orthorhombic fast path equals the general path | E, beta, G, nu as functions of the compliance tensor and directions; compared with the strain response of a Hooke's law spec, finite sums and field | `TensorProps` |
| C33 | Mechanical-stability gate | the eigenvalue gate as written; equivalence with the all-zero spectrum, refutation by an unstable matrix | `SoecRunProps` |
| C34 | Reported extrema and anisotropy | optimiser as a parameter with the contract 'returns a minimiser'; consequences for reported extrema, anisotropy and axes | `SoecRunProps` |
| C35 | Elastic-constant file forms denote one matrix | the line reader on real text lines (digits, signs, exponents); both input layouts are written out and read back | `SoecIOProps` |
| C36 | Elastic-constant reader accepts only symmetric matrices | the reader state machine with its error messages; all exits by case analysis, asymmetry bound from the norm test | `SoecIOProps` |
| C37 | Elastic-constant writer and reader round-trip | the generated input text read by the reader model; induction over rows and fields, refutations for titles | `SoecIOProps` |
| C38 | Reader objects are isolated from one another | class-level dictionaries as an explicit state threaded through a history of readers; isolation by induction on histories where it holds, witnesses where it does not | `CrystalQhaProps`, `EosReaderProps`, `SoecIOProps`, `SoecInterfaceProps` |
| C39 | EoS data file: column order does not matter | permutation of columns; lookup lemmas | `EosReaderProps` |
| C40 | EoS data file: comments and keyword order | line-level model; refutations | `EosReaderProps` |
| C41 | QHA/HA input completeness | the checks on the parsed YAML document as a function from document to result; case analysis on keys and shapes | `QhaReaderProps` |
| C42 | QHA/HA input indexing | list, string and scalar forms of each array key; conversion lemmas and refutations for the unbracketed form | `QhaReaderProps`, `UnevenBandProps` |
| C43 | Temperature and pressure grids | numpy arange as ceil((stop-start)/step) points over the reals; archimedean ceiling lemmas | `GridProps` |
| C44 | Fine volume grid for numerical derivatives | the strain grid of the run and the volumes built on it; index arithmetic and field | `GridProps` |
| C45 | QHA report of F, U, S at each (T,P) | both interpolation schemes with fit and root finder as parameters; identities are carried through the linear fits and evaluations cell by cell | `QhaRunProps` |
| C46 | Short temperature grids | the branch on the number of temperatures; the reported tables are constants there, refutation by numbers | `QhaRunProps2` |
| C47 | Thermal expansion by forward differences | the difference loop with its last-row repeat; field and sign lemmas | `QhaRunProps2` |
| C48 | Christoffel matrix is well formed and shared by both modules | the Christoffel contraction from the 4-index tensor; finite sums, quadratic form positivity from the positive definiteness of C | `SeismicProps` |
| C49 | Analytic gradients of the Christoffel matrix | gradient and Hessian loops; is_derive of the matrix entries along each axis | `SeismicProps` |
| C50 | Group velocity projects onto phase velocity | eigenpairs as parameters satisfying the eigen equation; Euler's identity for the homogeneous matrix and Cauchy-Schwarz | `SeismicProps` |
| C51 | Lazy caches never return stale values | the object as a record of cached values with its setters and lazy getters; invariant preserved by every method call sequence | `SeismicObjProps` |
| C52 | Cartesian and spherical direction setters | normalisation, arccos and arctan2 as written; angle formulae over the reals, refutation by numbers | `SeismicObjProps` |
| C53 | Isotropic medium | eigenpairs of the Christoffel matrix of an isotropic tensor for any correct eigen-solver (contract on eigh); speeds, group velocities and enhancement computed | `SeismicIsoProps` |
| C54 | 3x3 cofactor matrix | the index arithmetic of the cofactor loop unrolled on 3x3 matrices, ring | `SeismicLinear` |
| C55 | Seismic sphere sampling | the nested loops with np.linspace as a row function; index arithmetic by div and mod | `SeismicObjProps` |
| C56 | VASP elastic tensor reordering | the OUTCAR line scan and permutation of rows and columns; list computation, refutation by a printed tensor | `SoecInterfaceProps` |
| C57 | CRYSTAL frequency parser termination | the while loop as a one-turn transition, shown equal to a recursion on the lines; stopping and endless files characterised exactly | `CrystalProps` |
| C58 | CRYSTAL elastic tensor: symmetric on first read only | history induction | `SoecInterfaceProps` |
| C59 | CRYSTAL QHA output: pairing of volumes, cells, energies and frequencies | whole load function over the list of lines; permutation lemma for the sorting by volume under separation of volumes | `CrystalQhaProps` |
| C60 | QHA input generation and its round trip through the QHA reader | writer text as list of lines with exact decimal formatting; a small YAML reader (`YamlSpec`) as specification of what PyYAML does with those lines; round trip by parsing lemmas | `QhaWriterProps` |
| C61 | Messages and log file | commands as state transformers over (file system, screen); quiet and verbose runs compared step by step | `CliProps` |
| C62 | Result, log and input files of a command | os.path.splitext transcribed, path arithmetic; file-system frame theorem for the whole command | `CliProps` |
| C63 | Exported tables of (quasi-)harmonic results | table text as lines; centred fields parsed back with the Decimal lemmas; widths from digit counts of rounded numbers | `TableProps` |
| C64 | Interactive EoS session | state machine over an arbitrary stream of answers; invariants by induction | `EosFitProps` |
| C65 | Start values across a history of interactive fits | history of fits in one session, in-place edits of the shared parameter vector; closed form of start values | `EosFitProps` |
| C66 | Quality figure of the polynomial fits | coefficient of determination as sums; least squares characterisation of the fitted residual | `PolyProps` |
| C67 | Sections of the elastic report | list of printed sections as a function of the options and density | `SoecRunProps` |
| C68 | Polar cuts of elastic properties | sampled angles and the rows of the polar tables as functions; closedness and coverage of the curve | `SoecRunProps` |
| C69 | Equilibrium volume and bulk modulus of a quasi-harmonic run | contracts on polyfit (least squares), roots (sound and complete) and eos_fit; equilibrium condition P = -dF/dV and KT = V d2F/dV2 of the fitted curve | `QhaEqProps` |
| C70 | Derived thermodynamic columns of a quasi-harmonic run | algebra of the finalize step in SI units | `QhaRunProps2` |
| C71 | Columns of the harmonic table | harmonic table entries in terms of mode sums | `QhaEqProps` |
| C72 | Harmonic results do not depend on the units of the input | homogeneity of conversions; two runs with equivalent inputs in different units compared | `QhaEqProps` |
| C73 | A run in offered units completes | no raise path reachable when units are offered ones and the fitted minima exist | `QhaEqProps` |
| C74 | Group velocity, Hessian and ray Jacobian are exact derivatives | implicit differentiation of eigenpairs along any differentiable path of directions (Coquelicot is_derive), Moore-Penrose contract on pinv | `SeismicDerivProps` |
| C75 | CRYSTAL phonon output: cell, volume and energy belong together | 3x3 real algebra on parsed cells; necessary and sufficient condition for the reported lattice to be right | `CrystalCellProps` |
| C76 | Temperature and pressure ranges in double precision | Flocq FLT(53) rounding error bounds on the arange formula; witnesses computed exactly | `GridFloatProps` |
| C77 | Polar tables exported from elastic result files | text model of the table split into fields; dictionary of the exporters computed symbolically over any history of loaded result files | `SoecTableProps` |
| C78 | Tables exported from seismic result files | text model of the exported file, composed with the C55 rows of the sphere loop and the C35 reader | `SeismicTableProps` |
| C79 | Acoustic branches of the Kieffer model | change of variables x = xi sin(pi t/2) turns the improper integrals into means over a sphere (Coquelicot RInt), then bounds of the integrand; integrator as contract with a satisfying instance | `KiefferProps` |
| C80 | Phonopy calculations become quasi-harmonic inputs | reader as a function of the parsed documents; a mesh document in the sense of a small specification is decoded exactly, and the result is composed with the generator and the quasi-harmonic reader of C60 and C41 | `PhonopyProps` |
| C81 | Where quasi-harmonic numbers come from | inversion of the run and of the harmonic run on the same input; least-squares polynomials are unique and reproduce polynomials (normal equations), so each column is tied to the harmonic table; the EoS fitter and the root finder are contracts with satisfying instances | `QhaFitProps` |
| C82 | The elastic input generator hands over what the ab initio output prints | Command in the world of CliModel; composition of C58, C56 and C37. | `SoecInpgenProps` |
| C83 | The harmonic tables are accurate in double precision | C doubles as finite/infinite/NaN with Flocq rounding; every operation bounded through exact real bounds; two regimes (x below and above 300); induction over the sum; a correctly rounded library is shown to satisfy the hypotheses. | `HoFloatProps` |
| C84 | The figures of a seismic run show each value at its own direction | the plotter as a script of messages and saved drawings; per-node statements from lemmas on row-major reshaping, first extreme values and the mesh; the projections by trigonometry and derivatives (Coquelicot); opposite directions by evenness of the Christoffel matrix and oddness of its gradient | `SeismicFigureProps`, `SeismicPlotProps` |
| C85 | A mistyped command is never run and the right one is suggested | difflib transcribed (validated outside against Python on random words); invariant of the dynamic programming rows gives that blocks are common and the first one is longest; a common subsequence of the matched size makes the quick ratios redundant; sortedness of the three best; the one-character mistakes are enumerated in the kernel | `CommandProps` |
| C86 | The polar figures of elastic constants show each value along its own direction | association lists give the saved figures; the tables of C77 give every point; maximum of a list attained and an upper bound; positivity of E and G from C31; a completed square shows the counterexample stable | `PolarPlotProps` |
| C87 | The elastic report says the computed values in their places | reading of a line as words between blanks commutes with padding, centring and joining; parsing of printed decimals from C60; averages from C29, extremes from C34 and the half ranges of C30 | `SoecReportProps` |
| C88 | The report of a (quasi-)harmonic run says the computed values in their places | words of a line as in C87; the value(error) notation by the size of the error against powers of ten; np.gradient as slope of the parabola through neighbours; pressures from C19, R^2 from C66, Cp-Cv from C70 | `QhaConciseProps`, `QhaReportProps`, `QhaReportProps2` |
| C89 | The equation of state report says the measured and fitted values in their places | The lines are read back as words and numbers (ReportSpec) and compared with the columns of the data, of the file (through C39) and of scipy's output; the marks are compared with independence of the fitted curve, by rewriting in one direction and by concrete pairs of parameters with different pressures in the other (EosReportProps, EosImpliedProps). | `EosImpliedProps`, `EosReportProps` |
| C90 | Result files read and exported through the general HDF5 reader | lookup lemmas for the reader; `by_name` is a sorted permutation; texts are cut into lines to show which marks they contain; the dialogue is induction over the typed lines with a stage, compared with an inductive description of what a user types; tables reuse the lemmas of C63 | `H5ExportProps`, `H5Props` |
| C91 | Unit conversions in double precision | a relation `tracks` between a double and an exact number (relative error in units of roundoff, size as a power of two) is pushed through each product and quotient; temperatures use the same with absolute errors; order, sign and NaN by composing the shapes of the single operations; the deviations by exact rounding of concrete doubles | `UnitsFloatProps` |
| C92 | Enthalpy, Gibbs energy, adiabatic modulus and Grueneisen parameter in double precision | the relation `tracks` of C91 pushed through the products and quotients; order and sign by induction-free case analysis over finite, infinite and NaN operands and monotonicity of rounding; arrays by the interleaving semantics of C14 | `ThermoFloatProps` |
| C93 | The log file of a run holds exactly what was said, in order | a judgement `adds` (a program ends with a result after adding these messages to the log and changing nothing else) proved for each printing function and composed along the command; the references by computing on the printed texts | `CreditsProps`, `RunLogProps` |
| C94 | quantas soec FILE end to end: from the text of the file to the log and the result file | composition: the reader (C35, C36), the crystal system (C26), the run log (C93), the report sections (C87) and the polar tables (C68) put together; SOECOrtho equals SOEC on the pruned compliances (C32); the inverse of an uncoupled matrix is uncoupled | `SoecCommandProps` |
| C95 | quantas ha FILE end to end: from the text of the file to the log and the result file | composition: the reader (C41, C42), the range (C43), the sums over the oscillators in units (C71), the report (C88), the stored file (C90), the run log (C93) and, for files written by inpgen, the YAML round trip (C60) | `HaCommandProps`, `UnevenBandProps` |
| C96 | quantas qha FILE end to end: from the text of the file to the log and the result file | composition: the reader (C41, C42), the ranges (C43), the isotherms as sums over the oscillators of the document (C71), the minimisation and the fitted columns (C45-C47, C69, C70, C81), completion (C73), the report (C88), the stored file (C90) and the run log (C93); the hypotheses are stated on the document, not on the intermediate arrays | `QhaCommandProps`, `QhaCommandProps2`, `UnevenBandProps` |
| C97 | quantas eosfit FILE end to end: from the text of the file and the answers of the user to the log | composition of the reader (C39, C40), the dialogue as a transition system over typed lines (C64), the fit (C21, C22), the report (C89) and the run log (C93); the user's wishes and what is typed for them are specified without the dialogue states; for arbitrary answers, induction over the typed lines with the invariant of C64 | `EosCommandProps2`, `EosCommandProps3` |
| C98 | quantas export ha|qha FILE end to end: from the result file and the answers of the user to the tables on disk | the dialogue as a transition system over typed lines, composed with the table writer (C62, C63), the stored arrays (C90) and the runs of C95 and C96; requests and what is typed for them are specified without the dialogue states; for arbitrary answers, induction over the typed lines collecting the files changed | `ExportCommandProps2`, `ExportCommandProps3`, `ExportScreenProps` |
| C99 | quantas export soec FILE end to end: from the result file and the answers of the user to the polar tables on disk | the dialogue as a transition system over typed lines and the local variables that survive from one table to the next; the arrays of a property are found by uniqueness of a sorted list of names; composed with the table writer (C77), the polar rows (C68) and the elastic command (C94); the perpendicular directions of a line are shown to be exactly those the optimizer scans | `SoecExportProps`, `SoecExportProps2`, `SoecExportProps3` |
| C100 | quantas inpgen ha FILE end to end: from the outputs of CRYSTAL or phonopy on disk to the input file, and on to the results of quantas ha | what an output prints is said about the words of its lines (CrystalOutputSpec), and reading such a text is proved forward through the reader model (C57, C75); the writer on values that may be NaN is shown to agree with the writer of C60 on numbers, whose text parses back; the command is run as a state monad that may not end; composed with quantas ha (C95) | `HaInpgenOtherProps`, `HaInpgenProps` |
| C101 | The chains of commands: quantas inpgen ha then quantas qha, and quantas inpgen soec then quantas soec, from the outputs of the ab initio code to the results | the end state of the first command is shown to meet the hypotheses of the end-to-end theorem of the second (C97, C94): the text written parses back as the values rounded (C60, C37), distinct volumes stay distinct under rounding, the paths cannot coincide; the Voigt averages are linear in the moduli, and the energy of a strain moves by at most 3e-4 of its length squared | `ChainProps`, `ElasticChainProps` |
| C102 | The starting values of the fits are the state they claim to estimate | the quartic is the unique least-squares fit; real coefficients agree with the function, so complex roots do; np.argmin gives the first smallest modulus; covariance by mapping the stationary points; interpolation for four points; a concrete quartic for the refutation | `GuessProps` |
| C103 | Energies at enough volumes determine the parameters of an equation of state | Birch-Murnaghan and Poirier-Tarantola are cubics with a minimum in V^(-2/3) and ln V; Murnaghan and Vinet by counting zeros of derivatives (Rolle) of the difference | `EvIdentProps` |
| C104 | The volume found by fitting an equation of state to F + PV | the shifted parameters are computed and shown to give the same curve, C103 makes them the only ones, C19 gives the minimum; composed with C96 for the command; a least-squares curve has distance zero when some curve has; for the other forms Rolle's theorem on the difference, four to six times | `EvCommandProps`, `EvPressureProps` |
| C105 | Pressures at enough volumes determine the fitted parameters, except at fourth order | Birch-Murnaghan and natural strain are polynomials in V^(-2/3) and ln V with a marked root, Murnaghan, Vinet and Tait by counting zeros of derivatives (Rolle); C16 and the uniqueness of reference states give K', K''; the counterexample has three positive roots and is written down | `PvIdentProps` |
| C106 | The seismic command turns a file of elastic moduli into the waves of the crystal on a half sphere | the calculator is put into the model of the commands (C93) and of the run (C55, C78); at each node C48, C50 and C53 give the waves, the spectral form of the Christoffel matrix the sign of an unstable one | `SeismicCommandProps` |
| C107 | quantas export seismic FILE end to end: from the result file and the answers of the user to the tables of waves on disk | the dialogue is a function of the lines typed; induction over them with the question last asked as state, for the expected answers (the sessions of C98) and for any; the tables are those of C78, the numbers those of C106 | `SeismicExportProps`, `SeismicExportProps2` |
| C108 | From the output of CRYSTAL or VASP to the tables of seismic waves: inpgen soec, seismic, export seismic in a row | the models of C58/C56, C101, C106 and C107 composed; the comparison of velocities is a minimax argument (WaveCompareProofs): the three waves diagonalise the energy of a displacement, close moduli give close energies, and a unit vector orthogonal to one wave of each crystal compares the middle ones | `SeismicChainProps` |
| C109 | What the four decimals of an elastic input file cost: every modulus derived from the file stays within a fixed ratio of the printed crystal's | the averages and directional moduli are energies of fixed strains in the stiffness, or inverses of energies of fixed stresses in the compliance; close stiffnesses bound each other by a ratio, and so do their inverses (completing the square); waves by comparing ordered energies (minimax, as in C108); composed with C101 for the report | `ElasticRoundProps` |


## Findings

Behaviour a user would not expect, each backed by a theorem (`_refuted` or the exact statement) of the area.

Units and equations of state
* Names documented for energy ("hartree") are refused (C02); in-place conversions change the caller's array even when the call fails (C05).
* Vinet: the implied K'' uses 19/46 where the curve has 19/36 (C17). `ev_eos.pressure` is not -dE/dV for Birch-Murnaghan and Poirier-Tarantola (C19). Tait at order 3 uses K'' = -K'/K0 (C18).
* `EOS.check` tests the volume uncertainties twice, pressure uncertainties never select the weighting (C21). Normalisation overwrites the caller's array for order 2 linear fits (C22). Each linear fit triples the user's start values in place (C65). Interactive fits leave implied parameters free (C65).

Polynomials
* The minimiser takes the smallest-volume minimum, not the lowest F + PV (C24). R^2 of constant rows is reported 0 ("BAD") or 0/0 (C66). The derivative helper raises for single points or mismatched arrays (C25).

Symmetry and elasticity
* Negative labels are never tested, tetragonal_high is never returned (4/mmm is called trigonal_high), 32/3m/-3m are called trigonal_low, hexagonal accepts any C14/C15/C25, unsymmetric matrices end in UnboundLocalError (C26, C27).
* The orthorhombic fast path drops couplings up to the tolerance (C32). The stability gate `any(eigv) <= 0` is dead code (C33). For shear and Poisson extrema both printed axes are the perpendicular vector (C34). The average velocity section is printed with nan without density (C67). Polar cuts step by 360/359 degrees (C68).
* The elastic reader refuses the documented lower triangular form when |C11| > 1e-3; an untitled matrix with a signed first entry loses its first row to the title; a title starting with a digit is parsed as a row; blank first line and more than 12 columns raise IndexError; NaN is accepted; density and title survive into the next reader (C35-C38).

EoS data files
* Data and format are class attributes; the first title is never replaced; aliases sigp/sigv are dropped; a missing p column is a KeyError; a title starting with a keyword is obeyed; the title "Unknown" loops for ever; a blank line before the title raises IndexError (C38-C40).

Quasi-harmonic input and runs
* An empty YAML document neither completes nor errors; a plain sentence containing volume, energy and phonon is accepted; unbracketed numbers are read as their first character; missing q-points become zero frequencies; a scalar volume raises TypeError (C41, C42).
* Ranges contain a point beyond the maximum when the range is no multiple of the step; step 0 raises ZeroDivisionError (C43). The fine grid is lopsided for even numbers of points (C44).
* The Kieffer option always raises AttributeError; the acoustic correction would leave U unchanged while Cv, S and F change (C45). Fewer than 50 temperatures report Cp = 0 < Cv and KS = KT (C46). With five grid points a degree five fit is underdetermined: KT is still determined by symmetry, K' is not (C69). In the frequency scheme the minimised polynomial differs from the reported F.

Seismic
* Cartesian azimuth and group angles are exchanged (C52); the enhancement column is labelled log10 but holds the raw factor; one point in theta or phi raises ZeroDivisionError (C55); asking without a direction raises LinAlgError, or TypeError for grad_M (C51).

Electronic structure outputs
* VASP: C44 and C55 exchanged; a second TOTAL table is read one line early; a failed read leaves a mixture in the class; density always 0 (C56, C38).
* CRYSTAL elastic: the lower triangle accumulates over reads (C58). Phonons: endless loop when a blank line precedes the last mode (C57); unit-cell lattice computed as A E^-1 instead of E^-1 A; SUPERCELL without SCELPHONO always raises TypeError; completed with fewer bands than q points (C75). QHA: close volumes shift cells silently; more than 100 volumes are cut; missing cells are called complete; supercell matrix and weights survive into the next reader (C59, C38).

Input generation
* A reference one past the end (or below -n) crashes with IndexError, other negatives are accepted; a second generator of the process writes the outputs of the first too; files read before a failed one stay; a blank line in the list fails; a missing band is a KeyError; empty or integer descriptions break the reader, descriptions with ": " make the file unreadable; fractional weights are truncated (C60). Existing inputs are overwritten without question.

Commands and exports
* "Results not saved" is said even in quiet mode; the failed-read banner and questions are not logged; an existing log-named file is replaced without question; `-o name` with input name.txt empties the input before reading it; `eosfit -o` always raises UnboundLocalError; eosfit on a \*.log input empties it; names with only dots after the last slash give a log called name.hdf5.txt (C61, C62).
* Static energies of a harmonic run, and zero-point energies with two or more temperatures, cannot be exported; Cp and Cp-Cv carry the energy unit although they are in thousandths of it like Cv; an exporter uses the data of the last exporter that loaded; a typed replacement name is overwritten unasked (C63). The job name stored by a QHA run is always "Unknown" (the reader has `jobname`, the calculator looks for `job`; not a theorem).
- `--temperature 298.15 298.15 0.1` is computed at two temperatures, 298.15 and 298.25, because of rounding in the count of points (C76).
- An elastic run without `--polar` stores tables of zeros, which are offered and exported as results, velocities included (C77).
- The compliance matrix of an elastic result file is labelled TPa^-1 but holds GPa^-1 values, a factor of 1000 (C77).
- `quantas seismic` accepts a negative density (C78).
- The enhancement factor of seismic tables is labelled log_10A but stored without logarithm; the density line of the heading shows the unit only (C78).
- The acoustic entropy of the Kieffer class squares e^x - 1 in its first term and stops at 0.999 of the cut-off: it does not belong to the free energy of the same class and grows like T (C79). The harmonic and quasi-harmonic runs never get that far: the option stops them with AttributeError (C45).
- The phonopy reader takes energy 0 without warning when the XML file is absent; ends in UnboundLocalError for a file that is not YAML (the variable bound by `except ... as` is returned after its deletion); gives a negative volume for left-handed lattice vectors; and stores fractional coordinates in an integer array, so every atom sits at the origin (C80).
- With polynomial minimisation and energies fitted by parabolas (degree 2) the thermodynamic scheme reports K' = -1 for every material, temperature and pressure (C81).
- `inpgen soec` replaces an existing file without asking, even the ab initio output itself when `-o` names it; a blank description is accepted and gives a file the elastic reader ends on with IndexError; inputs from VASP always have density 0 (C82).
- A positive frequency below about 2^-56 thermal energies (1e-4 Hz at 300 K: an acoustic mode that is zero up to rounding) makes the free energy -inf and the entropy +inf, because 1 - exp(-x) is used instead of -expm1(-x); a temperature so low that KB*T underflows gives free energy 0 instead of the zero-point energy (C83).
- The arrows of the "polarization" figure are the x and y components of the ray (columns 10, 11 instead of 5, 6); for a shear wave of an isotropic crystal they are at a right angle to the polarization. Ratios and polarization are drawn although 2D plots are switched off, and raise NameError when only plotly is installed. `--only-plot` without `-p`, `-p` when the result file is not overwritten, and a run without plots after one with plots in the same process (the flag is an attribute of the class) end in AttributeError. The ratio figure has no projection in its name (C84).
- `quantas/core/plotter.py`, imported by the seismic plotter, does not exist at this commit.
- The tutorial's `quantas seismic` and `quantas export seismic` are not registered (the seismic commands exist but are not added to the groups); the message suggests `soec`. Names in capitals get no suggestion (C85).
- The outer limit of the polar figures is computed from one column: for a stable crystal with negative linear compressibility in a plane the limit can be 0 with the negative curve everywhere outside, and for an auxetic crystal the limit of the Poisson's ratio is negative. The label v_s1 is the slow shear wave in the elastic figures, the fast one in the seismic figures. `-p` without `--polar` is silently ignored (C86).
- In the table of shear modulus and Poisson's ratio the lines *1st Axis* and *2nd Axis* print the same vector, so they are never the perpendicular pair of the extreme value. Without a density the report prints `nan km/s` for both average velocities (C87).
- The notation value(error) of the fitted parameters loses a zero at the end of the value: 37.10 ± 0.02 is printed `37.1(2)` and read as ± 0.2; an error between 9.5 and 10 is printed as 1 (37 ± 9.7 as `40(1)`); an undetermined error (nan) stops the run with ValueError (C88).
- The input table of a QHA run with Birch-Murnaghan or Poirier-Tarantola shows pressures that are not minus the derivative of the fitted energy (from the defect of C19); a mode with a constant frequency is declared `BAD!` with R^2 = 0; the column of volumes is named `V(T) (A^3)` also for volumes in bohr (C88).
- C89: in the table "Calculated data" of an EoS fit the column `P_obs (GPa)` holds scipy's `y`, the fitted pressure; the observed pressures are in the column `Pressure (GPa)` before it (`C89_observed_refuted`).
- C89: a parameter marked `[IMPLIED]` is printed with the value it had in scipy's result. The fitted curve does not depend on it (`C89_marks`), so it keeps the value implied by the *start* values; the K'' printed is not the one implied by the fitted K0 and K' (`C89_implied_value_refuted`).
- C89: when the reader has kept a column of a shorter file read before (C38), the report of the input ends with an IndexError (`C89_leftover_refuted`). The line about missing weights says "for for".
- C90: `QuantasHDF5Reader.get_attribute` tests `not self.__has_dataset(key)` although the answer is a non-empty text, so a missing dataset or attribute is a KeyError; for the same reason `QuantasHDF5Export.run` never shows its "Error:" message and dies with a KeyError (hdf5_reader.py:73-75, hdf5_export.py:45).
- C90: with h5py 3 an index out of range is an IndexError which `get_data_row`/`get_data_column` do not catch (they catch ValueError).
- C90: hdf5_export.py:253 takes 'Volumetric coefficient of thermal expansion' for a volume, so thermal expansions are exported with 8 decimals; anything below 5e-9 becomes zero.
- C90: qha.py:1247 asks for `input.job`, which the reader does not have (`jobname`): the file always says "Job: Unknown".
- C90: hdf5_export.py:81-90 looks for (HA)/(QHA) in the whole text including the job name; a harmonic job called "... (QHA)" cannot be exported.
- C91: every converter goes through an internal scale, also when both names are the same; 0.1 C converted to C becomes 0.10000000000002274 C, 0.7000000000000001 kbar becomes 0.7 kbar.
- C92: gruneisen_parameter and adiabatic_bulk_modulus test Cv == 0 but divide by Cv/NA; a nonzero Cv below 2^-1022 makes Cv/NA zero, and without expansion both become NaN (0/0) instead of 0 and KT.
- C93: `quantas ha` prints the reference of the quasi-harmonic calculator (there is no separate one).
- C94: SOECOrtho replaces SOEC whenever the couplings are below 0.001 GPa, so the directional tables are those of compliances without couplings; an unstable crystal goes through the command like a stable one.
- C95: with more energies than volumes, internal_energy and free_energy (compiled without bounds checks, looping over the energies) read behind the end of their arrays and the surplus columns are saved; fewer energies, a scalar volume or unannounced q-points end in IndexError, an empty document in AttributeError, a zero step in ZeroDivisionError, all without a message in the log.
- C96: --acoustic ends every run of quantas qha in AttributeError; one temperature and pressure at which F+PV has no minimum ends the whole run in IndexError without a result; with fewer than 50 temperatures the file holds zeros for the expansion and isobaric columns (with a warning in the log only).
- C97: -o ends every run of quantas eosfit in UnboundLocalError; an input file without a pressure column ends it in KeyError rather than the message written for it, a row with a missing or unreadable number in IndexError or ValueError.
- C98: a file name typed in the export dialogue is not checked, so the user can overwrite the result file they are exporting from; the static energies of a harmonic result (U0, a vector) are offered in the menu but end the command with IndexError and leave a broken-off table; an array without a 'unit' attribute ends it with KeyError; the exporter of quasi-harmonic results calls a foreign file 'not a Quantas HA output file'.
- C99: the exporter of elastic results keeps the angles, numbers and unit of the previous table in local variables, so a property without arrays in the file is exported with the numbers of the property before it (or ends with UnboundLocalError when it is the first); without --polar every property is offered and exported as one line of zeros.
- C95, C96: a band with fewer or more frequencies than volumes is not refused: the run reports its input, announces the calculation and ends with ValueError.
- C100: quantas inpgen ha replaces an existing OUTFILE.yaml without asking; a reference equal to the number of files passes the check and ends in IndexError after the user typed the description; a negative reference is used but not announced; a binary file among the outputs is reported under the name of the list; a directory among them is an exception; an output whose frequency table ends early makes the command run forever.
- C101: the exchange of the yz and zx shears (C56) survives the whole chain from a VASP output to the saved results; a crystal whose softest strain is below the four decimals written becomes singular in the generated file.
- C102: the starting value of the E(V) fit is the stationary point nearest zero, which may be a maximum outside of the volumes (negative K0), not the minimum of the data; for axes the starting modulus is three times too large (`p0[0]*3` on a value that is already -l dP/dl).
- C104: with `--minim eos` and Birch-Murnaghan, Poirier-Tarantola or Vinet, F + PV at P other than 0 is not a curve of the formulation fitted: the fit under pressure always leaves residuals, even for exact data; only Murnaghan is closed under adding PV.
- C105: the parameters of a fourth-order Birch-Murnaghan or natural strain fit are not determined by the data, even without error: a second set with another V0 and K0 can give the same curve; which one is reported depends on the starting values.
- C106: `quantas seismic --nphi 720` with another ntheta than 180 uses 4 ntheta azimuths: an explicit 720 is taken for the default. One angular point raises ZeroDivisionError after the log was started, none saves empty tables. An unstable crystal is analysed without a warning, with negative velocities in the result file.
- C107: `quantas export seismic` keeps the array of the last table when the file has no dataset of the name chosen, and writes it under the heading of the wave chosen; as the first choice it raises UnboundLocalError. Rows of fewer than fourteen numbers leave a table which stops in the middle.
- C108: no table of seismic waves can be made from an output of VASP without editing the generated file: `quantas inpgen soec` writes the density as 0.0 without a remark, and `quantas seismic` refuses it.
- C109: the elastic input file keeps four decimals of moduli in GPa whatever their size, so a crystal with moduli of 1.5e-4 GPa loses a third of them without a remark.
