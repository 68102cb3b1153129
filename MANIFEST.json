{
 "claims": [
  {
   "property": "C01",
   "status": "proved",
   "theorems": [
    "C01_check_length_dict",
    "C01_equal_lengths",
    "C01_accepts_fitting"
   ],
   "note": "Complete characterisation of success and refusal."
  },
  {
   "property": "C02",
   "status": "proved",
   "theorems": [
    "C02_set_defaults",
    "C02_set_defaults_idempotent",
    "C02_set_defaults_refusal"
   ],
   "note": ""
  },
  {
   "property": "C03",
   "status": "proved",
   "theorems": [
    "C03_central_difference_exact",
    "C03_step_nonzero",
    "C03_difference_quotient"
   ],
   "note": "Exact real arithmetic; see C63 for the binary64 failure at negative points."
  },
  {
   "property": "C04",
   "status": "partial",
   "theorems": [
    "C04_unknown_method",
    "C04_method_honoured_partial",
    "C04_listed_method_runs",
    "C04_bracket_ends",
    "C04_user_options_win",
    "C04_listed_method_refuted",
    "C04_default_bounds_refuted",
    "C04_default_bounds_error",
    "C04_several_bounds",
    "C04_bracket_options",
    "C04_scalar_bounds_dropped_refuted",
    "C04_documented_brent_refuted"
   ],
   "note": "Full statement refuted: hybr_broyden1/2 are accepted and then crash, bounds=None (the default) always crashes, scalar bounds are dropped for TNC/L-BFGS-B/SLSQP, the documented name brent is refused. Proved: everything else about the dispatch."
  },
  {
   "property": "C63",
   "status": "partial",
   "theorems": [
    "C63_negative_point_refuted"
   ],
   "note": "Refuted by a binary64 witness."
  },
  {
   "property": "C05",
   "status": "partial",
   "theorems": [
    "C05_pool_equals_serial",
    "C05_pool_raises_iff_serial",
    "C05_core_count",
    "C05_stateful_job_refuted"
   ],
   "note": "Proved for jobs whose result does not depend on process state; refuted for jobs that warm-start from module globals."
  },
  {
   "property": "C06",
   "status": "partial",
   "theorems": [
    "C06_logs_consolidated_partial",
    "C06_no_line_lost_while_running",
    "C06_logs_lost_on_error_refuted"
   ],
   "note": "Proved when the last Pool.map returns; refuted when it raises (the consolidation is skipped and the files are deleted)."
  },
  {
   "property": "C07",
   "status": "proved",
   "theorems": [
    "C07_one_destination",
    "C07_eos_arguments",
    "C07_libraries",
    "C07_calculation_arguments",
    "C07_fitting_arguments",
    "C07_data_set",
    "C07_same_name_lost"
   ],
   "note": "For every input file, file reader and bead parser."
  },
  {
   "property": "C08",
   "status": "partial",
   "theorems": [
    "C08_bead_matrix_partial",
    "C08_repeated_bead_refuted"
   ],
   "note": "Proved when no component lists a bead twice; refuted otherwise (the last count wins instead of the sum)."
  },
  {
   "property": "C09",
   "status": "partial",
   "theorems": [
    "C09_own_columns_partial",
    "C09_mole_fractions_partial",
    "C09_single_row_refuted",
    "C09_foreign_column_refuted"
   ],
   "note": "Proved for files with other than one data row; refuted for one row and for columns that begin with x, y or z without being mole fractions."
  },
  {
   "property": "C10",
   "status": "partial",
   "theorems": [
    "C10_parameters_saved",
    "C10_insertion_order_partial",
    "C10_bead_order_refuted",
    "C10_case_collision_refuted"
   ],
   "note": "Nothing lost, parameters sorted: proved. Independence of insertion order refuted for the bead order and for names that differ only by case."
  },
  {
   "property": "C11",
   "status": "proved",
   "theorems": [
    "C11_result_table",
    "C11_ragged_refused"
   ],
   "note": ""
  },
  {
   "property": "C64",
   "status": "partial",
   "theorems": [
    "C64_missing_names_partial",
    "C64_no_data_refuted"
   ],
   "note": "Refuted for inputs without a data set."
  },
  {
   "property": "C65",
   "status": "partial",
   "theorems": [
    "C65_calculation_type_missing_refuted"
   ],
   "note": "Refuted: the line is the same for every calculation type."
  },
  {
   "property": "C66",
   "status": "proved",
   "theorems": [
    "C66_fit_report",
    "C66_fit_report_short"
   ],
   "note": ""
  },
  {
   "property": "C12",
   "status": "partial",
   "theorems": [
    "C12_symmetric",
    "C12_mean",
    "C12_geometric_mean",
    "C12_weighted_mean",
    "C12_mie_exponent",
    "C12_volumetric_geometric_mean",
    "C12_square_well_berthelot",
    "C12_single_output",
    "C12_small_exponent_refuted"
   ],
   "note": "All rules for parameters in their domain; Mie exponents below 3 (which the rule accepts) break the bounds: C12_small_exponent_refuted."
  },
  {
   "property": "C13",
   "status": "partial",
   "theorems": [
    "C13_symmetric",
    "C13_values_partial",
    "C13_multi_output_refuted"
   ],
   "note": "Proved for rules with one output; a rule with several outputs (multipole) overwrites a user value: refuted."
  },
  {
   "property": "C14",
   "status": "partial",
   "theorems": [
    "C14_defaults_filled",
    "C14_complete_library_kept",
    "C14_caller_library_changed_refuted"
   ],
   "note": "The caller's library is changed in place: refuted."
  },
  {
   "property": "C15",
   "status": "proved",
   "theorems": [
    "C15_insignificant_removed"
   ],
   "note": ""
  },
  {
   "property": "C16",
   "status": "partial",
   "theorems": [
    "C16_backend_partial",
    "C16_none_refused",
    "C16_cython_refuted",
    "C16_import_refuted"
   ],
   "note": "Cython request refuted: the import test is inverted."
  },
  {
   "property": "C18",
   "status": "proved",
   "theorems": [
    "C18_bounds_clipped",
    "C18_saft_bounds_clipped",
    "C18_nan_bound_passes"
   ],
   "note": ""
  },
  {
   "property": "C19",
   "status": "partial",
   "theorems": [
    "C19_history_partial",
    "C19_refusals",
    "C19_saft_sites",
    "C19_both_orders_refuted",
    "C19_unknown_parameter_refuted"
   ],
   "note": "Refuted when the cross library already lists the pair in both orders."
  },
  {
   "property": "C67",
   "status": "partial",
   "theorems": [
    "C67_multipole_temperature_refuted"
   ],
   "note": "Refuted."
  },
  {
   "property": "C68",
   "status": "proved",
   "theorems": [
    "C68_difference_quotient",
    "C68_error_bound"
   ],
   "note": ""
  },
  {
   "property": "C69",
   "status": "proved",
   "theorems": [
    "C69_component_masses",
    "C69_extract_property"
   ],
   "note": ""
  },
  {
   "property": "C62",
   "status": "partial",
   "theorems": [
    "C62_handlers_partial",
    "C62_files",
    "C62_console_lost_refuted",
    "C62_log_file_off_refuted",
    "C62_name_confusion_refuted"
   ],
   "note": "At most one handler per kind and presence characterised for every history; the stated rule is refuted for a call that omits console and for log_file=False."
  },
  {
   "property": "C70",
   "status": "partial",
   "theorems": [
    "C70_verbosity_partial",
    "C70_verbosity_refuted",
    "C70_numba_switch_refuted"
   ],
   "note": "Refuted for one -v and for --numba."
  },
  {
   "property": "C20",
   "status": "proved",
   "theorems": [
    "C20_pressure_limits"
   ],
   "note": "Exact real arithmetic."
  },
  {
   "property": "C21",
   "status": "partial",
   "theorems": [
    "C21_relabelling_partial",
    "C21_both_orders_refuted"
   ],
   "note": "Proved when the cross library stores each pair in one order; refuted when both orders are stored with different values."
  },
  {
   "property": "C22",
   "status": "proved",
   "theorems": [
    "C22_absent_component"
   ],
   "note": ""
  },
  {
   "property": "C23",
   "status": "proved",
   "theorems": [
    "C23_consistent"
   ],
   "note": "For every number of components, at positive pressure."
  },
  {
   "property": "C24",
   "status": "partial",
   "theorems": [
    "C24_refresh_equals_fresh_partial",
    "C24_omega_refuted",
    "C24_shared_library_refuted"
   ],
   "note": "Proved for histories that do not update omega; refuted for omega (stale kappa) and for a library used to build two objects."
  },
  {
   "property": "C27",
   "status": "proved",
   "theorems": [
    "C27_segment_fractions"
   ],
   "note": ""
  },
  {
   "property": "C30",
   "status": "proved",
   "theorems": [
    "C30_compressibility"
   ],
   "note": ""
  },
  {
   "property": "C37",
   "status": "partial",
   "theorems": [
    "C37_density_checked",
    "C37_rows_dropped_refuted"
   ],
   "note": "Proved for scalars and lists; of a two-dimensional array only the first row is validated and used: refuted."
  },
  {
   "property": "C71",
   "status": "proved",
   "theorems": [
    "C71_diameter",
    "C71_tables"
   ],
   "note": "For the quadrature the code uses, exact real arithmetic."
  },
  {
   "property": "C25",
   "status": "partial",
   "theorems": [
    "C25_square_well_partial",
    "C25_mie_partial",
    "C25_mie_refuted"
   ],
   "note": "Proved for the square-well variant, and for the Mie variant at temperatures other than the one stored at the refresh. Refuted for the Mie variant at that temperature: the hard-sphere diameters are stale. Association has its own claims (C77, C89)."
  },
  {
   "property": "C26",
   "status": "proved",
   "theorems": [
    "C26_square_well",
    "C26_mie"
   ],
   "note": "Both SAFT variants, without association sites."
  },
  {
   "property": "C28",
   "status": "proved",
   "theorems": [
    "C28_square_well",
    "C28_mie"
   ],
   "note": "Both SAFT variants."
  },
  {
   "property": "C29",
   "status": "partial",
   "theorems": [
    "C29_square_well_partial",
    "C29_mie_partial",
    "C29_mie_refuted"
   ],
   "note": "Proved for the square-well variant (the whole residual energy). Mie variant: proved for fluids of at least two components or of one diameter, refuted for a pure molecule of two group sizes."
  },
  {
   "property": "C31",
   "status": "proved",
   "theorems": [
    "C31_square_well",
    "C31_mie",
    "C31_mie_terms"
   ],
   "note": "Both SAFT variants."
  },
  {
   "property": "C33",
   "status": "proved",
   "theorems": [
    "C33_square_well",
    "C29_square_well_partial",
    "C33_mie",
    "C33_mie_absent"
   ],
   "note": "Both variants; the absent component of the square-well variant is covered by C29_square_well_partial."
  },
  {
   "property": "C72",
   "status": "partial",
   "theorems": [
    "C72_square_well_partial",
    "C72_square_well_refuted",
    "C72_mie_partial",
    "C72_mie_refuted"
   ],
   "note": "Refuted for segments of different size; proved exactly for one size and within a factor four for arithmetic-mean diameters."
  },
  {
   "property": "C32",
   "status": "proved",
   "theorems": [
    "C32_prefactor_minimum"
   ],
   "note": ""
  },
  {
   "property": "C17",
   "status": "proved",
   "theorems": [
    "C17_backends_agree"
   ],
   "note": "Over the reals; the order of floating point additions is out of scope."
  },
  {
   "property": "C34",
   "status": "proved",
   "theorems": [
    "C34_fractions",
    "C34_no_strength",
    "C34_warm_start_refuted"
   ],
   "note": "Exactly one for up to 10^20 sites. C34_warm_start_refuted: at a density without strength that follows one with some, the fractions are one only within the tolerance."
  },
  {
   "property": "C35",
   "status": "proved",
   "theorems": [
    "C35_sites",
    "C35_never_fails"
   ],
   "note": ""
  },
  {
   "property": "C36",
   "status": "proved",
   "theorems": [
    "C36_matrices",
    "C36_bonding_volume"
   ],
   "note": ""
  },
  {
   "property": "C73",
   "status": "proved",
   "theorems": [
    "C73_site_table",
    "C73_refused"
   ],
   "note": ""
  },
  {
   "property": "C74",
   "status": "partial",
   "theorems": [
    "C74_energy_used",
    "C74_later_wins",
    "C74_energy_not_used",
    "C74_lengths",
    "C74_same_refusals",
    "C74_cross_energy_partial",
    "C74_dropped_refuted",
    "C74_cross_energy_refuted",
    "C74_cross_energy_other_order",
    "C74_absent_refused"
   ],
   "note": "Refuted: an energy is dropped as soon as an earlier bead of the mixture has the second site and no energy of its own. For every library that only names sites the beads have, the theorems determine every entry of every matrix: which energies are read, which order wins, what is mixed. A library that names a site a bead lacks is refused if the name fits neither way round (the first such name of a bead, not hidden by an earlier one); which entry a name that fits the other way round sets is shown by an example only."
  },
  {
   "property": "C75",
   "status": "proved",
   "theorems": [
    "C75_self_and_mixed",
    "C75_refused"
   ],
   "note": "For an empty cross library."
  },
  {
   "property": "C76",
   "status": "proved",
   "theorems": [
    "C76_energy"
   ],
   "note": ""
  },
  {
   "property": "C77",
   "status": "partial",
   "theorems": [
    "C77_bonding_volume_partial",
    "C77_bonding_volume_refuted"
   ],
   "note": "refuted: volumes stay stale when the parameters are refreshed and the temperature does not change; proved for every other history"
  },
  {
   "property": "C38",
   "status": "proved",
   "theorems": [
    "C38_trial_composition",
    "C38_refused"
   ],
   "note": ""
  },
  {
   "property": "C39",
   "status": "proved",
   "theorems": [
    "C39_isotherm",
    "C39_spacing",
    "C39_refused",
    "C39_accepted"
   ],
   "note": "The range is extended below the minimum density, at most maxiter doublings."
  },
  {
   "property": "C40",
   "status": "partial",
   "theorems": [
    "C40_no_density_when_failed",
    "C40_three_roots",
    "C40_critical",
    "C40_one_root",
    "C40_two_roots",
    "C40_no_root_fitted",
    "C40_undefined_isotherm",
    "C40_largest_root_refuted",
    "C40_one_extremum_refuted",
    "C40_no_root_always_ideal"
   ],
   "note": "refuted: with four roots the third is taken, and one extremum can leave the flag unassigned; proved for up to three roots."
  },
  {
   "property": "C41",
   "status": "partial",
   "theorems": [
    "C41_vapor",
    "C41_liquid",
    "C41_failed_refuted",
    "C41_liquid_ideal_refuted"
   ],
   "note": "refuted: a failed density gives two undefined values whatever the number of components; the remaining clauses are proved."
  },
  {
   "property": "C45",
   "status": "proved",
   "theorems": [
    "C45_flash",
    "C45_compositions",
    "C45_not_binary"
   ],
   "note": ""
  },
  {
   "property": "C46",
   "status": "partial",
   "theorems": [
    "C46_limits_partial",
    "C46_redraw",
    "C46_undefined_refuted",
    "C46_refused"
   ],
   "note": "refuted: a redraw can return an undefined K value; proved for K values that are kept and for defined ones."
  },
  {
   "property": "C47",
   "status": "proved",
   "theorems": [
    "C47_labels"
   ],
   "note": ""
  },
  {
   "property": "C78",
   "status": "partial",
   "theorems": [
    "C78_sum_check_refuted"
   ],
   "note": "refuted in binary64: the check depends on rounding and on the order of the components"
  },
  {
   "property": "C42",
   "status": "partial",
   "theorems": [
    "C42_dew_partial",
    "C42_bubble_partial",
    "C42_dew_guess",
    "C42_bubble_guess",
    "C42_dew_undefined_refuted",
    "C42_dew_limit_refuted",
    "C42_dew_well_refuted",
    "C42_bubble_well_refuted"
   ],
   "note": "refuted: the dew bracket may start at a pressure whose objective is undefined and may leave the user's limits, and the bracket of the well branch holds no sign change; proved for the other ends of the search."
  },
  {
   "property": "C43",
   "status": "partial",
   "theorems": [
    "C43_dew_reports_guess_refuted",
    "C43_dew_refuted",
    "C43_objective_partial"
   ],
   "note": "refuted for every equation of state: a dew point reports the composition it started from. Proved: the reported objective belongs to the converged composition."
  },
  {
   "property": "C44",
   "status": "partial",
   "theorems": [
    "C44_bubble_converged",
    "C44_pressure_guess",
    "C44_bubble_flag",
    "C44_history_partial",
    "C44_options_tightened",
    "C44_history_refuted"
   ],
   "note": "refuted: the result depends on the points computed before, and the flag is that of the guess. Proved: composition and objective belong to the reported pressure; independence of history when the inner loop does not depend on its guess."
  },
  {
   "property": "C49",
   "status": "partial",
   "theorems": [
    "C49_never_raises_partial",
    "C49_isolated_partial",
    "C49_isolated_bubble_partial",
    "C49_verify_refuted",
    "C49_bubble_refuted",
    "C79_flash",
    "C79_bubble",
    "C79_dew"
   ],
   "note": "refuted: verify_eos fails as a whole when one point fails, and a failing bubble point changes the starting composition of the next. Proved: no failing point makes any of the other eight calculations raise, it is reported undefined, and results depend on the inputs of their own point only when the underlying calculations have no memory."
  },
  {
   "property": "C50",
   "status": "partial",
   "theorems": [
    "C50_method_refuted",
    "C50_next_call_refuted",
    "C50_single_point_partial",
    "C79_bubble",
    "C79_dew",
    "C44_options_tightened"
   ],
   "note": "refuted: an entry method of pressure_options is used for the first point only and removed from the caller's dictionary. Proved (C79_bubble, C79_dew): without that entry every point is calculated with the caller's method and pressure_options, which stay unchanged."
  },
  {
   "property": "C51",
   "status": "partial",
   "theorems": [
    "C51_partial",
    "C51_refuses",
    "C51_many_points_refuted",
    "C51_three_points_refuted",
    "C51_no_pressure_refuted"
   ],
   "note": "refuted: requests with more points than components fail when a composition is to be calculated, and both compositions without a pressure give undefined values instead of a refusal. Proved: choice of mode and the formula."
  },
  {
   "property": "C52",
   "status": "partial",
   "theorems": [
    "C52_thermo",
    "C52_names",
    "C52_attribute_refuted"
   ],
   "note": "refuted: a name that is an attribute of the module but not a calculation gives TypeError. Proved for all other names."
  },
  {
   "property": "C79",
   "status": "partial",
   "theorems": [
    "C79_flash",
    "C79_saturation",
    "C79_liquid",
    "C79_vapor",
    "C79_solubility",
    "C79_bubble",
    "C79_dew",
    "C79_verify",
    "C79_columns",
    "C79_saturation_refuted",
    "C79_defaults_refuted"
   ],
   "note": "refuted: several compositions without temperatures in saturation_properties, and leaving every list to its default. Proved for every request that is granted."
  },
  {
   "property": "C53",
   "status": "partial",
   "theorems": [
    "C53_value",
    "C53_zero_iff_perfect",
    "C53_missing_points",
    "C53_lengths",
    "C53_one_weight",
    "C53_boltz_value_partial",
    "C53_boltz_bounds_partial",
    "C53_components",
    "C53_boltz_perfect_refuted",
    "C53_boltz_negative_refuted",
    "C53_unknown_method_refuted",
    "C53_boltz_no_points_refuted",
    "C53_zero_reference_refuted",
    "C53_share_rounding_refuted"
   ],
   "note": "proved for the three plain forms (average and sum of squares, absolute percentage) with non-zero references. Refuted: the Boltzmann-weighted forms are undefined for a perfect fit, negative, or raise; a reference of zero counts as missing; an unknown form raises UnboundLocalError; the share of missing points is compared after rounding."
  },
  {
   "property": "C54",
   "status": "partial",
   "theorems": [
    "C54_sum_and_penalty",
    "C54_penalty_sign",
    "C54_out_of_bounds_worse",
    "C54_failure_is_worst",
    "C54_nan_parameter",
    "C54_frozen",
    "C54_defined",
    "C54_dataset_defined",
    "C54_dataset_sum",
    "C54_perfect_ranks_worst_refuted",
    "C54_failed_property_refuted",
    "C54_undefined_is_worst"
   ],
   "note": "refuted: a perfect parameter set gets an infinite objective, and a property that could not be calculated improves a data set. Proved: sum plus penalty, penalty exactly out of bounds, failing data sets rank last, never undefined."
  },
  {
   "property": "C55",
   "status": "proved",
   "theorems": [
    "C55_bounds",
    "C55_saft_bounds",
    "C55_unknown_type",
    "C55_missing"
   ],
   "note": "For bounds that are numbers; cubic and SAFT naming."
  },
  {
   "property": "C56",
   "status": "partial",
   "theorems": [
    "C56_supported_refused_refuted",
    "C56_unsupported_accepted_refuted",
    "C56_class_never_refuted",
    "C56_refusals_partial",
    "C56_kept_partial",
    "C56_grid_ignores_refuted"
   ],
   "note": "refuted: grid searches ignore accepted constraints; the test of the constraint type is inverted, supported types are refused and others accepted. Proved: refusal of incomplete constraints and unknown functions."
  },
  {
   "property": "C60",
   "status": "partial",
   "theorems": [
    "C60_unchanged_partial",
    "C60_method_lost_refuted",
    "C60_multiprocessing_kept_refuted",
    "C60_names_refuted",
    "C60_weights_refuted",
    "C60_weight_names_refuted",
    "C60_keywords_kept_refuted"
   ],
   "note": "refuted: the method is removed from the caller's global options, so that a second run uses another method; multiprocessing object, keywords, weights and list of names are stored in the caller's dictionaries. Proved when none of these is given."
  },
  {
   "property": "C61",
   "status": "partial",
   "theorems": [
    "C61_addressed_parameters",
    "C61_names",
    "C61_malformed",
    "C61_saft_update",
    "C61_refused_but_changed_refuted",
    "C61_fit_not_refused_refuted"
   ],
   "note": "refuted: a refused update leaves the parameters before the malformed name changed, and in a fit a malformed name gives an infinite objective instead of a refusal. Proved: well-formed names change exactly the addressed parameters."
  },
  {
   "property": "C80",
   "status": "partial",
   "theorems": [
    "C80_stored",
    "C80_stored_pair",
    "C80_middle_partial",
    "C80_uninitialised_refuted"
   ],
   "note": "refuted: without a stored value the guess is computed from an uninitialised array. Proved for stored values, and for the middle when the content of that array lies outside the limits."
  },
  {
   "property": "C81",
   "status": "partial",
   "theorems": [
    "C81_density_options_partial",
    "C81_TLVE_refuted",
    "C81_weights",
    "C81_classes"
   ],
   "note": "refuted for TLVE, which drops the density options; proved for the other four classes, and for the weights of all five."
  },
  {
   "property": "C57",
   "status": "partial",
   "theorems": [
    "C57_full_grid",
    "C57_best",
    "C57_best_of_guesses",
    "C57_granted_partial",
    "C57_one_parameter_refuted",
    "C57_split_one_refuted",
    "C57_options_refuted",
    "C57_all_failed_refuted"
   ],
   "note": "Proved: the grid is the full product and a granted search returns the first least candidate with its own objective; it is granted with two or more grid parameters. Refuted: one failing minimisation aborts a grid of one parameter, a split after the first parameter and minimiser options always fail, and a search without any result reports success."
  },
  {
   "property": "C58",
   "status": "proved",
   "theorems": [
    "C58_acceptance",
    "C58_step",
    "C58_step_size"
   ],
   "note": ""
  },
  {
   "property": "C59",
   "status": "partial",
   "theorems": [
    "C59_nothing_lost",
    "C59_once_in_order",
    "C59_crash",
    "C59_new_file",
    "C59_line_continued_refuted",
    "C59_two_processes_refuted"
   ],
   "note": "Proved for runs one after another with crashes anywhere: contents are only appended to, results once and in order. Refuted: with all 21 names taken an unfinished line is continued, and two fits running at the same time can erase each other's results."
  },
  {
   "property": "C48",
   "status": "partial",
   "theorems": [
    "C48_value",
    "C48_returned",
    "C48_undefined_refuted",
    "C48_max_density_refuted",
    "C48_linear_fluid"
   ],
   "note": "Value and refusal proved for every energy that is a number; the energy itself is proved for every fluid whose pressure is linear in temperature. Refuted: an undefined energy is returned as NaN, and density_opts with max_density always fails with TypeError."
  },
  {
   "property": "C86",
   "status": "partial",
   "theorems": [
    "C86_difference_quotient",
    "C86_error_bound",
    "C86_ideal_gas",
    "C86_residual_part",
    "C86_vanishing_density_refuted"
   ],
   "note": "Proved where rho * step_size is at least machine epsilon. Refuted near density zero: one density below twice machine epsilon makes the whole list fail with ValueError."
  },
  {
   "property": "C87",
   "status": "partial",
   "theorems": [
    "C87_value",
    "C87_error_bound",
    "C87_ideal_gas",
    "C87_absent_refuted",
    "C87_log_method_refuted"
   ],
   "note": "Proved for components that are present. Refuted for absent components, whose coefficient is not the limit at small fractions, and for log_method=False, which is ignored."
  },
  {
   "property": "C88",
   "status": "proved",
   "theorems": [
    "C88_wavelength",
    "C88_mixing",
    "C88_state",
    "C88_absent",
    "C88_value",
    "C88_gas_constant"
   ],
   "note": ""
  },
  {
   "property": "C89",
   "status": "partial",
   "theorems": [
    "C89_new",
    "C89_flag_is_kept",
    "C89_refreshed_partial",
    "C89_never_switched_on_refuted"
   ],
   "note": "Refuted: an object built while all association energies are zero never associates. Proved for objects that associate when built."
  },
  {
   "property": "C90",
   "status": "proved",
   "theorems": [
    "C90_factory"
   ],
   "note": ""
  },
  {
   "property": "C82",
   "status": "proved",
   "theorems": [
    "C82_polynomials",
    "C82_diameter"
   ],
   "note": ""
  },
  {
   "property": "C83",
   "status": "proved",
   "theorems": [
    "C83_one_size"
   ],
   "note": ""
  },
  {
   "property": "C84",
   "status": "proved",
   "theorems": [
    "C84_integrals",
    "C84_zero_exponent"
   ],
   "note": ""
  },
  {
   "property": "C85",
   "status": "partial",
   "theorems": [
    "C85_square_well",
    "C85_square_well_refuted",
    "C85_mie"
   ],
   "note": "Proved for the Mie variant and for square-well fluids of single segments. Refuted for square-well chains: the limit is minus the sum of x (segments - 1) ln(1 + epsilon/T)."
  },
  {
   "property": "C92",
   "status": "proved",
   "theorems": [
    "C92_alpha"
   ],
   "note": ""
  },
  {
   "property": "C93",
   "status": "proved",
   "theorems": [
    "C93_square_well",
    "C93_mie"
   ],
   "note": "For a single component the Mie hard-sphere term leaves out what vanishes for segments of one size (C29), so its virial coefficient is proved for mixtures; C83 covers one size."
  },
  {
   "property": "C94",
   "status": "proved",
   "theorems": [
    "C94_distribution_function"
   ],
   "note": ""
  },
  {
   "property": "C95",
   "status": "proved",
   "theorems": [
    "C95_bonding_volume"
   ],
   "note": ""
  },
  {
   "property": "C91",
   "status": "proved",
   "theorems": [
    "C91_mie",
    "C91_square_well"
   ],
   "note": "Default combining rules; exact real arithmetic."
  },
  {
   "property": "C96",
   "status": "partial",
   "theorems": [
    "C96_vapor",
    "C96_liquid_partial",
    "C96_liquid_refuted"
   ],
   "note": "Proved for the vapor. Refuted for the liquid when the iterations are used up: the coefficients are those of an earlier composition."
  },
  {
   "property": "C97",
   "status": "partial",
   "theorems": [
    "C97_vapor",
    "C97_liquid_partial",
    "C97_binary",
    "C97_bouncing",
    "C97_phase_refuted",
    "C97_ternary_refuted",
    "C97_liquid_as_vapor_refuted",
    "C97_equal_refuted",
    "C97_two_fractions_refuted"
   ],
   "note": "Refuted: with three components only the smallest fraction is compared; a liquid guess of three components is returned as the vapor; equal fractions raise a ValueError at the solution; when the iterations are used up two fractions are returned whatever the number of components. Proved: every result is a composition, and what is known of it on each path."
  },
  {
   "property": "C98",
   "status": "partial",
   "theorems": [
    "C98_inside",
    "C98_choice",
    "C98_vapor_objective",
    "C98_skips_refuted",
    "C98_liquid_objective_refuted"
   ],
   "note": "Limits proved. Refuted: a composition without a density raises; the objective of the liquid search is not zero at equilibrium."
  },
  {
   "property": "C99",
   "status": "partial",
   "theorems": [
    "C99_inside",
    "C99_finds_boundary",
    "C99_third_kind_refuted"
   ],
   "note": "Proved for two kinds of fluid along the line. Refuted for a midpoint of a third kind (IndexError)."
  },
  {
   "property": "C100",
   "status": "partial",
   "theorems": [
    "C100_window",
    "C100_all_or_none",
    "C100_equal_area",
    "C100_mixture",
    "C100_supercritical",
    "C100_low_pressure_refuted"
   ],
   "note": "Equal areas proved when the curve has three volumes at the pressure. Refuted for loops whose largest pressure is below 1 Pa (ValueError). A mixture dominated by one component is refused with a TypeError."
  },
  {
   "property": "C101",
   "status": "proved",
   "theorems": [
    "C101_saturation",
    "C101_solubility",
    "C101_liquid_density",
    "C101_flash",
    "C101_TLVE",
    "C101_inputs",
    "C101_state",
    "C101_failed_calculation"
   ],
   "note": "The calculation and the comparison of two columns are arbitrary; how contributions are combined is C54. Calculated results are taken to have one value (or one composition) per state point."
  },
  {
   "property": "C102",
   "status": "partial",
   "theorems": [
    "C102_blind",
    "C102_guess_refuted"
   ],
   "note": "Refuted for TLVE: the measured pressures are passed on as starting values. Proved for every other option and class."
  },
  {
   "property": "C103",
   "status": "partial",
   "theorems": [
    "C101_inputs",
    "C103_needed",
    "C103_temperature_refuted",
    "C103_nothing_measured_refuted",
    "C103_TLVE_calculation_refuted",
    "C103_accepted",
    "C103_default_calculation"
   ],
   "note": "Defaults and refusals proved for accepted data sets. Refuted: the default temperature is unreachable for three of the classes (KeyError), the test for missing measurements is reached too late or not at all, TLVE data of a mixture without a calculation are refused."
  },
  {
   "property": "C104",
   "status": "proved",
   "theorems": [
    "C104_gibbs_duhem"
   ],
   "note": "Stated at constant pressure in the formula for ln phi and for every path through the state, of which the paths on the pressure surface are a special case. Attraction and covolume of the mixture are not 0 and the density is below the limit."
  },
  {
   "property": "C105",
   "status": "partial",
   "theorems": [
    "C105_peng_robinson",
    "C105_saft_refuted"
   ],
   "note": "Proved for Peng-Robinson, at every density, on the pressure surface or not. Refuted for SAFT with any residual energy: the residual approaches -1/(rho R T), since the density is held fixed."
  },
  {
   "property": "C106",
   "status": "partial",
   "theorems": [
    "C106_value",
    "C106_vanishes_refuted",
    "C106_refuted",
    "C106_peng_robinson"
   ],
   "note": "Refuted: the derivative is multiplied by twice the step again, so the result approaches 0 for all continuous coefficients. Divided by twice the step it approaches 0 for Peng-Robinson at every state on the pressure surface."
  },
  {
   "property": "C107",
   "status": "partial",
   "theorems": [
    "C107_states",
    "C107_one_array",
    "C107_compositions",
    "C107_compositions_refuted"
   ],
   "note": "Proved for pressures, temperatures and densities and for the refusal. Refuted for compositions: each value is summed over the mole fractions of all compositions."
  },
  {
   "property": "C108",
   "status": "proved",
   "theorems": [
    "C108_raoult"
   ],
   "note": "The saturation pressure of a composition is arbitrary. Over the reals: mole fractions of 0 give NaN or infinity in numpy and are excluded."
  },
  {
   "property": "C109",
   "status": "proved",
   "theorems": [
    "C109_calculation",
    "C109_fit"
   ],
   "note": "Reading of the input is C07; the equation of state, the calculation, the fit and the writers are arbitrary functions."
  },
  {
   "property": "C110",
   "status": "partial",
   "theorems": [
    "C110_result_kept",
    "C110_workers_stopped",
    "C110_write_failure_refuted",
    "C110_workers_refuted"
   ],
   "note": "Proved: a fit that ends well is written, a calculation is written or logged, and the workers are stopped at the end of every run without an error. Refuted: a failed write of a calculation passes silently; after any error the workers are not stopped."
  },
  {
   "property": "C111",
   "status": "partial",
   "theorems": [
    "C111_log_file",
    "C111_default_names",
    "C111_console_refuted",
    "C111_log_name_refuted",
    "C111_workers_refuted"
   ],
   "note": "Proved for the log file. Refuted: the console gets every message without --console and twice with it; workers log warnings only; --log without a name fails."
  },
  {
   "property": "C112",
   "status": "partial",
   "theorems": [
    "C112_documented_call_refuted"
   ],
   "note": "Refuted for every input: the keyword MultiprocessingObject is required (KeyError) but not documented as such."
  },
  {
   "property": "C113",
   "status": "partial",
   "theorems": [
    "C113_differential_evolution",
    "C113_differential_evolution_file",
    "C113_workers",
    "C113_workers_refuted",
    "C113_shgo",
    "C113_brute",
    "C113_minimizer",
    "C113_basinhopping",
    "C113_basinhopping_step",
    "C113_file_switch",
    "C113_basinhopping_minimizer_kwargs",
    "C113_basinhopping_refuted"
   ],
   "note": "Proved for every option dictionary except two cases. Refuted: a multiprocessing object written before workers leaves the integer in place of the pool; write_intermediate_file = False is handed to scipy's basinhopping, which does not take it."
  },
  {
   "property": "C114",
   "status": "partial",
   "theorems": [
    "C114_minimizer_opts",
    "C114_minimizer_opts_refuted",
    "C114_constraints",
    "C114_constraints_refuted",
    "C114_shgo_constraints",
    "C114_shgo_constraints_refuted",
    "C114_single_objective",
    "C114_brute_points_refuted"
   ],
   "note": "Proved: which methods take minimiser options, that constraints given to a method directly are converted, and that shgo then uses a minimiser that takes them. Refuted: a fit never passes constraints on (or passes them unconverted), the default method refuses minimiser options, an option SLSQP does not take raises RuntimeError, and brute reports n*Ns points for Ns^n."
  },
  {
   "property": "C115",
   "status": "proved",
   "theorems": [
    "C115_polynomial",
    "C115_symmetric",
    "C115_same_kind",
    "C115_dilute",
    "C115_scaling",
    "C115_whole_table",
    "C115_table_values"
   ],
   "note": "Over the reals; the coefficients are the decimals of the source."
  },
  {
   "property": "C116",
   "status": "partial",
   "theorems": [
    "C116_library",
    "C116_energy",
    "C116_lowers",
    "C116_kinds",
    "C116_mie_cutoff_refuted"
   ],
   "note": "Proved for bonding volumes (Mie) and both kinds (square well). Refuted: with cut-off distances the Mie variant raises IndexError for every input, since calc_gdHS_assoc assigns columns 2 and 3 of an array with two."
  },
  {
   "property": "C117",
   "status": "partial",
   "theorems": [
    "C117_one_solution",
    "C117_substitution_converges",
    "C117_step",
    "C117_accuracy",
    "C117_500_rounds_refuted"
   ],
   "note": "Proved: existence, uniqueness, convergence of undamped substitution, and a relative error of at most about (1+S)^2/10^12 when the reported error is below the tolerance (S the largest total strength). Refuted for the fixed 500 rounds: with one self-bonding site of strength 810900 the result is more than twice the exact fraction, and the wrapper discards the error."
  },
  {
   "property": "C118",
   "status": "partial",
   "theorems": [
    "C118_square_well",
    "C118_mie",
    "C118_both_orders_refuted"
   ],
   "note": "Proved without association sites, for combining rules other than multipole and cross libraries whose two orders of a pair agree. Refuted when a cross library gives different values for the two orders of a pair: the entry found first depends on the order of the groups. Missing: association sites."
  },
  {
   "property": "C119",
   "status": "proved",
   "theorems": [
    "C119_pair_parameters"
   ],
   "note": "For rules with at most one output, named as the parameter asked for; the multipole rule, which may return several, is not covered."
  },
  {
   "property": "C120",
   "status": "partial",
   "theorems": [
    "C120_mie",
    "C120_square_well_partial",
    "C120_square_well_refuted"
   ],
   "note": "Proved for the Mie variant, and for the square-well variant if all molecular diameters are equal. Refuted for the square-well variant: the mean goes over whole rows of the diameter matrix, so a second component at any mole fraction changes the volume of the first with itself."
  },
  {
   "property": "C121",
   "status": "partial",
   "theorems": [
    "C121_bubble",
    "C121_bubble_limits",
    "C121_bubble_below_minimum",
    "C121_dew_partial",
    "C121_dew_low_refuted",
    "C121_dew_liquid_refuted",
    "C121_bubble_exact_refuted"
   ],
   "note": "Proved for bubble points, and for dew points if the first pressure tried lies below the dew pressure. Refuted otherwise: a first pressure above the dew pressure is never lowered (ValueError after any number of iterations), or ends in an UnboundLocalError where no vapor is found; a bubble search that tries exactly the bubble pressure raises."
  },
  {
   "property": "C122",
   "status": "proved",
   "theorems": [
    "C122_guess_replaced",
    "C122_search_made"
   ],
   "note": "For binary mixtures without a zero fraction, which is when the code searches. When the search finds no composition at all the calculation raises ValueError (the minimum of an empty array) instead of reporting that no phase was found."
  },
  {
   "property": "C123",
   "status": "proved",
   "theorems": [
    "C123_one_phase_above",
    "C123_one_phase_all",
    "C123_two_phases_again",
    "C123_two_phases_below",
    "C123_critical_pressure",
    "C123_corresponding_states"
   ],
   "note": "Over the reals; the margins 1e-6 and 2e-7 come from the eight-digit constants 0.45723553 and 0.07779607 of the source. The example is methane."
  },
  {
   "property": "C124",
   "status": "proved",
   "theorems": [
    "C124_order",
    "C124_mie"
   ],
   "note": "Over the reals: the order of summation changes the rounding. The fractions of free sites are those of the fixed point iteration with the same number of steps."
  },
  {
   "property": "C125",
   "status": "partial",
   "theorems": [
    "C125_parameters",
    "C125_cross_library_refuted"
   ],
   "note": "Proved without a cross library, for site names listed in the same relative order. Refuted with a cross library: for two groups the energy given for the pair is used in one order of the groups and dropped in the other."
  },
  {
   "property": "C126",
   "status": "partial",
   "theorems": [
    "C126_batch",
    "C126_file_handler_needed_refuted",
    "C126_handlers_lost_refuted"
   ],
   "note": "Proved for batches in which no job raises, with a file handler at the root logger. Refuted otherwise: without a file handler every call raises, and whenever a call raises the root logger has lost all its handlers and the worker logs are not handed over."
  },
  {
   "property": "C127",
   "status": "partial",
   "theorems": [
    "C127_entries",
    "C127_refused",
    "C127_line_end_refuted",
    "C127_key_with_digit_refuted"
   ],
   "note": "The dictionary and the refused files are determined exactly, eval and float being arbitrary functions. Refuted: a text keeps its line end, and a text under a key whose second character is a digit makes the file unreadable."
  },
  {
   "property": "C128",
   "status": "proved",
   "theorems": [
    "C128_clean",
    "C128_nan"
   ],
   "note": "Numbers are rationals, infinities and NaN."
  },
  {
   "property": "C129",
   "status": "proved",
   "theorems": [
    "C129_equal_areas",
    "C129_fugacity_grows",
    "C129_dilute",
    "C129_saturation_exists",
    "C129_saturation_below",
    "C129_difference_falls",
    "C129_stable_phase",
    "C129_saturation_unique",
    "C129_one_saturation"
   ],
   "note": "Over the reals; the isotherm is integrated with Coquelicot's Riemann integral."
  }
 ]
}