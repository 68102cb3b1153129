# Formal model of despasito in Rocq (Coq 8.16.1)

## 1. Layout

`rocq/theories/` holds, per area, up to four kinds of file:

* `<Area>Model.v`  – Gallina functions mirroring the Python, branch by branch. Each definition cites file and lines in /repo.
* `<Area>Spec.v`   – small independent vocabulary used in the theorem statements (only where the statement needs one).
* `<Area>Proofs.v` – lemmas and proofs.
* `<Area>Props.v`  – the property theorems, a non-vacuity `Example` beside them, and `Print Assumptions`. In the smaller areas the
  lemmas and the vocabulary are in this file too.

`Base.v` (results, exceptions, dictionaries), `Num.v` (numbers with NaN and infinities), `RSum.v` (finite real sums) and `SortLib.v`
are shared. `seeded/LOG.jsonl` records the wrong programs the theorems were tested against.

## 2. Modelling conventions

* **Exceptions** are values: `result A := Ok a | Err e`, `e` naming the Python exception class.
* **Python dictionaries** are association lists with string keys in insertion order; reading a missing key gives `Err KeyError`.
* **Mutation and aliasing**: a function that changes an argument, an attribute or a module global returns the new value of it. Where two names share one object and the property is about that, the shared object is an explicit state component.
* **Numbers.** Three representations:
  * `R` (Coq reals, Coquelicot for derivatives) for closed-form formulas. Rounding, overflow and signed zero of binary64 are not modelled.
  * `num = Fin q | PInf | NInf | NaN` (`q : Q`) for code that branches on NaN or infinity. Arithmetic is exact on finite values and follows IEEE 754 for NaN and infinity; rounding and signed zeros are not modelled. It is axiom-free and computes.
  * `SpecFloat` binary64 where rounding is the subject (C63, C78).
* **External code** (numpy linear algebra, scipy optimisers, splines, the EOS inside the phase-equilibrium loops, the random generator, the file system) is an argument of the model function, universally quantified in the theorems. Nothing is assumed about it except what a theorem's hypotheses say.
* **Loops** with a bound in the code are recursion on that bound; unbounded `while` loops are recursion on fuel with an explicit out-of-fuel error.
* **Logging** is dropped (it has no effect on results), except in C06 and C62 where it is the subject.

## 3. Plan per property

| Property | Model | Proof |
|---|---|---|
| C01, C02 | `check_length_dict`, `set_defaults` over association lists of scalar/array values | case analysis and induction on the key list |
| C03, C63 | `central_difference` over R, and over binary64 for the failing case | field identity; step non-zero; computed witness |
| C04 | `solve_root` dispatch, scipy solvers as oracles returning a tag | case analysis on method name |
| C05 | `pool_job`: a schedule is any assignment of jobs to workers and any completion order; results are slotted by index | invariant over the completion sequence |
| C06 | worker log files as a directory map | induction over the file list |
| C07–C09 | the reader functions over association lists | induction |
| C10, C11, C64–C66 | writers producing line lists | permutation and sortedness; counting columns; computed witnesses |
| C12 | combining rules over R | field/inequality reasoning |
| C13, C14, C15, C67, C69 | matrix builders as functions of indices / lists | induction, last-write reasoning |
| C16, C70 | import flags and command-line switches as booleans | exhaustive over the finite flag space |
| C17, C34 | mass-balance iteration over R with decidable comparisons, fuel = maxiter of the code | equality of loops; invariant |
| C18 | `check_bounds` over `num` | case analysis |
| C19, C61 | update functions on two association maps | map reasoning over update histories |
| C20–C23 | Peng–Robinson formulas over R, lists of components | limits and derivatives (Coquelicot), permutation and padding lemmas on sums |
| C24–C26 | EOS object as a cache state machine over the real formulas | invariant over operation sequences; refutation by witness |
| C27–C33, C71, C72 | SAFT formulas over R, both variants | sums, convexity, derivatives |
| C35, C36, C73–C77 | site enumeration, matrix assignment, bonding volumes with their cache | induction, invariants |
| C37 | density check over `num` | case analysis |
| C38, C48 | formulas over R | algebra |
| C39 | grid construction | induction |
| C40, C41 | branch structure with roots and extrema given by oracles | case analysis |
| C42 | the two search loops with an arbitrary objective | invariants on the loop state |
| C43, C44, C50 | driver functions with module globals and the shared option dictionary as explicit state | invariants, refutation by witness |
| C45–C47, C78 | flash loop, K-value constraint, swap rule over `num`/R/binary64 | invariants |
| C49, C79 | per-point wrappers with an arbitrary (failing) point function | list induction |
| C51, C52 | dispatch | case analysis |
| C53–C57, C80, C81 | objective functions over `num`, guesses, bounds, constraints, data classes, grid argmin | induction, case analysis |
| C58 | acceptance test and step with retry; random stream as oracle | induction |
| C59 | file system as map from names to line lists; crash = prefix of the write sequence | invariant over histories |
| C60 | option dictionary as state | case analysis, refutation |
| C62 | logger handler list as state | invariant over configuration histories |
| C82 | moments of the rule by computation in Z, Coquelicot integrals | linearity, uniform bounds |
| C83 | hard-sphere terms of both variants over R | algebra |
| C84 | I and J as Riemann integrals | fundamental theorem |
| C85 | limits at the right of zero | continuous extension of every term; refutation for square-well chains |
| C86, C87 | the SAFT object's energy, pressure and fugacity coefficients over R, the kernel energies as oracle functions | mean value bounds, refutation at vanishing density and fraction |
| C88 | ideal contribution over R | sums over components |
| C89 | state machine of the association flag and matrices | induction over refresh histories, refutation |
| C90 | factory as a string function | case analysis |
| C92 | the alpha matrix of the Mie object | improper integrals of powers by antiderivatives (Coquelicot) |
| C93 | monomer terms of both SAFT objects | limits at density zero of smooth functions; van der Waals integrals |
| C91 | both variants, from the libraries to the energies | simulation between the object and its scaled twin, then homogeneity of every formula |
| C94 | gdHS | derivative at zero packing against the integral of the lens |
| C95 | calc_bonding_volume | antiderivative of the orientation average |
| C96, C97 | the inner loops of bubble and dew points over extended rationals, equation of state, random numbers, interpolant and solver as oracles | invariant over iterations; concrete fluids as refutations |
| C98 | the grid search over binary compositions | range invariants; the choice between several minima (trivial one discarded, liquids avoided); refutations |
| C99 | the bisection as a loop over a pair of evaluated ends | invariant with the width halved at each turn |
| C100 | the saturation search on a list of pressures, splines as oracles | case analysis; areas from additivity of the integral |
| C101 | the data sets of a fit: constructors, reformat_output, objectives; calculation and comparison as oracles | unfolding along the columns; moves of dictionary entries by induction |
| C102 | options passed to the calculation | relation between two runs, carried through the constructor |
| C103 | defaults and refusals of the constructors | case analysis on the entries; refutations for all inputs |
| C104 | Peng-Robinson ln phi along a path of composition and density | derivative of the weighted sum in closed form, vanishing by the pressure equation |
| C105 | the first residual of verify_eos over R | limit of the symmetric quotient; refutation for any residual energy |
| C106 | the second residual of verify_eos over R | limits along the path of amounts, using C104; refutation for all continuous coefficients |
| C107 | mixture_fugacity_coefficient on scalars and arrays | induction on the array |
| C108 | activity_coefficient with the saturation pressure as an oracle | field arithmetic and sums |
| C109 | main.run as a list of observable events; its parts as oracles | case analysis on the outcome of each part; induction over data sets |
| C110 | the same | the same; refutations for all inputs |
| C111 | handlers of the two loggers set up by __main__, and of a worker | unfolding for any level and file name |
| C112 | main.run without the multiprocessing keyword | computation |
| C113 | the option handling of differential_evolution, shgo, brute and basinhopping up to the call of scipy (GlobalOptsModel.v) | induction over the option dictionary |
| C114 | the keywords fit passes on, the methods' parameters, conversion of constraints, brute's report | case analysis, induction over the number of parameters |
| C115 | calc_Iij with its table and its built-up powers (AssocIntModel.v) | unrolling of the loops against the double sum |
| C116 | Aassoc of saft.py with calc_gr_assoc, calc_gdHS_assoc of both variants | computation; C34 and C76 |
| C117 | calc_Xika (XikaModel.v) against the law of mass action | ratio argument for uniqueness and accuracy; monotone two-step limits for existence and convergence (Coquelicot); exact analysis of one strong site over 500 rounds |
| C118 | Both variants' initialisation and residual energies (SwModel, MieModel), two listings of one fluid related by permutations (OrderSpec). | Permutation of finite sums term by term, up to the pair matrices (`cross_positions`); the new listing is shown to initialise (`CrossTotal`). |
| C119 | cross_interaction_from_dict. | Folds over pairs and keys: success and each error characterised. |
| C120 | calc_Kijklab of both variants over calc_bonding_volume. | Algebra; a two-component witness for the square-well variant. |
| C121 | calc_Prange_xi and calc_Prange_yi (PrangeModel) on fluids with a monotone objective and a window of pressures with both phases (PrangeFinds). | Termination measures: a linear one while the pressure is raised or lowered, powers of two while the range is bisected. |
| C122 | poor guesses in `InnerModel.v` | the first iteration computes the same whatever the poor guess was |
| C123 | The Peng-Robinson model of C24 with one component, from construction to pressure | algebra on the reduced isotherm: sign of the derivative bounded by the extremal value of a rational function of the packing fraction; monotonicity of alpha(T)/T on the temperature range |
| C124 | The association part of C21 and C75: site list, fractions of free sites, energy | equivariance of each stage under a permutation, sums over permuted lists |
| C125 | The loops of C74 without and with a cross library | invariance of the fold under permuted beads by a description of the final entries; the witness for the cross library is two groups |
| C126 | batch_jobs over the pool model of C05, with the handlers of the root logger and the worker logs as state | composition with C05; the state after each way of ending |
| C127 | file2paramdict over the lines of the file, eval and float as arbitrary partial functions | induction over the lines from the end; splitting characterised by the fields |
| C128 | _clean_plot_data | insertion into a strictly sorted list; first position found |
| C129 | pressure and fugacity_coefficient of the Peng-Robinson model for one component, over the reals | the logarithm of the fugacity in closed form; its derivative; fundamental theorem of calculus along the isotherm; continuity at zero density; existence of the saturation pressure from the least tilted energies left and right of the loop (Maxwell.v); uniqueness because the slope of the isotherm has at most two zeros above close packing (five roots of a quartic) |
| C68 | partial density derivative over R | derivative lemmas |

No property is declared not applicable. Properties the unchanged code violates are kept in `properties.jsonl`, refuted by a
theorem named `..._refuted` with a witness, and the part that does hold is proved beside it. Their status in MANIFEST.json is
`partial`.

## 4. Trusted base

* Coq 8.16.1's kernel (and `vm_compute`, which the kernel uses for some closed computations), the standard library and Coquelicot
  (real analysis lemmas, no axioms of its own).
* The axioms `Print Assumptions` lists below. All four are the standard library's (real numbers, functional extensionality, classical
  logic). The model adds none. There are no functors, module types, plugins, `Admitted` or kernel switches.
* The reading of the Python, numpy and scipy semantics in the model comments. It is by hand: nothing was extracted or executed.

### 4.1 What each theorem assumes

<!-- ASSUMPTIONS -->
Generated from `Print Assumptions` of every theorem named in MANIFEST.json.

* **no axioms** (347 theorems): C01_check_length_dict, C01_equal_lengths, C01_accepts_fitting, C02_set_defaults, C02_set_defaults_idempotent, C02_set_defaults_refusal, C04_unknown_method, C04_method_honoured_partial, C04_listed_method_runs, C04_bracket_ends, C04_user_options_win, C04_listed_method_refuted, C04_default_bounds_refuted, C04_default_bounds_error, C04_several_bounds, C04_bracket_options, C04_scalar_bounds_dropped_refuted, C04_documented_brent_refuted, C63_negative_point_refuted, C05_pool_equals_serial, C05_pool_raises_iff_serial, C05_core_count, C05_stateful_job_refuted, C06_logs_consolidated_partial, C06_no_line_lost_while_running, C06_logs_lost_on_error_refuted, C07_one_destination, C07_eos_arguments, C07_libraries, C07_calculation_arguments, C07_fitting_arguments, C07_data_set, C07_same_name_lost, C08_bead_matrix_partial, C08_repeated_bead_refuted, C09_own_columns_partial, C09_mole_fractions_partial, C09_single_row_refuted, C09_foreign_column_refuted, C10_parameters_saved, C10_insertion_order_partial, C10_bead_order_refuted, C10_case_collision_refuted, C11_result_table, C11_ragged_refused, C64_missing_names_partial, C64_no_data_refuted, C65_calculation_type_missing_refuted, C66_fit_report, C66_fit_report_short, C13_symmetric, C13_values_partial, C13_multi_output_refuted, C14_defaults_filled, C14_complete_library_kept, C14_caller_library_changed_refuted, C15_insignificant_removed, C16_backend_partial, C16_none_refused, C16_cython_refuted, C16_import_refuted, C18_bounds_clipped, C18_saft_bounds_clipped, C18_nan_bound_passes, C19_history_partial, C19_refusals, C19_saft_sites, C19_both_orders_refuted, C19_unknown_parameter_refuted, C69_component_masses, C69_extract_property, C62_handlers_partial, C62_files, C62_console_lost_refuted, C62_log_file_off_refuted, C62_name_confusion_refuted, C70_verbosity_partial, C70_verbosity_refuted, C70_numba_switch_refuted, C37_density_checked, C37_rows_dropped_refuted, C35_sites, C35_never_fails, C36_matrices, C73_site_table, C73_refused, C74_energy_used, C74_later_wins, C74_energy_not_used, C74_lengths, C74_same_refusals, C74_cross_energy_partial, C74_dropped_refuted, C74_cross_energy_refuted, C74_cross_energy_other_order, C74_absent_refused, C75_self_and_mixed, C75_refused, C77_bonding_volume_partial, C77_bonding_volume_refuted, C38_trial_composition, C38_refused, C39_isotherm, C39_spacing, C39_refused, C39_accepted, C40_no_density_when_failed, C40_three_roots, C40_critical, C40_one_root, C40_two_roots, C40_no_root_fitted, C40_undefined_isotherm, C40_largest_root_refuted, C40_one_extremum_refuted, C40_no_root_always_ideal, C41_vapor, C41_liquid, C41_failed_refuted, C41_liquid_ideal_refuted, C45_flash, C45_compositions, C45_not_binary, C46_limits_partial, C46_redraw, C46_undefined_refuted, C46_refused, C47_labels, C78_sum_check_refuted, C42_dew_partial, C42_bubble_partial, C42_dew_guess, C42_bubble_guess, C42_dew_undefined_refuted, C42_dew_limit_refuted, C42_dew_well_refuted, C42_bubble_well_refuted, C43_dew_reports_guess_refuted, C43_dew_refuted, C43_objective_partial, C44_bubble_converged, C44_pressure_guess, C44_bubble_flag, C44_history_partial, C44_options_tightened, C44_history_refuted, C49_never_raises_partial, C49_isolated_partial, C49_isolated_bubble_partial, C49_verify_refuted, C49_bubble_refuted, C79_flash, C79_bubble, C79_dew, C50_method_refuted, C50_next_call_refuted, C50_single_point_partial, C51_partial, C51_refuses, C51_many_points_refuted, C51_three_points_refuted, C51_no_pressure_refuted, C52_thermo, C52_names, C52_attribute_refuted, C79_saturation, C79_liquid, C79_vapor, C79_solubility, C79_verify, C79_columns, C79_saturation_refuted, C79_defaults_refuted, C53_value, C53_zero_iff_perfect, C53_missing_points, C53_lengths, C53_one_weight, C53_boltz_value_partial, C53_boltz_bounds_partial, C53_components, C53_boltz_perfect_refuted, C53_boltz_negative_refuted, C53_unknown_method_refuted, C53_boltz_no_points_refuted, C53_zero_reference_refuted, C53_share_rounding_refuted, C54_sum_and_penalty, C54_penalty_sign, C54_out_of_bounds_worse, C54_failure_is_worst, C54_nan_parameter, C54_frozen, C54_defined, C54_dataset_defined, C54_dataset_sum, C54_perfect_ranks_worst_refuted, C54_failed_property_refuted, C54_undefined_is_worst, C55_bounds, C55_saft_bounds, C55_unknown_type, C55_missing, C56_supported_refused_refuted, C56_unsupported_accepted_refuted, C56_class_never_refuted, C56_refusals_partial, C56_kept_partial, C56_grid_ignores_refuted, C60_unchanged_partial, C60_method_lost_refuted, C60_multiprocessing_kept_refuted, C60_names_refuted, C60_weights_refuted, C60_weight_names_refuted, C60_keywords_kept_refuted, C61_addressed_parameters, C61_names, C61_malformed, C61_saft_update, C61_refused_but_changed_refuted, C61_fit_not_refused_refuted, C80_stored, C80_stored_pair, C80_middle_partial, C80_uninitialised_refuted, C81_density_options_partial, C81_TLVE_refuted, C81_weights, C81_classes, C57_full_grid, C57_best, C57_best_of_guesses, C57_granted_partial, C57_one_parameter_refuted, C57_split_one_refuted, C57_options_refuted, C57_all_failed_refuted, C58_acceptance, C58_step, C58_step_size, C59_nothing_lost, C59_once_in_order, C59_crash, C59_new_file, C59_line_continued_refuted, C59_two_processes_refuted, C89_new, C89_flag_is_kept, C89_refreshed_partial, C89_never_switched_on_refuted, C90_factory, C96_vapor, C96_liquid_partial, C96_liquid_refuted, C97_vapor, C97_liquid_partial, C97_binary, C97_bouncing, C97_phase_refuted, C97_ternary_refuted, C97_liquid_as_vapor_refuted, C97_equal_refuted, C97_two_fractions_refuted, C98_inside, C98_choice, C98_vapor_objective, C98_skips_refuted, C98_liquid_objective_refuted, C99_inside, C99_finds_boundary, C99_third_kind_refuted, C100_window, C100_all_or_none, C100_equal_area, C100_mixture, C100_supercritical, C100_low_pressure_refuted, C101_saturation, C101_solubility, C101_liquid_density, C101_flash, C101_TLVE, C101_inputs, C101_state, C101_failed_calculation, C102_blind, C102_guess_refuted, C103_needed, C103_temperature_refuted, C103_nothing_measured_refuted, C103_TLVE_calculation_refuted, C103_accepted, C103_default_calculation, C109_calculation, C109_fit, C110_result_kept, C110_workers_stopped, C110_write_failure_refuted, C110_workers_refuted, C111_log_file, C111_default_names, C111_console_refuted, C111_log_name_refuted, C111_workers_refuted, C112_documented_call_refuted, C113_differential_evolution, C113_differential_evolution_file, C113_workers, C113_workers_refuted, C113_shgo, C113_brute, C113_minimizer, C113_basinhopping, C113_basinhopping_step, C113_file_switch, C113_basinhopping_minimizer_kwargs, C113_basinhopping_refuted, C114_minimizer_opts, C114_minimizer_opts_refuted, C114_constraints, C114_constraints_refuted, C114_shgo_constraints, C114_shgo_constraints_refuted, C114_single_objective, C114_brute_points_refuted, C116_mie_cutoff_refuted, C119_pair_parameters, C121_bubble, C121_bubble_limits, C121_bubble_below_minimum, C121_dew_partial, C121_dew_low_refuted, C121_dew_liquid_refuted, C121_bubble_exact_refuted, C122_guess_replaced, C122_search_made, C125_cross_library_refuted, C126_batch, C126_file_handler_needed_refuted, C126_handlers_lost_refuted, C127_entries, C127_refused, C127_line_end_refuted, C127_key_with_digit_refuted, C128_clean, C128_nan.
* **`ClassicalDedekindReals.sig_forall_dec`, `FunctionalExtensionality.functional_extensionality_dep`** (18 theorems): C03_central_difference_exact, C03_step_nonzero, C03_difference_quotient, C12_mean, C12_weighted_mean, C21_both_orders_refuted, C30_compressibility, C17_backends_agree, C34_fractions, C34_no_strength, C34_warm_start_refuted, C88_gas_constant, C108_raoult, C115_whole_table, C115_table_values, C117_step, C117_accuracy, C117_500_rounds_refuted.
* **`ClassicalDedekindReals.sig_forall_dec`, `ClassicalDedekindReals.sig_not_dec`, `FunctionalExtensionality.functional_extensionality_dep`** (29 theorems): C12_symmetric, C12_geometric_mean, C12_mie_exponent, C12_volumetric_geometric_mean, C12_square_well_berthelot, C12_single_output, C12_small_exponent_refuted, C67_multipole_temperature_refuted, C68_difference_quotient, C24_omega_refuted, C24_shared_library_refuted, C27_segment_fractions, C72_mie_refuted, C48_value, C48_returned, C48_undefined_refuted, C48_max_density_refuted, C48_linear_fluid, C88_wavelength, C115_polynomial, C115_symmetric, C115_same_kind, C115_dilute, C115_scaling, C116_kinds, C117_one_solution, C117_substitution_converges, C123_critical_pressure, C123_corresponding_states.
* **`ClassicalDedekindReals.sig_forall_dec`, `ClassicalDedekindReals.sig_not_dec`, `Classical_Prop.classic`, `FunctionalExtensionality.functional_extensionality_dep`** (94 theorems): C68_error_bound, C20_pressure_limits, C21_relabelling_partial, C22_absent_component, C23_consistent, C24_refresh_equals_fresh_partial, C71_diameter, C71_tables, C25_square_well_partial, C25_mie_partial, C25_mie_refuted, C26_square_well, C26_mie, C28_square_well, C28_mie, C29_square_well_partial, C29_mie_partial, C29_mie_refuted, C31_square_well, C31_mie, C31_mie_terms, C33_square_well, C33_mie, C33_mie_absent, C72_square_well_partial, C72_square_well_refuted, C72_mie_partial, C32_prefactor_minimum, C36_bonding_volume, C76_energy, C86_difference_quotient, C86_error_bound, C86_ideal_gas, C86_residual_part, C86_vanishing_density_refuted, C87_value, C87_error_bound, C87_ideal_gas, C87_absent_refuted, C87_log_method_refuted, C88_mixing, C88_state, C88_absent, C88_value, C82_polynomials, C82_diameter, C83_one_size, C84_integrals, C84_zero_exponent, C85_square_well, C85_square_well_refuted, C85_mie, C92_alpha, C93_square_well, C93_mie, C94_distribution_function, C95_bonding_volume, C91_mie, C91_square_well, C104_gibbs_duhem, C105_peng_robinson, C105_saft_refuted, C106_value, C106_vanishes_refuted, C106_refuted, C106_peng_robinson, C107_states, C107_one_array, C107_compositions, C107_compositions_refuted, C116_library, C116_energy, C116_lowers, C118_square_well, C118_mie, C118_both_orders_refuted, C120_mie, C120_square_well_partial, C120_square_well_refuted, C123_one_phase_above, C123_one_phase_all, C123_two_phases_again, C123_two_phases_below, C124_order, C124_mie, C129_equal_areas, C129_fugacity_grows, C129_dilute, C129_saturation_exists, C129_saturation_below, C129_difference_falls, C129_stable_phase, C129_saturation_unique, C129_one_saturation.
* **`Classical_Prop.classic`** (1 theorems): C125_parameters.
<!-- /ASSUMPTIONS -->

### 4.2 What is modelled

| Code | Theory |
|---|---|
| `utils/general_toolbox.py` (solve_root, central_difference, check_length_dict, set_defaults, isiterable) | Toolbox* |
| `utils/parallelization.py` (MultiprocessingJob, batch jobs, log files of workers) | Parallel* |
| `input_output/read_input.py`, `write_output.py` | IO* |
| `equations_of_state/combining_rule_types.py` | Combining* |
| `equations_of_state/eos_toolbox.py`, `interface.py`, backend choice | EosToolbox*, PartialDensity* |
| `equations_of_state/cubic/peng_robinson.py` | PR* |
| `equations_of_state/saft/saft.py`, `saft_toolbox.py`, `gamma_sw.py`, `gamma_mie.py` and their compiled-extension twins | SaftToolbox*, Sw*, Mie*, MieExt* |
| `equations_of_state/saft/Aassoc.py`, association sites, bonding volumes, mass balance | Assoc*, Bonding*, Xika* |
| `thermodynamics/calc.py`: isotherm grid, spline branches, density and fugacity of a phase, pressure brackets, flash, bubble and dew points with their inner loops, saturation, solubility parameter, consistency tests, activity coefficients | Isotherm*, Density*, PhaseEq*, Prange*, Flash*, BubbleDew*, Inner*, Sat*, Hildebrand*, Consist*, GibbsDuhem* |
| `equations_of_state/saft/saft.py` energies, pressure, fugacity, refresh; `Aideal.py`; `equations_of_state/__init__.py` | SaftEos* |
| `thermodynamics/calculation_types.py`, `thermodynamics/__init__.py` | CalcTypes* |
| `parameter_fitting/` objective functions, data classes, bounds, constraints, `fit()`, grid search, basin hopping helpers, intermediate files | FitObj*, FitSetup*, FitRun*, DataSet*, Global* |
| `__main__`/`main.py` switches, logger set-up, `run` | Logger*, Main* |

### 4.3 What is not modelled

* `saft_variant_example.py` (a template without code that runs). Rounding, except in C63 and C78; array broadcasting beyond the shapes the code itself checks; plots; documentation examples.
* The bodies of numpy, scipy, numba, cython and the Fortran modules. Twins of a kernel (numba, cython, Fortran) are modelled as formulas
  where the source is readable text and compared with the Python version.
* Timing, memory, and operating-system failures other than a crash between two writes and a missing file.

## 5. Findings

Each is a theorem with a witness about the code as it is.

* **Root finding** (C04): `hybr_broyden1`/`hybr_broyden2` are accepted and crash; `bounds=None`, the default, crashes; scalar bounds are dropped for three methods; the documented name `brent` is refused.
* **Derivatives** (C63): in binary64 the step of a negative point can vanish.
* **Parallel jobs** (C05, C06): warm-started jobs depend on the worker; when the map raises, worker logs are deleted without being collected.
* **Input and output** (C08–C10, C64, C65): repeated beads overwrite their count; data files with one row and columns starting with x, y, z are misread; output order of beads depends on insertion; output without data sets fails; a line is the same for every calculation type.
* **Parameters** (C12–C14, C16, C19, C21, C67): exponents below 3 break the Mie rule; multipole rules overwrite a user's value and ignore the temperature; the caller's library is changed; Cython never runs; an update with both orders stored does not take effect.
* **EOS objects** (C24, C25, C29, C72, C74, C77): stale kappa after updating omega; stale hard-sphere diameters and bonding volumes; a shared library; a logarithmic term dropped for a pure heteronuclear molecule; the density limit allows packing above one; cross association dropped depending on order; square-well averages use whole rows.
* **SAFT object** (C86, C87, C89): one density below twice machine epsilon makes a whole list of pressures fail; the fugacity coefficient of an absent component is not the limit at small fractions; `log_method` is ignored; the energy (and so ln phi) of square-well chains does not vanish with the density (C85); an object built without association energy never associates after a refresh.
* **Logging and switches** (C62, C70): the console is lost by a call that omits it; `log_file=False`; one `-v` prints less than none; `--numba` turns numba off.
* **Densities and fugacities** (C37, C39–C41): further rows of a 2-D density dropped; multfactor ignored; third of four roots; one extremum leaves the flag unassigned; a failed density gives two NaN whatever the number of components.
* **Pressure brackets** (C42): a dew bracket may begin where the objective is undefined, may exceed the user's maximum, and the well branch crashes; the bubble well branch accepts a bracket without a sign change.
* **Phase equilibria** (C43–C46, C48, C78): a dew point reports the composition it started from; a bubble point depends on earlier points and its flag is that of the guess; K values can become undefined; the solubility parameter may be NaN and refuses `max_density`; sums are compared in binary64.
* **Inner loops** (C96–C99): a liquid is returned with the fugacity coefficients of an earlier composition when the iterations are used up, and its objective is not compared with the tolerance; only the smallest fraction is tested for convergence; a guess of three components that is a liquid is returned as the vapor; where every composition is a liquid a liquid is returned as the vapor, with its flag; equal fractions raise a ValueError; two fractions are returned for any number of components; one composition without a density stops the search; the objective of the liquid search is not zero at equilibrium; a third kind of fluid between two others gives an IndexError.
* **Saturation** (C100): a loop below 1 Pa raises a ValueError; the message for a mixture dominated by one component raises a TypeError; with more than three volumes at the pressure the third, not the last, is taken for the vapor.
* **Data sets** (C102, C103): the measured pressures of TLVE data are passed to the calculation as starting values; the default temperature is unreachable for liquid densities, flashes and TLVE data, since the number of points is read from the temperatures before (KeyError); saturation data without a measured quantity raise a TypeError (range of NaN) and solubility data without delta a KeyError instead of the documented ImportError; liquid densities without rhol are accepted and fail at the first evaluation; TLVE data of a mixture without a calculation raise a ValueError (truth value of an array) instead of taking bubble_pressure, and with another calculation than the two every evaluation raises UnboundLocalError.
* **Consistency tests** (C105–C107): the first residual is -1/(rho R T), not 0, for every SAFT energy, because the derivative with pressure is taken at a fixed density; the second is multiplied by the step and vanishes with it for consistent and inconsistent coefficients alike; an array of compositions is weighted with all its rows at once.
* **Running** (C110–C112): a calculation whose results cannot be written ends without an error and without a file; after an error the worker processes and their logs are left behind; messages go to the console without `--console` and twice with it, because `logging.info` installs a root handler; workers log warnings only, since the level is looked for at the root logger; `--log` without a name raises TypeError; `run(filename, path)` raises KeyError.
* **Options of the optimisers** (C113, C114): `write_intermediate_file = False` with basinhopping reaches scipy as an unknown keyword; a multiprocessing object written before `workers` loses its pool to the integer; `fit` has no way to pass constraints on to a method (a `constraints` keyword becomes a data set's matter, and one inside global_opts reaches scipy unconverted); minimizer_opts with the default method raises TypeError; shgo with constraints raises RuntimeError when the minimiser has an option SLSQP does not take (a dictionary is changed while it is iterated over); brute reports n·Ns grid points where it tried Ns^n.
* **Association** (C116): `calc_gdHS_assoc` assigns columns 2 and 3 of an array with two columns, so every SAFT-gamma-Mie fluid whose sites are described by cut-off distances (`rc_klab`) fails with IndexError; the square-well variant ignores the kind of bonding volume.
* **Association** (C117): the loop over the mass balance stops after 500 rounds and the wrapper `_calc_Xika_wrap` discards the error, so for strong association the fractions are silently wrong: one self-bonding site whose free fraction is 1/901 is reported with more than 2/901.
* **Order and presence of components** (C118, C120): if the cross library gives a pair in both orders with different values, the fluid's properties depend on the order in which the groups are listed (`C118_both_orders_refuted`). The square-well bonding volume averages two whole rows of the molecular diameter matrix (gamma_sw.py:830-864), so listing another component changes the self-association of the first (`C120_square_well_refuted`).
* **Pressure brackets** (C121): the dew search starts at Pmin (1000 Pa or the lowest isotherm extremum) and cannot go below it: with a positive objective there, `(Prange[1] - Prange[0]) * minfactor + Prange[0]` (calc.py:1814) is the same pressure again until the iterations run out; if the first pressure gives a liquid, `obj` is read before assignment (1837). A bubble search that tries exactly the bubble pressure raises "This shouldn't happen" (1350).
* **Cross association energies** (C74): an energy given for two beads has no effect when an earlier bead of the mixture has the second site and no energy of its own, because the loop over beads overwrites the name it looks up; from then on it reads the energy of the second site with itself. Energies given in both orders without bonding parameters leave the pair's bonding volume at zero.
* **No composition found** (C122): when the search over compositions finds nothing, the inner loops of bubble and dew points leave their loop with a composition of NaN and then take the minimum of its positive entries, an empty array: ValueError, although the code sets the flag 3 for "neither phase" right before.
* **The order of the groups decides whether a cross energy is used** (C125): `calc_assoc_matrices` rebinds the name of the parameter inside its loop, so an energy of the cross library is found if the two groups are listed in one order and not in the other.
* **Batches of jobs lose the log handlers** (C126): `batch_jobs` empties `logging.root.handlers` and restores it only if every job returns; without a file handler it always raises UnboundLocalError, after emptying the list.
* **Files of two columns** (C127): `line.rstrip()` is computed and dropped, so texts keep their line end; the test whether a value is a number looks at the second character of the line, so `n1 water` raises ValueError.
* **Calculation types** (C49–C52, C79): one failing point aborts `verify_eos`; `method` is removed from the shared pressure options; more points than components fail in the flash activity; names of module attributes give TypeError; several default combinations fail in saturation properties.
* **Fitting** (C53, C54, C56, C57, C59–C61, C80, C81): Boltzmann forms are undefined at a perfect fit, which then ranks last; a reference of zero counts as missing; a failed property improves the objective; constraint types are tested the wrong way round; one failing minimisation aborts a one-parameter grid; concurrent fits erase each other's intermediate files; the caller's options are changed; a guess can come from uninitialised memory; TLVE drops the density options.
