{"id": "C01", "title": "Length harmonisation broadcasts and never mixes lengths", "statement": "Harmonising a set of calculation inputs succeeds only when every supplied input is a scalar, has length one, or has the longest supplied length L. On success every returned entry has exactly L values: an input of length L comes back unchanged and a scalar or length-one input comes back as L copies of its value. Requested keys that were not supplied do not appear in the result. Inputs of two different lengths above one are rejected with a ValueError, and so is a call that supplies none of the requested keys.", "quantifier": "every dictionary of inputs, every list of requested keys, every explicit target length", "why_tests_cant": "The lengths, the key order and the mixture of scalars and arrays are unbounded; a test fixes a few of them.", "anchors": ["despasito/utils/general_toolbox.py: check_length_dict"]}
{"id": "C02", "title": "Defaults fill gaps and never override a user's value", "statement": "Applying defaults to a dictionary leaves every value the user supplied exactly as it was and adds each missing key with the default value, repeated to the requested length when one is given. Applying the same defaults twice is the same as applying them once.", "quantifier": "every dictionary, every list of keys and defaults, every requested length", "why_tests_cant": "It must hold for every combination of present and absent keys.", "anchors": ["despasito/utils/general_toolbox.py: set_defaults"]}
{"id": "C03", "title": "Numerical differentiation is exact on quadratics and never divides by zero", "statement": "In exact arithmetic the central-difference routine returns the exact derivative of every polynomial of degree at most two at every point, and its step is never zero, also at the point zero.", "quantifier": "every real evaluation point, every polynomial coefficient, every relative step above zero", "why_tests_cant": "A test can only sample points and polynomials.", "anchors": ["despasito/utils/general_toolbox.py: central_difference"]}
{"id": "C04", "title": "Root-finder dispatch: unknown methods are refused and known methods are honoured", "statement": "Solving for a root with a method name outside the documented list raises ValueError before the objective is evaluated. For every method on the list the solver that is run is the one asked for, or the documented fallback when its preconditions fail.", "quantifier": "every method name, every objective, every bounds argument", "why_tests_cant": "The dispatch depends on the objective's signs and on the shape of the bounds.", "anchors": ["despasito/utils/general_toolbox.py: solve_root"]}
{"id": "C05", "title": "Parallel evaluation gives the serial answer whatever the schedule", "statement": "Mapping a function over a list of jobs with any number of workers returns, per output position, the same values in the same order as the serial loop, whichever worker ran which job and in whichever order the jobs finished.", "quantifier": "every function, every job list, every number of workers, every assignment and completion order", "why_tests_cant": "Schedules are chosen by the operating system; a test sees only one.", "anchors": ["despasito/utils/parallelization.py: MultiprocessingJob.pool_job, MultiprocessingJob.serial_job, batch_jobs"]}
{"id": "C06", "title": "No worker log line is lost or duplicated by log consolidation", "statement": "Consolidating worker logs appends the content of each worker log file to the main log once, and then the worker log files are gone.", "quantifier": "every number of workers and every content of their log files, every earlier content of the main log", "why_tests_cant": "Depends on the directory contents and on process identifiers.", "anchors": ["despasito/utils/parallelization.py: MultiprocessingJob._consolidate_mp_logs, _remove_mp_logs, end_pool"]}
{"id": "C07", "title": "Every entry of an input file is routed to exactly one consumer", "statement": "When an input file is interpreted, every top-level entry that is not one of the file-level keys ends up either in the equation-of-state arguments or in the calculation arguments, never in both and, unless another entry claims the same destination name, never dropped. Entries whose name starts with the equation-of-state prefix arrive there with the prefix removed, and the choice of compiled backend arrives with the equation of state.", "quantifier": "every input dictionary", "why_tests_cant": "The key set is open-ended.", "anchors": ["despasito/input_output/read_input.py: extract_calc_data"]}
{"id": "C08", "title": "The bead matrix counts every bead of every component", "statement": "From a list of components, each given as a list of (bead, count) pairs, the reader returns the sorted list of distinct bead names and a matrix with one row per component whose entry for a bead is the number of those beads in the component: the sum of its counts over the component's list.", "quantifier": "every list of components, including one that names the same bead twice", "why_tests_cant": "Names, multiplicities and orders are unbounded.", "anchors": ["despasito/input_output/read_input.py: process_bead_data"]}
{"id": "C09", "title": "Columns of an experimental data file reach the right quantity in order", "statement": "Reading a data file gives one array per column under its own name, and groups the mole fraction columns of a phase into one array whose rows are the data points and whose columns keep the order of the file; no data value is lost.", "quantifier": "every header and every table of values", "why_tests_cant": "Column names and counts are unbounded.", "anchors": ["despasito/input_output/read_input.py: process_exp_data_file"]}
{"id": "C10", "title": "Saving parameters loses nothing and is deterministic", "statement": "Writing a bead library to a file writes each bead exactly once with its parameters unchanged, ordered without regard to letter case, so the file does not depend on the insertion order of the library.", "quantifier": "every library, every insertion order", "why_tests_cant": "All permutations of unbounded libraries.", "anchors": ["despasito/input_output/write_output.py: write_EOSparameters"]}
{"id": "C11", "title": "The result table has one column per scalar and one row per state point", "statement": "The output table written for a calculation has one row per state point. Scalar results give one column, vector results of n>1 entries give n columns numbered 1..n, in dictionary order, and the header line has as many names as each row has values.", "quantifier": "every result dictionary with any number of points, keys and components", "why_tests_cant": "Sizes are unbounded.", "anchors": ["despasito/input_output/write_output.py: writeout_thermo_dict"]}
{"id": "C12", "title": "Combining rules are symmetric, idempotent and bounded by their arguments", "statement": "Every built-in combining rule for a pair of beads gives the same value when the two beads are exchanged, gives the beads' common value when they are identical, and, for the mean-type rules, a value between the two (and positive for positive inputs).", "quantifier": "every pair of positive parameter values and weights (Mie exponents at least 3)", "why_tests_cant": "Continuum of inputs.", "anchors": ["despasito/equations_of_state/combining_rule_types.py: mean, geometric_mean, volumetric_geometric_mean, weighted_mean, mie_exponent, square_well_berthelot"]}
{"id": "C13", "title": "Cross-interaction matrices are symmetric and respect the user's values", "statement": "The cross-interaction matrix built for a list of beads has each bead's own parameter on the diagonal, the user's cross parameter wherever the cross library gives one for the pair in either order, and the combining rule's value everywhere else; it is symmetric.", "quantifier": "every bead list, bead library and cross library", "why_tests_cant": "All library shapes, including both nesting orders of a pair.", "anchors": ["despasito/equations_of_state/eos_toolbox.py: cross_interaction_from_dict"]}
{"id": "C14", "title": "Missing bead parameters get the documented default and the caller's library is not modified", "statement": "Checking a bead library returns a library in which every parameter has the supplied value, else the documented default, else an error naming it; the library passed in by the caller is not changed.", "quantifier": "every bead library and every table of defaults", "why_tests_cant": "Every combination of present and missing parameters.", "anchors": ["despasito/equations_of_state/eos_toolbox.py: check_bead_parameters"]}
{"id": "C15", "title": "Insignificant components are removed and put back in place", "statement": "Dropping components with insignificant mole fraction keeps exactly the significant ones, in order, in both the mole fractions and the masses, each mass staying attached to its component.", "quantifier": "every composition and list of masses", "why_tests_cant": "Unbounded numbers of components and beads.", "anchors": ["despasito/equations_of_state/eos_toolbox.py: remove_insignificant_components"]}
{"id": "C16", "title": "Choosing a backend yields one that exists", "statement": "Whatever combination of numba, cython and python switches the user gives, the evaluation of the SAFT monomer and association terms runs with an importable backend, and requesting an installed backend uses it.", "quantifier": "every combination of switches and of installed optional packages", "why_tests_cant": "Optional packages vary per machine; tests run on one machine.", "anchors": ["despasito/equations_of_state/__init__.py: method_stat", "despasito/equations_of_state/saft/gamma_mie.py", "despasito/equations_of_state/saft/Aassoc.py: _calc_Xika_wrap"]}
{"id": "C17", "title": "All backends compute the same association fractions", "statement": "For every input the numba and the pure-python implementation of the association mass balance return the same unbonded fractions and error estimates.", "quantifier": "every set of sites, density list, composition, association strength", "why_tests_cant": "Iteration paths depend on the data.", "anchors": ["despasito/equations_of_state/saft/compiled_modules/ext_Aassoc_numba.py: calc_Xika_4, calc_Xika_6", "despasito/equations_of_state/saft/compiled_modules/ext_Aassoc_python.py: calc_Xika"]}
{"id": "C18", "title": "Parameter bounds are always clipped into the physical limits", "statement": "Whatever bounds are requested for a parameter, the bounds returned lie within the extreme limits of that parameter, requested bounds already inside the limits and in order are returned unchanged, a bound outside them is replaced by the limit on its own side, and an unknown parameter is refused with ValueError.", "quantifier": "every pair of finite or infinite requested bounds, every parameter and limit table", "why_tests_cant": "Continuum of inputs.", "anchors": ["despasito/equations_of_state/interface.py: EosTemplate.check_bounds", "despasito/equations_of_state/saft/saft.py: EosType.check_bounds"]}
{"id": "C19", "title": "Updating a parameter changes that parameter and nothing else", "statement": "Updating one parameter of a bead, or of a pair of beads, makes the new value the one later reads return, whichever order the pair is named in, and leaves every other parameter of every bead and pair as it was. A refused update (unknown bead, unknown parameter, too many beads) changes nothing.", "quantifier": "every history of accepted and refused updates", "why_tests_cant": "All histories, including a pair named in both orders.", "anchors": ["despasito/equations_of_state/interface.py: EosTemplate.update_parameter", "despasito/equations_of_state/saft/saft.py: EosType.update_parameter"]}
{"id": "C20", "title": "Peng-Robinson pressure is the ideal gas law at low density and diverges only at close packing", "statement": "The Peng-Robinson pressure is defined and finite for every density between zero and the reciprocal of the mixture co-volume, which includes every density up to the reported maximum density; it is zero at zero density, and P/rho tends to RT as the density goes to zero.", "quantifier": "every temperature, composition and parameter set with positive co-volume", "why_tests_cant": "Limits and continuum of inputs.", "anchors": ["despasito/equations_of_state/cubic/peng_robinson.py: EosType.pressure, density_max"]}
{"id": "C21", "title": "Relabelling components does not change Peng-Robinson results", "statement": "Permuting the components together with their mole fractions and parameters leaves the mixture parameters, pressure and maximum density unchanged and permutes the fugacity coefficients in the same way.", "quantifier": "every number of components, every permutation", "why_tests_cant": "Factorially many permutations.", "anchors": ["despasito/equations_of_state/cubic/peng_robinson.py: _calc_mixed_parameters, pressure, fugacity_coefficient"]}
{"id": "C22", "title": "A component with zero mole fraction does not influence a Peng-Robinson mixture", "statement": "Adding a component with mole fraction zero leaves the pressure, the maximum density and the fugacity coefficients of the other components unchanged.", "quantifier": "every mixture, every parameter of the absent component", "why_tests_cant": "Continuum of inputs.", "anchors": ["despasito/equations_of_state/cubic/peng_robinson.py: _calc_mixed_parameters, pressure, fugacity_coefficient"]}
{"id": "C23", "title": "Peng-Robinson fugacity coefficients are thermodynamically consistent with its pressure", "statement": "One residual Helmholtz energy, vanishing at infinite volume, generates both outputs: the pressure is minus its volume derivative plus the ideal-gas term, and the logarithm of each component's fugacity coefficient is its derivative with respect to the amount of that component minus ln Z.", "quantifier": "every temperature, density below close packing and parameter set", "why_tests_cant": "An identity of functions.", "anchors": ["despasito/equations_of_state/cubic/peng_robinson.py: pressure, fugacity_coefficient"]}
{"id": "C24", "title": "Refreshed Peng-Robinson parameters equal those of a freshly built object", "statement": "After any history of parameter updates followed by a refresh, the object evaluates exactly as an object newly built from the updated bead library.", "quantifier": "every history of updates, refreshes and evaluations", "why_tests_cant": "Histories are unbounded.", "anchors": ["despasito/equations_of_state/cubic/peng_robinson.py: update_parameter, parameter_refresh, _calc_temp_dependent_parameters"]}
{"id": "C25", "title": "Refreshed SAFT parameters equal those of a freshly built object", "statement": "After any history of evaluations, parameter updates and refreshes, evaluating the equation of state at a temperature and composition uses exactly the state-dependent quantities that an object newly built from the current parameters would compute.", "quantifier": "every history of evaluations, updates and refreshes", "why_tests_cant": "History dependence; a test fixes one history.", "anchors": ["despasito/equations_of_state/saft/gamma_mie.py: parameter_refresh, _check_temperature_dependent_parameters, _check_composition_dependent_parameters", "despasito/equations_of_state/saft/gamma_sw.py: parameter_refresh", "despasito/equations_of_state/saft/saft.py: Aassoc, parameter_refresh"]}
{"id": "C26", "title": "Repeated evaluation is transparent", "statement": "Without parameter updates, the cached temperature and composition dependent quantities never change a result: evaluating a sequence of states in any order gives at each state the value a fresh object gives.", "quantifier": "every sequence of temperatures and compositions", "why_tests_cant": "All sequences.", "anchors": ["despasito/equations_of_state/saft/gamma_mie.py: _check_temperature_dependent_parameters, _check_composition_dependent_parameters", "despasito/equations_of_state/saft/gamma_sw.py: _check_composition_dependent_parameters"]}
{"id": "C27", "title": "Segment fractions form a probability distribution", "statement": "The segment-fraction matrix used in the SAFT monomer term is symmetric, non-negative and sums to one, its diagonal being the squares of the segment fractions; the molecule to segment factor is positive.", "quantifier": "every composition and molecular make-up", "why_tests_cant": "Continuum of inputs, any number of beads.", "anchors": ["despasito/equations_of_state/saft/saft_toolbox.py: calc_composition_dependent_variables"]}
{"id": "C28", "title": "Molecular average parameters lie between the group parameters", "statement": "The average diameter, well depth and exponents of a molecule lie between the smallest and largest of the corresponding group pair values, and for a molecule made of one kind of group they equal that group's values.", "quantifier": "every molecule and positive group parameter set", "why_tests_cant": "Continuum of inputs, any number of groups.", "anchors": ["despasito/equations_of_state/saft/gamma_mie.py: calc_component_averaged_properties", "despasito/equations_of_state/saft/gamma_sw.py: calc_component_averaged_properties"]}
{"id": "C29", "title": "A pure fluid and a mixture with one present component agree in the SAFT hard-sphere term", "statement": "The hard-sphere contribution of a one-component system equals that of a mixture in which this component has mole fraction one and the others zero.", "quantifier": "every molecule, density and temperature", "why_tests_cant": "Continuum of inputs.", "anchors": ["despasito/equations_of_state/saft/gamma_mie.py: Ahard_sphere"]}
{"id": "C30", "title": "Hard-sphere compressibility is physical", "statement": "The hard-sphere isothermal compressibility factor used by the SAFT perturbation terms is one at zero packing, lies in (0,1) for packing fractions in (0,1) and is strictly decreasing there.", "quantifier": "every packing fraction in [0,1)", "why_tests_cant": "Continuum of inputs.", "anchors": ["despasito/equations_of_state/saft/saft_toolbox.py: calc_KHS"]}
{"id": "C31", "title": "Hand-written density derivatives in the chain term are the true derivatives", "statement": "The analytic derivatives with respect to segment density used in the radial distribution function (of the Sutherland energy, of the effective packing fraction of the square-well fluid, of the correction B, of the hard-sphere compressibility, of the first-order energy and of the second-order energy without its correction factor) are the derivatives of the quantities the same module computes.", "quantifier": "every density below close packing, every exponent above three and not four, every diameter and well depth", "why_tests_cant": "An identity of functions over a continuum.", "anchors": ["despasito/equations_of_state/saft/compiled_modules/ext_gamma_mie_python.py: calc_a1s_eff, calc_da1sii_drhos, calc_Bkl_eff, calc_dBkl_drhos, calc_da1iidrhos, calc_da2ii_1pchi_drhos", "despasito/equations_of_state/saft/compiled_modules/ext_gamma_mie_numba.py", "despasito/equations_of_state/saft/gamma_sw.py: Asecond_order, calc_gSW, _dzetaeff_dzetax"]}
{"id": "C32", "title": "The Mie prefactor makes the well depth the minimum of the potential", "statement": "With the prefactor the code computes, the Mie pair potential never goes below minus the well depth, and reaches it exactly at one separation, for every repulsive exponent larger than the attractive one.", "quantifier": "every exponent pair with repulsive > attractive > 0, every separation", "why_tests_cant": "Continuum of inputs.", "anchors": ["despasito/equations_of_state/saft/compiled_modules/ext_gamma_mie_python.py: prefactor"]}
{"id": "C33", "title": "Monomeric fluids have no chain contribution", "statement": "A molecule consisting of one spherical segment has exactly zero chain contribution to the Helmholtz energy at every state; adding a component with mole fraction zero does not change the chain contribution.", "quantifier": "every density, temperature and composition", "why_tests_cant": "Continuum of inputs.", "anchors": ["despasito/equations_of_state/saft/gamma_mie.py: Achain", "despasito/equations_of_state/saft/gamma_sw.py: Achain"]}
{"id": "C34", "title": "Unbonded fractions are fractions and solve the mass balance when convergence is reported", "statement": "Every unbonded site fraction the association solver returns lies in (0,1], and when the reported error is below the tolerance the returned fractions satisfy the law of mass action within that tolerance. With no association strength at any density they are exactly one.", "quantifier": "every set of sites, densities and non-negative association strengths", "why_tests_cant": "Iterations of data-dependent length.", "anchors": ["despasito/equations_of_state/saft/compiled_modules/ext_Aassoc_python.py: calc_Xika"]}
{"id": "C35", "title": "Association sites are enumerated completely and once", "statement": "The list of association sites contains one entry for every component (whatever its mole fraction), bead present in it and site type of that bead with a count other than zero, each exactly once and in component, bead, site order, and nothing else.", "quantifier": "every composition, molecular make-up and site table", "why_tests_cant": "Any number of components, beads and sites.", "anchors": ["despasito/equations_of_state/saft/Aassoc.py: assoc_site_indices"]}
{"id": "C36", "title": "Association matrices are symmetric in exchanging both bead and site", "statement": "The association energy and bonding volume between site a of bead k and site b of bead l equals that between site b of bead l and site a of bead k.", "quantifier": "every bead library and cross library", "why_tests_cant": "All nesting orders of cross parameters.", "anchors": ["despasito/equations_of_state/saft/Aassoc.py: initiate_assoc_matrices, calc_assoc_matrices"]}
{"id": "C37", "title": "Densities are validated before use", "statement": "An equation of state accepts a scalar or a list of densities, treats a scalar as a list of one, and refuses an empty list, a NaN or a negative density with ValueError.", "quantifier": "every density argument", "why_tests_cant": "All lists.", "anchors": ["despasito/equations_of_state/saft/gamma_mie.py: _check_density", "despasito/equations_of_state/saft/gamma_sw.py: _check_density", "despasito/equations_of_state/saft/saft.py: _check_density"]}
{"id": "C38", "title": "Trial compositions obey the equilibrium relation", "statement": "The new mole fractions computed from fugacity coefficients and pressure satisfy the equilibrium relation with the other phase, and the equilibrium objective is zero exactly when they sum to one.", "quantifier": "every composition, set of positive fugacity coefficients and phase label", "why_tests_cant": "Continuum of inputs, any number of components.", "anchors": ["despasito/thermodynamics/calc.py: calc_new_mole_fractions, equilibrium_objective"]}
{"id": "C39", "title": "The pressure-volume isotherm is sampled on an increasing volume grid inside the physical range", "statement": "The sampled isotherm is returned with strictly increasing volumes, above the reciprocal of the maximum density and at most 2^maxiter times the reciprocal of the minimum density, the pressures belonging to those volumes; up to the reciprocal of the minimum density neighbouring volumes are at most the requested increment apart; a maximum density out of range or a range smaller than the increment is refused.", "quantifier": "every density range option and equation of state", "why_tests_cant": "Grid length depends on the options.", "anchors": ["despasito/thermodynamics/calc.py: pressure_vs_volume_arrays"]}
{"id": "C40", "title": "The phase flag agrees with the root the density solver picked", "statement": "The vapor density search reports the largest-volume root and the liquid density search the smallest-volume root of the isotherm at the requested pressure; the flag says liquid, vapor, critical, failed or ideal gas according to the isotherm, and no density is reported with the failed flag.", "quantifier": "every isotherm shape, number of roots and extrema", "why_tests_cant": "The branch taken depends on root counts and extrema of an arbitrary isotherm.", "anchors": ["despasito/thermodynamics/calc.py: calc_vapor_density, calc_liquid_density"]}
{"id": "C41", "title": "Fugacity coefficients match the density flag", "statement": "An ideal-gas density gives fugacity coefficients of exactly one for each component; a failed density gives undefined coefficients, one per component; otherwise they are those of the equation of state at the density found.", "quantifier": "every equation of state, pressure and composition", "why_tests_cant": "All flags and component counts.", "anchors": ["despasito/thermodynamics/calc.py: calc_vapor_fugacity_coefficient, calc_liquid_fugacity_coefficient"]}
{"id": "C42", "title": "A pressure bracket found for the bubble or dew point contains a sign change", "statement": "When the bracketing search for a bubble or dew pressure reports a bracket, the objective has opposite signs at its ends and the ends are ordered and within the pressure limits the user set; when no bracket is found an error or the failure flag is reported, never a bracket.", "quantifier": "every objective function, every search option, every number of iterations", "why_tests_cant": "The number of iterations and the branch sequence depend on an arbitrary function.", "anchors": ["despasito/thermodynamics/calc.py: calc_Prange_xi, calc_Prange_yi"]}
{"id": "C43", "title": "The reported dew-point composition is the converged one", "statement": "The liquid composition reported by a dew pressure calculation is the composition at which the equilibrium condition was satisfied at the reported pressure.", "quantifier": "every state point and every sequence of earlier calculations", "why_tests_cant": "Depends on the history of earlier points in the process.", "anchors": ["despasito/thermodynamics/calc.py: calc_dew_pressure, objective_dew_pressure"]}
{"id": "C44", "title": "The reported bubble-point composition is the converged one and independent of earlier points", "statement": "The vapor composition reported by a bubble pressure calculation is the one found at the last evaluation of the objective, and the outcome of a point does not depend on which points were computed before.", "quantifier": "every state point and every sequence of earlier calculations", "why_tests_cant": "Depends on the history of earlier points in the process.", "anchors": ["despasito/thermodynamics/calc.py: calc_bubble_pressure, objective_bubble_pressure"]}
{"id": "C45", "title": "Flash results are compositions and satisfy the K-value relations", "statement": "Every composition a binary flash returns without error has two entries that sum to one, and the vapor composition is the normalised product of K-values and liquid composition; a system that is not binary is refused.", "quantifier": "every K-value sequence produced by the equation of state", "why_tests_cant": "Iterations with resets depend on an arbitrary fluid.", "anchors": ["despasito/thermodynamics/calc.py: calc_flash"]}
{"id": "C46", "title": "Constrained K-values respect the composition limits", "statement": "When a flash is restricted to a range for the first component's mole fraction, the K-values used give liquid and vapor fractions of the first component within that range, or a ValueError is raised.", "quantifier": "every pair of K-values and limits, every random draw", "why_tests_cant": "Random draws and continuum of inputs.", "anchors": ["despasito/thermodynamics/calc.py: constrain_Ki"]}
{"id": "C47", "title": "Flash phases are labelled by density flags", "statement": "After a flash the phase reported as liquid is not flagged vapor while the other is flagged liquid: the swap rule exchanges the phases, with their compositions, exactly when the flags say they are inverted.", "quantifier": "every pair of flags and compositions", "why_tests_cant": "All flag combinations are rarely reached in tests.", "anchors": ["despasito/thermodynamics/calc.py: calc_flash"]}
{"id": "C48", "title": "Solubility parameter is real and non-negative or the point is refused", "statement": "The Hildebrand solubility parameter returned is the non-negative square root of minus the residual energy density; a positive residual energy is refused with ValueError.", "quantifier": "every equation of state and state point", "why_tests_cant": "Continuum of inputs.", "anchors": ["despasito/thermodynamics/calc.py: hildebrand_solubility"]}
{"id": "C49", "title": "One failing state point never spoils another", "statement": "In every calculation over several state points, a point whose evaluation raises an error is reported as undefined with the failure flag and the results of all other points are what they would be if the failing point had not been requested.", "quantifier": "every list of points and every subset of failing points", "why_tests_cant": "All subsets of failing points.", "anchors": ["despasito/thermodynamics/calculation_types.py: bubble_pressure, dew_pressure, flash, saturation_properties, liquid_properties, vapor_properties, solubility_parameter, verify_eos"]}
{"id": "C50", "title": "Solver options given by the user apply to every state point and are not consumed", "statement": "The pressure-solver options passed to a bubble or dew calculation are used for every state point of that calculation, and the dictionary passed in is unchanged afterwards.", "quantifier": "every list of points and every options dictionary", "why_tests_cant": "The number of points is unbounded and the effect needs at least two of them.", "anchors": ["despasito/thermodynamics/calc.py: calc_bubble_pressure, calc_dew_pressure", "despasito/thermodynamics/calculation_types.py: bubble_pressure, dew_pressure"]}
{"id": "C51", "title": "Activity coefficients choose their mode from the inputs", "statement": "The activity coefficient calculation runs a flash when only pressure is known, a dew point when only the vapor composition is known, a bubble point when only the liquid composition is known, uses the given values when both are known and refuses the request otherwise; the coefficient is y P / (x Psat).", "quantifier": "every combination of inputs", "why_tests_cant": "All combinations.", "anchors": ["despasito/thermodynamics/calculation_types.py: activity_coefficient", "despasito/thermodynamics/calc.py: activity_coefficient"]}
{"id": "C52", "title": "Unknown calculations and equations of state are refused by name", "statement": "Asking for a calculation type that does not exist raises an import error, asking for none raises ValueError, and an error inside a calculation is reported as TypeError; no other calculation is run in its place.", "quantifier": "every name", "why_tests_cant": "Names are unbounded.", "anchors": ["despasito/thermodynamics/__init__.py: thermo"]}
{"id": "C53", "title": "The fitting objective of a data set is non-negative, zero only for a perfect fit, and ignores missing points", "statement": "The deviation computed for a data set is zero when calculated and experimental values agree, positive otherwise, does not change when points that could not be calculated are removed as long as their share stays within the permitted ratio, and increases by the documented penalty beyond it.", "quantifier": "every list of calculated and experimental values, weights and options", "why_tests_cant": "All lengths and NaN patterns.", "anchors": ["despasito/parameter_fitting/fit_functions.py: obj_function_form"]}
{"id": "C54", "title": "The total objective ranks parameter sets correctly", "statement": "The total objective is the sum of the data set objectives plus a penalty that is positive exactly when a parameter is out of bounds; a parameter set for which a data set fails ranks below every one for which all succeed, and a perfect parameter set ranks best.", "quantifier": "every list of data set outcomes, parameter values and bounds", "why_tests_cant": "All outcomes.", "anchors": ["despasito/parameter_fitting/fit_functions.py: compute_obj"]}
{"id": "C55", "title": "Parameter bounds used in a fit lie inside the physical limits and match the parameters", "statement": "A fit uses one bound pair per fitted parameter in the order of the parameter list; every pair lies in the limits of the equation of state.", "quantifier": "every list of parameters and user bounds", "why_tests_cant": "Any number of parameters.", "anchors": ["despasito/parameter_fitting/fit_functions.py: consolidate_bounds, check_parameter_bounds, initial_guess"]}
{"id": "C56", "title": "Declared fitting constraints are enforced", "statement": "A constraint the user declares with a supported type is handed to the optimiser with its function and arguments; an unsupported type is refused.", "quantifier": "every constraint dictionary", "why_tests_cant": "Open-ended dictionaries.", "anchors": ["despasito/parameter_fitting/fit_functions.py: initialize_constraints"]}
{"id": "C57", "title": "Grid search returns the best grid result", "statement": "A grid minimisation returns a candidate whose objective is the least of all candidates, the first such in grid order, and evaluates the full Cartesian grid.", "quantifier": "every grid and objective", "why_tests_cant": "Grid sizes are unbounded.", "anchors": ["despasito/parameter_fitting/global_methods.py: grid_minimization, _grid_minimization_wrapper"]}
{"id": "C58", "title": "Basin hopping accepts only feasible finite candidates and proposes non-negative parameters", "statement": "A candidate is accepted by the bounds test only if every parameter is inside its bounds and the objective is a finite number; a proposed step is non-negative in every coordinate unless the retry limit is exhausted.", "quantifier": "every candidate, bound and random sequence", "why_tests_cant": "Random sequences.", "anchors": ["despasito/parameter_fitting/global_methods.py: _BasinBounds, _BasinStep"]}
{"id": "C59", "title": "Intermediate results already on disk are never overwritten", "statement": "Writing intermediate fitting results never removes or alters a line that is already in any file, for any existing set of files and after any number of restarts or crashes; each accepted result is appended once, in order, to the file chosen at start.", "quantifier": "every directory state, every sequence of results, every crash and restart", "why_tests_cant": "Crash points and directory states are unbounded.", "anchors": ["despasito/parameter_fitting/global_methods.py: _WriteParameterResults"]}
{"id": "C60", "title": "Fitting does not modify the caller's options", "statement": "Running a fit leaves the dictionaries the caller passed in unchanged, so a second run with the same dictionaries does the same thing.", "quantifier": "every options dictionary", "why_tests_cant": "Needs a second run with the same objects.", "anchors": ["despasito/parameter_fitting/__init__.py: fit", "despasito/parameter_fitting/fit_functions.py: global_minimization"]}
{"id": "C61", "title": "Fitted parameter names address the right parameter", "statement": "Each fitting parameter name is split into parameter and bead names such that exactly the addressed bead or pair parameter is changed for the next evaluation; malformed names are refused with ValueError.", "quantifier": "every list of names and values", "why_tests_cant": "Open-ended names.", "anchors": ["despasito/parameter_fitting/interface.py: ExpDataTemplate.update_parameters"]}
{"id": "C62", "title": "Logging can be switched on and off without leaking or losing handlers", "statement": "After any sequence of logger configurations there is at most one console and one file handler, and a handler exists exactly if the last configuration that mentioned it asked for it. Starting a log file empties the file of that name and touches no other file, and while a log file is in use no configuration call changes any file.", "quantifier": "every sequence of configuration calls", "why_tests_cant": "All histories.", "anchors": ["despasito/__init__.py: initiate_logger"]}
{"id": "C63", "title": "Numerical differentiation with a relative step works in floating point", "statement": "With a relative step size, the two sample points of the central-difference routine are distinct binary64 numbers, so that the returned derivative depends on the function.", "quantifier": "every binary64 evaluation point and positive relative step", "why_tests_cant": "Rounding depends on the point; a test samples a few.", "anchors": ["despasito/utils/general_toolbox.py: central_difference"]}
{"id": "C64", "title": "An incomplete fitting input is refused", "statement": "A fitting input that lacks the name of the bead to fit, the names of the parameters, or any data set is refused with a clear error instead of starting a fit of nothing.", "quantifier": "every fitting input dictionary", "why_tests_cant": "The set of inputs is open-ended.", "anchors": ["despasito/input_output/read_input.py: process_param_fit_inputs"]}
{"id": "C65", "title": "The result file says which calculation produced it", "statement": "The first line of a result table names the calculation type, so tables of two different calculation types are distinguishable.", "quantifier": "every result dictionary and every pair of calculation types", "why_tests_cant": "Must hold for all of them.", "anchors": ["despasito/input_output/write_output.py: writeout_thermo_dict"]}
{"id": "C66", "title": "The fit report pairs every parameter with its value", "statement": "The fit output file lists each fitted parameter name with the final value at the same position, in order, or the writer fails; a value is never attached to another name.", "quantifier": "every list of names and values", "why_tests_cant": "Lengths are unbounded.", "anchors": ["despasito/input_output/write_output.py: writeout_fit_dict"]}
{"id": "C67", "title": "The multipole combining rule uses the temperature it is given", "statement": "The cross energy parameter computed by the multipole combining rule is evaluated at the supplied temperature.", "quantifier": "every pair of beads and temperature", "why_tests_cant": "Continuum of temperatures.", "anchors": ["despasito/equations_of_state/combining_rule_types.py: multipole"]}
{"id": "C68", "title": "Numerical derivatives with respect to one partial density change that density only", "statement": "The numerical derivative of a function of the partial densities with respect to one component is the central difference quotient in that component's density, the other densities unchanged, and differs from the true derivative by at most M h^2/6 where M bounds the third derivative.", "quantifier": "every three times differentiable function, density vector and component", "why_tests_cant": "Functions and points are a continuum.", "anchors": ["despasito/equations_of_state/eos_toolbox.py: partial_density_central_difference, _partial_density_wrapper"]}
{"id": "C69", "title": "Component masses and properties follow the bead composition", "statement": "The molar mass of a component is the sum over its beads of count times bead mass, and a property extracted from the bead library is listed in bead order; a bead or property that is missing is refused.", "quantifier": "every bead list, composition matrix and library", "why_tests_cant": "Unbounded inputs.", "anchors": ["despasito/equations_of_state/eos_toolbox.py: calc_massi, extract_property"]}
{"id": "C70", "title": "Command line switches mean what the help text says", "statement": "Repeating -v never prints less, and asking for a backend on the command line selects that backend.", "quantifier": "every number of -v switches and combination of backend switches", "why_tests_cant": "All combinations.", "anchors": ["despasito/main.py: get_parser", "despasito/__main__.py"]}
{"id": "C71", "title": "The hard-sphere diameter is smaller than the segment diameter and shrinks with temperature", "statement": "The temperature-dependent hard-sphere diameter of a Mie segment is positive and smaller than the segment diameter, is proportional to it, decreases with temperature and increases with the well depth. In a mixture with the default rules every pair and every component keeps its hard-sphere diameter below the corresponding segment diameter, so reduced distances exceed one.", "quantifier": "every positive well depth, diameter, temperature and prefactor, every repulsive exponent above the attractive one", "why_tests_cant": "Continuum of inputs.", "anchors": ["despasito/equations_of_state/saft/saft_toolbox.py: calc_dkk, _dkk_int, calc_hard_sphere_matricies"]}
{"id": "C72", "title": "The reported maximum density keeps the packing fraction physical", "statement": "Up to the maximum density the equation of state reports for a maximum packing fraction, the packing fraction the hard-sphere contribution works with does not exceed that maximum, so the energy is defined there.", "quantifier": "every composition, molecule, segment size and maximum packing fraction", "why_tests_cant": "Continuum of inputs.", "anchors": ["despasito/equations_of_state/saft/gamma_sw.py: density_max, reduced_density, Ahard_sphere", "despasito/equations_of_state/saft/gamma_mie.py: density_max, Ahard_sphere"]}
{"id": "C73", "title": "The association site table lists every site of every bead", "statement": "The site table has one column per distinct site named in the parameters of the beads and one row per bead; each entry is the count the bead's parameters give for that site and zero when they give none. Association is switched on exactly when some component contains a bead with sites. Site keys without or with more than one hyphen are refused with ValueError.", "quantifier": "every bead list, bead library and molecular make-up", "why_tests_cant": "Columns are added while rows already exist; any number of beads and sites in any order.", "anchors": ["despasito/equations_of_state/saft/Aassoc.py: initiate_assoc_matrices"]}
{"id": "C74", "title": "Association parameters given for a pair of beads are used", "statement": "When the cross library gives an association energy or bonding volume for two beads that have the named sites, the matrices contain exactly that value for that pair, whichever bead is named first.", "quantifier": "every bead order, site order and cross library", "why_tests_cant": "Depends on the order of beads in the mixture and of names in the library.", "anchors": ["despasito/equations_of_state/saft/Aassoc.py: calc_assoc_matrices"]}
{"id": "C75", "title": "Association parameters of the beads are used, mixed and validated", "statement": "Without cross parameters each entry of the association matrices is the bead's own parameter under either order of the two site names (minus its absolute value for a site with itself), else the mixed value of the two beads, else zero. Incomplete or contradictory parameters are refused with ValueError, and nothing else is.", "quantifier": "every bead library, site table and bead list", "why_tests_cant": "Nested loops write entries in many orders.", "anchors": ["despasito/equations_of_state/saft/Aassoc.py: calc_assoc_matrices"]}
{"id": "C76", "title": "Association lowers the energy", "statement": "The association contribution to the Helmholtz energy is the sum over sites of the usual logarithmic expression, is never positive, is zero when nothing is bonded and negative when a site present in the mixture is bonded.", "quantifier": "every composition, site list and set of unbonded fractions", "why_tests_cant": "Real-valued inequality for all fractions.", "anchors": ["despasito/equations_of_state/saft/saft.py: EosType.Aassoc"]}
{"id": "C77", "title": "Bonding volumes follow the parameters", "statement": "After association parameters change and are refreshed, the next evaluation uses bonding volumes computed from the new parameters.", "quantifier": "every history of evaluations and refreshes", "why_tests_cant": "Depends on the whole history of calls.", "anchors": ["despasito/equations_of_state/saft/saft.py: EosType.Aassoc, EosType.parameter_refresh"]}
{"id": "C78", "title": "A composition that adds up to one as written is accepted", "statement": "A list of mole fractions whose decimal values add up to one is accepted by every calculation that checks it, in every order of the components.", "quantifier": "every composition and order of components", "why_tests_cant": "Rounding of every partial sum.", "anchors": ["despasito/thermodynamics/calc.py: equilibrium_objective, calc_new_mole_fractions"]}
{"id": "C79", "title": "Every state point is evaluated with the inputs given for it", "statement": "In every calculation over state points, point i is evaluated with the i-th temperature, pressure and composition given (a single value standing for all points, a missing list for its documented default), the results stand at position i of the columns named after them, every column has one entry per point, the result holds exactly the documented columns, and a point that cannot be evaluated shows undefined values and flag 3.", "quantifier": "every combination of lists given, every number of points and every fluid", "why_tests_cant": "Lists have arbitrary lengths and any subset may be missing.", "anchors": ["despasito/thermodynamics/calculation_types.py: bubble_pressure, dew_pressure, flash, saturation_properties, liquid_properties, vapor_properties, solubility_parameter, verify_eos"]}
{"id": "C80", "title": "The initial guess of a fitted parameter is the stored value, else the middle of the limits", "statement": "Without a guess from the user, a fit starts each parameter at the value stored in the bead or cross library, and if none is stored at the middle of the limits of the equation of state; the guess is determined by the inputs.", "quantifier": "every library, bead pair, parameter and set of limits", "why_tests_cant": "Depends on what is in memory when the guess is made.", "anchors": ["despasito/equations_of_state/interface.py: EosTemplate.guess_parameters", "despasito/parameter_fitting/fit_functions.py: initial_guess"]}
{"id": "C81", "title": "Options and weights given with a data set reach its calculations", "statement": "Every density option given with a data set has that value in the calculations of the data set and the documented default otherwise; every property compared with data has the weight the user gave for it, one value per data point, and weight one otherwise.", "quantifier": "every data class, dictionary of options and weights, and number of points", "why_tests_cant": "Dictionaries are open ended.", "anchors": ["despasito/parameter_fitting/data_classes: liquid_density.py, flash.py, saturation_properties.py, TLVE.py, solubility_parameter.py"]}
{"id": "C82", "title": "Hard-sphere diameter is the Barker-Henderson integral", "statement": "The hard-sphere diameter of a bead approximates the Barker-Henderson integral of 1 - exp(-u(r)/kT) from zero to sigma: the rule integrates every polynomial of degree below 80 up to the rounding of its printed weights, so the error of the diameter is at most twice the best uniform approximation error by such polynomials plus that rounding.", "quantifier": "all well depths, sizes, temperatures, prefactors and pairs of exponents, and all polynomials", "why_tests_cant": "The bound ranges over all functions and polynomials; a mistyped digit in a node changes results by little.", "anchors": ["despasito/equations_of_state/saft/saft_toolbox.py: calc_dkk, _dkk_int"]}
{"id": "C83", "title": "Hard spheres of one size follow Carnahan-Starling", "statement": "If all segments have the same diameter, the hard-sphere contribution per molecule is the number of its segments times the Carnahan-Starling energy (4 eta - 3 eta^2)/(1 - eta)^2 at the packing fraction of the segments, for both SAFT variants, pure fluids and mixtures, and the packing fraction used by the perturbation terms is that of the segments.", "quantifier": "every number of components and kinds of segment, composition, diameter and density below close packing of one", "why_tests_cant": "Continuum of states and any number of components.", "anchors": ["despasito/equations_of_state/saft/gamma_sw.py: Ahard_sphere, reduced_density", "despasito/equations_of_state/saft/gamma_mie.py: Ahard_sphere", "despasito/equations_of_state/saft/saft_toolbox.py: calc_zetax"]}
{"id": "C84", "title": "The integrals of the Mie kernels", "statement": "The quantities I and J of the Mie kernels are the integrals of x^2 x^-l and (x - 1) x^2 x^-l from contact to x0, and a repulsive exponent of zero is refused with ValueError.", "quantifier": "every x0 above zero and exponent other than 3 and 4", "why_tests_cant": "Continuum of exponents and ranges.", "anchors": ["despasito/equations_of_state/saft/compiled_modules/ext_gamma_mie_python.py: calc_Bkl, calc_Bkl_eff, calc_dBkl_drhos, prefactor"]}
{"id": "C85", "title": "Residual energy vanishes with the density", "statement": "As the density tends to zero the residual Helmholtz energy of a fluid without association sites tends to zero.", "quantifier": "every object of either SAFT variant, composition and temperature", "why_tests_cant": "A limit at density zero, where the formulas are 0/0.", "anchors": ["despasito/equations_of_state/saft/saft.py: residual_helmholtz_energy", "despasito/equations_of_state/saft/gamma_sw.py: Amonomer, Achain, calc_gSW", "despasito/equations_of_state/saft/gamma_mie.py: Amonomer, Achain, gdHS, g1, g2"]}
{"id": "C86", "title": "SAFT pressure is the density derivative of the energy", "statement": "The pressure a SAFT equation of state returns is R T rho^2 times the derivative of its Helmholtz energy with respect to density, up to an error bounded by the third derivative and the square of the step; without residual terms it is the ideal-gas pressure up to a relative error of twice the squared step; it is defined for every non-negative density.", "quantifier": "every temperature, composition, energy function and list of densities", "why_tests_cant": "An error bound over all energies and densities cannot be sampled.", "anchors": ["despasito/equations_of_state/saft/saft.py: pressure, helmholtz_energy", "despasito/utils/general_toolbox.py: central_difference"]}
{"id": "C87", "title": "SAFT fugacity coefficients", "statement": "The logarithm of the fugacity coefficient of each component is the residual energy plus density times its derivative with respect to that component's density, minus ln Z, within a bound by the square of the step; it is one for an ideal gas; for a component at mole fraction zero it is the limit at small fractions; the option log_method selects the kind of difference used.", "quantifier": "every residual energy, state, composition and component", "why_tests_cant": "The limit and the error bound range over all functions.", "anchors": ["despasito/equations_of_state/saft/saft.py: fugacity_coefficient", "despasito/equations_of_state/eos_toolbox.py: partial_density_central_difference"]}
{"id": "C88", "title": "Ideal-gas Helmholtz energy", "statement": "The ideal contribution is the sum of x ln(n x L^3) less one, with n the number density and L the de Broglie wavelength in SI units; it depends on density and temperature as an ideal gas (ln rho - 3/2 ln T), mixing adds the sum of x ln x to the mean of the pure energies, components below machine precision have no influence, and an unknown method is refused with ValueError.", "quantifier": "all compositions of any number of components, masses, densities and temperatures", "why_tests_cant": "Identities over all states and component counts.", "anchors": ["despasito/equations_of_state/saft/Aideal.py: Aideal_contribution, Abroglie"]}
{"id": "C89", "title": "Association after parameter changes", "statement": "After association parameters are updated and the object refreshed, it associates, with the matrices of the current parameters, exactly when an object newly built from those parameters does.", "quantifier": "every history of updates and refreshes", "why_tests_cant": "Histories are unbounded.", "anchors": ["despasito/equations_of_state/saft/saft.py: EosType.__init__, parameter_refresh"]}
{"id": "C90", "title": "Choice of the equation of state by name", "statement": "A request for an equation of state whose name is not of the form family.name, or with every backend switched off, is refused with ValueError; the SAFT family accepts exactly its two variants and refuses others with ValueError; for other families a missing module or class is reported as ImportError and otherwise the class of that module is built.", "quantifier": "every name and combination of switches", "why_tests_cant": "Names are open ended.", "anchors": ["despasito/equations_of_state/__init__.py: initiate_eos, method_stat", "despasito/equations_of_state/saft/saft.py: saft_type"]}
{"id": "C92", "title": "Attraction strength of the Mie potential", "statement": "The dimensionless constant on which the second and third order Mie corrections depend is the van der Waals integral of the potential: minus the integral of u(r) r^2 from sigma to infinity, divided by epsilon sigma^3, for the potential whose well depth is epsilon.", "quantifier": "all pairs of beads with exponents 3 < lambda_a < lambda_r", "why_tests_cant": "An improper integral over a family of potentials cannot be checked on samples.", "anchors": ["despasito/equations_of_state/saft/gamma_mie.py: __init__, parameter_refresh", "despasito/equations_of_state/saft/saft_toolbox.py: prefactor"]}
{"id": "C93", "title": "Second virial coefficients of the perturbation terms", "statement": "At low density each monomer term of both SAFT variants is linear in density with the coefficient statistical mechanics gives: the hard-sphere term 2 pi/3 times the mean cubed contact distance, the first order term 2 pi/T times the mean of the integral of u r^2 outside the core, the second order term -pi/T^2 times the mean of the integral of u^2 r^2, per squared number of segments.", "quantifier": "all mixtures of any number of bead types, all parameters and temperatures", "why_tests_cant": "Limits and integrals over all parameters.", "anchors": ["despasito/equations_of_state/saft/gamma_sw.py: Ahard_sphere, Afirst_order, Asecond_order", "despasito/equations_of_state/saft/gamma_mie.py: Ahard_sphere, Afirst_order, Asecond_order"]}
{"id": "C94", "title": "Density dependence of the hard-sphere distribution function", "statement": "The hard-sphere radial distribution function used by the Mie chain term is one at zero packing and grows to first order with the volume of the lens shared by the exclusion spheres of the two segments.", "quantifier": "every distance in units of the hard-sphere diameter", "why_tests_cant": "A derivative at zero density for every distance.", "anchors": ["despasito/equations_of_state/saft/gamma_mie.py: gdHS"]}
{"id": "C95", "title": "Bonding volume of a site pair", "statement": "The bonding volume calculated from cutoff and site distances is 4 pi d^2 times the integral, over segment distances from contact to the largest bonding distance, of the fraction of orientations in which the two sites are within the cutoff; it is zero for a pair without a cutoff and positive whenever sites in contact can bond; a missing or zero site distance means the given fraction of the diameter.", "quantifier": "all cutoffs, site distances and diameters", "why_tests_cant": "A closed form against an integral for every geometry.", "anchors": ["despasito/equations_of_state/saft/Aassoc.py: calc_bonding_volume"]}
{"id": "C91", "title": "Corresponding states for both SAFT variants", "statement": "If all well depths (beads and cross library) are multiplied by one positive factor and all segment diameters by another, the model built from them gives, at the temperature multiplied by the first factor and the density divided by the cube of the second, exactly the residual Helmholtz energy (or refusal) of the original model, and its maximum density is the original one divided by the cube of the second factor.", "quantifier": "all factors, bead and cross libraries, molecules, compositions, temperatures and density arrays; default combining rules", "why_tests_cant": "A scaling law over two continuous factors and all libraries; any dimensionally inconsistent term breaks it.", "anchors": ["despasito/equations_of_state/saft/gamma_mie.py: SaftType", "despasito/equations_of_state/saft/gamma_sw.py: SaftType", "despasito/equations_of_state/saft/saft_toolbox.py", "despasito/equations_of_state/eos_toolbox.py: cross_interaction_from_dict", "despasito/equations_of_state/combining_rule_types.py"]}
{"id": "C96", "title": "A trial phase is returned with its own fugacity coefficients", "statement": "When the composition of the vapor (or liquid) beside a given liquid (or vapor) is searched at a fixed pressure, the fugacity coefficients and the phase flag that are returned are those of the composition that is returned, or failure is reported by NaN.", "quantifier": "all equations of state, guesses, numbers of iterations and tolerances", "why_tests_cant": "Every path through a nested iteration with restarts; tests see the paths their fluids take.", "anchors": ["despasito/thermodynamics/calc.py: calc_vapor_composition, calc_liquid_composition"]}
{"id": "C97", "title": "A converged trial phase reproduces itself", "statement": "The composition returned by these searches has fractions that are not negative and sum to one, one for each component; computing the other phase's composition from its fugacity coefficients gives the same composition within the tolerance; it is of the phase searched for.", "quantifier": "all equations of state, guesses and numbers of components", "why_tests_cant": "A property of every limit of the iteration, for every fluid.", "anchors": ["despasito/thermodynamics/calc.py: calc_vapor_composition, calc_liquid_composition, calc_new_mole_fractions"]}
{"id": "C98", "title": "The search for a new composition stays within its limits and skips what has no density", "statement": "The search over binary compositions returns one within the limits given, or reports that none is possible; compositions without a density are skipped; the quantity it minimises is zero at a composition in equilibrium.", "quantifier": "all equations of state, limits, numbers of points and interpolants", "why_tests_cant": "Quantifies over every objective along the range.", "anchors": ["despasito/thermodynamics/calc.py: find_new_yi, find_new_xi, objective_find_yi, objective_find_xi"]}
{"id": "C99", "title": "Bisection between two compositions", "statement": "Bisecting between two compositions of which one is a vapor returns a vapor that lies between them, with the flag found there, and within the tolerance of one that is not a vapor.", "quantifier": "all pairs of compositions, numbers of halvings and phase diagrams along the line", "why_tests_cant": "An invariant of a loop over every arrangement of phases.", "anchors": ["despasito/thermodynamics/calc.py: bracket_bounding_yi"]}
{"id": "C100", "title": "The saturation pressure satisfies the equal-area rule", "statement": "A reported saturation pressure of a pure component lies within the pressures of the van der Waals loop, the isotherm encloses equal areas above and below it within the tolerance, the densities belong to the outer volumes at that pressure with the liquid denser; otherwise all three results are NaN. A mixture is refused.", "quantifier": "all isotherms and volumes", "why_tests_cant": "Quantifies over every pressure curve.", "anchors": ["despasito/thermodynamics/calc.py: calc_saturation_properties, objective_saturation_pressure, pressure_vs_volume_spline"]}
{"id": "C101", "title": "A data set compares like with like", "statement": "The objective of a data set of a fit compares every measured quantity with the calculated values of the same quantity, of the same component and at the same state points, with the weights of that quantity; a quantity that was not measured contributes nothing. What the user gives for a quantity is what is used, a single value at every state point.", "quantifier": "all data sets of the five kinds, numbers of points and components, equations of state, comparison methods and weights", "why_tests_cant": "Quantifies over every data set and every calculation result.", "anchors": ["despasito/parameter_fitting/data_classes/saturation_properties.py: Data.objective", "despasito/parameter_fitting/data_classes/flash.py: Data.objective", "despasito/parameter_fitting/data_classes/TLVE.py: Data.objective", "despasito/parameter_fitting/data_classes/liquid_density.py: Data.objective", "despasito/parameter_fitting/data_classes/solubility_parameter.py: Data.objective", "despasito/parameter_fitting/fit_functions.py: reformat_output"]}
{"id": "C102", "title": "The calculations do not see the measured values", "statement": "The options a data set passes to the thermodynamic calculation do not depend on the measured values that the results are compared with.", "quantifier": "all pairs of data sets that differ in the measured values only", "why_tests_cant": "A statement on pairs of runs, for every input.", "anchors": ["despasito/parameter_fitting/data_classes/TLVE.py: Data._thermo_wrapper", "despasito/parameter_fitting/data_classes/saturation_properties.py: Data._thermo_wrapper", "despasito/parameter_fitting/data_classes/flash.py: Data._thermo_wrapper"]}
{"id": "C103", "title": "Missing entries of a data set take standard values or are refused", "statement": "A state variable left out of a data set takes the documented standard value at every state point; a data set without compositions of a mixture, or without any measured quantity, is refused when it is read, with the documented error; TLVE data without a calculation are bubble pressures.", "quantifier": "all data sets of the five kinds", "why_tests_cant": "Quantifies over every combination of entries.", "anchors": ["despasito/parameter_fitting/data_classes/liquid_density.py: Data.__init__", "despasito/parameter_fitting/data_classes/flash.py: Data.__init__", "despasito/parameter_fitting/data_classes/saturation_properties.py: Data.__init__", "despasito/parameter_fitting/data_classes/TLVE.py: Data.__init__", "despasito/parameter_fitting/data_classes/solubility_parameter.py: Data.__init__"]}
{"id": "C104", "title": "Peng-Robinson fugacity coefficients obey the Gibbs-Duhem equation", "statement": "At a state on the pressure surface, the mole fraction average of the changes of ln phi_i vanishes along every change of composition and density at constant temperature and pressure.", "quantifier": "all Peng-Robinson objects, numbers of components, states on the pressure surface and directions of change", "why_tests_cant": "Quantifies over every state and every path; finite differences carry an error.", "anchors": ["despasito/equations_of_state/cubic/peng_robinson.py: EosType.fugacity_coefficient, EosType.pressure"]}
{"id": "C105", "title": "The first consistency residual vanishes for consistent equations of state", "statement": "The first residual of the verify_eos calculation, the derivative of the mixture's ln phi with pressure less (Z - 1)/P, approaches 0 as the step is reduced for the equations of state of the package.", "quantifier": "all objects, pressures, temperatures, densities and compositions", "why_tests_cant": "A limit, and for every state.", "anchors": ["despasito/thermodynamics/calc.py: fugacity_test_1, mixture_fugacity_coefficient"]}
{"id": "C106", "title": "The second consistency residual is the Gibbs-Duhem sum", "statement": "The second residual of the verify_eos calculation approaches the sum of x_i dln phi_i / dn_1 as the step is reduced, so that it is 0 for consistent fugacity coefficients and not 0 for inconsistent ones.", "quantifier": "all fugacity coefficients, states, steps and amounts", "why_tests_cant": "A limit, and for every equation of state.", "anchors": ["despasito/thermodynamics/calc.py: fugacity_test_2, _fugacity_test_2"]}
{"id": "C107", "title": "The mixture fugacity coefficient of an array of states is the array of their mixture coefficients", "statement": "At one state it is the mole fraction average of ln phi_i; with an array of pressures, temperatures, densities or compositions it has the average of each state, in order, with the mole fractions of that state; more than one array is refused.", "quantifier": "all arrays and equations of state", "why_tests_cant": "Quantifies over every array and every coefficient.", "anchors": ["despasito/thermodynamics/calc.py: mixture_fugacity_coefficient"]}
{"id": "C108", "title": "Activity coefficients reproduce the pressure by modified Raoult's law", "statement": "The saturation pressures reported are those of the pure components, gamma_i x_i Psat_i is the partial pressure y_i P of every component present, and they add up to P.", "quantifier": "all pressures, temperatures, compositions and saturation pressures", "why_tests_cant": "Quantifies over every composition and every equation of state.", "anchors": ["despasito/thermodynamics/calc.py: activity_coefficient"]}
{"id": "C109", "title": "A run computes what the input file asks for and writes it where the file says", "statement": "With fitting instructions in the input, a run fits and does nothing else, each data set with an equation of state built from its own arguments, its own entries and the objective options of the whole fit, and writes the fitted values under the bead and parameter names of the input; otherwise it does the one calculation asked for, with the equation of state and all entries of the input, and writes its results. The file is the one named in the input, else despasito_out.txt.", "quantifier": "all inputs, equations of state, calculations and fits", "why_tests_cant": "Quantifies over every input and every outcome of the parts.", "anchors": ["despasito/main.py: run"]}
{"id": "C110", "title": "A run that ends well has written its results, and worker processes are stopped however it ends", "statement": "If a run ends without an error the results are in the result file; the worker processes, if any, are stopped and their logs removed whether the run succeeds or fails.", "quantifier": "all inputs and outcomes of the calculation, the fit and the writing", "why_tests_cant": "Quantifies over every failure of every part.", "anchors": ["despasito/main.py: run", "despasito/utils/parallelization.py: MultiprocessingJob.end_pool"]}
{"id": "C111", "title": "Log messages of a command line run go where the switches say", "statement": "Every message at or above the level chosen with -v is in the log file once, and on the console once if and only if --console is given; worker processes log at the same level; the log switch takes an optional name; no file but the old log is removed.", "quantifier": "all command lines and messages", "why_tests_cant": "Quantifies over all combinations of switches and messages.", "anchors": ["despasito/__main__.py", "despasito/main.py: get_parser", "despasito/utils/parallelization.py: MultiprocessingJob._extract_root_logging, MultiprocessingJob._initialize_mp_handler"]}
{"id": "C112", "title": "A run can be started from Python with the documented arguments", "statement": "Calling the documented entry point with a file name and a path runs what the file asks for.", "quantifier": "all inputs", "why_tests_cant": "Quantifies over every input file.", "anchors": ["despasito/main.py: run"]}
{"id": "C113", "title": "The options of a fit reach the optimiser", "statement": "Every option the user gives for a global optimisation method is handed to that method as written, an option the user leaves out has its documented default, and the options about the intermediate file and the worker processes take effect without being handed on.", "quantifier": "all option dictionaries, bounds and minimiser options, for differential_evolution, shgo, brute and basinhopping", "why_tests_cant": "Quantifies over every dictionary of options, including names the tests never use and every order in which they are written.", "anchors": ["despasito/parameter_fitting/global_methods.py: differential_evolution, shgo, brute, basinhopping, _WriteParameterResults, _BasinStep, _BasinBounds, _del_Data_MultiprocessingObject"]}
{"id": "C114", "title": "Constraints, minimiser options and reports of a fit", "statement": "A fit honours the constraints and the minimiser options it is given, with every method that documents them, and reports the number of points it tried.", "quantifier": "all methods, constraints, minimiser options and numbers of parameters and grid points", "why_tests_cant": "Quantifies over all combinations of method, constraints and options and over every grid size.", "anchors": ["despasito/parameter_fitting/__init__.py: fit", "despasito/parameter_fitting/fit_functions.py: global_minimization, initialize_constraints", "despasito/parameter_fitting/global_methods.py: single_objective, differential_evolution, shgo, brute"]}
{"id": "C115", "title": "The association integral is the documented polynomial", "statement": "For every density, temperature and pair of molecules the association integral equals the documented double sum over powers of the reduced density and of the temperature over the pair's well depth; it is symmetric in the two molecules, uses the whole table of coefficients and depends on density and diameters, temperature and well depths only through reduced quantities.", "quantifier": "all densities, temperatures, compositions, well depths and diameters", "why_tests_cant": "Quantifies over real parameters and states; tests compare a few numbers.", "anchors": ["despasito/equations_of_state/saft/compiled_modules/ext_gamma_mie_python.py: calc_Iij", "despasito/equations_of_state/saft/gamma_mie.py: calc_gr_assoc"]}
{"id": "C116", "title": "Association energies can be computed for both descriptions of bonding sites", "statement": "A fluid whose sites are described by bonding volumes or by cut-off distances has an association energy at every density, one value per density, and association never raises the Helmholtz energy.", "quantifier": "all site tables, compositions, densities, temperatures and parameters", "why_tests_cant": "Quantifies over every associating fluid and state.", "anchors": ["despasito/equations_of_state/saft/saft.py: Aassoc", "despasito/equations_of_state/saft/gamma_mie.py: calc_gr_assoc, calc_gdHS_assoc", "despasito/equations_of_state/saft/gamma_sw.py: calc_gr_assoc"]}
{"id": "C117", "title": "The fractions of unbonded sites are those of the law of mass action", "statement": "For every fluid with nonnegative densities, compositions, site numbers and association strengths there is exactly one list of positive unbonded fractions that satisfies the law of mass action; replacing all fractions repeatedly converges to it from every start; the fractions the library uses equal it up to a small relative error.", "quantifier": "all site tables, compositions, densities, association strengths and starting fractions", "why_tests_cant": "Quantifies over every associating fluid, including those whose iteration converges slowly; existence, uniqueness and limits are not observable by tests.", "anchors": ["despasito/equations_of_state/saft/compiled_modules/ext_Aassoc_python.py: calc_Xika", "despasito/equations_of_state/saft/Aassoc.py: _calc_Xika_wrap"]}
{"id": "C118", "title": "The order in which groups and components are listed does not matter", "statement": "If the groups (beads) are listed in another order, with the columns of the composition matrix reordered accordingly, and the components in another order, with its rows, the ring entries and the mole fractions reordered accordingly, then the equation of state object can be built again and the residual Helmholtz energy at every density and temperature, and the maximum density, are the same numbers.", "quantifier": "every parameter library, cross-interaction library, list of groups, composition matrix, mixture, density and temperature; every pair of orders", "why_tests_cant": "a test compares a few mixtures in two orders; the claim ranges over all permutations, libraries and states", "anchors": ["despasito/equations_of_state/saft/saft.py: EosType.__init__", "despasito/equations_of_state/saft/gamma_sw.py: EosType", "despasito/equations_of_state/saft/gamma_mie.py: EosType", "despasito/equations_of_state/eos_toolbox.py: cross_interaction_from_dict"]}
{"id": "C119", "title": "Pair matrices are refused for one of two reasons only", "statement": "Building the matrices of pair parameters succeeds exactly if every group has every parameter and every pair of different groups has, for every parameter, an entry in the cross library or two groups whose combining rule gives one. A missing group parameter is reported as a KeyError, and a pair that cannot be obtained as a ValueError; no other error is possible.", "quantifier": "every list of groups, library, cross library, list of parameters and combining rule that gives its own parameter or nothing", "why_tests_cant": "tests try one missing parameter; the claim is about every library and every place a parameter may be missing", "anchors": ["despasito/equations_of_state/eos_toolbox.py: cross_interaction_from_dict"]}
{"id": "C120", "title": "The bonding volume of two molecules depends on the sizes of those two only", "statement": "The volume within which two association sites bond is computed from the mean diameter of the two molecules that carry them; other components of the mixture do not enter.", "quantifier": "every matrix of diameters, site geometry, pair of components, pair of groups and pair of sites", "why_tests_cant": "a test checks pure fluids and one mixture; a wrong mean shows only for unlike sizes", "anchors": ["despasito/equations_of_state/saft/gamma_sw.py: calc_Kijklab", "despasito/equations_of_state/saft/gamma_mie.py: calc_Kijklab", "despasito/equations_of_state/saft/Aassoc.py: calc_bonding_volume"]}
{"id": "C121", "title": "The search for the bubble or dew pressure finds a bracket whenever there is one to find", "statement": "For a fluid whose equilibrium objective changes sign once as the pressure rises and whose phases are identified correctly, the search, allowed enough iterations, ends with a lower pressure below and an upper pressure above the bubble (dew) pressure and suggests a pressure between them; limits the user gives on both sides of the bubble pressure are returned as the bracket, and a bubble pressure below the user's minimum is refused with a ValueError.", "quantifier": "every fluid with a monotone objective, every range of pressures where only one phase is found, every starting range, every pair of scaling factors and every bubble (dew) pressure", "why_tests_cant": "a test tries a few fluids; whether the search loops end depends on how the first pressures compare with the unknown one", "anchors": ["despasito/thermodynamics/calc.py: calc_Prange_xi", "despasito/thermodynamics/calc.py: calc_Prange_yi"]}
{"id": "C122", "title": "Unusable starting compositions of bubble and dew points are replaced", "statement": "In a bubble or dew point of a binary mixture, a starting composition of the other phase that gives the wrong phase, gives no density, or is the composition of the known phase is replaced by a search over compositions: it has no influence on the result beyond its total amount, and when the search fails the calculation fails the same way.", "quantifier": "every equation of state, composition and coefficients of the known phase, tolerance, range and number of search points, number of iterations and pair of positive starting compositions", "why_tests_cant": "the search is entered only in the first iteration and only for particular phases; tests run a few mixtures whose guess is usable", "anchors": ["despasito/thermodynamics/calc.py: calc_vapor_composition, calc_liquid_composition, find_new_yi, find_new_xi"]}
{"id": "C123", "title": "A Peng-Robinson fluid has the critical point it was given", "statement": "A one-component Peng-Robinson object created from a critical temperature Tc, critical pressure Pc and acentric factor has its phase behaviour decided by those numbers: for temperatures between Tc(1+1e-6) and 4 Tc the pressure strictly increases with density over the whole density range up to close packing, so only one phase exists (for acentric factors up to 0.43 at every temperature above Tc(1+1e-6); for larger ones, whose alpha function grows faster than the temperature, the fall of the pressure returns far above Tc); for every positive temperature up to Tc(1-1e-6) the pressure falls somewhere as density rises, so a liquid and a vapour branch exist; at T = Tc and compressibility 0.3074013 the pressure equals Pc within 2e-7 relative. Two fluids with the same acentric factor have the same P/Pc at the same T/Tc and the same reduced density.", "quantifier": "All positive Tc and Pc, all acentric factors from -0.2 to 1 (any acentric factor for corresponding states), all temperatures in the stated ranges, all densities below close packing", "why_tests_cant": "Tests compare a few tabulated pressures; monotonicity of every isotherm above Tc and existence of a loop on every isotherm below Tc are statements about a continuum of states and fluids.", "anchors": ["despasito/equations_of_state/cubic/peng_robinson.py: EosType.__init__", "despasito/equations_of_state/cubic/peng_robinson.py: EosType.pressure", "despasito/equations_of_state/cubic/peng_robinson.py: EosType._calc_temp_dependent_parameters"]}
{"id": "C124", "title": "The association energy does not depend on the order of components, groups and sites", "statement": "For the same mixture written with its components, its groups and its kinds of association sites in any other order (the arrays permuted accordingly), SAFT returns the same association energy per molecule, including the site list it derives from the site counts, and also with the Mie association integral and bonding volumes from the library.", "quantifier": "All mixtures, all numbers of components, groups and kinds of sites, all permutations of the three, all parameter values", "why_tests_cant": "Tests list each mixture in one order. The number of orders grows factorially, and the sums run over a site list built from the arrays.", "anchors": ["despasito/equations_of_state/saft/saft.py: EosType.Aassoc", "despasito/equations_of_state/saft/Aassoc.py: assoc_site_indices", "despasito/equations_of_state/saft/compiled_modules/ext_Aassoc_python.py: calc_Xika"]}
{"id": "C125", "title": "The association parameters do not depend on the order in which groups are listed", "statement": "The site-site energies and bonding volumes assigned to two groups are the same in whatever order the groups of the mixture are listed, with or without a cross library; a set of parameters refused in one order is refused in every order.", "quantifier": "All libraries, all lists of groups and their permutations, all mixing rules", "why_tests_cant": "Tests use one listing of the groups; the loops carry state from one group to the next, so the order can matter only in mixtures with three entries or with a cross library.", "anchors": ["despasito/equations_of_state/saft/Aassoc.py: calc_assoc_matrices"]}
{"id": "C126", "title": "A batch of jobs returns what the serial loop returns and leaves logging as it was", "statement": "Running a function over a list of inputs with batch_jobs returns, whatever the number of processes and the order in which they finish, the outputs of the serial loop in input order; the handlers of the root logger are the same afterwards as before, and the log of every worker has been handed to the logger and its file removed, whether the jobs succeed or raise.", "quantifier": "All inputs, all functions without process state, all chunk sizes and completion orders, all sets of handlers, all contents of worker logs", "why_tests_cant": "Completion orders and failing jobs cannot be enumerated; the handlers of the root logger are global state that outlives the call.", "anchors": ["despasito/utils/parallelization.py: batch_jobs"]}
{"id": "C127", "title": "A file of two columns is read as a dictionary", "statement": "Every line of a file that consists of two fields becomes an entry of the dictionary returned by file2paramdict: the first field is the key and the second the value, a number where it can be read as one and otherwise the text as written; if a key occurs twice the later line counts; other lines are ignored.", "quantifier": "All files, all separators of one character, all keys and texts", "why_tests_cant": "The set of files is unbounded; whether a text is accepted depends on the spelling of its key.", "anchors": ["despasito/input_output/read_input.py: file2paramdict"]}
{"id": "C128", "title": "Cleaned plot data keep every abscissa once, in order, with its first ordinate", "statement": "The cleaned abscissas are exactly the given values, each once and strictly increasing; the ordinate of each is the one given at its first occurrence. A NaN among the abscissas is refused.", "quantifier": "All lists of numbers, including infinities, of any length and order", "why_tests_cant": "Duplicates and order are arbitrary.", "anchors": ["despasito/thermodynamics/calc.py: _clean_plot_data"]}
{"id": "C129", "title": "Equal fugacity coefficients and equal areas are the same criterion for a pure Peng-Robinson fluid", "statement": "For a pure Peng-Robinson fluid of given critical constants, two molar volumes at which the method pressure returns the same positive P have fugacity coefficients whose logarithms differ, times RT, by the area under the isotherm between the two volumes minus the area of the rectangle of height P; so they are equal exactly if the equal-area rule holds, and the saturation pressure found from areas is the one found from fugacities. The logarithm of the fugacity grows along an isotherm, times RT, as the pressure does divided by the density. The fugacity coefficient tends to one as the density tends to zero. At every temperature whose isotherm has a loop, in particular at every temperature below the given critical one by one part in a million, two volumes have one positive pressure and one fugacity coefficient, and no other volume of that pressure has a smaller one: the saturation pressure the calculations look for exists. It is the only one at its temperature, and its two densities are the only ones: as long as three densities have the pressure, the logarithm of the ratio of the fugacity coefficients of the densest and the least dense falls as the pressure rises, so below the saturation pressure the vapor and above it the liquid has the smaller fugacity coefficient.", "quantifier": "All positive critical temperatures and pressures, all acentric factors, all positive temperatures but the one at which the alpha function vanishes, all pairs of volumes above close packing with one positive pressure, all densities", "why_tests_cant": "Tests compare single values of each method; that two independently coded formulas agree as integral and derivative of each other is a statement about a continuum of states.", "anchors": ["despasito/equations_of_state/cubic/peng_robinson.py: EosType.pressure", "despasito/equations_of_state/cubic/peng_robinson.py: EosType.fugacity_coefficient", "despasito/thermodynamics/calc.py: calc_saturation_properties"]}
