# Formal model of BicycleParameters in Rocq/Coq 8.16 — design

## Conventions

* Numbers are Coq reals `R` (idealised `float`/`numpy.float64`, no rounding, no inf/nan; MFloat.v repeats
  some calculations with a rounding after every operation).  Uncertain numbers
  (`uncertainties.ufloat`) are represented by their nominal value unless a definition says otherwise; MUnc.v repeats
  the calculations with standard deviations (C76).
* Python exceptions are values: `res A := Ok a | Err exn` (`Base.v`).  A division whose denominator is zero is an
  explicit `Err ZeroDivisionError` (Python `float`/`ufloat` behaviour; numpy scalars give inf/nan, which is outside
  the model and is treated as the same failure).
* A Python `dict` is an insertion-ordered association list with string keys; the in-place effect of a function on a
  dictionary it receives is returned next to its result.
* External numerical routines (`scipy.optimize.newton`, `leastsq`, `numpy.linalg.eig`, `np.linalg.inv`, yeadon)
  are parameters (section variables or explicit arguments); theorems say what they assume of them.
* `M*.v` files hold model definitions only, each with a citation `[file:lines]`.  `S*.v` files hold independent
  specifications.  `P*.v` files hold lemmas.  `T*.v` files hold only the property theorems (closed by `exact`),
  `Print Assumptions`, and the `Example`s showing that hypotheses are satisfiable.

## Property plan

| id | modelled as | proof |
|----|-------------|-------|
| C01 | 2x2/4x4 matrices over R, `ab_matrix` | field; uniqueness by instantiating basis states |
| C02 | dictionary -> 25 reals -> canonical matrices; spec = per-body Newton-Euler balances | elimination of contact force, field |
| C03 | kinetic energy of four bodies as spec | ring/field, nra on sums of squares |
| C04 | dictionary-level model with KeyError order and zero divisions | case analysis |
| C05 | scaled dictionaries | field |
| C06 | A(-v), 4x4 characteristic polynomial | field |
| C07 | lines in the plane | field |
| C08 | newton as oracle; geometry closure | trigonometric algebra |
| C09, C10 | lists of rows, argmin with first-minimum tie rule | induction; counterexample for C10 plus the largest true case |
| C11, C12 | 3x3 matrices | ring, sin/cos identities |
| C13 | derivatives of the pendulum solution | derive + field |
| C14 | algebraic decomposition of the hollow cylinder and true integrals | field / RiemannInt or antiderivatives |
| C15 | normal equations (pseudo inverse) for arbitrary n; the inverse as numpy chooses it, pinv a parameter with the contract pseudo_inverse (MInertia2.v, SInertia2.v) | induction on the number of rows, Cramer; the tensor invisible from two directions |
| C16 | dictionary update model, canonical matrices with split rear body | field |
| C17 | string keys, KeyError | case analysis |
| C18 | lists of bodies | induction, Permutation |
| C19 | structural recursion | induction |
| C20 | lists of lines | induction |
| C21-C25 | plane/space vectors | field, trig, minimality by sums of squares |
| C26 | dictionary model of the conversion | field |
| C27-C29 | classes as required-key lists | list induction |
| C30-C33 | parameter values scalar or array; broadcasting | list induction |
| C34-C38 | strings/lists of characters, file system as a map from paths to texts | induction on strings |
| C39-C42 | dictionaries/lists | induction; derivable_pt_lim for the Jacobian |
| C43-C46 | Bicycle as a state machine over an abstract file system | case analysis / invariants |
| C47, C48 | composition of the above | field |
| C49 | lists of strings; decimal rendering of reals as character lists | induction on rows/columns, floor/round lemmas |
| C50 | gain/phase lists as outputs of an abstract Bode routine | floor characterisation |
| C51 | 3-vectors, rotation matrix | ring, trig identities |
| C52 | app callbacks as functions of table rows | induction |
| C53 | `get_period`'s formulas applied to any fit result | periodicity and derivative of the fit function |
| C54 | configuration solve as an oracle; residuals as spec of "hands and feet on the bicycle" | trig, case analysis on missing keys; the ridden bicycle from C16 and the figure's tensor in bicycle axes (SRider2.v) |
| C55 | the plotted points as functions of the sample index | trig identities |
| C56 | rider-lean state space; generated equations of motion and pitch solver as parameters with a contract | case analysis, list induction |
| C57 | `calc_eigen` over any eigen-solver meeting numpy's contract | list induction, ring |
| C58 | `simulate`, `simulate_modes` over any exact ODE solver | uniqueness of linear ODE solutions (energy estimate), derivative lemmas |
| C59 | modal controllability angles | list induction, counterexamples |
| C60 | the Bicycle object as its stored dictionaries; histories as lists of calls | invariant over histories |
| C61 | figures as lists of curves; modes from C10's sorting | permutations, sorted lists, min/max lemmas |
| C62 | the four arguments handed to `control.bode` | C01 specialised to one input and one output |
| C63 | drawing = list of shapes; `numpy.linalg.eig` of a symmetric 2x2 array is an oracle with a contract (an exact solver is given) | quadratic forms, uniqueness of principal axes |
| C64 | axes object = shapes added so far + inversion flag; calls as a datatype | induction over histories, plane geometry |
| C65 | figure = list of shapes (matplotlib) or traces (plotly) + y limits; eig as an oracle; `SDraw2.v` says what an ellipse, pendulum line, frame must look like | plane geometry, quadratic forms, inversion of the drawing program |
| C66 | `to_yaml`, `_from_yaml`, `to_ini`, `_repr_html_` and the LaTeX labels in MSets2.v; PyYAML is a pair of oracles (dump, load) asked to read back the one document in question | case analysis for YAML, the text lemmas of C34 and exact fixed-point formatting for INI and HTML. |
| C67 | `load_pendulum_mat_file` after loadmat, `make_guess`, `get_period`, `get_period_from_truncated` and the file loop in MPeriod2.v; `leastsq` and `inv` are oracles | case analysis for the files; crossings by induction over the record; derivatives of the oscillation (C40) for the normal matrix and of the period for the propagation; stationarity gives the normal equations (C42). |
| C68 | the plot methods of the models as functions to lists of lines, panels and axes in MPlots.v; eigensolver and integrator as in C57/C58; `SPlots.v` says what a line, panel or curve must show | from the meaning of eigenvalues (C57), motion (C58), angles (C59) and the sorting (C10) by looking up the drawn element; a diagonal sweep refutes the shading |
| C69 | a deep embedding of the assignment language in MLean.v; all 5546 statements of `_mooreriderlean2012.py` generated into MLeanProg.v by tools/lean_gen.py (read as text, one statement each); `numpy.empty` leaves arbitrary reals; `SLean.v` gives the dimension of every symbol, the mirrored and the reversed symbols | a checker follows a weight (an exponent of mass, length, time, or a sign) through a program; its soundness is proved once by induction on expressions and programs, for any weights and any pair of runs; the kernel evaluates the checker on the program (`vm_compute`); an exact rational evaluator, also proved sound, gives the concrete case |
| C70 | the same program as C69; `SLean2.v`: bodies, hinge, spring and damper, no-slip rolling, four Newton-Euler balances, kinetic and potential energy; pitch routine with a contract | symbolic execution into Laurent polynomials modulo cos^2 + sin^2 = 1 with eleven cut variables, proved sound (PLPoly.v, PLean6-8.v); the kernel evaluates the checks; the 3x3 system is solved by hand; energy by expanding the balances |
| C71 | `bicycle_eig`, `plot_eigenvalues`, `plot_eigenvalues_plotly` (MEig.v), `calc_eigen`, `simulate` (MModels2.v); `SStab.v`: coasting motions by the Newton-Euler equations, `balances_itself` (uniform exponential decay), `falls_over`, eig returning the whole spectrum | Cayley-Hamilton for 4x4, chain y_k' = w y_k + y_(k+1) with an energy estimate for each link (PStab, PStab2); modal motions at in-phase times for the converse (PStab4); C01/C02 link state matrix and Newton-Euler equations; time reversal of eigenvectors |
| C72 | `eigenvalues_vs_speed` (lines with colour, style, label), `compare_eigenvalues` (MComp.v); `SComp.v`: looks, legends, chosen colours | induction over the bicycles with the figure drawn so far; C61 and C71 for what each line shows |
| C73 | composition of `new_bicycle`, `add_rider` (MState.v), `calculate_benchmark_from_measured` (MMain.v), `combine_bike_rider`, `bicycle_eig`; `SEnd.v`: `real_bike`, `ridden_bike`, `tells_stability` | C43/C44 give the sets of the object, C47 the parameters of the real bicycle, C16 the ridden one, C71 the stability; a bicycle measured and found self-stable as example |
| C74 | `calculate_benchmark_from_measured` (`SUnits2.v`: unit of a measurement and of a parameter by its name; step by step equations in `PUnits2.v`), `benchmark_par_to_canonical`, `ab_matrix`, `bicycle_state_space`, `bicycle_eig`, `combine_bike_rider`; `SUnits.v`: dimensions of the benchmark parameters, `in_units` | field identities for each intermediate quantity; det(sI-A') = t^-4 det(tsI-A); a complex polynomial determines its roots with multiplicities (`PRoots.v`); motions rescaled in time |
| C75 | `plot_osfit`, `get_period` and `calc_periods_for_files` with figures and file system in MFit.v; `leastsq`, `inv`, `loadmat`, rendering are parameters | agreement with the figure-free model of C67 step by step; induction over the files with the figures' paths kept apart; path lemmas |
| C76 | the calculations of C01-C16, C46-C48, C60 again on numbers with derivatives (MUnc.v); the differentiation rules are the uncertainties library's | a relation between an uncertain result and a family of plain results (equal value and derivative at 0, Coquelicot), preserved by every operation and so by every function; instantiated once per measurement |
| C77 | Bicycle.eig (MEig.v), benchmark_par_to_canonical, ab_matrix (MBicycle.v); np.linalg.eig as an oracle with the contract of C06 and C71 | the reported spectrum is the root multiset of the characteristic determinant (C06), which splits into two real quadratics; Routh-Hurwitz for a product of two quadratics; evaluation at 0 and at i y |
| C78 | benchmark_par_to_canonical, ab_matrix, Bicycle.state_space, parallel_axis, tor_inertia, torsional_pendulum_stiffness, tube_inertia, compound_pendulum_inertia, total_com, trail and the turned tensor again with a rounding after every operation (MFloat.v, MFloat2.v); the rounding, sin, cos, x**2 and np.dot are a parameter with contracts (SFloat.v) that double precision meets (Flocq) | running error analysis: each intermediate value is its exact value times a product of factors in [1-u, 1/(1-u)], or within such a bound of the sum of sizes; exact claims by following signs and powers of two through the operations |
| C79 | the four dictionaries of parameter_dicts.py (MDicts.v), Bicycle.eig and benchmark_par_to_canonical of C02/C57/C60 | the coefficients of the characteristic polynomial as polynomials in v (SSpeeds.v), the criterion of C77; for the three concrete bicycles rational enclosures of every coefficient (generated by tools/dicts_gen.py) and the sign of a quadratic on intervals; at most two ranges by the third divided difference of that quadratic (TSpeeds2.v); small errors by continuity of the closed form in all parameters at once (TSpeeds3.v) |
| C80 | the four dictionaries (MDicts.v); their meaning as bodies is bike_of (SBicycle.v, tied to the code by C02) and lean_bike (SLean2.v, tied to the code by C70) | rational enclosures of sin and cos of the tilt, linear arithmetic |
| C81 | utils/package_data.py (MPack.v) over the file system of C43: rules for files, split at the word, join, members of the archives | induction on strings for the first occurrence of the word (it has no slash, so it lies between two slashes), membership through mapM; SPack.v lists the wanted files |

## Trusted base

* **Kernel.** Coq 8.16.1's kernel and the `coqc` front end; no plugin, no `native_compute`, no switched-off check.
* **Axioms.** Every property theorem is followed by `Print Assumptions` in its `T*.v` file.  The only axioms that appear are
  axioms of Coq's standard library:
  `ClassicalDedekindReals.sig_not_dec`, `ClassicalDedekindReals.sig_forall_dec`,
  `FunctionalExtensionality.functional_extensionality_dep` (these three come with the real numbers) and, in theorems that
  use derivatives, integrals, `asin`/`acos` or the classical choice of a least element, `Classical_Prop.classic`.
  Theorems about strings, files and keys only (most of C19, C27, C34-C37, C43-C46) are closed under the global context or
  use the first three.  No axiom, `Variable` outside a section, `Admitted`, functor or module type is declared here.
* **The reading of Python as Gallina** (`M*.v`), which no proof checks.  The conventions above apply; each definition's
  comment cites the lines it models and says where it simplifies.

### What is modelled

| model file | Python | functions |
|---|---|---|
| `MBicycle.v` | bicycle.py | all six functions (`ab_matrix`, `benchmark_par_to_canonical`, `lambda_from_abc`, `sort_eigenmodes`, `sort_modes`, `trail`) |
| `MVec.v`, `MInertia.v` | inertia.py, conversions.py, com.py:215-237 | all functions; `principal_axes` takes the eigen-decomposition as an oracle |
| `MGeometry.v` | geometry.py, com.py | all functions |
| `MSets.v` | parameter_sets.py | the five parameter-set classes: construction, conversion, mass centres, inertia tensors, derived parameters |
| `MDraw.v` | parameter_sets.py | all drawing methods of the parameter sets as lists of shapes (line styles, alpha, autoscaling and axis labels left out; colours identified by body) |
| `MDraw2.v` | main.py | plot_bicycle_geometry and _plot_bicycle_geometry_plotly (496-1032) as lists of shapes/traces (figure size, titles, line styles, opacity and plotly layout left out; colours identified by part; nan/inf count as failures) |
| `MSets2.v` | parameter_sets.py 121-128, 175-219, 363-371 and the values of par_strings | PyYAML is an oracle pair; `format` of a value that is not a float is an oracle; NaN, infinities, negative zero and numpy scalars are not modelled |
| `MHeap.v` | parameter_sets.py | aliasing: parameter sets as objects on a heap, for the non-leak and conversion-mutation claims |
| `MModels.v` | models.py | overrides, the reduced canonical matrices, state space and feedback of the two Meijaard models |
| `MString.v`, `MIo.v` | io.py | all functions; the `.mat` reader takes the file's dictionary as input |
| `MPeriod.v` | period.py | all functions except make_guess, get_period and plotting |
| `MPeriod2.v` | period.py 68-130, 207-302, 405-451, io.py 77-99 | `loadmat`, `leastsq` and `numpy.linalg.inv` are oracles; a nan or inf counts as a failure; only 1-D data; all files are read before the first estimate; both readings of np.where on a masked array |
| `MFit.v` | period.py 68-130, 207-302, 454-498 | figures are their lines, labels, title, legend and limits; fonts, sizes and colours other than the line format left out; files read one by one, figures written before a failure stay |
| `MUnc.v` | bicycle.py 8-209, 337-363; geometry.py 10-182, 217-276; com.py 61-237; inertia.py 11-194, 220-295; main.py's calculate_benchmark_from_measured, canonical, state_space, steer assembly on uncertain numbers | a number is its nominal value with its derivatives by the independent numbers; nan deviations are failures; inverses by closed formulas |
| `MFloat.v` | bicycle.py 8-170, main.py 1145-1149 and inertia.py 89, 143-149, 245, 264, 292-294, in machine arithmetic | the rounding of one operation, sin, cos, x**2, the product of 2 x 2 arrays and numpy.pi are fields of a record; no overflow, inf or nan; the signs of zeros are not distinguished |
| `MFloat2.v` | com.py 215-237, bicycle.py 337-363, inertia.py 220-228, conversions.py 7-31, in machine arithmetic | the order of np.sum and the product of a row and a column of 3 x 3 arrays are parameters with contracts (SFloat2.v) |
| `MInertia2.v` | inertia.py 94-119 with numpy's choice between inv and pinv | pinv is a parameter: least-squares solution, of several the shortest |
| `MDicts.v` | parameter_dicts.py, all four dictionaries | a decimal literal is the number it denotes (Python stores the nearest double) |
| `MPack.v` | utils/package_data.py, all of it | printing and tar.add's recursion into folders left out |
| `MMain.v` | main.py | `is_fork_split`, `get_parts_in_parameters`, `calculate_benchmark_from_measured`, steer assembly inertia |
| `MState.v` | main.py | `Bicycle.__init__`, `calculate_from_measured`, `add_rider`, `save_parameters` over a file-system map |
| `MTable.v` | tables.py | all functions |
| `MPlot.v` | plot.py, main.py | phase alignment of the Bode comparison, ellipse points |
| `MModels2.v` | models.py | rider lean model, `calc_eigen`, `simulate`, `simulate_modes`, modal controllability; `eig`, `solve_ivp`, the generated equations and the pitch solver are parameters constrained only by contracts in `SModels2.v` |
| `MEig.v` | main.py | `Bicycle.canonical`, `state_space`, `eig`, `plot_eigenvalues_vs_speed`, its plotly twin, `plot_bode` (nominal values; figures as curve lists) |
| `MComp.v` | main.py 1201-1338, plot.py 51-99 | the same figure with colours, styles, labels, title and legend; the comparison of several bicycles; the colour map is an oracle |
| `MStr.v` | main.py 162-168 | `Bicycle.__str__` |
| `MRider.v` | rider.py | all three functions; yeadon's `Human` and the numerical solve are oracles |
| `MApp.v` | app.py | the three callbacks and their tables |
| `MPlots.v` | models.py | `plot_eigenvalue_parts`, `plot_eigenvectors`, `plot_mode_simulations`, `plot_modal_controllability`, `plot_simulation` (both), `plot_gains`: figures as lists of lines with colour, label and points; an `axes` argument of the caller, grids, tick labels and figure sizes are left out |
| `MLean.v`, `MLeanProg.v`, `MLean2.v` | _mooreriderlean2012.py | all of `eval_linear`: unpacking, the generated statements (translated by tools/lean_gen.py), the returned arrays; `pitch_from_roll_and_steer` of dtk is a parameter |

### What is not modelled

* floating-point rounding outside the functions of MFloat.v and MFloat2.v, inf/nan, numpy dtypes other than "scalar or 1-D array of floats", the
  propagation of standard deviations outside the functions of MUnc.v (there: first order, as the library does);
* numerical library routines (`eig`, `svd`, `leastsq`, `newton`, `solve_ivp`, `control`): oracles with a stated contract;
* drawing not listed above (matplotlib/plotly calls) and printing;
* scripts that are run once: utils/create_bicycle_files.py, time_eig.py, largest_eigenvalue_plot.py, data/riders/Child/RawData/convert.py, the gallery, setup.py and docs/conf.py;
* concurrency: the code has none.

<!-- AXIOMS -->
### Print Assumptions, theorem by theorem

N = `ClassicalDedekindReals.sig_not_dec`, F = `ClassicalDedekindReals.sig_forall_dec`, E = `FunctionalExtensionality.functional_extensionality_dep`, C = `Classical_Prop.classic`; all four are declared in Coq's standard library.

* **closed under the global context** (59): C19_lexicographic_enumeration, C19_no_arrays, C19_row_order, C19_rows_are_choices, C23_direction_array_always_fails, C27_accepts_exactly_complete, C27_dictionary_untouched_and_shared, C27_extras_accepted, C27_refuted_documented_keys_are_not_enough, C27_rejection_names_first_offender, C34_bare_file_name_fails, C34_decision, C34_declined_or_failed_changes_no_file, C34_directory_created, C34_existing_directory, C35_every_content_is_read_as_one_text, C36_idempotent, C36_new_content, C37_bad_option, C37_file_name, C37_not_idempotent, C37_only_spaces_added, C37_words, C38_fails_on_own_output_with_list, C38_idempotent_without_lists, C38_values, C39_forced, C39_forced_monotone, C39_key, C39_key_distinguishes, C43_file_name, C43_listing, C45_files_written, C45_other_formats, C45_rider_files, C46_fork_split, C46_order_irrelevant, C46_parts, C49_latex_labels, C49_name_without_label, C49_variable_list, C49_variable_list_defined, C49_variable_order, C66_html_labels_clash, C66_html_labels_distinct, C66_html_labels_spell_the_names, C66_moore2012_yaml_cannot_be_loaded, C66_yaml_forgets_the_rider, C66_yaml_load_criterion, C66_yaml_missing_entries, C66_yaml_parameterization_not_checked, C66_yaml_round_trip, C67_reading, C67_reading_missing, C67_texts, C81_members, C81_names, C81_once, C81_refuted_names_of_members.
* **C E F N** (105): C08_closure, C08_closure_up_to_residual, C08_direct_measurement, C08_radii_and_frame, C08_root_location, C08_solver_failure_propagates, C13_compound_pendulum, C13_torsional_pendulum, C14_density_exists, C14_tube_inertia_is_the_volume_integral, C21_all_lines_collected, C22_angle, C22_angle_defined, C25_l1_l2, C25_two_links_partial, C25_two_links_refuted, C40_jacobian, C47_every_bicycle_can_be_measured, C47_flywheel, C47_flywheel_iff, C47_orientation_order, C47_split_fork, C47_split_fork_defined, C47_ten_orientations_mixed_up, C47_whole_fork, C47_whole_fork_defined, C58_free_motion_is_unique, C58_modes, C58_superposition, C59_angles_between_modes_and_inputs, C59_refuted_documented_range, C59_refuted_independent_of_the_eigenvector_phase, C59_refuted_scalar_parameters_crash, C63_drawing_depends_on_the_body_only, C63_ellipse_defined_iff, C63_ellipse_drawing, C63_radii_defined_iff, C63_radii_describe_the_body, C63_radii_drawing, C63_refuted_ellipse_is_the_view_of_the_ellipsoid, C64_bodies_one_by_one, C64_failures_do_not_depend_on_the_axes, C64_other_sets_cannot_be_drawn, C64_plot_all, C64_shared_axes, C65_ellipse, C65_ellipse_aligned, C65_ellipse_aligned_refuted, C65_ellipse_orientation_refuted, C65_figure, C65_geometry_defined, C65_limits, C65_minus_y, C65_plotly, C65_plotly_ellipse_refuted, C65_plotly_refuted, C67_estimate, C67_exact_fit, C67_variance, C68_controllability_curves, C68_eigenvector_panels, C68_mode_curves, C68_parameters_untouched, C68_refuted_panels_of_arrays_show_eigenvectors, C71_balances_itself_iff_all_real_parts_are_negative, C71_falling_is_not_balancing, C71_highlighted_speeds_are_self_stable, C71_largest_real_part_curve, C71_no_bicycle_balances_itself_at_rest, C71_no_region_no_self_stable_interval, C71_positive_real_part_falls_over, C71_self_stable_bicycle_falls_over_backwards, C71_self_stable_speeds_are_highlighted, C71_stable_simulations_die_out, C72_largest_of_each_bicycle, C73_measured_bicycle, C73_ridden_bicycle, C74_measured_eigenvalues, C74_measurements, C75_figure, C76_benchmark, C76_canonical, C76_defined, C76_failure, C76_measured_to_state_space, C76_nominal_benchmark, C76_nominal_canonical, C76_nominal_rider, C76_nominal_state_space, C76_nominal_steer_assembly, C76_rider, C76_state_space, C76_steer_assembly, C76_tilt_apart, C76_tilt_not_propagated, C77_no_balance_beyond_capsize, C77_routh_hurwitz, C79_at_most_two_ranges, C79_between_only_weave, C79_falls_over, C79_not_standing_still, C79_shipped_bicycles, C79_small_errors, C79_stable_speeds, C80_lean_set_is_the_bicycle_with_legs.
* **E F** (87): C01_state_space_defined, C01_state_space_iff_eom, C01_state_space_shape, C01_state_space_unique, C05_mass_scaling_of_state_space, C06_characteristic_polynomial, C06_reversed_travel_negates_eigenvalues, C11_never_decreases, C11_parallel_axis_every_axis, C11_parallel_axis_of_particles, C11_sign_of_offset, C11_undone_by_negative_mass, C11_unique, C14_nonnegative, C16_defined_iff, C16_inertia_about_every_axis, C16_nothing_else_changes, C16_total_mass_and_centre, C17_principal_axes, C18_group_by_group, C18_moves_with_translation, C18_order_independent, C18_shape_mismatch, C18_vanishing_moments_and_uniqueness, C18_within_bounds, C20_defined_iff, C20_exact_for_concurrent_lines, C20_intersections_unique, C20_mean_of_pairwise_intersections, C20_order_of_lines_irrelevant, C22_projection_idempotent, C22_projection_nearest, C22_projection_on_line, C23_axis_index_partial, C23_refuted, C29_collection_is_the_mass_centre, C29_order_does_not_matter, C29_unknown_body_is_rejected, C35_float_text, C41_contiguous, C41_downward_peak_fails, C41_last_point_dropped, C41_rectified, C41_select, C41_select_defined, C41_select_fails, C42_SSE_can_be_negative, C42_least_squares, C42_perfect, C42_undefined, C42_values, C49_exact_value_refuted, C49_layout, C49_line_count, C49_rows, C49_second_call_refuted, C49_table_defined, C50_differences, C50_figure, C50_half_turn_refuted, C50_matched, C50_no_points, C50_unmoved, C52_speeds, C53_time_vector, C56_arrays_pointwise, C56_different_lengths_are_ValueError, C56_matrices_are_those_of_the_upright_operating_point, C56_parameters_untouched, C56_result_requires_an_operating_point, C61_refuted_highlighted_speeds_are_stable, C64_mass_centers, C64_unknown_body, C66_html_missing_parameter, C66_html_rows, C66_ini_unformattable_value, C67_times, C72_default_colours_are_distinct, C74_ridden_bicycle, C75_second_plot, C78_mass_centre_side, C78_parallel_axis_exact, C78_powers_of_two_units, C78_riding_backwards, C78_state_space_structure, C78_structure, C79_wheels_exchanged.
* **E F N** (259): C02_canonical_is_newton_euler, C03_mass_matrix_is_kinetic_energy, C03_mass_matrix_positive_definite, C03_state_space_exists_for_physical_bicycles, C04_defined_iff, C04_effect_on_argument, C04_first_missing_key_is_reported, C04_frame, C04_structure, C05_depends_only_on_benchmark_keys, C05_mass_scaling_of_canonical, C07_trail, C09_sort_modes_slices_sort_eigenmodes, C09_sorting_is_greedy_rearrangement, C10_far_eigenvalue_is_lost, C10_permutation_iff, C10_permutation_refuted, C10_permutation_smooth_partial, C10_permutation_two_modes_partial, C12_characteristic_polynomial, C12_composition, C12_conversion_helper_agrees, C12_determinant, C12_inverse, C12_moment_about_y, C12_moments_on_turned_axes, C12_symmetry, C12_trace, C13_nonnegative_iff, C13_stiffness_inverts, C15_defined_for_three_different_axes, C15_exact_recovery, C15_numpy_inverse, C15_recovers_iff, C15_two_directions, C15_unique_least_squares, C16_dynamics_with_rigid_rider, C21_angle_and_slope, C21_defined_iff, C21_distance_is_measured, C21_line_is_the_plumb_line, C21_unknown_part, C22_point_to_line_defined, C22_point_to_line_distance, C22_steer_axis_distance, C22_steer_axis_in_plane, C22_steer_axis_total, C24_coordinates_faithful, C24_defined_iff, C24_plot_points, C25_abc, C25_handlebar_reference, C25_handlebar_upright_fails, C26_complete_set, C26_defined_iff, C26_front_body_inertia_about_every_axis, C26_kept, C26_mass_and_centre, C26_rear_body_inertia_about_every_axis, C26_same_dynamics, C26_wheels, C28_own_name_is_identity, C28_principal_to_benchmark, C28_refuted_principal_to_feedback_never_works, C28_refuted_valid_principal_set_without_y_cannot_convert, C28_result_is_a_valid_set_of_that_name, C28_source_never_altered, C28_to_feedback_adds_zero_gains, C28_to_moore2012_keeps_speed, C28_unsupported_name_is_ValueError, C29_whole_bicycle_matches_canonical, C30_different_lengths_are_ValueError, C30_equal_lengths_are_never_ValueError, C30_no_call_changes_existing_parameters, C30_no_history_changes_existing_parameters, C30_results_do_not_depend_on_history, C30_scalar_overrides_act_like_a_set_with_those_values, C30_unknown_names_are_ignored, C31_canonical_matrices_constant, C31_canonical_matrices_pointwise, C31_feedback_pointwise, C31_state_space_constant, C31_state_space_pointwise, C32_canonical_equals_standalone, C32_model_equals_standalone_functions, C32_never_stacked, C33_entries, C33_feedback_is_A_minus_BK, C33_feedback_model_of_a_plain_set_is_open_loop, C33_zero_gains_open_loop, C34_printed_numbers_round_trip, C34_saved_file_loads_back, C35_blank_or_indented_comment_raises, C35_line_without_equals_raises, C35_load_meaning, C36_load_after_write, C36_missing_final_newline_corrupts, C39_averages, C39_order_independent, C40_fitfunc, C43_bad_file_name_raises, C43_decision_table, C43_no_directory, C43_nothing_available_raises, C43_only_measurements_file_changes, C44_description, C44_failure_leaves_bicycle, C44_history, C44_new_bicycle_description, C44_ridden_bicycle, C44_second_rider_ignored, C44_success, C45_later_sets_misnamed, C45_one_set_round_trip, C45_rider_round_trip, C48_about_mass_centre, C48_about_steer_axis, C48_agrees_with_mass_matrix, C48_defined, C48_moment_about_steer_axis, C48_not_measured_separately, C51_directions, C51_hips, C51_isometry, C51_value, C52_containers_refuted, C52_history, C52_one_edit, C52_plotted, C52_plotted_defined, C52_populate, C52_populate_defined, C52_selected, C52_session_figures, C52_session_selected, C52_unedited, C53_period_formula, C53_repeats, C53_smallest, C54_configuration, C54_ridden_bicycle, C54_rider_parameters, C54_roots, C54_seat_too_high_refuted, C54_seated, C55_closed, C55_on_ellipse, C57_array_call, C57_arrays_pointwise, C57_eigenvalues_exist, C57_eigenvectors_solve_the_equations_of_motion, C57_errors_are_those_of_the_matrices, C57_parameters_untouched, C57_rates_of_an_eigenvector, C57_scalar_call, C58_arrays_are_rejected, C58_refuted_initial_conditions_are_overwritten, C58_states_are_samples_of_the_motion, C60_canonical_is_the_standalone_function, C60_eig_is_the_model_calc_eigen, C60_eig_rows_are_the_spectra, C60_float_is_one_speed, C60_only_two_entries_are_ever_written, C60_other_flag_is_ValueError, C60_refuted_any_scalar_speed, C60_refuted_calls_leave_the_parameters_alone, C60_results_do_not_depend_on_history, C60_state_space_is_the_standalone_function, C61_highlighted_speeds_are_stable_if_contiguous, C61_largest_is_the_greatest_real_part, C61_no_eigenvalue_is_missing_at_the_lowest_speed, C61_no_eigenvalue_is_missing_for_smooth_curves, C61_no_region_means_no_stable_interval, C61_order_of_speeds_does_not_matter, C61_plotly_points_are_eigenvalues, C61_plotted_points_are_eigenvalues, C61_refuted_figure_and_largest_options, C61_refuted_unstable_bicycle_can_be_plotted, C61_stable_speeds_are_highlighted, C62_accepted_indices, C62_bode_system_is_one_input_one_state, C62_bode_system_is_the_bicycle_with_one_torque, C63_conversion_keeps_the_front_frame, C64_geometry, C64_geometry_defined_iff, C64_person_diamond, C64_refuted_starts_at_the_wheel_centre, C66_ini_loads_back, C66_ini_loses_small_values, C67_all_files, C67_all_files_mean, C67_correlation_ignored, C67_file_rate, C67_file_time, C67_fractional_rate, C67_guess, C67_guess_bounds, C67_guess_shift, C67_guess_short, C67_propagation, C68_eigenvalue_curves, C68_eigenvalue_figure_exists, C68_mode_errors, C68_refuted_scalar_call_draws_a_figure, C68_refuted_shaded_regions_are_stable, C68_refuted_stable_regions_are_visible, C68_rider_lean_curves, C68_simulation_curves, C68_simulation_errors, C69_equations_are_dimensionally_homogeneous, C69_generated_equations_qualify, C69_lateral_motion_decouples, C69_matrices_in_other_units, C69_mirror_image, C69_modes_in_other_units, C69_modes_of_riding_backwards, C69_no_uninitialised_memory, C69_rates_integrate, C69_time_reversal, C70_energy_of_a_standing_bicycle, C70_reciprocity, C70_rider_held_still, C70_rider_lean_model_is_newton_euler, C70_torques_from_rest, C70_torques_give_any_accelerations, C72_added_to_a_figure, C72_comparison_is_the_single_figures, C72_eigenvalues_of_each_bicycle, C72_largest_of_one_bicycle, C72_legend_names_each_bicycle_once, C72_lines_of_one_bicycle, C72_modes_of_one_bicycle, C72_refuted_linestyles_are_used, C72_rejected_calls, C74_canonical_matrices, C74_eigenvalues, C74_eigenvalues_do_not_depend_on_the_routine, C74_motions, C74_similar_bicycles, C74_stability, C74_state_space, C75_drawing_is_harmless, C75_every_file_has_its_figure, C75_only_figures, C75_periods_of_a_bicycle, C75_succeeds, C77_capsize_speed, C77_undamped_oscillation, C78_ab_matrix_accurate, C78_accurate_entries, C78_canonical_matrices_accurate, C78_inertia_formulas, C78_mass_centre_accurate, C78_parallel_axis_accurate, C78_state_space_accurate, C78_trail_accurate, C78_turned_tensor_accurate, C80_legs_and_upper_body_are_the_whole_rider, C80_wheels.
* **F** (9): C11_symmetric, C17_frame_tensor, C17_key_error, C17_symmetric, C17_wheel_tensor, C29_inertia_tensor, C29_one_body, C49_variable_order_refuted, C68_gain_curves.
<!-- /AXIOMS -->
