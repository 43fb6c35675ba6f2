{"id": "C01", "title": "State-space form is the second-order equation of motion", "statement": "For the A (4x4) and B (4x2) returned by ab_matrix, x' = A x + B u holds exactly when x = (q, q') and M q'' + v C1 q' + (g K0 + v^2 K2) q = u, for every invertible M. No other A, B has this property.", "quantifier": "all real 2x2 matrices M (det != 0), C1, K0, K2, all v, g, all states, rates and inputs", "why_tests_cant": "A unit test checks one bicycle at one speed; the equivalence is over a continuum of matrices and states.", "anchors": ["bicycleparameters/bicycle.py:ab_matrix"]}
{"id": "C02", "title": "Canonical matrices are the linearised Newton-Euler equations of the four bodies", "statement": "The matrices M, C1, K0, K2 returned by benchmark_par_to_canonical satisfy: M q'' + v C1 q' + (g K0 + v^2 K2) q = (roll torque, steer torque) exactly when there is a lateral front contact force such that the roll, yaw and steer balances of the rear wheel, rear frame, front frame and front wheel (with knife-edge rolling constraints, gyroscopic moments and gravity) all hold.", "quantifier": "every benchmark parameter set with non-zero total mass, front-assembly mass, wheelbase and wheel radii, every speed, g, state, rate, acceleration and torques", "why_tests_cant": "Tests compare against the published benchmark bicycle only; a wrong term that vanishes or is small for that bicycle is not seen.", "anchors": ["bicycleparameters/bicycle.py:benchmark_par_to_canonical"]}
{"id": "C03", "title": "Canonical mass matrix is the kinetic energy: symmetric and positive", "statement": "M returned by benchmark_par_to_canonical is symmetric, q'^T M q' is twice the kinetic energy of the four rigid bodies at zero forward speed, and it is positive definite for physically possible bodies.", "quantifier": "every parameter set whose bodies have positive mass and positive semidefinite planar inertias; every rate vector", "why_tests_cant": "Positivity is a statement about all rates and all parameters.", "anchors": ["bicycleparameters/bicycle.py:benchmark_par_to_canonical"]}
{"id": "C04", "title": "Canonical matrices have the documented zero and symmetry structure and failure modes", "statement": "K0 is symmetric with K0[1,1] = sin(lam) K0[0,1]; the first column of K2 and C1[0,0] are zero; the call fails with KeyError exactly for the first missing key and cannot be evaluated exactly when total mass, front assembly mass, wheelbase or a wheel radius is zero; besides returning matrices it writes IRzz = IRxx and IFzz = IFxx into the caller's dictionary and changes nothing else.", "quantifier": "every dictionary of parameters", "why_tests_cant": "The set of dictionaries (with keys missing, extra or in any order) is unbounded.", "anchors": ["bicycleparameters/bicycle.py:benchmark_par_to_canonical"]}
{"id": "C05", "title": "Dynamics are unaffected by a common scaling of masses and inertias and by unused parameters", "statement": "Scaling every mass and moment of inertia by k scales M, C1, K0, K2 by k and so leaves A unchanged and divides B by k; IByy, IHyy, g, v and any other key do not influence the canonical matrices.", "quantifier": "every parameter set and every k != 0", "why_tests_cant": "Relational property over pairs of inputs.", "anchors": ["bicycleparameters/bicycle.py:benchmark_par_to_canonical", "bicycleparameters/bicycle.py:ab_matrix"]}
{"id": "C06", "title": "Reversing the travel direction reverses time", "statement": "A at -v is similar to -A at v by the map that flips the sign of the rates, so eigenvalues at -v are the negatives of those at v, and the characteristic polynomial of A is det(s^2 M + s v C1 + g K0 + v^2 K2)/det M.", "quantifier": "all matrices with det M != 0, all v, g, s", "why_tests_cant": "Holds for every speed and matrix, tests sample a few.", "anchors": ["bicycleparameters/bicycle.py:ab_matrix", "bicycleparameters/models.py:Meijaard2007Model.form_state_space_matrices"]}
{"id": "C07", "title": "Trail is the steer-axis ground intersection offset", "statement": "trail(rF, lam, fo) returns c such that the line through the ground point c ahead of the contact point with tilt lam passes at signed perpendicular distance fo from the wheel centre, and cm is the perpendicular distance of the contact point from that line; it is the only such c.", "quantifier": "all rF, fo and all lam with cos(lam) != 0", "why_tests_cant": "Geometric identity over all real inputs.", "anchors": ["bicycleparameters/bicycle.py:trail"]}
{"id": "C08", "title": "Steer axis tilt from offsets closes the geometry", "statement": "Whenever lambda_from_abc returns a root of its equation, the wheelbase and trail computed by calculate_benchmark_geometry place the wheel centres exactly at perpendicular distances a and b from the steer axis and c apart along it; the root lies where it must and a non-converging solver raises instead of returning.", "quantifier": "all radii and offsets with a+b != 0 and every behaviour of the root finder", "why_tests_cant": "Depends on an iterative solver and a continuum of geometries.", "anchors": ["bicycleparameters/bicycle.py:lambda_from_abc", "bicycleparameters/geometry.py:calculate_benchmark_geometry"]}
{"id": "C09", "title": "Eigenmode sorting keeps pairs and uses only values of the same speed", "statement": "sort_eigenmodes returns arrays of the same shape whose first row is the input's first row, and every entry (i, j) is an eigenvalue/eigenvector pair of the input at the same speed i; pairing is never broken.", "quantifier": "all numbers of speeds n and modes m, all eigenvalue and eigenvector arrays", "why_tests_cant": "Unbounded n, m and values.", "anchors": ["bicycleparameters/bicycle.py:sort_eigenmodes", "bicycleparameters/bicycle.py:sort_modes"]}
{"id": "C10", "title": "Eigenmode sorting loses no eigenvalue", "statement": "Each row of the sorted eigenvalues is a permutation of the same row of the input.", "quantifier": "all numbers of speeds n and modes m and all eigenvalues", "why_tests_cant": "Fails only for particular eigenvalue constellations that a test is unlikely to contain.", "anchors": ["bicycleparameters/bicycle.py:sort_eigenmodes", "bicycleparameters/bicycle.py:sort_modes"]}
{"id": "C11", "title": "Parallel axis theorem", "statement": "parallel_axis(Ic, m, d) is the tensor J with n.J n = n.Ic n + m |n x d|^2 for every axis n; it is symmetric when Ic is, undone by the negated mass, insensitive to the sign of d, and never decreases any moment of inertia for m >= 0.", "quantifier": "all tensors, masses, offsets and axes", "why_tests_cant": "Continuum of inputs.", "anchors": ["bicycleparameters/inertia.py:parallel_axis"]}
{"id": "C12", "title": "Rotating an inertia tensor preserves what rotation must preserve", "statement": "rotate_inertia_tensor and the conversion helper keep symmetry, trace, determinant, the moment about y, and the quadratic form on correspondingly rotated axes; rotations compose additively and rotating by -angle undoes rotating by angle.", "quantifier": "all 3x3 tensors and angles", "why_tests_cant": "Continuum of inputs.", "anchors": ["bicycleparameters/inertia.py:rotate_inertia_tensor", "bicycleparameters/conversions.py:_rotate_inertia_about_y"]}
{"id": "C13", "title": "Pendulum inertia formulas invert the pendulum period laws", "statement": "compound_pendulum_inertia returns the I for which a pendulum (I + m l^2) th'' = -m g l th has period T, tor_inertia the I for which I th'' = -k th has period T, and torsional_pendulum_stiffness inverts tor_inertia.", "quantifier": "all positive masses, lengths, periods, stiffnesses", "why_tests_cant": "Continuum of inputs and solutions of a differential equation.", "anchors": ["bicycleparameters/inertia.py:compound_pendulum_inertia", "bicycleparameters/inertia.py:tor_inertia", "bicycleparameters/inertia.py:torsional_pendulum_stiffness"]}
{"id": "C14", "title": "Tube inertia is the integral over the tube", "statement": "tube_inertia satisfies the perpendicular decomposition of a hollow cylinder: it is the difference of two solid cylinders of equal density, additive under axial subdivision, non-negative and Iy = Iz.", "quantifier": "all lengths, masses, radii with 0 <= ri < ro", "why_tests_cant": "Continuum of inputs.", "anchors": ["bicycleparameters/inertia.py:tube_inertia"]}
{"id": "C15", "title": "Inertia components recover the tensor from any number of pendulum orientations", "statement": "If each measured moment is n.I n for one planar tensor, inertia_components returns exactly that tensor for any number of orientations whose design matrix has full rank, and in general returns the unique least-squares solution. Every planar body is recovered if and only if the axes point in at least three different directions; with fewer, three measurements are refused, but any other number is accepted although another body with the same moments gets the same answer.", "quantifier": "all n >= 3, all angles with full rank, all tensors / measurements", "why_tests_cant": "n and the angles are unbounded.", "anchors": ["bicycleparameters/inertia.py:inertia_components"]}
{"id": "C16", "title": "Combining a rider with the frame is exact for the dynamics", "statement": "combine_bike_rider gives total mass, mass weighted centre and the inertia about it; a bicycle with the combined rear body has the same canonical matrices as one with frame and rider as two rigid bodies fixed together; no other parameter changes.", "quantifier": "all bicycles and riders with non-zero combined mass and a rider in the symmetry plane", "why_tests_cant": "Continuum of parameters; the equivalence is relational.", "anchors": ["bicycleparameters/inertia.py:combine_bike_rider"]}
{"id": "C17", "title": "Part inertia tensors are symmetric and read the right parameters", "statement": "part_inertia_tensor returns a symmetric tensor with Iyy on the y axis, wheels with Izz = Ixx and no product, other parts with Ixz, or KeyError when a needed parameter is missing.", "quantifier": "all parameter dictionaries and all part names", "why_tests_cant": "All dictionaries and strings.", "anchors": ["bicycleparameters/inertia.py:part_inertia_tensor"]}
{"id": "C18", "title": "Total centre of mass", "statement": "total_com returns the sum of masses and the unique point about which the mass moments vanish; it is independent of the order of bodies, can be computed group by group, moves with a translation of the bodies and lies within the bounds of the points for non-negative masses.", "quantifier": "any number of bodies, all masses with non-zero sum, all coordinates", "why_tests_cant": "Unbounded number of bodies and orderings.", "anchors": ["bicycleparameters/com.py:total_com"]}
{"id": "C19", "title": "Cartesian product enumerates every combination once in order", "statement": "cartesian returns every tuple of choices exactly once (by position), in lexicographic order, with prod(sizes) rows.", "quantifier": "any number of arrays of any sizes", "why_tests_cant": "Unbounded number and size of arrays.", "anchors": ["bicycleparameters/com.py:cartesian"]}
{"id": "C20", "title": "Centre of mass recovered from pendulum lines", "statement": "If all measured lines pass through one point and have pairwise different slopes, center_of_mass returns exactly that point; it is the mean of pairwise intersections and symmetric in the lines.", "quantifier": "any number n >= 2 of lines", "why_tests_cant": "Unbounded number of lines.", "anchors": ["bicycleparameters/com.py:center_of_mass", "bicycleparameters/com.py:com_line"]}
{"id": "C21", "title": "A measured centre-of-mass line lies at the measured distance from the reference point", "statement": "com_line returns a line in the benchmark frame at distance |a| (on the documented side) from the part's reference point, with direction given by the head tube angle; unknown parts raise KeyError.", "quantifier": "all angles, offsets, parameters", "why_tests_cant": "Continuum of inputs.", "anchors": ["bicycleparameters/com.py:com_line", "bicycleparameters/com.py:part_com_lines", "bicycleparameters/geometry.py:fwheel_to_handlebar_ref"]}
{"id": "C22", "title": "Point-line distance and projection are optimal", "statement": "point_to_line_distance and distance_to_steer_axis return the minimum distance over the whole line; project_point_on_line returns the nearest point on the line, lies on the line and is idempotent; vec_angle is the interior angle in [0, pi].", "quantifier": "all points and non-degenerate lines", "why_tests_cant": "Minimality quantifies over all points of the line.", "anchors": ["bicycleparameters/geometry.py:point_to_line_distance", "bicycleparameters/geometry.py:distance_to_steer_axis", "bicycleparameters/geometry.py:project_point_on_line", "bicycleparameters/geometry.py:vec_angle"]}
{"id": "C23", "title": "Vector projection into a plane removes only the normal component", "statement": "vec_project returns the orthogonal projection of the vector on the plane normal to the direction, for an axis index and for an arbitrary direction vector.", "quantifier": "all vectors and directions", "why_tests_cant": "Quantifies over all vectors and both kinds of direction.", "anchors": ["bicycleparameters/geometry.py:vec_project"]}
{"id": "C24", "title": "Fundamental geometry plot points describe the bicycle", "statement": "fundamental_geometry_plot_data starts at the rear wheel centre and ends at the front wheel centre, the inner points lie on the steer axis and are the feet of the perpendiculars from the wheel centres.", "quantifier": "all parameters with cos(lam) != 0", "why_tests_cant": "Continuum of inputs.", "anchors": ["bicycleparameters/geometry.py:fundamental_geometry_plot_data"]}
{"id": "C25", "title": "Raw measurement geometry", "statement": "calculate_abc_geometry and calculate_l1_l2 return the perpendicular and axial offsets whose hypotenuse is the measured centre distance; fwheel_to_handlebar_ref is the rotation of (l1, l2) by the steer axis tilt; calc_two_link_angles closes the two-link triangle.", "quantifier": "all measurements for which the roots exist", "why_tests_cant": "Continuum of inputs.", "anchors": ["bicycleparameters/geometry.py:calculate_abc_geometry", "bicycleparameters/geometry.py:calculate_l1_l2", "bicycleparameters/geometry.py:fwheel_to_handlebar_ref", "bicycleparameters/geometry.py:calc_two_link_angles"]}
{"id": "C26", "title": "Principal to benchmark conversion preserves the physics", "statement": "Converting a Moore2019 parameter set to Meijaard2007 preserves total mass, mass moments and the inertia of every body about every point and axis, keeps geometry, gravity and speed, and yields a complete valid set.", "quantifier": "all Moore2019 parameter sets with non-zero rear body mass whose bodies are centred in the symmetry plane (yD = yP = yH = 0); every axis and point", "why_tests_cant": "Continuum of inputs.", "anchors": ["bicycleparameters/conversions.py:_convert_principal_to_benchmark", "bicycleparameters/conversions.py:_sum_central_inertias", "bicycleparameters/parameter_sets.py:Moore2019ParameterSet.to_parameterization"]}
{"id": "C27", "title": "Parameter set construction accepts exactly the complete dictionaries", "statement": "Constructing a parameter set raises ValueError naming the first required parameter that is absent or not a float, in the documented order; otherwise it succeeds, accepts extra entries, leaves the dictionary untouched and refers to the caller's own dictionary.", "quantifier": "all dictionaries", "why_tests_cant": "All dictionaries.", "anchors": ["bicycleparameters/parameter_sets.py:ParameterSet._check_parameters", "bicycleparameters/parameter_sets.py:ParameterSet.__init__"]}
{"id": "C28", "title": "Conversions between parameterizations", "statement": "to_parameterization returns the set itself for its own name, a converted valid set of the requested name when the class supports it and the conversion succeeds, and ValueError for every other name; converting never alters the source set. Defects found: a principal (Moore2019) set never converts to the feedback parameterization, and a valid one without yD, yP, yH does not convert to Meijaard2007.", "quantifier": "all sets and all names", "why_tests_cant": "All names and parameter values.", "anchors": ["bicycleparameters/parameter_sets.py:ParameterSet.to_parameterization", "bicycleparameters/parameter_sets.py:Meijaard2007ParameterSet.to_parameterization", "bicycleparameters/parameter_sets.py:Moore2019ParameterSet.to_parameterization"]}
{"id": "C29", "title": "Mass centre and inertia queries of a parameter set are consistent", "statement": "mass_center_of any collection of bodies is the mass weighted mean of their centres, does not depend on the order, and agrees with the total centre used by the canonical matrices; body inertia tensors are symmetric and agree with the parameters.", "quantifier": "all parameter sets and all non-empty collections of bodies", "why_tests_cant": "Unbounded collections.", "anchors": ["bicycleparameters/parameter_sets.py:Meijaard2007ParameterSet.mass_center_of", "bicycleparameters/parameter_sets.py:Meijaard2007ParameterSet.form_inertia_tensor"]}
{"id": "C30", "title": "Parameter overrides never leak", "statement": "A model method called with parameter overrides uses the override for that call only: the model's parameter set is unchanged, unknown names are ignored, arrays must agree in length or the call raises ValueError, and the result depends on the overrides only through their values.", "quantifier": "all models, all override dictionaries and all sequences of calls", "why_tests_cant": "History property over arbitrary call sequences.", "anchors": ["bicycleparameters/models.py:_Model._parse_parameter_overrides"]}
{"id": "C31", "title": "Vectorised evaluation equals pointwise evaluation", "statement": "With array overrides, slice i of every returned matrix (canonical matrices, A, B, feedback A, B) equals the result of the scalar call with the i-th values, and the vectorised call succeeds when every scalar call does; arrays for parameters the matrices do not depend on leave a single matrix (except in the feedback model).", "quantifier": "all array lengths, all parameters that can be arrays", "why_tests_cant": "Unbounded array lengths and combinations of overridden parameters.", "anchors": ["bicycleparameters/models.py:Meijaard2007Model.form_reduced_canonical_matrices", "bicycleparameters/models.py:Meijaard2007Model.form_state_space_matrices"]}
{"id": "C32", "title": "Model state space equals the standalone functions", "statement": "Meijaard2007Model.form_state_space_matrices without overrides equals ab_matrix applied to benchmark_par_to_canonical with the set's v and g.", "quantifier": "all parameter sets", "why_tests_cant": "Relational, continuum.", "anchors": ["bicycleparameters/models.py:Meijaard2007Model.form_state_space_matrices"]}
{"id": "C33", "title": "Feedback model closes the loop", "statement": "Meijaard2007WithFeedbackModel returns A - B K with K the gain matrix of the parameter set, unchanged B; zero gains give the open-loop model; gain arrays act pointwise.", "quantifier": "all parameters, gains and array lengths", "why_tests_cant": "Continuum, unbounded lengths.", "anchors": ["bicycleparameters/models.py:Meijaard2007WithFeedbackModel.form_state_space_matrices"]}
{"id": "C34", "title": "Parameter file round trip", "statement": "Loading a file written by write_parameter_text_file returns the written dictionary; the file has one line per key in sorted order, and a declined overwrite or a failure leaves every file unchanged (declined returns False). A directory that is missing is created with those above it. Defect found: a bare file name without a directory part fails.", "quantifier": "all dictionaries whose keys and value texts are free of separators, all file system states and all user answers", "why_tests_cant": "All dictionaries, all user interaction histories.", "anchors": ["bicycleparameters/io.py:load_parameter_text_file", "bicycleparameters/io.py:write_parameter_text_file"]}
{"id": "C35", "title": "Loading a parameter file is total on the documented format only", "statement": "load_parameter_text_file ignores lines beginning with '#', strips trailing comments, averages comma separated values, lets a later line override an earlier one, and raises instead of returning partial data for any line without '='.", "quantifier": "all texts", "why_tests_cant": "All strings.", "anchors": ["bicycleparameters/io.py:load_parameter_text_file"]}
{"id": "C36", "title": "Writing periods replaces period lines only", "statement": "If the file ends with a newline, write_periods_to_file keeps every line not starting with T in order, drops all old T lines, appends exactly the T entries of the dictionary sorted by key, and doing it twice with the same data is the same as once. Defect found: without the final newline the last kept line and the first period are joined in one line.", "quantifier": "all file contents and dictionaries", "why_tests_cant": "All strings and repeated execution.", "anchors": ["bicycleparameters/io.py:write_periods_to_file"]}
{"id": "C37", "title": "Camel case spacing only inserts spaces", "statement": "space_out_camel_case adds spaces and changes no other character; the list output joined gives back the input; invalid output option raises ValueError.", "quantifier": "all strings", "why_tests_cant": "All strings.", "anchors": ["bicycleparameters/io.py:space_out_camel_case", "bicycleparameters/io.py:filename_to_dict"]}
{"id": "C38", "title": "Removing uncertainties keeps keys and nominal values", "statement": "remove_uncertainties returns the same keys with nominal values, leaves plain numbers alone, and does not modify its input; applied to its own output it changes nothing when there is no list of numbers. Defect found: with a list of numbers it raises on its own output.", "quantifier": "all dictionaries of numbers, uncertain numbers and lists", "why_tests_cant": "All dictionaries.", "anchors": ["bicycleparameters/io.py:remove_uncertainties"]}
{"id": "C39", "title": "Period bookkeeping", "statement": "check_for_period forces recomputation iff there are too few compound or torsional periods for the fork kind; calc_periods_for_files averages repeated trials per key independent of file order; get_period_key maps each part/pendulum/orientation to its documented name or raises.", "quantifier": "all measurement dictionaries and lists of files", "why_tests_cant": "Unbounded dictionaries and file lists.", "anchors": ["bicycleparameters/period.py:check_for_period", "bicycleparameters/period.py:calc_periods_for_files", "bicycleparameters/period.py:get_period_key"]}
{"id": "C40", "title": "Fit Jacobian is the derivative of the fit function", "statement": "jac_fitfunc returns, for every parameter and time, the partial derivative of the decaying oscillation fit function used by get_period.", "quantifier": "all parameter vectors and times", "why_tests_cant": "Derivative over a continuum.", "anchors": ["bicycleparameters/period.py:jac_fitfunc", "bicycleparameters/period.py:get_period"]}
{"id": "C41", "title": "Data selection returns a contiguous part of the data", "statement": "select_good_data and average_rectified_sections return contiguous slices of their input or fail. select_good_data returns the data from the largest deviation from the mean up to, and without, the last point whose deviation is above percent times it; it succeeds when that peak is upward. Defects found: the last point above the threshold is dropped, and data with a downward largest peak can raise UnboundLocalError.", "quantifier": "all data vectors of any length", "why_tests_cant": "All vectors.", "anchors": ["bicycleparameters/period.py:select_good_data", "bicycleparameters/period.py:average_rectified_sections"]}
{"id": "C42", "title": "Goodness of fit", "statement": "fit_goodness returns rsq = SSR/SST with SST = SSE + SSR about the mean of the measurements; for a least-squares fit with offset SSE is the sum of squared residuals and 0 <= rsq <= 1; rsq = 1 with SSE = 0 for a perfect fit; undefined iff the measurements are constant. Defect found: for other predictions SSE can be negative.", "quantifier": "all data vectors of any length", "why_tests_cant": "All vectors.", "anchors": ["bicycleparameters/period.py:fit_goodness"]}
{"id": "C43", "title": "Bicycle construction picks data sources by a fixed decision table", "statement": "Bicycle(name, pathToData, forceRawCalc, forcePeriodCalc) loads saved parameters, or recalculates from raw data, or raises, exactly according to which directories and files exist and which flags are set; only the file of measurements can be modified. Defects found: forceRawCalc=True without measurements silently returns the bicycle with whatever was saved (possibly nothing); one file with a name not made of two camel case words in Parameters makes every construction raise.", "quantifier": "all file system states and flags", "why_tests_cant": "All combinations of directory contents and flags.", "anchors": ["bicycleparameters/main.py:Bicycle.__init__", "bicycleparameters/main.py:Bicycle.calculate_from_measured"]}
{"id": "C44", "title": "Adding a rider is idempotent and all-or-nothing", "statement": "After a successful add_rider the bicycle reports hasRider and its parameters are the combination; a second add_rider changes nothing; a failing add_rider leaves the bicycle without rider and its parameters unchanged; after any sequence of calls with caught exceptions the state is that of the first successful call. str(bicycle) says no one is on board until a call succeeds and names the rider of the first successful call from then on.", "quantifier": "all bicycles, riders, sequences of add_rider calls and failures", "why_tests_cant": "History property.", "anchors": ["bicycleparameters/main.py:Bicycle.add_rider", "bicycleparameters/main.py:Bicycle.__str__"]}
{"id": "C45", "title": "Saving writes every parameter set to its own file", "statement": "save_parameters writes each parameter set of the bicycle to <name><set>.txt under the Parameters directory with the set's content, and loading gives the same values. Defect found: this holds for a single set only; the file name accumulates over the loop, so every later set goes to a file named <name><set1>.txt<set2>.txt..., and afterwards Bicycle(name) raises ValueError.", "quantifier": "all collections of parameter sets", "why_tests_cant": "Needs two or more parameter sets in any order.", "anchors": ["bicycleparameters/main.py:Bicycle.save_parameters"]}
{"id": "C46", "title": "Split fork detection", "statement": "is_fork_split always answers: it is true iff some measurement name has the letter S in first or second place (as the fork's mS, aS1, ... and the Sxx names do), whatever the order of the measurements; get_parts_in_parameters lists the second letter of every name beginning with m.", "quantifier": "all measurement dictionaries", "why_tests_cant": "All dictionaries.", "anchors": ["bicycleparameters/main.py:is_fork_split", "bicycleparameters/main.py:get_parts_in_parameters"]}
{"id": "C47", "title": "Benchmark parameters from measurements reproduce a known bicycle", "statement": "calculate_benchmark_from_measured applied to exact pendulum measurements of a bicycle with given masses, geometry, centres of mass and inertias returns exactly these parameters. Defect found: with ten or more orientations of a part the angles are taken in alphabetical order (alphaB10 before alphaB2) but the periods in numerical order, so they are paired wrongly. Every solid bicycle (positive masses and inertias, centres of mass not at the hubs) has such measurements and they are processed without error.", "quantifier": "all bicycles and all sets of sufficiently many (at most nine per part) pendulum orientations, fork measured in one piece or in two, with and without flywheel", "why_tests_cant": "Inverse problem over a continuum.", "anchors": ["bicycleparameters/main.py:calculate_benchmark_from_measured"]}
{"id": "C48", "title": "Steer assembly inertia about the steer axis", "statement": "steer_assembly_moment_of_inertia returns the moment of inertia of the chosen front parts about the steer axis, consistent with the steer-steer term of the mass matrix of the model when trail is zero and everything is included. Asking for fork or handlebar alone when only the pair was measured raises ValueError.", "quantifier": "all parameter sets and option combinations", "why_tests_cant": "Continuum and option combinations.", "anchors": ["bicycleparameters/main.py:Bicycle.steer_assembly_moment_of_inertia"]}
{"id": "C49", "title": "Tables list every parameter once with aligned columns", "statement": "A table's variable list contains each name occurring in any bicycle exactly once, sorted without regard to capitals (the order is determined unless two names differ in capitals only). The LaTeX label of a name is its first letter with the rest as an index (Greek letters spelled out, a period as T^pendulum_{part, orientation}); a name of no known form makes the table fail. A row has the label and two cells per bicycle: NA NA for a missing parameter, the number and NA without an uncertainty, otherwise nominal value and standard deviation rounded to the first digit of the standard deviation. create_rst_table returns 2n+5 lines of equal length for n names, rules and rows alternating, every cell padded to its column. Not so (refuted): a value whose standard deviation rounds to zero makes the whole table fail, and a second call of create_rst_table returns a different text.", "quantifier": "all lists of bicycles and parameters", "why_tests_cant": "Unbounded tables.", "anchors": ["bicycleparameters/tables.py:Table", "bicycleparameters/tables.py:uround", "bicycleparameters/tables.py:to_latex"]}
{"id": "C50", "title": "Bode phase alignment", "statement": "The Bode comparison shifts every phase curve of the figure (also those a figure handed in already contained) by a multiple of 360 degrees so that its first value lies in [-180, 180], keeps all differences within a curve, leaves a curve that starts strictly inside alone, and makes curves that differ by whole turns start at the same value. Fails: curves starting 180 degrees from zero end up a whole turn apart and flip on every further call.", "quantifier": "all phase curves", "why_tests_cant": "All vectors.", "anchors": ["bicycleparameters/main.py:Bicycle.compare_bode_speeds", "bicycleparameters/plot.py:compare_bode_bicycles"]}
{"id": "C51", "title": "Rider vectors convert between frames without distortion", "statement": "yeadon_vec_to_bicycle_vec is defined exactly when the bicycle's numbers are present and the chain stay reaches the bottom bracket; it is an orientation preserving isometry that maps the person's reference point to the hips (seat post and seat tube up from the bottom bracket), backward to -x, left to -y and up to -z.", "quantifier": "all vectors and measurements", "why_tests_cant": "Continuum.", "anchors": ["bicycleparameters/rider.py:yeadon_vec_to_bicycle_vec"]}
{"id": "C52", "title": "Web app tables, edits and figures", "statement": "Selecting a bicycle or reset fills the tables so that every cell shows the nominal value of the parameter its row and column name; after any history of selections, resets, edits, ticks and slider moves each cell holds what was last typed since the tables were filled, otherwise the selected bicycle's value; the figures are drawn for exactly these values, so editing a cell changes exactly that parameter; the speeds run from one slider end to the other. Fails: the tilt loses its fraction of a degree whenever the tables are used, the two figures appear in each other's container, equal slider ends give no speeds.", "quantifier": "all bicycles, edit histories, options and slider positions", "why_tests_cant": "Unbounded histories and a continuum of values.", "anchors": ["bicycleparameters/app.py:populate_wheel_data", "bicycleparameters/app.py:plot_update"]}
{"id": "C53", "title": "The reported period is the period of the fitted oscillation", "statement": "The period get_period reports for fitted parameters with damping ratio below one is the smallest positive time after which the fitted oscillation repeats its deviation from the offset up to the decay over that time; sample times start at zero with step 1/rate.", "quantifier": "all fitted parameter vectors and times", "why_tests_cant": "Continuum of parameters and times.", "anchors": ["bicycleparameters/period.py:get_period"]}
{"id": "C54", "title": "A configured rider sits on the bicycle", "statement": "rider_on_bike stores the solver's joint angles for the left side and their mirror image for the right side and changes nothing else; the equations it solves have exactly the postures as roots in which both feet are over the bottom bracket, both hands at the grips (given distances from both hubs, given handlebar width) and the elbow axis horizontal. configure_rider's parameters are mass, mass centre and moments of that rider in the bicycle frame. Fails: when the seat is higher than the leg is long no root exists, and a rider is returned all the same. Combined with the bicycle (combine_bike_rider), the canonical matrices are those of the bicycle with that figure as a rigid body fixed to its rear frame, if the figure is its own mirror image.", "quantifier": "all rider measurements, bicycles and solver answers", "why_tests_cant": "Continuum of lengths and angles; equivalence of an equation system with a geometric condition.", "anchors": ["bicycleparameters/rider.py:rider_on_bike", "bicycleparameters/rider.py:configure_rider"]}
{"id": "C55", "title": "Inertia ellipses are drawn on the ellipse", "statement": "All points drawn for an inertia ellipse lie on the ellipse with the given centre, axes and half axes; there are N of them and the curve is closed.", "quantifier": "all centres, orthonormal axes, half axes and numbers of points", "why_tests_cant": "Continuum.", "anchors": ["bicycleparameters/plot.py:_generate_ellipse_plot_data"]}
{"id": "C56", "title": "Rider lean model: matrices of the upright operating point", "statement": "For every Moore rider-lean parameter set and all scalar overrides, the state and input matrices returned are those of the equations of motion linearised at the upright, straight-ahead operating point whose pitch closes the wheel contact constraint, at the requested speed; arrays are evaluated element by element; the parameter set is not changed; two arrays of different lengths raise ValueError.", "quantifier": "all parameter sets, overrides (scalars or equal-length arrays) and histories", "why_tests_cant": "Quantifies over all parameter values and override shapes; a test sees a few points.", "anchors": ["bicycleparameters/models.py:MooreRiderLean2012Model.form_state_space_matrices"]}
{"id": "C57", "title": "calc_eigen returns eigenpairs of the state matrix it documents", "statement": "For every model, scalar overrides give one array of eigenvalues and one of right (or left) eigenvectors of that model's state matrix and array overrides give one per element, equal to the corresponding scalar call; failures are those of the matrix construction; the parameters are untouched; each right eigenvector's angle/rate parts satisfy the second-order equations of motion at that speed. For every bicycle with a regular mass matrix and every list of speeds eigenvalues and eigenvectors as promised exist.", "quantifier": "all models, parameter sets, scalar or array overrides, and all eigen-solvers satisfying numpy's contract", "why_tests_cant": "All parameters, array lengths and speeds; correctness relative to any contract-satisfying eigen routine.", "anchors": ["bicycleparameters/models.py:_Model.calc_eigen"]}
{"id": "C58", "title": "Simulation returns samples of the motion", "statement": "Simulated states are the samples, at the requested times, of the solution of the model's linear equations from the given initial state under the given input; the free motion is unique; responses superpose; a modal simulation starts along the real part of an eigenvector and follows it; array-valued parameters are rejected. Refuted: the caller's initial condition array survives (the rider-lean model overwrites its tenth entry).", "quantifier": "all models, parameters, increasing time grids, initial states and inputs; any solver meeting its contract", "why_tests_cant": "Continuum of initial states, inputs and times.", "anchors": ["bicycleparameters/models.py:_Model.simulate", "bicycleparameters/models.py:_Model.simulate_modes", "bicycleparameters/models.py:MooreRiderLean2012Model.simulate"]}
{"id": "C59", "title": "Modal controllability angles", "statement": "With an array-valued parameter, each reported number is the angle (or its acute version) between the corresponding left eigenvector's real part and input column. Refuted: the call works for scalar parameters (TypeError), the number does not depend on the arbitrary phase of the eigenvector, and it lies in the documented range.", "quantifier": "all parameter sets, overrides and eigen-solvers", "why_tests_cant": "Independence of the solver's arbitrary eigenvector scaling is a statement about all solvers.", "anchors": ["bicycleparameters/models.py:_Model.calc_modal_controllability"]}
{"id": "C60", "title": "Bicycle.canonical, state_space and eig agree with the standalone functions and never drift", "statement": "On a Bicycle, canonical() and state_space() return what the standalone functions return for its stored benchmark parameters; a nominal flag that is neither True nor False raises ValueError; any history of such calls leaves all stored values but IRzz and IFzz as they were, and no result depends on the history; eig() gives, speed by speed, the spectrum of the state matrix and agrees with the model class; a float acts as a one-element sequence. Refuted: calls leave the stored parameters alone; an integer speed is accepted (IndexError).", "quantifier": "all stored parameter dictionaries, flags, speeds and finite call histories", "why_tests_cant": "Histories are unbounded and parameters range over a continuum.", "anchors": ["bicycleparameters/main.py:Bicycle.canonical", "bicycleparameters/main.py:Bicycle.state_space", "bicycleparameters/main.py:Bicycle.eig"]}
{"id": "C61", "title": "Eigenvalue-versus-speed plots show the spectrum", "statement": "Each plotted point is the real part or absolute imaginary part of an eigenvalue of the bicycle at that (sorted) speed; for smoothly resolved curves and at the lowest speed none is missing; the largest option shows the greatest real part; the order of the speeds does not matter; the plotly version highlights every sampled stable speed, reports no region only if stable samples lie within 0.0001, and highlights only stable samples when each mode is stable on one interval. Refuted: the last without that condition; plotting a bicycle with a mode that is never stable (UnboundLocalError); the fig and largest options of the plotly version.", "quantifier": "all bicycles, lists of speeds and eigen-solvers meeting their contract", "why_tests_cant": "All speeds, parameters and solver orderings.", "anchors": ["bicycleparameters/main.py:Bicycle.plot_eigenvalues_vs_speed", "bicycleparameters/main.py:Bicycle._plot_eigenvalues_vs_speed_plotly"]}
{"id": "C62", "title": "Bode plots show the transfer function the title names", "statement": "The single-input single-output system handed to the Bode routine is the bicycle's equations of motion driven by the one torque named in the default title and observed through the angle or rate named there; inputs 0-1 and outputs 0-3 are accepted and others raise IndexError.", "quantifier": "all bicycles, speeds, non-negative input and output indices, all signals", "why_tests_cant": "All parameters, speeds and signals.", "anchors": ["bicycleparameters/main.py:Bicycle.plot_bode"]}
{"id": "C63", "title": "Inertia drawings of a parameter set describe the body's inertia", "statement": "For a drawable parameter set (Meijaard2007, its feedback variant, Moore2019), the radii-of-gyration drawing of a body is a circle and two perpendicular lines centred on its mass centre whose radius and half lengths, with the body's mass, give its moment of inertia about every axis through the mass centre; it exists for a benchmark body with positive mass exactly when no axis has a negative moment; two sets with the same body draw the same circle and pair of lines, in particular a Moore2019 front frame and its benchmark conversion. The ellipse is centred and aligned likewise, its width and height are the semi-axes of the homogeneous ellipsoid with the body's moments, and it can be drawn exactly when moments about perpendicular axes of the plane differ by no more than the moment about y. Refuted: the ellipse drawn is the view of that ellipsoid (it is drawn at half size).", "quantifier": "all parameter sets, bodies, axes through the mass centre, prior contents of the matplotlib axes, and eigensolvers meeting numpy's contract", "why_tests_cant": "All real parameters and all directions; which eigenvector sign or order numpy returns is not fixed.", "anchors": ["bicycleparameters/parameter_sets.py:Meijaard2007ParameterSet._planar_principal_radii_of_gyration", "bicycleparameters/parameter_sets.py:Meijaard2007ParameterSet.plot_body_principal_radii_of_gyration", "bicycleparameters/parameter_sets.py:Meijaard2007ParameterSet.plot_body_principal_inertia_ellipsoid", "bicycleparameters/parameter_sets.py:Moore2019ParameterSet.plot_body_principal_radii_of_gyration", "bicycleparameters/parameter_sets.py:Moore2019ParameterSet.plot_body_principal_inertia_ellipsoid"]}
{"id": "C64", "title": "Geometry, mass-centre and person drawings, and drawings that share axes", "statement": "plot_geometry draws the ground, wheels that touch it at x = 0 and x = w, a frame whose outer segments are perpendicular to the steer axis and a dashed line along the steer axis to the ground point w + c; it works exactly when cos(lam) is non-zero and, for the dashed line, the wheel centres project to different points of the axis. Mass-centre symbols are at the mass centres; unknown bodies raise KeyError; the person diamond is the rhombus with diagonals wP and lP along the person's axes. Any sequence of drawing calls on shared axes shows what was there plus, in order, what each call draws alone, with z down; whether a call fails does not depend on the axes; several bodies are drawn like each in turn; plot_all is all drawings of all bodies. Refuted: the dashed line starts at the front wheel centre.", "quantifier": "all parameter sets, body lists, options, axes contents and sequences of drawing calls", "why_tests_cant": "All parameters and unbounded histories of calls on one axes.", "anchors": ["bicycleparameters/parameter_sets.py:_plot_geometry_from_benchmark", "bicycleparameters/parameter_sets.py:_com_symbol", "bicycleparameters/parameter_sets.py:ParameterSet._finalize_plot", "bicycleparameters/parameter_sets.py:Meijaard2007ParameterSet.plot_geometry", "bicycleparameters/parameter_sets.py:Meijaard2007ParameterSet.plot_mass_centers", "bicycleparameters/parameter_sets.py:Moore2019ParameterSet.plot_person_diamond", "bicycleparameters/parameter_sets.py:Meijaard2007ParameterSet.plot_all", "bicycleparameters/parameter_sets.py:Moore2019ParameterSet.plot_all"]}
{"id": "C65", "title": "The geometry figures of a Bicycle show what is on the bicycle", "statement": "plot_bicycle_geometry uses the nominal benchmark values and shows, in plot coordinates (x, -z) and in this order: an ellipse centred on the mass centre of every part (if asked), the ground under both wheels, wheels standing on it at x = 0 and x = w, a frame square to and along the steer axis, the steer axis down to the ground point w + c, the pendulum lines, the mass-centre marks of F, R, every other part and always H, and the rider's leg, torso, arm and head placed at the hips. Each pendulum line lies on its measured line, has the pendulum inertia as length and is centred on the point of that line nearest to the mass centre; none are drawn with a rider, with pendulum=False, without raw data, and (silently) when any measured list holds a plain number. The geometry can be drawn exactly when the five lengths are there, cos(lam) is non-zero and the frame's corners on the steer axis differ. The y limits take in ground, wheels, frame, steer axis and the top of the head. An ellipse is a momental ellipse of its part when the eigensolver returns +y and the axis of the smaller moment pointing down, or when the axes are along x and z and the moment about y is the largest (wheels: a circle). The plotly version shows the same lines and wheels. Refuted: with the axis returned pointing up the mirror image is drawn; with the moment about y in between, the ellipse belongs to another plane; with -y the figure fails with UnboundLocalError; the plotly figure fails with KeyError 'H' for a split fork that the other draws, shows only the rider's lower leg, and draws wheel ellipses at twice the radius.", "quantifier": "all benchmark and measured dictionaries, extras, option values, rider joint positions, eigensolvers and points of the plane", "why_tests_cant": "Image tests compare a few pictures; orientation depends on the sign the eigensolver happens to return and the failure cases on which lists carry uncertainties.", "anchors": ["bicycleparameters/main.py: Bicycle.plot_bicycle_geometry, Bicycle._plot_bicycle_geometry_plotly", "bicycleparameters/plot.py: _generate_ellipse_plot_data", "bicycleparameters/geometry.py: fundamental_geometry_plot_data, project_point_on_line", "bicycleparameters/inertia.py: principal_axes"]}
{"id": "C66", "title": "Saved and displayed parameter sets", "statement": "A parameter set of floats written with to_yaml and loaded again by the same class keeps every value, required and extra, and touches no other file; a file loads exactly when it is a mapping with an entry 'values' holding every required parameter as a float (and, for the Meijaard2007 family, an entry 'rider'), otherwise a KeyError names the missing entry. Not kept: whether a rider is included (the file always says null), and the parameterization stored in the file is never looked at, so a feedback set loads as a plain set; a Moore2012 set can be written but never loaded (TypeError). to_ini writes one 'name=value' line per parameter, in order, that reads back within half a unit of the 16th decimal (smaller values read back as zero); a value that cannot be formatted stops the call before the file is opened. The HTML table has the parameterization as caption and one row per required parameter, in order, with its LaTeX label and its value to three decimals, and fails with the name of a parameter deleted since. The labels spell the names, except mP and zH of Moore2019 and ie11 of the Moore2012 sets, whose label is that of id11.", "quantifier": "all parameter sets of the five classes, values, file systems and file names, all YAML writers and readers that read this document back", "why_tests_cant": "Ranges over all parameter values and extra entries, including those whose text is rounded; a test checks one written file.", "anchors": ["bicycleparameters/parameter_sets.py: ParameterSet._from_yaml, ParameterSet.to_yaml, ParameterSet.to_ini, ParameterSet._repr_html_, Meijaard2007ParameterSet._from_yaml, par_strings"]}
{"id": "C67", "title": "Periods estimated from measurement files", "statement": "A pendulum file is usable exactly when it has MATLAB's three housekeeping entries and notes that are a text or an array; those entries are dropped, empty notes become the empty text, a file with a time record loses its sample rate and duration, and everything else is kept; a missing entry is named by a KeyError. The starting point of the fit is the mean, plus or minus the largest deviation (half of it for the sine) by the direction of the first ten samples, a damping ratio of 1/1000 and pi times the rate over the mean distance of the crossings that lie more than 20 samples apart (4 without two of them; never above pi times rate over 21); it needs eleven samples and moves with the record's offset only. The period is the damped period 2 pi/(w sqrt(1-z^2)) of the least squares fit over the sample times, its uncertainty the first order propagation of the uncertainties of w and z (residual variance over n-5 times the diagonal of the inverse normal matrix); an exact fit has uncertainty zero, and at a minimum the variance is the mean squared error. With a time record the whole record is used, otherwise it is cut at a tenth of its largest deviation and ActualRate is preferred to sampleRate. A name maps to the mean of its files. Not so (refuted): a fractional sample rate is never accepted, and the correlation of frequency and damping is ignored.", "quantifier": "all loaded files, records, sample rates and time records; all least squares and matrix inversion routines with the stated contract; both readings of masked crossings", "why_tests_cant": "Ranges over all records and fit results; a test fixes one recorded file.", "anchors": ["bicycleparameters/io.py: load_pendulum_mat_file", "bicycleparameters/period.py: make_guess, get_period, get_period_from_truncated, get_sample_rate, calc_periods_for_files"]}
{"id": "C68", "title": "Figures of a model", "statement": "The eigenvalue figure of a model has, for every eigenvalue, one line of the absolute imaginary parts and one of the real parts against the values of the first parameter given as an array, values below the tolerance left out on request, and it is labelled with that parameter. The eigenvector figure of a scalar call has one panel per shown mode, titled with its eigenvalue (red when it is not stable), and the polar lines are the components of the eigenvector scaled so that the largest reaches the rim. The simulation and mode figures show every state of the true motion at the sample times, angles in degrees, on the axes of its unit; the controllability figure shows the angles between the left eigenvectors and the input columns in degrees; the gain figure shows the eight gains in use. Errors of the underlying calculation are passed on, and no figure changes the stored parameters. Recorded defects: the eigenvalue figure fails for every scalar call; the shading of stable regions is drawn at heights read as fractions of the axes, so it is invisible when no eigenvalue part is positive, and with sorting it can shade an unstable value; with arrays the eigenvector panels do not show the eigenvectors they are titled with; mode figures with one shown mode fail, are labelled in radians, and leave out the last state of the rider lean model.", "quantifier": "every model of the library, complete parameter set, set of overrides (scalars and arrays), eigensolver and integrator that meet their contracts, sample times, option of hiding zeros, sorting and colours", "why_tests_cant": "A test can look at one figure; that a curve shows the right quantity for every parameter value, order of eigenvalues and size of the arrays, and that no stored parameter changes, is a statement about all calls.", "anchors": ["bicycleparameters/models.py:_Model.plot_eigenvalue_parts", "bicycleparameters/models.py:_Model.plot_eigenvectors", "bicycleparameters/models.py:_Model.plot_mode_simulations", "bicycleparameters/models.py:Meijaard2007Model.plot_simulation", "bicycleparameters/models.py:Meijaard2007WithFeedbackModel.plot_gains", "bicycleparameters/models.py:MooreRiderLean2012Model.plot_simulation", "bicycleparameters/models.py:Meijaard2007Model._plot_modal_controllability"]}
{"id": "C69", "title": "The generated equations of the rider lean model", "statement": "The linear equations of motion that the rider lean model evaluates (some 5500 generated assignments) read no work array element they have not assigned, so the matrices depend on the state, the torques and the parameters only. They are dimensionally homogeneous: giving every parameter in other units of mass, length and time gives the matrices, and hence the modes and eigenvalues, in those units. They commute with the mirror image in the plane of the bicycle, so that at the upright operating point the lateral states (lean, steer, yaw, lateral position, rider lean) and torques are decoupled from the motion in the plane. They commute with the reversal of time: riding backwards with the rider's damping reversed gives the same modes with negated eigenvalues. Lean, rear wheel, steer and rider lean angles are the integrals of their rates, torques act on rates only and the position of the bicycle on the ground does not matter.", "quantifier": "every parameter set, keyword arguments, forward speed, state of motion, content of uninitialised memory, system of units and pitch routine that does not depend on the unit of length (and is even in lean and steer for the mirror image)", "why_tests_cant": "A numerical test evaluates the program at single points, where memory may happen to be zero and a dimensionally wrong term may be small; homogeneity and symmetry are statements about all points and all units.", "anchors": ["bicycleparameters/_mooreriderlean2012.py:eval_linear", "bicycleparameters/models.py:MooreRiderLean2012Model.form_state_space_matrices"]}
{"id": "C70", "title": "The rider lean equations are the Newton-Euler equations of the five bodies", "statement": "The state and input matrices of the rider lean model are the linearised equations of motion of its five rigid bodies about upright straight running: derivatives of the states equal A x + B T exactly when both wheels roll without slipping and the roll balance of everything, the yaw balance of everything, the balance of the front assembly about the steer axis and the balance of the rider about the lean hinge hold with the given torques, spring and damper. With the rider held still they are the Whipple equations (C02) with the rider as one more rigid body of the rear frame. The three torques can produce any accelerations; a bicycle that stands still without damping conserves kinetic plus potential energy, which torques change by their power and the damper takes away; torques that start a bicycle at rest do positive work; and torques and accelerations are reciprocal.", "quantifier": "every rider lean parameter set and keyword arguments, content of uninitialised memory, forward speed, state, torques, and every pitch routine that puts both wheels of the upright bicycle on the ground", "why_tests_cant": "A test compares a few entries of the matrices with published numbers for one rider; that 5500 generated assignments are the laws of mechanics for every geometry, mass distribution and speed is a statement about polynomials in forty symbols.", "anchors": ["bicycleparameters/_mooreriderlean2012.py:eval_linear", "bicycleparameters/models.py:MooreRiderLean2012Model.form_state_space_matrices"]}
{"id": "C71", "title": "The signs of the reported eigenvalues decide whether the bicycle balances itself", "statement": "Bicycle.eig, plot_eigenvalues_vs_speed and the plotly variant tell which speeds are stable: the riderless bicycle described by the stored benchmark parameters, left to itself at constant speed (no torques; Newton-Euler equations of its four bodies), brings every disturbance of roll and steer back to zero at an exponential rate, uniformly bounded by the disturbance, exactly at the speeds where all reported eigenvalues have negative real parts (equivalently, where the plotted largest real part is negative); where one is positive, arbitrarily small disturbances grow beyond all bounds. Every sampled self-stable speed lies in the highlighted region; no bicycle balances itself at rest, and one that does at speed v falls over at -v. Free simulations of the linear models with such eigenvalues die out.", "quantifier": "every parameter set, speed, sampled range, initial disturbance and motion", "why_tests_cant": "It is about all motions of the bicycle for all time and all initial states, for every bicycle.", "anchors": ["bicycleparameters/main.py:Bicycle.eig", "bicycleparameters/main.py:Bicycle.plot_eigenvalues_vs_speed", "bicycleparameters/bicycle.py:ab_matrix", "bicycleparameters/bicycle.py:benchmark_par_to_canonical", "bicycleparameters/models.py:_Model.calc_eigen", "bicycleparameters/models.py:_Model.simulate"]}
{"id": "C72", "title": "Figures that compare the eigenvalues of several bicycles", "statement": "plot.plot_eigenvalues draws bicycle after bicycle into one figure exactly when there is at least one bicycle, each can be drawn alone and the lists of colours and line styles are empty or long enough; the figure consists of the lines of the single figures. The lines of bicycle i are in its colour (given, or i/n of the colour map) and show the real parts (solid) and absolute imaginary parts (dashed) of its eigenvalues at the sorted speeds, or with largest=True its greatest real part in its line style; the legend names each bicycle once, in order, in its colour. With largest=True a bicycle balances itself exactly at the speeds where its line is below the drawn axis line and falls over where it is above. Line styles have no effect without largest=True. Single figures without generic=True colour both lines of one mode alike and label them with mode and part; drawing into an existing figure keeps its lines.", "quantifier": "every list of bicycles, speeds, colours, styles, options and colour map", "why_tests_cant": "It ranges over all lists of bicycles and parameter sets and ties the drawn lines to the spectra and motions of each bicycle.", "anchors": ["bicycleparameters/plot.py:plot_eigenvalues", "bicycleparameters/main.py:Bicycle.plot_eigenvalues_vs_speed"]}
{"id": "C73", "title": "From the measurements of a real bicycle to its stability", "statement": "If the measurements in a bicycle's file (with the periods taken from the recordings where they are missing or asked for) are exact for some real bicycle, made of two wheels, a rear frame and a handlebar assembly measured whole or in two parts, then the eigenvalues that Bicycle(...) and eig report from them tell at which speeds that real bicycle balances itself: at every given speed it does exactly if all reported real parts are negative, and it falls over if one is positive. After add_rider with a rider whose parameters are exact, the same holds for the real bicycle with this rider fixed to its rear frame.", "quantifier": "every real bicycle, file system content, options, rider and list of speeds", "why_tests_cant": "It composes the whole path from files to eigenvalues and ranges over all physical bicycles and all their motions.", "anchors": ["bicycleparameters/main.py:Bicycle.__init__", "bicycleparameters/main.py:Bicycle.calculate_from_measured", "bicycleparameters/main.py:Bicycle.add_rider", "bicycleparameters/main.py:Bicycle.eig", "bicycleparameters/main.py:calculate_benchmark_from_measured"]}
{"id": "C74", "title": "Results of the Whipple model do not depend on the units", "statement": "If all measurements of a bicycle are given in other units of mass, length and time, the calculation of the benchmark parameters succeeds or fails as before, and every benchmark parameter, line intercept and pendulum inertia it returns is the old one in the new units. If all benchmark parameters are given in other units, the canonical matrices can be calculated for the same parameter sets and are the old ones times (mass*length^2, mass*length, mass*length, mass) units; the state matrices at the same speed are the old ones times unit of the row / (unit of time * unit of the column); the eigenvalues reported by eig are the old ones divided by the unit of time, each as often, whatever routine calculates them, also all the way from the measurements; motions, and with them whether the bicycle balances itself or falls over, are the same motions in the new units; combining with a rider commutes with the change of units. In particular a bicycle of the same shape k times as long and r times as heavy has at sqrt(k) times the speed the eigenvalues divided by sqrt(k).", "quantifier": "every set of measurements, parameter set, speed, positive units, size ratio, root finder and eigenvalue routine", "why_tests_cant": "It ranges over all measurements, parameter sets, unit systems and motions; a missing or extra factor shows only in the scaling.", "anchors": ["bicycleparameters/main.py:calculate_benchmark_from_measured", "bicycleparameters/bicycle.py:benchmark_par_to_canonical", "bicycleparameters/bicycle.py:ab_matrix", "bicycleparameters/main.py:Bicycle.eig", "bicycleparameters/main.py:Bicycle.state_space", "bicycleparameters/inertia.py:combine_bike_rider"]}
{"id": "C75", "title": "The figures the period estimation leaves behind", "statement": "Estimating the periods of all measurement files of a bicycle leaves for every file DIR/RawData/NAME.mat the figure DIR/Plots/PendulumFit/NAME.png, drawn from the contents of that file: the measurements over the sample times as points named 'Measured', the fitted oscillation as a line named 'Fit', time from zero to the last sample, and a title giving the fitted parameters, r squared and the period returned for the file. No other file is created, changed or removed, whether the estimation succeeds or fails, and the periods are exactly those estimated without figures (drawing never makes a record fail). The periods used to calculate a bicycle's parameters are these. Drawing on a figure that already has lines names the old lines.", "quantifier": "every directory, set of measurement files (with any contents), file system state, fit routine and rendering of the figure", "why_tests_cant": "It ranges over all records, file systems and points of failure; a figure saved under the wrong name or showing the wrong file looks plausible.", "anchors": ["bicycleparameters/period.py:plot_osfit", "bicycleparameters/period.py:get_period", "bicycleparameters/period.py:calc_periods_for_files", "bicycleparameters/main.py:Bicycle.calculate_from_measured"]}
{"id": "C76", "title": "Standard deviations are propagated to first order", "statement": "When every measurement carries a standard deviation, the standard deviation reported with each benchmark parameter calculated from measurements (with a measured wheelbase) is the first-order one: the root of the sum over the measurements of the squares of (derivative of that parameter with respect to the measurement) times (its standard deviation), the derivatives being those of the calculation itself, correlations included. The same holds for each entry of the canonical matrices, of the state space matrices (also all the way from the measurements, with or without a rider), of the parameters with a rider, and of the steer assembly's inertia. The nominal values are what the calculation gives with plain numbers, the failures are the same, and a deviation exists whenever the plain calculation succeeds unless a part hangs at its own mass centre or the handlebar points are in line. Without a measured wheelbase the steer axis tilt enters as an independent number with the deviation of the tilt for equal wheels; an uncertainty of a wheel's radius does not show in it although the tilt depends on it.", "quantifier": "every set of measurements and standard deviations, parameters, rider, speed, root finder", "why_tests_cant": "It ranges over all real inputs and compares a reported number with a derivative of the whole calculation; tests compare a few published deviations within a tolerance.", "anchors": ["bicycleparameters/main.py:calculate_benchmark_from_measured", "bicycleparameters/geometry.py:calculate_benchmark_geometry", "bicycleparameters/bicycle.py:lambda_from_abc", "bicycleparameters/bicycle.py:benchmark_par_to_canonical", "bicycleparameters/bicycle.py:ab_matrix", "bicycleparameters/inertia.py:combine_bike_rider", "bicycleparameters/main.py:Bicycle.steer_assembly_moment_of_inertia"]}
{"id": "C77", "title": "Self-stability and the critical speeds follow from the canonical matrices", "statement": "For every bicycle whose parts have positive mass and admissible inertia, all eigenvalues reported for a speed have negative real part - and the bicycle balances itself at that speed - exactly when the coefficients a4..a0 of det(s^2 M + s v C1 + g K0 + v^2 K2), with the canonical matrices of that bicycle, satisfy a3, a2, a1, a0 > 0 and a1 a2 a3 > a4 a1^2 + a0 a3^2. Zero is among the reported eigenvalues exactly at the capsize speed, the speed at which g K0 + v^2 K2 is singular; on one side of it no bicycle balances itself. A purely imaginary eigenvalue i y (the weave speed) is reported exactly where a1 = a3 y^2 and a4 y^4 - a2 y^2 + a0 = 0.", "quantifier": "every set of Benchmark parameters of a physical bicycle, every list of speeds, every eigenvalue routine that reports all eigenvalues", "why_tests_cant": "It ranges over all bicycles and speeds, and the critical speeds are single points no sampled speed hits.", "anchors": ["bicycleparameters/main.py:Bicycle.eig", "bicycleparameters/bicycle.py:ab_matrix", "bicycleparameters/bicycle.py:benchmark_par_to_canonical", "bicycleparameters/main.py:Bicycle.plot_eigenvalues_vs_speed"]}
{"id": "C78", "title": "What double precision arithmetic does to the results", "statement": "Calculated with rounding after every operation, the mass and gravity stiffness matrices are symmetric to the last bit, the zeros of C1 and K2 are zeros and the inverse mass block of B is symmetric; at the opposite speed the damping block of the state matrix changes its sign to the last bit and nothing else changes; in units that are powers of two times the old ones every result is the old one scaled, to the last bit. Every entry of the canonical matrices differs from the exact one by at most 46 unit roundoffs times the sum of the sizes of its terms (9 to 19 roundoffs of the entry itself where nothing cancels), and the entries of A and B by at most 291 and 189 roundoffs times the sizes of their terms times the factor lost by cancellation in the determinant. tor_inertia, torsional_pendulum_stiffness, tube_inertia and the diagonal of parallel_axis are accurate to 7..12 roundoffs; parallel_axis never makes a moment of inertia smaller, keeps symmetry and does not depend on the sign of the offset. total_com of n bodies, in whatever order numpy adds, gives the total mass to n roundoffs and each coordinate of the centre to 2 n + 1 roundoffs of the largest coordinate, and never puts the centre on the wrong side of a plane; trail and mechanical trail are accurate to 10 and 14 roundoffs times the sizes of their terms, the entries of a turned inertia tensor to 15.", "quantifier": "every arithmetic whose operations meet the stated accuracy, symmetry or scaling contract (shown of IEEE double precision with and without fused multiply-add), every dictionary of Benchmark parameters, every speed, tensor, mass and offset", "why_tests_cant": "Rounding errors are bounded over all real inputs and all ways the libraries may round; tests see a few of them with tolerances chosen by eye.", "anchors": ["bicycleparameters/bicycle.py:ab_matrix", "bicycleparameters/bicycle.py:benchmark_par_to_canonical", "bicycleparameters/main.py:Bicycle.state_space", "bicycleparameters/inertia.py:parallel_axis", "bicycleparameters/inertia.py:tor_inertia", "bicycleparameters/inertia.py:torsional_pendulum_stiffness", "bicycleparameters/inertia.py:tube_inertia", "bicycleparameters/inertia.py:compound_pendulum_inertia", "bicycleparameters/com.py:total_com", "bicycleparameters/bicycle.py:trail", "bicycleparameters/inertia.py:rotate_inertia_tensor", "bicycleparameters/conversions.py:_rotate_inertia_about_y"]}
{"id": "C79", "title": "Self-stable speeds; the shipped bicycles", "statement": "At every speed the eigenvalues reported for a physical bicycle all have negative real part, and it balances itself, exactly when v times the damping coefficient is positive, three conditions linear in v^2 and one quadratic in v^2 hold; so no bicycle balances itself standing still and none in both directions of travel. The shipped bicycle meijaard2007_browser_jason balances itself exactly between a weave speed in [4.9978, 4.9979) and a capsize speed in (7.1100, 7.1101), meijaard2007_browser_jasonlegs between [4.6390, 4.6392) and (5.8806, 5.8807), and the bicycle of the published benchmark between [4.292, 4.293) and (6.024, 6.025); at every other speed, backwards and standing still included, except these two speeds themselves, an eigenvalue with positive real part is reported and the bicycle falls over. In general a violated condition means that the bicycle falls over. Defect found: in the shipped meijaard2007_browser_jason the values of IRxx and IFxx are exchanged relative to the other dictionaries of the same bicycle. Every physical bicycle balances itself in at most two ranges of speed, and between two speeds at which it does every reported real eigenvalue is negative: there it can lose its balance only by a growing oscillation. Sufficiently small errors in the parameters, in gravity and in the speed do not change whether a bicycle balances itself, nor that it falls over because a condition is violated.", "quantifier": "every physical bicycle, every speed (positive or negative), every eigenvalue routine that meets its contract", "why_tests_cant": "The claim is about every real speed: a plot or a test samples finitely many and cannot exclude another stable window.", "anchors": ["bicycleparameters/parameter_dicts.py:meijaard2007_browser_jason", "bicycleparameters/parameter_dicts.py:meijaard2007_browser_jasonlegs", "bicycleparameters/main.py:Bicycle.eig", "bicycleparameters/bicycle.py:benchmark_par_to_canonical", "bicycleparameters/bicycle.py:ab_matrix"]}
{"id": "C80", "title": "The shipped dictionaries describe the same bicycle", "statement": "mooreriderlean2012_browser_jason without its upper body is the bicycle of meijaard2007_browser_jasonlegs: read as rigid bodies by the specification of C70 and C02, wheelbase, trail, masses, mass centres and inertia tensors agree to 1e-10 and both wheels stand on the ground. Joining the rider's upper body to the rear frame with the legs gives the rear frame of meijaard2007_browser_jason: mass exactly, mass centre to 0.05 mm, tensor to 5e-4 kg m^2, and everything but the wheels' Ixx is the same. Converting moore2019_browser_jason gives the wheels' inertia of the dictionary with the legs. Defect found: meijaard2007_browser_jason has the two wheels' Ixx exchanged.", "quantifier": "the four shipped dictionaries, every entry, with the exact sine and cosine of the tilt", "why_tests_cant": "That dictionaries of different parameterizations describe one bicycle is a statement about their meaning as rigid bodies, which no function of the package computes for all four.", "anchors": ["bicycleparameters/parameter_dicts.py:meijaard2007_browser_jason", "bicycleparameters/parameter_dicts.py:meijaard2007_browser_jasonlegs", "bicycleparameters/parameter_dicts.py:mooreriderlean2012_browser_jason", "bicycleparameters/parameter_dicts.py:moore2019_browser_jason", "bicycleparameters/conversions.py:_convert_principal_to_benchmark"]}
{"id": "C81", "title": "The archives hold exactly the wanted data files under their own names", "statement": "utils/package_data.package_data(path) puts into both archives exactly the existing files of the listed bicycles (RawData: *.mat and *Measured.txt; Parameters: <bike>*.txt; Photos: <bike>*.jpg) and riders (Parameters: <rider>*.txt; RawData: <rider>*YeadonCFG.txt and *YeadonMeas.txt), each once; folders that do not exist are passed over and it never fails. A file is stored under data/ followed by its path below the data folder if and only if the word bicycles (riders) occurs neither in the path of the data folder nor in the file's name. Defects found: a file name with that word is cut off before it, and if the data folder's own path has the word, every bicycle's (rider's) file is stored under one and the same name, so that unpacking keeps one of them.", "quantifier": "every file system, every data folder path that does not end in a slash, every bicycle, rider, folder and file name", "why_tests_cant": "The name in the archive depends on where the user keeps the data; a test sees one path and one set of files.", "anchors": ["utils/package_data.py:package_data"]}
