{
 "C10": {
  "status": "partial",
  "note": "False for m >= 3 modes (C10_permutation_refuted: an eigenvalue is lost; C10_far_eigenvalue_is_lost: whenever it is farther from every eigenvalue of the row before than two others). Without ties the exact condition is known (C10_permutation_iff: a row is kept iff for each eigenvalue of the row before, in turn, one of its two nearest neighbours is still free); proved outright for m <= 2 and for finely resolved curves."
 },
 "C23": {
  "status": "partial",
  "note": "Refuted: a direction array always raises UnboundLocalError and for an axis index the scalar product is subtracted from every component; the result is the projection iff the vector already lies in the plane."
 },
 "C25": {
  "status": "partial",
  "note": "abc, l1/l2 and the handlebar rotation are proved (the last fails for a vertical or horizontal steer axis); calc_two_link_angles closes the triangle iff L1^2 <= D^2 + L2^2 (refuted otherwise)."
 },
 "C26": {
  "note": "Bodies with mass centre in the symmetry plane, as the Moore2019 set describes them."
 },
 "C28": {
  "note": "Defect theorems C28_refuted_*: Moore2019 to feedback never works; a valid Moore2019 set without the lateral positions does not convert."
 },
 "C34": {
  "note": "Defect theorem: C34_bare_file_name_fails."
 },
 "C36": {
  "note": "Defect theorem: C36_missing_final_newline_corrupts."
 },
 "C37": {
  "note": "C37_not_idempotent: applying it twice adds further spaces."
 },
 "C38": {
  "note": "Defect theorem: C38_fails_on_own_output_with_list."
 },
 "C41": {
  "note": "Defect theorems: C41_last_point_dropped, C41_downward_peak_fails."
 },
 "C42": {
  "note": "Defect theorem: C42_SSE_can_be_negative."
 },
 "C47": {
  "note": "Uncertainties left out; the root finder of scipy is a parameter. Defect theorem: C47_ten_orientations_mixed_up."
 },
 "C43": {
  "status": "proved",
  "note": "builds (SState.v) is the decision table. Numerical calculation, content of pendulum data files and str() are universally quantified parameters. no_io: the uncertainties package opens no file."
 },
 "C44": {
  "status": "proved",
  "note": "configure_rider and combine_bike_rider are universally quantified parameters."
 },
 "C45": {
  "status": "proved",
  "note": "As stated only for one set (C45_one_set_round_trip, C45_rider_files); refuted for two or more (C45_later_sets_misnamed), C45_files_written gives the names used for any number."
 },
 "C49": {
  "status": "proved",
  "note": "str() and the iteration order of sets are universally quantified parameters. Numbers are exact reals; rounding is to nearest, ties to even. C49_variable_order_refuted, C49_exact_value_refuted and C49_second_call_refuted record defects of the code."
 },
 "C50": {
  "status": "proved",
  "note": "Defect theorem: C50_half_turn_refuted. The phase curves are lists of reals as read from the figure."
 },
 "C51": {
  "status": "proved",
  "note": "sin, cos, sqrt of the reals."
 },
 "C54": {
  "status": "proved",
  "note": "scipy's fsolve and the yeadon Human (mass, mass centre, inertia of a configuration) are universally quantified parameters. Defect theorem: C54_seat_too_high_refuted."
 },
 "C52": {
  "status": "proved",
  "note": "Loading of a bicycle and the drawing routines are universally quantified parameters; the browser is modelled as the sequence of callbacks. Defect theorems: C52_containers_refuted, C52_unedited (tilt truncated), part of C52_speeds."
 },
 "C56": {
  "status": "proved",
  "note": "The generated equations of motion (a large generated C function) are a parameter required only to be linear in the documented way; the pitch solver is an oracle."
 },
 "C57": {
  "status": "proved",
  "note": "numpy.linalg.eig is a universally quantified parameter with its documented contract (eig_contract)."
 },
 "C58": {
  "status": "proved",
  "note": "scipy's solve_ivp is a parameter with the contract that it returns samples of the exact solution. Defect theorem: C58_refuted_initial_conditions_are_overwritten."
 },
 "C59": {
  "status": "proved",
  "note": "Defect theorems carry the word refuted."
 },
 "C60": {
  "status": "proved",
  "note": "Nominal values only. Defect theorems carry the word refuted."
 },
 "C61": {
  "status": "proved",
  "note": "Figures are lists of curves. Defect theorems carry the word refuted; C61_refuted_highlighted_speeds_are_stable is stated for the region computation on given mode data."
 },
 "C62": {
  "status": "proved",
  "note": "control.bode itself is not modelled: the theorem is about the system handed to it."
 },
 "C68": {
  "status": "proved",
  "note": "Eigensolver and integrator are universally quantified parameters with contracts. Defect theorems: C68_refuted_*."
 },
 "C69": {
  "status": "proved",
  "note": "The program is translated statement by statement by tools/lean_gen.py; a weight checker is proved sound and run by the kernel on the whole program. pitch_from_roll_and_steer (dtk) is a universally quantified parameter. Division by zero and roots of negative numbers count as failures. Dimensions and symmetries do not by themselves determine the equations; C70 does."
 },
 "C70": {
  "status": "proved",
  "note": "The specification (SLean2.v) is a list of rigid bodies with Newton-Euler balances, extending the one of C02 with a leaning rider. Proof: the generated program is run symbolically (Laurent polynomials with cos^2 = 1 - sin^2, a proved normal form); the kernel evaluates the checks. Contract on pitch_from_roll_and_steer (dtk): at zero roll and steer it returns an angle that puts both wheels on the ground (pitch_levels). C70_rider_held_still needs cos(lam) <> 0, as C02's bicycle measures its trail along the ground. The outputs C and D of eval_linear, which models.py discards, are not interpreted."
 },
 "C71": {
  "status": "proved",
  "note": "numpy's eig enters through eig_contract (pairs) and eig_complete (det(sI-A) is the product of s-w); the ODE solver through solver_contract. Smooth/contiguous curves are only needed for 'highlighted implies self-stable'."
 },
 "C72": {
  "status": "proved",
  "note": "Colour map and numpy's eig are oracles; line widths, fonts, limits and grids are not modelled. refuted: the linestyles argument is honoured (it is ignored unless largest)."
 },
 "C73": {
  "status": "proved",
  "note": "Composes C43/C44 (files), C47 (physics of the measurements), C16 (rider), C60 and C71 (eigenvalues and motions). Arithmetic with uncertainties is an oracle whose nominal values follow the exact calculation (nominal_calc, nominal_combine); numpy's eig obeys its contract. C47_every_bicycle_can_be_measured shows every solid bicycle has exact measurements."
 },
 "C74": {
  "status": "proved",
  "note": "numpy's eig obeys its contract and returns all eigenvalues (both routines); uniqueness of the spectrum is proved from the characteristic polynomial (PRoots.v). Measurements: uncertainties left out."
 },
 "C75": {
  "status": "proved",
  "note": "leastsq, inv, loadmat, str() of an uncertain number and the rendering are parameters; file names are plain names ending in .mat that are not only dots (C75_dot_names shows '.mat' and '.mat.mat' share a figure)."
 },
 "C76": {
  "status": "proved",
  "note": "Differentiation rules of the uncertainties library are part of the model (MUnc.v): a number is its nominal value with its derivatives. With a wheelbase: C76_benchmark. Without: C76_tilt_apart states what is reported, C76_tilt_not_propagated that it is not the first-order deviation (as the code's comment admits)."
 },
 "C77": {
  "status": "proved",
  "note": "numpy.linalg.eig by its contract (eigenpairs, and complete: the reported numbers are the roots of the characteristic polynomial with multiplicity)."
 },
 "C78": {
  "status": "proved",
  "note": "Machine arithmetic is a parameter with contracts; double precision of Flocq (round to nearest even; fused or plain array products) meets them. Overflow is not modelled; the error bounds are without underflow, the exact symmetries (not those for units) also with it."
 },
 "C79": {
  "status": "proved",
  "note": "sin and cos of the steer axis tilt are enclosed by rational bounds proved by Taylor's theorem; the dictionaries' decimal literals are the numbers they denote."
 },
 "C80": {
  "status": "proved",
  "note": "The defect (exchanged wheel inertias) is part of the theorem C80_wheels."
 },
 "C81": {
  "status": "proved",
  "note": "The wrong names are stated as C81_refuted_names_of_members and as the iff of C81_names. Names are not ending in a slash (plain). tar.add's recursion into an entry that is itself a folder is not modelled."
 }
}