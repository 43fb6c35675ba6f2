(* TInertia.v -- property theorems C11-C18, C26 about inertia.py, total_com of
   com.py and conversions.py *)
From Verif Require Import Base PBase MBicycle MVec MInertia SBicycle SInertia PBicycle PInertia PInertia2 PInertia3 TBicycle.
From Coq Require Import Lra Permutation Sorted.
Local Open Scope string_scope.
Local Open Scope R_scope.

(* ---------------- C11 ---------------- *)
Theorem C11_parallel_axis_every_axis : forall Ic m d n,
  moment (parallel_axis Ic m d) n = moment Ic n + m * sqnorm (v3_cross n d).
Proof. exact pa_moment. Qed.
Print Assumptions C11_parallel_axis_every_axis.

(* for every finite system of particles: the tensor about any point o from the
   tensor about the mass centre c *)
Theorem C11_parallel_axis_of_particles : forall ps c Ic o,
  is_com ps c -> (forall n, moment Ic n = particle_moment ps c n) ->
  forall n, moment (parallel_axis Ic (mass_of ps) (v3_sub o c)) n = particle_moment ps o n.
Proof. exact pa_particles. Qed.
Print Assumptions C11_parallel_axis_of_particles.

(* a symmetric tensor is determined by its moments, so nothing else satisfies C11 *)
Theorem C11_unique : forall J K, symmetric J -> symmetric K ->
  (forall n, moment J n = moment K n) -> J = K.
Proof. exact moments_determine. Qed.
Print Assumptions C11_unique.

Theorem C11_symmetric : forall Ic m d, symmetric Ic -> symmetric (parallel_axis Ic m d).
Proof. exact pa_symmetric. Qed.
Print Assumptions C11_symmetric.
Theorem C11_undone_by_negative_mass : forall Ic m d, parallel_axis (parallel_axis Ic m d) (- m) d = Ic.
Proof. exact pa_undo. Qed.
Print Assumptions C11_undone_by_negative_mass.
Theorem C11_sign_of_offset : forall Ic m d, parallel_axis Ic m (v3_scale (-1) d) = parallel_axis Ic m d.
Proof. exact pa_sign. Qed.
Print Assumptions C11_sign_of_offset.
Theorem C11_never_decreases : forall Ic m d n, 0 <= m -> moment Ic n <= moment (parallel_axis Ic m d) n.
Proof. exact pa_monotone. Qed.
Print Assumptions C11_never_decreases.

(* two unit masses at x = +-1: mass centre at the origin, tensor diag(0,2,2) *)
Example C11_particles_exist :
  let ps := [(1, mk3 1 0 0); (1, mk3 (-1) 0 0)] in
  is_com ps zero3 /\ forall n, moment (m3_diag 0 2 2) n = particle_moment ps zero3 n.
Proof.
  cbv zeta. split.
  - unfold is_com, first_moment, sum_over, zero3; cbn [fold_right fst snd vx vy vz]. f_equal; ring.
  - intros [x y z]. unfold particle_moment, sum_over, moment, sqnorm, m3_app, m3_diag, v3_dot, v3_cross, v3_sub, zero3.
    cbn [fold_right fst snd vx vy vz r1 r2 r3]. ring.
Qed.

(* ---------------- C12 ---------------- *)
Theorem C12_moments_on_turned_axes : forall I a n,
  moment (rotate_inertia_tensor I a) (turn_y a n) = moment I n.
Proof. exact rot_moment. Qed.
Print Assumptions C12_moments_on_turned_axes.
Theorem C12_conversion_helper_agrees : forall I a, rotate_inertia_about_y I a = rotate_inertia_tensor I a.
Proof. exact rot_both. Qed.
Print Assumptions C12_conversion_helper_agrees.
Theorem C12_symmetry : forall I a, symmetric I -> symmetric (rotate_inertia_tensor I a).
Proof. exact rot_symmetric. Qed.
Print Assumptions C12_symmetry.
Theorem C12_trace : forall I a, trace (rotate_inertia_tensor I a) = trace I.
Proof. exact rot_trace. Qed.
Print Assumptions C12_trace.
Theorem C12_determinant : forall I a, determinant (rotate_inertia_tensor I a) = determinant I.
Proof. exact rot_det. Qed.
Print Assumptions C12_determinant.
(* all principal moments are kept: equal characteristic polynomials *)
Theorem C12_characteristic_polynomial : forall I a s,
  determinant (m3_minus_scalar (rotate_inertia_tensor I a) s) = determinant (m3_minus_scalar I s).
Proof. exact rot_charpoly. Qed.
Print Assumptions C12_characteristic_polynomial.
Theorem C12_moment_about_y : forall I a, vy (r2 (rotate_inertia_tensor I a)) = vy (r2 I).
Proof. exact rot_yy. Qed.
Print Assumptions C12_moment_about_y.
Theorem C12_composition : forall I a b,
  rotate_inertia_tensor (rotate_inertia_tensor I a) b = rotate_inertia_tensor I (a + b).
Proof. exact rot_compose. Qed.
Print Assumptions C12_composition.
Theorem C12_inverse : forall I a, rotate_inertia_tensor (rotate_inertia_tensor I a) (- a) = I.
Proof. exact rot_inverse. Qed.
Print Assumptions C12_inverse.

(* ---------------- C13 ---------------- *)
Theorem C13_compound_pendulum : forall m g l T I, T <> 0 ->
  (oscillates_with_period (I + m * l ^ 2) (m * g * l) T <-> I = compound_pendulum_inertia m g l T).
Proof. exact compound_spec. Qed.
Print Assumptions C13_compound_pendulum.
Theorem C13_torsional_pendulum : forall k T I, T <> 0 ->
  (oscillates_with_period I k T <-> I = tor_inertia k T).
Proof. exact torsional_spec. Qed.
Print Assumptions C13_torsional_pendulum.
Theorem C13_stiffness_inverts : forall I T k,
  torsional_pendulum_stiffness I T = Ok k <-> T <> 0 /\ tor_inertia k T = I.
Proof. exact stiffness_spec. Qed.
Print Assumptions C13_stiffness_inverts.
(* the result is a possible (non-negative) inertia exactly when the period is not
   shorter than that of the simple pendulum of the same length *)
Theorem C13_nonnegative_iff : forall m g l T, 0 < m -> 0 < l -> 0 < g -> 0 < T ->
  (0 <= compound_pendulum_inertia m g l T <-> 2 * PI * sqrt (l / g) <= T).
Proof. exact compound_positive. Qed.
Print Assumptions C13_nonnegative_iff.

(* ---------------- C14 ---------------- *)
Theorem C14_tube_inertia_is_the_volume_integral : forall l m ro ri rho Ix Iy Iz,
  tube_integral rho l ro ri (fun _ _ _ => 1) = m -> tube_inertia l m ro ri = (Ix, Iy, Iz) ->
  Ix = tube_integral rho l ro ri (fun x y z => y ^ 2 + z ^ 2) /\
  Iy = tube_integral rho l ro ri (fun x y z => x ^ 2 + z ^ 2) /\
  Iz = tube_integral rho l ro ri (fun x y z => x ^ 2 + y ^ 2).
Proof. exact tube_spec. Qed.
Print Assumptions C14_tube_inertia_is_the_volume_integral.
Theorem C14_density_exists : forall l m ro ri, 0 < l -> 0 <= ri < ro ->
  exists rho, tube_integral rho l ro ri (fun _ _ _ => 1) = m.
Proof. exact tube_exists. Qed.
Print Assumptions C14_density_exists.
Theorem C14_nonnegative : forall l m ro ri Ix Iy Iz, 0 <= m -> tube_inertia l m ro ri = (Ix, Iy, Iz) ->
  0 <= Ix /\ 0 <= Iy /\ Iz = Iy /\ Ix <= Iy + Iz.
Proof. exact tube_nonneg. Qed.
Print Assumptions C14_nonnegative.

(* ---------------- C15 ---------------- *)
Theorem C15_exact_recovery : forall beta I J,
  inertia_components (map (fun b => moment (planar I) (axis_dir b)) beta) beta = Ok J -> J = I.
Proof. exact components_exact. Qed.
Print Assumptions C15_exact_recovery.
Theorem C15_unique_least_squares : forall jay beta I I', inertia_components jay beta = Ok I ->
  sq_residual jay beta I <= sq_residual jay beta I' /\
  (sq_residual jay beta I' = sq_residual jay beta I -> I' = I).
Proof. exact components_optimal. Qed.
Print Assumptions C15_unique_least_squares.
Theorem C15_defined_for_three_different_axes : forall jay beta b1 b2 b3 rest, length jay = length beta ->
  Permutation beta (b1 :: b2 :: b3 :: rest) ->
  sin (b1 - b2) <> 0 -> sin (b2 - b3) <> 0 -> sin (b1 - b3) <> 0 ->
  exists I, inertia_components jay beta = Ok I.
Proof. exact components_defined. Qed.
Print Assumptions C15_defined_for_three_different_axes.
Example C15_angles_exist : let b1 := 0 in let b2 := PI / 4 in let b3 := PI / 2 in
  sin (b1 - b2) <> 0 /\ sin (b2 - b3) <> 0 /\ sin (b1 - b3) <> 0.
Proof.
  cbv zeta. pose proof PI_RGT_0.
  assert (A : forall x, - PI < x < 0 -> sin x <> 0).
  { intros x [X Y]. assert (0 < sin (- x)) by (apply sin_gt_0; lra). rewrite sin_neg in *. lra. }
  repeat split; apply A; lra.
Qed.

(* ---------------- C16 ---------------- *)
Theorem C16_total_mass_and_centre : forall p rd q, combine_bike_rider p rd = Ok q -> pv rd "yB" = 0 ->
  let parts := [(pv rd "mB", mk3 (pv rd "xB") (pv rd "yB") (pv rd "zB")); (pv p "mB", mk3 (pv p "xB") 0 (pv p "zB"))] in
  pv q "mB" = mass_of parts /\ is_com parts (mk3 (pv q "xB") (pv q "yB") (pv q "zB")).
Proof. exact combine_mass_com. Qed.
Print Assumptions C16_total_mass_and_centre.
Theorem C16_inertia_about_every_axis : forall p rd q o n, combine_bike_rider p rd = Ok q -> pv rd "yB" = 0 ->
  bench_moment q "B" o n = bench_moment p "B" o n + bench_moment rd "B" o n.
Proof. exact combine_inertia. Qed.
Print Assumptions C16_inertia_about_every_axis.
(* the canonical equations of the combined set are those of five rigid bodies *)
Theorem C16_dynamics_with_rigid_rider : forall p rd q q' c, combine_bike_rider p rd = Ok q -> pv rd "yB" = 0 ->
  benchmark_par_to_canonical q = (q', Ok c) ->
  forall v g phi phi1 phi2 del del1 del2 Tphi Tdel,
    newton_euler (with_rider p rd) v g phi phi1 phi2 del del1 del2 Tphi Tdel <->
    eom (cM c) (cC1 c) (cK0 c) (cK2 c) v g phi del phi1 del1 phi2 del2 Tphi Tdel.
Proof. exact combine_canonical. Qed.
Print Assumptions C16_dynamics_with_rigid_rider.
Theorem C16_nothing_else_changes : forall p rd q k, combine_bike_rider p rd = Ok q ->
  ~ In k ["xB"; "zB"; "yB"; "mB"; "IBxx"; "IBxz"; "IByy"; "IBzz"] -> dget q k = dget p k.
Proof. exact combine_frame. Qed.
Print Assumptions C16_nothing_else_changes.
Theorem C16_defined_iff : forall p rd, (exists q, combine_bike_rider p rd = Ok q) <->
  (forall k, In k bike_keys -> In k (dkeys p)) /\ (forall k, In k rider_keys -> In k (dkeys rd)) /\
  pv rd "mB" + pv p "mB" <> 0.
Proof. exact combine_iff. Qed.
Print Assumptions C16_defined_iff.
Definition rider07 : dict R :=
  [("mB", 72); ("xB", 1/3); ("yB", 0); ("zB", -1); ("IBxx", 8); ("IBxz", -1); ("IByy", 9); ("IBzz", 2)].
Example C16_satisfiable : (exists q, combine_bike_rider bench07 rider07 = Ok q) /\ pv rider07 "yB" = 0.
Proof.
  split; [|reflexivity]. apply combine_iff. repeat split.
  - intros k Hk. cbn [In bike_keys dkeys map bench07 fst] in *. intuition (subst; auto 30).
  - intros k Hk. cbn [In rider_keys dkeys map rider07 fst] in *. intuition.
  - unfold pv, bench07, rider07. cbn [dget String.eqb Ascii.eqb Bool.eqb]. lra.
Qed.

(* ---------------- C17 ---------------- *)
Theorem C17_wheel_tensor : forall par part J, is_wheel_part part ->
  (part_inertia_tensor par part = Ok J <->
   dget par "IBxx" <> None /\
   exists a b, dget par ("I" ++ part ++ "xx") = Some a /\ dget par ("I" ++ part ++ "yy") = Some b /\
               J = m3_diag a b a).
Proof. exact part_tensor_wheel. Qed.
Print Assumptions C17_wheel_tensor.
Theorem C17_frame_tensor : forall par c J, ~ is_wheel_part (String c "") ->
  (part_inertia_tensor par (String c "") = Ok J <->
   dget par "IBxx" <> None /\
   exists a b d e, dget par ("I" ++ String c "" ++ "xx") = Some a /\ dget par ("I" ++ String c "" ++ "xz") = Some b /\
     dget par ("I" ++ String c "" ++ "yy") = Some d /\ dget par ("I" ++ String c "" ++ "zz") = Some e /\
               J = mk33 (mk3 a 0 b) (mk3 0 d 0) (mk3 b 0 e)).
Proof. exact part_tensor_other1. Qed.
Print Assumptions C17_frame_tensor.
Theorem C17_symmetric : forall par part J, part_inertia_tensor par part = Ok J ->
  symmetric J /\ vy (r1 J) = 0 /\ vz (r2 J) = 0 /\ dget par ("I" ++ part ++ "xx") = Some (vx (r1 J))
  /\ dget par ("I" ++ part ++ "yy") = Some (vy (r2 J)).
Proof. exact part_tensor_sym. Qed.
Print Assumptions C17_symmetric.
Theorem C17_key_error : forall par part e, part_inertia_tensor par part = Err e ->
  exists k, e = KeyError k /\ dget par k = None /\
   (k = "IBxx" \/ k = "I" ++ part ++ "xx" \/ k = "I" ++ part ++ "xz" \/ k = "I" ++ part ++ "yy" \/ k = "I" ++ part ++ "zz").
Proof. exact part_tensor_error. Qed.
Print Assumptions C17_key_error.
Example C17_satisfiable : (exists J, part_inertia_tensor bench07 "F" = Ok J) /\ (exists J, part_inertia_tensor bench07 "B" = Ok J)
  /\ part_inertia_tensor bench07 "G" = Err (KeyError "IGxx").
Proof. repeat split; try (eexists; reflexivity). Qed.

(* principal_axes: sorted eigenpairs, nothing lost, given that eig meets its contract *)
Theorem C17_principal_axes : forall eig I Ip C out,
  eig I = Ok (Ip, C) -> eig_contract I Ip C -> principal_axes eig I = Ok out ->
  StronglySorted (fun a b => fst a <= fst b) out /\ Forall (fun q => m3_app I (snd q) = v3_scale (fst q) (snd q)) out /\
  Permutation (map fst out) [vx Ip; vy Ip; vz Ip] /\ Permutation (map snd out) [r1 (m3_T C); r2 (m3_T C); r3 (m3_T C)].
Proof. exact principal_axes_spec. Qed.
Print Assumptions C17_principal_axes.
Example C17_eig_contract_met : eig_contract (m3_diag 3 1 2) (mk3 3 1 2) (m3_diag 1 1 1).
Proof.
  unfold eig_contract, m3_app, m3_T, m3_diag, v3_dot, v3_scale; cbn [vx vy vz r1 r2 r3].
  repeat split; f_equal; ring.
Qed.

(* ---------------- C18 ---------------- *)
Theorem C18_vanishing_moments_and_uniqueness : forall ps m cs,
  total_com (coord_rows ps) (mass_list ps) = Ok (m, cs) <->
  m = mass_of ps /\ m <> 0 /\ exists c, cs = coords c /\ is_com ps c.
Proof. exact total_com_iff. Qed.
Print Assumptions C18_vanishing_moments_and_uniqueness.
Theorem C18_order_independent : forall ps qs, Permutation ps qs ->
  total_com (coord_rows ps) (mass_list ps) = total_com (coord_rows qs) (mass_list qs).
Proof. exact total_com_perm. Qed.
Print Assumptions C18_order_independent.
Theorem C18_group_by_group : forall ps qs m1 c1 m2 c2,
  total_com (coord_rows ps) (mass_list ps) = Ok (m1, coords c1) ->
  total_com (coord_rows qs) (mass_list qs) = Ok (m2, coords c2) ->
  total_com (coord_rows (ps ++ qs)) (mass_list (ps ++ qs)) =
  total_com (coord_rows [(m1, c1); (m2, c2)]) (mass_list [(m1, c1); (m2, c2)]).
Proof. exact total_com_group. Qed.
Print Assumptions C18_group_by_group.
Theorem C18_moves_with_translation : forall ps t m c,
  total_com (coord_rows ps) (mass_list ps) = Ok (m, coords c) ->
  let qs := map (fun q => (fst q, v3_add (snd q) t)) ps in
  total_com (coord_rows qs) (mass_list qs) = Ok (m, coords (v3_add c t)).
Proof. exact total_com_translate. Qed.
Print Assumptions C18_moves_with_translation.
Theorem C18_within_bounds : forall ps m c,
  total_com (coord_rows ps) (mass_list ps) = Ok (m, coords c) ->
  Forall (fun q => 0 <= fst q) ps ->
  forall (f : vec3 -> R) lo hi, f = vx \/ f = vy \/ f = vz ->
  Forall (fun q => lo <= f (snd q) <= hi) ps -> lo <= f c <= hi.
Proof. exact total_com_bounds. Qed.
Print Assumptions C18_within_bounds.
Theorem C18_shape_mismatch : forall coordinates masses,
  Exists (fun row => length row <> length masses) coordinates ->
  total_com coordinates masses = Err (ValueError "operands could not be broadcast together").
Proof. exact total_com_mismatch. Qed.
Print Assumptions C18_shape_mismatch.
Example C18_satisfiable : let ps := [(2, mk3 1 0 0); (3, mk3 0 5 (-1))] in
  total_com (coord_rows ps) (mass_list ps) = Ok (5, coords (mk3 (2/5) 3 (-3/5))).
Proof.
  apply total_com_iff. unfold mass_of, is_com, first_moment, sum_over, zero3; cbn [fold_right fst snd vx vy vz].
  split; [lra|]. split; [lra|]. eexists; split; [reflexivity|]. cbn [vx vy vz]. f_equal; lra.
Qed.

(* ---------------- C26 ---------------- *)
Theorem C26_rear_body_inertia_about_every_axis : forall p b o n,
  convert_principal_to_benchmark p = Ok b -> pv p "yD" = 0 -> pv p "yP" = 0 ->
  bench_moment b "B" o n = principal_moment_of p "D" o n + principal_moment_of p "P" o n.
Proof. exact convert_rear. Qed.
Print Assumptions C26_rear_body_inertia_about_every_axis.
Theorem C26_front_body_inertia_about_every_axis : forall p b o n,
  convert_principal_to_benchmark p = Ok b -> pv p "yH" = 0 ->
  bench_moment b "H" o n = principal_moment_of p "H" o n.
Proof. exact convert_front. Qed.
Print Assumptions C26_front_body_inertia_about_every_axis.
Theorem C26_wheels : forall p b X, convert_principal_to_benchmark p = Ok b -> X = "R" \/ X = "F" ->
  pv b ("I" ++ X ++ "xx") = pv p ("m" ++ X) * pv p ("k" ++ X ++ "aa") ^ 2 /\
  pv b ("I" ++ X ++ "yy") = pv p ("m" ++ X) * pv p ("k" ++ X ++ "yy") ^ 2 /\
  pv b ("I" ++ X ++ "zz") = pv p ("m" ++ X) * pv p ("k" ++ X ++ "aa") ^ 2.
Proof. exact convert_wheels. Qed.
Print Assumptions C26_wheels.
Theorem C26_mass_and_centre : forall p b, convert_principal_to_benchmark p = Ok b ->
  let parts := [(pv p "mD", mk3 (pv p "xD") (pv p "yD") (pv p "zD")); (pv p "mP", mk3 (pv p "xP") (pv p "yP") (pv p "zP"))] in
  pv b "mB" = mass_of parts /\ is_com parts (mk3 (pv b "xB") (pv b "yB") (pv b "zB")).
Proof. exact convert_com. Qed.
Print Assumptions C26_mass_and_centre.
Theorem C26_kept : forall p b k, convert_principal_to_benchmark p = Ok b ->
  In k ["w"; "c"; "lam"; "g"; "v"; "mH"; "xH"; "yH"; "zH"; "rR"; "mR"; "rF"; "mF"] -> dget b k = dget p k.
Proof. exact convert_kept. Qed.
Print Assumptions C26_kept.
Theorem C26_complete_set : forall p b, convert_principal_to_benchmark p = Ok b -> dkeys b = benchmark_keys.
Proof. exact convert_keys. Qed.
Print Assumptions C26_complete_set.
Theorem C26_defined_iff : forall p, (exists b, convert_principal_to_benchmark p = Ok b) <->
  (forall k, In k principal_keys -> In k (dkeys p)) /\ pv p "mD" + pv p "mP" <> 0.
Proof. exact convert_iff_ex. Qed.
Print Assumptions C26_defined_iff.
Theorem C26_same_dynamics : forall p b b' c, convert_principal_to_benchmark p = Ok b -> pv p "yD" = 0 -> pv p "yP" = 0 ->
  benchmark_par_to_canonical b = (b', Ok c) ->
  forall v g phi phi1 phi2 del del1 del2 Tphi Tdel,
    newton_euler (principal_bike p) v g phi phi1 phi2 del del1 del2 Tphi Tdel <->
    eom (cM c) (cC1 c) (cK0 c) (cK2 c) v g phi del phi1 del1 phi2 del2 Tphi Tdel.
Proof. exact convert_canonical. Qed.
Print Assumptions C26_same_dynamics.
Definition moore19 : dict R :=
  [("w", 1); ("c", 8/100); ("lam", 31/100); ("g", 981/100); ("v", 5); ("xD", 4/10); ("yD", 0); ("zD", -5/10); ("mD", 14);
   ("kDaa", 1/4); ("kDyy", 4/10); ("kDbb", 3/10); ("alphaD", 1/2); ("xP", 3/10); ("yP", 0); ("zP", -1); ("mP", 70);
   ("kPaa", 4/10); ("kPyy", 3/10); ("kPbb", 2/10); ("alphaP", 1/5); ("mH", 4); ("xH", 9/10); ("yH", 0); ("zH", -7/10);
   ("kHaa", 1/10); ("kHyy", 1/8); ("kHbb", 1/12); ("alphaH", 1/3); ("rR", 3/10); ("mR", 2); ("kRaa", 1/5); ("kRyy", 1/4);
   ("rF", 35/100); ("mF", 3); ("kFaa", 1/5); ("kFyy", 1/4)].
Example C26_satisfiable : (exists b, convert_principal_to_benchmark moore19 = Ok b) /\
  pv moore19 "yD" = 0 /\ pv moore19 "yP" = 0 /\ pv moore19 "yH" = 0.
Proof.
  split; [|repeat split]. apply convert_iff_ex. split.
  - intros k Hk. cbn [In principal_keys dkeys map moore19 fst] in *.
    repeat (destruct Hk as [<-|Hk]; [tauto|]). contradiction.
  - unfold pv, moore19. cbn [dget String.eqb Ascii.eqb Bool.eqb]. lra.
Qed.
