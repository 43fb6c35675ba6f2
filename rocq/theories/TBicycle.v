(* TBicycle.v -- property theorems C01-C07, C09, C10 about bicycle.py.
   Every theorem is closed by [exact] of a lemma; Examples show that the
   hypotheses are met by the Meijaard 2007 benchmark bicycle. *)
From Verif Require Import Base MBicycle SBicycle SSort PBase PBicycle PBicycle2 PSort.
From Coq Require Import Lra Permutation.
Local Open Scope string_scope.
Local Open Scope R_scope.

(* ---------------- C01 ---------------- *)
Theorem C01_state_space_iff_eom : forall M C1 K0 K2 v g A B,
  ab_matrix M C1 K0 K2 v g = Ok (A, B) ->
  forall qa qb ra rb qa' qb' ra' rb' ua ub,
    [qa'; qb'; ra'; rb'] = addv (mulv A [qa; qb; ra; rb]) (mulv B [ua; ub]) <->
    qa' = ra /\ qb' = rb /\ eom M C1 K0 K2 v g qa qb ra rb ra' rb' ua ub.
Proof. exact ab_eom. Qed.
Print Assumptions C01_state_space_iff_eom.

Theorem C01_state_space_unique : forall M C1 K0 K2 v g A B A' B',
  ab_matrix M C1 K0 K2 v g = Ok (A, B) ->
  length A' = 4%nat -> Forall (fun r => length r = 4%nat) A' ->
  length B' = 4%nat -> Forall (fun r => length r = 2%nat) B' ->
  (forall qa qb ra rb qa' qb' ra' rb' ua ub,
    [qa'; qb'; ra'; rb'] = addv (mulv A' [qa; qb; ra; rb]) (mulv B' [ua; ub]) ->
    qa' = ra /\ qb' = rb /\ eom M C1 K0 K2 v g qa qb ra rb ra' rb' ua ub) ->
  A' = A /\ B' = B.
Proof. exact ab_unique. Qed.
Print Assumptions C01_state_space_unique.

Theorem C01_state_space_shape : forall M C1 K0 K2 v g A B,
  ab_matrix M C1 K0 K2 v g = Ok (A, B) ->
  length A = 4%nat /\ Forall (fun r => length r = 4%nat) A /\
  length B = 4%nat /\ Forall (fun r => length r = 2%nat) B.
Proof. exact ab_shape. Qed.
Print Assumptions C01_state_space_shape.

Theorem C01_state_space_defined : forall M C1 K0 K2 v g,
  (exists A B, ab_matrix M C1 K0 K2 v g = Ok (A, B)) <-> m11 M * m22 M - m12 M * m21 M <> 0.
Proof. exact ab_success. Qed.
Print Assumptions C01_state_space_defined.

(* ---------------- C02 ---------------- *)
Theorem C02_canonical_is_newton_euler : forall p p' c,
  benchmark_par_to_canonical p = (p', Ok c) ->
  forall v g phi phi1 phi2 del del1 del2 Tphi Tdel,
    newton_euler (bike_of p) v g phi phi1 phi2 del del1 del2 Tphi Tdel <->
    eom (cM c) (cC1 c) (cK0 c) (cK2 c) v g phi del phi1 del1 phi2 del2 Tphi Tdel.
Proof. exact canonical_newton_euler. Qed.
Print Assumptions C02_canonical_is_newton_euler.

(* the published benchmark bicycle (parameter_dicts.py / Meijaard 2007 table 1) *)
Definition bench07 : dict R :=
  [("w", 102/100); ("c", 8/100); ("lam", PI/10); ("g", 981/100); ("v", 5);
   ("rR", 3/10); ("mR", 2); ("IRxx", 603/10000); ("IRyy", 12/100);
   ("xB", 3/10); ("zB", -9/10); ("mB", 85); ("IBxx", 92/10); ("IByy", 11); ("IBzz", 28/10); ("IBxz", 24/10);
   ("xH", 9/10); ("zH", -7/10); ("mH", 4); ("IHxx", 5892/100000); ("IHyy", 6/100); ("IHzz", 708/100000);
   ("IHxz", -756/100000); ("rF", 35/100); ("mF", 3); ("IFxx", 1405/10000); ("IFyy", 28/100)].

Example bench07_succeeds : exists p' c, benchmark_par_to_canonical bench07 = (p', Ok c).
Proof.
  apply canonical_success. split.
  - intros k Hk. unfold canon_keys in Hk. cbn [In dkeys map bench07 fst] in *.
    repeat (destruct Hk as [Hk|Hk]; [subst k; tauto|]). contradiction.
  - unfold canon_nonzero, pv, bench07. cbn [dget String.eqb Ascii.eqb Bool.eqb]. repeat split; lra.
Qed.

(* ---------------- C03 ---------------- *)
Theorem C03_mass_matrix_is_kinetic_energy : forall p p' c phi1 del1 psi1,
  benchmark_par_to_canonical p = (p', Ok c) ->
  pv p "w" * psi1 = pv p "c" * cos (pv p "lam") * del1 ->
  m12 (cM c) = m21 (cM c) /\
  (m11 (cM c) * phi1 * phi1 + m12 (cM c) * phi1 * del1 + m21 (cM c) * del1 * phi1
   + m22 (cM c) * del1 * del1) / 2 = kinetic_energy (bike_of p) 0 phi1 psi1 del1.
Proof. exact canonical_kinetic. Qed.
Print Assumptions C03_mass_matrix_is_kinetic_energy.

Theorem C03_mass_matrix_positive_definite : forall p p' c phi1 del1,
  benchmark_par_to_canonical p = (p', Ok c) ->
  Forall physical (k_bodies (bike_of p)) -> 0 < pv p "IRxx" -> 0 < pv p "IFxx" ->
  (phi1 <> 0 \/ del1 <> 0) ->
  0 < m11 (cM c) * phi1 * phi1 + m12 (cM c) * phi1 * del1 + m21 (cM c) * del1 * phi1
      + m22 (cM c) * del1 * del1.
Proof. exact canonical_positive. Qed.
Print Assumptions C03_mass_matrix_positive_definite.

Theorem C03_state_space_exists_for_physical_bicycles : forall p p' c v g,
  benchmark_par_to_canonical p = (p', Ok c) ->
  Forall physical (k_bodies (bike_of p)) -> 0 < pv p "IRxx" -> 0 < pv p "IFxx" ->
  exists A B, ab_matrix (cM c) (cC1 c) (cK0 c) (cK2 c) v g = Ok (A, B).
Proof. exact canonical_state_space_exists. Qed.
Print Assumptions C03_state_space_exists_for_physical_bicycles.

Example bench07_physical :
  Forall physical (k_bodies (bike_of bench07)) /\ 0 < pv bench07 "IRxx" /\ 0 < pv bench07 "IFxx".
Proof.
  unfold bike_of, rear_wheel, rear_frame, front_frame, front_wheel, pv, bench07.
  cbn [dget String.eqb Ascii.eqb Bool.eqb k_bodies].
  split; [|lra].
  repeat (constructor; [unfold physical; cbn [b_m b_Ixx b_Izz b_Ixz]; lra|]). constructor.
Qed.

(* ---------------- C04 ---------------- *)
Theorem C04_structure : forall p p' c,
  benchmark_par_to_canonical p = (p', Ok c) ->
  m12 (cM c) = m21 (cM c) /\ m12 (cK0 c) = m21 (cK0 c) /\
  m22 (cK0 c) = sin (pv p "lam") * m12 (cK0 c) /\
  m11 (cK0 c) = - pv p "rR" * pv p "mR" + pv p "zB" * pv p "mB" + pv p "zH" * pv p "mH" - pv p "rF" * pv p "mF" /\
  m11 (cC1 c) = 0 /\ m11 (cK2 c) = 0 /\ m21 (cK2 c) = 0.
Proof. exact canonical_structure. Qed.
Print Assumptions C04_structure.

Theorem C04_defined_iff : forall p,
  (exists p' c, benchmark_par_to_canonical p = (p', Ok c)) <->
  (forall k, In k canon_keys -> In k (dkeys p)) /\ canon_nonzero (pv p).
Proof. exact canonical_success. Qed.
Print Assumptions C04_defined_iff.

Theorem C04_first_missing_key_is_reported : forall p k,
  canon_nonzero (pv p) -> first_missing p canon_keys = Some k ->
  snd (benchmark_par_to_canonical p) = Err (KeyError k).
Proof. exact canonical_missing. Qed.
Print Assumptions C04_first_missing_key_is_reported.

Example C04_missing_satisfiable :
  canon_nonzero (pv (ddel bench07 "lam")) /\ first_missing (ddel bench07 "lam") canon_keys = Some "lam".
Proof.
  split; [|reflexivity].
  unfold canon_nonzero, pv, bench07. cbn [ddel dget String.eqb Ascii.eqb Bool.eqb]. repeat split; lra.
Qed.

Theorem C04_effect_on_argument : forall p p' c,
  benchmark_par_to_canonical p = (p', Ok c) ->
  dget p' "IRzz" = dget p "IRxx" /\ dget p' "IFzz" = dget p "IFxx".
Proof. exact canonical_writes. Qed.
Print Assumptions C04_effect_on_argument.

Theorem C04_frame : forall p p' r k,
  benchmark_par_to_canonical p = (p', r) -> k <> "IRzz" -> k <> "IFzz" -> dget p' k = dget p k.
Proof. exact canonical_frame. Qed.
Print Assumptions C04_frame.

(* ---------------- C05 ---------------- *)
Theorem C05_depends_only_on_benchmark_keys : forall p q,
  (forall k, In k canon_keys -> dget p k = dget q k) ->
  (forall c, snd (benchmark_par_to_canonical p) = Ok c <-> snd (benchmark_par_to_canonical q) = Ok c).
Proof. exact canonical_depends. Qed.
Print Assumptions C05_depends_only_on_benchmark_keys.

Theorem C05_mass_scaling_of_canonical : forall k p p' c, k <> 0 ->
  benchmark_par_to_canonical p = (p', Ok c) ->
  snd (benchmark_par_to_canonical (scale_inertial k p)) =
  Ok (mkcanon (m2_scale k (cM c)) (m2_scale k (cC1 c)) (m2_scale k (cK0 c)) (m2_scale k (cK2 c))).
Proof. exact canonical_scaling. Qed.
Print Assumptions C05_mass_scaling_of_canonical.

Theorem C05_mass_scaling_of_state_space : forall k M C1 K0 K2 v g A B, k <> 0 ->
  ab_matrix M C1 K0 K2 v g = Ok (A, B) ->
  ab_matrix (m2_scale k M) (m2_scale k C1) (m2_scale k K0) (m2_scale k K2) v g =
  Ok (A, map (map (fun x => x / k)) B).
Proof. exact ab_scaling. Qed.
Print Assumptions C05_mass_scaling_of_state_space.

Example C05_unused_keys : ~ In "IByy" canon_keys /\ ~ In "IHyy" canon_keys /\ ~ In "g" canon_keys
  /\ ~ In "v" canon_keys /\ ~ In "IRzz" canon_keys /\ ~ In "IFzz" canon_keys.
Proof. unfold canon_keys; simpl; repeat split; intuition discriminate. Qed.

(* ---------------- C06 ---------------- *)
Theorem C06_reversed_travel_negates_eigenvalues :
  forall M C1 K0 K2 v g A B A' B' re im x0 x1 x2 x3 y0 y1 y2 y3,
  ab_matrix M C1 K0 K2 v g = Ok (A, B) -> ab_matrix M C1 K0 K2 (- v) g = Ok (A', B') ->
  eigenpair A re im [x0; x1; x2; x3] [y0; y1; y2; y3] ->
  eigenpair A' (- re) (- im) (flip_rates [x0; x1; x2; x3]) (flip_rates [y0; y1; y2; y3]).
Proof. exact ab_reversal. Qed.
Print Assumptions C06_reversed_travel_negates_eigenvalues.

Theorem C06_characteristic_polynomial : forall M C1 K0 K2 v g A B s,
  ab_matrix M C1 K0 K2 v g = Ok (A, B) ->
  det 4 (sI_minus s A) * (m11 M * m22 M - m12 M * m21 M) =
  (s^2 * m11 M + s * v * m11 C1 + g * m11 K0 + v^2 * m11 K2) *
  (s^2 * m22 M + s * v * m22 C1 + g * m22 K0 + v^2 * m22 K2) -
  (s^2 * m12 M + s * v * m12 C1 + g * m12 K0 + v^2 * m12 K2) *
  (s^2 * m21 M + s * v * m21 C1 + g * m21 K0 + v^2 * m21 K2).
Proof. exact ab_charpoly. Qed.
Print Assumptions C06_characteristic_polynomial.

(* an uncoupled inverted-pendulum-like system has the eigenpair (1, [1;0;1;0]) *)
Example C06_satisfiable : exists A B A' B',
  ab_matrix m2_eye m2_zero (mk2 (-1) 0 0 (-1)) m2_zero 3 1 = Ok (A, B) /\
  ab_matrix m2_eye m2_zero (mk2 (-1) 0 0 (-1)) m2_zero (-(3)) 1 = Ok (A', B') /\
  eigenpair A 1 0 [1; 0; 1; 0] [0; 0; 0; 0].
Proof.
  assert (D : det2 m2_eye <> 0) by (unfold det2, m2_eye; simpl; lra).
  do 4 eexists. split; [apply (ab_forward _ _ _ _ _ _ D)|]. split; [apply (ab_forward _ _ _ _ _ _ D)|].
  unfold eigenpair, mulv, addv, dotl, det2, m2_eye, m2_zero.
  cbn [map combine fold_right fst snd m11 m12 m21 m22 m2_neg m2_dot m2_scale m2_add].
  rewrite !list4_eq. repeat split; field.
Qed.

(* ---------------- C07 ---------------- *)
(* steer axis: through the ground point c ahead of the contact point, tilted by
   lam; [ahead x z] is the signed perpendicular distance of a point in front of
   the axis; the wheel centre is at (0, -rF), the contact point at (0, 0) *)
Theorem C07_trail : forall rF lam fo c cm,
  trail rF lam fo = Ok (c, cm) <->
  let ahead x z := (x - c) * cos lam - z * sin lam in
  cos lam <> 0 /\ ahead 0 (- rF) = fo /\ ahead 0 0 = - cm.
Proof. exact trail_spec. Qed.
Print Assumptions C07_trail.

Example C07_satisfiable : trail 1 (PI/4) 0 = Ok (1, cos (PI/4)).
Proof.
  apply trail_spec. cbv zeta. rewrite cos_PI4, sin_PI4.
  assert (0 < 1 / sqrt 2). { apply Rdiv_lt_0_compat; [lra | apply sqrt_lt_R0; lra]. }
  repeat split; lra.
Qed.

(* ---------------- C09 ---------------- *)
Theorem C09_sorting_is_greedy_rearrangement : forall V m (r0 : list (R * R) * list V) rows,
  rect m (r0 :: rows) ->
  exists out, sort_eigenmodes (r0 :: rows) = Ok (r0 :: out) /\ rect m out /\
              length out = length rows /\ chained (fst r0) rows out.
Proof. exact @sort_eigenmodes_spec. Qed.
Print Assumptions C09_sorting_is_greedy_rearrangement.

Theorem C09_sort_modes_slices_sort_eigenmodes : forall V (r0 : list (R * R) * list V) rows,
  rect 4 (r0 :: rows) ->
  exists sorted wv cap cas,
    sort_eigenmodes (r0 :: rows) = Ok sorted /\
    sort_modes (r0 :: rows) = Ok (mkmodes wv cap cas) /\
    wv = map (fun r => (skipn 2 (fst r), skipn 2 (snd r))) sorted /\
    Forall2 (fun r c => nth_error (fst r) 1 = Some (fst c) /\ nth_error (snd r) 1 = Some (snd c)) sorted cap /\
    Forall2 (fun r c => nth_error (fst r) 0 = Some (fst c) /\ nth_error (snd r) 0 = Some (snd c)) sorted cas.
Proof. exact @sort_modes_spec. Qed.
Print Assumptions C09_sort_modes_slices_sort_eigenmodes.

Example C09_satisfiable : rect 4
  [([(0,1); (0,-1); (-1,0); (-5,0)], [0; 1; 2; 3]%nat); ([(-1,0); (0,1); (0,-1); (-6,0)], [0; 1; 2; 3]%nat)].
Proof. repeat constructor. Qed.

(* ---------------- C10 ---------------- *)
(* full claim: forall rows out, rect m rows -> sort_eigenmodes rows = Ok out ->
   Forall2 same_pairs rows out.  It is false for m >= 3 (see the refutation
   below).  It holds for at most two modes ... *)
Theorem C10_permutation_two_modes_partial : forall V m (rows out : list (list (R * R) * list V)), (m <= 2)%nat ->
  rect m rows -> sort_eigenmodes rows = Ok out -> Forall2 same_pairs rows out.
Proof. exact @sort_eigenmodes_small. Qed.
Print Assumptions C10_permutation_two_modes_partial.

(* ... and for any number of modes when the curves are resolved finely enough, in
   which case each output column follows one curve *)
Theorem C10_permutation_smooth_partial : forall V eps m r0 (rows out : list (list (R * R) * list V)),
  rect m (r0 :: rows) -> smooth eps m (fst r0) rows -> sort_eigenmodes (r0 :: rows) = Ok (r0 :: out) ->
  Forall2 same_pairs (r0 :: rows) (r0 :: out) /\ tracks eps (fst r0) out.
Proof. exact @sort_eigenmodes_smooth. Qed.
Print Assumptions C10_permutation_smooth_partial.

Example C10_smooth_satisfiable :
  smooth (V := nat) 1 3 [(0,0); (10,0); (5,0)] [([(10,0); (5,0); (0,0)], [0; 1; 2]%nat)].
Proof.
  cbn [smooth fst]. split; [|split; [|exact I]].
  - exists [2; 0; 1]%nat. split.
    + simpl. transitivity [0; 2; 1]%nat; [constructor|]. constructor. constructor.
    + assert (Z : forall a, edist a a <= 1).
      { intros a. unfold edist. rewrite !Rminus_diag_eq by reflexivity.
        replace (0 ^ 2 + 0 ^ 2) with 0 by ring. rewrite sqrt_0. lra. }
      repeat constructor; eexists; split; try reflexivity; apply Z.
  - assert (D : forall a b, 2 < Rabs (b - a) -> 2 * 1 < edist (a, 0) (b, 0)).
    { intros a b H. rewrite <- cdist_edist, cdist_real. lra. }
    intros [|[|[|j]]] [|[|[|k]]] x y; cbn [nth_error]; intros Hx Hy N;
      try (exfalso; apply N; reflexivity); try discriminate;
      try (destruct j; discriminate); try (destruct k; discriminate);
      injection Hx as <-; injection Hy as <-; apply D; unfold Rabs; destruct (Rcase_abs _); lra.
Qed.

(* the unrestricted claim is false of the code: an eigenvalue is lost *)
Theorem C10_permutation_refuted : exists (rows out : list (list (R * R) * list nat)) i o,
  rect 3 rows /\ sort_eigenmodes rows = Ok out /\ nth_error rows 1 = Some i /\ nth_error out 1 = Some o /\
  ~ Permutation (fst i) (fst o).
Proof. exact C10_refutation. Qed.
Print Assumptions C10_permutation_refuted.
