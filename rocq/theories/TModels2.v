(* TModels2.v -- C56-C59: the rider lean model, eigenvalues, simulation and modal
   controllability.  numpy.linalg.eig and scipy's solver enter as functions that meet
   eig_contract and solver_contract (SModels2.v). *)
From Coq Require Import Lra ClassicalDescription Lia.
From Verif Require Import Base MString MHeap MBicycle MVec MInertia MSets MModels MModels2 PBase SBicycle PBicycle PBicycle2 SInertia
  PHeap SModels SModels2 PModels PModels2 PModels3 PSets PSets2 PSets3 PModels4 PModels5 PModels6 PModels7 PModels8 PModels9 PModels10 PModels11 PModels12 TModels.
Local Open Scope string_scope.
Local Open Scope R_scope.

(* ---------------- C56: rider lean model ---------------- *)
Theorem C56_matrices_are_those_of_the_upright_operating_point : forall pitch body s ov h d e, linear_equations body ->
  nth_error h (ps_ref s) = Some d -> NoDup (dkeys ov) -> all_scalar ov -> complete (required CMooreRiderLean2012) d ->
  operating_point pitch (with_scalars d ov) e ->
  (forall A_ B_, body e = Ok (A_, B_) ->
     exists A B, snd (form_state_space_matrices_rl pitch body s ov h) = Ok (Single (A, B)) /\
       restriction full_states full_states A_ lean_states lean_states A /\ restriction full_states full_inputs B_ lean_states lean_inputs B) /\
  (forall er, body e = Err er -> snd (form_state_space_matrices_rl pitch body s ov h) = Err er).
Proof. intros. eapply rl_named; eauto. Qed.
Print Assumptions C56_matrices_are_those_of_the_upright_operating_point.

Theorem C56_result_requires_an_operating_point : forall pitch body s ov h d, nth_error h (ps_ref s) = Some d -> NoDup (dkeys ov) -> all_scalar ov ->
  complete (required CMooreRiderLean2012) d -> forall ab, snd (form_state_space_matrices_rl pitch body s ov h) = Ok ab ->
  exists e, operating_point pitch (with_scalars d ov) e.
Proof. intros. eapply rl_no_point; eauto. Qed.
Print Assumptions C56_result_requires_an_operating_point.

Theorem C56_arrays_pointwise : forall pitch body s ov h d n, nth_error h (ps_ref s) = Some d -> NoDup (dkeys ov) -> same_lengths d ov n ->
  complete (required CMooreRiderLean2012) d -> (exists k, array_given d ov k) ->
  pointwise (snd (form_state_space_matrices_rl pitch body s ov h)) (fun i => snd (form_state_space_matrices_rl pitch body s (at_row i ov) h)) n.
Proof. intros. eapply rl_pointwise; eauto. Qed.
Print Assumptions C56_arrays_pointwise.

Theorem C56_parameters_untouched : forall pitch body s ov h d, nth_error h (ps_ref s) = Some d -> NoDup (dkeys ov) ->
  complete (required CMooreRiderLean2012) d -> preserved h (fst (form_state_space_matrices_rl pitch body s ov h)).
Proof. intros. eapply rl_preserves; eauto. Qed.
Print Assumptions C56_parameters_untouched.

Theorem C56_different_lengths_are_ValueError : forall pitch body s ov h d, nth_error h (ps_ref s) = Some d -> NoDup (dkeys ov) ->
  ~ (exists n, same_lengths d ov n) ->
  snd (form_state_space_matrices_rl pitch body s ov h) = Err (ValueError "All array valued parameters must have the same length.").
Proof. intros pitch body s ov h d E N HB. rewrite <- lens_agree_iff in HB. exact (rl_bad_lengths pitch body s ov h d E N HB). Qed.
Print Assumptions C56_different_lengths_are_ValueError.

(* a concrete set, equations and operating point *)
Definition lean_set : pset := mkset CMooreRiderLean2012 0 (Some true).
Definition lean_dict : pdict := map (fun k => (k, VNum 1)) rider_lean_parameters.
Definition level : R -> R -> R -> R -> R -> R -> R -> res R := fun _ _ _ _ _ _ _ => Ok 0.
Definition toy (e : string -> R) : res (marr * marr) :=
  Ok (map (fun i => map (fun j => e "mc" * INR i + e "u6" * INR j) (seq 0 13)) (seq 0 13),
      map (fun i => map (fun j => e "l5" * INR i + INR j) (seq 0 4)) (seq 0 13)).
Definition upright (k : string) : R := if smem k lean_parameters then 1 else if String.eqb k "u6" then -5 else 0.
Lemma toy_linear : linear_equations toy.
Proof.
  split.
  - intros e1 e2 HE. unfold toy. rewrite (HE "mc"), (HE "u6"), (HE "l5"); [reflexivity|..];
      solve [right; cbv; tauto | left; cbv; tauto].
  - intros e A B E. injection E as <- <-. split; (split; [reflexivity|]); intros row Hr; repeat (destruct Hr as [<-|Hr]; [reflexivity|]); contradiction.
Qed.
Lemma lean_complete : complete (required CMooreRiderLean2012) lean_dict.
Proof.
  intros k Hk. exists 1. unfold lean_dict. cbn [required] in Hk. revert k Hk.
  apply Forall_forall. repeat (constructor; [reflexivity|]). constructor.
Qed.
Lemma upright_point : operating_point level (with_scalars lean_dict [("v", OScalar 5)]) upright.
Proof.
  split; [|split; [|split]].
  - apply Forall_forall. repeat (constructor; [reflexivity|]). constructor.
  - exists 5. split; [reflexivity|]. change (upright "rr") with 1. change (upright "u6") with (-5). split; lra.
  - reflexivity.
  - refine (proj1 (Forall_forall (fun k => k <> "u6" -> k <> "q5" -> upright k = 0) motion_symbols) _). repeat (constructor; [intros; first [reflexivity | congruence]|]). constructor.
Qed.
Example C56_satisfiable : exists A B, snd (form_state_space_matrices_rl level toy lean_set [("v", OScalar 5)] [lean_dict]) = Ok (Single (A, B)) /\
  entry lean_states lean_states A "u4" "q6" (-16) /\ entry lean_states lean_inputs B "q2" "T7" 3.
Proof.
  assert (N : NoDup (dkeys [("v", OScalar 5)])) by (repeat constructor; intros []).
  assert (S : all_scalar [("v", OScalar 5)]) by (intros k v [H|[]]; injection H as <- <-; eauto).
  destruct (C56_matrices_are_those_of_the_upright_operating_point level toy lean_set _ [lean_dict] lean_dict upright toy_linear eq_refl N S lean_complete upright_point) as (H & _).
  destruct (H _ _ eq_refl) as (A & B & E & (_ & RA) & (_ & RB)). exists A, B. split; [exact E|]. split.
  - apply RA; [cbv; tauto | cbv; tauto|]. exists 9%nat, 5%nat. eexists. do 3 (split; [reflexivity|]).
    cbn [nth_error map seq]. f_equal. change (upright "mc") with 1. change (upright "u6") with (-5). simpl INR. lra.
  - apply RB; [cbv; tauto | cbv; tauto|]. exists 1%nat, 2%nat. eexists. do 3 (split; [reflexivity|]).
    cbn [nth_error map seq]. f_equal. change (upright "l5") with 1. simpl INR. lra.
Qed.

(* ---------------- C57: eigenvalues ---------------- *)
Theorem C57_scalar_call : forall eig m s left ov h d w V, eig_contract eig -> sound_equations m -> fit m s h d -> NoDup (dkeys ov) ->
  snd (calc_eigen eig (state_space m s) left ov h) = Ok (Single (w, V)) ->
  exists A B, snd (state_space m s ov h) = Ok (Single (A, B)) /\ eigenpairs left (n_states m) A w V.
Proof. intros. eapply eigen_single; eauto. Qed.
Print Assumptions C57_scalar_call.

Theorem C57_array_call : forall eig m s left ov h d l, eig_contract eig -> sound_equations m -> fit m s h d -> NoDup (dkeys ov) ->
  snd (calc_eigen eig (state_space m s) left ov h) = Ok (Stack l) ->
  exists abs, snd (state_space m s ov h) = Ok (Stack abs) /\ length l = length abs /\
    forall i, (i < length l)%nat -> eigenpairs left (n_states m) (fst (nth i abs ([], []))) (fst (nth i l ([], []))) (snd (nth i l ([], []))).
Proof. intros. eapply eigen_stack; eauto. Qed.
Print Assumptions C57_array_call.

Theorem C57_arrays_pointwise : forall eig left m s ov h d n, fit m s h d -> NoDup (dkeys ov) -> same_lengths d ov n -> changes m d ov ->
  pointwise (snd (calc_eigen eig (state_space m s) left ov h)) (fun i => snd (calc_eigen eig (state_space m s) left (at_row i ov) h)) n.
Proof. intros. eapply eigen_pointwise; eauto. Qed.
Print Assumptions C57_arrays_pointwise.

Theorem C57_parameters_untouched : forall eig left m s ov h d, fit m s h d -> NoDup (dkeys ov) ->
  preserved h (fst (calc_eigen eig (state_space m s) left ov h)).
Proof. intros. eapply eigen_preserves; eauto. Qed.
Print Assumptions C57_parameters_untouched.

(* without matrices there are no eigenvalues *)
Theorem C57_errors_are_those_of_the_matrices : forall eig left m s ov h e, snd (state_space m s ov h) = Err e ->
  snd (calc_eigen eig (state_space m s) left ov h) = Err e.
Proof. intros eig left m s ov h e H. rewrite calc_eigen_eq. cbn [snd]. rewrite H. reflexivity. Qed.
Print Assumptions C57_errors_are_those_of_the_matrices.

(* the rate components of every eigenvector are lambda times its angle components *)
Theorem C57_rates_of_an_eigenvector : forall eig m s ov h d w V, eig_contract eig -> m = MMeijaard \/ m = MFeedback -> fit m s h d -> NoDup (dkeys ov) ->
  (snd (calc_eigen eig (state_space m s) false ov h) = Ok (Single (w, V)) \/
   exists l, snd (calc_eigen eig (state_space m s) false ov h) = Ok (Stack l) /\ In (w, V) l) ->
  forall j, (j < 4)%nat -> cent V 2 j = cmul (nth j w (0, 0)) (cent V 0 j) /\ cent V 3 j = cmul (nth j w (0, 0)) (cent V 1 j).
Proof.
  intros eig m s ov h d w V HE HM F N HC j Hj.
  assert (SE : sound_equations m) by (destruct HM; subst m; exact Logic.I).
  assert (N4 : n_states m = 4%nat) by (destruct HM; subst m; reflexivity).
  destruct (sst_rows m s ov h d F N) as (R1 & R2).
  destruct HC as [HC|(l & HC & HI)].
  - destruct (eigen_single eig m s false ov h d w V HE SE F N HC) as (A & B & EA & (_ & _ & _ & HP)).
    rewrite N4 in HP. destruct (R1 _ EA) as (d' & C' & HR). eapply eigen_rates; [eapply first_order_row; eauto|]. apply (HP j Hj).
  - destruct (eigen_stack eig m s false ov h d l HE SE F N HC) as (abs & EA & EL & HP).
    destruct (In_nth _ _ ([], []) HI) as (i & Hi & EI). destruct (HP i Hi) as (_ & _ & _ & HQ). unfold eigres in *; unfold marr in *; rewrite EI, N4 in HQ. cbn [fst snd] in HQ.
    assert (HB : In (nth i abs ([], [])) abs) by (apply nth_In; lia).
    destruct (R2 _ EA _ HB) as (d' & C' & HR). destruct (nth i abs ([], [])) as [A B]. cbn [fst] in HQ.
    eapply eigen_rates; [eapply first_order_row; eauto|]. apply (HQ j Hj).
Qed.
Print Assumptions C57_rates_of_an_eigenvector.

(* and (phi, delta) of the eigenvector solves the linearised equations of motion *)
Theorem C57_eigenvectors_solve_the_equations_of_motion : forall eig s ov h d w V, eig_contract eig -> fit MMeijaard s h d -> NoDup (dkeys ov) -> all_scalar ov ->
  snd (calc_eigen eig (state_space MMeijaard s) false ov h) = Ok (Single (w, V)) ->
  exists c v g, snd (form_reduced_canonical_matrices s ov h) = Ok (Single c) /\
    dget (with_scalars d ov) "v" = Some (VNum v) /\ dget (with_scalars d ov) "g" = Some (VNum g) /\
    forall j, (j < 4)%nat -> second_order (cM c) (cC1 c) (cK0 c) (cK2 c) v g (nth j w (0, 0)) (cent V 0 j) (cent V 1 j).
Proof.
  intros eig s ov h d w V HE F N HA HC.
  destruct (eigen_single eig MMeijaard s false ov h d w V HE Logic.I F N HC) as (A & B & EA & (_ & _ & _ & HP)).
  destruct F as (E & _). cbn [state_space] in EA. apply (ss_scalar s ov h d (A, B) E N HA) in EA.
  apply ss_row_iff in EA. destruct EA as (c & v & g & EC & EV & EG & EM). exists c, v, g.
  rewrite (canonical_scalar s ov h d E N HA). unfold canonical. rewrite EC. split; [reflexivity|].
  rewrite <- !(rowd_scalars d ov 0) by assumption. split; [exact EV|]. split; [exact EG|].
  intros j Hj. eapply eigen_second_order; [exact EM|]. apply (HP j Hj).
Qed.
Print Assumptions C57_eigenvectors_solve_the_equations_of_motion.

(* the benchmark bicycle at rest without gravity, where the matrices are simple *)
Definition rest : dict oval := [("v", OScalar 0); ("g", OScalar 0)].
Definition rest_A : marr := [[0; 0; 1; 0]; [0; 0; 0; 1]; [0; 0; 0; 0]; [0; 0; 0; 0]].
Lemma rest_nodup : NoDup (dkeys rest).
Proof. repeat constructor; cbn; intuition discriminate. Qed.
Lemma rest_scalar : all_scalar rest.
Proof. intros k v [H|[H|[]]]; injection H as <- <-; eauto. Qed.
Lemma bike_fit : fit MMeijaard bike_set [nums bike] (nums bike).
Proof. split; [reflexivity|]. apply (complete_required CMeijaard2007), bike_complete. Qed.
Definition rest_bike : dict R := map (fun e => (fst e, if String.eqb (fst e) "v" then 0 else if String.eqb (fst e) "g" then 0 else snd e)) bike.
Lemma rest_floats : floats (rowd (nums bike) rest 0) = rest_bike.
Proof. reflexivity. Qed.
Lemma rest_canonical : exists p' c, benchmark_par_to_canonical rest_bike = (p', Ok c).
Proof.
  apply canonical_success. split.
  - intros k Hk. unfold canon_keys in Hk. unfold rest_bike, bike, dkeys. cbn [In map fst] in *.
    repeat (destruct Hk as [Hk|Hk]; [subst k; tauto|]). contradiction.
  - unfold canon_nonzero, pv, rest_bike, bike. cbn [map fst snd dget String.eqb Ascii.eqb Bool.eqb]. repeat split; lra.
Qed.
Lemma rest_matrices : exists B, snd (state_space MMeijaard bike_set rest [nums bike]) = Ok (Single (rest_A, B)).
Proof.
  destruct rest_canonical as (p' & c & X).
  assert (Y : exists A B, ab_matrix (cM c) (cC1 c) (cK0 c) (cK2 c) 0 0 = Ok (A, B)).
  { apply (canonical_state_space_exists _ _ _ 0 0 X);
      unfold bike_of, rear_wheel, rear_frame, front_frame, front_wheel, pv, rest_bike, bike; cbn [map fst snd dget String.eqb Ascii.eqb Bool.eqb k_bodies]; try lra.
    repeat (constructor; [unfold physical; cbn [b_m b_Ixx b_Izz b_Ixz]; lra|]). constructor. }
  destruct Y as (A & B & Y). exists B. cbn [state_space].
  apply (ss_scalar bike_set rest [nums bike] (nums bike) (rest_A, B) eq_refl rest_nodup rest_scalar).
  apply ss_row_iff. exists c, 0, 0. rewrite rest_floats, X. do 3 (split; [reflexivity|]).
  rewrite Y. f_equal. f_equal. rewrite (ab_forward _ _ _ _ _ _ (ab_ok _ _ _ _ _ _ _ Y)) in Y. cbv zeta in Y.
  injection Y as <- _. unfold rest_A. cbn [m11 m12 m21 m22 m2_neg m2_dot m2_scale m2_add].
  repeat match goal with |- _ :: _ = _ :: _ => apply f_equal2 | |- [] = [] => reflexivity end; ring.
Qed.
Example C57_satisfiable : eig_contract eig0 /\
  exists w V, snd (calc_eigen eig0 (state_space MMeijaard bike_set) false rest [nums bike]) = Ok (Single (w, V)) /\ eigenpairs false 4 rest_A w V.
Proof.
  split; [exact eig0_contract|]. destruct rest_matrices as (B & E).
  assert (X : exists w V, eig0 rest_A = Ok (w, V)).
  { unfold eig0. destruct (find (zero_col rest_A) (seq 0 (length rest_A))) eqn:F; [eauto|].
    exfalso. pose proof (find_none _ _ F 0%nat (or_introl eq_refl)) as G. unfold zero_col, rest_A in G. cbn [forallb nth] in G.
    destruct (Req_EM_T 0 0); [discriminate|congruence]. }
  destruct X as (w & V & X).
  assert (H : snd (calc_eigen eig0 (state_space MMeijaard bike_set) false rest [nums bike]) = Ok (Single (w, V))).
  { rewrite calc_eigen_eq. cbn [snd]. rewrite E. cbn [orient fst]. rewrite X. reflexivity. }
  exists w, V. split; [exact H|].
  destruct (C57_scalar_call eig0 MMeijaard bike_set false rest [nums bike] (nums bike) w V eig0_contract Logic.I bike_fit rest_nodup H) as (A' & B' & E' & P).
  assert (A' = rest_A) as -> by congruence. exact P.
Qed.

(* ---------------- C58: simulation ---------------- *)
Theorem C58_states_are_samples_of_the_motion : forall solve m s ov h d times x0 inp st us,
  solver_contract solve -> sound_equations m -> increasing times -> fit m s h d -> NoDup (dkeys ov) ->
  snd (simulate solve s (state_space m s) times x0 inp ov h) = Ok (st, us) ->
  exists A B t0 x, snd (state_space m s ov h) = Ok (Single (A, B)) /\ hd_error times = Some t0 /\ x t0 = x0 /\
    motion (n_states m) (n_inputs m) A B inp t0 (last times t0) x /\ length st = length times /\ length us = length times /\
    forall k, (k < length times)%nat ->
      nth k st [] = x (nth k times 0) /\ input_at inp (n_inputs m) (nth k times 0) (nth k st []) (nth k us []).
Proof. intros. eapply simulation; eauto. Qed.
Print Assumptions C58_states_are_samples_of_the_motion.

(* without inputs that motion is the only one *)
Theorem C58_free_motion_is_unique : forall n m A B t0 tf x y, shape n n A -> motion n m A B None t0 tf x -> motion n m A B None t0 tf y -> x t0 = y t0 ->
  forall t, t0 <= t <= tf -> x t = y t.
Proof. intros; eapply free_motion_unique; eauto. Qed.
Print Assumptions C58_free_motion_is_unique.

(* hence the states are a linear function of the initial state *)
Theorem C58_superposition : forall solve m s ov h d times x1 x2 x3 a b st1 us1 st2 us2 st3 us3,
  solver_contract solve -> sound_equations m -> increasing times -> fit m s h d -> NoDup (dkeys ov) ->
  snd (simulate solve s (state_space m s) times x1 None ov h) = Ok (st1, us1) ->
  snd (simulate solve s (state_space m s) times x2 None ov h) = Ok (st2, us2) ->
  snd (simulate solve s (state_space m s) times x3 None ov h) = Ok (st3, us3) ->
  length x3 = n_states m ->
  (forall i, nth i x3 0 = a * nth i x1 0 + b * nth i x2 0) ->
  forall k i, (k < length times)%nat -> (i < n_states m)%nat -> ent st3 k i = a * ent st1 k i + b * ent st2 k i.
Proof.
  intros solve m s ov h d times x1 x2 x3 a b st1 us1 st2 us2 st3 us3 SC SE IN F N S1 S2 S3 L3 H0 k i Hk Hi.
  destruct (simulation solve m s ov h d times x1 None st1 us1 SC SE IN F N S1) as (A & B & t0 & y1 & EA & ET & I1 & M1 & _ & _ & V1).
  destruct (simulation solve m s ov h d times x2 None st2 us2 SC SE IN F N S2) as (A2 & B2 & t2 & y2 & EA2 & ET2 & I2 & M2 & _ & _ & V2).
  destruct (simulation solve m s ov h d times x3 None st3 us3 SC SE IN F N S3) as (A3 & B3 & t3 & y3 & EA3 & ET3 & I3 & M3 & _ & _ & V3).
  assert (A2 = A /\ B2 = B /\ A3 = A /\ B3 = B /\ t2 = t0 /\ t3 = t0) as (-> & -> & -> & -> & -> & ->) by (repeat split; congruence).
  pose proof (motion_linear _ _ _ _ _ _ _ _ a b M1 M2) as ML.
  destruct (proj1 (sst_shape m s ov h d SE F N) A B EA) as (SA & _).
  set (z := fun t => map (fun i => a * nth i (y1 t) 0 + b * nth i (y2 t) 0) (seq 0 (n_states m))) in *.
  assert (NZ : forall t i, (i < n_states m)%nat -> nth i (z t) 0 = a * nth i (y1 t) 0 + b * nth i (y2 t) 0).
  { intros t j Hj. unfold z. rewrite (nth_indep _ 0 ((fun i => a * nth i (y1 t) 0 + b * nth i (y2 t) 0) 0%nat)) by (rewrite map_length, seq_length; exact Hj).
    rewrite (map_nth (fun i => a * nth i (y1 t) 0 + b * nth i (y2 t) 0)), seq_nth by exact Hj. reflexivity. }
  assert (EQ : z t0 = y3 t0).
  { apply (nth_ext _ _ 0 0).
    - unfold z. rewrite map_length, seq_length, I3. auto.
    - intros j Hj. unfold z in Hj. rewrite map_length, seq_length in Hj. rewrite NZ by exact Hj. rewrite I1, I2, I3. auto. }
  pose proof (free_motion_unique _ _ _ _ _ _ _ _ SA ML M3 EQ (nth k times 0) (increasing_bounds times t0 k IN ET Hk)) as X.
  unfold ent. destruct (V1 k Hk) as (-> & _). destruct (V2 k Hk) as (-> & _). destruct (V3 k Hk) as (-> & _).
  rewrite <- X. apply NZ, Hi.
Qed.
Print Assumptions C58_superposition.

(* every mode decays, grows and oscillates by its own eigenvalue *)
Theorem C58_modes : forall solve eig m s ov h d times res, solver_contract solve -> eig_contract eig -> sound_equations m -> increasing times -> fit m s h d -> NoDup (dkeys ov) ->
  snd (simulate_modes solve eig s (state_space m s) times ov h) = Ok res ->
  exists A B w V t0, snd (state_space m s ov h) = Ok (Single (A, B)) /\ snd (calc_eigen eig (state_space m s) false ov h) = Ok (Single (w, V)) /\
    eigenpairs false (n_states m) A w V /\ hd_error times = Some t0 /\ length res = n_states m /\
    forall j, (j < n_states m)%nat -> length (nth j res []) = length times /\
      forall k, (k < length times)%nat -> length (nth k (nth j res []) []) = n_states m /\
        forall i, (i < n_states m)%nat -> ent (nth j res []) k i = mode_re (nth j w (0, 0)) (cent V i j) t0 (nth k times 0).
Proof. intros. eapply modes; eauto. Qed.
Print Assumptions C58_modes.

Theorem C58_arrays_are_rejected : forall solve eig m s ov h d times x0 inp k n, fit m s h d -> NoDup (dkeys ov) -> same_lengths d ov n -> array_given d ov k ->
  snd (simulate solve s (state_space m s) times x0 inp ov h) = Err (ValueError "Can only simulate with fixed parameters.") /\
  snd (simulate_modes solve eig s (state_space m s) times ov h) = Err (ValueError "Can only simulate with fixed parameters.").
Proof. intros. split; [eapply arrays_rejected | eapply arrays_rejected_modes]; eauto. Qed.
Print Assumptions C58_arrays_are_rejected.

(* the rider lean model writes the wheel rate into the caller's own initial conditions
   and simulates from there *)
Theorem C58_refuted_initial_conditions_are_overwritten : forall solve pitch body s ov h d times x0 inp x0' r, nth_error h (ps_ref s) = Some d -> NoDup (dkeys ov) ->
  snd (simulate_rl solve pitch body s times x0 inp ov h) = Ok (x0', r) ->
  exists v rr, dget (with_scalars d ov) "v" = Some (VNum v) /\ dget (with_scalars d ov) "rr" = Some (VNum rr) /\ rr <> 0 /\
    length x0' = length x0 /\ (9 < length x0)%nat /\ nth 9 x0' 0 * rr = - v /\ (forall i, i <> 9%nat -> nth i x0' 0 = nth i x0 0) /\
    exists h1, preserved h h1 /\ r = snd (simulate solve s (state_space (MRiderLean pitch body) s) times x0' inp ov h1).
Proof.
  intros solve pitch body s ov h d times x0 inp x0' r E N H.
  destruct (rider_lean_initial solve pitch body s ov h d times x0 inp x0' r E N H) as (v & rr & EV & ER & NZ & -> & L & X).
  exists v, rr. do 3 (split; [assumption|]). split; [apply upd_length|]. split; [exact L|]. split.
  - rewrite upd_nth_eq by exact L. field. exact NZ.
  - split; [|exact X]. intros i Hi. apply upd_nth_neq. auto.
Qed.
Print Assumptions C58_refuted_initial_conditions_are_overwritten.

Example C58_satisfiable : solver_contract rest_solver /\ increasing [0; 1; 2] /\
  (exists st us, snd (simulate rest_solver bike_set (state_space MMeijaard bike_set) [0; 1; 2] [1; 2; 0; 0] None rest [nums bike]) = Ok (st, us) /\
     st = [[1; 2; 0; 0]; [1; 2; 0; 0]; [1; 2; 0; 0]]) /\
  exists res, snd (simulate_modes rest_solver eig0 bike_set (state_space MMeijaard bike_set) [0; 1; 2] rest [nums bike]) = Ok res.
Proof.
  split; [exact rest_solver_contract|]. split.
  { intros i j Hij Hj. cbn [length] in Hj. destruct i as [|[|i]]; destruct j as [|[|[|j]]]; try lia; cbn [nth]; lra. }
  destruct rest_matrices as (B & E). split.
  - do 2 eexists. split.
    + eapply simulate_run; [exact bike_fit|exact rest_nodup|exact rest_scalar|exact E|reflexivity| |].
      * unfold rest_solver. destruct (excluded_middle_informative _) as [_|X]; [reflexivity|]. exfalso. apply X. intros _.
        unfold matvec, rest_A, rsum. cbn [mapM length Nat.eqb bind map combine fst snd fold_right repeat]. do 2 f_equal; [ring|f_equal; [ring|f_equal; [ring|f_equal; ring]]].
      * reflexivity.
    + reflexivity.
  - assert (Z : zero_col rest_A 0 = true).
    { unfold zero_col, rest_A. cbn [forallb nth]. destruct (Req_EM_T 0 0); [reflexivity|congruence]. }
    assert (X : eig0 rest_A = Ok (repeat (0, 0) 4, [repeat (1, 0) 4; repeat (0, 0) 4; repeat (0, 0) 4; repeat (0, 0) 4])).
    { unfold eig0. cbn [length rest_A seq find]. fold rest_A. rewrite Z. reflexivity. }
    assert (S : forall times, rest_solver (fun _ x => matvec rest_A x) 0 2 [1; 0; 0; 0] times = Ok (map (fun x => repeat x (length times)) [1; 0; 0; 0])).
    { intros times. unfold rest_solver. destruct (excluded_middle_informative _) as [_|Y]; [reflexivity|]. exfalso. apply Y. intros _.
      unfold matvec, rest_A, rsum. cbn [mapM length Nat.eqb bind map combine fst snd fold_right repeat]. do 2 f_equal; [ring|f_equal; [ring|f_equal; [ring|f_equal; ring]]]. }
    eexists. eapply modes_run; [exact bike_fit|exact rest_nodup|exact rest_scalar|exact E|exact X|reflexivity|].
    cbn [hd length repeat seq mapM index nth_error bind fst last]. rewrite !S. cbn [bind map repeat length ytimes hd Nat.eqb seq mapM column index nth_error]. reflexivity.
Qed.

(* ---------------- C59: modal controllability ---------------- *)
Theorem C59_angles_between_modes_and_inputs : forall eig m s acute ov h d abs evs, eig_contract eig -> m = MMeijaard \/ m = MFeedback -> fit m s h d -> NoDup (dkeys ov) ->
  snd (state_space m s ov h) = Ok (Stack abs) -> snd (calc_eigen eig (state_space m s) true ov h) = Ok (Stack evs) -> abs <> [] ->
  exists l, snd (modal_controllability eig (state_space m s) acute ov h) = Ok l /\ length l = length abs /\
    forall k, (k < length abs)%nat -> shape 4 2 (nth k l []) /\
      forall i j, (i < 4)%nat -> (j < 2)%nat -> exists c, (c < 4)%nat /\ (k = 0%nat -> c = i) /\
        modal_angle acute (ccol (snd (nth k evs ([], []))) c) (rcol (snd (nth k abs ([], []))) j) (ent (nth k l []) i j).
Proof. intros. eapply modal_meaning; eauto. Qed.
Print Assumptions C59_angles_between_modes_and_inputs.

(* the same parameters without an array crash *)
Theorem C59_refuted_scalar_parameters_crash : forall eig m s acute ov h d ab ev, fit m s h d -> NoDup (dkeys ov) ->
  snd (state_space m s ov h) = Ok (Single ab) -> snd (calc_eigen eig (state_space m s) true ov h) = Ok ev ->
  snd (modal_controllability eig (state_space m s) acute ov h) = Err TypeError.
Proof. intros eig m s acute ov h d ab ev F N E1 E2. rewrite (modal_eq eig m s acute ov h d F N), E1, E2. reflexivity. Qed.
Print Assumptions C59_refuted_scalar_parameters_crash.

(* an eigenvector is determined up to a complex factor only; the measure depends on it:
   a mode parallel to the input has angle 0, and the same mode multiplied by i has pi/2 *)
Lemma parallel_inner b : re_inner (map (fun x => (x, 0)) b) b = norm_r b * norm_r b.
Proof.
  assert (P : 0 <= rsum (map (fun x => x ^ 2) b)) by apply ssq_r_pos.
  unfold norm_r. rewrite sqrt_sqrt by exact P. unfold re_inner, rsum. clear P. induction b as [|x b IH]; [reflexivity|].
  cbn [map combine fold_right fst snd]. rewrite IH. ring.
Qed.
Lemma parallel_norm b : norm_c (map (fun x => (x, 0)) b) = norm_r b.
Proof.
  unfold norm_c, norm_r. f_equal. rewrite map_map. f_equal. apply map_ext. intros x. cbn [fst snd]. ring.
Qed.
Lemma turned_inner b : re_inner (map (cmul (0, 1)) (map (fun x => (x, 0)) b)) b = 0.
Proof.
  unfold re_inner, rsum. generalize b at 2. induction b as [|x b IH]; intros [|y c]; try reflexivity.
  cbn [map combine fold_right fst snd cmul]. rewrite IH. ring.
Qed.
Lemma turned_norm b : norm_c (map (cmul (0, 1)) (map (fun x => (x, 0)) b)) = norm_r b.
Proof.
  unfold norm_c, norm_r. f_equal. rewrite !map_map. f_equal. apply map_ext. intros x. cbn [fst snd cmul]. ring.
Qed.
Theorem C59_refuted_independent_of_the_eigenvector_phase : forall acute b, (exists x, In x b /\ x <> 0) ->
  mod_cont acute (map (fun x => (x, 0)) b) b = Ok 0 /\
  mod_cont acute (map (cmul (0, 1)) (map (fun x => (x, 0)) b)) b = Ok (PI / 2).
Proof.
  intros acute b HB. pose proof (norm_r_pos b HB) as P. pose proof PI_RGT_0 as PP.
  pose proof (Rmult_lt_0_compat _ _ P P) as PN. split.
  - destruct (mod_cont_angle acute (map (fun x => (x, 0)) b) b) as (beta & -> & (B1 & B2)); [rewrite parallel_norm; exact P|exact P|].
    f_equal. rewrite parallel_norm, parallel_inner in B2.
    assert (C : cos beta = 1).
    { apply (Rmult_eq_reg_r (norm_r b * norm_r b)); [|lra]. rewrite B2. destruct acute; [rewrite Rabs_right by lra|]; ring. }
    rewrite <- (acos_cos beta) by (destruct acute; lra). rewrite C. exact acos_1.
  - destruct (mod_cont_angle acute (map (cmul (0, 1)) (map (fun x => (x, 0)) b)) b) as (beta & -> & (B1 & B2)); [rewrite turned_norm; exact P|exact P|].
    f_equal. rewrite turned_norm, turned_inner in B2.
    assert (C : cos beta = 0).
    { apply (Rmult_eq_reg_r (norm_r b * norm_r b)); [|lra]. rewrite B2. destruct acute; [rewrite Rabs_R0|]; ring. }
    rewrite <- (acos_cos beta) by (destruct acute; lra). rewrite C. exact acos_0.
Qed.
Print Assumptions C59_refuted_independent_of_the_eigenvector_phase.

(* the docstring promises angles between -pi/2 and pi/2 for acute=False *)
Theorem C59_refuted_documented_range : forall b, (exists x, In x b /\ x <> 0) ->
  mod_cont false (map (fun x => (- x, 0)) b) b = Ok PI.
Proof.
  intros b HB. pose proof (norm_r_pos b HB) as P. pose proof (Rmult_lt_0_compat _ _ P P) as PN.
  assert (EI : re_inner (map (fun x => (- x, 0)) b) b = - (norm_r b * norm_r b)).
  { rewrite <- parallel_inner. unfold re_inner, rsum. generalize b at 2 4. clear. induction b as [|x b IH]; intros [|y c]; cbn [map combine fold_right fst snd]; try (symmetry; apply Ropp_0). rewrite IH. ring. }
  assert (EN : norm_c (map (fun x => (- x, 0)) b) = norm_r b).
  { unfold norm_c, norm_r. f_equal. rewrite map_map. f_equal. apply map_ext. intros x. cbn [fst snd]. ring. }
  destruct (mod_cont_angle false (map (fun x => (- x, 0)) b) b) as (beta & -> & (B1 & B2)); [rewrite EN; exact P|exact P|].
  f_equal. rewrite EN, EI in B2.
  assert (C : cos beta = - 1) by (apply (Rmult_eq_reg_r (norm_r b * norm_r b)); lra).
  rewrite <- (acos_cos beta) by exact B1. rewrite C. replace (- 1) with (- (1)) by ring. rewrite acos_opp, acos_1. ring.
Qed.
Print Assumptions C59_refuted_documented_range.

Definition rest_array : dict oval := [("v", OArray [0]); ("g", OScalar 0)].
Example C59_satisfiable : exists abs evs, abs <> [] /\ NoDup (dkeys rest_array) /\
  snd (state_space MMeijaard bike_set rest_array [nums bike]) = Ok (Stack abs) /\
  snd (calc_eigen eig0 (state_space MMeijaard bike_set) true rest_array [nums bike]) = Ok (Stack evs).
Proof.
  assert (N : NoDup (dkeys rest_array)) by (repeat constructor; cbn; intuition discriminate).
  assert (SL : same_lengths (nums bike) rest_array 1) by (intros q Hq; cbn in Hq; intuition).
  assert (CH : changes MMeijaard (nums bike) rest_array).
  { exists "v". split; [split; [cbn [nums bike map dkeys fst In]; tauto|eexists; reflexivity]|]. intros _. cbv. tauto. }
  destruct rest_matrices as (B & E).
  destruct (sst_pointwise MMeijaard bike_set rest_array [nums bike] (nums bike) 1 bike_fit N SL CH) as (_ & P2 & P3).
  destruct P3 as (abs & EA); [lia| |].
  { intros i Hi. assert (i = 0%nat) as -> by lia. exists (rest_A, B). exact E. }
  destruct (P2 _ EA) as (LA & HA). pose proof (HA 0%nat ([], []) ltac:(lia)) as H0.
  change (at_row 0 rest_array) with rest in H0. rewrite E in H0. injection H0 as H0.
  assert (abs = [(rest_A, B)]) as -> by (destruct abs as [|x [|y r]]; try discriminate; cbn [nth] in H0; congruence).
  assert (X : exists w, eig0 (transpose rest_A) = Ok w).
  { unfold eig0. destruct (find _ _) eqn:F; [eauto|]. exfalso.
    pose proof (find_none _ _ F 2%nat) as G. assert (I2 : In 2%nat (seq 0 (length (transpose rest_A)))) by (cbv; tauto). specialize (G I2).
    unfold zero_col, transpose, rest_A in G. cbn [length seq map nth forallb] in G. destruct (Req_EM_T 0 0); [discriminate|congruence]. }
  destruct X as (w & X). exists [(rest_A, B)], [w]. split; [discriminate|]. split; [exact N|]. split; [exact EA|].
  rewrite calc_eigen_eq. cbn [snd]. rewrite EA. cbn [mapM orient fst]. rewrite X. reflexivity.
Qed.
