(* TModels.v -- C27-C33: parameter sets and the models' matrices *)
From Coq Require Import Permutation Lra.
From Verif Require Import Base MString MHeap MBicycle MVec MInertia MSets MModels PBase SBicycle PBicycle PBicycle2 SInertia PInertia PInertia3
  PHeap SModels PModels PModels2 PModels3 PSets PSets2 PSets3 PModels4.
Local Open Scope string_scope.
Local Open Scope R_scope.

(* a concrete complete set: the benchmark bicycle *)
Definition bike : dict R :=
  [("w", 102/100); ("c", 8/100); ("lam", PI/10); ("g", 981/100); ("v", 5);
   ("rR", 3/10); ("mR", 2); ("IRxx", 603/10000); ("IRyy", 12/100);
   ("xB", 3/10); ("zB", -9/10); ("mB", 85); ("IBxx", 92/10); ("IByy", 11); ("IBzz", 28/10); ("IBxz", 24/10);
   ("xH", 9/10); ("zH", -7/10); ("mH", 4); ("IHxx", 5892/100000); ("IHyy", 6/100); ("IHzz", 708/100000);
   ("IHxz", -756/100000); ("rF", 35/100); ("mF", 3); ("IFxx", 1405/10000); ("IFyy", 28/100)].
Definition bike_set : pset := mkset CMeijaard2007 0 (Some true).
Lemma bike_complete : complete (par_strings CMeijaard2007) (nums bike).
Proof.
  intros k Hk. cbn [par_strings In] in Hk.
  repeat (destruct Hk as [<-|Hk]; [eexists; reflexivity|]). contradiction.
Qed.

(* ---------------- C27 ---------------- *)
Theorem C27_accepts_exactly_complete : forall c r rider h d, nth_error h r = Some d ->
  (make_set c r rider h = (h, Ok (mkset c r rider)) <-> complete (required c) d).
Proof. intros c r rider h d E. rewrite complete_required. exact (make_set_ok c r rider h d E). Qed.
Print Assumptions C27_accepts_exactly_complete.

(* the offender named is the alphabetically first one *)
Theorem C27_rejection_names_first_offender : forall c r rider h d e, nth_error h r = Some d ->
  (make_set c r rider h = (h, Err e) <->
   exists k msg, In k (required c) /\ offends d k msg /\ e = ValueError msg /\
     forall k', In k' (required c) -> String.ltb k' k = true -> exists x, dget d k' = Some (VNum x)).
Proof. exact first_offender. Qed.
Print Assumptions C27_rejection_names_first_offender.

(* the docstring's list of keys is not enough: three more are demanded *)
Theorem C27_refuted_documented_keys_are_not_enough : forall c r rider h d, nth_error h r = Some d ->
  c = CMeijaard2007 \/ c = CMeijaard2007WithFeedback ->
  (forall k, In k (dkeys d) <-> In k documented_meijaard) ->
  exists msg, make_set c r rider h = (h, Err (ValueError msg)).
Proof.
  intros c r rider h d E Hc HK.
  assert (N : ~ complete (required c) d).
  { intros C. destruct (C "v") as (x & EX); [apply required_iff; destruct Hc as [-> | ->]; cbn [par_strings In]; tauto|].
    assert (IN : In "v" (dkeys d)) by (apply dget_some_in; eauto). apply HK in IN. vm_compute in IN. intuition discriminate. }
  rewrite complete_required in N.
  assert (NE : make_set c r rider h <> (h, Ok (mkset c r rider))) by (intros X; apply N; apply (make_set_ok c r rider h d E); exact X).
  rewrite (make_set_eq c r rider h d E) in *. destruct (check_parameters (par_strings c) d) as [[]|e] eqn:EC; [congruence|].
  assert (MS : make_set c r rider h = (h, Err e)) by (rewrite (make_set_eq c r rider h d E), EC; reflexivity).
  apply (first_offender c r rider h d e E) in MS. destruct MS as (k & msg & _ & _ & -> & _). eauto.
Qed.
Print Assumptions C27_refuted_documented_keys_are_not_enough.

Theorem C27_dictionary_untouched_and_shared : forall c r rider h d, nth_error h r = Some d ->
  fst (make_set c r rider h) = h /\ forall s, snd (make_set c r rider h) = Ok s -> ps_ref s = r /\ ps_class s = c.
Proof.
  intros c r rider h d E. rewrite (make_set_eq c r rider h d E). split; [reflexivity|]. intros s. cbn [snd].
  destruct (check_parameters (par_strings c) d); [|discriminate]. intros X; injection X as <-. auto.
Qed.
Print Assumptions C27_dictionary_untouched_and_shared.

Theorem C27_extras_accepted : forall c r rider h d k v, nth_error h r = Some d -> ~ In k (required c) ->
  complete (required c) d -> make_set c r rider (upd h r (dset d k v)) = (upd h r (dset d k v), Ok (mkset c r rider)).
Proof.
  intros c r rider h d k v E NK C. apply complete_required in C. rewrite <- required_iff in NK. assert (HL : (r < length h)%nat) by (apply nth_error_Some; congruence).
  apply (make_set_ok c r rider _ (dset d k v)); [apply nth_error_upd_eq; exact HL|].
  intros k0 Hk. rewrite dget_dset. destruct (String.eqb_spec k0 k) as [->|_]; [contradiction|]. apply C; exact Hk.
Qed.
Print Assumptions C27_extras_accepted.

Example C27_satisfiable : make_set CMeijaard2007 0 (Some true) [nums bike] = ([nums bike], Ok bike_set) /\
  snd (make_set CMeijaard2007 0 (Some true) [ddel (nums bike) "IFxx"]) = Err (ValueError "IFxx is missing from the provided parameter dictionary.") /\
  snd (make_set CMeijaard2007 0 (Some true) [dset (nums bike) "w" (VObj "1")]) = Err (ValueError "1 is not a valid value for parameter w").
Proof. split; [apply make_set_ok with (d := nums bike); [reflexivity | apply bike_complete]|]. split; reflexivity. Qed.

(* ---------------- C28 ---------------- *)
Theorem C28_own_name_is_identity : forall btm s h, to_parameterization btm s (parameterization (ps_class s)) h = (h, Ok s).
Proof. exact conv_own. Qed.
Print Assumptions C28_own_name_is_identity.

Theorem C28_source_never_altered : forall btm s name h d, nth_error h (ps_ref s) = Some d ->
  preserved h (fst (to_parameterization btm s name h)).
Proof. exact conv_preserves. Qed.
Print Assumptions C28_source_never_altered.

Theorem C28_result_is_a_valid_set_of_that_name : forall btm s name h h' s' d,
  nth_error h (ps_ref s) = Some d -> complete (required (ps_class s)) d ->
  to_parameterization btm s name h = (h', Ok s') ->
  parameterization (ps_class s') = name /\
  exists d', nth_error h' (ps_ref s') = Some d' /\ complete (required (ps_class s')) d'.
Proof.
  intros btm s name h h' s' d E C EC. apply complete_required in C.
  destruct (conv_valid btm s name h h' s' d E C EC) as (N & d' & E' & C'). split; [exact N|]. exists d'. split; [exact E'|].
  apply complete_required, C'.
Qed.
Print Assumptions C28_result_is_a_valid_set_of_that_name.

Theorem C28_unsupported_name_is_ValueError : forall btm s name h d, nth_error h (ps_ref s) = Some d ->
  name <> parameterization (ps_class s) -> ~ In name (convertible (ps_class s)) ->
  exists msg, to_parameterization btm s name h = (h, Err (ValueError msg)) /\ starts_with name msg = true.
Proof. exact conv_unsupported. Qed.
Print Assumptions C28_unsupported_name_is_ValueError.

Theorem C28_to_feedback_adds_zero_gains : forall btm s h d, nth_error h (ps_ref s) = Some d -> ps_class s = CMeijaard2007 ->
  complete (required CMeijaard2007) d ->
  exists d', to_parameterization btm s "Meijaard2007WithFeedback" h =
      ((h ++ [d'])%list, Ok (mkset CMeijaard2007WithFeedback (length h) (ps_rider s))) /\
    (forall k, In k feedback_gain_names -> dget d' k = Some (VNum 0)) /\
    (forall k, ~ In k feedback_gain_names -> dget d' k = dget d k).
Proof.
  intros btm s h d E Hc C. apply complete_required in C. destruct (conv_feedback btm s h d E Hc C) as (d' & ET & EG).
  exists d'. split; [exact ET|]. split; intros k Hk; rewrite EG; rewrite <- gain_names_iff in Hk.
  - apply smem_spec in Hk. rewrite Hk. reflexivity.
  - destruct (smem k gain_names) eqn:EM; [apply smem_spec in EM; contradiction | reflexivity].
Qed.
Print Assumptions C28_to_feedback_adds_zero_gains.

Theorem C28_to_moore2012_keeps_speed : forall btm s h d, nth_error h (ps_ref s) = Some d ->
  ps_class s = CMeijaard2007 \/ ps_class s = CMeijaard2007WithFeedback ->
  forall h' s', to_parameterization btm s "Moore2012" h = (h', Ok s') ->
  exists m v, btm d = Ok m /\ dget d "v" = Some v /\ nth_error h' (ps_ref s') = Some (dset m "v" v) /\
    ps_class s' = CMoore2012 /\ ps_rider s' = ps_rider s /\ ps_ref s' = length h.
Proof. exact conv_to_moore2012. Qed.
Print Assumptions C28_to_moore2012_keeps_speed.

Theorem C28_principal_to_benchmark : forall btm s h d, nth_error h (ps_ref s) = Some d -> ps_class s = CMoore2019 ->
  complete (required CMoore2019) d ->
  forall b, convert_principal_to_benchmark (floats d) = Ok b ->
  to_parameterization btm s "Meijaard2007" h = ((h ++ [nums b])%list, Ok (mkset CMeijaard2007 (length h) (Some true))).
Proof. intros btm s h d E Hc C. apply complete_required in C. exact (conv_principal btm s h d E Hc C). Qed.
Print Assumptions C28_principal_to_benchmark.

(* two defects of the principal set *)
Theorem C28_refuted_principal_to_feedback_never_works : forall btm s h d, nth_error h (ps_ref s) = Some d -> ps_class s = CMoore2019 ->
  forall h' s', to_parameterization btm s "Meijaard2007WithFeedback" h <> (h', Ok s').
Proof. exact conv_principal_feedback_fails. Qed.
Print Assumptions C28_refuted_principal_to_feedback_never_works.

Theorem C28_refuted_valid_principal_set_without_y_cannot_convert : forall btm s h d k, nth_error h (ps_ref s) = Some d -> ps_class s = CMoore2019 ->
  In k ["yD"; "yP"; "yH"] -> dget d k = None ->
  forall h' s', to_parameterization btm s "Meijaard2007" h <> (h', Ok s').
Proof. exact conv_principal_needs_y. Qed.
Print Assumptions C28_refuted_valid_principal_set_without_y_cannot_convert.

Example C28_y_not_required : ~ In "yD" (required CMoore2019) /\ ~ In "yP" (required CMoore2019) /\ ~ In "yH" (required CMoore2019).
Proof. repeat split; rewrite <- required_iff; cbn [par_strings In]; intuition discriminate. Qed.
Example C28_satisfiable : exists d', to_parameterization (fun _ => Err RuntimeError) bike_set "Meijaard2007WithFeedback" [nums bike] =
  ([nums bike; d'], Ok (mkset CMeijaard2007WithFeedback 1 (Some true))).
Proof.
  destruct (C28_to_feedback_adds_zero_gains (fun _ => Err RuntimeError) bike_set [nums bike] (nums bike) eq_refl eq_refl (proj2 (complete_required _ _) bike_complete)) as (d' & E & _).
  exists d'. exact E.
Qed.

(* ---------------- C29 ---------------- *)
Theorem C29_one_body : forall c p b, has p (required c) -> In b (body_labels c) ->
  mass_center_of c p [b] = Ok (snd (body_of c (pv p) b)).
Proof. intros c p b HP. apply has_required in HP. exact (mass_center_one c p b HP). Qed.
Print Assumptions C29_one_body.

Theorem C29_collection_is_the_mass_centre : forall c p bodies r, has p (required c) -> (forall b, In b bodies -> In b (body_labels c)) ->
  (2 <= length bodies)%nat ->
  (mass_center_of c p bodies = Ok r <->
   mass_of (map (body_of c (pv p)) bodies) <> 0 /\ is_com (map (body_of c (pv p)) bodies) r).
Proof. intros c p bodies r HP. apply has_required in HP. exact (mass_center_many c p bodies r HP). Qed.
Print Assumptions C29_collection_is_the_mass_centre.

Theorem C29_order_does_not_matter : forall c p l1 l2, has p (required c) -> (forall b, In b l1 -> In b (body_labels c)) ->
  Permutation l1 l2 -> mass_center_of c p l1 = mass_center_of c p l2.
Proof. intros c p l1 l2 HP. apply has_required in HP. exact (mass_center_perm c p l1 l2 HP). Qed.
Print Assumptions C29_order_does_not_matter.

Theorem C29_unknown_body_is_rejected : forall c p b bodies, has p (required c) -> (2 <= length bodies)%nat -> In b bodies ->
  ~ In ("m" ++ b) (dkeys p) -> forall r, mass_center_of c p bodies <> Ok r.
Proof. intros c p b bodies HP. apply has_required in HP. exact (mass_center_unknown c p b bodies HP). Qed.
Print Assumptions C29_unknown_body_is_rejected.

Theorem C29_whole_bicycle_matches_canonical : forall p c, snd (benchmark_par_to_canonical p) = Ok c -> has p (required CMeijaard2007) ->
  exists xT zT, mass_center_of CMeijaard2007 p ["R"; "B"; "H"; "F"] = Ok (mk3 xT 0 zT) /\
    let mT := pv p "mR" + pv p "mB" + pv p "mH" + pv p "mF" in
    m11 (cK0 c) = mT * zT /\
    xT * mT = pv p "xB" * pv p "mB" + pv p "xH" * pv p "mH" + pv p "w" * pv p "mF" /\
    zT * mT = - pv p "rR" * pv p "mR" + pv p "zB" * pv p "mB" + pv p "zH" * pv p "mH" - pv p "rF" * pv p "mF".
Proof. intros p c E HP. apply has_required in HP. exact (whole_center p c E HP). Qed.
Print Assumptions C29_whole_bicycle_matches_canonical.

Theorem C29_inertia_tensor : forall p b, has p (required CMeijaard2007) -> In b ["B"; "F"; "H"; "R"] ->
  let Ixx := pv p ("I" ++ b ++ "xx") in let Iyy := pv p ("I" ++ b ++ "yy") in
  let Ixz := if smem b ["F"; "R"] then 0 else pv p ("I" ++ b ++ "xz") in
  let Izz := if smem b ["F"; "R"] then Ixx else pv p ("I" ++ b ++ "zz") in
  form_inertia_tensor p b = Ok (mk33 (mk3 Ixx 0 Ixz) (mk3 0 Iyy 0) (mk3 Ixz 0 Izz)).
Proof. intros p b HP. apply has_required in HP. exact (inertia_tensor_eval p b HP). Qed.
Print Assumptions C29_inertia_tensor.

Example C29_satisfiable : has bike (required CMeijaard2007) /\
  mass_of (map (body_of CMeijaard2007 (pv bike)) ["B"; "H"]) <> 0.
Proof.
  split.
  - apply has_required. intros k Hk. cbn [par_strings In] in Hk. cbn [bike dkeys map fst In].
    repeat (destruct Hk as [<-|Hk]; [tauto|]). contradiction.
  - cbn. lra.
Qed.

(* ---------------- C30 ---------------- *)
Theorem C30_no_call_changes_existing_parameters : forall s c h d, nth_error h (ps_ref s) = Some d -> NoDup (dkeys (call_overrides c)) ->
  preserved h (heap_after s c h).
Proof.
  intros s [ov|ov|ov] h d E N; cbn [heap_after call_overrides] in *.
  - eapply canonical_preserves; eauto.
  - eapply ss_preserves; eauto.
  - eapply fb_preserves; eauto.
Qed.
Print Assumptions C30_no_call_changes_existing_parameters.

Theorem C30_no_history_changes_existing_parameters : forall s cs h d, nth_error h (ps_ref s) = Some d ->
  (forall c, In c cs -> NoDup (dkeys (call_overrides c))) -> preserved h (heap_after_all s cs h).
Proof.
  intros s cs. induction cs as [|c cs IH]; intros h d E N; [apply preserved_refl|]. cbn [heap_after_all fold_left].
  assert (P : preserved h (heap_after s c h)) by (eapply C30_no_call_changes_existing_parameters; [exact E | apply N; left; reflexivity]).
  eapply preserved_trans; [exact P|]. apply (IH _ d); [eapply preserved_nth; eauto|]. intros c0 H0. apply N. right; exact H0.
Qed.
Print Assumptions C30_no_history_changes_existing_parameters.

(* so a call returns after any history what it returns at first *)
Theorem C30_results_do_not_depend_on_history : forall s cs h d ov, nth_error h (ps_ref s) = Some d ->
  (forall c, In c cs -> NoDup (dkeys (call_overrides c))) -> NoDup (dkeys ov) ->
  snd (form_reduced_canonical_matrices s ov (heap_after_all s cs h)) = snd (form_reduced_canonical_matrices s ov h) /\
  snd (form_state_space_matrices s ov (heap_after_all s cs h)) = snd (form_state_space_matrices s ov h) /\
  snd (form_state_space_matrices_fb s ov (heap_after_all s cs h)) = snd (form_state_space_matrices_fb s ov h).
Proof.
  intros s cs h d ov E N NO.
  assert (E2 : nth_error (heap_after_all s cs h) (ps_ref s) = Some d).
  { eapply preserved_nth; [|exact E]. eapply C30_no_history_changes_existing_parameters; eauto. }
  split; [|split]; [eapply canonical_det|eapply ss_det|eapply fb_det]; eauto.
Qed.
Print Assumptions C30_results_do_not_depend_on_history.

Theorem C30_unknown_names_are_ignored : forall s ov h d, nth_error h (ps_ref s) = Some d ->
  form_reduced_canonical_matrices s (known d ov) h = form_reduced_canonical_matrices s ov h /\
  form_state_space_matrices s (known d ov) h = form_state_space_matrices s ov h /\
  form_state_space_matrices_fb s (known d ov) h = form_state_space_matrices_fb s ov h.
Proof. intros s ov h d E. repeat split; [apply canonical_known|apply ss_known|apply fb_known]; exact E. Qed.
Print Assumptions C30_unknown_names_are_ignored.

Theorem C30_different_lengths_are_ValueError : forall s ov h d, nth_error h (ps_ref s) = Some d -> NoDup (dkeys ov) ->
  ~ (exists n, same_lengths d ov n) ->
  snd (form_reduced_canonical_matrices s ov h) = Err (ValueError "All array valued parameters must have the same length.") /\
  snd (form_state_space_matrices s ov h) = Err (ValueError "All array valued parameters must have the same length.") /\
  snd (form_state_space_matrices_fb s ov h) = Err (ValueError "All array valued parameters must have the same length.").
Proof.
  intros s ov h d E N HB. rewrite <- lens_agree_iff in HB.
  destruct (form_canonical_bad s ov h d E N HB) as (h1 & _ & ->). destruct (form_ss_bad s ov h d E N HB) as (h2 & _ & ->).
  destruct (form_fb_bad s ov h d E N HB) as (h3 & _ & ->). auto.
Qed.
Print Assumptions C30_different_lengths_are_ValueError.

Theorem C30_equal_lengths_are_never_ValueError : forall s ov h d n msg, nth_error h (ps_ref s) = Some d -> NoDup (dkeys ov) ->
  same_lengths d ov n ->
  snd (form_reduced_canonical_matrices s ov h) <> Err (ValueError msg) /\
  snd (form_state_space_matrices s ov h) <> Err (ValueError msg) /\
  snd (form_state_space_matrices_fb s ov h) <> Err (ValueError msg).
Proof.
  intros s ov h d n msg E N HS. split; [|split].
  - exact (nvH_canonical s ov h d n E N HS msg).
  - exact (nvH_ss s ov h d n E N HS msg).
  - exact (nvH_fb s ov h d n E N HS msg).
Qed.
Print Assumptions C30_equal_lengths_are_never_ValueError.

Theorem C30_scalar_overrides_act_like_a_set_with_those_values : forall s s2 ov h d,
  nth_error h (ps_ref s) = Some d -> NoDup (dkeys ov) -> all_scalar ov -> nth_error h (ps_ref s2) = Some (with_scalars d ov) ->
  snd (form_reduced_canonical_matrices s ov h) = snd (form_reduced_canonical_matrices s2 [] h) /\
  forall ab,
  (snd (form_state_space_matrices s ov h) = Ok (Single ab) <-> snd (form_state_space_matrices s2 [] h) = Ok (Single ab)) /\
  (snd (form_state_space_matrices_fb s ov h) = Ok (Single ab) <-> snd (form_state_space_matrices_fb s2 [] h) = Ok (Single ab)).
Proof.
  intros s s2 ov h d E N HA E2. split; [eapply scalars_as_set_canonical; eauto|]. intros ab.
  split; [eapply scalars_as_set_ss; eauto | eapply scalars_as_set_fb; eauto].
Qed.
Print Assumptions C30_scalar_overrides_act_like_a_set_with_those_values.

Example C30_satisfiable : nth_error [nums bike] (ps_ref bike_set) = Some (nums bike) /\
  ~ (exists n, same_lengths (nums bike) [("v", OArray [1; 2]); ("nope", OArray [1]); ("w", OArray [1; 1; 1])] n) /\
  known (nums bike) [("v", OArray [1; 2]); ("nope", OArray [1])] = [("v", OArray [1; 2])].
Proof.
  split; [reflexivity|]. split; [|reflexivity]. intros [n Hn].
  assert (A : 2%nat = n) by (apply Hn; cbn; auto). assert (B : 3%nat = n) by (apply Hn; cbn; auto). congruence.
Qed.

(* ---------------- C31 ---------------- *)
Theorem C31_canonical_matrices_pointwise : forall s ov h d n, nth_error h (ps_ref s) = Some d -> NoDup (dkeys ov) -> same_lengths d ov n ->
  (exists k, In k structural_parameters /\ array_given d ov k) ->
  pointwise (snd (form_reduced_canonical_matrices s ov h)) (fun i => snd (form_reduced_canonical_matrices s (at_row i ov) h)) n.
Proof. intros s ov h d n E N HS HK. rewrite ex_deps in HK. exact (canonical_pointwise s ov h d n E N HS HK). Qed.
Print Assumptions C31_canonical_matrices_pointwise.

(* arrays for other parameters leave a single result, the same for every element *)
Theorem C31_canonical_matrices_constant : forall s ov h d n, nth_error h (ps_ref s) = Some d -> NoDup (dkeys ov) -> same_lengths d ov n ->
  ~ (exists k, In k structural_parameters /\ array_given d ov k) ->
  forall i, snd (form_reduced_canonical_matrices s ov h) = snd (form_reduced_canonical_matrices s (at_row i ov) h).
Proof. intros s ov h d n E N HS HK. rewrite ex_deps in HK. exact (canonical_constant s ov h d n E N HS HK). Qed.
Print Assumptions C31_canonical_matrices_constant.

Theorem C31_state_space_pointwise : forall s ov h d n, nth_error h (ps_ref s) = Some d -> NoDup (dkeys ov) -> same_lengths d ov n ->
  (exists k, In k benchmark_parameters /\ array_given d ov k) ->
  pointwise (snd (form_state_space_matrices s ov h)) (fun i => snd (form_state_space_matrices s (at_row i ov) h)) n.
Proof. intros s ov h d n E N HS HK. rewrite ex_vg_deps in HK. exact (ss_pointwise s ov h d n E N HS HK). Qed.
Print Assumptions C31_state_space_pointwise.

Theorem C31_state_space_constant : forall s ov h d n, nth_error h (ps_ref s) = Some d -> NoDup (dkeys ov) -> same_lengths d ov n ->
  ~ (exists k, In k benchmark_parameters /\ array_given d ov k) ->
  forall i, (forall l, snd (form_state_space_matrices s ov h) <> Ok (Stack l)) /\
    forall ab, snd (form_state_space_matrices s ov h) = Ok (Single ab) <-> snd (form_state_space_matrices s (at_row i ov) h) = Ok (Single ab).
Proof. intros s ov h d n E N HS HK. rewrite ex_vg_deps in HK. exact (ss_constant s ov h d n E N HS HK). Qed.
Print Assumptions C31_state_space_constant.

Theorem C31_feedback_pointwise : forall s ov h d n, nth_error h (ps_ref s) = Some d -> NoDup (dkeys ov) -> same_lengths d ov n ->
  (exists k, array_given d ov k) ->
  pointwise (snd (form_state_space_matrices_fb s ov h)) (fun i => snd (form_state_space_matrices_fb s (at_row i ov) h)) n.
Proof. exact fb_pointwise. Qed.
Print Assumptions C31_feedback_pointwise.

Example C31_satisfiable : let ov := [("v", OArray [1; 2; 3]); ("mB", OArray [80; 85; 90]); ("w", OScalar 1)] in
  NoDup (dkeys ov) /\ same_lengths (nums bike) ov 3 /\ (exists k, In k structural_parameters /\ array_given (nums bike) ov k) /\
  at_row 1 ov = [("v", OScalar 2); ("mB", OScalar 85); ("w", OScalar 1)].
Proof.
  cbn zeta. split; [repeat constructor; simpl; intuition discriminate|]. split.
  - intros m Hm. cbn in Hm. intuition.
  - split; [|reflexivity]. exists "mB". split; [apply deps_iff; cbn [canon_deps In]; tauto|]. split; [cbn [nums bike map dkeys fst In]; tauto|]. eexists; reflexivity.
Qed.

(* ---------------- C32 ---------------- *)
Theorem C32_model_equals_standalone_functions : forall s h d ab, nth_error h (ps_ref s) = Some d ->
  (snd (form_state_space_matrices s [] h) = Ok (Single ab) <->
   exists c v g, snd (benchmark_par_to_canonical (floats d)) = Ok c /\
     dget d "v" = Some (VNum v) /\ dget d "g" = Some (VNum g) /\ ab_matrix (cM c) (cC1 c) (cK0 c) (cK2 c) v g = Ok ab).
Proof. exact ss_no_overrides. Qed.
Print Assumptions C32_model_equals_standalone_functions.

Theorem C32_never_stacked : forall s h d l, nth_error h (ps_ref s) = Some d -> snd (form_state_space_matrices s [] h) <> Ok (Stack l).
Proof. exact ss_no_stack. Qed.
Print Assumptions C32_never_stacked.

Theorem C32_canonical_equals_standalone : forall s h d, nth_error h (ps_ref s) = Some d ->
  snd (form_reduced_canonical_matrices s [] h) =
  match snd (benchmark_par_to_canonical (floats d)) with Ok c => Ok (Single c) | Err e => Err e end.
Proof. intros s h d E. rewrite (canonical_scalar s [] h d E (NoDup_nil _) empty_scalar), rowd_nil. reflexivity. Qed.
Print Assumptions C32_canonical_equals_standalone.

Example C32_satisfiable : exists c, snd (form_reduced_canonical_matrices bike_set [] [nums bike]) = Ok (Single c).
Proof.
  rewrite (C32_canonical_equals_standalone bike_set [nums bike] (nums bike) eq_refl).
  assert (X : exists p' c, benchmark_par_to_canonical (floats (nums bike)) = (p', Ok c)).
  { apply canonical_success. split.
    - intros k Hk. unfold canon_keys in Hk. cbn [In dkeys map bike nums floats fst snd] in *.
      repeat (destruct Hk as [Hk|Hk]; [subst k; tauto|]). contradiction.
    - unfold canon_nonzero, pv, bike, nums. cbn [floats map fst snd dget String.eqb Ascii.eqb Bool.eqb]. repeat split; lra. }
  destruct X as (p' & c & ->). eexists; reflexivity.
Qed.

(* ---------------- C33 ---------------- *)
Theorem C33_feedback_is_A_minus_BK : forall s h d A B, nth_error h (ps_ref s) = Some d -> complete feedback_gain_names d ->
  (snd (form_state_space_matrices_fb s [] h) = Ok (Single (A, B)) <->
   exists A0, snd (form_state_space_matrices s [] h) = Ok (Single (A0, B)) /\ A = msub A0 (mdot B (gain_matrix d))).
Proof.
  intros s h d A B E C. apply (fb_closed s h d A B E). intros k Hk. apply C, gain_names_iff, Hk.
Qed.
Print Assumptions C33_feedback_is_A_minus_BK.

Theorem C33_entries : forall s h d A0 A B, nth_error h (ps_ref s) = Some d -> complete feedback_gain_names d ->
  snd (form_state_space_matrices s [] h) = Ok (Single (A0, B)) -> snd (form_state_space_matrices_fb s [] h) = Ok (Single (A, B)) ->
  forall i j, (i < 4)%nat -> (j < 4)%nat ->
  ent A i j = ent A0 i j - (ent B i 0 * ent (gain_matrix d) 0 j + ent B i 1 * ent (gain_matrix d) 1 j).
Proof.
  intros s h d A0 A B E CF HO HF i j Hi Hj.
  assert (C : complete gain_names d) by (intros k Hk; apply CF, gain_names_iff, Hk). apply (fb_closed s h d A B E C) in HF. destruct HF as (A1 & HO1 & ->).
  rewrite HO in HO1. injection HO1 as <-. rewrite (ss_scalar s [] h d _ E (NoDup_nil _) empty_scalar), rowd_nil in HO.
  eapply closed_entries; eauto; try reflexivity. repeat constructor.
Qed.
Print Assumptions C33_entries.

Theorem C33_zero_gains_open_loop : forall s h d, nth_error h (ps_ref s) = Some d -> (forall k, In k feedback_gain_names -> dget d k = Some (VNum 0)) ->
  forall ab, snd (form_state_space_matrices_fb s [] h) = Ok (Single ab) <-> snd (form_state_space_matrices s [] h) = Ok (Single ab).
Proof. intros s h d E G. apply (fb_zero s h d E). intros k Hk. apply G, gain_names_iff, Hk. Qed.
Print Assumptions C33_zero_gains_open_loop.

Theorem C33_feedback_model_of_a_plain_set_is_open_loop : forall btm s h d h' s', nth_error h (ps_ref s) = Some d -> ps_class s = CMeijaard2007 ->
  complete (required CMeijaard2007) d ->
  to_parameterization btm s "Meijaard2007WithFeedback" h = (h', Ok s') ->
  forall ab, snd (form_state_space_matrices_fb s' [] h') = Ok (Single ab) <-> snd (form_state_space_matrices s [] h) = Ok (Single ab).
Proof. intros btm s h d h' s' E Hc C. apply complete_required in C. exact (fb_of_open btm s h d h' s' E Hc C). Qed.
Print Assumptions C33_feedback_model_of_a_plain_set_is_open_loop.

Example C33_satisfiable : complete feedback_gain_names (with_gains (nums bike)).
Proof. intros k Hk. apply gain_names_iff in Hk. exists 0. unfold with_gains. rewrite dget_fold_set. apply smem_spec in Hk. rewrite Hk. reflexivity. Qed.
