(* TLean.v -- C69: the generated equations of the rider lean model *)
From Coq Require Import Lra Lia ZArith QArith Qreals.
From Verif Require Import Base MString MHeap MBicycle MVec MInertia MSets MModels MModels2 SModels SModels2 PBase PModels6 MLean MLeanProg MLean2 SLean PLean PLean2 PLean3 PLean4 PLean5 TModels2.
Local Open Scope string_scope.
Local Open Scope R_scope.

(* eval_linear reads no element of its work arrays, and returns none, that it has not
   assigned: what numpy.empty leaves in memory does not matter *)
Theorem C69_no_uninitialised_memory : forall pitch mem1 mem2 e, lean_equations pitch mem1 lean_program e = lean_equations pitch mem2 lean_program e.
Proof. intros. apply body_ext. reflexivity. Qed.
Print Assumptions C69_no_uninitialised_memory.

(* what C56 to C59 and C68 ask of the equations holds of the generated ones *)
Theorem C69_generated_equations_qualify : forall pitch mem, linear_equations (lean_body pitch mem).
Proof. exact lean_body_linear. Qed.
Print Assumptions C69_generated_equations_qualify.

(* ---- dimensions ---- *)
(* at any state: a change of units changes every entry by the units of its row and column *)
Theorem C69_equations_are_dimensionally_homogeneous : forall u pitch mem mem' e e', positive_units u -> same_shape_same_pitch pitch ->
  (forall k, In k equation_symbols -> e' k = unit_of u k * e k) ->
  match lean_body pitch mem e, lean_body pitch mem' e' with
  | Ok (A, B), Ok (A', B') =>
      entries_times (fun r c => unit_of u r / (u_time u * unit_of u c)) full_states full_states A A' /\
      entries_times (fun r c => unit_of u r / (u_time u * unit_of u c)) full_states full_inputs B B'
  | Err er, Err er' => er = er'
  | _, _ => False
  end.
Proof. intros u pitch mem mem' e e' PU HP HE. apply (units_body u pitch mem mem' e e' PU); [|exact HP]. intros k Hk. apply HE, symbols_names, Hk. Qed.
Print Assumptions C69_equations_are_dimensionally_homogeneous.

Theorem C69_matrices_in_other_units : forall u pitch mem mem' s ov h d s' ov' h' d', positive_units u -> same_shape_same_pitch pitch ->
  rl_fit s ov h d -> rl_fit s' ov' h' d' -> converted u (with_scalars d ov) (with_scalars d' ov') ->
  forall A B, rl_matrices pitch mem s ov h = Ok (Single (A, B)) ->
  exists A' B', rl_matrices pitch mem' s' ov' h' = Ok (Single (A', B')) /\
    entries_times (fun r c => unit_of u r / (u_time u * unit_of u c)) lean_states lean_states A A' /\
    entries_times (fun r c => unit_of u r / (u_time u * unit_of u c)) lean_states lean_inputs B B'.
Proof.
  intros u pitch mem mem' s ov h d s' ov' h' d' PU HP F F' HC A B E. pose proof F as (F1 & F2 & F3 & F4).
  destruct (rl_no_point pitch (lean_body pitch mem) s ov h d F1 F2 F3 F4 _ E) as (e & OP).
  pose proof (op_units pitch u _ _ e PU HP HC OP) as OP'.
  refine (proj1 (two_sets pitch mem mem' _ s ov h d s' ov' h' d' e _ F F' OP OP' _) A B E).
  apply units_body; [exact PU|reflexivity|exact HP].
Qed.
Print Assumptions C69_matrices_in_other_units.

Lemma unit_nz u k : positive_units u -> unit_of u k <> 0.
Proof. intros PU. pose proof (act3_pos u PU (dimension k)). change (unit_of u k) with (act3 u (dimension k)). lra. Qed.
(* so the modes are the same motions, the eigenvalues being rates *)
Theorem C69_modes_in_other_units : forall u pitch mem mem' s ov h d s' ov' h' d' A B, positive_units u -> same_shape_same_pitch pitch ->
  rl_fit s ov h d -> rl_fit s' ov' h' d' -> converted u (with_scalars d ov) (with_scalars d' ov') ->
  rl_matrices pitch mem s ov h = Ok (Single (A, B)) ->
  exists A' B', rl_matrices pitch mem' s' ov' h' = Ok (Single (A', B')) /\
    forall lam V V' j, right_eigenpair 12 A lam V j -> rows_times (unit_of u) lean_states V V' -> right_eigenpair 12 A' (cscale (/ u_time u) lam) V' j.
Proof.
  intros u pitch mem mem' s ov h d s' ov' h' d' A B PU HP F F' HC E.
  destruct (C69_matrices_in_other_units u pitch mem mem' s ov h d s' ov' h' d' PU HP F F' HC A B E) as (A' & B' & E' & HA & _).
  exists A', B'. split; [exact E'|]. intros lam V V' j HE HV.
  apply (mode_times (unit_of u) (u_time u) lean_states A A' V V' lam j); try assumption.
  - apply nodup_lean.
  - destruct PU as (_ & _ & P). lra.
  - intros k. apply unit_nz, PU.
Qed.
Print Assumptions C69_modes_in_other_units.

(* ---- mirror image ---- *)
Theorem C69_mirror_image : forall pitch mem mem' e e', mirrored_pitch pitch -> (forall k, In k equation_symbols -> e' k = mirror k * e k) ->
  match lean_body pitch mem e, lean_body pitch mem' e' with
  | Ok (A, B), Ok (A', B') =>
      entries_times (fun r c => mirror r * mirror c) full_states full_states A A' /\
      entries_times (fun r c => mirror r * mirror c) full_states full_inputs B B'
  | Err er, Err er' => er = er'
  | _, _ => False
  end.
Proof.
  intros pitch mem mem' e e' HP HE.
  assert (H : bodies_times (fun r c => 1 * mirror r * mirror c) (fun r c => 1 * mirror r * mirror c) (lean_body pitch mem e) (lean_body pitch mem' e')).
  { apply (signs_body lateral false 1); [exact mirror_checked|reflexivity|intros k Hk; apply HE, symbols_names, Hk|].
    rewrite !HE by (apply smem_spec; reflexivity). unfold mirror. cbn [lateral smem existsb String.eqb Ascii.eqb Bool.eqb orb].
    rewrite !Rmult_1_l. replace (-1 * e "q4") with (- e "q4") by ring. replace (-1 * e "q7") with (- e "q7") by ring. apply HP. }
  unfold bodies_times in H. destruct (lean_body pitch mem e) as [[A B]|], (lean_body pitch mem' e') as [[A' B']|]; try exact H.
  destruct H as ((H1 & H2 & H3) & (H4 & H5 & H6)). repeat split; try apply H1; try apply H2; try apply H4; try apply H5; intros r c x EN.
  - replace (mirror r * mirror c * x) with (1 * mirror r * mirror c * x) by ring. apply H3, EN.
  - replace (mirror r * mirror c * x) with (1 * mirror r * mirror c * x) by ring. apply H6, EN.
Qed.
Print Assumptions C69_mirror_image.

(* at the upright operating point the lateral motion (lean, steer, yaw, lateral position,
   rider lean) and the motion in the plane (forward position, wheel rotations) are decoupled *)
Theorem C69_lateral_motion_decouples : forall pitch mem s ov h d A B, rl_fit s ov h d -> rl_matrices pitch mem s ov h = Ok (Single (A, B)) ->
  (forall r c x, entry lean_states lean_states A r c x -> mirror r <> mirror c -> x = 0) /\
  (forall r c x, entry lean_states lean_inputs B r c x -> mirror r <> mirror c -> x = 0).
Proof.
  intros pitch mem s ov h d A B F E. pose proof F as (F1 & F2 & F3 & F4).
  destruct (rl_no_point pitch (lean_body pitch mem) s ov h d F1 F2 F3 F4 _ E) as (e & OP).
  assert (HB : bodies_times (fun r c => 1 * mirror r * mirror c) (fun r c => 1 * mirror r * mirror c) (lean_body pitch mem e) (lean_body pitch mem e)).
  { apply (signs_body lateral false 1); [exact mirror_checked|reflexivity| |reflexivity]. apply (op_mirror pitch _ e OP). }
  destruct (proj1 (two_sets pitch mem mem _ s ov h d s ov h d e e F F OP OP HB) A B E) as (A' & B' & E' & (_ & _ & HA) & (_ & _ & HC)).
  rewrite E in E'. injection E' as <- <-. destruct nodup_lean as (N1 & N2).
  assert (K : forall r c x, 1 * mirror r * mirror c * x = x -> mirror r <> mirror c -> x = 0).
  { intros r c x. unfold mirror. destruct (smem r lateral), (smem c lateral); intros; lra. }
  split; intros r c x EN NE; apply (K r c x); try exact NE.
  - eapply entry_fun; [exact N1|exact N1|apply HA, EN|exact EN].
  - eapply entry_fun; [exact N1|exact N2|apply HC, EN|exact EN].
Qed.
Print Assumptions C69_lateral_motion_decouples.

(* ---- reversal of time ---- *)
Theorem C69_time_reversal : forall pitch mem mem' e e', (forall k, In k equation_symbols -> e' k = reversal k * e k) ->
  match lean_body pitch mem e, lean_body pitch mem' e' with
  | Ok (A, B), Ok (A', B') =>
      entries_times (fun r c => - (reversal r * reversal c)) full_states full_states A A' /\
      entries_times (fun r c => - (reversal r * reversal c)) full_states full_inputs B B'
  | Err er, Err er' => er = er'
  | _, _ => False
  end.
Proof.
  intros pitch mem mem' e e' HE.
  assert (H : bodies_times (fun r c => -1 * reversal r * reversal c) (fun r c => -1 * reversal r * reversal c) (lean_body pitch mem e) (lean_body pitch mem' e')).
  { apply (signs_body reversed true (-1)); [exact reversal_checked|reflexivity|intros k Hk; apply HE, symbols_names, Hk|].
    rewrite !HE by (apply smem_spec; reflexivity). unfold reversal. cbn [reversed smem existsb String.eqb Ascii.eqb Bool.eqb orb].
    rewrite !Rmult_1_l. reflexivity. }
  unfold bodies_times in H. destruct (lean_body pitch mem e) as [[A B]|], (lean_body pitch mem' e') as [[A' B']|]; try exact H.
  destruct H as ((H1 & H2 & H3) & (H4 & H5 & H6)). repeat split; try apply H1; try apply H2; try apply H4; try apply H5; intros r c x EN.
  - replace (- (reversal r * reversal c) * x) with (-1 * reversal r * reversal c * x) by ring. apply H3, EN.
  - replace (- (reversal r * reversal c) * x) with (-1 * reversal r * reversal c * x) by ring. apply H6, EN.
Qed.
Print Assumptions C69_time_reversal.

(* riding backwards with the rider's damping reversed: the same modes run backwards *)
Theorem C69_modes_of_riding_backwards : forall pitch mem mem' s ov h d s' ov' h' d' A B,
  rl_fit s ov h d -> rl_fit s' ov' h' d' -> backwards (with_scalars d ov) (with_scalars d' ov') ->
  rl_matrices pitch mem s ov h = Ok (Single (A, B)) ->
  exists A' B', rl_matrices pitch mem' s' ov' h' = Ok (Single (A', B')) /\
    entries_times (fun r c => - (reversal r * reversal c)) lean_states lean_states A A' /\
    entries_times (fun r c => - (reversal r * reversal c)) lean_states lean_inputs B B' /\
    forall lam V V' j, right_eigenpair 12 A lam V j -> rows_times reversal lean_states V V' -> right_eigenpair 12 A' (cscale (-1) lam) V' j.
Proof.
  intros pitch mem mem' s ov h d s' ov' h' d' A B F F' HC E. pose proof F as (F1 & F2 & F3 & F4).
  destruct (rl_no_point pitch (lean_body pitch mem) s ov h d F1 F2 F3 F4 _ E) as (e & OP).
  pose proof (op_backwards pitch _ _ e HC OP) as OP'.
  assert (HB : bodies_times (fun r c => - (reversal r * reversal c)) (fun r c => - (reversal r * reversal c)) (lean_body pitch mem e) (lean_body pitch mem' (fun k => reversal k * e k))).
  { apply (C69_time_reversal pitch mem mem' e). reflexivity. }
  destruct (proj1 (two_sets pitch mem mem' _ s ov h d s' ov' h' d' e _ F F' OP OP' HB) A B E) as (A' & B' & E' & HA & HA').
  exists A', B'. split; [exact E'|]. split; [exact HA|]. split; [exact HA'|]. intros lam V V' j HE HV.
  replace (-1) with (/ -1) by field.
  apply (mode_times reversal (-1) lean_states A A' V V' lam j); try assumption.
  - apply nodup_lean.
  - lra.
  - intros k. unfold reversal. destruct (smem k reversed); lra.
  - destruct HA as (S1 & S2 & HA). split; [exact S1|]. split; [exact S2|]. intros r c x EN.
    replace (reversal r / (-1 * reversal c) * x) with (- (reversal r * reversal c) * x); [apply HA, EN|].
    unfold reversal. destruct (smem r reversed), (smem c reversed); field.
Qed.
Print Assumptions C69_modes_of_riding_backwards.

(* ---- the rows of the coordinates ---- *)
(* lean, rear wheel, steer and rider lean angle grow at their rates; torques act on rates
   only; where the bicycle is does not matter *)
Theorem C69_rates_integrate : forall pitch mem s ov h d A B, rl_fit s ov h d -> rl_matrices pitch mem s ov h = Ok (Single (A, B)) ->
  (forall r u, In (r, u) [("q4", "u4"); ("q6", "u6"); ("q7", "u7"); ("q9", "u9")] ->
     forall c x, entry lean_states lean_states A r c x -> x = if String.eqb c u then 1 else 0) /\
  (forall r c x, entry lean_states lean_states A r c x -> In c ["q1"; "q2"] -> x = 0) /\
  (forall r c x, entry lean_states lean_inputs B r c x -> ~ In r ["u4"; "u6"; "u7"; "u9"] -> x = 0).
Proof.
  intros pitch mem s ov h d A B F E. pose proof F as (F1 & F2 & F3 & F4).
  destruct (rl_no_point pitch (lean_body pitch mem) s ov h d F1 F2 F3 F4 _ E) as (e & OP).
  destruct (rl_named pitch (lean_body pitch mem) s ov h d e (lean_body_linear _ _) F1 F2 F3 F4 OP) as (A1 & A2). unfold rl_matrices in E.
  destruct (lean_body pitch mem e) as [[M N]|er] eqn:EB; [|rewrite (A2 _ eq_refl) in E; discriminate].
  destruct (A1 _ _ eq_refl) as (A' & B' & E' & (SA & RA) & (SB & RB)). rewrite E in E'. injection E' as <- <-.
  destruct (body_numbers _ _ _ _ _ EB) as (HR & HZ & HN).
  assert (EA : forall r c x, entry lean_states lean_states A r c x -> exists i j, (i < 13)%nat /\ (j < 13)%nat /\ nth_error full_states i = Some r /\ nth_error full_states j = Some c /\ x = ent M i j).
  { intros r c x EN. destruct (entry_in _ _ _ _ _ _ EN) as (Ir & Ic). apply RA in EN; [|assumption..]. destruct EN as (i & j & row & Q1 & Q2 & Q3 & Q4).
    exists i, j. assert (i < length full_states)%nat by (apply nth_error_Some; congruence). assert (j < length full_states)%nat by (apply nth_error_Some; congruence).
    repeat split; try assumption. unfold ent. rewrite (nth_error_nth _ _ [] Q3), (nth_error_nth _ _ 0 Q4). reflexivity. }
  assert (EB' : forall r c x, entry lean_states lean_inputs B r c x -> exists i j, (i < 13)%nat /\ (j < 4)%nat /\ nth_error full_states i = Some r /\ x = ent N i j).
  { intros r c x EN. destruct (entry_in _ _ _ _ _ _ EN) as (Ir & Ic). apply RB in EN; [|assumption..]. destruct EN as (i & j & row & Q1 & Q2 & Q3 & Q4).
    exists i, j. assert (i < length full_states)%nat by (apply nth_error_Some; congruence). assert (j < length full_inputs)%nat by (apply nth_error_Some; congruence).
    repeat split; try assumption. unfold ent. rewrite (nth_error_nth _ _ [] Q3), (nth_error_nth _ _ 0 Q4). reflexivity. }
  split; [|split].
  - intros r u Hru c x EN. destruct (EA _ _ _ EN) as (i & j & Hi & Hj & Nr & Nc & ->).
    assert (HK : exists k, rate_of i = Some k /\ nth_error full_states k = Some u).
    { clear -Hi Nr Hru. do 13 (destruct i as [|i]; [cbn in Nr; injection Nr as <-; cbn in Hru; repeat (destruct Hru as [Hru|Hru]; [try discriminate; injection Hru as <-; eexists; split; reflexivity|]); contradiction|]). lia. }
    destruct HK as (k & RK & NK). rewrite (HR i k j RK Hi Hj).
    destruct (Nat.eqb_spec j k) as [->|NE]; [replace c with u by congruence; rewrite String.eqb_refl; reflexivity|].
    destruct (String.eqb_spec c u) as [->|]; [|reflexivity]. exfalso. apply NE. destruct nodup_full as (ND & _). rewrite NoDup_nth_error in ND. apply ND; [exact Hj|congruence].
  - intros r c x EN Hc. destruct (EA _ _ _ EN) as (i & j & Hi & Hj & Nr & Nc & ->). apply HZ; [exact Hi|].
    clear -Hj Nc Hc. do 2 (destruct j as [|j]; [lia|]). exfalso. do 11 (destruct j as [|j]; [cbn in Nc; injection Nc as <-; cbn in Hc; intuition discriminate|]). lia.
  - intros r c x EN Hr. destruct (EB' _ _ _ EN) as (i & j & Hi & Hj & Nr & ->). apply HN; [|exact Hj].
    clear -Hi Nr Hr. do 9 (destruct i as [|i]; [lia|]). exfalso. apply Hr. do 4 (destruct i as [|i]; [cbn in Nr; injection Nr as <-; cbn; tauto|]). lia.
Qed.
Print Assumptions C69_rates_integrate.

(* ---- a concrete case: all parameters one, speed one ---- *)
Definition ones (k : string) : R := Q2R (ones_point k).
Lemma ones_operating : operating_point level lean_dict ones.
Proof.
  split; [|split; [|split]].
  - intros k Hk. destruct (rlp_v k Hk) as (Hr & _). unfold ones, ones_point. destruct (smem k lean_parameters) eqn:S; [|apply smem_spec in Hk; congruence].
    rewrite RMicromega.Q2R_1. destruct (lean_complete k Hr) as (x & Ex). rewrite Ex. f_equal. f_equal. unfold lean_dict in Ex. clear -Ex. induction rider_lean_parameters as [|a l IH]; cbn in Ex; [discriminate|].
    destruct (String.eqb k a); [congruence|auto].
  - exists 1. split; [reflexivity|]. unfold ones. change (ones_point "rr") with 1%Q. change (ones_point "u6") with (-1)%Q. rewrite RMicromega.Q2R_1.
    change (-1)%Q with (- (1))%Q. rewrite Q2R_opp, RMicromega.Q2R_1. lra.
  - unfold level, ones. change (ones_point "q5") with 0%Q. rewrite RMicromega.Q2R_0. reflexivity.
  - intros k Hk N1 N2. unfold ones. assert (ones_point k = 0%Q) as ->; [|apply RMicromega.Q2R_0].
    assert (H : Forall (fun k => k <> "u6" -> ones_point k = 0%Q) motion_symbols) by (repeat (constructor; [intros; reflexivity || congruence|]); constructor).
    rewrite Forall_forall in H. exact (H k Hk N1).
Qed.
Definition sevens : memory := mkmem (fun _ => 7) (fun _ _ _ => 7).
Lemma level_ones : level (Q2R (ones_point "q4")) (Q2R (ones_point "q7")) (Q2R (ones_point "rf")) (Q2R (ones_point "rr")) (Q2R (ones_point "d1")) (Q2R (ones_point "d2")) (Q2R (ones_point "d3")) = Ok (Q2R 0%Q).
Proof. unfold level. rewrite RMicromega.Q2R_0. reflexivity. Qed.
Lemma ones_body : exists M N, lean_body level sevens ones = Ok (M, N) /\ ent M 9 3 = 27 / 79 /\ ent M 2 11 = -1 / 2 /\ ent N 11 2 = 40 / 79.
Proof.
  destruct ones_ok as (st & E & E1 & E2 & E3).
  destruct (qequations ones_point 0%Q st level sevens E level_ones) as (M & N & EB & HA & HB). exists M, N. split; [exact EB|].
  unfold ent. rewrite (HA 9%nat 3%nat _ ltac:(lia) ltac:(lia) E1), (HA 2%nat 11%nat _ ltac:(lia) ltac:(lia) E2), (HB 11%nat 2%nat _ ltac:(lia) ltac:(lia) E3).
  unfold Q2R. cbn [Qnum Qden]. repeat split; unfold Rdiv; reflexivity.
Qed.
Example C69_case : exists A B, rl_matrices level sevens lean_set [] [lean_dict] = Ok (Single (A, B)) /\
  entry lean_states lean_states A "u4" "q4" (27 / 79) /\ entry lean_states lean_states A "q3" "u7" (-1 / 2) /\ entry lean_states lean_inputs B "u7" "T7" (40 / 79).
Proof.
  destruct ones_body as (M & N & EB & V1 & V2 & V3).
  destruct (rl_named level (lean_body level sevens) lean_set [] [lean_dict] lean_dict ones (lean_body_linear _ _) eq_refl ltac:(constructor) ltac:(intros k v []) lean_complete ones_operating) as (A1 & _).
  destruct (A1 _ _ EB) as (A & B & ER & (SA & RA) & (SB & RB)). exists A, B. split; [exact ER|].
  destruct (body_shape _ _ _ _ _ EB) as (S1 & S2).
  split; [|split].
  - apply RA; [apply smem_spec; reflexivity..|]. rewrite <- V1. apply (entry_ent full_states full_states M 9 3 S1); cbn; lia.
  - apply RA; [apply smem_spec; reflexivity..|]. rewrite <- V2. apply (entry_ent full_states full_states M 2 11 S1); cbn; lia.
  - apply RB; [apply smem_spec; reflexivity..|]. rewrite <- V3. apply (entry_ent full_states full_inputs N 11 2 S2); cbn; lia.
Qed.
(* the same bicycle in centimetres and grams: the premises of the unit theorems hold *)
Definition cgs : units := mkunits 1000 100 1.
Definition cgs_dict : pdict := map (fun k => (k, VNum (unit_of cgs k * 1))) rider_lean_parameters.
Example C69_units_case : positive_units cgs /\ same_shape_same_pitch level /\ mirrored_pitch level /\ rl_fit lean_set [] [lean_dict] lean_dict /\
  rl_fit lean_set [] [cgs_dict] cgs_dict /\ converted cgs (with_scalars lean_dict []) (with_scalars cgs_dict []) /\ unit_of cgs "T4" = 10000000.
Proof.
  split; [unfold positive_units, cgs; cbn [u_mass u_length u_time]; lra|]. split; [intros a b c d0 d1 d2 d3 d4 _; reflexivity|]. split; [intros a b c d0 d1 d2 d3; reflexivity|].
  split; [split; [reflexivity|]; split; [constructor|]; split; [intros k v []|exact lean_complete]|].
  split; [split; [reflexivity|]; split; [constructor|]; split; [intros k v []|]|split].
  - intros k Hk. exists (unit_of cgs k * 1). unfold cgs_dict. cbn [required] in Hk. induction rider_lean_parameters as [|a l IH]; [contradiction|]. cbn [map dget].
    destruct (String.eqb_spec k a) as [->|NE]; [reflexivity|]. apply IH. destruct Hk; [congruence|assumption].
  - intros k x Hk Ex. assert (WS : forall d : pdict, with_scalars d [] = d).
    { intros d. unfold with_scalars. rewrite <- (map_id d) at 2. apply map_ext. intros [k0 v0]. reflexivity. }
    rewrite WS in *. unfold lean_dict, cgs_dict in *. clear Hk. induction rider_lean_parameters as [|a l IH]; [discriminate|]. cbn [map dget] in *.
    destruct (String.eqb_spec k a) as [->|NE]; [injection Ex as <-; reflexivity|]. apply IH, Ex.
  - unfold unit_of, cgs. cbn [dimension smem existsb String.eqb Ascii.eqb Bool.eqb orb u_mass u_length u_time]. cbn [powerRZ]. change (Pos.to_nat 1) with 1%nat. change (Pos.to_nat 2) with 2%nat. field.
Qed.
