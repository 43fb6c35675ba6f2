(* TFloat2.v -- C78: mass centres and trail in double precision arithmetic *)
From Coq Require Import Permutation Lra Lia.
From Verif Require Import Base PBase MVec MInertia MBicycle MFloat MFloat2 SFloat SFloat2 PFloat PFloat2 PFloat3 PFloat6.
Local Open Scope string_scope.
Local Open Scope R_scope.

Lemma total_com_ok coordinates masses mT cT : total_com coordinates masses = Ok (mT, cT) ->
  (forall row, In row coordinates -> length row = length masses) /\ mT = rsum masses /\
  Forall2 (fun row c => rsum masses <> 0 /\ c = rsum (map (fun p => fst p * snd p) (combine masses row)) / rsum masses) coordinates cT.
Proof.
  unfold total_com. destruct (forallb _ _) eqn:F; [|discriminate]. cbv zeta. intros H. apply bind_ok in H. destruct H as (cs & M & E). injection E as <- <-.
  rewrite forallb_forall in F. split; [intros row K; apply Nat.eqb_eq, F, K|]. split; [reflexivity|].
  apply mapM_ok in M. clear F. revert cs M. induction coordinates as [|row rows IH]; intros cs M; cbn [map] in M; inversion M as [|? c ? cs' E M']; subst; constructor; [|apply IH; exact M'].
  unfold rdiv in E. destruct (Req_EM_T (rsum masses) 0) as [|N]; [discriminate|]. injection E as <-. auto.
Qed.
Lemma ftotal_com_eq a s s1 coordinates masses : (forall row, In row coordinates -> length row = length masses) -> s masses <> 0 ->
  ftotal_com a s s1 coordinates masses = Ok (s masses, map (fun row => fdivc a (s1 (map (fun p => fmul a (fst p) (snd p)) (combine masses row))) (s masses)) coordinates).
Proof.
  intros L N. unfold ftotal_com. assert (F : forallb (fun row => Nat.eqb (length row) (length masses)) coordinates = true) by (apply forallb_forall; intros row K; apply Nat.eqb_eq, L, K). rewrite F. cbv zeta.
  erewrite mapM_intro; [reflexivity|]. clear -N. induction coordinates as [|row rows IH]; cbn [map]; constructor; [apply fdiv_eq, N|exact IH].
Qed.
Lemma rsum_pos l : l <> [] -> (forall x, In x l -> 0 < x) -> 0 < rsum l.
Proof.
  destruct l as [|x l]; [contradiction|]. intros _ P. pose proof (P x (or_introl eq_refl)). change (rsum (x :: l)) with (x + rsum l).
  assert (0 <= rsum l) by (apply rsum_nonneg; intros y K; apply Rlt_le, P; now right). lra.
Qed.
Lemma weighted_bound B : forall masses row, (forall m, In m masses -> 0 < m) -> (forall x, In x row -> Rabs x <= B) -> length row = length masses ->
  rsum (map (fun p => Rabs (fst p) * Rabs (snd p)) (combine masses row)) <= B * rsum masses.
Proof.
  induction masses as [|m ms IH]; intros row P HB L; destruct row as [|x row]; try discriminate L; [cbn; lra|]. cbn [combine map fst snd]. change (rsum (m :: ms)) with (m + rsum ms).
  change (rsum (Rabs m * Rabs x :: ?l)) with (Rabs m * Rabs x + rsum l). specialize (IH row (fun y K => P y (or_intror K)) (fun y K => HB y (or_intror K)) ltac:(now injection L)).
  pose proof (P m (or_introl eq_refl)). pose proof (HB x (or_introl eq_refl)). rewrite (Rabs_pos_eq m) by lra. unfold rsum in *. cbn [fold_right]. nra.
Qed.

Lemma F2_length {A B} (Q : A -> B -> Prop) l l' : Forall2 Q l l' -> length l = length l'.
Proof. induction 1; cbn; congruence. Qed.

(* ---- mass centres ---- *)
(* whatever the order in which numpy adds: n bodies give a total mass right to n roundoffs and a
   centre off by at most 2 n + 1 roundoffs of the largest coordinate *)
Theorem C78_mass_centre_accurate : forall a s s1 coordinates masses mT cT, accurate a -> adds_up a s -> adds_up a s1 ->
  masses <> [] -> (forall m, In m masses -> 0 < m) -> INR (length masses) <= 2 ^ 25 -> total_com coordinates masses = Ok (mT, cT) ->
  exists mTh cTh, ftotal_com a s s1 coordinates masses = Ok (mTh, cTh) /\ within (length masses) mTh mT /\ length cTh = length cT /\
    forall i row ch c B, nth_error coordinates i = Some row -> nth_error cTh i = Some ch -> nth_error cT i = Some c -> (forall x, In x row -> Rabs x <= B) ->
      Rabs (ch - c) <= INR (2 * length masses + 1) * roundoff * B.
Proof.
  intros a s s1 coordinates masses mT cT AC S S1 NE P LE H. destruct (total_com_ok _ _ _ _ H) as (L & -> & F).
  set (n := length masses) in *. assert (N1 : (1 <= n)%nat) by (unfold n; destruct masses; [contradiction|cbn; lia]).
  assert (PR : 1 <= INR n) by (change 1 with (INR 1); apply le_INR, N1).
  assert (U : 2 * INR n * (2 * INR n + 1) * roundoff <= 1).
  { unfold roundoff. replace (2 ^ 53) with (8 * (2 ^ 25 * 2 ^ 25)) by ring. pose proof (pow_lt 2 25 ltac:(lra)) as PP. set (q := 2 ^ 25) in *. clearbody q.
    apply (Rmult_le_reg_r (8 * (q * q))); [nra|]. rewrite Rmult_assoc, Rinv_l by nra. nra. }
  pose proof roundoff_small as RS. pose proof (rsum_pos masses NE P) as PT.
  assert (CL : close (pred n) (s masses) (rsum masses)) by (apply (added_close a AC _ _ (S masses NE)); intros x K; apply Rlt_le, P, K).
  pose proof (close_pos _ _ _ CL PT) as PH. exists (s masses), (map (fun row => fdivc a (s1 (map (fun p => fmul a (fst p) (snd p)) (combine masses row))) (s masses)) coordinates).
  split; [apply ftotal_com_eq; [exact L|lra]|]. split.
  { replace n with (Datatypes.S (pred n)) at 1 by lia. apply close_within_n; [|exact CL]. assert (INR (pred n) <= INR n) by (apply le_INR; lia). pose proof (pos_INR (pred n)). nra. }
  split; [rewrite map_length; exact (F2_length _ _ _ F)|].
  intros i row ch c B HR HC HT HB. assert (IR : In row coordinates) by (eapply nth_error_In; exact HR). specialize (L row IR).
  apply (map_nth_error (fun row => fdivc a (s1 (map (fun p => fmul a (fst p) (snd p)) (combine masses row))) (s masses))) in HR as HR'. rewrite HR' in HC. injection HC as <-.
  assert (E : c = rsum (map (fun p => fst p * snd p) (combine masses row)) / rsum masses).
  { clear -F HR HT. revert i HR HT. induction F as [|r x rs xs (_ & EX) F IH]; intros [|i] HR HT; try discriminate; [injection HR as <-; injection HT as <-; exact EX|exact (IH i HR HT)]. }
  subst c. set (ps := combine masses row). assert (LP : length ps = n) by (unfold ps; rewrite combine_length, L; unfold n; lia).
  assert (NP : map (fun p => fmul a (fst p) (snd p)) ps <> []) by (intros Z; apply (f_equal (@length R)) in Z; rewrite map_length, LP in Z; cbn in Z; lia).
  pose proof (added_err a AC 1 _ _ (S1 _ NP) (map (fun p => (fmul a (fst p) (snd p), fst p * snd p, Rabs (fst p) * Rabs (snd p))) ps)) as AE.
  rewrite !map_map in AE. cbn [fst snd] in AE. rewrite map_length, LP in AE. specialize (AE eq_refl).
  assert (HL : forall h x m, In (h, x, m) (map (fun p => (fmul a (fst p) (snd p), fst p * snd p, Rabs (fst p) * Rabs (snd p))) ps) -> err 1 h x m).
  { intros h x m K. apply in_map_iff in K. destruct K as ((u & v) & E & _). injection E as <- <- <-. cbn [fst snd]. apply (err_fmul a AC 0 0); apply err_refl. }
  specialize (AE HL). pose proof (err_fdiv a AC _ _ _ _ _ _ _ AE CL ltac:(lra)) as Q. destruct Q as (Q & _). eapply Rle_trans; [exact Q|].
  rewrite (Rabs_pos_eq (rsum masses)) by lra. pose proof (weighted_bound B masses row P HB L) as WB. fold ps in WB.
  set (W := rsum (map (fun p => Rabs (fst p) * Rabs (snd p)) ps)) in *. assert (W0 : 0 <= W).
  { apply rsum_nonneg. intros x K. apply in_map_iff in K. destruct K as ((u & v) & <- & _). apply Rmult_le_pos; apply Rabs_pos. }
  assert (D : 0 <= W / rsum masses <= B).
  { split; [apply Rmult_le_pos; [exact W0|apply Rlt_le, Rinv_0_lt_compat, PT]|]. apply (Rmult_le_reg_r (rsum masses)); [exact PT|]. unfold Rdiv. rewrite Rmult_assoc, Rinv_l by lra. lra. }
  replace (1 + pred n + pred n + 1)%nat with (2 * n)%nat by lia.
  assert (EB : eps (2 * n) <= INR (2 * n + 1) * roundoff).
  { replace (2 * n + 1)%nat with (Datatypes.S (2 * n)) by lia. apply eps_small. rewrite mult_INR. change (INR 2) with 2. exact U. }
  pose proof (eps_pos (2 * n)). apply Rmult_le_compat; lra.
Qed.
Print Assumptions C78_mass_centre_accurate.

(* whatever the rounding, as long as it keeps the order: the centre of bodies on one side of a
   plane is not found on the other side *)
Lemma added_side a l r : order_preserving a -> added a l r -> (forall x, In x l -> 0 <= x) -> 0 <= r.
Proof.
  intros (MO & _ & Z) A. induction A as [x|l l1 l2 s1 s2 P A1 I1 A2 I2]; intros H; [apply H; now left|].
  assert (0 <= s1) by (apply I1; intros x K; apply H, (Permutation_in _ (Permutation_sym P)), in_or_app; now left).
  assert (0 <= s2) by (apply I2; intros x K; apply H, (Permutation_in _ (Permutation_sym P)), in_or_app; now right).
  rewrite <- Z. apply MO. lra.
Qed.
Theorem C78_mass_centre_side : forall a s s1 coordinates masses mTh cTh, order_preserving a -> adds_up a s -> adds_up a s1 ->
  masses <> [] -> (forall m, In m masses -> 0 < m) -> ftotal_com a s s1 coordinates masses = Ok (mTh, cTh) ->
  0 <= mTh /\ forall i row ch, nth_error coordinates i = Some row -> nth_error cTh i = Some ch -> (forall x, In x row -> 0 <= x) -> 0 <= ch.
Proof.
  intros a s s1 coordinates masses mTh cTh OP S S1 NE P H. pose proof OP as (MO & _ & Z).
  unfold ftotal_com in H. destruct (forallb _ _) eqn:F; [|discriminate]. cbv zeta in H. apply bind_ok in H. destruct H as (cs & M & E). injection E as <- <-.
  assert (PT : 0 <= s masses) by (apply (added_side a _ _ OP (S masses NE)); intros x K; apply Rlt_le, P, K). split; [exact PT|].
  intros i row ch HR HC HX. rewrite forallb_forall in F. specialize (F row (nth_error_In _ _ HR)). apply Nat.eqb_eq in F. apply mapM_ok in M.
  assert (E : fdiv a (s1 (map (fun p => fmul a (fst p) (snd p)) (combine masses row))) (s masses) = Ok ch).
  { clear -M HR HC. revert cs i M HR HC. induction coordinates as [|r rows IH]; intros cs [|i] M HR HC; try discriminate HR; cbn [map] in M; inversion M as [|? ? ? cs' E M']; subst.
    - injection HR as ->. injection HC as ->. exact E.
    - exact (IH cs' i M' HR HC). }
  apply fdiv_ok in E. destruct E as (N & ->). unfold fdivc. rewrite <- Z at 1. apply MO. apply Rmult_le_pos; [|apply Rlt_le, Rinv_0_lt_compat; lra].
  assert (NP : map (fun p => fmul a (fst p) (snd p)) (combine masses row) <> []).
  { intros W. apply (f_equal (@length R)) in W. rewrite map_length, combine_length, F in W. destruct masses; [contradiction|cbn in W; lia]. }
  apply (added_side a _ _ OP (S1 _ NP)).
  intros x K. apply in_map_iff in K. destruct K as ((u & v) & <- & K). cbn [fst snd]. unfold fmul. rewrite <- Z. apply MO. apply Rmult_le_pos; [apply Rlt_le, P; eapply in_combine_l; exact K|apply HX; eapply in_combine_r; exact K].
Qed.
Print Assumptions C78_mass_centre_side.

(* ---- trail ---- *)
Theorem C78_trail_accurate : forall a rF lam fo c cm, accurate a -> trail rF lam fo = Ok (c, cm) ->
  exists ch cmh, ftrail a rF lam fo = Ok (ch, cmh) /\
    Rabs (ch - c) <= 10 * roundoff * ((Rabs (rF * sin lam) + Rabs fo) / Rabs (cos lam)) /\
    Rabs (cmh - cm) <= 14 * roundoff * (Rabs (rF * sin lam) + Rabs fo) /\ within 5 cmh (ch * cos lam).
Proof.
  intros a rF lam fo c cm AC H. unfold trail in H. apply bind_ok in H. destruct H as (c' & D & E). injection E as -> <-. unfold rdiv in D. destruct (Req_EM_T (cos lam) 0) as [|N]; [discriminate|]. injection D as <-.
  pose proof (cl_cos a AC lam) as CC. assert (NH : fcos a lam <> 0).
  { destruct CC as (d & -> & Q & _). destruct (qk_bounds 3). apply Rmult_integral_contrapositive. split; [exact N|lra]. }
  pose proof (err_fsub a AC _ _ _ _ _ _ _ _ (err_fmul a AC 0 3 _ _ _ _ _ _ (err_refl rF) (err_fsin a AC lam)) (err_refl fo)) as E1. cbn [Nat.max Nat.add] in E1.
  pose proof (err_fdiv a AC _ _ _ _ _ _ _ E1 CC N) as E2. cbn [Nat.add] in E2.
  exists (fdivc a (fsub a (fmul a rF (fsin a lam)) fo) (fcos a lam)), (fmul a (fdivc a (fsub a (fmul a rF (fsin a lam)) fo) (fcos a lam)) (fcos a lam)).
  split; [unfold ftrail; rewrite fdiv_eq by exact NH; reflexivity|]. rewrite <- Rabs_mult in E2. split.
  { replace 10 with (INR 10) by (cbn; lra). apply (err_abs 9); [lia|exact E2]. } split.
  - pose proof (err_fmul a AC _ _ _ _ _ _ _ _ E2 (err_fcos a AC lam)) as E3. cbn [Nat.add] in E3. replace 14 with (INR 14) by (cbn; lra).
    replace ((Rabs (rF * sin lam) + Rabs fo) / Rabs (cos lam) * Rabs (cos lam)) with (Rabs (rF * sin lam) + Rabs fo) in E3 by (field; apply Rabs_no_R0, N). apply (err_abs 13); [lia|exact E3].
  - apply (close_within 4); [lia|]. change 4%nat with (1 + 3)%nat. eapply close_trans; [apply (cl_fl a AC)|]. change 3%nat with (0 + 3)%nat. apply close_mul; [apply close_refl|exact CC].
Qed.
Print Assumptions C78_trail_accurate.

(* ---- inertia tensors turned about the lateral axis ---- *)
(* both functions, every entry, whatever the order in which np.dot adds *)
Theorem C78_turned_tensor_accurate : forall a dot3 I angle e, accurate a -> dot_accurate dot3 -> In e entries3 ->
  Rabs (e (frotate_inertia_tensor a dot3 I angle) - e (rotate_inertia_tensor I angle)) <= 15 * roundoff * e (turned_sizes I angle) /\
  Rabs (e (frotate_inertia_about_y a dot3 I angle) - e (rotate_inertia_about_y I angle)) <= 15 * roundoff * e (turned_sizes I angle).
Proof.
  intros a dot3 I angle e AC DA HE. pose proof (err_rot a angle AC) as ER.
  assert (ETT : err33 3 (m3_T (m3_T (frot a angle))) (m3_T (m3_T (rot angle))) (m3_T (m3_T (rot_abs angle)))) by (rewrite !m3_T_T; exact ER).
  assert (F : forall x y m, err33 14 x y m -> Rabs (e x - e y) <= 15 * roundoff * e m).
  { intros x y m ((A1 & A2 & A3) & (B1 & B2 & B3) & (C1 & C2 & C3)). replace 15 with (INR 15) by (cbn; lra). apply (err_abs 14); [lia|].
    unfold entries3 in HE. cbn [In] in HE. repeat (destruct HE as [<-|HE]; [assumption|]). contradiction. }
  split; apply F.
  - pose proof (err_dot33 dot3 DA _ _ _ _ _ _ _ _ (err33_abs I) ETT) as E1. pose proof (err_dot33 dot3 DA _ _ _ _ _ _ _ _ ER (err33_T _ _ _ _ E1)) as E2. exact E2.
  - assert (X : turned_sizes I angle = m3_dot (m3_dot (rot_abs angle) (m3_abs I)) (m3_T (rot_abs angle))).
    { unfold turned_sizes, rot_abs, m3_dot, m3_T, v3_dot. cbv zeta. cbn [r1 r2 r3 vx vy vz]. repeat match goal with |- mk33 _ _ _ = _ => f_equal | |- mk3 _ _ _ = _ => f_equal end; ring. }
    rewrite X. pose proof (err_dot33 dot3 DA _ _ _ _ _ _ _ _ ER (err33_T _ _ _ _ (err33_abs I))) as E1. pose proof (err_dot33 dot3 DA _ _ _ _ _ _ _ _ E1 ETT) as E2. exact E2.
Qed.
Print Assumptions C78_turned_tensor_accurate.
Example C78_plain_dot3 : dot_accurate plain_dot3.
Proof.
  intros v w. unfold plain_dot3, v3_dot. assert (RN : forall x, err 1 (rnd53 x) x (Rabs x)) by (intros x; apply close_err, within_close1, rnd53_within).
  pose proof (err_rnd _ _ _ _ (err_sum _ _ _ _ _ _ _ _ (err_rnd _ _ _ _ (err_sum _ _ _ _ _ _ _ _ (RN (vx v * vx w)) (RN (vy v * vy w)))) (RN (vz v * vz w)))) as E. cbn [Nat.max Nat.add] in E.
  replace 4 with (INR 4) by (cbn; lra). apply (err_abs 3); [lia|exact E].
Qed.

(* two parts of a bicycle, added from left to right in double precision *)
Example C78_mass_centre : exists mT cT mTh cTh, total_com [[1; 3]; [0; 0]; [-1; -2]] [10; 30] = Ok (mT, cT) /\
  ftotal_com double_plain (left_sum double_plain) (left_sum double_plain) [[1; 3]; [0; 0]; [-1; -2]] [10; 30] = Ok (mTh, cTh) /\ adds_up double_plain (left_sum double_plain) /\ INR (length [10; 30]) <= 2 ^ 25.
Proof.
  assert (P : forall m, In m [10; 30] -> 0 < m) by (intros m [<-|[<-|[]]]; lra). assert (LE : INR (length [10; 30]) <= 2 ^ 25).
  { cbn [length]. change (INR 2) with 2. pose proof (Rle_pow 2 1 25 ltac:(lra) ltac:(lia)). lra. }
  assert (E : exists mT cT, total_com [[1; 3]; [0; 0]; [-1; -2]] [10; 30] = Ok (mT, cT)).
  { unfold total_com. cbn [forallb length Nat.eqb andb map combine mapM]. unfold rdiv, rsum. cbn [fold_right]. destruct (Req_EM_T _ 0) as [Z|_]; [lra|]. cbn [bind]. eauto. }
  destruct E as (mT & cT & E). destruct (C78_mass_centre_accurate double_plain (left_sum double_plain) (left_sum double_plain) [[1; 3]; [0; 0]; [-1; -2]] [10; 30] mT cT plain_accurate (left_sum_adds _) (left_sum_adds _) (fun Z => nil_cons (eq_sym Z)) P LE E) as (mTh & cTh & F & _).
  exists mT, cT, mTh, cTh. split; [exact E|]. split; [exact F|]. split; [apply left_sum_adds|exact LE].
Qed.
