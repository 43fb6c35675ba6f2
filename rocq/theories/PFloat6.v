(* PFloat6.v -- sums in machine arithmetic *)
From Coq Require Import Permutation Lia Lra.
From Verif Require Import Base MVec MBicycle MFloat MFloat2 SFloat SFloat2 PFloat PFloat2.
Local Open Scope R_scope.

Lemma rsum_app l l' : rsum (l ++ l') = rsum l + rsum l'.
Proof. unfold rsum. induction l as [|x l IH]; cbn [app fold_right]; [lra|]. rewrite IH. lra. Qed.
Lemma rsum_perm l l' : Permutation l l' -> rsum l = rsum l'.
Proof. unfold rsum. induction 1; cbn [fold_right]; lra. Qed.
Lemma rsum_nonneg l : (forall x, In x l -> 0 <= x) -> 0 <= rsum l.
Proof. unfold rsum. induction l as [|x l IH]; cbn [fold_right]; intros H; [lra|]. pose proof (H x (or_introl eq_refl)). specialize (IH (fun y K => H y (or_intror K))). lra. Qed.
Lemma added_length a l s : added a l s -> (1 <= length l)%nat.
Proof. induction 1 as [|l l1 l2 s1 s2 P _ I1 _ I2]; [cbn; lia|]. rewrite (Permutation_length P), app_length. lia. Qed.
Lemma perm_split {A B} (f : A -> B) (L : list A) (l1 l2 : list B) : Permutation (map f L) (l1 ++ l2) ->
  exists L1 L2, Permutation L (L1 ++ L2) /\ map f L1 = l1 /\ map f L2 = l2.
Proof.
  intros P. apply Permutation_sym, Permutation_map_inv in P. destruct P as (M & E & P). 
  symmetry in E. apply map_eq_app in E. destruct E as (L1 & L2 & -> & E1 & E2). exists L1, L2. split; [|split; assumption]. exact P.
Qed.

Section Sums.
  Variable a : arith.
  Hypothesis AC : accurate a.
  (* computed numbers with their true values and sizes *)
  Lemma added_err k l s : added a l s -> forall L : list (R * R * R), map (fun t => fst (fst t)) L = l -> (forall h x m, In (h, x, m) L -> err k h x m) ->
    err (k + pred (length l)) s (rsum (map (fun t => snd (fst t)) L)) (rsum (map (fun t => snd t) L)).
  Proof.
    induction 1 as [x|l l1 l2 s1 s2 P A1 I1 A2 I2]; intros L E HL.
    - destruct L as [|((h, y), m) [|? ?]]; try discriminate E. cbn in E. injection E as <-. cbn. rewrite !Rplus_0_r, Nat.add_0_r. apply HL. now left.
    - subst l. destruct (perm_split _ _ _ _ P) as (L1 & L2 & PL & E1 & E2).
      rewrite (rsum_perm _ _ (Permutation_map (fun t => snd (fst t)) PL)), (rsum_perm _ _ (Permutation_map (fun t => snd t) PL)), !map_app, !rsum_app.
      specialize (I1 L1 E1 (fun h x m K => HL h x m (Permutation_in _ (Permutation_sym PL) (in_or_app _ _ _ (or_introl K))))).
      specialize (I2 L2 E2 (fun h x m K => HL h x m (Permutation_in _ (Permutation_sym PL) (in_or_app _ _ _ (or_intror K))))).
      pose proof (added_length _ _ _ A1). pose proof (added_length _ _ _ A2). pose proof (Permutation_length P) as LL. rewrite app_length in LL.
      eapply err_le; [|exact (err_fadd a AC _ _ _ _ _ _ _ _ I1 I2)]. lia.
  Qed.
  Lemma added_close l s : added a l s -> (forall x, In x l -> 0 <= x) -> close (pred (length l)) s (rsum l).
  Proof.
    induction 1 as [x|l l1 l2 s1 s2 P A1 I1 A2 I2]; intros HL.
    - cbn. rewrite Rplus_0_r. apply close_refl.
    - assert (H1 : forall x, In x l1 -> 0 <= x) by (intros x K; apply HL, (Permutation_in _ (Permutation_sym P)), in_or_app; now left).
      assert (H2 : forall x, In x l2 -> 0 <= x) by (intros x K; apply HL, (Permutation_in _ (Permutation_sym P)), in_or_app; now right).
      specialize (I1 H1). specialize (I2 H2). rewrite (rsum_perm _ _ P), rsum_app.
      pose proof (added_length _ _ _ A1). pose proof (added_length _ _ _ A2). pose proof (Permutation_length P) as LL. rewrite app_length in LL.
      eapply close_weaken; [|exact (cl_add a AC _ _ _ _ _ _ I1 I2 (rsum_nonneg _ H1) (rsum_nonneg _ H2))]. lia.
  Qed.
End Sums.

(* the accumulated factor of k roundings *)
Lemma eps_small k : INR k * (INR k + 1) * roundoff <= 1 -> eps k <= INR (S k) * roundoff.
Proof.
  intros H. pose proof roundoff_small as RS. pose proof (bernoulli k) as B. pose proof (pos_INR k) as K. unfold eps. rewrite S_INR.
  assert (KU : INR k * roundoff < 1).
  { destruct (Req_dec (INR k) 0) as [->|N]; [lra|]. assert (P : 0 < INR k * roundoff) by (apply Rmult_lt_0_compat; lra).
    destruct k as [|k]; [cbn in N; lra|]. rewrite S_INR in *. pose proof (pos_INR k). nra. }
  apply Rle_trans with (/ (1 - INR k * roundoff) - 1).
  - assert (/ (1 - roundoff) ^ k <= / (1 - INR k * roundoff)) by (apply Rinv_le_contravar; lra). lra.
  - apply (Rmult_le_reg_r (1 - INR k * roundoff)); [lra|]. rewrite Rmult_minus_distr_r, Rinv_l by lra. nra.
Qed.
Lemma close_within_n k xh x : INR k * (INR k + 1) * roundoff <= 1 -> close k xh x -> within (S k) xh x.
Proof. intros H C. apply close_err in C. destruct C as (C & _). unfold within. eapply Rle_trans; [exact C|]. apply Rmult_le_compat_r; [apply Rabs_pos|apply eps_small, H]. Qed.
Lemma left_sum_adds a : adds_up a (left_sum a).
Proof.
  intros [|x l] N; [contradiction|]. clear N. unfold left_sum. revert x. induction l as [|y l IH] using rev_ind; intros x; cbn [fold_left]; [constructor|].
  rewrite fold_left_app. cbn [fold_left]. apply (added_two a _ (x :: l) [y]); [apply Permutation_refl|apply IH|constructor].
Qed.

(* ---- products of 3 x 3 arrays ---- *)
Definition err3 (k : nat) (vh v m : vec3) : Prop := err k (vx vh) (vx v) (vx m) /\ err k (vy vh) (vy v) (vy m) /\ err k (vz vh) (vz v) (vz m).
Definition err33 (k : nat) (ah b m : mat3) : Prop := err3 k (r1 ah) (r1 b) (r1 m) /\ err3 k (r2 ah) (r2 b) (r2 m) /\ err3 k (r3 ah) (r3 b) (r3 m).
Lemma eps_lower k : INR k * roundoff <= eps k.
Proof.
  pose proof (qk_bounds k) as (P & L). pose proof (bernoulli k) as B. unfold eps. pose proof roundoff_small as RS. pose proof (pos_INR k).
  induction k as [|k IH]; [cbn; rewrite Rinv_1; lra|]. rewrite S_INR in *. cbn [pow]. rewrite Rinv_mult. pose proof (qk_bounds k) as (P' & L'). specialize (IH P' L' (bernoulli k) (pos_INR k)).
  assert (Q : 1 + roundoff <= / (1 - roundoff)). { apply (Rmult_le_reg_r (1 - roundoff)); [lra|]. rewrite Rinv_l by lra. nra. }
  pose proof (qk_inv k). pose proof (pos_INR k). nra.
Qed.
Section Dot3.
  Variable dot3 : vec3 -> vec3 -> R.
  Hypothesis DA : dot_accurate dot3.
  Lemma err_dot3 j k vh v m wh w n : err3 j vh v m -> err3 k wh w n -> err (j + k + 4) (dot3 vh wh) (v3_dot v w) (v3_dot m n).
  Proof.
    intros (X1 & X2 & X3) (Y1 & Y2 & Y3). pose proof (err_prod _ _ _ _ _ _ _ _ X1 Y1) as P1. pose proof (err_prod _ _ _ _ _ _ _ _ X2 Y2) as P2. pose proof (err_prod _ _ _ _ _ _ _ _ X3 Y3) as P3.
    pose proof (err_sum _ _ _ _ _ _ _ _ (err_sum _ _ _ _ _ _ _ _ P1 P2) P3) as S. rewrite !Nat.max_id in S.
    pose proof (err_size _ _ _ _ P1) as Z1. pose proof (err_size _ _ _ _ P2) as Z2. pose proof (err_size _ _ _ _ P3) as Z3. destruct S as (S1 & S2). pose proof (DA vh wh) as D.
    change (vx vh * vx wh + vy vh * vy wh + vz vh * vz wh) with (v3_dot vh wh) in S1. change (vx v * vx w + vy v * vy w + vz v * vz w) with (v3_dot v w) in S1, S2. change (vx m * vx n + vy m * vy n + vz m * vz n) with (v3_dot m n) in S1, S2.
    split; [|exact S2]. rewrite eps_add. pose proof (eps_pos (j + k)) as E1. pose proof (eps_lower 4) as E4. change (INR 4) with (1 + 1 + 1 + 1) in E4.
    set (s := Rabs (vx vh * vx wh) + Rabs (vy vh * vy wh) + Rabs (vz vh * vz wh)) in *. assert (ZS : s <= (1 + eps (j + k)) * v3_dot m n) by (unfold s, v3_dot; lra).
    assert (s0 : 0 <= s) by (unfold s; pose proof (Rabs_pos (vx vh * vx wh)); pose proof (Rabs_pos (vy vh * vy wh)); pose proof (Rabs_pos (vz vh * vz wh)); lra).
    replace (dot3 vh wh - v3_dot v w) with ((dot3 vh wh - v3_dot vh wh) + (v3_dot vh wh - v3_dot v w)) by ring. eapply Rle_trans; [apply Rabs_triang|].
    assert (G : 4 * roundoff * s <= eps 4 * ((1 + eps (j + k)) * v3_dot m n)) by (pose proof roundoff_small; apply Rmult_le_compat; lra).
    clear -D S1 G. nra.
  Qed.
  Lemma err_dot33 j k ah b m ch d n : err33 j ah b m -> err33 k (m3_T ch) (m3_T d) (m3_T n) -> err33 (j + k + 4) (fm3_dot dot3 ah ch) (m3_dot b d) (m3_dot m n).
  Proof.
    intros (A1 & A2 & A3) (T1 & T2 & T3). unfold fm3_dot, m3_dot, err33, err3. cbv zeta. cbn [r1 r2 r3 vx vy vz].
    refine (conj (conj _ (conj _ _)) (conj (conj _ (conj _ _)) (conj _ (conj _ _)))); apply err_dot3; assumption.
  Qed.
End Dot3.
Lemma err33_T k ah b m : err33 k ah b m -> err33 k (m3_T ah) (m3_T b) (m3_T m).
Proof. intros ((A1 & A2 & A3) & (B1 & B2 & B3) & (C1 & C2 & C3)). unfold m3_T, err33, err3. cbn [r1 r2 r3 vx vy vz]. exact (conj (conj A1 (conj B1 C1)) (conj (conj A2 (conj B2 C2)) (conj A3 (conj B3 C3)))). Qed.
Lemma m3_T_T m : m3_T (m3_T m) = m.
Proof. destruct m as [[] [] []]. reflexivity. Qed.
Lemma err33_abs m : err33 0 m m (m3_abs m).
Proof. unfold err33, err3, m3_abs, v3_abs. cbn [r1 r2 r3 vx vy vz]. exact (conj (conj (err_refl _) (conj (err_refl _) (err_refl _))) (conj (conj (err_refl _) (conj (err_refl _) (err_refl _))) (conj (err_refl _) (conj (err_refl _) (err_refl _))))). Qed.
Lemma err_0 k : err k 0 0 0.
Proof. split; [rewrite Rminus_0_r, Rabs_R0; lra|rewrite Rabs_R0; lra]. Qed.
Lemma err_1 k : err k 1 1 1.
Proof. apply (err_le 0); [lia|]. pose proof (err_refl 1) as E. rewrite Rabs_R1 in E. exact E. Qed.
Definition rot (t : R) : mat3 := mk33 (mk3 (cos t) 0 (- sin t)) (mk3 0 1 0) (mk3 (sin t) 0 (cos t)).
Definition rot_abs (t : R) : mat3 := mk33 (mk3 (Rabs (cos t)) 0 (Rabs (sin t))) (mk3 0 1 0) (mk3 (Rabs (sin t)) 0 (Rabs (cos t))).
Lemma err_rot a t : accurate a -> err33 3 (frot a t) (rot t) (rot_abs t).
Proof.
  intros AC. unfold frot, rot, rot_abs, err33, err3. cbv zeta. cbn [r1 r2 r3 vx vy vz].
  pose proof (err_fcos a AC t) as C. pose proof (err_fsin a AC t) as S. pose proof (err_neg _ _ _ _ S) as N. pose proof (err_0 3) as Z. pose proof (err_1 3) as O. tauto.
Qed.
