(* TSpeeds2.v -- C79: at most two ranges of speed at which a bicycle balances itself *)
From Coq Require Import Lra Lia.
From Verif Require Import Base MString MHeap MBicycle MVec MInertia MModels MModels2 MEig MDicts PBase SBicycle PBicycle PBicycle2 SModels SModels2 SLean SEig PEig SStab TBicycle TEig TStab SRouth PRouth TRouth PRoots PExist SSpeeds PSpeeds PDicts TSpeeds TExist.
Local Open Scope string_scope.
Local Open Scope R_scope.

Lemma quadratic_signs q2 q1 q0 x1 x2 x3 x4 : x1 < x2 < x3 -> x3 < x4 -> 0 < q2 * x1 ^ 2 + q1 * x1 + q0 -> q2 * x2 ^ 2 + q1 * x2 + q0 <= 0 -> 0 < q2 * x3 ^ 2 + q1 * x3 + q0 -> q2 * x4 ^ 2 + q1 * x4 + q0 <= 0 -> False.
Proof.
  intros (H1 & H2) H3. assert (I : (q2 * x1 ^ 2 + q1 * x1 + q0) * ((x3 - x2) * (x4 - x2) * (x4 - x3)) - (q2 * x2 ^ 2 + q1 * x2 + q0) * ((x3 - x1) * (x4 - x1) * (x4 - x3)) +
    (q2 * x3 ^ 2 + q1 * x3 + q0) * ((x2 - x1) * (x4 - x1) * (x4 - x2)) - (q2 * x4 ^ 2 + q1 * x4 + q0) * ((x2 - x1) * (x3 - x1) * (x3 - x2)) = 0) by ring.
  revert I. generalize (q2 * x1 ^ 2 + q1 * x1 + q0) (q2 * x2 ^ 2 + q1 * x2 + q0) (q2 * x3 ^ 2 + q1 * x3 + q0) (q2 * x4 ^ 2 + q1 * x4 + q0). intros f1 f2 f3 f4 I F1 F2 F3 F4.
  assert (P : forall a b e, 0 < a -> 0 < b -> 0 < e -> 0 < a * b * e) by (intros; repeat apply Rmult_lt_0_compat; assumption).
  assert (K1 := P (x3 - x2) (x4 - x2) (x4 - x3) ltac:(lra) ltac:(lra) ltac:(lra)). assert (K2 := P (x3 - x1) (x4 - x1) (x4 - x3) ltac:(lra) ltac:(lra) ltac:(lra)). assert (K3 := P (x2 - x1) (x4 - x1) (x4 - x2) ltac:(lra) ltac:(lra) ltac:(lra)). assert (K4 := P (x2 - x1) (x3 - x1) (x3 - x2) ltac:(lra) ltac:(lra) ltac:(lra)).
  revert I K1 K2 K3 K4. generalize ((x3 - x2) * (x4 - x2) * (x4 - x3)) ((x3 - x1) * (x4 - x1) * (x4 - x3)) ((x2 - x1) * (x4 - x1) * (x4 - x2)) ((x2 - x1) * (x3 - x1) * (x3 - x2)). intros k1 k2 k3 k4 I K1 K2 K3 K4.
  pose proof (Rmult_lt_0_compat _ _ F1 K1). pose proof (Rmult_lt_0_compat _ _ F3 K3). assert (0 <= - f2 * k2) by (apply Rmult_le_pos; lra). assert (0 <= - f4 * k4) by (apply Rmult_le_pos; lra). lra.
Qed.
(* an affine function positive at both ends is positive in between *)
Lemma affine_between a b x y z : x <= y <= z \/ z <= y <= x -> 0 < a + x * b -> 0 < a + z * b -> 0 < a + y * b.
Proof.
  intros H X Z. destruct (Rle_dec 0 b) as [B|B]; destruct H as [H|H].
  - assert (0 <= (y - x) * b) by (apply Rmult_le_pos; lra). lra.
  - assert (0 <= (y - z) * b) by (apply Rmult_le_pos; lra). lra.
  - assert (0 <= (z - y) * - b) by (apply Rmult_le_pos; lra). lra.
  - assert (0 <= (x - y) * - b) by (apply Rmult_le_pos; lra). lra.
Qed.
(* squares of ordered speeds of one sign are ordered *)
Lemma squares_up d x y : 0 < d -> 0 < x * d -> x < y -> 0 < y * d /\ x ^ 2 < y ^ 2.
Proof. intros D X L. assert (0 < x) by (apply (Rmult_lt_reg_r d); lra). split; [apply Rmult_lt_0_compat; lra|nra]. Qed.
Lemma squares_down d x y : d < 0 -> 0 < y * d -> x < y -> 0 < x * d /\ y ^ 2 < x ^ 2.
Proof. intros D Y L. assert (y < 0). { apply Rnot_le_lt. intros N. assert (0 <= y * - d) by (apply Rmult_le_pos; lra). lra. } split; [|nra]. replace (x * d) with (- x * - d) by ring. apply Rmult_lt_0_compat; lra. Qed.
Lemma same_sign v d f : 0 < v * d -> (0 < v * f <-> 0 < d * f).
Proof.
  intros H. split; intros K.
  - assert (0 < (v * d) * (v * f)) by (apply Rmult_lt_0_compat; assumption). apply Rnot_le_lt. intros N. assert (0 <= v ^ 2 * - (d * f)) by (apply Rmult_le_pos; [apply pow2_ge_0|lra]). lra.
  - assert (0 < (v * d) * (d * f)) by (apply Rmult_lt_0_compat; assumption). apply Rnot_le_lt. intros N. assert (0 <= d ^ 2 * - (v * f)) by (apply Rmult_le_pos; [apply pow2_ge_0|lra]). lra.
Qed.
Lemma weave_positive v d w : 0 < v * d -> (0 < v ^ 2 * w <-> 0 < w).
Proof.
  intros H. assert (v <> 0) by (intros ->; lra). assert (0 < v ^ 2) by (replace (v ^ 2) with (Rsqr v) by (unfold Rsqr; ring); apply Rlt_0_sqr; assumption). split; intros K; [|apply Rmult_lt_0_compat; assumption]. apply (Rmult_lt_reg_l (v ^ 2)); lra.
Qed.
(* between two speeds that meet the conditions only the weave condition can fail *)
Lemma only_weave c g v1 v2 v3 : v1 < v2 < v3 -> stable_conditions c g v1 -> stable_conditions c g v3 ->
  0 < v2 * damping_c c /\ 0 < second_c c g (v2 ^ 2) /\ 0 < v2 * first_c c g (v2 ^ 2) /\ 0 < constant_c c g (v2 ^ 2) /\ (v1 ^ 2 < v2 ^ 2 < v3 ^ 2 /\ 0 < damping_c c \/ v3 ^ 2 < v2 ^ 2 < v1 ^ 2 /\ damping_c c < 0).
Proof.
  intros (L1 & L2) (A1 & A2 & A3 & A4 & _) (B1 & B2 & B3 & B4 & _). unfold second_c, first_c, constant_c in *. set (d := damping_c c) in *.
  assert (O : 0 < v2 * d /\ (v1 ^ 2 < v2 ^ 2 < v3 ^ 2 /\ 0 < d \/ v3 ^ 2 < v2 ^ 2 < v1 ^ 2 /\ d < 0)).
  { destruct (Rtotal_order d 0) as [D|[D|D]]; [|rewrite D in A1; lra|].
    - destruct (squares_down d v2 v3 D B1 L2) as (C1 & C2). destruct (squares_down d v1 v2 D C1 L1). split; [assumption|]. right. repeat split; assumption.
    - destruct (squares_up d v1 v2 D A1 L1) as (C1 & C2). destruct (squares_up d v2 v3 D C1 L2). split; [assumption|]. left. repeat split; assumption. }
  destruct O as (C1 & O). assert (BT : v1 ^ 2 <= v2 ^ 2 <= v3 ^ 2 \/ v3 ^ 2 <= v2 ^ 2 <= v1 ^ 2) by (destruct O; [left|right]; lra).
  rewrite (same_sign _ _ _ A1) in A3. rewrite (same_sign _ _ _ B1) in B3. split; [exact C1|]. split; [exact (affine_between _ _ _ _ _ BT A2 B2)|]. split; [|split; [|exact O]].
  - rewrite (same_sign _ _ _ C1). rewrite Rmult_plus_distr_l in *. rewrite (Rmult_comm d (v1 ^ 2 * _)), Rmult_assoc in A3. rewrite (Rmult_comm d (v3 ^ 2 * _)), Rmult_assoc in B3. rewrite (Rmult_comm d (v2 ^ 2 * _)), Rmult_assoc. exact (affine_between _ _ _ _ _ BT A3 B3).
  - rewrite Rmult_plus_distr_l in *. rewrite (Rmult_comm g (v1 ^ 2 * _)), Rmult_assoc in A4. rewrite (Rmult_comm g (v3 ^ 2 * _)), Rmult_assoc in B4. rewrite (Rmult_comm g (v2 ^ 2 * _)), Rmult_assoc. exact (affine_between _ _ _ _ _ BT A4 B4).
Qed.

(* between two speeds of self-stability no reported real eigenvalue is zero or positive: if
   the bicycle loses its balance there it does so by a growing oscillation (weave), not by
   capsizing *)
Theorem C79_between_only_weave : forall eig ps p g l evs i j k, eig_contract eig -> eig_complete eig -> dget ps "Benchmark" = Some p -> dget p "g" = Some g -> physical_bicycle p ->
  bicycle_eig eig ps (SpSeq l) = Ok evs -> (i < length l)%nat -> (j < length l)%nat -> (k < length l)%nat -> nth i l 0 < nth j l 0 < nth k l 0 ->
  balances_itself (bike_of p) (nth i l 0) g -> balances_itself (bike_of p) (nth k l 0) g ->
  forall z, In z (fst (nth j evs ([], []))) -> snd z = 0 -> fst z < 0.
Proof.
  intros eig ps p g l evs i j k EC CP E G PH H Hi Hj Hk O BI BK z Hz RZ. destruct (row_data eig ps p g l evs i E G H Hi) as (_ & p' & c & _ & _ & EP & _).
  assert (EB : snd (benchmark_par_to_canonical p) = Ok c) by (rewrite EP; reflexivity).
  apply (proj2 (C79_stable_speeds eig ps p g l evs i c EC CP E G PH H Hi EB)) in BI. apply (proj2 (C79_stable_speeds eig ps p g l evs k c EC CP E G PH H Hk EB)) in BK.
  destruct (only_weave c g _ _ _ O BI BK) as (P3 & P2 & P1 & P0 & _). pose proof (speed_coefficients p p' c (nth j l 0) g EP) as HC.
  destruct (spectrum_poly eig ps p g l evs j c _ _ _ _ _ EC CP E G H Hj EB HC) as (A4 & N4 & LW & HP).
  assert (P4 : 0 < inertia_c c) by (rewrite A4; exact (mass_det p p' c EP PH)).
  apply Rnot_le_lt. intros NZ. destruct z as [x y]. cbn [fst snd] in *. subst y. pose proof (HP x) as Q. apply roots_zero in Hz. change (map (lin x)) with (map (fun z : cplx => (x - fst z, - snd z))) in Q. rewrite roots_real, Hz in Q. injection Q as Q. unfold quartic in Q.
  set (a3 := nth j l 0 * damping_c c) in *. set (a2 := second_c _ _ _) in *. set (a1 := nth j l 0 * first_c c g _) in *. set (a0 := constant_c _ _ _) in *. clearbody a3 a2 a1 a0. set (a4 := inertia_c c) in *. clearbody a4.
  assert (0 < a0 / a4) by (apply Rdiv_lt_0_compat; assumption).
  assert (M : forall a n, 0 < a -> 0 <= a / a4 * x ^ n) by (intros a n PA; apply Rmult_le_pos; [apply Rlt_le, Rdiv_lt_0_compat; assumption|apply pow_le; lra]).
  pose proof (M a3 3%nat P3). pose proof (M a2 2%nat P2). pose proof (M a1 1%nat P1). assert (0 <= x ^ 4) by (apply pow_le; lra). rewrite pow_1 in *. lra.
Qed.
Print Assumptions C79_between_only_weave.

(* a physical bicycle balances itself in at most two ranges of speed *)
Theorem C79_at_most_two_ranges : forall p g c v1 v2 v3 v4 v5, dget p "g" = Some g -> physical_bicycle p -> snd (benchmark_par_to_canonical p) = Ok c -> v1 < v2 -> v2 < v3 -> v3 < v4 -> v4 < v5 ->
  balances_itself (bike_of p) v1 g -> balances_itself (bike_of p) v3 g -> balances_itself (bike_of p) v5 g -> balances_itself (bike_of p) v2 g \/ balances_itself (bike_of p) v4 g.
Proof.
  intros p g c v1 v2 v3 v4 v5 G PH EB L1 L2 L3 L4 B1 B3 B5. destruct (canonical_pair p c EB) as (p' & EP). pose proof (mass_det p p' c EP PH) as D. unfold det2 in D.
  destruct (C57_eigenvalues_exist [("Benchmark", p)] p g [v1; v2; v3; v4; v5] c eq_refl G EB ltac:(lra)) as (eig & evs & EC & CP & H & _).
  assert (K : forall i, (i < 5)%nat -> (balances_itself (bike_of p) (nth i [v1; v2; v3; v4; v5] 0) g <-> stable_conditions c g (nth i [v1; v2; v3; v4; v5] 0))) by (intros i Hi; exact (proj2 (C79_stable_speeds eig [("Benchmark", p)] p g [v1; v2; v3; v4; v5] evs i c EC CP eq_refl G PH H Hi EB))).
  pose proof (K 0%nat ltac:(lia)) as K1. pose proof (K 1%nat ltac:(lia)) as K2. pose proof (K 2%nat ltac:(lia)) as K3. pose proof (K 3%nat ltac:(lia)) as K4. pose proof (K 4%nat ltac:(lia)) as K5. cbn [nth] in *. clear K.
  rewrite K1 in B1. rewrite K3 in B3. rewrite K5 in B5. rewrite K2, K4. clear K1 K2 K3 K4 K5 EC CP H.
  destruct (only_weave c g v1 v2 v3 (conj L1 L2) B1 B3) as (P3 & P2 & P1 & P0 & O2). destruct (only_weave c g v3 v4 v5 (conj L3 L4) B3 B5) as (R3 & R2 & R1 & R0 & O4).
  destruct (Rlt_dec 0 (weave_c c g (v2 ^ 2))) as [W2|W2]; [left; unfold stable_conditions; rewrite (weave_positive _ _ _ P3); tauto|].
  destruct (Rlt_dec 0 (weave_c c g (v4 ^ 2))) as [W4|W4]; [right; unfold stable_conditions; rewrite (weave_positive _ _ _ R3); tauto|]. exfalso.
  destruct B1 as (D1 & _ & _ & _ & W1). destruct B3 as (D3 & _ & _ & _ & W3). destruct B5 as (D5 & _ & _ & _ & W5). rewrite (weave_positive _ _ _ D1) in W1. rewrite (weave_positive _ _ _ D3) in W3. rewrite (weave_positive _ _ _ D5) in W5.
  destruct (weave_quadratic c g) as (q2 & q1 & q0 & Q & _). rewrite Q in *. apply Rnot_lt_le in W2, W4. destruct O2 as [(O2 & DP)|(O2 & DP)]; destruct O4 as [(O4 & DP4)|(O4 & DP4)]; try lra.
  - exact (quadratic_signs q2 q1 q0 _ _ _ _ O2 (proj1 O4) W1 W2 W3 W4).
  - exact (quadratic_signs q2 q1 q0 _ _ _ _ O4 (proj1 O2) W5 W4 W3 W2).
Qed.
Print Assumptions C79_at_most_two_ranges.
(* speeds at which a shipped bicycle balances itself: the hypotheses of both theorems are met *)
Example C79_ranges_reported : forall v, 5 <= v <= 7 -> balances_itself (bike_of meijaard2007_browser_jason) v (981 / 100).
Proof.
  intros v Hv. destruct (C79_shipped_bicycles meijaard2007_browser_jason _ _ _ _ (or_introl eq_refl)) as (vw & vc & W1 & W2 & W).
  destruct (C79_reported meijaard2007_browser_jason _ _ _ _ [v] (or_introl eq_refl)) as (eig & evs & EC & CP & H & _).
  apply (proj1 (proj2 (W eig [("Benchmark", meijaard2007_browser_jason)] [v] evs 0%nat EC CP eq_refl H ltac:(cbn; lia)))). cbn [nth]. lra.
Qed.
Example C79_two_ranges_met : exists c, dget meijaard2007_browser_jason "g" = Some (981 / 100) /\ physical_bicycle meijaard2007_browser_jason /\ snd (benchmark_par_to_canonical meijaard2007_browser_jason) = Ok c /\
  forall v, In v [5; 6; 7] -> balances_itself (bike_of meijaard2007_browser_jason) v (981 / 100).
Proof.
  destruct (published_ok meijaard2007_browser_jason _ _ (or_introl eq_refl)) as (G & PH & EB). eexists. split; [exact G|]. split; [exact PH|]. split; [exact EB|].
  intros v Hv. apply C79_ranges_reported. cbn [In] in Hv. lra.
Qed.
