(* TRouth.v -- C77: self-stability and the critical speeds follow from the canonical matrices *)
From Coq Require Import Lra Lia Permutation.
From Verif Require Import Base MString MHeap MBicycle MVec MInertia MModels MModels2 MEig PBase SBicycle PBicycle PBicycle2 SModels SModels2 SLean SEig SStab PEig2 PEig TBicycle TEig TStab PRoots SRouth PRouth.
Local Open Scope string_scope.
Local Open Scope R_scope.

(* every bicycle with bodies of positive mass *)
Definition physical_bicycle (p : dict R) : Prop := Forall physical (k_bodies (bike_of p)) /\ 0 < pv p "IRxx" /\ 0 < pv p "IFxx".

Lemma mass_det p p' c : benchmark_par_to_canonical p = (p', Ok c) -> physical_bicycle p -> 0 < det2 (cM c).
Proof.
  intros H (P & R1 & F1). pose proof (C03_mass_matrix_positive_definite p p' c) as Q. pose proof (fun x y => Q x y H P R1 F1) as D. clear Q.
  destruct (C04_structure p p' c H) as (S & _). pose proof (D 1 0 ltac:(left; lra)) as D1. pose proof (D (- m12 (cM c)) (m11 (cM c)) ltac:(right; lra)) as D2. rewrite <- S in *.
  assert (X : 0 < m11 (cM c) * (m11 (cM c) * m22 (cM c) - m12 (cM c) * m12 (cM c))) by lra. unfold det2. rewrite <- S. assert (Y : 0 < m11 (cM c)) by lra.
  destruct (Rlt_dec 0 (m11 (cM c) * m22 (cM c) - m12 (cM c) * m12 (cM c))) as [|N]; [assumption|]. exfalso. set (d := m11 (cM c) * m22 (cM c) - m12 (cM c) * m12 (cM c)) in *. clearbody d. nra.
Qed.
Lemma spectrum_poly eig ps p g l evs i c a4 a3 a2 a1 a0 : eig_contract eig -> eig_complete eig -> dget ps "Benchmark" = Some p -> dget p "g" = Some g ->
  bicycle_eig eig ps (SpSeq l) = Ok evs -> (i < length l)%nat -> snd (benchmark_par_to_canonical p) = Ok c -> has_coefficients (dynamic_det c (nth i l 0) g) a4 a3 a2 a1 a0 ->
  a4 = det2 (cM c) /\ a4 <> 0 /\ length (fst (nth i evs ([], []))) = 4%nat /\
  forall s : R, cprod (map (lin s) (fst (nth i evs ([], [])))) = (quartic (a3 / a4) (a2 / a4) (a1 / a4) (a0 / a4) s, 0).
Proof.
  intros EC CP E G H Hi EB HC. destruct (row_data eig ps p g l evs i E G H Hi) as (_ & p' & c' & A & B & HB & HA & SA & EE).
  rewrite HB in EB. cbn [snd] in EB. assert (c' = c) as -> by congruence. clear EB. destruct (nth i evs ([], [])) as [w V]. cbn [fst]. destruct (EC 4%nat A w V SA EE) as (LW & _).
  pose proof (ab_ok _ _ _ _ _ _ _ HA) as D. assert (A4 : a4 = det2 (cM c)).
  { pose proof (HC 0) as Q0. pose proof (HC 1) as Q1. pose proof (HC (-1)) as Q2. pose proof (HC 2) as Q3. pose proof (HC (-2)) as Q4. unfold dynamic_det in *. cbv zeta in *. unfold det2. lra. }
  assert (N4 : a4 <> 0) by (rewrite A4; exact D). split; [exact A4|]. split; [exact N4|]. split; [exact LW|].
  intros s. rewrite (CP A w V SA EE s). apply (f_equal2 (@pair R R)); [|reflexivity]. pose proof (C06_characteristic_polynomial _ _ _ _ _ _ A B s HA) as Q. fold (det2 (cM c)) in Q. rewrite <- A4 in Q.
  pose proof (HC s) as X. unfold dynamic_det in X. cbv zeta in X. rewrite <- Q in X. unfold quartic. apply (Rmult_eq_reg_r a4); [|exact N4]. rewrite X. field. exact N4.
Qed.

(* whether a bicycle balances itself can be read off the coefficients of the characteristic
   determinant: no eigenvalues are needed *)
Theorem C77_routh_hurwitz : forall eig ps p g l evs i c a4 a3 a2 a1 a0, eig_contract eig -> eig_complete eig -> dget ps "Benchmark" = Some p -> dget p "g" = Some g -> physical_bicycle p ->
  bicycle_eig eig ps (SpSeq l) = Ok evs -> (i < length l)%nat -> snd (benchmark_par_to_canonical p) = Ok c -> has_coefficients (dynamic_det c (nth i l 0) g) a4 a3 a2 a1 a0 ->
  ((forall z, In z (fst (nth i evs ([], []))) -> fst z < 0) <-> (0 < a3 /\ 0 < a2 /\ 0 < a1 /\ 0 < a0 /\ a4 * a1 ^ 2 + a0 * a3 ^ 2 < a1 * a2 * a3)) /\
  (balances_itself (bike_of p) (nth i l 0) g <-> (0 < a3 /\ 0 < a2 /\ 0 < a1 /\ 0 < a0 /\ a4 * a1 ^ 2 + a0 * a3 ^ 2 < a1 * a2 * a3)).
Proof.
  intros eig ps p g l evs i c a4 a3 a2 a1 a0 EC CP E G PH H Hi EB HC.
  assert (X : (forall z, In z (fst (nth i evs ([], []))) -> fst z < 0) <-> (0 < a3 /\ 0 < a2 /\ 0 < a1 /\ 0 < a0 /\ a4 * a1 ^ 2 + a0 * a3 ^ 2 < a1 * a2 * a3)).
  { destruct (spectrum_poly eig ps p g l evs i c a4 a3 a2 a1 a0 EC CP E G H Hi EB HC) as (A4 & N4 & LW & HP).
    assert (P4 : 0 < a4) by (rewrite A4; destruct (benchmark_par_to_canonical p) as [p' r] eqn:EP; cbn [snd] in EB; subst r; exact (mass_det p p' c EP PH)).
    destruct (factors _ _ _ _ _ LW HP) as (P & q & r & t & E3 & E2 & E1 & E0 & IFF). rewrite IFF, routh. cbv zeta. rewrite <- E3, <- E2, <- E1, <- E0.
    assert (PD : forall x, 0 < x / a4 <-> 0 < x). { intros x. split; intros Y; [apply (Rmult_lt_0_compat _ a4) in Y; [replace (x / a4 * a4) with x in Y by (field; exact N4); exact Y|exact P4]|apply Rdiv_lt_0_compat; assumption]. }
    rewrite !PD. assert (DD : a1 / a4 * (a2 / a4) * (a3 / a4) - ((a1 / a4) ^ 2 + a0 / a4 * (a3 / a4) ^ 2) = (a1 * a2 * a3 - (a4 * a1 ^ 2 + a0 * a3 ^ 2)) / a4 / a4 / a4) by (field; exact N4).
    assert (D3 : forall x, 0 < x / a4 / a4 / a4 <-> 0 < x) by (intros x; rewrite !PD; reflexivity).
    assert (D4 : (a1 / a4) ^ 2 + a0 / a4 * (a3 / a4) ^ 2 < a1 / a4 * (a2 / a4) * (a3 / a4) <-> a4 * a1 ^ 2 + a0 * a3 ^ 2 < a1 * a2 * a3).
    { specialize (D3 (a1 * a2 * a3 - (a4 * a1 ^ 2 + a0 * a3 ^ 2))). split; intros Y; [enough (0 < a1 * a2 * a3 - (a4 * a1 ^ 2 + a0 * a3 ^ 2)) by lra; apply D3; lra|]. assert (0 < a1 * a2 * a3 - (a4 * a1 ^ 2 + a0 * a3 ^ 2)) by lra. apply D3 in H0. lra. }
    rewrite D4. reflexivity. }
  split; [exact X|]. rewrite <- X. exact (C71_balances_itself_iff_all_real_parts_are_negative eig ps p g l evs i EC CP E G H Hi).
Qed.
Print Assumptions C77_routh_hurwitz.

Lemma coefficients c v g : exists a4 a3 a2 a1 a0, has_coefficients (dynamic_det c v g) a4 a3 a2 a1 a0 /\ a0 = dynamic_det c v g 0.
Proof.
  set (k f := g * f (cK0 c) + v ^ 2 * f (cK2 c)).
  exists (m11 (cM c) * m22 (cM c) - m12 (cM c) * m21 (cM c)),
    (v * (m11 (cM c) * m22 (cC1 c) + m11 (cC1 c) * m22 (cM c) - m12 (cM c) * m21 (cC1 c) - m12 (cC1 c) * m21 (cM c))),
    (m11 (cM c) * k m22 + k m11 * m22 (cM c) + v ^ 2 * m11 (cC1 c) * m22 (cC1 c) - m12 (cM c) * k m21 - k m12 * m21 (cM c) - v ^ 2 * m12 (cC1 c) * m21 (cC1 c)),
    (v * (m11 (cC1 c) * k m22 + k m11 * m22 (cC1 c) - m12 (cC1 c) * k m21 - k m12 * m21 (cC1 c))), (dynamic_det c v g 0).
  split; [|reflexivity]. intros s. unfold dynamic_det, k. cbv zeta. ring.
Qed.
(* zero is reported exactly at the capsize speed *)
Theorem C77_capsize_speed : forall eig ps p g l evs i c, eig_contract eig -> eig_complete eig -> dget ps "Benchmark" = Some p -> dget p "g" = Some g -> g <> 0 ->
  bicycle_eig eig ps (SpSeq l) = Ok evs -> (i < length l)%nat -> snd (benchmark_par_to_canonical p) = Ok c ->
  (In (0, 0) (fst (nth i evs ([], []))) <-> dynamic_det c (nth i l 0) g 0 = 0) /\
  (stiffening c <> 0 -> (In (0, 0) (fst (nth i evs ([], []))) <-> nth i l 0 ^ 2 = capsize_speed_squared c g)).
Proof.
  intros eig ps p g l evs i c EC CP E G NG H Hi EB. destruct (coefficients c (nth i l 0) g) as (a4 & a3 & a2 & a1 & a0 & HC & E0).
  destruct (spectrum_poly eig ps p g l evs i c a4 a3 a2 a1 a0 EC CP E G H Hi EB HC) as (A4 & N4 & LW & HP).
  assert (Z : In (0, 0) (fst (nth i evs ([], []))) <-> dynamic_det c (nth i l 0) g 0 = 0).
  { rewrite (zero_root _ _ HP). rewrite <- E0. unfold quartic. split; intros X; [apply (Rmult_eq_reg_r (/ a4)); [|apply Rinv_neq_0_compat; exact N4]; lra|rewrite X; field; exact N4]. }
  split; [exact Z|]. intros NS. rewrite Z. destruct (benchmark_par_to_canonical p) as [p' r] eqn:EP. cbn [snd] in EB. subst r. destruct (C04_structure p p' c EP) as (_ & S2 & _ & _ & _ & S3 & S4).
  assert (D : dynamic_det c (nth i l 0) g 0 = g * (g * (m11 (cK0 c) * m22 (cK0 c) - m12 (cK0 c) * m21 (cK0 c)) + nth i l 0 ^ 2 * stiffening c)).
  { unfold dynamic_det, stiffening. cbv zeta. rewrite S3, S4, <- S2. ring. }
  rewrite D. unfold capsize_speed_squared. set (d := m11 (cK0 c) * m22 (cK0 c) - m12 (cK0 c) * m21 (cK0 c)). set (v2 := nth i l 0 ^ 2). split; intros X.
  - apply Rmult_integral in X. destruct X as [X|X]; [contradiction|]. apply (Rmult_eq_reg_r (stiffening c)); [|exact NS]. unfold Rdiv. rewrite Rmult_assoc, Rinv_l by exact NS. lra.
  - rewrite X. field. exact NS.
Qed.
Print Assumptions C77_capsize_speed.

(* on one side of the capsize speed no bicycle balances itself *)
Theorem C77_no_balance_beyond_capsize : forall eig ps p g l evs i c, eig_contract eig -> eig_complete eig -> dget ps "Benchmark" = Some p -> dget p "g" = Some g -> 0 < g -> physical_bicycle p ->
  bicycle_eig eig ps (SpSeq l) = Ok evs -> (i < length l)%nat -> snd (benchmark_par_to_canonical p) = Ok c ->
  (stiffening c < 0 -> capsize_speed_squared c g <= nth i l 0 ^ 2 -> ~ balances_itself (bike_of p) (nth i l 0) g) /\
  (0 < stiffening c -> nth i l 0 ^ 2 <= capsize_speed_squared c g -> ~ balances_itself (bike_of p) (nth i l 0) g).
Proof.
  intros eig ps p g l evs i c EC CP E G PG PH H Hi EB. destruct (coefficients c (nth i l 0) g) as (a4 & a3 & a2 & a1 & a0 & HC & E0).
  pose proof (proj2 (C77_routh_hurwitz eig ps p g l evs i c a4 a3 a2 a1 a0 EC CP E G PH H Hi EB HC)) as RH.
  destruct (benchmark_par_to_canonical p) as [p' r] eqn:EP. cbn [snd] in EB. subst r. destruct (C04_structure p p' c EP) as (_ & S2 & _ & _ & _ & S3 & S4).
  assert (D : dynamic_det c (nth i l 0) g 0 = g * (g * (m11 (cK0 c) * m22 (cK0 c) - m12 (cK0 c) * m21 (cK0 c)) + nth i l 0 ^ 2 * stiffening c)).
  { unfold dynamic_det, stiffening. cbv zeta. rewrite S3, S4, <- S2. ring. }
  set (d := m11 (cK0 c) * m22 (cK0 c) - m12 (cK0 c) * m21 (cK0 c)) in *. unfold capsize_speed_squared. fold d. set (v2 := nth i l 0 ^ 2) in *. set (k := stiffening c) in *.
  assert (Q : k <> 0 -> g * d + v2 * k = (v2 - - g * d / k) * k) by (intros N; field; exact N).
  split; intros K X B; apply RH in B; destruct B as (_ & _ & _ & B0 & _); rewrite E0, D in B0; rewrite Q in B0 by lra; set (u := - g * d / k) in *; clearbody u d v2 k.
  - assert (Y : (v2 - u) * k <= 0) by nra. set (y := (v2 - u) * k) in *. clearbody y. nra.
  - assert (Y : (v2 - u) * k <= 0) by nra. set (y := (v2 - u) * k) in *. clearbody y. nra.
Qed.
Print Assumptions C77_no_balance_beyond_capsize.

(* the weave speeds: an undamped oscillation is reported exactly where the coefficients say so *)
Theorem C77_undamped_oscillation : forall eig ps p g l evs i c a4 a3 a2 a1 a0 y, eig_contract eig -> eig_complete eig -> dget ps "Benchmark" = Some p -> dget p "g" = Some g ->
  bicycle_eig eig ps (SpSeq l) = Ok evs -> (i < length l)%nat -> snd (benchmark_par_to_canonical p) = Ok c -> has_coefficients (dynamic_det c (nth i l 0) g) a4 a3 a2 a1 a0 -> y <> 0 ->
  (In (0, y) (fst (nth i evs ([], []))) <-> a1 = a3 * y ^ 2 /\ a4 * y ^ 4 - a2 * y ^ 2 + a0 = 0).
Proof.
  intros eig ps p g l evs i c a4 a3 a2 a1 a0 y EC CP E G H Hi EB HC NY.
  destruct (spectrum_poly eig ps p g l evs i c a4 a3 a2 a1 a0 EC CP E G H Hi EB HC) as (A4 & N4 & LW & HP). rewrite (imaginary_root _ _ _ _ _ y HP NY).
  assert (I : / a4 <> 0) by (apply Rinv_neq_0_compat; exact N4). split; intros [X1 X2]; split.
  - apply (Rmult_eq_reg_r (/ a4)); [|exact I]. unfold Rdiv in X1. rewrite X1. ring.
  - apply (Rmult_eq_reg_r (/ a4)); [|exact I]. rewrite Rmult_0_l, <- X2. field. exact N4.
  - rewrite X1. field. exact N4.
  - transitivity ((a4 * y ^ 4 - a2 * y ^ 2 + a0) / a4); [field; exact N4|]. rewrite X2. field. exact N4.
Qed.
Print Assumptions C77_undamped_oscillation.

(* the bicycle of TStab.v at 4 m/s: its characteristic determinant is
   4 s^4 + 56 s^3 + 252 s^2 + 424 s + 224, it balances itself above its capsize speed and at no
   speed up to 3 m/s *)
Lemma self_canon : snd (benchmark_par_to_canonical self_bike) = Ok (F_canon (pv self_bike)).
Proof. destruct self_canonical as (p' & c & H). pose proof (canon_inversion _ _ _ H) as (_ & _ & _ & EC). rewrite H, EC. reflexivity. Qed.
Lemma self_physical : physical_bicycle self_bike.
Proof. split; [exact (proj1 (proj2 (proj2 (proj2 C71_bicycle))))|]. unfold pv, self_bike. cbn [dget String.eqb Ascii.eqb Bool.eqb]. lra. Qed.
Example C77_bicycle : physical_bicycle self_bike /\ has_coefficients (dynamic_det (F_canon (pv self_bike)) 4 10) 4 56 252 424 224 /\
  (0 < 56 /\ 0 < 252 /\ 0 < 424 /\ 0 < 224 /\ 4 * 424 ^ 2 + 224 * 56 ^ 2 < 424 * 252 * 56) /\ balances_itself (bike_of self_bike) 4 10 /\
  0 < stiffening (F_canon (pv self_bike)) /\ 9 < capsize_speed_squared (F_canon (pv self_bike)) 10 < 16.
Proof.
  assert (HC : has_coefficients (dynamic_det (F_canon (pv self_bike)) 4 10) 4 56 252 424 224).
  { intros s. rewrite self_matrices. unfold dynamic_det. cbn [cM cC1 cK0 cK2 m11 m12 m21 m22]. cbv zeta. field. }
  split; [exact self_physical|]. split; [exact HC|]. split; [lra|]. split.
  { apply (proj2 (C77_routh_hurwitz self_eig [("Benchmark", self_bike)] self_bike 10 [4] [(self_w, self_V)] 0 _ 4 56 252 424 224 self_contract self_complete eq_refl eq_refl self_physical self_reported ltac:(cbn; lia) self_canon HC)). lra. }
  rewrite self_matrices. unfold capsize_speed_squared, stiffening. cbn [cM cC1 cK0 cK2 m11 m12 m21 m22]. split; [lra|].
  replace (- (10) * (- 202 / 25 * 0 - - (5 / 2) * - (5 / 2)) / (- 202 / 25 * (5 / 2) - - (5 / 2) * (4081 / 400))) with (10000 / 849) by field. lra.
Qed.
