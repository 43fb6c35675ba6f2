(* PBicycle2.v -- further lemmas about ab_matrix, canonical matrices, trail and tilt *)
From Verif Require Import Base PBase MBicycle SBicycle PBicycle.
From Coq Require Import Lra Psatz.
Local Open Scope string_scope.
Local Open Scope R_scope.

Ltac struct_eq := repeat match goal with
  | |- cons _ _ = cons _ _ => apply f_equal2
  | |- pair _ _ = pair _ _ => apply f_equal2
  | |- nil = nil => reflexivity end.

Definition det2 (M : mat2) : R := m11 M * m22 M - m12 M * m21 M.

Lemma ab_forward M C1 K0 K2 v g : det2 M <> 0 ->
  ab_matrix M C1 K0 K2 v g =
  let i := 1 / det2 M in
  let a21 := m2_neg (m2_dot (m2_scale i (mk2 (m22 M) (- m12 M) (- m21 M) (m11 M)))
                            (m2_add (m2_scale g K0) (m2_scale (v ^ 2) K2))) in
  let a22 := m2_neg (m2_dot (m2_scale i (mk2 (m22 M) (- m12 M) (- m21 M) (m11 M))) (m2_scale v C1)) in
  Ok ([[0; 0; 1; 0]; [0; 0; 0; 1];
       [m11 a21; m12 a21; m11 a22; m12 a22]; [m21 a21; m22 a21; m21 a22; m22 a22]],
      [[0; 0]; [0; 0]; [i * m22 M; i * - m12 M]; [i * - m21 M; i * m11 M]]).
Proof.
  intros H. unfold ab_matrix, inv2. fold (det2 M). rewrite rdiv_eq by exact H. reflexivity.
Qed.

Lemma ab_ok M C1 K0 K2 v g AB : ab_matrix M C1 K0 K2 v g = Ok AB -> det2 M <> 0.
Proof.
  intros H. unfold ab_matrix, inv2 in H. apply bind_ok in H. destruct H as [i [H _]].
  apply bind_ok in H. destruct H as [k [H _]]. apply rdiv_ok in H. tauto.
Qed.

Lemma ab_success M C1 K0 K2 v g :
  (exists A B, ab_matrix M C1 K0 K2 v g = Ok (A, B)) <-> m11 M * m22 M - m12 M * m21 M <> 0.
Proof.
  split.
  - intros (A & B & H). exact (ab_ok _ _ _ _ _ _ _ H).
  - intros H. rewrite ab_forward by exact H. eexists _, _. reflexivity.
Qed.

Lemma list4_eq (a b c d a' b' c' d' : R) :
  [a; b; c; d] = [a'; b'; c'; d'] <-> a = a' /\ b = b' /\ c = c' /\ d = d'.
Proof. split; [intros H; inversion H; auto | intros (-> & -> & -> & ->); reflexivity]. Qed.

Lemma ab_eom M C1 K0 K2 v g A B :
  ab_matrix M C1 K0 K2 v g = Ok (A, B) ->
  forall qa qb ra rb qa' qb' ra' rb' ua ub,
    [qa'; qb'; ra'; rb'] = addv (mulv A [qa; qb; ra; rb]) (mulv B [ua; ub]) <->
    qa' = ra /\ qb' = rb /\ eom M C1 K0 K2 v g qa qb ra rb ra' rb' ua ub.
Proof.
  intros H qa qb ra rb qa' qb' ra' rb' ua ub.
  pose proof (ab_ok _ _ _ _ _ _ _ H) as D.
  rewrite ab_forward in H by exact D. injection H as <- <-.
  unfold mulv, addv, dotl; cbn [map combine fold_right fst snd].
  rewrite list4_eq. unfold eom.
  destruct M as [a b c d], C1 as [c11 c12 c21 c22], K0 as [k11 k12 k21 k22], K2 as [e11 e12 e21 e22].
  unfold det2 in *; cbn [m11 m12 m21 m22 m2_neg m2_dot m2_scale m2_add] in *.
  split.
  - intros (-> & -> & -> & ->). split; [ring|]. split; [ring|].
    split; field; exact D.
  - intros (-> & -> & <- & <-). split; [ring|]. split; [ring|].
    split; field; exact D.
Qed.

Lemma shape4 (A : marr) : length A = 4%nat -> Forall (fun r => length r = 4%nat) A ->
  exists r0 r1 r2 r3 : R * R * R * R,
    let f := fun r : R * R * R * R => let '(a, b, c, d) := r in [a; b; c; d] in
    A = [f r0; f r1; f r2; f r3].
Proof.
  intros L F.
  assert (X : forall r : list R, length r = 4%nat -> exists a b c d, r = [a; b; c; d]).
  { intros [|a [|b [|c [|d [|e r]]]]] Hr; simpl in Hr; try lia. eauto 10. }
  destruct A as [|r0 [|r1 [|r2 [|r3 [|r4 A]]]]]; simpl in L; try lia.
  inversion F as [|? ? H0 F1]; subst. inversion F1 as [|? ? H1 F2]; subst.
  inversion F2 as [|? ? H2 F3]; subst. inversion F3 as [|? ? H3 F4]; subst.
  destruct (X _ H0) as (a0 & b0 & c0 & d0 & ->), (X _ H1) as (a1 & b1 & c1 & d1 & ->),
           (X _ H2) as (a2 & b2 & c2 & d2 & ->), (X _ H3) as (a3 & b3 & c3 & d3 & ->).
  exists (a0, b0, c0, d0), (a1, b1, c1, d1), (a2, b2, c2, d2), (a3, b3, c3, d3). reflexivity.
Qed.
Lemma shape42 (A : marr) : length A = 4%nat -> Forall (fun r => length r = 2%nat) A ->
  exists a0 b0 a1 b1 a2 b2 a3 b3, A = [[a0; b0]; [a1; b1]; [a2; b2]; [a3; b3]].
Proof.
  intros L F.
  assert (X : forall r : list R, length r = 2%nat -> exists a b, r = [a; b]).
  { intros [|a [|b [|c r]]] Hr; simpl in Hr; try lia. eauto 10. }
  destruct A as [|r0 [|r1 [|r2 [|r3 [|r4 A]]]]]; simpl in L; try lia.
  inversion F as [|? ? H0 F1]; subst. inversion F1 as [|? ? H1 F2]; subst.
  inversion F2 as [|? ? H2 F3]; subst. inversion F3 as [|? ? H3 F4]; subst.
  destruct (X _ H0) as (a0 & b0 & ->), (X _ H1) as (a1 & b1 & ->),
           (X _ H2) as (a2 & b2 & ->), (X _ H3) as (a3 & b3 & ->).
  exists a0, b0, a1, b1, a2, b2, a3, b3. reflexivity.
Qed.

(* two matrices with the same action on all states and inputs are equal *)
Lemma action_unique A B A' B' :
  length A = 4%nat -> Forall (fun r => length r = 4%nat) A ->
  length A' = 4%nat -> Forall (fun r => length r = 4%nat) A' ->
  length B = 4%nat -> Forall (fun r => length r = 2%nat) B ->
  length B' = 4%nat -> Forall (fun r => length r = 2%nat) B' ->
  (forall a b c d e f, addv (mulv A [a; b; c; d]) (mulv B [e; f]) =
                       addv (mulv A' [a; b; c; d]) (mulv B' [e; f])) ->
  A' = A /\ B' = B.
Proof.
  intros LA FA LA' FA' LB FB LB' FB' H.
  destruct (shape4 A LA FA) as (r0 & r1 & r2 & r3 & ->).
  destruct (shape4 A' LA' FA') as (s0 & s1 & s2 & s3 & ->).
  destruct (shape42 B LB FB) as (? & ? & ? & ? & ? & ? & ? & ? & ->).
  destruct (shape42 B' LB' FB') as (? & ? & ? & ? & ? & ? & ? & ? & ->).
  destruct r0 as [[[? ?] ?] ?], r1 as [[[? ?] ?] ?], r2 as [[[? ?] ?] ?], r3 as [[[? ?] ?] ?].
  destruct s0 as [[[? ?] ?] ?], s1 as [[[? ?] ?] ?], s2 as [[[? ?] ?] ?], s3 as [[[? ?] ?] ?].
  pose proof (H 1 0 0 0 0 0) as H1. pose proof (H 0 1 0 0 0 0) as H2.
  pose proof (H 0 0 1 0 0 0) as H3. pose proof (H 0 0 0 1 0 0) as H4.
  pose proof (H 0 0 0 0 1 0) as H5. pose proof (H 0 0 0 0 0 1) as H6. clear H.
  unfold mulv, addv, dotl in *; cbn [map combine fold_right fst snd] in *.
  repeat match goal with X : [_; _; _; _] = [_; _; _; _] |- _ =>
    apply list4_eq in X; destruct X as (? & ? & ? & ?) end.
  split; repeat f_equal; lra.
Qed.

Lemma ab_shape M C1 K0 K2 v g A B :
  ab_matrix M C1 K0 K2 v g = Ok (A, B) ->
  length A = 4%nat /\ Forall (fun r => length r = 4%nat) A /\
  length B = 4%nat /\ Forall (fun r => length r = 2%nat) B.
Proof.
  intros H. pose proof (ab_ok _ _ _ _ _ _ _ H) as D. rewrite ab_forward in H by exact D.
  injection H as <- <-. repeat split; repeat constructor.
Qed.

Lemma ab_unique M C1 K0 K2 v g A B A' B' :
  ab_matrix M C1 K0 K2 v g = Ok (A, B) ->
  length A' = 4%nat -> Forall (fun r => length r = 4%nat) A' ->
  length B' = 4%nat -> Forall (fun r => length r = 2%nat) B' ->
  (forall qa qb ra rb qa' qb' ra' rb' ua ub,
    [qa'; qb'; ra'; rb'] = addv (mulv A' [qa; qb; ra; rb]) (mulv B' [ua; ub]) ->
    qa' = ra /\ qb' = rb /\ eom M C1 K0 K2 v g qa qb ra rb ra' rb' ua ub) ->
  A' = A /\ B' = B.
Proof.
  intros H LA FA LB FB Hs.
  pose proof (ab_shape _ _ _ _ _ _ _ _ H) as (LA1 & FA1 & LB1 & FB1).
  apply action_unique; auto.
  intros a b c d e f.
  assert (X : exists x y z t, addv (mulv A' [a; b; c; d]) (mulv B' [e; f]) = [x; y; z; t]).
  { destruct (shape4 A' LA FA) as (s0 & s1 & s2 & s3 & ->).
    destruct (shape42 B' LB FB) as (? & ? & ? & ? & ? & ? & ? & ? & ->).
    unfold mulv, addv; cbn [map combine]. eauto. }
  destruct X as (x & y & z & t & X). rewrite X.
  symmetry in X. apply Hs in X. apply (ab_eom _ _ _ _ _ _ _ _ H) in X. symmetry; exact X.
Qed.

(* --- reversal of the travel direction --- *)
Lemma ab_reversal M C1 K0 K2 v g A B A' B' re im x0 x1 x2 x3 y0 y1 y2 y3 :
  ab_matrix M C1 K0 K2 v g = Ok (A, B) -> ab_matrix M C1 K0 K2 (- v) g = Ok (A', B') ->
  eigenpair A re im [x0; x1; x2; x3] [y0; y1; y2; y3] ->
  eigenpair A' (- re) (- im) (flip_rates [x0; x1; x2; x3]) (flip_rates [y0; y1; y2; y3]).
Proof.
  intros H H' E. pose proof (ab_ok _ _ _ _ _ _ _ H) as D.
  rewrite ab_forward in H by exact D. injection H as <- <-.
  rewrite ab_forward in H' by exact D. injection H' as <- <-.
  unfold eigenpair, mulv, addv, dotl in *; cbn [flip_rates map combine fold_right fst snd] in *.
  rewrite !list4_eq in *.
  destruct M as [a b c d], C1 as [c11 c12 c21 c22], K0 as [k11 k12 k21 k22], K2 as [e11 e12 e21 e22].
  unfold det2 in *; cbn [m11 m12 m21 m22 m2_neg m2_dot m2_scale m2_add] in *.
  destruct E as ((E1 & E2 & E3 & E4) & (E5 & E6 & E7 & E8)).
  repeat split.
  - lra.
  - lra.
  - apply Rminus_diag_uniq. apply Rminus_diag_eq in E3. etransitivity; [|exact E3]. field; exact D.
  - apply Rminus_diag_uniq. apply Rminus_diag_eq in E4. etransitivity; [|exact E4]. field; exact D.
  - lra.
  - lra.
  - apply Rminus_diag_uniq. apply Rminus_diag_eq in E7. etransitivity; [|exact E7]. field; exact D.
  - apply Rminus_diag_uniq. apply Rminus_diag_eq in E8. etransitivity; [|exact E8]. field; exact D.
Qed.

Lemma ab_charpoly M C1 K0 K2 v g A B s :
  ab_matrix M C1 K0 K2 v g = Ok (A, B) ->
  let P a b := s ^ 2 * a M + s * v * a C1 + g * b K0 + v ^ 2 * b K2 in
  det 4 (sI_minus s A) * (m11 M * m22 M - m12 M * m21 M) =
  (s^2 * m11 M + s * v * m11 C1 + g * m11 K0 + v^2 * m11 K2) *
  (s^2 * m22 M + s * v * m22 C1 + g * m22 K0 + v^2 * m22 K2) -
  (s^2 * m12 M + s * v * m12 C1 + g * m12 K0 + v^2 * m12 K2) *
  (s^2 * m21 M + s * v * m21 C1 + g * m21 K0 + v^2 * m21 K2).
Proof.
  intros H. pose proof (ab_ok _ _ _ _ _ _ _ H) as D.
  rewrite ab_forward in H by exact D. injection H as <- <-. cbv zeta.
  destruct M as [a b c d], C1 as [c11 c12 c21 c22], K0 as [k11 k12 k21 k22], K2 as [e11 e12 e21 e22].
  unfold det2 in *; cbn [m11 m12 m21 m22 m2_neg m2_dot m2_scale m2_add] in *.
  unfold sI_minus. cbn [seq map Nat.eqb nth].
  cbn [det altsum hd tl map remove_at nth].
  field; exact D.
Qed.

(* --- kinetic energy --- *)
Lemma canonical_kinetic p p' c phi1 del1 psi1 :
  benchmark_par_to_canonical p = (p', Ok c) ->
  pv p "w" * psi1 = pv p "c" * cos (pv p "lam") * del1 ->
  m12 (cM c) = m21 (cM c) /\
  (m11 (cM c) * phi1 * phi1 + m12 (cM c) * phi1 * del1 + m21 (cM c) * del1 * phi1
   + m22 (cM c) * del1 * del1) / 2 = kinetic_energy (bike_of p) 0 phi1 psi1 del1.
Proof.
  intros H Hpsi.
  apply canon_inversion in H. destruct H as (_ & (N1 & N2 & N3 & N4 & N5) & _ & ->).
  pose proof (F_front (pv p) N2) as (A1 & A2 & A3 & A4).
  unfold F_canon; cbn [cM m11 m12 m21 m22]. split; [reflexivity|].
  rewrite A2, A3, A4. clear A1 A2 A3 A4.
  unfold F_ITxx, F_ITxz, F_ITzz, F_mu. sumb_simpl.
  assert (E : psi1 = pv p "c" * cos (pv p "lam") * del1 / pv p "w") by (rewrite <- Hpsi; field; exact N3).
  rewrite E. field. exact N3.
Qed.

Lemma sumsq_zero x y : x ^ 2 + y ^ 2 <= 0 -> x = 0 /\ y = 0.
Proof.
  intros H. pose proof (pow2_ge_0 x). pose proof (pow2_ge_0 y).
  assert (x ^ 2 = 0) by lra. assert (y ^ 2 = 0) by lra. simpl in *. rewrite Rmult_1_r in *.
  split; nra.
Qed.

Lemma quad_psd a b c x z : 0 <= a -> 0 <= c -> b ^ 2 <= a * c -> 0 <= a * x^2 + 2*b*x*z + c*z^2.
Proof.
  intros Ha Hc Hb. destruct (Req_dec a 0) as [->|Na].
  - assert (b = 0) by nra. subst. nra.
  - assert (0 < a) by lra.
    assert (0 <= a * (a * x^2 + 2*b*x*z + c*z^2)).
    { replace (a * (a * x^2 + 2*b*x*z + c*z^2)) with ((a*x + b*z)^2 + (a*c - b^2)*z^2) by ring.
      assert (0 <= (a*x+b*z)^2) by apply pow2_ge_0. assert (0 <= z^2) by apply pow2_ge_0. nra. }
    nra.
Qed.

Lemma body_energy_nonneg k b y1 phi1 psi1 del1 : physical b ->
  0 <= (b_m b * lat k b y1 phi1 psi1 del1 ^ 2
       + b_Ixx b * rot_x k b phi1 del1 ^ 2
       + 2 * b_Ixz b * rot_x k b phi1 del1 * rot_z k b psi1 del1
       + b_Izz b * rot_z k b psi1 del1 ^ 2) / 2.
Proof.
  intros (H1 & H2 & H3 & H4).
  pose proof (quad_psd _ _ _ (rot_x k b phi1 del1) (rot_z k b psi1 del1) H2 H3 H4).
  assert (0 <= lat k b y1 phi1 psi1 del1 ^ 2) by apply pow2_ge_0. nra.
Qed.

Lemma canonical_positive p p' c phi1 del1 :
  benchmark_par_to_canonical p = (p', Ok c) ->
  Forall physical (k_bodies (bike_of p)) -> 0 < pv p "IRxx" -> 0 < pv p "IFxx" ->
  (phi1 <> 0 \/ del1 <> 0) ->
  0 < m11 (cM c) * phi1 * phi1 + m12 (cM c) * phi1 * del1 + m21 (cM c) * del1 * phi1
      + m22 (cM c) * del1 * del1.
Proof.
  intros H Hph HR HF Hnz.
  pose proof (canon_inversion _ _ _ H) as (_ & (N1 & N2 & N3 & N4 & N5) & _ & _).
  set (psi1 := pv p "c" * cos (pv p "lam") * del1 / pv p "w").
  assert (Hpsi : pv p "w" * psi1 = pv p "c" * cos (pv p "lam") * del1)
    by (unfold psi1; field; exact N3).
  destruct (canonical_kinetic _ _ _ phi1 del1 psi1 H Hpsi) as [_ E].
  cut (0 < kinetic_energy (bike_of p) 0 phi1 psi1 del1); [lra|].
  unfold kinetic_energy, sumb.
  assert (Hb : forall b, In b (k_bodies (bike_of p)) -> physical b) by (apply Forall_forall; exact Hph).
  change (k_bodies (bike_of p)) with [rear_wheel p; rear_frame p; front_frame p; front_wheel p].
  cbn [fold_right].
  pose proof (body_energy_nonneg (bike_of p) (rear_frame p) 0 phi1 psi1 del1 (Hb _ (or_intror (or_introl eq_refl)))) as E2.
  pose proof (body_energy_nonneg (bike_of p) (front_frame p) 0 phi1 psi1 del1
     (Hb _ (or_intror (or_intror (or_introl eq_refl))))) as E3.
  assert (PR : physical (rear_wheel p)) by (apply Hb; left; reflexivity).
  assert (PF : physical (front_wheel p)) by (apply Hb; do 3 right; left; reflexivity).
  (* the wheels' rotational energies cannot both vanish *)
  assert (MR : 0 <= pv p "mR") by (destruct PR; assumption).
  assert (MF : 0 <= pv p "mF") by (destruct PF; assumption).
  set (k := bike_of p) in *.
  match goal with |- 0 < ?a + (?b + (?c + (?d + 0))) => set (eR := a) in *; set (eF := d) in *;
     assert (0 < eR + eF); [|lra] end.
  unfold eR, eF, rear_wheel, front_wheel; cbn [b_m b_x b_z b_Ixx b_Ixz b_Izz].
  set (lR := lat _ _ _ _ _ _). set (lF := lat _ _ _ _ _ _).
  assert (0 <= pv p "mR" * lR ^ 2) by (apply Rmult_le_pos; [assumption | apply pow2_ge_0]).
  assert (0 <= pv p "mF" * lF ^ 2) by (apply Rmult_le_pos; [assumption | apply pow2_ge_0]).
  unfold rot_x, rot_z, fr, k, bike_of; cbn [b_front k_lam].
  set (s := sin (pv p "lam")). set (q := cos (pv p "lam")).
  assert (SC : s^2 + q^2 = 1).
  { unfold s, q. pose proof (sin2_cos2 (pv p "lam")) as S. unfold Rsqr in S. lra. }
  set (A1 := phi1 + 0 * s * del1). set (A2 := psi1 + 0 * q * del1).
  set (A3 := phi1 + 1 * s * del1). set (A4 := psi1 + 1 * q * del1).
  assert (Z : 0 < A1^2 + A2^2 \/ 0 < A3^2 + A4^2).
  { destruct (Rle_lt_dec (A1^2 + A2^2) 0) as [L|L]; [|left; exact L]. right.
    destruct (Rle_lt_dec (A3^2 + A4^2) 0) as [L'|L']; [|exact L']. exfalso.
    apply sumsq_zero in L. apply sumsq_zero in L'. destruct L as [Z1 Z2], L' as [Z3 Z4].
    clear - SC Hnz Z1 Z2 Z3 Z4.
    assert (phi1 = 0) by (unfold A1 in *; lra). assert (psi1 = 0) by (unfold A2 in *; lra).
    assert (Z5 : s * del1 = 0) by (unfold A3 in *; lra). assert (Z6 : q * del1 = 0) by (unfold A4 in *; lra).
    assert (Z : del1 = 0).
    { replace del1 with ((s^2 + q^2) * del1) by (rewrite SC; ring).
      replace ((s^2 + q^2) * del1) with (s * (s * del1) + q * (q * del1)) by ring.
      rewrite Z5, Z6. ring. }
    tauto. }
  pose proof (pow2_ge_0 A1). pose proof (pow2_ge_0 A2). pose proof (pow2_ge_0 A3). pose proof (pow2_ge_0 A4).
  destruct Z as [Z|Z].
  - assert (0 < pv p "IRxx" * (A1^2 + A2^2)) by (apply Rmult_lt_0_compat; assumption).
    assert (0 <= pv p "IFxx" * (A3^2 + A4^2)) by (apply Rmult_le_pos; lra). lra.
  - assert (0 < pv p "IFxx" * (A3^2 + A4^2)) by (apply Rmult_lt_0_compat; assumption).
    assert (0 <= pv p "IRxx" * (A1^2 + A2^2)) by (apply Rmult_le_pos; lra). lra.
Qed.

Lemma canonical_state_space_exists p p' c v g :
  benchmark_par_to_canonical p = (p', Ok c) ->
  Forall physical (k_bodies (bike_of p)) -> 0 < pv p "IRxx" -> 0 < pv p "IFxx" ->
  exists A B, ab_matrix (cM c) (cC1 c) (cK0 c) (cK2 c) v g = Ok (A, B).
Proof.
  intros H Hph HR HF. apply ab_success.
  pose proof (canonical_positive _ _ _ 1 0 H Hph HR HF (or_introl R1_neq_R0)) as P1.
  pose proof (canonical_positive _ _ _ (- m12 (cM c)) (m11 (cM c)) H Hph HR HF) as P2.
  pose proof (canon_inversion _ _ _ H) as (_ & (_ & _ & N3 & _ & _) & _ & _).
  assert (SYM : m12 (cM c) = m21 (cM c)).
  { apply (canonical_kinetic _ _ _ 0 0 0 H). ring. }
  assert (0 < m11 (cM c)) by lra.
  assert (0 < m11 (cM c) * (m11 (cM c) * m22 (cM c) - m12 (cM c) * m21 (cM c))).
  { rewrite <- SYM in *. assert (X : - m12 (cM c) <> 0 \/ m11 (cM c) <> 0) by (right; lra).
    specialize (P2 X). nra. }
  nra.
Qed.

(* --- structure, frame and failure --- *)
Lemma canonical_structure p p' c :
  benchmark_par_to_canonical p = (p', Ok c) ->
  m12 (cM c) = m21 (cM c) /\ m12 (cK0 c) = m21 (cK0 c) /\
  m22 (cK0 c) = sin (pv p "lam") * m12 (cK0 c) /\
  m11 (cK0 c) = - pv p "rR" * pv p "mR" + pv p "zB" * pv p "mB" + pv p "zH" * pv p "mH" - pv p "rF" * pv p "mF" /\
  m11 (cC1 c) = 0 /\ m11 (cK2 c) = 0 /\ m21 (cK2 c) = 0.
Proof.
  intros H. apply canon_inversion in H. destruct H as (_ & (N1 & _) & _ & ->).
  unfold F_canon; cbn [cM cC1 cK0 cK2 m11 m12 m21 m22].
  repeat split; try ring. apply F_mTzT; exact N1.
Qed.

Lemma canonical_success p :
  (exists p' c, benchmark_par_to_canonical p = (p', Ok c)) <->
  (forall k, In k canon_keys -> In k (dkeys p)) /\ canon_nonzero (pv p).
Proof.
  split.
  - intros (p' & c & H). apply canon_inversion in H. tauto.
  - intros [H1 H2]. rewrite (canon_forward p H1 H2). eauto.
Qed.

Lemma canonical_frame p p' r k :
  benchmark_par_to_canonical p = (p', r) -> k <> "IRzz" -> k <> "IFzz" -> dget p' k = dget p k.
Proof.
  intros H N1 N2. apply String.eqb_neq in N1, N2. unfold benchmark_par_to_canonical in H.
  destruct (canon_phase1 p).
  - injection H as <- _. rewrite dget_dset_neq by exact N2. rewrite dget_dset_neq by exact N1. reflexivity.
  - injection H as <- _. reflexivity.
Qed.

Lemma canonical_writes p p' c :
  benchmark_par_to_canonical p = (p', Ok c) ->
  dget p' "IRzz" = dget p "IRxx" /\ dget p' "IFzz" = dget p "IFxx".
Proof.
  intros H. pose proof (canon_inversion _ _ _ H) as (HK & _ & -> & _).
  unfold canon_dict. rewrite dget_dset_neq by reflexivity. rewrite !dget_dset_eq.
  assert (X : forall k, In k canon_keys -> Some (pv p k) = dget p k).
  { intros k Hk. apply HK in Hk. apply dget_some_in in Hk. destruct Hk as [x Hx].
    unfold pv. rewrite Hx. reflexivity. }
  split; apply X; simpl; tauto.
Qed.

Lemma canonical_missing p k :
  canon_nonzero (pv p) -> first_missing p canon_keys = Some k ->
  snd (benchmark_par_to_canonical p) = Err (KeyError k).
Proof.
  intros (N1 & N2 & N3 & N4 & N5).
  unfold benchmark_par_to_canonical, canon_keys.
  assert (Q : forall a b k, k <> "IRzz" -> k <> "IFzz" ->
                dlook (dset (dset p "IRzz" a) "IFzz" b) k = dlook p k).
  { intros a b k' M1 M2. apply String.eqb_neq in M1, M2. unfold dlook.
    rewrite dget_dset_neq by exact M2. rewrite dget_dset_neq by exact M1. reflexivity. }
  assert (QR : forall a b, dlook (dset (dset p "IRzz" a) "IFzz" b) "IRzz" = Ok a).
  { intros. unfold dlook. rewrite dget_dset_neq by reflexivity. rewrite dget_dset_eq; reflexivity. }
  assert (QF : forall a b, dlook (dset (dset p "IRzz" a) "IFzz" b) "IFzz" = Ok b).
  { intros. unfold dlook. rewrite dget_dset_eq; reflexivity. }
  cbn [first_missing]. unfold canon_phase1.
  repeat match goal with
  | |- (if dmem p ?x then _ else Some ?x) = _ -> _ =>
      let E := fresh "E" in let M := fresh "M" in let L := fresh "L" in
      destruct (dmem p x) eqn:E;
      [ assert (L : dlook p x = Ok (pv p x))
          by (apply dlook_pv'; unfold dmem in E; destruct (dget p x) eqn:M; [eauto|discriminate])
      | let HH := fresh "HH" in intros HH; injection HH as <-;
        assert (L : dlook p x = Err (KeyError x))
          by (unfold dlook; unfold dmem in E; destruct (dget p x) eqn:M; [discriminate|reflexivity]);
        repeat ((rewrite L; cbn [bind]) ||
                match goal with HL : dlook p ?y = Ok _ |- context [dlook p ?y] => rewrite HL; cbn [bind] end ||
                (rewrite rdiv_eq by assumption; cbn [bind])); try reflexivity ]
  end; try (let X := fresh "X" in intros X; discriminate X).
  all: cbn [k_IRxx k_IFxx snd]; unfold canon_phase2; rewrite QR, QF; cbn [bind];
       rewrite !Q by discriminate;
       repeat ((match goal with HL : dlook ?d ?y = _ |- context [dlook ?d ?y] => rewrite HL; cbn [bind] end) ||
               (rewrite rdiv_eq by assumption; cbn [bind])); reflexivity.
Qed.

(* --- dependence and scaling --- *)
Lemma F_canon_ext f g : (forall k, In k canon_keys -> f k = g k) -> F_canon f = F_canon g.
Proof.
  intros H.
  unfold F_canon, F_SA, F_ST, F_SF, F_SR, F_mu, F_IAll, F_IAlx, F_IAlz, F_uA, F_IAxx, F_IAxz, F_IAzz,
    F_xA, F_zA, F_mA, F_ITxx, F_ITxz, F_ITzz, F_xT, F_zT, F_mT.
  rewrite (H "mR"), (H "mB"), (H "mH"), (H "mF"), (H "xB"), (H "xH"), (H "w"), (H "rR"), (H "zB"), (H "zH"),
    (H "rF"), (H "IRxx"), (H "IBxx"), (H "IHxx"), (H "IFxx"), (H "IBxz"), (H "IHxz"), (H "IBzz"), (H "IHzz"),
    (H "c"), (H "lam"), (H "IRyy"), (H "IFyy") by (simpl; tauto). reflexivity.
Qed.

Lemma canonical_depends p q :
  (forall k, In k canon_keys -> dget p k = dget q k) ->
  (forall c, snd (benchmark_par_to_canonical p) = Ok c <-> snd (benchmark_par_to_canonical q) = Ok c).
Proof.
  assert (X : forall p q, (forall k, In k canon_keys -> dget p k = dget q k) ->
     forall c, snd (benchmark_par_to_canonical p) = Ok c -> snd (benchmark_par_to_canonical q) = Ok c).
  { clear. intros p q H c Hp.
    destruct (benchmark_par_to_canonical p) as [p' r] eqn:E. simpl in Hp; subst r.
    apply canon_inversion in E. destruct E as (HK & HN & _ & ->).
    assert (HV : forall k, In k canon_keys -> pv q k = pv p k)
      by (intros k Hk; unfold pv; rewrite (H k Hk); reflexivity).
    rewrite canon_forward.
    - simpl. f_equal. apply F_canon_ext. exact HV.
    - intros k Hk. apply dget_some_in. rewrite <- (H k Hk). apply dget_some_in. auto.
    - unfold canon_nonzero in *. rewrite !HV by (simpl; tauto). exact HN. }
  intros H c. split; apply X; auto. intros k Hk; symmetry; auto.
Qed.

Lemma dget_scale k p x : dget (scale_inertial k p) x =
  option_map (fun y => if is_inertial x then k * y else y) (dget p x).
Proof.
  induction p as [|[a b] p IH]; simpl; auto.
  destruct (String.eqb x a) eqn:E; simpl; auto. apply String.eqb_eq in E; subst; reflexivity.
Qed.

Lemma pv_scale k p x : pv (scale_inertial k p) x = if is_inertial x then k * pv p x else pv p x.
Proof. unfold pv. rewrite dget_scale. destruct (dget p x); simpl; destruct (is_inertial x); ring. Qed.

Lemma canonical_scaling k p p' c : k <> 0 ->
  benchmark_par_to_canonical p = (p', Ok c) ->
  snd (benchmark_par_to_canonical (scale_inertial k p)) =
  Ok (mkcanon (m2_scale k (cM c)) (m2_scale k (cC1 c)) (m2_scale k (cK0 c)) (m2_scale k (cK2 c))).
Proof.
  intros Hk H. apply canon_inversion in H. destruct H as (HK & (N1 & N2 & N3 & N4 & N5) & _ & ->).
  assert (M1 : k * pv p "mR" + k * pv p "mB" + k * pv p "mH" + k * pv p "mF" <> 0).
  { replace (k * pv p "mR" + k * pv p "mB" + k * pv p "mH" + k * pv p "mF")
      with (k * (pv p "mR" + pv p "mB" + pv p "mH" + pv p "mF")) by ring.
    apply Rmult_integral_contrapositive; auto. }
  assert (M2 : k * pv p "mH" + k * pv p "mF" <> 0).
  { replace (k * pv p "mH" + k * pv p "mF") with (k * (pv p "mH" + pv p "mF")) by ring.
    apply Rmult_integral_contrapositive; auto. }
  rewrite canon_forward.
  - simpl snd. f_equal.
    assert (XT : F_xT (pv (scale_inertial k p)) = F_xT (pv p)).
    { unfold F_xT, F_mT. rewrite !pv_scale; cbn [is_inertial Ascii.eqb Bool.eqb orb]. field. auto. }
    assert (ZT : F_zT (pv (scale_inertial k p)) = F_zT (pv p)).
    { unfold F_zT, F_mT. rewrite !pv_scale; cbn [is_inertial Ascii.eqb Bool.eqb orb]. field. auto. }
    assert (XA : F_xA (pv (scale_inertial k p)) = F_xA (pv p)).
    { unfold F_xA, F_mA. rewrite !pv_scale; cbn [is_inertial Ascii.eqb Bool.eqb orb]. field. auto. }
    assert (ZA : F_zA (pv (scale_inertial k p)) = F_zA (pv p)).
    { unfold F_zA, F_mA. rewrite !pv_scale; cbn [is_inertial Ascii.eqb Bool.eqb orb]. field. auto. }
    unfold F_canon, F_SA, F_ST, F_SF, F_SR, F_mu, F_IAll, F_IAlx, F_IAlz, F_uA, F_IAxx, F_IAxz, F_IAzz.
    rewrite XT, ZT, XA, ZA.
    unfold F_ITxx, F_ITxz, F_ITzz, F_mA, F_mT.
    rewrite !pv_scale; cbn [is_inertial Ascii.eqb Bool.eqb orb].
    unfold m2_scale; cbn [cM cC1 cK0 cK2 m11 m12 m21 m22].
    f_equal; f_equal; field; repeat split; assumption.
  - intros x Hx. apply HK in Hx. apply dget_some_in in Hx. destruct Hx as [y Hy].
    apply dget_some_in. rewrite dget_scale, Hy. simpl. eauto.
  - unfold canon_nonzero. rewrite !pv_scale; cbn [is_inertial Ascii.eqb Bool.eqb orb]. repeat split; assumption.
Qed.

Lemma ab_scaling k M C1 K0 K2 v g A B : k <> 0 ->
  ab_matrix M C1 K0 K2 v g = Ok (A, B) ->
  ab_matrix (m2_scale k M) (m2_scale k C1) (m2_scale k K0) (m2_scale k K2) v g =
  Ok (A, map (map (fun x => x / k)) B).
Proof.
  intros Hk H. pose proof (ab_ok _ _ _ _ _ _ _ H) as D.
  rewrite ab_forward in H by exact D. injection H as <- <-.
  destruct M as [a b c d], C1 as [c11 c12 c21 c22], K0 as [k11 k12 k21 k22], K2 as [e11 e12 e21 e22].
  assert (D' : det2 (m2_scale k (mk2 a b c d)) <> 0).
  { unfold det2 in *; cbn [m11 m12 m21 m22 m2_scale] in *.
    replace (k * a * (k * d) - k * b * (k * c)) with (k * (k * (a * d - b * c))) by ring.
    repeat apply Rmult_integral_contrapositive_currified; auto. }
  rewrite ab_forward by exact D'. cbv zeta. f_equal.
  unfold det2 in *; cbn [m11 m12 m21 m22 m2_neg m2_dot m2_scale m2_add map] in *.
  assert (D2 : k * a * (k * d) - k * b * (k * c) <> 0) by exact D'.
  struct_eq; try reflexivity; try (field; repeat split; try assumption;
  replace (k ^ 2 * a * d - k ^ 2 * b * c) with (k * a * (k * d) - k * b * (k * c)) by ring; assumption).
Qed.

(* --- trail --- *)
Lemma trail_spec rF lam fo c cm :
  trail rF lam fo = Ok (c, cm) <->
  (* axis through the ground point (c, 0), tilt lam; wheel centre (0, -rF), contact (0, 0) *)
  let ahead x z := (x - c) * cos lam - z * sin lam in
  cos lam <> 0 /\ ahead 0 (- rF) = fo /\ ahead 0 0 = - cm.
Proof.
  unfold trail. cbv zeta. split.
  - intros H. apply bind_ok in H. destruct H as [c' [H H']].
    apply rdiv_ok in H. destruct H as [N ->]. injection H' as <- <-.
    split; [exact N|]. split; [field; exact N | ring].
  - intros (N & H1 & H2). rewrite rdiv_eq by exact N. cbn [bind].
    assert (E : (rF * sin lam - fo) / cos lam = c) by (rewrite <- H1; field; exact N).
    rewrite E. do 2 f_equal. lra.
Qed.
