(* PSpeeds.v -- the stable speeds of a bicycle *)
From Coq Require Import Lra Lia.
From Verif Require Import Base MVec MInertia MBicycle SBicycle PBicycle PBicycle2 SRouth SSpeeds TBicycle.
Local Open Scope R_scope.

Lemma speed_coefficients p p' c v g : benchmark_par_to_canonical p = (p', Ok c) ->
  has_coefficients (dynamic_det c v g) (inertia_c c) (v * damping_c c) (second_c c g (v ^ 2)) (v * first_c c g (v ^ 2)) (constant_c c g (v ^ 2)).
Proof.
  intros H. destruct (C04_structure p p' c H) as (S1 & S2 & Z1 & _ & _ & Z3 & Z4). intros s. unfold dynamic_det, inertia_c, damping_c, second_c, first_c, constant_c, mixed, determinant. cbv zeta. rewrite Z1, Z3, Z4. ring.
Qed.
Lemma weave_product c v g : v * first_c c g (v ^ 2) * second_c c g (v ^ 2) * (v * damping_c c) - (inertia_c c * (v * first_c c g (v ^ 2)) ^ 2 + constant_c c g (v ^ 2) * (v * damping_c c) ^ 2) = v ^ 2 * weave_c c g (v ^ 2).
Proof. unfold weave_c. ring. Qed.

(* Q is positive beyond one positive root *)
Lemma positive_root a b d : 0 < a -> d < 0 -> exists r, 0 < r /\ forall x, 0 <= x -> (0 < a * x ^ 2 + b * x + d <-> r < x) /\ (x < r -> a * x ^ 2 + b * x + d < 0).
Proof.
  intros PA ND. set (D := b ^ 2 - 4 * a * d). assert (PD : b ^ 2 < D) by (unfold D; nra). assert (P0 : 0 <= D) by nra. set (q := sqrt D). assert (Q2 : q * q = D) by (apply sqrt_sqrt, P0). assert (Q0 : 0 <= q) by apply sqrt_pos.
  assert (QB : Rabs b < q). { unfold q. rewrite <- sqrt_Rsqr_abs. apply sqrt_lt_1; [apply Rle_0_sqr|exact P0|]. unfold Rsqr. lra. }
  assert (B1 : - q < b < q) by (apply Rabs_def2 in QB; lra).
  exists ((- b + q) / (2 * a)). split; [apply Rdiv_lt_0_compat; lra|]. intros x PX.
  assert (E : a * x ^ 2 + b * x + d = a * (x - (- b + q) / (2 * a)) * (x + (b + q) / (2 * a))).
  { replace (a * (x - (- b + q) / (2 * a)) * (x + (b + q) / (2 * a))) with (a * x ^ 2 + b * x + (b ^ 2 - q * q) / (4 * a)) by (field; lra). rewrite Q2. unfold D. field. lra. }
  assert (P2 : 0 < x + (b + q) / (2 * a)) by (assert (0 < (b + q) / (2 * a)) by (apply Rdiv_lt_0_compat; lra); lra).
  rewrite E. set (y := x + (b + q) / (2 * a)) in *. set (r := (- b + q) / (2 * a)) in *. clearbody y r. clear E. split; [split|]; intros H.
  - apply Rnot_le_lt. intros L. assert (a * (x - r) * y <= 0); [|lra]. replace (a * (x - r) * y) with (- (a * (r - x) * y)) by ring. assert (0 <= a * (r - x) * y) by (apply Rmult_le_pos; [apply Rmult_le_pos|]; lra). lra.
  - apply Rmult_lt_0_compat; [apply Rmult_lt_0_compat|]; lra.
  - replace (a * (x - r) * y) with (- (a * (r - x) * y)) by ring. assert (0 < a * (r - x) * y) by (apply Rmult_lt_0_compat; [apply Rmult_lt_0_compat|]; lra). lra.
Qed.

Section Window.
  Variables (c : canon) (g lo hi lo2 hi2 : R).
  Let b1 V := first_c c g V.
  Let b2 V := second_c c g V.
  Let b0 V := constant_c c g V.
  Let Q V := weave_c c g V.
  Lemma weave_quadratic : exists q2 q1 q0, (forall V, Q V = q2 * V ^ 2 + q1 * V + q0) /\
    q2 = mixed (cC1 c) (cK2 c) * ((mixed (cM c) (cK2 c) + determinant (cC1 c)) * damping_c c - inertia_c c * mixed (cC1 c) (cK2 c)).
  Proof.
    unfold Q, weave_c, first_c, second_c, constant_c. set (x := damping_c c). set (y := inertia_c c). set (d := determinant (cC1 c)). set (e := determinant (cK0 c)).
    set (m1 := mixed (cM c) (cK0 c)). set (m2 := mixed (cM c) (cK2 c)). set (m3 := mixed (cC1 c) (cK0 c)). set (m4 := mixed (cC1 c) (cK2 c)). set (m5 := mixed (cK0 c) (cK2 c)). clearbody x y d e m1 m2 m3 m4 m5.
    exists (m4 * ((m2 + d) * x - y * m4)), (g * m3 * (m2 + d) * x + m4 * (g * m1) * x - 2 * y * (g * m3) * m4 - g * m5 * x ^ 2), (g * m3 * (g * m1) * x - y * (g * m3) ^ 2 - g * (g * e) * x ^ 2). split; [intros V; ring|reflexivity].
  Qed.
  Hypothesis G : 0 < g.
  Hypothesis DC : 0 < damping_c c.
  Hypothesis P1 : 0 < mixed (cC1 c) (cK2 c).
  Hypothesis P2 : 0 < mixed (cM c) (cK2 c) + determinant (cC1 c).
  Hypothesis P3 : mixed (cK0 c) (cK2 c) < 0.
  Hypothesis P4 : 0 < (mixed (cM c) (cK2 c) + determinant (cC1 c)) * damping_c c - inertia_c c * mixed (cC1 c) (cK2 c).
  Hypothesis Q0 : Q 0 < 0.
  Hypothesis L0 : 0 < lo.
  Hypothesis B1 : 0 < b1 (lo ^ 2).
  Hypothesis B2 : 0 < b2 (lo ^ 2).
  Hypothesis QL : Q (lo ^ 2) <= 0.
  Hypothesis QH : 0 < Q (hi ^ 2).
  Hypothesis HL : 0 < hi < lo2.
  Hypothesis LH2 : lo2 < hi2.
  Hypothesis C1 : 0 < b0 (lo2 ^ 2).
  Hypothesis C2 : b0 (hi2 ^ 2) < 0.
  Hypothesis P5 : mixed (cM c) (cK0 c) < 0.
  Lemma one_window : exists vw vc, lo <= vw < hi /\ lo2 < vc < hi2 /\
    forall v, ((0 < v * damping_c c /\ 0 < b2 (v ^ 2) /\ 0 < v * b1 (v ^ 2) /\ 0 < b0 (v ^ 2) /\ 0 < v ^ 2 * Q (v ^ 2)) <-> vw < v < vc) /\
      (v < vw \/ vc < v -> v * damping_c c < 0 \/ b2 (v ^ 2) < 0 \/ v * b1 (v ^ 2) < 0 \/ b0 (v ^ 2) < 0 \/ v ^ 2 * Q (v ^ 2) < 0).
  Proof.
    destruct weave_quadratic as (q2 & q1 & q0 & EQ & E2). assert (PQ2 : 0 < q2) by (rewrite E2; apply Rmult_lt_0_compat; assumption). assert (NQ0 : q0 < 0) by (pose proof (EQ 0) as X; rewrite X in Q0; lra).
    destruct (positive_root q2 q1 q0 PQ2 NQ0) as (r & PR & RQ). assert (RQ' : forall V, 0 <= V -> (0 < Q V <-> r < V)) by (intros V HV; rewrite EQ; apply (RQ V HV)). assert (RN : forall V, 0 <= V -> V < r -> Q V < 0) by (intros V HV; rewrite EQ; apply (RQ V HV)). clear EQ E2 RQ PQ2 NQ0.
    set (dk := determinant (cK0 c)) in *. set (m5 := mixed (cK0 c) (cK2 c)) in *. set (s := - (g * dk) / m5).
    assert (B0 : forall V, 0 < b0 V <-> V < s).
    { intros V. unfold b0, constant_c. fold dk m5. assert (E : g * dk + V * m5 = m5 * (V - s)) by (unfold s; field; lra). rewrite E. split; intros X.
      - apply Rnot_le_lt. intros L. assert (0 <= g * (- m5 * (V - s))) by (apply Rmult_le_pos; [lra|apply Rmult_le_pos; lra]). lra.
      - replace (g * (m5 * (V - s))) with (g * (- m5 * (s - V))) by ring. apply Rmult_lt_0_compat; [exact G|apply Rmult_lt_0_compat; lra]. }
    assert (S1 : lo2 ^ 2 < s) by (apply B0, C1). assert (S2 : s <= hi2 ^ 2) by (apply Rnot_lt_le; intros X; apply B0 in X; lra).
    assert (S3 : s <> hi2 ^ 2). { intros X. assert (Z : b0 (hi2 ^ 2) = 0) by (unfold b0, constant_c; fold dk m5; rewrite <- X; unfold s; field; lra). lra. }
    assert (R1 : lo ^ 2 <= r) by (apply Rnot_lt_le; intros X; apply RQ' in X; [lra|nra]). assert (R2 : r < hi ^ 2) by (apply RQ'; [nra|exact QH]).
    assert (S0 : 0 <= s) by nra. set (vw := sqrt r). set (vc := sqrt s). assert (W2 : vw * vw = r) by (apply sqrt_sqrt; lra). assert (V2 : vc * vc = s) by (apply sqrt_sqrt; lra).
    assert (W0 : 0 <= vw) by apply sqrt_pos. assert (V0 : 0 <= vc) by apply sqrt_pos.
    assert (MONO : forall x y, 0 <= x -> 0 <= y -> (x < y <-> x * x < y * y)) by (intros x y HX HY; split; intros HH; nra).
    exists vw, vc. split; [split; [apply Rnot_lt_le; intros X; apply MONO in X; nra|apply MONO; nra]|]. split; [split; apply MONO; nra|].
    assert (INC1 : forall V, lo ^ 2 <= V -> 0 < b1 V) by (intros V HV; unfold b1, first_c in *; nra). assert (INC2 : forall V, lo ^ 2 <= V -> 0 < b2 V) by (intros V HV; unfold b2, second_c in *; nra).
    intros v. split; [split|].
    - intros (X1 & _ & _ & X4 & X5). assert (PV : 0 < v) by (apply Rnot_le_lt; intros L; assert (0 <= (- v) * damping_c c) by (apply Rmult_le_pos; lra); lra). apply B0 in X4.
      assert (X6 : 0 < Q (v ^ 2)) by (apply Rnot_le_lt; intros L; assert (0 <= v ^ 2 * (- Q (v ^ 2))) by (apply Rmult_le_pos; nra); lra). apply RQ' in X6; [|nra]. split; apply MONO; nra.
    - intros (X1 & X2). assert (PV : 0 < v) by lra. assert (A1 : r < v ^ 2) by (apply MONO in X1; nra). assert (A2 : v ^ 2 < s) by (apply MONO in X2; nra). assert (PV2 : 0 < v ^ 2) by nra.
      split; [apply Rmult_lt_0_compat; assumption|]. split; [apply INC2; lra|]. split; [apply Rmult_lt_0_compat; [exact PV|apply INC1; lra]|]. split; [apply B0, A2|]. apply Rmult_lt_0_compat; [exact PV2|]. apply RQ'; lra.
    - intros X. destruct (Rlt_dec v 0) as [N|N]; [left; assert (0 < - v * damping_c c) by (apply Rmult_lt_0_compat; lra); lra|].
      destruct (Req_dec v 0) as [->|NZ]; [right; left; unfold b2, second_c; replace (0 ^ 2) with 0 by ring; assert (0 < g * - mixed (cM c) (cK0 c)) by (apply Rmult_lt_0_compat; lra); lra|].
      assert (PV : 0 < v) by lra. clear N NZ. destruct X as [X|X]; apply MONO in X; try lra.
      + do 4 right. assert (Y : Q (v ^ 2) < 0) by (apply RN; nra). assert (0 < v ^ 2) by nra. set (y := Q (v ^ 2)) in *. clearbody y. nra.
      + do 3 right. left. unfold b0, constant_c. fold dk m5. assert (E : g * dk + v ^ 2 * m5 = m5 * (v ^ 2 - s)) by (unfold s; field; lra). rewrite E.
        replace (g * (m5 * (v ^ 2 - s))) with (- (g * (- m5 * (v ^ 2 - s)))) by ring. assert (0 < g * (- m5 * (v ^ 2 - s))) by (apply Rmult_lt_0_compat; [exact G|apply Rmult_lt_0_compat; nra]). lra.
  Qed.
End Window.
