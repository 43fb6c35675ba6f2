(* PNum.v -- numerical bounds: products of approximate numbers, sine and cosine *)
From Coq Require Import Reals Lra Lia.
Local Open Scope R_scope.

Definition near (e x x0 : R) : Prop := x0 - e <= x <= x0 + e.
Lemma near_mul e f d ax ay x x0 y y0 z0 : near e x x0 -> near f y y0 -> 0 <= e -> 0 <= f -> - ax <= x0 <= ax -> - ay <= y0 <= ay ->
  z0 - d <= x0 * y0 - (e * ay + f * ax + e * f) -> x0 * y0 + (e * ay + f * ax + e * f) <= z0 + d -> near d (x * y) z0.
Proof.
  unfold near. intros HX HY PE PF AX AY L U. assert (E : x * y = x0 * y0 + (x - x0) * y0 + x0 * (y - y0) + (x - x0) * (y - y0)) by ring.
  assert (B : forall a b p q, - p <= a <= p -> - q <= b <= q -> - (p * q) <= a * b <= p * q) by (intros a b p q; intros; split; nra).
  pose proof (B (x - x0) y0 e ay ltac:(lra) AY). pose proof (B x0 (y - y0) ax f AX ltac:(lra)). pose proof (B (x - x0) (y - y0) e f ltac:(lra) ltac:(lra)). rewrite E. lra.
Qed.

Lemma fact_S n : INR (Factorial.fact (S n)) = INR (S n) * INR (Factorial.fact n).
Proof. rewrite <- mult_INR. f_equal. Qed.
Ltac facts := rewrite ?fact_S; change (INR (Factorial.fact 0)) with 1; rewrite ?INR_IZR_INZ; cbn [Z.of_nat Pos.of_succ_nat Pos.succ].
Definition sin_low (a : R) : R := a - a ^ 3 / 6 + a ^ 5 / 120 - a ^ 7 / 5040 + a ^ 9 / 362880 - a ^ 11 / 39916800.
Definition cos_low (a : R) : R := 1 - a ^ 2 / 2 + a ^ 4 / 24 - a ^ 6 / 720 + a ^ 8 / 40320 - a ^ 10 / 3628800.
Lemma sin_bounds a : 0 <= a <= 1 -> sin_low a <= sin a <= sin_low a + a ^ 13 / 6227020800.
Proof.
  intros (A0 & A1). assert (P : a <= PI) by (pose proof PI2_3_2; lra). pose proof (sin_bound a 2 A0 P) as (L & U). unfold sin_low.
  assert (E1 : sin_approx a (2 * 2 + 1) = a - a ^ 3 / 6 + a ^ 5 / 120 - a ^ 7 / 5040 + a ^ 9 / 362880 - a ^ 11 / 39916800).
  { unfold sin_approx, sin_term. cbn [Nat.mul Nat.add sum_f_R0]. facts. field. }
  assert (E2 : sin_approx a (2 * (2 + 1)) = a - a ^ 3 / 6 + a ^ 5 / 120 - a ^ 7 / 5040 + a ^ 9 / 362880 - a ^ 11 / 39916800 + a ^ 13 / 6227020800).
  { unfold sin_approx, sin_term. cbn [Nat.mul Nat.add sum_f_R0]. facts. field. }
  rewrite E1 in L. rewrite E2 in U. split; assumption.
Qed.
Lemma cos_bounds a : 0 <= a <= 1 -> cos_low a <= cos a <= cos_low a + a ^ 12 / 479001600.
Proof.
  intros (A0 & A1). assert (P : a <= PI / 2) by (pose proof PI2_3_2; lra). assert (P' : - PI / 2 <= a) by (pose proof PI2_3_2; lra). pose proof (cos_bound a 2 P' P) as (L & U). unfold cos_low.
  assert (E1 : cos_approx a (2 * 2 + 1) = 1 - a ^ 2 / 2 + a ^ 4 / 24 - a ^ 6 / 720 + a ^ 8 / 40320 - a ^ 10 / 3628800).
  { unfold cos_approx, cos_term. cbn [Nat.mul Nat.add sum_f_R0]. facts. field. }
  assert (E2 : cos_approx a (2 * (2 + 1)) = 1 - a ^ 2 / 2 + a ^ 4 / 24 - a ^ 6 / 720 + a ^ 8 / 40320 - a ^ 10 / 3628800 + a ^ 12 / 479001600).
  { unfold cos_approx, cos_term. cbn [Nat.mul Nat.add sum_f_R0]. facts. field. }
  rewrite E1 in L. rewrite E2 in U. split; assumption.
Qed.
(* sine and cosine of 18 degrees *)
Lemma sin_18 : sin (PI / 10) = (sqrt 5 - 1) / 4.
Proof.
  set (s := sin (PI / 10)). set (k := cos (PI / 10)). pose proof PI_RGT_0. assert (P : 0 < s) by (apply sin_gt_0; lra). assert (K : 0 < k) by (apply cos_gt_0; lra). assert (E : s * s + k * k = 1) by (pose proof (sin2_cos2 (PI / 10)) as X; unfold Rsqr in X; exact X).
  assert (D : sin (2 * (PI / 10)) = cos (3 * (PI / 10))) by (rewrite <- cos_shift; f_equal; field).
  replace (3 * (PI / 10)) with (2 * (PI / 10) + PI / 10) in D by ring. rewrite cos_plus, sin_2a, cos_2a in D. fold s k in D.
  assert (F : k * (4 * s ^ 2 + 2 * s - 1) = 0) by (replace (k * k) with (1 - s * s) in D by lra; nra). apply Rmult_integral in F. destruct F as [F|F]; [lra|].
  assert (R5 : sqrt 5 * sqrt 5 = 5) by (apply sqrt_sqrt; lra). assert (P5 : 0 <= sqrt 5) by apply sqrt_pos.
  assert (Z : (4 * s + 1 - sqrt 5) * (4 * s + 1 + sqrt 5) = 0) by nra. apply Rmult_integral in Z. destruct Z; lra.
Qed.
