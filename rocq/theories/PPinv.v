(* PPinv.v -- the pseudo-inverse of the rows of any axes exists *)
From Coq Require Import Lra Lia Classical.
From Verif Require Import Base PBase MVec MInertia MInertia2 SBicycle SInertia SInertia2 PInertia PInertia2 TInertia2.
Local Open Scope R_scope.

Definition arow (b : R) : vec3 := mk3 (cos b ^ 2) (- 2 * sin b * cos b) (sin b ^ 2).
Lemma arow_dir b b1 : sin (b - b1) = 0 -> arow b = arow b1.
Proof.
  rewrite sin_minus. intros H. pose proof (sin2_cos2 b) as S1. pose proof (sin2_cos2 b1) as S2. unfold Rsqr in *. unfold arow.
  set (s := sin b) in *. set (c := cos b) in *. set (s1 := sin b1) in *. set (c1 := cos b1) in *. assert (E : s * c1 = c * s1) by lra.
  assert (Q : s ^ 2 = s1 ^ 2).
  { transitivity (s ^ 2 * (s1 * s1 + c1 * c1)); [rewrite S2; ring|]. transitivity (s ^ 2 * s1 ^ 2 + (s * c1) ^ 2); [ring|]. rewrite E. transitivity ((s * s + c * c) * s1 ^ 2); [ring|rewrite S1; ring]. }
  assert (P : s * c = s1 * c1).
  { transitivity (s * c * (s1 * s1 + c1 * c1)); [rewrite S2; ring|]. transitivity (c * s1 * (s * s1) + s * c1 * (c * c1)); [ring|]. rewrite <- E at 1. rewrite E. transitivity (s * (s * c1 * s1) + c * (c * s1 * c1)); [rewrite E; ring|]. transitivity ((s * s + c * c) * (s1 * c1)); [ring|rewrite S1; ring]. }
  f_equal; nra.
Qed.
(* moments of the axes selected by g *)
Definition num (g : R -> bool) (beta : list R) : R := sum_over (fun b => if g b then 1 else 0) beta.
Definition tot (g : R -> bool) (jay beta : list R) : R := sum_over (fun q : R * R => if g (snd q) then fst q else 0) (combine jay beta).
Definition sqs (g : R -> bool) (jay beta : list R) : R := sum_over (fun q : R * R => if g (snd q) then fst q ^ 2 else 0) (combine jay beta).
Lemma misfit_kinds (g : R -> bool) (r s : vec3) (jay beta : list R) (y : vec3) : length jay = length beta -> misfit jay (map (fun b => if g b then r else s) beta) y =
  sqs g jay beta - 2 * v3_dot r y * tot g jay beta + num g beta * v3_dot r y ^ 2
  + (sqs (fun b => negb (g b)) jay beta - 2 * v3_dot s y * tot (fun b => negb (g b)) jay beta + num (fun b => negb (g b)) beta * v3_dot s y ^ 2).
Proof.
  unfold misfit, sqs, tot, num, sum_over. revert jay. induction beta as [|b beta IH]; intros [|j jay] L; try discriminate; cbn [map combine fold_right fst snd]; [ring|]. rewrite IH by (cbn in L; lia). destruct (g b); cbn [negb]; ring.
Qed.
Lemma columns_kinds (g : R -> bool) (r s : vec3) (jay beta : list R) : length jay = length beta -> columns jay (map (fun b => if g b then r else s) beta) =
  v3_add (v3_scale (tot g jay beta) r) (v3_scale (tot (fun b => negb (g b)) jay beta) s).
Proof.
  unfold columns, v3_sum, tot, sum_over. revert jay. induction beta as [|b beta IH]; intros [|j jay] L; try discriminate; cbn [map combine fold_right fst snd].
  - destruct r as [x1 x2 x3], s as [y1 y2 y3]. vsimpl. f_equal; ring.
  - rewrite IH by (cbn in L; lia). destruct r as [x1 x2 x3], s as [y1 y2 y3]. destruct (g b); cbn [negb]; vsimpl; f_equal; ring.
Qed.
Lemma num_nonneg g beta : 0 <= num g beta.
Proof. apply sum_over_nonneg. intros b _. destruct (g b); lra. Qed.
Lemma num_zero (g : R -> bool) (beta jay : list R) : num g beta = 0 -> length jay = length beta -> tot g jay beta = 0 /\ sqs g jay beta = 0.
Proof.
  unfold tot, sqs. revert jay. induction beta as [|b beta IH]; intros [|j jay] Z L; try discriminate; [split; reflexivity|]. unfold num, sum_over in Z. cbn [fold_right] in Z. fold (sum_over (fun b => if g b then 1 else 0) beta) in Z. fold (num g beta) in Z. pose proof (num_nonneg g beta).
  unfold sum_over. cbn [combine fold_right fst snd]. destruct (g b); [lra|]. destruct (IH jay) as (A & B); [lra|cbn in L; lia|]. unfold sum_over in A, B. rewrite A, B. split; ring.
Qed.
(* the least squares of one number *)
Lemma one_mean n t (N : 0 < n) u : - 2 * (t / n) * t + n * (t / n) ^ 2 <= - 2 * u * t + n * u ^ 2 /\ (- 2 * u * t + n * u ^ 2 = - 2 * (t / n) * t + n * (t / n) ^ 2 -> u = t / n).
Proof.
  assert (E : - 2 * u * t + n * u ^ 2 = - 2 * (t / n) * t + n * (t / n) ^ 2 + n * (u - t / n) ^ 2) by (field; lra). rewrite E. pose proof (pow2_ge_0 (u - t / n)) as P. split; [nra|].
  intros H. assert (Z : n * (u - t / n) ^ 2 = 0) by lra. apply Rmult_integral in Z. destruct Z as [Z|Z]; [lra|]. rewrite <- Rsqr_pow2 in Z. apply Rsqr_0_uniq in Z. lra.
Qed.
Lemma num_none g beta : num g beta = 0 -> forall b, In b beta -> g b = false.
Proof.
  induction beta as [|a beta IH]; intros Z b []; unfold num, sum_over in Z; cbn [fold_right] in Z; fold (sum_over (fun b => if g b then 1 else 0) beta) in Z; fold (num g beta) in Z; pose proof (num_nonneg g beta); destruct (g a) eqn:E; try lra.
  - congruence.
  - apply IH; [lra|assumption].
Qed.
(* the shortest is the one in the span of the rows *)
Lemma shortest r s x y al be : x = v3_add (v3_scale al r) (v3_scale be s) -> v3_dot r y = v3_dot r x -> v3_dot s y = v3_dot s x -> sqnorm x <= sqnorm y.
Proof.
  intros E H1 H2. assert (O : v3_dot x y = v3_dot x x).
  { transitivity (al * v3_dot r y + be * v3_dot s y); [|rewrite H1, H2]; rewrite E; destruct r as [r1' r2' r3'], s as [s1 s2 s3], y as [y1 y2 y3]; vsimpl; ring. }
  clear -O. assert (P : 0 <= sqnorm (v3_sub y x)) by (unfold sqnorm; generalize (v3_sub y x); intros [x1 x2 x3]; cbn [vx vy vz]; pose proof (pow2_ge_0 x1); pose proof (pow2_ge_0 x2); pose proof (pow2_ge_0 x3); lra).
  assert (Q : sqnorm (v3_sub y x) = sqnorm y - 2 * v3_dot x y + v3_dot x x) by (destruct x as [x1 x2 x3], y as [y1 y2 y3]; unfold sqnorm; vsimpl; ring).
  assert (X : v3_dot x x = sqnorm x) by (destruct x as [x1 x2 x3]; unfold sqnorm; vsimpl; ring). lra.
Qed.
Lemma equal_rows r (beta : list R) : sqnorm r <> 0 -> exists cols, pseudo_inverse (map (fun _ => r) beta) cols.
Proof.
  intros N. set (g := fun _ : R => true). set (n := num g beta). exists (map (fun b => if g b then v3_scale (/ n / sqnorm r) r else mk3 0 0 0) beta).
  split; [rewrite !map_length; reflexivity|]. intros jay L x y. rewrite map_length in L. assert (EX : x = v3_add (v3_scale (tot g jay beta) (v3_scale (/ n / sqnorm r) r)) (v3_scale (tot (fun b => negb (g b)) jay beta) (mk3 0 0 0))) by (apply columns_kinds; exact L). clearbody x.
  change (map (fun _ => r) beta) with (map (fun b => if g b then r else r) beta). rewrite !misfit_kinds by exact L.
  assert (Z : num (fun b => negb (g b)) beta = 0) by (unfold num, g; cbn [negb]; clear; induction beta as [|b l IH]; [reflexivity|unfold sum_over in *; cbn [fold_right]; rewrite IH; ring]).
  destruct (num_zero _ _ jay Z L) as (Z1 & Z2). rewrite Z, Z1, Z2. fold n.
  assert (X : x = v3_add (v3_scale (tot g jay beta * (/ n / sqnorm r)) r) (v3_scale 0 r)) by (rewrite EX, Z1; clear; destruct r as [r1' r2' r3']; vsimpl; f_equal; ring).
  assert (D : v3_dot r x = tot g jay beta / n).
  { transitivity (tot g jay beta * / n * (sqnorm r / sqnorm r)); [rewrite X; clear; destruct r as [u1 u2 u3]; unfold sqnorm; vsimpl; unfold Rdiv; ring|]. unfold Rdiv. rewrite (Rinv_r _ N). ring. }
  pose proof (num_nonneg g beta) as NN. fold n in NN. destruct (Req_EM_T n 0) as [N0|N0].
  - destruct (num_zero g beta jay N0 L) as (T0 & S0). rewrite N0, T0, S0. split; [lra|]. intros _. rewrite T0 in X. assert (sqnorm x = 0) as -> by (rewrite X; clear; destruct r as [u1 u2 u3]; unfold sqnorm; vsimpl; ring). clear. unfold sqnorm. pose proof (pow2_ge_0 (vx y)). pose proof (pow2_ge_0 (vy y)). pose proof (pow2_ge_0 (vz y)). lra.
  - assert (NP : 0 < n) by lra. destruct (one_mean n (tot g jay beta) NP (v3_dot r y)) as (O1 & O2). rewrite D. split; [lra|]. intros Q. assert (U : v3_dot r y = tot g jay beta / n) by (apply O2; lra). apply (shortest r r x y _ _ X); congruence.
Qed.
(* rows of two directions are independent *)
Lemma arow_norm b : sqnorm (arow b) <> 0.
Proof. unfold sqnorm, arow. cbn [vx vy vz]. pose proof (sin2_cos2 b) as S. unfold Rsqr in S. set (c := cos b) in *. set (s := sin b) in *. clearbody c s. intros Z. assert (c ^ 2 = 0) by nra. assert (s ^ 2 = 0) by nra. nra. Qed.
Lemma independent b1 b2 : sin (b1 - b2) <> 0 -> sqnorm (arow b1) * sqnorm (arow b2) - v3_dot (arow b1) (arow b2) ^ 2 <> 0.
Proof.
  intros N. assert (E : sqnorm (arow b1) * sqnorm (arow b2) - v3_dot (arow b1) (arow b2) ^ 2 = sin (b1 - b2) ^ 2 * (2 * (cos b1 * cos b2 - sin b1 * sin b2) ^ 2 + 2 * (cos b1 * cos b2 + sin b1 * sin b2) ^ 2 + (sin b1 * cos b2 + cos b1 * sin b2) ^ 2)).
  { unfold sqnorm, arow, v3_dot. cbn [vx vy vz]. rewrite sin_minus. ring. }
  rewrite E. clear E. rewrite <- cos_plus, <- sin_plus. pose proof (sin2_cos2 (b1 + b2)) as S. unfold Rsqr in S. pose proof (pow2_ge_0 (cos b1 * cos b2 + sin b1 * sin b2)) as P. pose proof (pow2_ge_0 (cos (b1 + b2))) as P2.
  apply Rmult_integral_contrapositive. split; [apply pow_nonzero; exact N|]. nra.
Qed.
Lemma dual r s d : d = sqnorm r * sqnorm s - v3_dot r s ^ 2 -> d <> 0 ->
  let p := v3_sub (v3_scale (sqnorm s / d) r) (v3_scale (v3_dot r s / d) s) in let q := v3_sub (v3_scale (sqnorm r / d) s) (v3_scale (v3_dot r s / d) r) in
  v3_dot r p = 1 /\ v3_dot r q = 0 /\ v3_dot s p = 0 /\ v3_dot s q = 1.
Proof.
  intros E N p q. assert (A : forall u v w k l, v3_dot u (v3_sub (v3_scale k v) (v3_scale l w)) = k * v3_dot u v - l * v3_dot u w) by (intros [u1 u2 u3] [v1 v2 v3] [w1 w2 w3] k l; vsimpl; ring).
  assert (B : forall u, v3_dot u u = sqnorm u) by (intros [u1 u2 u3]; unfold sqnorm; vsimpl; ring). assert (C : v3_dot s r = v3_dot r s) by (destruct r as [u1 u2 u3], s as [v1 v2 v3]; vsimpl; ring).
  unfold p, q. rewrite !A, !B, C. repeat split; try (field; exact N); apply (Rmult_eq_reg_r d); try exact N; field_simplify; try exact N; rewrite E; ring.
Qed.
Theorem pseudo_inverse_exists : forall beta, exists cols, pseudo_inverse (axis_rows beta) cols.
Proof.
  intros beta. destruct (classic (two_directions beta)) as [(b1 & b2 & T)|N]; [|exact (C15_pseudo_inverse_exists beta N)].
  set (g := fun b => if Req_EM_T (sin (b - b1)) 0 then true else false). set (r := arow b1). set (s := arow b2).
  assert (E : axis_rows beta = map (fun b => if g b then r else s) beta).
  { apply map_ext_in. intros b B. fold (arow b). unfold g. destruct (Req_EM_T (sin (b - b1)) 0) as [Z|Z]; [apply arow_dir, Z|]. destruct (T b B) as [Q|Q]; [contradiction|apply arow_dir, Q]. }
  destruct (Req_EM_T (sin (b1 - b2)) 0) as [Z|NZ].
  { assert (r = s) as RS by (apply arow_dir, Z). destruct (equal_rows r beta (arow_norm b1)) as (cols & C). exists cols. rewrite E, <- RS. erewrite map_ext; [exact C|]. intros b. cbv beta. destruct (g b); reflexivity. }
  set (n := num g beta). set (m := num (fun b => negb (g b)) beta).
  destruct (Req_EM_T n 0) as [N0|N0].
  { destruct (equal_rows s beta (arow_norm b2)) as (cols & C). exists cols. rewrite E. erewrite map_ext_in; [exact C|]. intros b B. cbv beta. rewrite (num_none g beta N0 b B). reflexivity. }
  destruct (Req_EM_T m 0) as [M0|M0].
  { destruct (equal_rows r beta (arow_norm b1)) as (cols & C). exists cols. rewrite E. erewrite map_ext_in; [exact C|]. intros b B. cbv beta. pose proof (num_none _ beta M0 b B) as Q. cbv beta in Q. destruct (g b); [reflexivity|discriminate]. }
  pose proof (num_nonneg g beta) as Pn. pose proof (num_nonneg (fun b => negb (g b)) beta) as Pm. fold n in Pn. fold m in Pm. assert (0 < n) as NP by lra. assert (0 < m) as MP by lra.
  pose proof (independent b1 b2 NZ) as DN. fold r s in DN. set (d := sqnorm r * sqnorm s - v3_dot r s ^ 2) in DN. destruct (dual r s d eq_refl DN) as (D1 & D2 & D3 & D4). set (p := v3_sub (v3_scale (sqnorm s / d) r) _) in *. set (q := v3_sub (v3_scale (sqnorm r / d) s) _) in *.
  exists (map (fun b => if g b then v3_scale (/ n) p else v3_scale (/ m) q) beta). rewrite E. split; [rewrite !map_length; reflexivity|]. intros jay L x y. rewrite map_length in L. set (tg := tot g jay beta). set (th := tot (fun b => negb (g b)) jay beta).
  assert (EX : x = v3_add (v3_scale tg (v3_scale (/ n) p)) (v3_scale th (v3_scale (/ m) q))) by (apply columns_kinds; exact L). clearbody x.
  rewrite !misfit_kinds by exact L. fold n m tg th.
  assert (LIN : forall u, v3_dot u x = tg / n * v3_dot u p + th / m * v3_dot u q) by (intros u; rewrite EX; clear; clearbody p q; destruct u as [u1 u2 u3], p as [p1 p2 p3], q as [q1 q2 q3]; vsimpl; unfold Rdiv; ring).
  assert (RX : v3_dot r x = tg / n) by (rewrite LIN, D1, D2; ring). assert (SX : v3_dot s x = th / m) by (rewrite LIN, D3, D4; ring). rewrite RX, SX.
  destruct (one_mean n tg NP (v3_dot r y)) as (O1 & O2). destruct (one_mean m th MP (v3_dot s y)) as (O3 & O4). split; [lra|]. intros Q.
  assert (U1 : v3_dot r y = tg / n) by (apply O2; lra). assert (U2 : v3_dot s y = th / m) by (apply O4; lra).
  apply (shortest r s x y (tg / n * (sqnorm s / d) - th / m * (v3_dot r s / d)) (th / m * (sqnorm r / d) - tg / n * (v3_dot r s / d))); [|congruence|congruence].
  rewrite EX. unfold p, q. clear. generalize (sqnorm s / d) (sqnorm r / d) (v3_dot r s / d). intros e f h. generalize r s. intros [u1 u2 u3] [v1 v2 v3]. vsimpl. unfold Rdiv. f_equal; ring.
Qed.
