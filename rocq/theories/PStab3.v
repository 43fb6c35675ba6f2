(* PStab3.v -- the motions of the coasting bicycle and the eigenvalues of its state matrix *)
From Coq Require Import Lra Lia.
From Verif Require Import Base MString MHeap MBicycle MVec MInertia MSets MModels MModels2 SBicycle SModels SModels2 MEig SEig SStab PBase PBicycle PBicycle2 PModels8 PStab PStab2.
Local Open Scope string_scope.
Local Open Scope R_scope.

Definition Q4 (a b c d : R) (i : nat) : R := nth i [a; b; c; d] 0.
Lemma lin_stable A w : all_eigenvalues A w -> length w = 4%nat -> (forall z, In z w -> fst z < 0) ->
  exists C mu, 0 < mu /\ 0 <= C /\ forall T x, 0 <= T -> solves 4 (ent A) T x -> forall t i, 0 <= t <= T -> (i < 4)%nat ->
    Rabs (x t i) <= C * sumn 4 (fun j => Rabs (x 0 j)) * exp (- mu * t).
Proof.
  intros E L N. destruct (linear_decay 4 (ent A) w N (cayley A w E L)) as (C & mu & H1 & H2 & H3).
  exists (sqrt C), (mu / 2). split; [lra|]. split; [apply sqrt_pos|]. intros T x HT S t i Ht Hi. specialize (H3 T x HT S t i Ht Hi).
  set (s := sumn 4 (fun j => Rabs (x 0 j))). assert (P : forall j, 0 <= Rabs (x 0 j)) by (intros; apply Rabs_pos).
  assert (SP : 0 <= s) by (apply sumn_nonneg; auto).
  assert (NS : N2 4 (x 0) <= s ^ 2).
  { unfold N2, s. cbn [sumn]. rewrite <- !(pow2_abs (x 0 _)). pose proof (P 0%nat). pose proof (P 1%nat). pose proof (P 2%nat). pose proof (P 3%nat).
    generalize dependent (Rabs (x 0 0%nat)). generalize dependent (Rabs (x 0 1%nat)). generalize dependent (Rabs (x 0 2%nat)). generalize dependent (Rabs (x 0 3%nat)). clear. intros d Hd c Hc b Hb a Ha.
    assert (0 <= a * b) by (apply Rmult_le_pos; assumption). assert (0 <= a * c) by (apply Rmult_le_pos; assumption). assert (0 <= a * d) by (apply Rmult_le_pos; assumption).
    assert (0 <= b * c) by (apply Rmult_le_pos; assumption). assert (0 <= b * d) by (apply Rmult_le_pos; assumption). assert (0 <= c * d) by (apply Rmult_le_pos; assumption). lra. }
  assert (EE : exp (- mu * t) = exp (- (mu / 2) * t) ^ 2) by (cbn [pow]; rewrite Rmult_1_r, <- exp_plus; f_equal; field).
  apply Rsqr_incr_0_var; [|apply Rmult_le_pos; [apply Rmult_le_pos; [apply sqrt_pos|exact SP]|left; apply exp_pos]].
  rewrite <- Rsqr_abs. rewrite !Rsqr_pow2. replace ((sqrt C * s * exp (- (mu / 2) * t)) ^ 2) with ((sqrt C * sqrt C) * s ^ 2 * exp (- (mu / 2) * t) ^ 2) by ring.
  rewrite sqrt_sqrt by exact H2. rewrite <- EE. eapply Rle_trans; [exact H3|]. apply Rmult_le_compat_r; [left; apply exp_pos|]. rewrite Rmult_comm. apply Rmult_le_compat_l; assumption.
Qed.

Lemma ab_rows M C1 K0 K2 v g A B : ab_matrix M C1 K0 K2 v g = Ok (A, B) ->
  (forall q0 q1 q2 q3 q2' q3', eom M C1 K0 K2 v g q0 q1 q2 q3 q2' q3' 0 0 <-> q2' = mv 4 (ent A) (Q4 q0 q1 q2 q3) 2 /\ q3' = mv 4 (ent A) (Q4 q0 q1 q2 q3) 3) /\
  (forall x, mv 4 (ent A) x 0 = x 2%nat /\ mv 4 (ent A) x 1 = x 3%nat).
Proof.
  intros H. pose proof (ab_ok _ _ _ _ _ _ _ H) as D. rewrite ab_forward in H by exact D. injection H as <- <-. split.
  - intros. unfold mv, ent, eom, Q4. cbn [sumn nth].
    destruct M as [a b c d], C1 as [c11 c12 c21 c22], K0 as [k11 k12 k21 k22], K2 as [e11 e12 e21 e22].
    unfold det2 in *; cbn [m11 m12 m21 m22 m2_neg m2_dot m2_scale m2_add] in *. split.
    + intros (E1 & E2). split; (apply (Rmult_eq_reg_r (a * d - b * c)); [|exact D]).
      * transitivity ((d * (a * q2' + b * q3') - b * (c * q2' + d * q3'))); [ring|].
        replace (a * q2' + b * q3') with (- (v * (c11 * q2 + c12 * q3) + (g * (k11 * q0 + k12 * q1) + v ^ 2 * (e11 * q0 + e12 * q1)))) by lra.
        replace (c * q2' + d * q3') with (- (v * (c21 * q2 + c22 * q3) + (g * (k21 * q0 + k22 * q1) + v ^ 2 * (e21 * q0 + e22 * q1)))) by lra. field. exact D.
      * transitivity ((a * (c * q2' + d * q3') - c * (a * q2' + b * q3'))); [ring|].
        replace (a * q2' + b * q3') with (- (v * (c11 * q2 + c12 * q3) + (g * (k11 * q0 + k12 * q1) + v ^ 2 * (e11 * q0 + e12 * q1)))) by lra.
        replace (c * q2' + d * q3') with (- (v * (c21 * q2 + c22 * q3) + (g * (k21 * q0 + k22 * q1) + v ^ 2 * (e21 * q0 + e22 * q1)))) by lra. field. exact D.
    + intros (-> & ->). split; field; exact D.
  - intros x. unfold mv, ent. cbn [sumn nth]. split; ring.
Qed.

Section Bike.
  Variables (p p' : dict R) (c : canon) (v g : R) (A B : marr).
  Hypothesis HC : benchmark_par_to_canonical p = (p', Ok c).
  Hypothesis HA : ab_matrix (cM c) (cC1 c) (cK0 c) (cK2 c) v g = Ok (A, B).

  Lemma coasts_solves phi phi1 del del1 : coasts (bike_of p) v g phi phi1 del del1 -> forall T, solves 4 (ent A) T (fun t => Q4 (phi t) (del t) (phi1 t) (del1 t)).
  Proof.
    intros (phi2 & del2 & H) T t i Ht Hi. destruct (H t (proj1 Ht)) as (D1 & D2 & D3 & D4 & N). apply (canonical_newton_euler _ _ _ HC) in N.
    destruct (ab_rows _ _ _ _ _ _ _ _ HA) as [R2 R0]. apply R2 in N. destruct N as [N2 N3]. destruct (R0 (Q4 (phi t) (del t) (phi1 t) (del1 t))) as [R00 R01].
    destruct i as [|[|[|[|]]]]; [rewrite R00; exact D1|rewrite R01; exact D3|rewrite <- N2; exact D2|rewrite <- N3; exact D4|lia].
  Qed.
  Lemma solves_coasts x : (forall T, solves 4 (ent A) T x) -> coasts (bike_of p) v g (fun t => x t 0%nat) (fun t => x t 2%nat) (fun t => x t 1%nat) (fun t => x t 3%nat).
  Proof.
    intros S. destruct (ab_rows _ _ _ _ _ _ _ _ HA) as [R2 R0]. exists (fun t => mv 4 (ent A) (x t) 2), (fun t => mv 4 (ent A) (x t) 3). intros t Ht.
    assert (SS : forall i, (i < 4)%nat -> derivable_pt_lim (fun t => x t i) t (mv 4 (ent A) (x t) i)) by (intros i Hi; apply (S t); [lra|exact Hi]).
    destruct (R0 (x t)) as [R00 R01]. split; [rewrite <- R00; apply SS; lia|]. split; [apply SS; lia|]. split; [rewrite <- R01; apply SS; lia|]. split; [apply SS; lia|].
    apply (canonical_newton_euler _ _ _ HC). apply R2. split; apply mv_ext; intros j Hj; destruct j as [|[|[|[|]]]]; reflexivity || lia.
  Qed.
  Lemma stable_balances w : all_eigenvalues A w -> length w = 4%nat -> (forall z, In z w -> fst z < 0) -> balances_itself (bike_of p) v g.
  Proof.
    intros E L N. destruct (lin_stable A w E L N) as (C & mu & H1 & H2 & H3). exists (4 * C), mu. split; [exact H1|]. intros phi phi1 del del1 H t Ht.
    pose proof (coasts_solves _ _ _ _ H t) as S. specialize (H3 t _ Ht S t).
    pose proof (H3 0%nat ltac:(lra) ltac:(lia)) as X0. pose proof (H3 1%nat ltac:(lra) ltac:(lia)) as X1. pose proof (H3 2%nat ltac:(lra) ltac:(lia)) as X2. pose proof (H3 3%nat ltac:(lra) ltac:(lia)) as X3.
    unfold Q4 in X0, X1, X2, X3. cbn [nth sumn] in X0, X1, X2, X3. unfold size.
    replace (4 * C * (Rabs (phi 0) + Rabs (phi1 0) + Rabs (del 0) + Rabs (del1 0)) * exp (- mu * t)) with (4 * (C * (0 + Rabs (phi 0) + Rabs (del 0) + Rabs (phi1 0) + Rabs (del1 0)) * exp (- mu * t))) by ring. lra.
  Qed.
End Bike.
