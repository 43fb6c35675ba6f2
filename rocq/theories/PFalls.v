(* PFalls.v -- a real polynomial of degree four without roots of positive real part *)
From Coq Require Import Lra Lia Permutation.
From Verif Require Import Base MBicycle MModels2 SModels2 SStab PRoots PRouth.
Local Open Scope R_scope.

Lemma factors_weak w b3 b2 b1 b0 : length w = 4%nat -> (forall s : R, cprod (map (lin s) w) = (quartic b3 b2 b1 b0 s, 0)) -> (forall z, In z w -> fst z <= 0) ->
  exists p q r t, b3 = p + r /\ b2 = q + t + p * r /\ b1 = p * t + r * q /\ b0 = q * t /\ 0 <= p /\ 0 <= q /\ 0 <= r /\ 0 <= t.
Proof.
  intros LW H N.
  destruct (Exists_dec (fun z : cplx => snd z <> 0) w) as [X|X].
  { intros z. destruct (Req_EM_T (snd z) 0); [right; tauto|left; assumption]. }
  - apply Exists_exists in X. destruct X as (z & Hz & NZ). assert (Hc : In (mirror z) w).
    { apply (Permutation_in _ (Permutation_sym (mirror_closed w _ H))). apply in_map, Hz. }
    destruct (two_of z (mirror z) w Hz Hc) as (l & P). { intros E. apply (f_equal snd) in E. unfold mirror in E. cbn in E. lra. }
    pose proof (Permutation_length P) as LP. rewrite LW in LP. destruct l as [|[x3 y3] [|[x4 y4] [|]]]; try discriminate LP. destruct z as [x y]. unfold mirror in P. cbn [fst snd] in *.
    assert (H2 : forall s : R, ((s - x) ^ 2 + y ^ 2) * ((s - x3) * (s - x4) - y3 * y4) = quartic b3 b2 b1 b0 s /\ ((s - x) ^ 2 + y ^ 2) * ((s - x3) * y4 + (s - x4) * y3) = 0).
    { intros s. specialize (H s). rewrite (cprod_perm s _ _ P) in H. unfold cprod, cmul in H. cbn [map fold_right fst snd] in H. injection H as E1 E2. split; [rewrite <- E1; ring|]. apply Ropp_eq_0_compat in E2. rewrite <- E2. ring. }
    assert (Y2 : 0 < y ^ 2) by (assert (0 <> y ^ 2) by (intros E; symmetry in E; apply NZ; cbn in E; nra); pose proof (pow2_ge_0 y); lra).
    assert (I : forall s : R, (s - x3) * y4 + (s - x4) * y3 = 0).
    { intros s. destruct (H2 s) as [_ E]. apply Rmult_integral in E. destruct E as [E|E]; [pose proof (pow2_ge_0 (s - x)); lra|exact E]. }
    pose proof (I 0) as I0. pose proof (I 1) as I1. assert (Y : y4 = - y3) by lra. subst y4. assert (XX : y3 * (x3 - x4) = 0) by lra. clear I I0 I1.
    exists (- 2 * x), (x ^ 2 + y ^ 2), (- (x3 + x4)), (x3 * x4 + y3 ^ 2).
    destruct (H2 0) as [Q0 _]. destruct (H2 1) as [Q1 _]. destruct (H2 (-1)) as [Q2 _]. destruct (H2 2) as [Q3 _]. destruct (H2 (-2)) as [Q4 _]. clear H2. unfold quartic in *.
    split; [lra|]. split; [lra|]. split; [lra|]. split; [lra|]. clear Q0 Q1 Q2 Q3 Q4.
    pose proof (N (x, y) Hz) as N1. pose proof (N (x3, y3) (Permutation_in (x3, y3) (Permutation_sym P) ltac:(cbn; tauto))) as N3.
    pose proof (N (x4, - y3) (Permutation_in (x4, - y3) (Permutation_sym P) ltac:(cbn; tauto))) as N4. cbn [fst] in *. pose proof (pow2_ge_0 x). pose proof (pow2_ge_0 y3). assert (0 <= x3 * x4) by nra. lra.
  - assert (R0 : forall z, In z w -> snd z = 0).
    { intros z Hz. destruct (Req_EM_T (snd z) 0); [assumption|]. exfalso. apply X, Exists_exists. exists z. auto. }
    destruct w as [|[x1 y1] [|[x2 y2] [|[x3 y3] [|[x4 y4] [|]]]]]; try discriminate LW.
    pose proof (R0 (x1, y1) ltac:(cbn; tauto)) as E1. pose proof (R0 (x2, y2) ltac:(cbn; tauto)) as E2. pose proof (R0 (x3, y3) ltac:(cbn; tauto)) as E3. pose proof (R0 (x4, y4) ltac:(cbn; tauto)) as E4. cbn [snd] in *. subst.
    assert (H2 : forall s : R, (s - x1) * (s - x2) * (s - x3) * (s - x4) = quartic b3 b2 b1 b0 s).
    { intros s. specialize (H s). unfold cprod, cmul in H. cbn [map fold_right fst snd] in H. injection H as E _. rewrite <- E. ring. }
    exists (- (x1 + x2)), (x1 * x2), (- (x3 + x4)), (x3 * x4).
    pose proof (H2 0) as Q0. pose proof (H2 1) as Q1. pose proof (H2 (-1)) as Q2. pose proof (H2 2) as Q3. pose proof (H2 (-2)) as Q4. clear H2 H. unfold quartic in *.
    split; [lra|]. split; [lra|]. split; [lra|]. split; [lra|]. clear Q0 Q1 Q2 Q3 Q4.
    pose proof (N (x1, 0) ltac:(cbn; tauto)) as N1. pose proof (N (x2, 0) ltac:(cbn; tauto)) as N2. pose proof (N (x3, 0) ltac:(cbn; tauto)) as N3. pose proof (N (x4, 0) ltac:(cbn; tauto)) as N4. cbn [fst] in *. clear - N1 N2 N3 N4. repeat split; nra.
Qed.
Lemma routh_weak p q r t : 0 <= p -> 0 <= q -> 0 <= r -> 0 <= t ->
  (let b3 := p + r in let b2 := q + t + p * r in let b1 := p * t + r * q in let b0 := q * t in
   0 <= b3 /\ 0 <= b2 /\ 0 <= b1 /\ 0 <= b0 /\ b1 ^ 2 + b0 * b3 ^ 2 <= b1 * b2 * b3).
Proof.
  intros P1 P2 P3 P4. cbv zeta. assert (D : (p * t + r * q) * (q + t + p * r) * (p + r) - (p * t + r * q) ^ 2 - q * t * (p + r) ^ 2 = p * r * ((q - t) ^ 2 + (p + r) * (p * t + r * q))) by ring.
  assert (0 <= p * r) by (apply Rmult_le_pos; assumption). assert (0 <= p * t) by (apply Rmult_le_pos; assumption). assert (0 <= r * q) by (apply Rmult_le_pos; assumption). assert (0 <= q * t) by (apply Rmult_le_pos; assumption).
  split; [lra|]. split; [lra|]. split; [lra|]. split; [lra|]. assert (0 <= (p + r) * (p * t + r * q)) by (apply Rmult_le_pos; lra). assert (0 <= p * r * ((q - t) ^ 2 + (p + r) * (p * t + r * q))) by (apply Rmult_le_pos; [lra|]; pose proof (pow2_ge_0 (q - t)); lra). lra.
Qed.
