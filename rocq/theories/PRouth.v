(* PRouth.v -- the roots of a real polynomial of degree four and its coefficients *)
From Coq Require Import Lra Lia Permutation.
From Verif Require Import Base MBicycle MModels2 SModels2 SStab PRoots.
Local Open Scope R_scope.

Notation lin s := (fun z : cplx => (s - fst z, - snd z)).
Definition mirror (z : cplx) : cplx := (fst z, - snd z).
Definition quartic (b3 b2 b1 b0 s : R) : R := s ^ 4 + b3 * s ^ 3 + b2 * s ^ 2 + b1 * s + b0.
Lemma cprod_mirror (s : R) w : cprod (map (lin s) (map mirror w)) = mirror (cprod (map (lin s) w)).
Proof.
  unfold cprod. induction w as [|[x y] w IH]; cbn [map fold_right]; [unfold mirror; cbn; apply (f_equal2 (@pair R R)); ring|].
  rewrite IH. destruct (fold_right cmul (1, 0) (map (lin s) w)) as [a b]. unfold cmul, mirror. cbn [fst snd]. apply (f_equal2 (@pair R R)); ring.
Qed.
Lemma mirror_closed w f : (forall s : R, cprod (map (lin s) w) = (f s, 0)) -> Permutation w (map mirror w).
Proof. intros H. apply spectrum_unique. intros s. rewrite cprod_mirror, H. unfold mirror. cbn [fst snd]. apply (f_equal2 (@pair R R)); ring. Qed.
Lemma two_of (a b : cplx) w : In a w -> In b w -> a <> b -> exists l, Permutation w (a :: b :: l).
Proof.
  intros Ha Hb N. destruct (in_split a w Ha) as (l1 & l2 & ->). assert (Hb' : In b (l1 ++ l2)).
  { apply in_app_or in Hb. apply in_or_app. destruct Hb as [|[|]]; [tauto|congruence|tauto]. }
  destruct (in_split b _ Hb') as (l3 & l4 & E). exists (l3 ++ l4)%list.
  transitivity (a :: (l1 ++ l2)); [symmetry; apply Permutation_middle|]. rewrite E. apply perm_skip. symmetry. apply Permutation_middle.
Qed.
Lemma cprod_perm (s : R) w w' : Permutation w w' -> cprod (map (lin s) w) = cprod (map (lin s) w').
Proof. intros P. rewrite !roots_real. apply roots_perm, P. Qed.
(* two real quadratic factors; the roots have negative real parts exactly if the factors have
   positive coefficients *)
Lemma factors w b3 b2 b1 b0 : length w = 4%nat -> (forall s : R, cprod (map (lin s) w) = (quartic b3 b2 b1 b0 s, 0)) ->
  exists p q r t, b3 = p + r /\ b2 = q + t + p * r /\ b1 = p * t + r * q /\ b0 = q * t /\
    ((forall z, In z w -> fst z < 0) <-> (0 < p /\ 0 < q /\ 0 < r /\ 0 < t)).
Proof.
  intros LW H.
  destruct (Exists_dec (fun z : cplx => snd z <> 0) w) as [X|X].
  { intros z. destruct (Req_EM_T (snd z) 0); [right; tauto|left; assumption]. }
  - apply Exists_exists in X. destruct X as (z & Hz & NZ). assert (Hc : In (mirror z) w).
    { apply (Permutation_in _ (Permutation_sym (mirror_closed w _ H))). apply in_map, Hz. }
    destruct (two_of z (mirror z) w Hz Hc) as (l & P). { intros E. apply (f_equal snd) in E. unfold mirror in E. cbn in E. lra. }
    pose proof (Permutation_length P) as LP. rewrite LW in LP. destruct l as [|[x3 y3] [|[x4 y4] [|]]]; try discriminate LP. destruct z as [x y]. unfold mirror in P. cbn [fst snd] in *.
    assert (H2 : forall s : R, ((s - x) ^ 2 + y ^ 2) * ((s - x3) * (s - x4) - y3 * y4) = quartic b3 b2 b1 b0 s /\ ((s - x) ^ 2 + y ^ 2) * ((s - x3) * y4 + (s - x4) * y3) = 0).
    { intros s. specialize (H s). rewrite (cprod_perm s _ _ P) in H. unfold cprod, cmul in H. cbn [map fold_right fst snd] in H. injection H as E1 E2. split; [rewrite <- E1; ring|]. apply Ropp_eq_0_compat in E2. rewrite <- E2. ring. }
    assert (Y2 : 0 < y ^ 2) by (assert (0 <> y ^ 2) by (intros E; symmetry in E; apply NZ; cbn in E; nra); pose proof (pow2_ge_0 y); lra).
    assert (I : forall s : R, (s - x3) * y4 + (s - x4) * y3 = 0).
    { intros s. destruct (H2 s) as [_ E]. apply Rmult_integral in E. destruct E as [E|E]; [pose proof (pow2_ge_0 (s - x)); lra|exact E]. }
    pose proof (I 0) as I0. pose proof (I 1) as I1. assert (Y : y4 = - y3) by lra. subst y4. assert (XX : y3 * (x3 - x4) = 0) by lra. clear I I0 I1.
    exists (- 2 * x), (x ^ 2 + y ^ 2), (- (x3 + x4)), (x3 * x4 + y3 ^ 2).
    destruct (H2 0) as [Q0 _]. destruct (H2 1) as [Q1 _]. destruct (H2 (-1)) as [Q2 _]. destruct (H2 2) as [Q3 _]. destruct (H2 (-2)) as [Q4 _]. clear H2. unfold quartic in *.
    split; [lra|]. split; [lra|]. split; [lra|]. split; [lra|]. clear Q0 Q1 Q2 Q3 Q4.
    split.
    + intros N. pose proof (N (x, y) Hz) as N1. pose proof (N (x3, y3) (Permutation_in (x3, y3) (Permutation_sym P) ltac:(cbn; tauto))) as N3.
      pose proof (N (x4, - y3) (Permutation_in (x4, - y3) (Permutation_sym P) ltac:(cbn; tauto))) as N4. cbn [fst] in *. pose proof (pow2_ge_0 x). pose proof (pow2_ge_0 y3). assert (0 < x3 * x4) by nra. lra.
    + intros (P1 & P2 & P3 & P4) z' Hz'. apply (Permutation_in _ P) in Hz'. apply Rmult_integral in XX. assert (N : x3 < 0 /\ x4 < 0).
      { destruct XX as [-> |E]; [|split; lra]. assert (0 < x3 * x4) by (replace (0 ^ 2) with 0 in P4 by ring; lra). destruct (Rlt_dec x3 0) as [L|L]; destruct (Rlt_dec x4 0) as [L'|L']; try (split; assumption); exfalso; nra. }
      destruct Hz' as [<-|[<-|[<-|[<-|[]]]]]; cbn [fst]; lra.
  - assert (R0 : forall z, In z w -> snd z = 0).
    { intros z Hz. destruct (Req_EM_T (snd z) 0); [assumption|]. exfalso. apply X, Exists_exists. exists z. auto. }
    destruct w as [|[x1 y1] [|[x2 y2] [|[x3 y3] [|[x4 y4] [|]]]]]; try discriminate LW.
    pose proof (R0 (x1, y1) ltac:(cbn; tauto)) as E1. pose proof (R0 (x2, y2) ltac:(cbn; tauto)) as E2. pose proof (R0 (x3, y3) ltac:(cbn; tauto)) as E3. pose proof (R0 (x4, y4) ltac:(cbn; tauto)) as E4. cbn [snd] in *. subst.
    assert (H2 : forall s : R, (s - x1) * (s - x2) * (s - x3) * (s - x4) = quartic b3 b2 b1 b0 s).
    { intros s. specialize (H s). unfold cprod, cmul in H. cbn [map fold_right fst snd] in H. injection H as E _. rewrite <- E. ring. }
    exists (- (x1 + x2)), (x1 * x2), (- (x3 + x4)), (x3 * x4).
    pose proof (H2 0) as Q0. pose proof (H2 1) as Q1. pose proof (H2 (-1)) as Q2. pose proof (H2 2) as Q3. pose proof (H2 (-2)) as Q4. clear H2 H. unfold quartic in *.
    split; [lra|]. split; [lra|]. split; [lra|]. split; [lra|]. clear Q0 Q1 Q2 Q3 Q4.
    assert (PN : forall a b, (a < 0 /\ b < 0) <-> (0 < - (a + b) /\ 0 < a * b)).
    { intros a b. split; [intros []; split; [lra|nra]|]. intros [A B]. destruct (Rlt_dec a 0) as [L|L]; destruct (Rlt_dec b 0) as [L'|L']; try (split; assumption); exfalso; nra. }
    split.
    + intros N. pose proof (N (x1, 0) ltac:(cbn; tauto)) as N1. pose proof (N (x2, 0) ltac:(cbn; tauto)) as N2. pose proof (N (x3, 0) ltac:(cbn; tauto)) as N3. pose proof (N (x4, 0) ltac:(cbn; tauto)) as N4. cbn [fst] in *.
      destruct (proj1 (PN x1 x2) (conj N1 N2)). destruct (proj1 (PN x3 x4) (conj N3 N4)). tauto.
    + intros (P1 & P2 & P3 & P4). destruct (proj2 (PN x1 x2) (conj P1 P2)). destruct (proj2 (PN x3 x4) (conj P3 P4)). intros z [<-|[<-|[<-|[<-|[]]]]]; cbn [fst]; assumption.
Qed.
Lemma routh p q r t : (0 < p /\ 0 < q /\ 0 < r /\ 0 < t) <->
  (let b3 := p + r in let b2 := q + t + p * r in let b1 := p * t + r * q in let b0 := q * t in
   0 < b3 /\ 0 < b2 /\ 0 < b1 /\ 0 < b0 /\ b1 ^ 2 + b0 * b3 ^ 2 < b1 * b2 * b3).
Proof.
  cbv zeta. assert (D : (p * t + r * q) * (q + t + p * r) * (p + r) - (p * t + r * q) ^ 2 - q * t * (p + r) ^ 2 = p * r * ((q - t) ^ 2 + (p + r) * (p * t + r * q))) by ring.
  split.
  - intros (P1 & P2 & P3 & P4). assert (0 < p * r) by (apply Rmult_lt_0_compat; assumption). assert (0 < p * t) by (apply Rmult_lt_0_compat; assumption). assert (0 < r * q) by (apply Rmult_lt_0_compat; assumption). assert (0 < q * t) by (apply Rmult_lt_0_compat; assumption).
    split; [lra|]. split; [lra|]. split; [lra|]. split; [lra|]. assert (0 < (p + r) * (p * t + r * q)) by (apply Rmult_lt_0_compat; lra). assert (0 < p * r * ((q - t) ^ 2 + (p + r) * (p * t + r * q))) by (apply Rmult_lt_0_compat; [lra|]; pose proof (pow2_ge_0 (q - t)); lra). lra.
  - intros (B3 & B2 & B1 & B0 & X). assert (Y : 0 < p * r * ((q - t) ^ 2 + (p + r) * (p * t + r * q))) by lra.
    assert (Z : 0 < (q - t) ^ 2 + (p + r) * (p * t + r * q)) by (pose proof (pow2_ge_0 (q - t)); assert (0 < (p + r) * (p * t + r * q)) by (apply Rmult_lt_0_compat; lra); lra).
    assert (PR : 0 < p * r). { destruct (Rlt_dec 0 (p * r)) as [|N]; [assumption|]. exfalso. assert (p * r * ((q - t) ^ 2 + (p + r) * (p * t + r * q)) <= 0); [|lra]. set (k := (q - t) ^ 2 + (p + r) * (p * t + r * q)) in *. clearbody k. nra. }
    assert (P1 : 0 < p /\ 0 < r). { clear D X Y Z B2 B1 B0. destruct (Rlt_dec p 0); destruct (Rlt_dec r 0); try (exfalso; nra); split; nra. }
    destruct P1 as [P1 P3]. assert (Q : 0 < q /\ 0 < t). { clear D X Y Z PR B2 B3. destruct (Rlt_dec q 0) as [L|L]; destruct (Rlt_dec t 0) as [L'|L']; try (exfalso; nra); split; nra. }
    tauto.
Qed.
(* complex evaluation: roots that are zero or on the imaginary axis *)
Lemma poly_agree w q : (forall s : R, cprod (map (lin s) w) = peval q (s, 0)) -> forall s, roots w s = peval q s.
Proof.
  intros H s. destruct (roots_poly w) as (p & P). set (d := padd p (map (cmul (copp c1)) q)).
  assert (D : forall s, peval d s = csub (roots w s) (peval q s)) by (intros y; unfold d; rewrite padd_eval, pscale_eval, P; ring).
  assert (Z : peval d s = c0).
  { apply (many_roots (length d) d (map point (seq 0 (length d)))); [lia|apply FinFun.Injective_map_NoDup; [intros a b; apply point_inj|apply seq_NoDup]|rewrite map_length, seq_length; lia|].
    intros z Hz. apply in_map_iff in Hz. destruct Hz as (k & <- & _). rewrite D. unfold point. rewrite <- H, roots_real. ring. }
  rewrite D in Z. apply csub_zero, Z.
Qed.
Lemma zero_root w f : (forall s : R, cprod (map (lin s) w) = (f s, 0)) -> (In (0, 0) w <-> f 0 = 0).
Proof.
  intros H. rewrite <- roots_zero. rewrite <- roots_real, H. unfold c0. split; [intros E; injection E; auto|intros ->; reflexivity].
Qed.
Lemma imaginary_root w b3 b2 b1 b0 y : (forall s : R, cprod (map (lin s) w) = (quartic b3 b2 b1 b0 s, 0)) -> y <> 0 ->
  (In (0, y) w <-> b1 = b3 * y ^ 2 /\ y ^ 4 - b2 * y ^ 2 + b0 = 0).
Proof.
  intros H N. rewrite <- roots_zero. rewrite (poly_agree w [(b0, 0); (b1, 0); (b2, 0); (b3, 0); (1, 0)]).
  - cbn [peval]. unfold cadd, cmul, c0. cbn [fst snd]. split.
    + intros E. injection E as E1 E2. assert (X : y * (b1 - b3 * y ^ 2) = 0) by (rewrite <- E2; ring). apply Rmult_integral in X. split; [destruct X; [contradiction|lra]|rewrite <- E1; ring].
    + intros [E1 E2]. apply (f_equal2 (@pair R R)); [transitivity (y ^ 4 - b2 * y ^ 2 + b0); [ring|exact E2]|]. rewrite E1. ring.
  - intros s. rewrite H. cbn [peval]. unfold cadd, cmul, c0, quartic. cbn [fst snd]. apply (f_equal2 (@pair R R)); ring.
Qed.
