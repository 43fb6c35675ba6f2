(* PUnits.v -- the Whipple model in other units *)
From Coq Require Import Lra Lia Permutation.
From Verif Require Import Base MString MHeap MBicycle MVec MModels MModels2 PBase SBicycle PBicycle PBicycle2 SModels SModels2 SLean SStab PRoots SUnits.
Local Open Scope string_scope.
Local Open Scope R_scope.

Section Units.
  Variables (u : units) (p p' : dict R).
  Hypothesis PU : positive_units u.
  Hypothesis U : in_units u p p'.
  Let m := u_mass u.
  Let l := u_length u.
  Let t := u_time u.
  Lemma units_pos : 0 < m /\ 0 < l /\ 0 < t.
  Proof. exact PU. Qed.
  Lemma canon_named k : In k canon_keys -> In k bench_names.
  Proof. unfold canon_keys, bench_names, lengths, masses, inertias. cbn [In app]. tauto. Qed.
  Lemma pv_units k : In k bench_names -> pv p' k = bench_unit u k * pv p k.
  Proof. intros K. unfold pv. rewrite (U k K). destruct (dget p k); cbn [option_map]; [reflexivity|ring]. Qed.
  Lemma keys_units k : In k bench_names -> In k (dkeys p) <-> In k (dkeys p').
  Proof. intros K. rewrite !dget_some_in, (U k K). destruct (dget p k); cbn [option_map]; split; intros (v & E); try discriminate; eauto. Qed.
  Lemma u_len k : smem k lengths = true -> bench_unit u k = l.
  Proof. intros H. unfold bench_unit, bench_dimension. rewrite H. cbn [powerRZ]. fold l. change (Pos.to_nat 1) with 1%nat. ring. Qed.
  Lemma u_mas k : smem k lengths = false -> smem k masses = true -> bench_unit u k = m.
  Proof. intros H1 H2. unfold bench_unit, bench_dimension. rewrite H1, H2. cbn [powerRZ]. change (Pos.to_nat 1) with 1%nat. fold m. ring. Qed.
  Lemma u_ine k : smem k lengths = false -> smem k masses = false -> smem k inertias = true -> bench_unit u k = m * l ^ 2.
  Proof. intros H1 H2 H3. unfold bench_unit, bench_dimension. rewrite H1, H2, H3. cbn [powerRZ]. change (Pos.to_nat 1) with 1%nat. change (Pos.to_nat 2) with 2%nat. fold m l. ring. Qed.
  Lemma u_lam : bench_unit u "lam" = 1.
  Proof. unfold bench_unit, bench_dimension. change (smem "lam" lengths) with false. change (smem "lam" masses) with false. change (smem "lam" inertias) with false. change (smem "lam" ["g"]) with false. cbn [powerRZ]. ring. Qed.
  Lemma u_g : bench_unit u "g" = gravity_unit u.
  Proof. unfold bench_unit, bench_dimension. change (smem "g" lengths) with false. change (smem "g" masses) with false. change (smem "g" inertias) with false. change (smem "g" ["g"]) with true. cbn [powerRZ]. change (Pos.to_nat 1) with 1%nat. change (Pos.to_nat 2) with 2%nat. unfold gravity_unit. destruct units_pos as (? & ? & ?). fold t l. field. lra. Qed.
  Ltac values := rewrite !pv_units by (unfold bench_names, lengths, masses, inertias; cbn [In app]; tauto);
    rewrite ?(u_len "w"), ?(u_len "c"), ?(u_len "rR"), ?(u_len "rF"), ?(u_len "xB"), ?(u_len "zB"), ?(u_len "xH"), ?(u_len "zH"),
      ?(u_mas "mR"), ?(u_mas "mB"), ?(u_mas "mH"), ?(u_mas "mF"), ?(u_ine "IRxx"), ?(u_ine "IRyy"), ?(u_ine "IBxx"), ?(u_ine "IBzz"), ?(u_ine "IBxz"), ?(u_ine "IHxx"), ?(u_ine "IHzz"), ?(u_ine "IHxz"), ?(u_ine "IFxx"), ?(u_ine "IFyy"), ?u_lam by reflexivity.

  Lemma nonzero_units : canon_nonzero (pv p) <-> canon_nonzero (pv p').
  Proof.
    destruct units_pos as (PM & PL & PT). unfold canon_nonzero. values.
    assert (S : forall a x, 0 < a -> (x <> 0 <-> a * x <> 0)) by (intros a x Ha; split; intros N E; apply N; [apply Rmult_integral in E; destruct E; [lra|assumption]|rewrite E; ring]).
    rewrite (S m (pv p "mR" + pv p "mB" + pv p "mH" + pv p "mF") PM), (S m (pv p "mH" + pv p "mF") PM), (S l (pv p "w") PL), (S l (pv p "rR") PL), (S l (pv p "rF") PL).
    replace (m * pv p "mR" + m * pv p "mB" + m * pv p "mH" + m * pv p "mF") with (m * (pv p "mR" + pv p "mB" + pv p "mH" + pv p "mF")) by ring.
    replace (m * pv p "mH" + m * pv p "mF") with (m * (pv p "mH" + pv p "mF")) by ring. reflexivity.
  Qed.
  Lemma canon_units : canon_nonzero (pv p) ->
    F_canon (pv p') = mkcanon (m2_scale (m * l ^ 2) (cM (F_canon (pv p)))) (m2_scale (m * l) (cC1 (F_canon (pv p)))) (m2_scale (m * l) (cK0 (F_canon (pv p)))) (m2_scale m (cK2 (F_canon (pv p)))).
  Proof.
    intros NZ. destruct units_pos as (PM & PL & PT). pose proof (proj1 nonzero_units NZ) as NZ'. destruct NZ as (N1 & N2 & N3 & N4 & N5).
    assert (MT : F_mT (pv p') = m * F_mT (pv p)) by (unfold F_mT; values; ring).
    assert (MA : F_mA (pv p') = m * F_mA (pv p)) by (unfold F_mA; values; ring).
    assert (D1 : F_mT (pv p) <> 0) by exact N1. assert (D2 : F_mA (pv p) <> 0) by exact N2.
    assert (XT : F_xT (pv p') = l * F_xT (pv p)) by (unfold F_xT; rewrite MT; values; field; split; [exact D1|lra]).
    assert (ZT : F_zT (pv p') = l * F_zT (pv p)) by (unfold F_zT; rewrite MT; values; field; split; [exact D1|lra]).
    assert (XA : F_xA (pv p') = l * F_xA (pv p)) by (unfold F_xA; rewrite MA; values; field; split; [exact D2|lra]).
    assert (ZA : F_zA (pv p') = l * F_zA (pv p)) by (unfold F_zA; rewrite MA; values; field; split; [exact D2|lra]).
    assert (A1 : F_ITxx (pv p') = m * l ^ 2 * F_ITxx (pv p)) by (unfold F_ITxx; values; ring).
    assert (A2 : F_ITxz (pv p') = m * l ^ 2 * F_ITxz (pv p)) by (unfold F_ITxz; values; ring).
    assert (A3 : F_ITzz (pv p') = m * l ^ 2 * F_ITzz (pv p)) by (unfold F_ITzz; values; ring).
    assert (A4 : F_IAxx (pv p') = m * l ^ 2 * F_IAxx (pv p)) by (unfold F_IAxx; rewrite ZA; values; ring).
    assert (A5 : F_IAxz (pv p') = m * l ^ 2 * F_IAxz (pv p)) by (unfold F_IAxz; rewrite ZA, XA; values; ring).
    assert (A6 : F_IAzz (pv p') = m * l ^ 2 * F_IAzz (pv p)) by (unfold F_IAzz; rewrite XA; values; ring).
    assert (LA : pv p' "lam" = pv p "lam") by (values; ring).
    assert (UA : F_uA (pv p') = l * F_uA (pv p)) by (unfold F_uA; rewrite XA, ZA, LA; values; ring).
    assert (A7 : F_IAll (pv p') = m * l ^ 2 * F_IAll (pv p)) by (unfold F_IAll; rewrite MA, UA, A4, A5, A6, LA; ring).
    assert (A8 : F_IAlx (pv p') = m * l ^ 2 * F_IAlx (pv p)) by (unfold F_IAlx; rewrite MA, UA, ZA, A4, A5, LA; ring).
    assert (A9 : F_IAlz (pv p') = m * l ^ 2 * F_IAlz (pv p)) by (unfold F_IAlz; rewrite MA, UA, XA, A5, A6, LA; ring).
    assert (MU : F_mu (pv p') = F_mu (pv p)) by (unfold F_mu; rewrite LA; values; field; split; [exact N3|lra]).
    assert (SR : F_SR (pv p') = m * l * F_SR (pv p)) by (unfold F_SR; values; field; split; [exact N4|lra]).
    assert (SF : F_SF (pv p') = m * l * F_SF (pv p)) by (unfold F_SF; values; field; split; [exact N5|lra]).
    assert (ST : F_ST (pv p') = m * l * F_ST (pv p)) by (unfold F_ST; rewrite SR, SF; ring).
    assert (SA : F_SA (pv p') = m * l * F_SA (pv p)) by (unfold F_SA; rewrite MA, UA, MU, MT, XT; ring).
    unfold F_canon. rewrite MT, ZT, A1, A2, A3, A7, A8, A9, MU, SF, ST, SA, LA. rewrite (pv_units "w"), (u_len "w") by (reflexivity || (unfold bench_names; cbn; tauto)).
    cbn [cM cC1 cK0 cK2]. unfold m2_scale. cbn [m11 m12 m21 m22].
    assert (E4 : forall a b c d a' b' c' d', a = a' -> b = b' -> c = c' -> d = d' -> mk2 a b c d = mk2 a' b' c' d') by (intros; subst; reflexivity).
    assert (E5 : forall a b c d a' b' c' d', a = a' -> b = b' -> c = c' -> d = d' -> mkcanon a b c d = mkcanon a' b' c' d') by (intros; subst; reflexivity).
    clear - E4 E5 N3 PM PL. apply E5; apply E4; field; split; lra.
  Qed.
  Lemma canonical_units c : snd (benchmark_par_to_canonical p) = Ok c ->
    snd (benchmark_par_to_canonical p') = Ok (mkcanon (m2_scale (m * l ^ 2) (cM c)) (m2_scale (m * l) (cC1 c)) (m2_scale (m * l) (cK0 c)) (m2_scale m (cK2 c))).
  Proof.
    destruct (benchmark_par_to_canonical p) as [q r] eqn:E. cbn [snd]. intros ->. apply canon_inversion in E. destruct E as (K & NZ & _ & ->).
    rewrite canon_forward; [cbn [snd]; rewrite (canon_units NZ); reflexivity| |apply nonzero_units, NZ]. intros k Hk. apply keys_units; [apply canon_named, Hk|apply K, Hk].
  Qed.
  Lemma success_units : (exists c, snd (benchmark_par_to_canonical p) = Ok c) <-> (exists c, snd (benchmark_par_to_canonical p') = Ok c).
  Proof.
    split; [intros (c & E); eexists; exact (canonical_units c E)|]. intros (c & E). destruct (benchmark_par_to_canonical p') as [q r] eqn:E'. cbn [snd] in E. subst r. apply canon_inversion in E'. destruct E' as (K & NZ & _ & _).
    rewrite canon_forward; [cbn [snd]; eauto| |apply nonzero_units, NZ]. intros k Hk. apply keys_units; [apply canon_named, Hk|apply K, Hk].
  Qed.
End Units.

(* the state space *)
Lemma det2_scale k M : det2 (m2_scale k M) = k ^ 2 * det2 M.
Proof. unfold det2, m2_scale. cbn [m11 m12 m21 m22]. ring. Qed.
Lemma ab_units m l t M C1 K0 K2 v g A B : 0 < m -> 0 < l -> 0 < t -> ab_matrix M C1 K0 K2 v g = Ok (A, B) ->
  exists A' B', ab_matrix (m2_scale (m * l ^ 2) M) (m2_scale (m * l) C1) (m2_scale (m * l) K0) (m2_scale m K2) (l / t * v) (l / t ^ 2 * g) = Ok (A', B') /\
    (forall i j, (i < 4)%nat -> (j < 4)%nat -> ent A' i j = (if Nat.ltb i 2 then 1 else / t) / (t * (if Nat.ltb j 2 then 1 else / t)) * ent A i j) /\
    (forall i j, (i < 4)%nat -> (j < 2)%nat -> ent B' i j = (if Nat.ltb i 2 then 1 else / t) / (t * (m * l ^ 2 / t ^ 2)) * ent B i j).
Proof.
  intros PM PL PT E. assert (D : det2 M <> 0).
  { intros Z. unfold ab_matrix, inv2 in E. fold (det2 M) in E. unfold rdiv in E. rewrite Z in E. destruct (Req_EM_T 0 0); [discriminate|lra]. }
  assert (S2 : 0 < m * l ^ 2) by (pose proof (pow_lt l 2 PL); nra).
  assert (D' : det2 (m2_scale (m * l ^ 2) M) <> 0) by (rewrite det2_scale; apply Rmult_integral_contrapositive; split; [apply pow_nonzero; lra|exact D]).
  rewrite ab_forward in E by exact D. cbv zeta in E. injection E as <- <-. rewrite ab_forward by exact D'. cbv zeta. rewrite det2_scale. do 2 eexists. split; [reflexivity|].
  unfold ent, m2_neg, m2_dot, m2_scale, m2_add. cbn [m11 m12 m21 m22]. set (d := det2 M) in *. clearbody d. split.
  - intros i j Hi Hj. destruct i as [|[|[|[|]]]]; try lia; destruct j as [|[|[|[|]]]]; try lia; cbn [nth Nat.ltb Nat.leb]; field; repeat split; lra.
  - intros i j Hi Hj. destruct i as [|[|[|[|]]]]; try lia; destruct j as [|[|]]; try lia; cbn [nth Nat.ltb Nat.leb]; field; repeat split; lra.
Qed.
