(* TSpeeds3.v -- C79: small errors in the parameters do not change whether a bicycle balances itself *)
From Coq Require Import Lra Lia.
From Coquelicot Require Import Coquelicot.
From Verif Require Import Base MString MHeap MBicycle MVec MInertia MModels MModels2 MEig MDicts PBase SBicycle PBicycle PBicycle2 SModels SModels2 SLean SEig PEig SStab TBicycle TEig TStab SRouth PRouth TRouth PRoots PExist SSpeeds PSpeeds PDicts TSpeeds TExist TSpeeds2.
Local Open Scope string_scope.
Local Open Scope R_scope.

Lemma balances_iff p g c v : dget p "g" = Some g -> physical_bicycle p -> snd (benchmark_par_to_canonical p) = Ok c ->
  (balances_itself (bike_of p) v g <-> stable_conditions c g v) /\ (violated c g v -> falls_over (bike_of p) v g).
Proof.
  intros G PH EB. destruct (canonical_pair p c EB) as (p' & EP). pose proof (mass_det p p' c EP PH) as D. unfold det2 in D.
  destruct (C57_eigenvalues_exist [("Benchmark", p)] p g [v] c eq_refl G EB ltac:(lra)) as (eig & evs & EC & CP & H & _). split.
  - exact (proj2 (C79_stable_speeds eig [("Benchmark", p)] p g [v] evs 0%nat c EC CP eq_refl G PH H ltac:(cbn; lia) EB)).
  - intros V. exact (proj2 (C79_falls_over eig [("Benchmark", p)] p g [v] evs 0%nat c EC CP eq_refl G PH H ltac:(cbn; lia) EB V)).
Qed.

(* the parameters, "g" and the speed "v" as one point *)
Definition env := fct_UniformSpace string R_UniformSpace.
Definition cont (f : env -> R) (q : env) : Prop := continuous (T := env) (U := R_UniformSpace) f q.
Lemma c_const a q : cont (fun _ => a) q.
Proof. apply continuous_const. Qed.
Lemma c_key k q : cont (fun f => f k) q.
Proof. intros P (e & H). exists e. intros f B. apply H. exact (B k). Qed.
Lemma c_plus f h q : cont f q -> cont h q -> cont (fun x => f x + h x) q.
Proof. intros A B. exact (continuous_plus (K := R_AbsRing) (V := R_NormedModule) f h q A B). Qed.
Lemma c_opp f q : cont f q -> cont (fun x => - f x) q.
Proof. intros A. exact (continuous_opp (K := R_AbsRing) (V := R_NormedModule) f q A). Qed.
Lemma c_minus f h q : cont f q -> cont h q -> cont (fun x => f x - h x) q.
Proof. intros A B. exact (c_plus f (fun x => - h x) q A (c_opp h q B)). Qed.
Lemma c_mult f h q : cont f q -> cont h q -> cont (fun x => f x * h x) q.
Proof. intros A B. exact (continuous_mult (K := R_AbsRing) f h q A B). Qed.
Lemma c_pow f n q : cont f q -> cont (fun x => f x ^ n) q.
Proof. intros A. induction n as [|n IH]; [apply c_const|]. exact (c_mult f (fun x => f x ^ n) q A IH). Qed.
Lemma c_sin f q : cont f q -> cont (fun x => sin (f x)) q.
Proof. intros A. exact (continuous_comp (U := env) (V := R_UniformSpace) (W := R_UniformSpace) f sin q A (continuous_sin (f q))). Qed.
Lemma c_cos f q : cont f q -> cont (fun x => cos (f x)) q.
Proof. intros A. exact (continuous_comp (U := env) (V := R_UniformSpace) (W := R_UniformSpace) f cos q A (continuous_cos (f q))). Qed.
Lemma c_div f h q : cont f q -> cont h q -> h q <> 0 -> cont (fun x => f x / h x) q.
Proof.
  intros A B N. apply (c_mult f (fun x => / h x) q A). exact (continuous_comp (U := env) (V := R_UniformSpace) (W := R_UniformSpace) h Rinv q B (continuous_Rinv (h q) N)).
Qed.
Lemma c_positive f q : cont f q -> 0 < f q -> locally q (fun x => 0 < f x).
Proof. intros C P. exact (C (fun y => 0 < y) (open_gt 0 (f q) P)). Qed.
Lemma c_negative f q : cont f q -> f q < 0 -> locally q (fun x => f x < 0).
Proof. intros C P. exact (C (fun y => y < 0) (open_lt 0 (f q) P)). Qed.
Lemma c_nonzero f q : cont f q -> f q <> 0 -> locally q (fun x => f x <> 0).
Proof. intros C P. exact (C (fun y => y <> 0) (open_neq 0 (f q) P)). Qed.
Ltac ct := cbv beta; lazymatch goal with
  | |- cont (fun x => @?a x + @?b x) _ => apply (c_plus a b); ct
  | |- cont (fun x => @?a x - @?b x) _ => apply (c_minus a b); ct
  | |- cont (fun x => - @?a x) _ => apply (c_opp a); ct
  | |- cont (fun x => @?a x / @?b x) _ => apply (c_div a b); [ct|ct|cbv beta; assumption]
  | |- cont (fun x => @?a x * @?b x) _ => apply (c_mult a b); ct
  | |- cont (fun x => @?a x ^ ?n) _ => apply (c_pow a n); ct
  | |- cont (fun x => sin (@?a x)) _ => apply (c_sin a); ct
  | |- cont (fun x => cos (@?a x)) _ => apply (c_cos a); ct
  | |- cont (fun x => x ?k) _ => apply (c_key k)
  | |- cont (fun x => IZR ?a) _ => apply (c_const (IZR a))
  | |- _ => assumption end.

Section Canonical.
  Variable q : env.
  Hypothesis N : canon_nonzero q.
  Lemma canon_continuous : cont (fun f => m11 (cM (F_canon f))) q /\ cont (fun f => m12 (cM (F_canon f))) q /\ cont (fun f => m21 (cM (F_canon f))) q /\ cont (fun f => m22 (cM (F_canon f))) q /\
    cont (fun f => m11 (cC1 (F_canon f))) q /\ cont (fun f => m12 (cC1 (F_canon f))) q /\ cont (fun f => m21 (cC1 (F_canon f))) q /\ cont (fun f => m22 (cC1 (F_canon f))) q /\
    cont (fun f => m11 (cK0 (F_canon f))) q /\ cont (fun f => m12 (cK0 (F_canon f))) q /\ cont (fun f => m21 (cK0 (F_canon f))) q /\ cont (fun f => m22 (cK0 (F_canon f))) q /\
    cont (fun f => m11 (cK2 (F_canon f))) q /\ cont (fun f => m12 (cK2 (F_canon f))) q /\ cont (fun f => m21 (cK2 (F_canon f))) q /\ cont (fun f => m22 (cK2 (F_canon f))) q.
  Proof.
    destruct N as (N1 & N2 & N3 & N4 & N5). cbn [F_canon cM cC1 cK0 cK2 m11 m12 m21 m22].
    assert (H1 : cont (fun f => F_mT f) q) by (unfold F_mT; cbv zeta; ct).
    assert (M1 : F_mT q <> 0) by exact N1. assert (M2 : F_mA q <> 0) by exact N2.
    assert (H2 : cont (fun f => F_xT f) q) by (unfold F_xT; cbv zeta; ct).
    assert (H3 : cont (fun f => F_zT f) q) by (unfold F_zT; cbv zeta; ct).
    assert (H4 : cont (fun f => F_ITxx f) q) by (unfold F_ITxx; cbv zeta; ct).
    assert (H5 : cont (fun f => F_ITxz f) q) by (unfold F_ITxz; cbv zeta; ct).
    assert (H6 : cont (fun f => F_ITzz f) q) by (unfold F_ITzz; cbv zeta; ct).
    assert (H7 : cont (fun f => F_mA f) q) by (unfold F_mA; cbv zeta; ct).
    assert (H8 : cont (fun f => F_xA f) q) by (unfold F_xA; cbv zeta; ct).
    assert (H9 : cont (fun f => F_zA f) q) by (unfold F_zA; cbv zeta; ct).
    assert (H10 : cont (fun f => F_IAxx f) q) by (unfold F_IAxx; cbv zeta; ct).
    assert (H11 : cont (fun f => F_IAxz f) q) by (unfold F_IAxz; cbv zeta; ct).
    assert (H12 : cont (fun f => F_IAzz f) q) by (unfold F_IAzz; cbv zeta; ct).
    assert (H13 : cont (fun f => F_uA f) q) by (unfold F_uA; cbv zeta; ct).
    assert (H14 : cont (fun f => F_IAll f) q) by (unfold F_IAll; cbv zeta; ct).
    assert (H15 : cont (fun f => F_IAlx f) q) by (unfold F_IAlx; cbv zeta; ct).
    assert (H16 : cont (fun f => F_IAlz f) q) by (unfold F_IAlz; cbv zeta; ct).
    assert (H17 : cont (fun f => F_mu f) q) by (unfold F_mu; cbv zeta; ct).
    assert (H18 : cont (fun f => F_SR f) q) by (unfold F_SR; cbv zeta; ct).
    assert (H19 : cont (fun f => F_SF f) q) by (unfold F_SF; cbv zeta; ct).
    assert (H20 : cont (fun f => F_ST f) q) by (unfold F_ST; cbv zeta; ct).
    assert (H21 : cont (fun f => F_SA f) q) by (unfold F_SA; cbv zeta; ct).
    split; [ct|]. split; [ct|]. split; [ct|]. split; [ct|]. split; [ct|]. split; [ct|]. split; [ct|]. split; [ct|]. split; [ct|]. split; [ct|]. split; [ct|]. split; [ct|]. split; [ct|]. split; [ct|]. split; ct.
  Qed.
  Lemma conditions_continuous : cont (fun f => f "v" * damping_c (F_canon f)) q /\ cont (fun f => second_c (F_canon f) (f "g") (f "v" ^ 2)) q /\ cont (fun f => f "v" * first_c (F_canon f) (f "g") (f "v" ^ 2)) q /\
    cont (fun f => constant_c (F_canon f) (f "g") (f "v" ^ 2)) q /\ cont (fun f => f "v" ^ 2 * weave_c (F_canon f) (f "g") (f "v" ^ 2)) q.
  Proof.
    destruct canon_continuous as (A1 & A2 & A3 & A4 & B1 & B2 & B3 & B4 & C1 & C2 & C3 & C4 & D1 & D2 & D3 & D4).
    assert (E1 : cont (fun f => damping_c (F_canon f)) q) by (unfold damping_c, mixed; ct).
    assert (E2 : cont (fun f => second_c (F_canon f) (f "g") (f "v" ^ 2)) q) by (unfold second_c, mixed, determinant; ct).
    assert (E3 : cont (fun f => first_c (F_canon f) (f "g") (f "v" ^ 2)) q) by (unfold first_c, mixed, determinant; ct).
    assert (E4 : cont (fun f => constant_c (F_canon f) (f "g") (f "v" ^ 2)) q) by (unfold constant_c, mixed, determinant; ct).
    assert (E5 : cont (fun f => inertia_c (F_canon f)) q) by (unfold inertia_c, determinant; ct).
    split; [ct|]. split; [ct|]. split; [ct|]. split; [ct|]. unfold weave_c. ct.
  Qed.
  Lemma nonzero_near : locally q canon_nonzero.
  Proof.
    destruct N as (N1 & N2 & N3 & N4 & N5). unfold canon_nonzero. repeat apply filter_and.
    - apply (c_nonzero (fun f => f "mR" + f "mB" + f "mH" + f "mF")); [ct|exact N1].
    - apply (c_nonzero (fun f => f "mH" + f "mF")); [ct|exact N2].
    - apply (c_nonzero (fun f => f "w")); [ct|exact N3].
    - apply (c_nonzero (fun f => f "rR")); [ct|exact N4].
    - apply (c_nonzero (fun f => f "rF")); [ct|exact N5].
  Qed.
  Lemma stable_near : stable_conditions (F_canon q) (q "g") (q "v") -> locally q (fun f => stable_conditions (F_canon f) (f "g") (f "v")).
  Proof.
    intros (S1 & S2 & S3 & S4 & S5). destruct conditions_continuous as (C1 & C2 & C3 & C4 & C5). unfold stable_conditions.
    apply filter_and; [exact (c_positive _ q C1 S1)|]. apply filter_and; [exact (c_positive _ q C2 S2)|]. apply filter_and; [exact (c_positive _ q C3 S3)|]. apply filter_and; [exact (c_positive _ q C4 S4)|exact (c_positive _ q C5 S5)].
  Qed.
  Lemma violated_near : violated (F_canon q) (q "g") (q "v") -> locally q (fun f => violated (F_canon f) (f "g") (f "v")).
  Proof.
    intros V. destruct conditions_continuous as (C1 & C2 & C3 & C4 & C5). unfold violated in *. destruct V as [V|[V|[V|[V|V]]]];
      [apply (c_negative _ q C1) in V|apply (c_negative _ q C2) in V|apply (c_negative _ q C3) in V|apply (c_negative _ q C4) in V|apply (c_negative _ q C5) in V]; (eapply filter_imp; [|exact V]); intros x X; cbv beta in X; tauto.
  Qed.
End Canonical.

(* a dictionary, the gravity and the speed as a point; outside the keys that matter as at q0 *)
Definition point (p : dict R) (g v : R) (q0 : string -> R) : env := fun k => if string_dec k "g" then g else if string_dec k "v" then v else if in_dec string_dec k canon_keys then pv p k else q0 k.
Lemma point_g p g v q0 : point p g v q0 "g" = g.
Proof. reflexivity. Qed.
Lemma point_v p g v q0 : point p g v q0 "v" = v.
Proof. reflexivity. Qed.
Lemma point_key p g v q0 k : In k canon_keys -> point p g v q0 k = pv p k.
Proof.
  intros H. unfold point. destruct (string_dec k "g") as [->|]; [exfalso; revert H; clear; unfold canon_keys; cbn [In]; intuition discriminate|]. destruct (string_dec k "v") as [->|]; [exfalso; revert H; clear; unfold canon_keys; cbn [In]; intuition discriminate|]. destruct (in_dec string_dec k canon_keys); [reflexivity|contradiction].
Qed.
Lemma canon_point p g v q0 : F_canon (point p g v q0) = F_canon (pv p).
Proof. reflexivity. Qed.
Lemma nonzero_point p g v q0 : canon_nonzero (point p g v q0) <-> canon_nonzero (pv p).
Proof. reflexivity. Qed.
Definition near (eps : R) (p : dict R) (g v : R) (p' : dict R) (g' v' : R) : Prop := (forall k, In k canon_keys -> Rabs (pv p' k - pv p k) < eps) /\ Rabs (g' - g) < eps /\ Rabs (v' - v) < eps.
Lemma near_ball (eps : posreal) p g v p' g' v' : near eps p g v p' g' v' -> ball (M := env) (point p g v (pv p)) eps (point p' g' v' (pv p)).
Proof.
  intros (K & G & V) k. change (Rabs (point p' g' v' (pv p) k - point p g v (pv p) k) < eps). unfold point. destruct (string_dec k "g"); [exact G|]. destruct (string_dec k "v"); [exact V|]. destruct (in_dec string_dec k canon_keys) as [I|I]; [exact (K k I)|]. rewrite Rminus_eq_0, Rabs_R0. apply cond_pos.
Qed.

(* whether a bicycle balances itself does not change under errors in its parameters, in
   gravity and in the speed that are small enough; nor does a violated condition *)
Theorem C79_small_errors : forall p g c v, dget p "g" = Some g -> physical_bicycle p -> snd (benchmark_par_to_canonical p) = Ok c ->
  exists eps, 0 < eps /\ forall p' g' v', dget p' "g" = Some g' -> physical_bicycle p' -> (forall k, In k canon_keys -> In k (dkeys p')) ->
    (forall k, In k canon_keys -> Rabs (pv p' k - pv p k) < eps) -> Rabs (g' - g) < eps -> Rabs (v' - v) < eps ->
    (balances_itself (bike_of p) v g -> balances_itself (bike_of p') v' g') /\ (violated c g v -> falls_over (bike_of p') v' g').
Proof.
  intros p g c v G PH EB. destruct (canonical_pair p c EB) as (p1 & EP). destruct (canon_inversion p p1 c EP) as (_ & N & _ & ->). pose proof (proj1 (balances_iff p g _ v G PH EB)) as B0.
  set (q := point p g v (pv p)). assert (NQ : canon_nonzero q) by exact N. pose proof (nonzero_near q NQ) as L0.
  assert (L : locally q (fun f => canon_nonzero f /\ (stable_conditions (F_canon (pv p)) g v -> stable_conditions (F_canon f) (f "g") (f "v")) /\ (violated (F_canon (pv p)) g v -> violated (F_canon f) (f "g") (f "v")))).
  { apply filter_and; [exact L0|]. apply filter_and.
    - destruct (Classical_Prop.classic (stable_conditions (F_canon (pv p)) g v)) as [S|S]; [eapply filter_imp; [|exact (stable_near q NQ S)]; auto|apply filter_forall; intros; contradiction].
    - destruct (Classical_Prop.classic (violated (F_canon (pv p)) g v)) as [S|S]; [eapply filter_imp; [|exact (violated_near q NQ S)]; auto|apply filter_forall; intros; contradiction]. }
  destruct L as (eps & L). exists eps. split; [apply cond_pos|]. intros p' g' v' G' PH' KS C1 C2 C3. destruct (L _ (near_ball eps p g v p' g' v' (conj C1 (conj C2 C3)))) as (N' & S' & V').
  assert (EB' : snd (benchmark_par_to_canonical p') = Ok (F_canon (pv p'))) by (rewrite canon_forward; [reflexivity|exact KS|exact N']).
  destruct (balances_iff p' g' _ v' G' PH' EB') as (B1 & B2). rewrite B1, B0. split; [exact S'|]. intros V. apply B2, V', V.
Qed.
Print Assumptions C79_small_errors.
(* the shipped bicycle balances itself at 6 m/s and every bicycle sufficiently like it does at
   6 m/s too; at 8 m/s both fall over *)
Example C79_small_errors_met : let p := meijaard2007_browser_jason in exists eps, 0 < eps /\ forall p', dget p' "g" = Some (981 / 100) -> physical_bicycle p' -> (forall k, In k canon_keys -> In k (dkeys p')) ->
  (forall k, In k canon_keys -> Rabs (pv p' k - pv p k) < eps) -> balances_itself (bike_of p') 6 (981 / 100) /\ falls_over (bike_of p') 8 (981 / 100).
Proof.
  intros p. destruct (published_ok p _ _ (or_introl eq_refl)) as (G & PH & EB). destruct (published_window p _ _ _ _ (or_introl eq_refl)) as (vw & vc & W1 & W2 & W).
  destruct (C79_small_errors p _ _ 6 G PH EB) as (e1 & P1 & H1). destruct (C79_small_errors p _ _ 8 G PH EB) as (e2 & P2 & H2). exists (Rmin e1 e2). split; [apply Rmin_glb_lt; assumption|].
  intros p' G' PH' KS C. pose proof (Rmin_l e1 e2) as M1. pose proof (Rmin_r e1 e2) as M2. split.
  - apply (proj1 (H1 p' _ 6 G' PH' KS (fun k I => Rlt_le_trans _ _ _ (C k I) M1) ltac:(rewrite Rminus_eq_0, Rabs_R0; exact P1) ltac:(rewrite Rminus_eq_0, Rabs_R0; exact P1))). apply C79_ranges_reported. lra.
  - apply (proj2 (H2 p' _ 8 G' PH' KS (fun k I => Rlt_le_trans _ _ _ (C k I) M2) ltac:(rewrite Rminus_eq_0, Rabs_R0; exact P2) ltac:(rewrite Rminus_eq_0, Rabs_R0; exact P2))). apply (proj2 (W 8)). right. lra.
Qed.
