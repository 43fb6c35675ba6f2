(* PFloat4.v -- the state space in machine arithmetic *)
From Coq Require Import Lra Lia ZArith.
From Verif Require Import Base PBase MString MVec MBicycle MFloat MModels MModels2 SBicycle PBicycle SModels SModels2 SLean SUnits PUnits SFloat PFloat PFloat2 PFloat3.
Local Open Scope string_scope.
Local Open Scope R_scope.

Definition fdet (a : arith) (M : mat2) : R := fsub a (fmul a (m11 M) (m22 M)) (fmul a (m12 M) (m21 M)).
Definition finvm (a : arith) (M : mat2) : mat2 := fm2_scale a (fdivc a 1 (fdet a M)) (mk2 (m22 M) (fneg (m12 M)) (fneg (m21 M)) (m11 M)).
Definition fA21 (a : arith) (M K0 K2 : mat2) (v g : R) : mat2 := m2_neg (fm2_dot a (finvm a M) (fm2_add a (fm2_scale a g K0) (fm2_scale a (fsq a v) K2))).
Definition fA22 (a : arith) (M C1 : mat2) (v : R) : mat2 := m2_neg (fm2_dot a (finvm a M) (fm2_scale a v C1)).
Definition blocksA (x y : mat2) : marr := vstack (hstack (m2_rows m2_zero) (m2_rows m2_eye)) (hstack (m2_rows x) (m2_rows y)).
Definition blocksB (x : mat2) : marr := vstack (m2_rows m2_zero) (m2_rows x).
Lemma fab_eq a M C1 K0 K2 v g : fdet a M <> 0 -> fab_matrix a M C1 K0 K2 v g = Ok (blocksA (fA21 a M K0 K2 v g) (fA22 a M C1 v), blocksB (finvm a M)).
Proof. intros N. unfold fab_matrix, finv2. fold (fdet a M). rewrite (fdiv_eq a 1 _ N). reflexivity. Qed.
Lemma fab_ok a M C1 K0 K2 v g A B : fab_matrix a M C1 K0 K2 v g = Ok (A, B) ->
  fdet a M <> 0 /\ A = blocksA (fA21 a M K0 K2 v g) (fA22 a M C1 v) /\ B = blocksB (finvm a M).
Proof.
  intros E. assert (N : fdet a M <> 0).
  { intros Z. unfold fab_matrix, finv2 in E. fold (fdet a M) in E. unfold fdiv in E. rewrite Z in E. destruct (Req_EM_T 0 0); [discriminate|lra]. }
  rewrite (fab_eq a M C1 K0 K2 v g N) in E. injection E as E1 E2. split; [exact N|]. split; symmetry; assumption.
Qed.

(* ---- powers of two ---- *)
Section ScaleAB.
  Variable a : arith.
  Hypothesis SI : scale_invariant a.
  Variables (em el et : Z) (M' M C1' C1 K0' K0 K2' K2 : mat2) (v g : R).
  Hypothesis SM : sc2 (em + 2 * el) M' M.
  Hypothesis SC : sc2 (em + el) C1' C1.
  Hypothesis SK0 : sc2 (em + el) K0' K0.
  Hypothesis SK2 : sc2 em K2' K2.
  Let v' := pow2 (el - et) * v.
  Let g' := pow2 (el - 2 * et) * g.
  Lemma s_det : sc (2 * (em + 2 * el)) (fdet a M') (fdet a M).
  Proof. destruct SM as (S1 & S2 & S3 & S4). unfold fdet. eapply sc_eq; [eapply (sc_sub a SI); [apply (sc_mul a SI); eassumption|apply (sc_mul a SI); eassumption|lia]|lia]. Qed.
  Lemma s_inv : sc2 (- (em + 2 * el)) (finvm a M') (finvm a M).
  Proof.
    destruct SM as (S1 & S2 & S3 & S4). pose proof s_det as SD. assert (S0 : sc (- (2 * (em + 2 * el))) (fdivc a 1 (fdet a M')) (fdivc a 1 (fdet a M))).
    { eapply sc_eq; [apply (sc_div a SI); [apply sc_refl|exact SD]|lia]. }
    unfold sc2, finvm, fm2_scale. cbn [m11 m12 m21 m22]. split; [|split; [|split]]; (eapply sc_eq; [apply (sc_mul a SI); [exact S0|first [eassumption|apply sc_neg; eassumption]]|lia]).
  Qed.
  Lemma s_negm e x y : sc2 e x y -> sc2 e (m2_neg x) (m2_neg y).
  Proof. unfold sc2, m2_neg, sc. cbn [m11 m12 m21 m22]. intros (-> & -> & -> & ->). repeat split; ring. Qed.
  Lemma s_dotm e f x' x y' y : sc2 e x' x -> sc2 f y' y -> sc2 (e + f) (fm2_dot a x' y') (fm2_dot a x y).
  Proof. intros (S1 & S2 & S3 & S4) (T1 & T2 & T3 & T4). unfold sc2, fm2_dot. cbn [m11 m12 m21 m22]. split; [|split; [|split]]; apply (sc_dot a SI); assumption. Qed.
  Lemma s_scalem e f k' k y' y : sc e k' k -> sc2 f y' y -> sc2 (e + f) (fm2_scale a k' y') (fm2_scale a k y).
  Proof. intros S0 (T1 & T2 & T3 & T4). unfold sc2, fm2_scale. cbn [m11 m12 m21 m22]. split; [|split; [|split]]; apply (sc_mul a SI); assumption. Qed.
  Lemma s_addm e x' x y' y : sc2 e x' x -> sc2 e y' y -> sc2 e (fm2_add a x' y') (fm2_add a x y).
  Proof. intros (S1 & S2 & S3 & S4) (T1 & T2 & T3 & T4). unfold sc2, fm2_add. cbn [m11 m12 m21 m22]. split; [|split; [|split]]; (eapply (sc_add a SI); [eassumption|eassumption|reflexivity]). Qed.
  Lemma sc2_eq e e' x y : sc2 e x y -> e = e' -> sc2 e' x y.
  Proof. intros H <-. exact H. Qed.
  Lemma s_A21 : sc2 (- 2 * et) (fA21 a M' K0' K2' v' g') (fA21 a M K0 K2 v g).
  Proof.
    unfold fA21. apply s_negm. eapply sc2_eq; [apply s_dotm; [apply s_inv|]|].
    - apply (s_addm (em + 2 * el - 2 * et)); (eapply sc2_eq; [eapply s_scalem; [|eassumption]|]).
      + reflexivity.
      + lia.
      + apply (sc_sq a SI). reflexivity.
      + lia.
    - lia.
  Qed.
  Lemma s_A22 : sc2 (- et) (fA22 a M' C1' v') (fA22 a M C1 v).
  Proof. unfold fA22. apply s_negm. eapply sc2_eq; [apply s_dotm; [apply s_inv|eapply s_scalem; [reflexivity|eassumption]]|lia]. Qed.
End ScaleAB.

Lemma pow2_2 e : pow2 (2 * e) = pow2 e ^ 2.
Proof. replace (2 * e)%Z with (e + e)%Z by ring. rewrite pow2_plus. ring. Qed.
Lemma pow2_ne e : pow2 e <> 0.
Proof. pose proof (pow2_pos e). lra. Qed.
Section ScaleP.
  Variable a : arith.
  Hypothesis SI : scale_invariant a.
  Variables (em el et : Z) (p p' : dict R).
  Hypothesis U : in_units (powers_of_two em el et) p p'.
  Lemma pot_sc k : In k canon_keys -> sc (bench_exp em el k) (pv p' k) (pv p k).
  Proof.
    intros K. unfold sc. rewrite (pv_units _ p p' U k (canon_named k K)). f_equal. unfold bench_exp.
    destruct (smem k lengths) eqn:H1; [rewrite (u_len _ k H1); reflexivity|]. destruct (smem k masses) eqn:H2; [rewrite (u_mas _ k H1 H2); reflexivity|].
    destruct (smem k inertias) eqn:H3; [rewrite (u_ine _ k H1 H2 H3); cbn [u_mass u_length powers_of_two]; rewrite pow2_plus, pow2_2; reflexivity|].
    unfold bench_unit, bench_dimension. rewrite H1, H2, H3. destruct (smem k ["g"]) eqn:H4; [|cbn [powerRZ]; unfold pow2; cbn; ring].
    exfalso. apply smem_spec in H4. cbn in H4. destruct H4 as [<-|[]]. cbn in K. intuition discriminate.
  Qed.
  Lemma fcanon_units c : snd (fbenchmark_par_to_canonical a p) = Ok c -> exists c', snd (fbenchmark_par_to_canonical a p') = Ok c' /\
    sc2 (em + 2 * el) (cM c') (cM c) /\ sc2 (em + el) (cC1 c') (cC1 c) /\ sc2 (em + el) (cK0 c') (cK0 c) /\ sc2 em (cK2 c') (cK2 c).
  Proof.
    destruct (fbenchmark_par_to_canonical a p) as [q r] eqn:E. cbn [snd]. intros ->. apply fcanon_inversion in E. destruct E as (K & NZ & _ & ->).
    exists (FF_canon a (pv p')). split; [|exact (s_canon a SI em el (pv p) (pv p') pot_sc)].
    rewrite fcanon_forward; [reflexivity| |apply (s_nonzero a SI em el (pv p) (pv p') pot_sc), NZ]. intros k Hk. apply (keys_units _ p p' U k (canon_named k Hk)), K, Hk.
  Qed.
End ScaleP.
