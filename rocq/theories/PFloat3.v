(* PFloat3.v -- powers of two, signs, the state space and concrete arithmetics *)
From Coq Require Import Lra Lia ZArith.
From Flocq Require Import Core Relative.
From Verif Require Import Base PBase MString MVec MBicycle MFloat MModels MModels2 SBicycle PBicycle SModels SModels2 SLean SUnits SFloat PFloat PFloat2.
Local Open Scope string_scope.
Local Open Scope R_scope.

(* ---- the arithmetics of SFloat.v ---- *)
Local Instance prec53 : Prec_gt_0 53 := eq_refl.
Lemma roundoff_bpow : /2 * bpow radix2 (-53 + 1) = roundoff.
Proof. unfold roundoff. cbn [bpow Z.add Z.opp Z.pos_sub Pos.pred_double]. change (Z.pow_pos radix2 52) with (2 ^ 52)%Z. change (2 ^ 53) with (2 * 2 ^ 52). rewrite pow_IZR. change (Z.of_nat 52) with 52%Z. rewrite Rinv_mult. reflexivity. Qed.
Lemma rnd53_within x : within 1 (rnd53 x) x.
Proof. unfold within, rnd53. change (INR 1) with 1. rewrite Rmult_1_l, <- roundoff_bpow. apply (relative_error_N_FLX radix2 53). reflexivity. Qed.
Lemma within_weaken xh x : within 1 xh x -> within 2 xh x.
Proof. unfold within. intros W. change (INR 1) with 1 in W. change (INR 2) with 2. pose proof roundoff_small. pose proof (Rabs_pos x). assert (0 <= roundoff * Rabs x) by (apply Rmult_le_pos; lra). lra. Qed.
Lemma rnd53_odd x : rnd53 (- x) = - rnd53 x.
Proof. apply round_NE_opp. Qed.
Lemma rnd53_le x y : x <= y -> rnd53 x <= rnd53 y.
Proof. apply round_le; [exact (FLX_exp_valid 53)|apply valid_rnd_N]. Qed.
Lemma rnd53_0 : rnd53 0 = 0.
Proof. apply round_0, valid_rnd_N. Qed.
Lemma rnd53_scale e x : rnd53 (pow2 e * x) = pow2 e * rnd53 x.
Proof.
  destruct (Req_dec x 0) as [->|N]; [rewrite Rmult_0_r, rnd53_0; ring|]. unfold rnd53, round, pow2. assert (C : cexp radix2 (FLX_exp 53) (bpow radix2 e * x) = (cexp radix2 (FLX_exp 53) x + e)%Z).
  { unfold cexp, FLX_exp. rewrite Rmult_comm, mag_mult_bpow by exact N. ring. }
  unfold scaled_mantissa. rewrite C. replace (bpow radix2 e * x * bpow radix2 (- (cexp radix2 (FLX_exp 53) x + e))) with (x * bpow radix2 (- cexp radix2 (FLX_exp 53) x)).
  - unfold F2R. cbn [Fnum Fexp]. rewrite bpow_plus. ring.
  - rewrite Z.opp_add_distr, bpow_plus. rewrite (bpow_opp radix2 e). field. apply Rgt_not_eq, bpow_gt_0.
Qed.
Lemma err_rnd k xh x m : err k xh x m -> err (k + 1) (rnd53 xh) x m.
Proof. apply err_close, within_close1, rnd53_within. Qed.
Lemma dot_plain x1 x2 y1 y2 : Rabs (rnd53 (rnd53 (x1 * y1) + rnd53 (x2 * y2)) - (x1 * y1 + x2 * y2)) <= 3 * roundoff * (Rabs (x1 * y1) + Rabs (x2 * y2)).
Proof. replace 3 with (INR 3) by (simpl; lra). apply (err_abs 2); [lia|]. change 2%nat with (Nat.max (0 + 1) (0 + 1) + 1)%nat. apply err_rnd, err_sum; apply err_rnd, err_refl. Qed.
Lemma dot_fma x1 x2 y1 y2 : Rabs (rnd53 (rnd53 (x1 * y1) + x2 * y2) - (x1 * y1 + x2 * y2)) <= 3 * roundoff * (Rabs (x1 * y1) + Rabs (x2 * y2)).
Proof. replace 3 with (INR 3) by (simpl; lra). apply (err_abs 2); [lia|]. change 2%nat with (Nat.max (0 + 1) 0 + 1)%nat. apply err_rnd, err_sum; [apply err_rnd, err_refl|apply err_refl]. Qed.
Lemma plain_accurate : accurate double_plain.
Proof.
  unfold accurate, double_plain. cbn [fl fsin fcos fsq fpi fdot]. split; [exact rnd53_within|]. split; [intros x; apply within_weaken, rnd53_within|]. split; [intros x; apply within_weaken, rnd53_within|].
  split; [intros x; apply within_weaken; replace (x ^ 2) with (x * x) by ring; apply rnd53_within|]. split; [apply rnd53_within|exact dot_plain].
Qed.
Lemma fma_accurate : accurate double_fma.
Proof.
  unfold accurate, double_fma. cbn [fl fsin fcos fsq fpi fdot]. split; [exact rnd53_within|]. split; [intros x; apply within_weaken, rnd53_within|]. split; [intros x; apply within_weaken, rnd53_within|].
  split; [intros x; apply within_weaken; replace (x ^ 2) with (x * x) by ring; apply rnd53_within|]. split; [apply rnd53_within|exact dot_fma].
Qed.
Lemma plain_symmetric : sign_symmetric double_plain.
Proof.
  unfold sign_symmetric, double_plain. cbn [fl fsq fdot]. split; [exact rnd53_odd|]. split; [intros x; f_equal; ring|]. intros. rewrite <- rnd53_odd, !Ropp_plus_distr, <- !rnd53_odd, !Ropp_mult_distr_r. reflexivity.
Qed.
Lemma fma_symmetric : sign_symmetric double_fma.
Proof.
  unfold sign_symmetric, double_fma. cbn [fl fsq fdot]. split; [exact rnd53_odd|]. split; [intros x; f_equal; ring|]. intros. rewrite <- rnd53_odd, !Ropp_plus_distr, <- !rnd53_odd, !Ropp_mult_distr_r. reflexivity.
Qed.
Lemma rnd64_odd x : rnd64 (- x) = - rnd64 x.
Proof. apply round_NE_opp. Qed.
Lemma underflow_symmetric : sign_symmetric double_underflow.
Proof.
  unfold sign_symmetric, double_underflow. cbn [fl fsq fdot]. split; [exact rnd64_odd|]. split; [intros x; f_equal; ring|]. intros. rewrite <- rnd64_odd, !Ropp_plus_distr, <- !rnd64_odd, !Ropp_mult_distr_r. reflexivity.
Qed.
Lemma rnd64_le x y : x <= y -> rnd64 x <= rnd64 y.
Proof. apply round_le; [exact (FLT_exp_valid (-1074) 53)|apply valid_rnd_N]. Qed.
Lemma rnd64_0 : rnd64 0 = 0.
Proof. apply round_0, valid_rnd_N. Qed.
Lemma underflow_order : order_preserving double_underflow.
Proof. unfold order_preserving, double_underflow. cbn [fl fsq]. split; [exact rnd64_le|]. split; [|exact rnd64_0]. intros x. rewrite <- rnd64_0. apply rnd64_le. apply Rle_0_sqr. Qed.
Lemma plain_order : order_preserving double_plain.
Proof. unfold order_preserving, double_plain. cbn [fl fsq]. split; [exact rnd53_le|]. split; [|exact rnd53_0]. intros x. rewrite <- rnd53_0. apply rnd53_le. apply Rle_0_sqr. Qed.
Lemma pow2_plus e f : pow2 (e + f) = pow2 e * pow2 f.
Proof. apply bpow_plus. Qed.
Lemma pow2_pos e : 0 < pow2 e.
Proof. apply bpow_gt_0. Qed.
Lemma plain_scale : scale_invariant double_plain.
Proof.
  unfold scale_invariant, double_plain. cbn [fl fsq fdot]. split; [exact rnd53_scale|]. split.
  - intros e x. rewrite <- rnd53_scale. f_equal. replace (2 * e)%Z with (e + e)%Z by ring. rewrite pow2_plus. ring.
  - intros e f x1 x2 y1 y2. rewrite pow2_plus. replace (pow2 e * x1 * (pow2 f * y1)) with (pow2 (e + f) * (x1 * y1)) by (rewrite pow2_plus; ring). replace (pow2 e * x2 * (pow2 f * y2)) with (pow2 (e + f) * (x2 * y2)) by (rewrite pow2_plus; ring).
    rewrite !rnd53_scale, <- Rmult_plus_distr_l, rnd53_scale, pow2_plus. reflexivity.
Qed.

(* ---- powers of two ---- *)
Section Scale.
  Variable a : arith.
  Hypothesis SI : scale_invariant a.
  Definition sc (e : Z) (x' x : R) : Prop := x' = pow2 e * x.
  Lemma sc_eq e e' x' x : sc e x' x -> e = e' -> sc e' x' x.
  Proof. intros H <-. exact H. Qed.
  Lemma sc_fl e x' x : sc e x' x -> sc e (fl a x') (fl a x).
  Proof. intros ->. exact (proj1 SI e x). Qed.
  Lemma sc_add e e' x' x y' y : sc e x' x -> sc e' y' y -> e' = e -> sc e (fadd a x' y') (fadd a x y).
  Proof. intros -> -> ->. unfold fadd. rewrite <- Rmult_plus_distr_l. apply sc_fl. reflexivity. Qed.
  Lemma sc_sub e e' x' x y' y : sc e x' x -> sc e' y' y -> e' = e -> sc e (fsub a x' y') (fsub a x y).
  Proof. intros -> -> ->. unfold fsub. rewrite <- Rmult_minus_distr_l. apply sc_fl. reflexivity. Qed.
  Lemma sc_mul e e' x' x y' y : sc e x' x -> sc e' y' y -> sc (e + e') (fmul a x' y') (fmul a x y).
  Proof. intros -> ->. unfold fmul. apply sc_fl. unfold sc. rewrite pow2_plus. ring. Qed.
  Lemma pow2_inv e : pow2 (- e) = / pow2 e.
  Proof. apply bpow_opp. Qed.
  Lemma sc_div e e' x' x y' y : sc e x' x -> sc e' y' y -> sc (e - e') (fdivc a x' y') (fdivc a x y).
  Proof. intros -> ->. unfold fdivc. apply sc_fl. unfold sc, Z.sub. rewrite pow2_plus, pow2_inv. unfold Rdiv. rewrite Rinv_mult. ring. Qed.
  Lemma sc_sq e x' x : sc e x' x -> sc (2 * e) (fsq a x') (fsq a x).
  Proof. intros ->. exact (proj1 (proj2 SI) e x). Qed.
  Lemma sc_neg e x' x : sc e x' x -> sc e (fneg x') (fneg x).
  Proof. intros ->. unfold sc, fneg. ring. Qed.
  Lemma sc_refl x : sc 0 x x.
  Proof. unfold sc, pow2. cbn [bpow]. ring. Qed.
  Lemma sc_nonzero e x' x : sc e x' x -> (x' <> 0 <-> x <> 0).
  Proof. intros ->. pose proof (pow2_pos e). split; intros N E; apply N; [rewrite E; ring|]. apply Rmult_integral in E. destruct E; [lra|assumption]. Qed.
  Lemma sc_dot e f x1' x1 x2' x2 y1' y1 y2' y2 : sc e x1' x1 -> sc e x2' x2 -> sc f y1' y1 -> sc f y2' y2 -> sc (e + f) (fdot a x1' x2' y1' y2') (fdot a x1 x2 y1 y2).
  Proof. intros -> -> -> ->. exact (proj2 (proj2 SI) e f x1 x2 y1 y2). Qed.

  Variables (m l : Z) (f f' : string -> R).
  Definition bench_exp (k : string) : Z := if smem k lengths then l else if smem k masses then m else if smem k inertias then (m + 2 * l)%Z else 0%Z.
  Hypothesis UF : forall k, In k canon_keys -> sc (bench_exp k) (f' k) (f k).
  Lemma lam_same : f' "lam" = f "lam".
  Proof. pose proof (UF "lam" ltac:(cbn; tauto)) as E. unfold sc in E. rewrite E. change (bench_exp "lam") with 0%Z. unfold pow2. cbn [bpow]. ring. Qed.
  Ltac known := fail.
  Ltac ss := lazymatch goal with
    | |- sc _ (fadd a _ _) _ => eapply sc_add; [ss|ss|try lia]
    | |- sc _ (fsub a _ _) _ => eapply sc_sub; [ss|ss|try lia]
    | |- sc _ (fmul a _ _) _ => eapply sc_mul; ss
    | |- sc _ (fdivc a _ _) _ => eapply sc_div; ss
    | |- sc _ (fsq a _) _ => eapply sc_sq; ss
    | |- sc _ (fneg _) _ => eapply sc_neg; ss
    | |- sc _ (fsin a _) _ => rewrite lam_same; apply sc_refl
    | |- sc _ (fcos a _) _ => rewrite lam_same; apply sc_refl
    | |- sc _ 2 _ => apply sc_refl
    | |- sc _ (f' ?k) _ => first [apply (sc_eq (bench_exp k) m); [apply UF; cbn; tauto|reflexivity] | apply (sc_eq (bench_exp k) l); [apply UF; cbn; tauto|reflexivity] | apply (sc_eq (bench_exp k) (m + 2 * l)%Z); [apply UF; cbn; tauto|reflexivity]]
    | |- _ => known end.
  Ltac gs := eapply sc_eq; [ss|lia].
  Lemma s_mT : sc m (FF_mT a f') (FF_mT a f). Proof. unfold FF_mT. gs. Qed.
  Lemma s_mA : sc m (FF_mA a f') (FF_mA a f). Proof. unfold FF_mA. gs. Qed.
  Ltac known ::= first [apply s_mT|apply s_mA].
  Lemma s_xT : sc l (FF_xT a f') (FF_xT a f). Proof. unfold FF_xT. gs. Qed.
  Lemma s_zT : sc l (FF_zT a f') (FF_zT a f). Proof. unfold FF_zT. gs. Qed.
  Lemma s_ITxx : sc (m + 2 * l) (FF_ITxx a f') (FF_ITxx a f). Proof. unfold FF_ITxx. gs. Qed.
  Lemma s_ITxz : sc (m + 2 * l) (FF_ITxz a f') (FF_ITxz a f). Proof. unfold FF_ITxz. gs. Qed.
  Lemma s_ITzz : sc (m + 2 * l) (FF_ITzz a f') (FF_ITzz a f). Proof. unfold FF_ITzz. gs. Qed.
  Lemma s_xA : sc l (FF_xA a f') (FF_xA a f). Proof. unfold FF_xA. gs. Qed.
  Lemma s_zA : sc l (FF_zA a f') (FF_zA a f). Proof. unfold FF_zA. gs. Qed.
  Ltac known ::= first [apply s_mT|apply s_mA|apply s_xT|apply s_zT|apply s_ITxx|apply s_ITxz|apply s_ITzz|apply s_xA|apply s_zA].
  Lemma s_IAxx : sc (m + 2 * l) (FF_IAxx a f') (FF_IAxx a f). Proof. unfold FF_IAxx. gs. Qed.
  Lemma s_IAxz : sc (m + 2 * l) (FF_IAxz a f') (FF_IAxz a f). Proof. unfold FF_IAxz. gs. Qed.
  Lemma s_IAzz : sc (m + 2 * l) (FF_IAzz a f') (FF_IAzz a f). Proof. unfold FF_IAzz. gs. Qed.
  Lemma s_uA : sc l (FF_uA a f') (FF_uA a f). Proof. unfold FF_uA. gs. Qed.
  Lemma s_mu : sc 0 (FF_mu a f') (FF_mu a f). Proof. unfold FF_mu. gs. Qed.
  Lemma s_SR : sc (m + l) (FF_SR a f') (FF_SR a f). Proof. unfold FF_SR. gs. Qed.
  Lemma s_SF : sc (m + l) (FF_SF a f') (FF_SF a f). Proof. unfold FF_SF. gs. Qed.
  Ltac known ::= first [apply s_mT|apply s_mA|apply s_xT|apply s_zT|apply s_ITxx|apply s_ITxz|apply s_ITzz|apply s_xA|apply s_zA|apply s_IAxx|apply s_IAxz|apply s_IAzz|apply s_uA|apply s_mu|apply s_SR|apply s_SF].
  Lemma s_ST : sc (m + l) (FF_ST a f') (FF_ST a f). Proof. unfold FF_ST. gs. Qed.
  Lemma s_SA : sc (m + l) (FF_SA a f') (FF_SA a f). Proof. unfold FF_SA. gs. Qed.
  Lemma s_IAll : sc (m + 2 * l) (FF_IAll a f') (FF_IAll a f). Proof. unfold FF_IAll. gs. Qed.
  Lemma s_IAlx : sc (m + 2 * l) (FF_IAlx a f') (FF_IAlx a f). Proof. unfold FF_IAlx. gs. Qed.
  Lemma s_IAlz : sc (m + 2 * l) (FF_IAlz a f') (FF_IAlz a f). Proof. unfold FF_IAlz. gs. Qed.
  Ltac known ::= first [apply s_mT|apply s_mA|apply s_xT|apply s_zT|apply s_ITxx|apply s_ITxz|apply s_ITzz|apply s_xA|apply s_zA|apply s_IAxx|apply s_IAxz|apply s_IAzz|apply s_uA|apply s_mu|apply s_SR|apply s_SF|apply s_ST|apply s_SA|apply s_IAll|apply s_IAlx|apply s_IAlz].
  Definition sc2 (e : Z) (x' x : mat2) : Prop := sc e (m11 x') (m11 x) /\ sc e (m12 x') (m12 x) /\ sc e (m21 x') (m21 x) /\ sc e (m22 x') (m22 x).
  Lemma sc_0 e : sc e 0 0.
  Proof. unfold sc. ring. Qed.
  Ltac gs0 := first [apply sc_0 | gs].
  Lemma s_canon : let h' := FF_canon a f' in let h := FF_canon a f in
    sc2 (m + 2 * l) (cM h') (cM h) /\ sc2 (m + l) (cC1 h') (cC1 h) /\ sc2 (m + l) (cK0 h') (cK0 h) /\ sc2 m (cK2 h') (cK2 h).
  Proof. cbv zeta. unfold FF_canon. cbn [cM cC1 cK0 cK2]. unfold sc2. cbn [m11 m12 m21 m22]. split; [|split; [|split]]; (split; [|split; [|split]]); gs0. Qed.
  Lemma s_nonzero : fcanon_nonzero a f' <-> fcanon_nonzero a f.
  Proof.
    assert (W : forall k, In k canon_keys -> (f' k <> 0 <-> f k <> 0)) by (intros k K; exact (sc_nonzero _ _ _ (UF k K))).
    unfold fcanon_nonzero. rewrite (sc_nonzero _ _ _ s_mT), (sc_nonzero _ _ _ s_mA), !W by (cbn; tauto). reflexivity.
  Qed.
End Scale.
