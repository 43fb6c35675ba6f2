(* PFloat5.v -- rounding errors of the state space *)
From Coq Require Import Lra Lia ZArith.
From Verif Require Import Base PBase MString MVec MBicycle MFloat MModels MModels2 SBicycle PBicycle SModels SModels2 SFloat PFloat PFloat2 PFloat3 PFloat4.
Local Open Scope R_scope.

(* xh approximates x, of size at most m, with error e m *)
Definition er (e xh x m : R) : Prop := 0 <= e /\ Rabs (xh - x) <= e * m /\ Rabs x <= m.
Lemma er_m e xh x m : er e xh x m -> 0 <= m.
Proof. intros (_ & _ & H). pose proof (Rabs_pos x). lra. Qed.
Lemma er_le e e' xh x m : er e xh x m -> e <= e' -> er e' xh x m.
Proof. intros H L. pose proof (er_m _ _ _ _ H) as PM. destruct H as (H0 & H1 & H2). split; [lra|]. split; [|exact H2]. assert (e * m <= e' * m) by (apply Rmult_le_compat_r; assumption). lra. Qed.
Lemma er_size e xh x m : er e xh x m -> Rabs xh <= (1 + e) * m.
Proof. intros (H0 & H1 & H2). replace xh with ((xh - x) + x) by ring. pose proof (Rabs_triang (xh - x) x). lra. Qed.
Lemma er_err k xh x m : err k xh x m -> er (eps k) xh x m.
Proof. intros (H1 & H2). split; [apply eps_pos|]. split; assumption. Qed.
Lemma er_mul e f xh x m yh y n : er e xh x m -> er f yh y n -> e <= 1 / 100 -> er (e + 101 / 100 * f) (xh * yh) (x * y) (m * n).
Proof.
  intros HX HY L. pose proof (er_m _ _ _ _ HX) as PM. pose proof (er_m _ _ _ _ HY) as PN. pose proof (er_size _ _ _ _ HX) as SX. destruct HX as (X0 & X1 & X2). destruct HY as (Y0 & Y1 & Y2). split; [lra|]. split.
  - replace (xh * yh - x * y) with (xh * (yh - y) + (xh - x) * y) by ring. eapply Rle_trans; [apply Rabs_triang|]. rewrite !Rabs_mult.
    assert (A1 : Rabs xh * Rabs (yh - y) <= (1 + e) * m * (f * n)) by (apply Rmult_le_compat; auto using Rabs_pos).
    assert (A2 : Rabs (xh - x) * Rabs y <= e * m * n) by (apply Rmult_le_compat; auto using Rabs_pos).
    assert (A3 : (1 + e) * (f * (m * n)) <= 101 / 100 * (f * (m * n))) by (apply Rmult_le_compat_r; [apply Rmult_le_pos; [lra|apply Rmult_le_pos; lra]|lra]). lra.
  - rewrite Rabs_mult. apply Rmult_le_compat; auto using Rabs_pos.
Qed.
Lemma er_add e xh x m yh y n : er e xh x m -> er e yh y n -> er e (xh + yh) (x + y) (m + n).
Proof.
  intros (X0 & X1 & X2) (Y0 & Y1 & Y2). split; [exact X0|]. split.
  - replace (xh + yh - (x + y)) with ((xh - x) + (yh - y)) by ring. eapply Rle_trans; [apply Rabs_triang|]. lra.
  - eapply Rle_trans; [apply Rabs_triang|]. lra.
Qed.
Lemma er_opp e xh x m : er e xh x m -> er e (- xh) (- x) m.
Proof. intros (X0 & X1 & X2). split; [exact X0|]. rewrite Rabs_Ropp. split; [|exact X2]. replace (- xh - - x) with (- (xh - x)) by ring. rewrite Rabs_Ropp. exact X1. Qed.
Lemma er_refl x : er 0 x x (Rabs x).
Proof. split; [lra|]. split; [|lra]. replace (x - x) with 0 by ring. rewrite Rabs_R0. lra. Qed.

Section AB.
  Variable a : arith.
  Hypothesis AC : accurate a.
  Let u := roundoff.
  Let u0 : 0 < u <= / 1048576. Proof. exact roundoff_small. Qed.
  Lemma er_fl e xh x m : er e xh x m -> e <= 1 / 100 -> er (e + 101 / 100 * u) (fl a xh) x m.
  Proof.
    intros H L. pose proof (er_size _ _ _ _ H) as SX. pose proof (er_m _ _ _ _ H) as PM. destruct H as (X0 & X1 & X2). split; [lra|]. split; [|exact X2].
    destruct AC as (AF & _). pose proof (AF xh) as W. unfold within in W. change (INR 1) with 1 in W. fold u in W.
    replace (fl a xh - x) with ((fl a xh - xh) + (xh - x)) by ring. eapply Rle_trans; [apply Rabs_triang|].
    assert (A1 : u * Rabs xh <= u * ((1 + e) * m)) by (apply Rmult_le_compat_l; lra).
    assert (A2 : (1 + e) * (u * m) <= 101 / 100 * (u * m)) by (apply Rmult_le_compat_r; [apply Rmult_le_pos; lra|lra]). lra.
  Qed.
  Lemma er_sq v : er (2 * u) (fsq a v) (v ^ 2) (v ^ 2).
  Proof.
    assert (P : 0 <= v ^ 2) by (apply pow2_ge_0). destruct AC as (_ & _ & _ & SQ & _). pose proof (SQ v) as W. unfold within in W. rewrite (Rabs_right (v ^ 2)) in W by lra. change (INR 2) with 2 in W.
    split; [lra|]. split; [exact W|]. rewrite Rabs_right by lra. lra.
  Qed.
  Lemma er_dot e f x1h x1 m1 x2h x2 m2 y1h y1 n1 y2h y2 n2 : er e x1h x1 m1 -> er e x2h x2 m2 -> er f y1h y1 n1 -> er f y2h y2 n2 -> e <= 1 / 100 -> f <= 1 / 100 ->
    er (e + 101 / 100 * f + 31 / 10 * u) (fdot a x1h x2h y1h y2h) (x1 * y1 + x2 * y2) (m1 * n1 + m2 * n2).
  Proof.
    intros H1 H2 G1 G2 L1 L2. pose proof (er_mul _ _ _ _ _ _ _ _ H1 G1 L1) as P1. pose proof (er_mul _ _ _ _ _ _ _ _ H2 G2 L1) as P2. pose proof (er_add _ _ _ _ _ _ _ P1 P2) as P.
    pose proof (er_size _ _ _ _ P1) as S1. pose proof (er_size _ _ _ _ P2) as S2. pose proof (er_m _ _ _ _ P) as PM. pose proof (er_m _ _ _ _ P1) as PM1. pose proof (er_m _ _ _ _ P2) as PM2.
    destruct P as (Q0 & Q1 & Q2). split; [lra|]. split; [|exact Q2]. destruct AC as (_ & _ & _ & _ & _ & D). pose proof (D x1h x2h y1h y2h) as W. fold u in W.
    match goal with |- Rabs (?d - ?s) <= _ => replace (d - s) with ((d - (x1h * y1h + x2h * y2h)) + ((x1h * y1h + x2h * y2h) - s)) by ring end. eapply Rle_trans; [apply Rabs_triang|].
    set (h := e + 101 / 100 * f) in *. assert (HL : h <= 201 / 10000) by (unfold h; lra).
    assert (A1 : u * (Rabs (x1h * y1h) + Rabs (x2h * y2h)) <= u * ((1 + h) * (m1 * n1 + m2 * n2))) by (apply Rmult_le_compat_l; lra).
    assert (A2 : (1 + h) * (u * (m1 * n1 + m2 * n2)) <= 103 / 100 * (u * (m1 * n1 + m2 * n2))) by (apply Rmult_le_compat_r; [apply Rmult_le_pos; lra|lra]).
    assert (A3 : 0 <= u * (m1 * n1 + m2 * n2)) by (apply Rmult_le_pos; lra). lra.
  Qed.
  Lemma inv_near D Dh d : D <> 0 -> 0 <= d <= 1 / 100 -> Rabs (Dh - D) <= d * Rabs D -> Dh <> 0 /\ er (102 / 100 * d) (1 / Dh) (/ D) (/ Rabs D).
  Proof.
    intros N L H. assert (PD : 0 < Rabs D) by (apply Rabs_pos_lt, N).
    assert (LO : 99 / 100 * Rabs D <= Rabs Dh). { pose proof (Rabs_triang (D - Dh) Dh) as T. replace (D - Dh + Dh) with D in T by ring. rewrite (Rabs_minus_sym D Dh) in T. assert (d * Rabs D <= 1 / 100 * Rabs D) by (apply Rmult_le_compat_r; lra). lra. }
    assert (NH : Dh <> 0) by (intros Z; rewrite Z, Rabs_R0 in LO; lra). split; [exact NH|]. assert (PH : 0 < Rabs Dh) by (apply Rabs_pos_lt, NH). split; [lra|]. split; [|rewrite Rabs_inv; lra].
    replace (1 / Dh - / D) with ((D - Dh) * (/ D * / Dh)) by (field; split; assumption). rewrite !Rabs_mult, !Rabs_inv, (Rabs_minus_sym D Dh).
    assert (IH : / Rabs Dh <= / (99 / 100 * Rabs D)) by (apply Rinv_le_contravar; lra).
    assert (ID : 0 < / Rabs D) by (apply Rinv_0_lt_compat, PD). assert (IHp : 0 < / Rabs Dh) by (apply Rinv_0_lt_compat, PH).
    assert (A1 : Rabs (Dh - D) * (/ Rabs D * / Rabs Dh) <= d * Rabs D * (/ Rabs D * / (99 / 100 * Rabs D))).
    { apply Rmult_le_compat; [apply Rabs_pos|apply Rmult_le_pos; lra|exact H|apply Rmult_le_compat_l; lra]. }
    replace (d * Rabs D * (/ Rabs D * / (99 / 100 * Rabs D))) with (100 / 99 * (d * / Rabs D)) in A1 by (field; lra).
    assert (0 <= d * / Rabs D) by (apply Rmult_le_pos; lra). lra.
  Qed.

  Definition er2 (e : R) (xh x m : mat2) : Prop := er e (m11 xh) (m11 x) (m11 m) /\ er e (m12 xh) (m12 x) (m12 m) /\ er e (m21 xh) (m21 x) (m21 m) /\ er e (m22 xh) (m22 x) (m22 m).
  Variables (c k v g : R) (Mh M GM C1h C1 GC K0h K0 G0 K2h K2 G2 : mat2).
  Hypothesis C46 : 0 <= c <= 46.
  Hypothesis HM : er2 (c * u) Mh M GM.
  Hypothesis HC : er2 (c * u) C1h C1 GC.
  Hypothesis H0 : er2 (c * u) K0h K0 G0.
  Hypothesis H2 : er2 (c * u) K2h K2 G2.
  Hypothesis CD : conditioned k GM M.
  Hypothesis KU : k * u <= / 100000.
  Let D := m11 M * m22 M - m12 M * m21 M.
  Let t := k * u.
  Let p := c * u.
  Let q := c * t.
  Lemma k1 : 1 <= k.
  Proof.
    destruct CD as (N & L). fold D in N, L. destruct HM as (E1 & E2 & E3 & E4). assert (PD : 0 < Rabs D) by (apply Rabs_pos_lt, N).
    assert (S1 : Rabs D <= m11 GM * m22 GM + m12 GM * m21 GM).
    { unfold D, Rminus. eapply Rle_trans; [apply Rabs_triang|]. rewrite Rabs_Ropp, !Rabs_mult. apply Rplus_le_compat; apply Rmult_le_compat; try apply Rabs_pos; [apply E1|apply E4|apply E2|apply E3]. }
    assert (1 * Rabs D <= k * Rabs D) by lra. apply (Rmult_le_reg_r (Rabs D)); assumption.
  Qed.
  Lemma sizes : u <= t /\ t <= / 100000 /\ 0 <= p <= q /\ q <= 46 / 100000 /\ p <= 46 / 1048576.
  Proof.
    pose proof k1 as K1. pose proof u0. assert (UT : 1 * u <= k * u) by (apply Rmult_le_compat_r; lra). assert (TT : u <= t) by (unfold t; lra). split; [exact TT|]. split; [exact KU|].
    assert (PQ : c * u <= c * t) by (apply Rmult_le_compat_l; lra). assert (P0 : 0 <= c * u) by (apply Rmult_le_pos; lra). split; [unfold p, q; lra|].
    assert (c * t <= 46 * / 100000) by (apply Rmult_le_compat; try lra; exact KU). assert (c * u <= 46 * / 1048576) by (apply Rmult_le_compat; lra). unfold p, q. lra.
  Qed.
  Lemma det_near : Rabs (fdet a Mh - D) <= (203 / 100 * q + 203 / 100 * t) * Rabs D.
  Proof.
    pose proof sizes as (UT & TL & PQ & QL & PL). destruct HM as (E1 & E2 & E3 & E4). fold p in E1, E2, E3, E4.
    pose proof (er_mul _ _ _ _ _ _ _ _ E1 E4 ltac:(lra)) as P1. pose proof (er_mul _ _ _ _ _ _ _ _ E2 E3 ltac:(lra)) as P2.
    pose proof (er_fl _ _ _ _ P1 ltac:(lra)) as Q1. pose proof (er_fl _ _ _ _ P2 ltac:(lra)) as Q2. pose proof (er_add _ _ _ _ _ _ _ Q1 (er_opp _ _ _ _ Q2)) as Q3.
    pose proof (er_fl _ _ _ _ Q3 ltac:(lra)) as Q. destruct Q as (_ & Q & _). unfold fdet, fsub, fmul, Rminus. unfold Rminus in Q. fold (m11 M * m22 M - m12 M * m21 M) in Q.
    eapply Rle_trans; [exact Q|]. destruct CD as (N & L). fold D in N, L. pose proof (Rabs_pos D).
    set (w := p + 101 / 100 * p + 101 / 100 * u + 101 / 100 * u). assert (W0 : 0 <= w) by (unfold w; lra).
    assert (A1 : w * (m11 GM * m22 GM + m12 GM * m21 GM) <= w * (k * Rabs D)) by (apply Rmult_le_compat_l; assumption).
    replace (w * (k * Rabs D)) with ((201 / 100 * q + 202 / 100 * t) * Rabs D) in A1 by (unfold w, q, t, p; field).
    assert ((201 / 100 * q + 202 / 100 * t) * Rabs D <= (203 / 100 * q + 203 / 100 * t) * Rabs D) by (apply Rmult_le_compat_r; lra). lra.
  Qed.
  Definition Jx : mat2 := m2_scale (/ D) (mk2 (m22 M) (- m12 M) (- m21 M) (m11 M)).
  Lemma inv_er : fdet a Mh <> 0 /\ er2 (4 * q + 5 * t) (finvm a Mh) Jx (inverse_sizes GM M).
  Proof.
    pose proof sizes as (UT & TL & PQ & QL & PL). destruct CD as (N & _). fold D in N. destruct (inv_near D (fdet a Mh) (203 / 100 * q + 203 / 100 * t) N ltac:(split; lra) det_near) as (NH & I).
    split; [exact NH|]. pose proof (er_fl _ _ _ _ I ltac:(lra)) as J. fold (fdivc a 1 (fdet a Mh)) in J. destruct HM as (E1 & E2 & E3 & E4). fold p in E1, E2, E3, E4.
    unfold er2, finvm, Jx, inverse_sizes, fm2_scale, m2_scale. cbn [m11 m12 m21 m22]. fold D.
    assert (X : forall xh x m, er p xh x m -> er (4 * q + 5 * t) (fmul a (fdivc a 1 (fdet a Mh)) xh) (/ D * x) (/ Rabs D * m)).
    { intros xh x m E. eapply er_le; [apply er_fl; [apply (er_mul _ _ _ _ _ _ _ _ J E); lra|lra]|lra]. }
    split; [|split; [|split]]; apply X; try assumption; apply er_opp; assumption.
  Qed.
  Lemma er2_dot e f xh x m yh y n : er2 e xh x m -> er2 f yh y n -> e <= 1 / 100 -> f <= 1 / 100 -> er2 (e + 101 / 100 * f + 31 / 10 * u) (m2_neg (fm2_dot a xh yh)) (m2_neg (m2_dot x y)) (m2_dot m n).
  Proof.
    intros (X1 & X2 & X3 & X4) (Y1 & Y2 & Y3 & Y4) L1 L2. unfold er2, fm2_dot, m2_dot, m2_neg. cbn [m11 m12 m21 m22]. split; [|split; [|split]]; apply er_opp, er_dot; assumption.
  Qed.
  Lemma er2_le e e' x y z : er2 e x y z -> e <= e' -> er2 e' x y z.
  Proof. intros (X1 & X2 & X3 & X4) L. unfold er2. split; [|split; [|split]]; (eapply er_le; [eassumption|exact L]). Qed.
  Lemma scale_er kh kk n e xh x m : er (2 * u) kh kk n -> er e xh x m -> e <= 1 / 1000 -> er (e + 31 / 10 * u) (fmul a kh xh) (kk * x) (n * m).
  Proof. intros K X L. pose proof X as (X0 & _). eapply er_le; [apply er_fl; [rewrite (Rmult_comm kh xh), (Rmult_comm kk x), (Rmult_comm n m); apply (er_mul _ _ _ _ _ _ _ _ X K); lra|lra]|lra]. Qed.
  Lemma er_u x : er (2 * u) x x (Rabs x).
  Proof. eapply er_le; [apply er_refl|]. lra. Qed.
  Lemma A21_er : er2 (6 * q + 15 * t) (fA21 a Mh K0h K2h v g) (m2_neg (m2_dot Jx (m2_add (m2_scale g K0) (m2_scale (v ^ 2) K2)))) (m2_dot (inverse_sizes GM M) (m2_add (m2_scale (Rabs g) G0) (m2_scale (v ^ 2) G2))).
  Proof.
    pose proof sizes as (UT & TL & PQ & QL & PL). destruct inv_er as (_ & J). fold p in H0, H2. destruct H0 as (X1 & X2 & X3 & X4). destruct H2 as (Y1 & Y2 & Y3 & Y4).
    unfold fA21. eapply er2_le; [apply (er2_dot (4 * q + 5 * t) (p + 42 / 10 * u)); [exact J| |lra|lra]|lra].
    unfold er2, fm2_add, fm2_scale, m2_add, m2_scale. cbn [m11 m12 m21 m22].
    assert (X : forall xh x m yh y n, er p xh x m -> er p yh y n -> er (p + 42 / 10 * u) (fadd a (fmul a g xh) (fmul a (fsq a v) yh)) (g * x + v ^ 2 * y) (Rabs g * m + v ^ 2 * n)).
    { intros xh x m yh y n X Y. eapply er_le; [apply er_fl; [apply er_add; apply scale_er; [apply er_u|exact X|lra|apply er_sq|exact Y|lra]|lra]|lra]. }
    split; [|split; [|split]]; apply X; assumption.
  Qed.
  Lemma A22_er : er2 (6 * q + 15 * t) (fA22 a Mh C1h v) (m2_neg (m2_dot Jx (m2_scale v C1))) (m2_dot (inverse_sizes GM M) (m2_scale (Rabs v) GC)).
  Proof.
    pose proof sizes as (UT & TL & PQ & QL & PL). destruct inv_er as (_ & J). fold p in HC. destruct HC as (X1 & X2 & X3 & X4).
    unfold fA22. eapply er2_le; [apply (er2_dot (4 * q + 5 * t) (p + 31 / 10 * u)); [exact J| |lra|lra]|lra].
    unfold er2, fm2_scale, m2_scale. cbn [m11 m12 m21 m22]. split; [|split; [|split]]; apply scale_er; try apply er_u; try assumption; lra.
  Qed.
End AB.
