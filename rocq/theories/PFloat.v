(* PFloat.v -- error bounds and exact symmetries of MFloat.v *)
From Coq Require Import Lra Lia ZArith.
From Flocq Require Import Core Relative.
From Verif Require Import Base PBase MVec MBicycle MFloat SBicycle PBicycle SFloat.
Local Open Scope string_scope.
Local Open Scope R_scope.

(* ---- factors ---- *)
Definition close (k : nat) (xh x : R) : Prop := exists d, xh = x * d /\ (1 - roundoff) ^ k <= d <= / (1 - roundoff) ^ k.
Lemma roundoff_small : 0 < roundoff <= / 1048576.
Proof. unfold roundoff. split; [apply Rinv_0_lt_compat, pow_lt; lra|]. apply Rinv_le_contravar; [lra|]. replace 1048576 with (2 ^ 20) by (simpl; lra). apply Rle_pow; [lra|lia]. Qed.
Lemma q_bounds : 0 < 1 - roundoff < 1.
Proof. pose proof roundoff_small. lra. Qed.
Lemma qk_bounds k : 0 < (1 - roundoff) ^ k <= 1.
Proof. pose proof q_bounds. split; [apply pow_lt; lra|]. apply Rle_trans with (1 ^ k); [apply pow_incr; lra|rewrite pow1; lra]. Qed.
Lemma qk_inv k : 1 <= / (1 - roundoff) ^ k.
Proof. destruct (qk_bounds k). apply Rle_trans with (/ 1); [rewrite Rinv_1; lra|]. apply Rinv_le_contravar; lra. Qed.
Lemma close_pos k xh x : close k xh x -> 0 < x -> 0 < xh.
Proof. intros (d & -> & L & _) P. destruct (qk_bounds k). apply Rmult_lt_0_compat; lra. Qed.
Lemma close_refl k x : close k x x.
Proof. exists 1. destruct (qk_bounds k). pose proof (qk_inv k). split; [ring|lra]. Qed.
Lemma close_weaken j k xh x : (j <= k)%nat -> close j xh x -> close k xh x.
Proof.
  intros LE (d & -> & L & U). exists d. split; [reflexivity|]. assert (Q : (1 - roundoff) ^ k <= (1 - roundoff) ^ j).
  { replace k with (j + (k - j))%nat by lia. rewrite pow_add. destruct (qk_bounds j), (qk_bounds (k - j)). rewrite <- (Rmult_1_r ((1 - roundoff) ^ j)) at 2. apply Rmult_le_compat_l; lra. }
  split; [lra|]. eapply Rle_trans; [exact U|]. destruct (qk_bounds k). apply Rinv_le_contravar; assumption.
Qed.
Lemma close_mul j k xh x yh y : close j xh x -> close k yh y -> close (j + k) (xh * yh) (x * y).
Proof.
  intros (d & -> & L & U) (e & -> & L' & U'). exists (d * e). split; [ring|]. destruct (qk_bounds j), (qk_bounds k). rewrite pow_add, Rinv_mult. split; apply Rmult_le_compat; lra.
Qed.
Lemma close_inv k xh x : close k xh x -> x <> 0 -> close k (/ xh) (/ x).
Proof.
  intros (d & -> & L & U) N. destruct (qk_bounds k) as (P & _). assert (D : 0 < d) by lra. exists (/ d). split; [rewrite Rinv_mult; reflexivity|]. split.
  - rewrite <- (Rinv_inv ((1 - roundoff) ^ k)). apply Rinv_le_contravar; assumption.
  - apply Rinv_le_contravar; assumption.
Qed.
Lemma close_div j k xh x yh y : close j xh x -> close k yh y -> y <> 0 -> close (j + k) (xh / yh) (x / y).
Proof. intros A B N. unfold Rdiv. apply close_mul; [exact A|apply close_inv; assumption]. Qed.
Lemma close_neg k xh x : close k xh x -> close k (- xh) (- x).
Proof. intros (d & -> & B). exists d. split; [ring|exact B]. Qed.
Lemma close_sum k xh x yh y : close k xh x -> close k yh y -> 0 <= x -> 0 <= y -> close k (xh + yh) (x + y).
Proof.
  intros (d & -> & L & U) (e & -> & L' & U') X Y. destruct (Rle_lt_or_eq_dec 0 (x + y) ltac:(lra)) as [P|Z].
  - exists ((x * d + y * e) / (x + y)). split; [field; lra|]. set (lo := (1 - roundoff) ^ k) in *. set (hi := / lo) in *. clearbody hi. split.
    + apply (Rmult_le_reg_r (x + y)); [exact P|]. unfold Rdiv. rewrite Rmult_assoc, Rinv_l by lra. assert (x * lo <= x * d) by (apply Rmult_le_compat_l; lra). assert (y * lo <= y * e) by (apply Rmult_le_compat_l; lra). lra.
    + apply (Rmult_le_reg_r (x + y)); [exact P|]. unfold Rdiv. rewrite Rmult_assoc, Rinv_l by lra. assert (x * d <= x * hi) by (apply Rmult_le_compat_l; lra). assert (y * e <= y * hi) by (apply Rmult_le_compat_l; lra). lra.
  - assert (x = 0) as -> by lra. assert (y = 0) as -> by lra. exists 1. destruct (qk_bounds k). pose proof (qk_inv k). split; [ring|lra].
Qed.
Lemma close_trans j k x y z : close j x y -> close k y z -> close (j + k) x z.
Proof. intros (d & -> & B) (e & -> & B'). exists (e * d). split; [ring|]. destruct (qk_bounds j), (qk_bounds k). rewrite pow_add, Rinv_mult. rewrite (Rmult_comm e d). split; apply Rmult_le_compat; lra. Qed.

(* bounds on the factors in roundoffs *)
Lemma bernoulli k : 1 - INR k * roundoff <= (1 - roundoff) ^ k.
Proof.
  induction k as [|k IH]; [simpl; lra|]. rewrite S_INR. cbn [pow]. pose proof roundoff_small. destruct (qk_bounds k). pose proof (pos_INR k). 
  assert (roundoff * (1 - roundoff) ^ k <= roundoff * 1) by (apply Rmult_le_compat_l; lra). lra.
Qed.
Lemma within_close1 xh x : within 1 xh x -> close 1 xh x.
Proof.
  unfold within. change (INR 1) with 1. intros W. pose proof roundoff_small as RS. destruct (Req_dec x 0) as [->|N].
  - rewrite Rabs_R0, Rmult_0_r in W. exists 1. assert (xh = 0). { destruct (Req_dec xh 0); [assumption|]. apply Rabs_pos_lt in H. rewrite Rminus_0_r in W. lra. } split; [lra|]. rewrite pow_1. split; [lra|]. pose proof (qk_inv 1) as Q. rewrite pow_1 in Q. exact Q.
  - exists (xh / x). split; [field; exact N|]. assert (B : Rabs (xh / x - 1) <= roundoff).
    { replace (xh / x - 1) with ((xh - x) / x) by (field; exact N). unfold Rdiv. rewrite Rabs_mult, Rabs_inv. apply (Rmult_le_reg_r (Rabs x)); [apply Rabs_pos_lt; exact N|]. rewrite Rmult_assoc, Rinv_l by (apply Rabs_no_R0; exact N). lra. }
    apply Rabs_le_inv in B. rewrite pow_1. split; [lra|]. apply (Rmult_le_reg_r (1 - roundoff)); [lra|]. rewrite Rinv_l by lra. apply Rle_trans with ((1 + roundoff) * (1 - roundoff)); [apply Rmult_le_compat_r; lra|]. nra.
Qed.
Lemma within_close2 xh x : within 2 xh x -> close 3 xh x.
Proof.
  unfold within. change (INR 2) with 2. intros W. pose proof roundoff_small as RS. destruct (Req_dec x 0) as [->|N].
  - rewrite Rabs_R0, Rmult_0_r in W. exists 1. assert (xh = 0). { destruct (Req_dec xh 0); [assumption|]. apply Rabs_pos_lt in H. rewrite Rminus_0_r in W. lra. } split; [lra|]. destruct (qk_bounds 3). pose proof (qk_inv 3) as Q. lra.
  - exists (xh / x). split; [field; exact N|]. assert (B : Rabs (xh / x - 1) <= 2 * roundoff).
    { replace (xh / x - 1) with ((xh - x) / x) by (field; exact N). unfold Rdiv. rewrite Rabs_mult, Rabs_inv. apply (Rmult_le_reg_r (Rabs x)); [apply Rabs_pos_lt; exact N|]. rewrite Rmult_assoc, Rinv_l by (apply Rabs_no_R0; exact N). lra. }
    apply Rabs_le_inv in B. set (u := roundoff) in *. clearbody u. assert (E : (1 - u) ^ 3 <= 1 - 2 * u) by nra. split; [lra|].
    apply (Rmult_le_reg_r ((1 - u) ^ 3)); [apply pow_lt; lra|]. rewrite Rinv_l by (apply Rgt_not_eq, pow_lt; lra). apply Rle_trans with ((1 + 2 * u) * (1 - 2 * u)); [apply Rmult_le_compat; try lra; apply pow_le; lra|nra].
Qed.
Lemma factor_bound k : (k <= 60)%nat -> / (1 - roundoff) ^ k <= 1 + INR (S k) * roundoff.
Proof.
  intros LE. pose proof roundoff_small as RS. pose proof (bernoulli k) as B.
  rewrite S_INR. assert (K : 0 <= INR k <= 60) by (split; [apply pos_INR|]; replace 60 with (INR 60) by (simpl; lra); apply le_INR; exact LE). set (u := roundoff) in *. set (n := INR k) in *. set (q := (1 - u) ^ k) in *. clearbody q n u.
  assert (NU : 0 <= n * u <= 60 / 1048576). { split; [apply Rmult_le_pos; lra|]. apply Rle_trans with (60 * / 1048576); [apply Rmult_le_compat; lra|lra]. }
  apply Rle_trans with (/ (1 - n * u)); [apply Rinv_le_contravar; lra|]. apply (Rmult_le_reg_r (1 - n * u)); [lra|]. rewrite Rinv_l by lra. assert (n * u * ((n + 1) * u) <= 61 / 1048576 * u * 60); [|lra].
  replace (n * u * ((n + 1) * u)) with ((n * u) * (n + 1) * u) by ring. apply Rle_trans with (60 / 1048576 * 61 * u); [|lra]. apply Rmult_le_compat_r; [lra|]. apply Rmult_le_compat; lra.
Qed.
Lemma close_within k xh x : (k <= 60)%nat -> close k xh x -> within (S k) xh x.
Proof.
  intros LE (d & -> & L & U). unfold within. replace (x * d - x) with ((d - 1) * x) by ring. rewrite Rabs_mult. apply Rmult_le_compat_r; [apply Rabs_pos|]. pose proof (factor_bound k LE) as UP. pose proof (bernoulli k) as B. pose proof roundoff_small. rewrite S_INR in *.
  apply Rabs_le. split; lra.
Qed.

(* the canonical matrices as closed expressions *)
Section FFormula.
  Variable a : arith.
  Variable f : string -> R.
  Let mR := f "mR". Let mB := f "mB". Let mH := f "mH". Let mF := f "mF".
  Let xB := f "xB". Let xH := f "xH". Let zB := f "zB". Let zH := f "zH".
  Let w := f "w". Let c := f "c". Let lam := f "lam". Let rR := f "rR". Let rF := f "rF".
  Definition FF_mT : R := (fadd a (fadd a (fadd a mR mB) mH) mF).
  Definition FF_xT : R := (fdivc a (fadd a (fadd a (fmul a xB mB) (fmul a xH mH)) (fmul a w mF)) FF_mT).
  Definition FF_zT : R := (fdivc a (fsub a (fadd a (fadd a (fmul a (fneg rR) mR) (fmul a zB mB)) (fmul a zH mH)) (fmul a rF mF)) FF_mT).
  Definition FF_ITxx : R := (fadd a (fadd a (fadd a (fadd a (fadd a (fadd a (fadd a (f "IRxx") (f "IBxx")) (f "IHxx")) (f "IFxx")) (fmul a mR (fsq a rR))) (fmul a mB (fsq a zB))) (fmul a mH (fsq a zH))) (fmul a mF (fsq a rF))).
  Definition FF_ITxz : R := (fadd a (fsub a (fsub a (fadd a (f "IBxz") (f "IHxz")) (fmul a (fmul a mB xB) zB)) (fmul a (fmul a mH xH) zH)) (fmul a (fmul a mF w) rF)).
  Definition FF_ITzz : R := (fadd a (fadd a (fadd a (fadd a (fadd a (fadd a (f "IRxx") (f "IBzz")) (f "IHzz")) (f "IFxx")) (fmul a mB (fsq a xB))) (fmul a mH (fsq a xH))) (fmul a mF (fsq a w))).
  Definition FF_mA : R := (fadd a mH mF).
  Definition FF_xA : R := (fdivc a (fadd a (fmul a xH mH) (fmul a w mF)) FF_mA).
  Definition FF_zA : R := (fdivc a (fsub a (fmul a zH mH) (fmul a rF mF)) FF_mA).
  Definition FF_IAxx : R := (fadd a (fadd a (fadd a (f "IHxx") (f "IFxx")) (fmul a mH (fsq a (fsub a zH FF_zA)))) (fmul a mF (fsq a (fadd a rF FF_zA)))).
  Definition FF_IAxz : R := (fadd a (fsub a (f "IHxz") (fmul a (fmul a mH (fsub a xH FF_xA)) (fsub a zH FF_zA))) (fmul a (fmul a mF (fsub a w FF_xA)) (fadd a rF FF_zA))).
  Definition FF_IAzz : R := (fadd a (fadd a (fadd a (f "IHzz") (f "IFxx")) (fmul a mH (fsq a (fsub a xH FF_xA)))) (fmul a mF (fsq a (fsub a w FF_xA)))).
  Definition FF_uA : R := (fsub a (fmul a (fsub a (fsub a FF_xA w) c) (fcos a lam)) (fmul a FF_zA (fsin a lam))).
  Definition FF_IAll : R := (fadd a (fadd a (fadd a (fmul a FF_mA (fsq a FF_uA)) (fmul a FF_IAxx (fsq a (fsin a lam)))) (fmul a (fmul a (fmul a 2 FF_IAxz) (fsin a lam)) (fcos a lam))) (fmul a FF_IAzz (fsq a (fcos a lam)))).
  Definition FF_IAlx : R := (fadd a (fadd a (fmul a (fmul a (fneg FF_mA) FF_uA) FF_zA) (fmul a FF_IAxx (fsin a lam))) (fmul a FF_IAxz (fcos a lam))).
  Definition FF_IAlz : R := (fadd a (fadd a (fmul a (fmul a FF_mA FF_uA) FF_xA) (fmul a FF_IAxz (fsin a lam))) (fmul a FF_IAzz (fcos a lam))).
  Definition FF_mu : R := (fmul a (fdivc a c w) (fcos a lam)).
  Definition FF_SR : R := (fdivc a (f "IRyy") rR).
  Definition FF_SF : R := (fdivc a (f "IFyy") rF).
  Definition FF_ST : R := (fadd a FF_SR FF_SF).
  Definition FF_SA : R := (fadd a (fmul a FF_mA FF_uA) (fmul a (fmul a FF_mu FF_mT) FF_xT)).
  Definition FF_canon : canon := mkcanon
    (mk2 FF_ITxx (fadd a FF_IAlx (fmul a FF_mu FF_ITxz)) (fadd a FF_IAlx (fmul a FF_mu FF_ITxz)) (fadd a (fadd a FF_IAll (fmul a (fmul a 2 FF_mu) FF_IAlz)) (fmul a (fsq a FF_mu) FF_ITzz)))
    (mk2 0 (fsub a (fadd a (fadd a (fmul a FF_mu FF_ST) (fmul a FF_SF (fcos a lam))) (fmul a (fdivc a FF_ITxz w) (fcos a lam))) (fmul a (fmul a FF_mu FF_mT) FF_zT)) (fneg (fadd a (fmul a FF_mu FF_ST) (fmul a FF_SF (fcos a lam)))) (fadd a (fmul a (fdivc a FF_IAlz w) (fcos a lam)) (fmul a FF_mu (fadd a FF_SA (fmul a (fdivc a FF_ITzz w) (fcos a lam))))))
    (mk2 (fmul a FF_mT FF_zT) (fneg FF_SA) (fneg FF_SA) (fmul a (fneg FF_SA) (fsin a lam)))
    (mk2 0 (fmul a (fdivc a (fsub a FF_ST (fmul a FF_mT FF_zT)) w) (fcos a lam)) 0 (fmul a (fdivc a (fadd a FF_SA (fmul a FF_SF (fsin a lam))) w) (fcos a lam))).
End FFormula.

Lemma fdiv_eq a x y : y <> 0 -> fdiv a x y = Ok (fdivc a x y).
Proof. intros N. unfold fdiv, fdivc. destruct (Req_EM_T y 0); [contradiction|reflexivity]. Qed.
Lemma fdiv_ok a x y z : fdiv a x y = Ok z -> y <> 0 /\ z = fdivc a x y.
Proof. unfold fdiv, fdivc. destruct (Req_EM_T y 0); [discriminate|]. intros E. injection E as <-. auto. Qed.
Definition fcanon_nonzero (a : arith) (f : string -> R) : Prop := FF_mT a f <> 0 /\ FF_mA a f <> 0 /\ f "w" <> 0 /\ f "rR" <> 0 /\ f "rF" <> 0.
Lemma fcanon_forward a p : (forall k, In k canon_keys -> In k (dkeys p)) -> fcanon_nonzero a (pv p) ->
  fbenchmark_par_to_canonical a p = (canon_dict p, Ok (FF_canon a (pv p))).
Proof.
  intros HK (N1 & N2 & N3 & N4 & N5). assert (L : forall k, In k canon_keys -> dlook p k = Ok (pv p k)) by (intros; apply dlook_pv; auto).
  assert (L2 : forall k, In k canon_keys -> dlook (canon_dict p) k = Ok (pv p k)).
  { intros k Hk. unfold canon_dict, dlook. rewrite !dget_dset. assert (E1 : String.eqb k "IFzz" = false) by (apply String.eqb_neq; intros ->; simpl in Hk; intuition discriminate).
    assert (E2 : String.eqb k "IRzz" = false) by (apply String.eqb_neq; intros ->; simpl in Hk; intuition discriminate). rewrite E1, E2. apply (L k Hk). }
  assert (LR : dlook (canon_dict p) "IRzz" = Ok (pv p "IRxx")) by (unfold canon_dict, dlook; rewrite dget_dset_neq by reflexivity; rewrite dget_dset_eq; reflexivity).
  assert (LF : dlook (canon_dict p) "IFzz" = Ok (pv p "IFxx")) by (unfold canon_dict, dlook; rewrite dget_dset_eq; reflexivity).
  unfold fbenchmark_par_to_canonical.
  assert (P1 : fcanon_phase1 a p = Ok (mkcanon1 (FF_mT a (pv p)) (FF_xT a (pv p)) (FF_zT a (pv p)) (FF_ITxx a (pv p)) (FF_ITxz a (pv p)) (pv p "IRxx") (pv p "IFxx"))).
  { unfold fcanon_phase1. repeat ((rewrite L by (simpl; tauto); cbn [bind]) || (rewrite fdiv_eq by assumption; cbn [bind])). reflexivity. }
  rewrite P1. cbn [k_IRxx k_IFxx]. fold (canon_dict p). f_equal. unfold fcanon_phase2. rewrite LR, LF; cbn [bind].
  repeat ((rewrite L2 by (simpl; tauto); cbn [bind]) || (rewrite fdiv_eq by assumption; cbn [bind])). reflexivity.
Qed.
Lemma fcanon_inversion a p p' c : fbenchmark_par_to_canonical a p = (p', Ok c) ->
  (forall k, In k canon_keys -> In k (dkeys p)) /\ fcanon_nonzero a (pv p) /\ p' = canon_dict p /\ c = FF_canon a (pv p).
Proof.
  intros H. assert (G : (forall k, In k canon_keys -> In k (dkeys p)) /\ fcanon_nonzero a (pv p)).
  { unfold fbenchmark_par_to_canonical in H. destruct (fcanon_phase1 a p) as [k|e] eqn:E1; [|discriminate]. injection H as Hp' H. clear Hp'.
    unfold fcanon_phase1 in E1. repeat step_bind E1. injection E1 as E1. subst k. cbn [k_IRxx k_IFxx] in H. set (q := dset (dset p "IRzz" _) "IFzz" _) in H.
    unfold fcanon_phase2 in H. cbn [k_mT k_xT k_zT k_ITxx k_ITxz] in H. repeat step_bind H. clear H.
    repeat match goal with X : fdiv a _ _ = Ok _ |- _ => apply fdiv_ok in X; destruct X as [? _] end.
    assert (Q : forall k v, dlook q k = Ok v -> k <> "IRzz"%string -> k <> "IFzz"%string -> dlook p k = Ok v).
    { intros k v X N1 N2. apply String.eqb_neq in N1, N2. unfold dlook, q in X. rewrite dget_dset_neq in X by exact N2. rewrite dget_dset_neq in X by exact N1. exact X. }
    repeat match goal with X : dlook q "IRzz" = _ |- _ => clear X | X : dlook q "IFzz" = _ |- _ => clear X | X : dlook q _ = _ |- _ => apply Q in X; [|discriminate|discriminate] end.
    split.
    - intros k Hk. simpl in Hk. repeat (destruct Hk as [Hk|Hk]; [subst k; eapply in_keys_of_dlook; eassumption|]). contradiction.
    - clear Q. repeat match goal with X : dlook p _ = Ok _ |- _ => apply pv_of_dlook in X end. unfold fcanon_nonzero, FF_mT, FF_mA. subst. repeat split; congruence. }
  destruct G as [G1 G2]. rewrite (fcanon_forward a p G1 G2) in H. injection H as <- <-. auto.
Qed.
