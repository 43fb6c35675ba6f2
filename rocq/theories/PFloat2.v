(* PFloat2.v -- absolute error bounds of the canonical matrices *)
From Coq Require Import Lra Lia ZArith.
From Flocq Require Import Core Relative.
From Verif Require Import Base PBase MVec MBicycle MFloat SBicycle PBicycle SFloat PFloat.
Local Open Scope string_scope.
Local Open Scope R_scope.

(* xh approximates x, of size at most m, after k roundings *)
Definition eps (k : nat) : R := / (1 - roundoff) ^ k - 1.
Definition err (k : nat) (xh x m : R) : Prop := Rabs (xh - x) <= eps k * m /\ Rabs x <= m.
Lemma eps_pos k : 0 <= eps k.
Proof. unfold eps. pose proof (qk_inv k). lra. Qed.
Lemma eps_add j k : eps (j + k) = (1 + eps j) * (1 + eps k) - 1.
Proof. unfold eps. rewrite pow_add, Rinv_mult. ring. Qed.
Lemma eps_mono j k : (j <= k)%nat -> eps j <= eps k.
Proof. intros L. replace k with (j + (k - j))%nat by lia. rewrite eps_add. pose proof (eps_pos j). pose proof (eps_pos (k - j)). assert (0 <= (1 + eps j) * eps (k - j)) by (apply Rmult_le_pos; lra). lra. Qed.
Lemma err_m k xh x m : err k xh x m -> 0 <= m.
Proof. intros (_ & B). pose proof (Rabs_pos x). lra. Qed.
Lemma err_size k xh x m : err k xh x m -> Rabs xh <= (1 + eps k) * m.
Proof. intros (A & B). replace xh with ((xh - x) + x) by ring. eapply Rle_trans; [apply Rabs_triang|]. lra. Qed.
Lemma err_le j k xh x m : (j <= k)%nat -> err j xh x m -> err k xh x m.
Proof. intros L H. pose proof (err_m _ _ _ _ H) as M. destruct H as (A & B). split; [|exact B]. eapply Rle_trans; [exact A|]. apply Rmult_le_compat_r; [exact M|apply eps_mono, L]. Qed.
Lemma err_refl x : err 0 x x (Rabs x).
Proof. unfold err. rewrite Rminus_diag_eq, Rabs_R0 by reflexivity. split; [|lra]. apply Rmult_le_pos; [apply eps_pos|apply Rabs_pos]. Qed.
Lemma close_err k xh x : close k xh x -> err k xh x (Rabs x).
Proof.
  intros (d & -> & L & U). split; [|lra]. replace (x * d - x) with ((d - 1) * x) by ring. rewrite Rabs_mult. apply Rmult_le_compat_r; [apply Rabs_pos|]. unfold eps. set (q := (1 - roundoff) ^ k) in *. destruct (qk_bounds k) as (P & Q). fold q in P, Q.
  apply Rabs_le. split; [|lra]. assert (1 - q <= / q - 1); [|lra]. apply (Rmult_le_reg_r q); [exact P|]. replace ((/ q - 1) * q) with (1 - q) by (field; lra). clear - P Q. nra.
Qed.
Lemma err_close j k zh yh x m : close k zh yh -> err j yh x m -> err (j + k) zh x m.
Proof.
  intros C E. pose proof (err_size _ _ _ _ E) as S. pose proof (err_m _ _ _ _ E) as M. destruct E as (A & B). split; [|exact B]. destruct (close_err _ _ _ C) as (D & _).
  replace (zh - x) with ((zh - yh) + (yh - x)) by ring. eapply Rle_trans; [apply Rabs_triang|]. rewrite eps_add. pose proof (eps_pos k) as P. pose proof (Rmult_le_compat_l _ _ _ P S) as Q. lra.
Qed.
Lemma err_sum j k xh x mx yh y my : err j xh x mx -> err k yh y my -> err (Nat.max j k) (xh + yh) (x + y) (mx + my).
Proof.
  intros E F. apply (err_le _ (Nat.max j k)) in E, F; try lia. destruct E as (A & B), F as (C & D). split.
  - replace (xh + yh - (x + y)) with ((xh - x) + (yh - y)) by ring. eapply Rle_trans; [apply Rabs_triang|]. lra.
  - eapply Rle_trans; [apply Rabs_triang|]. lra.
Qed.
Lemma err_neg k xh x m : err k xh x m -> err k (- xh) (- x) m.
Proof. intros (A & B). split; [|rewrite Rabs_Ropp; exact B]. replace (- xh - - x) with (- (xh - x)) by ring. rewrite Rabs_Ropp. exact A. Qed.
Lemma err_prod j k xh x mx yh y my : err j xh x mx -> err k yh y my -> err (j + k) (xh * yh) (x * y) (mx * my).
Proof.
  intros E F. pose proof (err_size _ _ _ _ E) as S. pose proof (err_m _ _ _ _ E) as M. pose proof (err_m _ _ _ _ F) as N. destruct E as (A & B), F as (C & D). pose proof (eps_pos j) as PJ. pose proof (eps_pos k) as PK. split.
  - replace (xh * yh - x * y) with (xh * (yh - y) + (xh - x) * y) by ring. eapply Rle_trans; [apply Rabs_triang|]. rewrite !Rabs_mult, eps_add.
    assert (H1 : Rabs xh * Rabs (yh - y) <= ((1 + eps j) * mx) * (eps k * my)) by (apply Rmult_le_compat; auto; apply Rabs_pos).
    assert (H2 : Rabs (xh - x) * Rabs y <= (eps j * mx) * my) by (apply Rmult_le_compat; auto; apply Rabs_pos). lra.
  - rewrite Rabs_mult. apply Rmult_le_compat; auto; apply Rabs_pos.
Qed.
Lemma err_quot j k xh x mx yh y : err j xh x mx -> close k yh y -> y <> 0 -> err (j + k) (xh / yh) (x / y) (mx / Rabs y).
Proof. intros E C N. unfold Rdiv. rewrite <- Rabs_inv. apply err_prod; [exact E|]. apply close_err, close_inv; assumption. Qed.

Lemma eps_bound k : (k <= 60)%nat -> eps k <= INR (S k) * roundoff.
Proof. intros L. unfold eps. pose proof (factor_bound k L). lra. Qed.
Lemma err_abs k xh x m : (k <= 60)%nat -> err k xh x m -> Rabs (xh - x) <= INR (S k) * roundoff * m.
Proof. intros L E. pose proof (err_m _ _ _ _ E) as M. destruct E as (A & _). eapply Rle_trans; [exact A|]. apply Rmult_le_compat_r; [exact M|apply eps_bound, L]. Qed.

Section Ops.
  Variable a : arith.
  Hypothesis AC : accurate a.
  Lemma cl_fl x : close 1 (fl a x) x.
  Proof. apply within_close1, AC. Qed.
  Lemma cl_sin x : close 3 (fsin a x) (sin x).
  Proof. apply within_close2. exact (proj1 (proj2 AC) x). Qed.
  Lemma cl_cos x : close 3 (fcos a x) (cos x).
  Proof. apply within_close2. exact (proj1 (proj2 (proj2 AC)) x). Qed.
  Lemma cl_sq x : close 3 (fsq a x) (x ^ 2).
  Proof. apply within_close2. exact (proj1 (proj2 (proj2 (proj2 AC))) x). Qed.
  Lemma cl_pi : close 1 (fpi a) PI.
  Proof. apply within_close1. exact (proj1 (proj2 (proj2 (proj2 (proj2 AC))))). Qed.
  Lemma err_fadd j k xh x mx yh y my : err j xh x mx -> err k yh y my -> err (Nat.max j k + 1) (fadd a xh yh) (x + y) (mx + my).
  Proof. intros E F. eapply err_close; [apply cl_fl|]. apply err_sum; assumption. Qed.
  Lemma err_fsub j k xh x mx yh y my : err j xh x mx -> err k yh y my -> err (Nat.max j k + 1) (fsub a xh yh) (x - y) (mx + my).
  Proof. intros E F. eapply err_close; [apply cl_fl|]. unfold Rminus. apply err_sum; [assumption|apply err_neg; assumption]. Qed.
  Lemma err_fmul j k xh x mx yh y my : err j xh x mx -> err k yh y my -> err (j + k + 1) (fmul a xh yh) (x * y) (mx * my).
  Proof. intros E F. eapply err_close; [apply cl_fl|]. apply err_prod; assumption. Qed.
  Lemma err_fdiv j k xh x mx yh y : err j xh x mx -> close k yh y -> y <> 0 -> err (j + k + 1) (fdivc a xh yh) (x / y) (mx / Rabs y).
  Proof. intros E C N. eapply err_close; [apply cl_fl|]. apply err_quot; assumption. Qed.
  Lemma err_fsq j xh x m : err j xh x m -> err (j + j + 3) (fsq a xh) (x ^ 2) (m ^ 2).
  Proof. intros E. eapply err_close; [apply cl_sq|]. cbn [pow]. rewrite !Rmult_1_r. apply err_prod; assumption. Qed.
  Lemma err_fneg j xh x m : err j xh x m -> err j (fneg xh) (- x) m.
  Proof. apply err_neg. Qed.
  Lemma err_fsin x : err 3 (fsin a x) (sin x) (Rabs (sin x)).
  Proof. apply close_err, cl_sin. Qed.
  Lemma err_fcos x : err 3 (fcos a x) (cos x) (Rabs (cos x)).
  Proof. apply close_err, cl_cos. Qed.
  Lemma err_2 : err 0 2 2 2.
  Proof. pose proof (err_refl 2) as E. rewrite Rabs_right in E by lra. exact E. Qed.

  Variable f : string -> R.
  Hypothesis PM : forall k, In k ["mR"; "mB"; "mH"; "mF"] -> 0 < f k.
  Hypothesis NZ : forall k, In k ["w"; "rR"; "rF"] -> f k <> 0.
  Lemma cl_add j k xh x yh y : close j xh x -> close k yh y -> 0 <= x -> 0 <= y -> close (Nat.max j k + 1) (fadd a xh yh) (x + y).
  Proof. intros E F X Y. rewrite Nat.add_comm. eapply close_trans; [apply cl_fl|]. apply close_sum; [apply (close_weaken j); [lia|exact E]|apply (close_weaken k); [lia|exact F]|exact X|exact Y]. Qed.
  Lemma masses_pos : 0 < f "mR" /\ 0 < f "mB" /\ 0 < f "mH" /\ 0 < f "mF".
  Proof. repeat split; apply PM; cbn [In]; tauto. Qed.
  Lemma cl_mT : close 3 (FF_mT a f) (F_mT f).
  Proof. destruct masses_pos as (P1 & P2 & P3 & P4). unfold FF_mT, F_mT. change 3%nat with (Nat.max (Nat.max (Nat.max 0 0 + 1) 0 + 1) 0 + 1)%nat. repeat (apply cl_add; try lra); apply close_refl. Qed.
  Lemma cl_mA : close 1 (FF_mA a f) (F_mA f).
  Proof. destruct masses_pos as (P1 & P2 & P3 & P4). unfold FF_mA, F_mA. change 1%nat with (Nat.max 0 0 + 1)%nat. apply cl_add; try lra; apply close_refl. Qed.
  Lemma mT_eq : F_mT f = G_mT f.
  Proof. destruct masses_pos as (P1 & P2 & P3 & P4). unfold F_mT, G_mT. rewrite !Rabs_right by lra. reflexivity. Qed.
  Lemma mA_eq : F_mA f = G_mA f.
  Proof. destruct masses_pos as (P1 & P2 & P3 & P4). unfold F_mA, G_mA. rewrite !Rabs_right by lra. reflexivity. Qed.
  Lemma mT_pos : 0 < F_mT f.
  Proof. destruct masses_pos as (P1 & P2 & P3 & P4). unfold F_mT. lra. Qed.
  Lemma mA_pos : 0 < F_mA f.
  Proof. destruct masses_pos as (P1 & P2 & P3 & P4). unfold F_mA. lra. Qed.
  Lemma e_mT : err 3 (FF_mT a f) (F_mT f) (G_mT f).
  Proof. rewrite <- mT_eq. rewrite <- (Rabs_right (F_mT f)) at 2 by (pose proof mT_pos; lra). apply close_err, cl_mT. Qed.
  Lemma e_mA : err 1 (FF_mA a f) (F_mA f) (G_mA f).
  Proof. rewrite <- mA_eq. rewrite <- (Rabs_right (F_mA f)) at 2 by (pose proof mA_pos; lra). apply close_err, cl_mA. Qed.
  Lemma div_mT k xh x m : err k xh x m -> err (k + 3 + 1) (fdivc a xh (FF_mT a f)) (x / F_mT f) (m / G_mT f).
  Proof. intros E. pose proof mT_pos. rewrite <- mT_eq. rewrite <- (Rabs_right (F_mT f)) at 2 by lra. apply err_fdiv; [exact E|apply cl_mT|lra]. Qed.
  Lemma div_mA k xh x m : err k xh x m -> err (k + 1 + 1) (fdivc a xh (FF_mA a f)) (x / F_mA f) (m / G_mA f).
  Proof. intros E. pose proof mA_pos. rewrite <- mA_eq. rewrite <- (Rabs_right (F_mA f)) at 2 by lra. apply err_fdiv; [exact E|apply cl_mA|lra]. Qed.
  Lemma div_in k xh x m n : In n ["w"; "rR"; "rF"] -> err k xh x m -> err (k + 0 + 1) (fdivc a xh (f n)) (x / f n) (m / Rabs (f n)).
  Proof. intros N E. apply err_fdiv; [exact E|apply close_refl|apply NZ, N]. Qed.
  Ltac known := fail.
  Ltac se := lazymatch goal with
    | |- err _ (fadd a _ _) _ _ => eapply err_fadd; se
    | |- err _ (fsub a _ _) _ _ => eapply err_fsub; se
    | |- err _ (fmul a _ _) _ _ => eapply err_fmul; se
    | |- err _ (fdivc a _ (FF_mT a f)) _ _ => eapply div_mT; se
    | |- err _ (fdivc a _ (FF_mA a f)) _ _ => eapply div_mA; se
    | |- err _ (fdivc a _ (f _)) _ _ => eapply div_in; [cbn [In]; tauto|se]
    | |- err _ (fsq a _) _ _ => eapply err_fsq; se
    | |- err _ (fneg _) _ _ => eapply err_fneg; se
    | |- err _ (fsin a _) _ _ => apply err_fsin
    | |- err _ (fcos a _) _ _ => apply err_fcos
    | |- err _ (f _) _ _ => apply err_refl
    | |- err _ 2 _ _ => apply err_2
    | |- _ => known end.
  Ltac go := eapply err_le; [|se]; apply Nat.leb_le; reflexivity.
  Ltac known ::= first [apply e_mT|apply e_mA].
  Lemma e_xT : err 10 (FF_xT a f) (F_xT f) (G_xT f). Proof. unfold FF_xT, F_xT, G_xT. go. Qed.
  Lemma e_zT : err 10 (FF_zT a f) (F_zT f) (G_zT f). Proof. unfold FF_zT, F_zT, G_zT. go. Qed.
  Lemma e_ITxx : err 10 (FF_ITxx a f) (F_ITxx f) (G_ITxx f). Proof. unfold FF_ITxx, F_ITxx, G_ITxx. go. Qed.
  Lemma e_ITxz : err 10 (FF_ITxz a f) (F_ITxz f) (G_ITxz f). Proof. unfold FF_ITxz, F_ITxz, G_ITxz. go. Qed.
  Lemma e_ITzz : err 10 (FF_ITzz a f) (F_ITzz f) (G_ITzz f). Proof. unfold FF_ITzz, F_ITzz, G_ITzz. go. Qed.
  Lemma e_xA : err 5 (FF_xA a f) (F_xA f) (G_xA f). Proof. unfold FF_xA, F_xA, G_xA. go. Qed.
  Lemma e_zA : err 5 (FF_zA a f) (F_zA f) (G_zA f). Proof. unfold FF_zA, F_zA, G_zA. go. Qed.
  Ltac known ::= first [apply e_mT|apply e_mA|apply e_xT|apply e_zT|apply e_ITxx|apply e_ITxz|apply e_ITzz|apply e_xA|apply e_zA].
  Lemma e_IAxx : err 19 (FF_IAxx a f) (F_IAxx f) (G_IAxx f). Proof. unfold FF_IAxx, F_IAxx, G_IAxx. go. Qed.
  Lemma e_IAxz : err 19 (FF_IAxz a f) (F_IAxz f) (G_IAxz f). Proof. unfold FF_IAxz, F_IAxz, G_IAxz. go. Qed.
  Lemma e_IAzz : err 19 (FF_IAzz a f) (F_IAzz f) (G_IAzz f). Proof. unfold FF_IAzz, F_IAzz, G_IAzz. go. Qed.
  Lemma e_uA : err 12 (FF_uA a f) (F_uA f) (G_uA f). Proof. unfold FF_uA, F_uA, G_uA. go. Qed.
  Lemma e_mu : err 6 (FF_mu a f) (F_mu f) (G_mu f). Proof. unfold FF_mu, F_mu, G_mu. go. Qed.
  Lemma e_SR : err 1 (FF_SR a f) (F_SR f) (G_SR f). Proof. unfold FF_SR, F_SR, G_SR. go. Qed.
  Lemma e_SF : err 1 (FF_SF a f) (F_SF f) (G_SF f). Proof. unfold FF_SF, F_SF, G_SF. go. Qed.
  Ltac known ::= first [apply e_mT|apply e_mA|apply e_xT|apply e_zT|apply e_ITxx|apply e_ITxz|apply e_ITzz|apply e_xA|apply e_zA|apply e_IAxx|apply e_IAxz|apply e_IAzz|apply e_uA|apply e_mu|apply e_SR|apply e_SF].
  Lemma e_ST : err 2 (FF_ST a f) (F_ST f) (G_ST f). Proof. unfold FF_ST, F_ST, G_ST. go. Qed.
  Lemma e_SA : err 22 (FF_SA a f) (F_SA f) (G_SA f). Proof. unfold FF_SA, F_SA, G_SA. go. Qed.
  Lemma e_IAll : err 33 (FF_IAll a f) (F_IAll f) (G_IAll f). Proof. unfold FF_IAll, F_IAll, G_IAll. go. Qed.
  Lemma e_IAlx : err 28 (FF_IAlx a f) (F_IAlx f) (G_IAlx f). Proof. unfold FF_IAlx, F_IAlx, G_IAlx. go. Qed.
  Lemma e_IAlz : err 28 (FF_IAlz a f) (F_IAlz f) (G_IAlz f). Proof. unfold FF_IAlz, F_IAlz, G_IAlz. go. Qed.
  Ltac known ::= first [apply e_mT|apply e_mA|apply e_xT|apply e_zT|apply e_ITxx|apply e_ITxz|apply e_ITzz|apply e_xA|apply e_zA|apply e_IAxx|apply e_IAxz|apply e_IAzz|apply e_uA|apply e_mu|apply e_SR|apply e_SF|apply e_ST|apply e_SA|apply e_IAll|apply e_IAlx|apply e_IAlz].
  Definition err2 (k : nat) (mh m g : mat2) : Prop := err k (m11 mh) (m11 m) (m11 g) /\ err k (m12 mh) (m12 m) (m12 g) /\ err k (m21 mh) (m21 m) (m21 g) /\ err k (m22 mh) (m22 m) (m22 g).
  Lemma err_0 k : err k 0 0 0.
  Proof. apply (err_le 0); [lia|]. pose proof (err_refl 0) as E. rewrite Rabs_R0 in E. exact E. Qed.
  Ltac go0 := first [apply err_0 | go].
  Lemma e_canon : let h := FF_canon a f in let c := F_canon f in let g := magnitudes f in
    err2 45 (cM h) (cM c) (cM g) /\ err2 45 (cC1 h) (cC1 c) (cC1 g) /\ err2 45 (cK0 h) (cK0 c) (cK0 g) /\ err2 45 (cK2 h) (cK2 c) (cK2 g).
  Proof.
    cbv zeta. unfold FF_canon, F_canon, magnitudes. cbn [cM cC1 cK0 cK2]. unfold err2. cbn [m11 m12 m21 m22]. split; [|split; [|split]]; (split; [|split; [|split]]); go0.
  Qed.
End Ops.

(* relative error bounds where nothing cancels *)
Section Relative.
  Variable a : arith.
  Hypothesis AC : accurate a.
  Variable f : string -> R.
  Hypothesis UB : upright_bicycle f.
  Lemma cl_fmul j k xh x yh y : close j xh x -> close k yh y -> close (j + k + 1) (fmul a xh yh) (x * y).
  Proof. intros E F. rewrite Nat.add_comm. eapply close_trans; [apply cl_fl, AC|]. apply close_mul; assumption. Qed.
  Lemma cl_fdiv j k xh x yh y : close j xh x -> close k yh y -> y <> 0 -> close (j + k + 1) (fdivc a xh yh) (x / y).
  Proof. intros E F N. rewrite Nat.add_comm. eapply close_trans; [apply cl_fl, AC|]. apply close_div; assumption. Qed.
  Lemma cl_fsq j xh x : close j xh x -> close (j + j + 3) (fsq a xh) (x ^ 2).
  Proof. intros E. rewrite Nat.add_comm. eapply close_trans; [apply cl_sq, AC|]. cbn [pow]. rewrite !Rmult_1_r. apply close_mul; assumption. Qed.
  Lemma cl_fadd j k xh x yh y : close j xh x -> close k yh y -> 0 <= x -> 0 <= y -> close (Nat.max j k + 1) (fadd a xh yh) (x + y).
  Proof. apply cl_add, AC. Qed.
  Lemma cl_fsub j k xh x yh y : close j xh x -> close k yh y -> 0 <= x -> y <= 0 -> close (Nat.max j k + 1) (fsub a xh yh) (x - y).
  Proof. intros E F X Y. unfold fsub, Rminus. apply (cl_fadd j k); [exact E|apply close_neg; exact F|exact X|lra]. Qed.
  Lemma cl_fadd' j k xh x yh y : close j xh x -> close k yh y -> x <= 0 -> y <= 0 -> close (Nat.max j k + 1) (fadd a xh yh) (x + y).
  Proof.
    intros E F X Y. rewrite Nat.add_comm. eapply close_trans; [apply cl_fl, AC|]. replace (xh + yh) with (- (- xh + - yh)) by ring. replace (x + y) with (- (- x + - y)) by ring.
    apply close_neg, close_sum; try lra; apply close_neg; [apply (close_weaken j); [lia|exact E]|apply (close_weaken k); [lia|exact F]].
  Qed.
  Lemma cl_fsub' j k xh x yh y : close j xh x -> close k yh y -> x <= 0 -> 0 <= y -> close (Nat.max j k + 1) (fsub a xh yh) (x - y).
  Proof. intros E F X Y. unfold fsub, Rminus. apply (cl_fadd' j k); [exact E|apply close_neg; exact F|exact X|lra]. Qed.
  Lemma up_pos k : In k ["mR"; "mB"; "mH"; "mF"; "rR"; "rF"; "w"] -> 0 < f k.
  Proof. exact (proj1 UB k). Qed.
  Lemma up_nonneg k : In k ["IRxx"; "IBxx"; "IHxx"; "IFxx"; "IRyy"; "IFyy"; "c"] -> 0 <= f k.
  Proof. exact (proj1 (proj2 UB) k). Qed.
  Ltac facts := pose proof (up_pos "mR" ltac:(cbn; tauto)); pose proof (up_pos "mB" ltac:(cbn; tauto)); pose proof (up_pos "mH" ltac:(cbn; tauto)); pose proof (up_pos "mF" ltac:(cbn; tauto));
    pose proof (up_pos "rR" ltac:(cbn; tauto)); pose proof (up_pos "rF" ltac:(cbn; tauto)); pose proof (up_pos "w" ltac:(cbn; tauto));
    pose proof (up_nonneg "IRxx" ltac:(cbn; tauto)); pose proof (up_nonneg "IBxx" ltac:(cbn; tauto)); pose proof (up_nonneg "IHxx" ltac:(cbn; tauto)); pose proof (up_nonneg "IFxx" ltac:(cbn; tauto));
    pose proof (up_nonneg "IRyy" ltac:(cbn; tauto)); pose proof (up_nonneg "IFyy" ltac:(cbn; tauto)); pose proof (up_nonneg "c" ltac:(cbn; tauto)); destruct UB as (_ & _ & ZB & ZH & CL).
  Lemma up_masses : forall k, In k ["mR"; "mB"; "mH"; "mF"] -> 0 < f k.
  Proof. intros k K. apply up_pos. cbn [In] in *. tauto. Qed.
  Lemma up_mT : close 3 (FF_mT a f) (F_mT f) /\ 0 < F_mT f.
  Proof. split; [apply cl_mT; [exact AC|apply up_masses]|apply mT_pos, up_masses]. Qed.
  Lemma prod_nonneg x y : 0 <= x -> 0 <= y -> 0 <= x * y. Proof. apply Rmult_le_pos. Qed.
  Lemma sq_nonneg x : 0 <= x ^ 2. Proof. apply pow2_ge_0. Qed.
  Lemma rel_M11 : close 8 (m11 (cM (FF_canon a f))) (m11 (cM (F_canon f))).
  Proof.
    facts. unfold FF_canon, F_canon, FF_ITxx, F_ITxx. cbn [cM m11].
    assert (Q : forall m x, 0 < f m -> close 4 (fmul a (f m) (fsq a (f x))) (f m * f x ^ 2) /\ 0 <= f m * f x ^ 2).
    { intros m x P. split; [change 4%nat with (0 + (0 + 0 + 3) + 1)%nat; apply cl_fmul; [apply close_refl|apply cl_fsq, close_refl]|apply prod_nonneg; [lra|apply sq_nonneg]]. }
    destruct (Q "mR" "rR"), (Q "mB" "zB"), (Q "mH" "zH"), (Q "mF" "rF"); try assumption.
    apply (close_weaken (Nat.max (Nat.max (Nat.max (Nat.max (Nat.max (Nat.max (Nat.max 0 0 + 1) 0 + 1) 0 + 1) 4 + 1) 4 + 1) 4 + 1) 4 + 1)%nat); [apply Nat.leb_le; reflexivity|].
    repeat (apply cl_fadd; [| |lra|lra]); try assumption; apply close_refl.
  Qed.
  Lemma rel_zT : close 8 (FF_zT a f) (F_zT f) /\ F_zT f <= 0.
  Proof.
    facts. destruct up_mT as (TM & TP). unfold FF_zT, F_zT.
    assert (P0 : forall x y, close 1 (fmul a x y) (x * y)) by (intros x y; change 1%nat with (0 + 0 + 1)%nat; apply cl_fmul; apply close_refl).
    assert (N1 : - f "rR" * f "mR" <= 0) by nra. assert (N2 : f "zB" * f "mB" <= 0) by nra. assert (N3 : f "zH" * f "mH" <= 0) by nra. assert (N4 : 0 <= f "rF" * f "mF") by (apply prod_nonneg; lra). split.
    - change 8%nat with (Nat.max (Nat.max (Nat.max 1 1 + 1) 1 + 1) 1 + 1 + 3 + 1)%nat. apply cl_fdiv; [|exact TM|lra]. apply cl_fsub'; [|apply P0|lra|lra]. apply cl_fadd'; [|apply P0|lra|lra]. apply cl_fadd'; [apply P0|apply P0|lra|lra].
    - unfold Rdiv. assert (0 < / F_mT f) by (apply Rinv_0_lt_compat; exact TP). set (i := / F_mT f) in *. clearbody i. nra.
  Qed.
  Lemma rel_K0 : close 12 (m11 (cK0 (FF_canon a f))) (m11 (cK0 (F_canon f))).
  Proof. unfold FF_canon, F_canon. cbn [cK0 m11]. change 12%nat with (3 + 8 + 1)%nat. apply cl_fmul; [apply up_mT|apply rel_zT]. Qed.
  Lemma rel_quot x y : 0 <= f x -> 0 < f y -> close 1 (fdivc a (f x) (f y)) (f x / f y) /\ 0 <= f x / f y.
  Proof. intros X Y. split; [change 1%nat with (0 + 0 + 1)%nat; apply cl_fdiv; [apply close_refl|apply close_refl|lra]|]. apply Rmult_le_pos; [exact X|left; apply Rinv_0_lt_compat, Y]. Qed.
  Lemma rel_ST : close 2 (FF_ST a f) (F_ST f) /\ 0 <= F_ST f.
  Proof.
    facts. destruct (rel_quot "IRyy" "rR") as (A1 & A2); try assumption. destruct (rel_quot "IFyy" "rF") as (B1 & B2); try assumption. unfold FF_ST, F_ST, FF_SR, F_SR, FF_SF, F_SF.
    split; [change 2%nat with (Nat.max 1 1 + 1)%nat; apply cl_fadd; assumption|lra].
  Qed.
  Lemma rel_K2 : close 18 (m12 (cK2 (FF_canon a f))) (m12 (cK2 (F_canon f))).
  Proof.
    facts. destruct up_mT as (TM & TP). destruct rel_zT as (ZA & ZN). destruct rel_ST as (SA & SN). unfold FF_canon, F_canon. cbn [cK2 m12]. change 18%nat with (Nat.max 2 12 + 1 + 0 + 1 + 3 + 1)%nat.
    apply cl_fmul; [|apply cl_cos, AC]. apply cl_fdiv; [|apply close_refl|lra]. apply cl_fsub; [exact SA|exact rel_K0|exact SN|]. clear - TP ZN. nra.
  Qed.
  Lemma rel_C1 : close 9 (m21 (cC1 (FF_canon a f))) (m21 (cC1 (F_canon f))).
  Proof.
    facts. destruct rel_ST as (SA & SN). destruct (rel_quot "IFyy" "rF") as (B1 & B2); try assumption. destruct (rel_quot "c" "w") as (C1 & C2); try assumption. unfold FF_canon, F_canon. cbn [cC1 m21]. apply close_neg.
    assert (MU : close 5 (FF_mu a f) (F_mu f) /\ 0 <= F_mu f) by (split; [unfold FF_mu, F_mu; change 5%nat with (1 + 3 + 1)%nat; apply cl_fmul; [exact C1|apply cl_cos, AC]|apply Rmult_le_pos; assumption]).
    destruct MU as (M1 & M2). change 9%nat with (Nat.max (5 + 2 + 1) (1 + 3 + 1) + 1)%nat. apply cl_fadd.
    - apply cl_fmul; assumption.
    - apply cl_fmul; [exact B1|apply cl_cos, AC].
    - apply Rmult_le_pos; assumption.
    - apply Rmult_le_pos; assumption.
  Qed.
End Relative.
