(* PStab.v -- linear equations whose eigenvalues have negative real parts *)
From Coq Require Import Lra Lia.
From Verif Require Import Base MString MHeap MBicycle MVec MInertia MSets MModels MModels2 SBicycle SModels SModels2 MEig SEig SStab.
Local Open Scope R_scope.

Lemma nonincreasing h h' T : 0 <= T -> (forall t, 0 <= t <= T -> derivable_pt_lim h t (h' t)) -> (forall t, 0 <= t <= T -> h' t <= 0) -> h T <= h 0.
Proof.
  intros HT D N. destruct (Req_dec T 0) as [->|NE]; [lra|]. destruct (MVT_cor2 h h' 0 T ltac:(lra) ltac:(intros; apply D; lra)) as (c & E & I).
  specialize (N c ltac:(lra)). assert (0 <= - h' c * (T - 0)) by (apply Rmult_le_pos; lra). lra.
Qed.
Lemma d_exp m t : derivable_pt_lim (fun t => exp (m * t)) t (m * exp (m * t)).
Proof.
  replace (m * exp (m * t)) with (exp (m * t) * (m * 1)) by ring.
  apply (derivable_pt_lim_comp (fun t => m * t) exp); [|apply derivable_pt_lim_exp].
  apply (derivable_pt_lim_scal (fun t => t)). apply derivable_pt_lim_id.
Qed.
(* y' = lam y + f with Re lam < 0 and f decaying: y decays; constants do not depend on the size Q *)
Lemma decay a b C C0 m : a < 0 -> 0 < m -> 0 <= C -> 0 <= C0 ->
  exists C' mu, 0 < mu /\ mu <= m /\ 0 <= C' /\ forall Q T p q f g, 0 <= Q -> 0 <= T ->
    (forall t, 0 <= t <= T -> derivable_pt_lim p t (a * p t - b * q t + f t) /\ derivable_pt_lim q t (b * p t + a * q t + g t)) ->
    (forall t, 0 <= t <= T -> f t ^ 2 + g t ^ 2 <= Q * C * exp (- m * t)) ->
    p 0 ^ 2 + q 0 ^ 2 <= Q * C0 -> forall t, 0 <= t <= T -> p t ^ 2 + q t ^ 2 <= Q * C' * exp (- mu * t).
Proof.
  intros Ha Hm HC HC0. set (mu := Rmin (- a) (m / 2)). assert (M1 : 0 < mu) by (unfold mu; apply Rmin_glb_lt; lra). assert (M2 : mu <= - a) by apply Rmin_l. assert (M3 : mu <= m / 2) by apply Rmin_r.
  clearbody mu. set (K := C / - a). assert (HK : 0 <= K) by (unfold K; apply Rmult_le_pos; [exact HC|left; apply Rinv_0_lt_compat; lra]).
  assert (KA : K * - a = C) by (unfold K; field; lra). clearbody K.
  exists (C0 + K / (m - mu)), mu. split; [exact M1|]. split; [lra|]. assert (HM : 0 < m - mu) by lra. assert (KM : 0 <= K / (m - mu)) by (apply Rmult_le_pos; [exact HK|left; apply Rinv_0_lt_compat; exact HM]).
  split; [lra|]. intros Q T p q f g HQ HT D F I0 t Ht.
  set (h := fun t => exp (mu * t) * (p t * p t + q t * q t) + Q * K / (m - mu) * exp (- (m - mu) * t)).
  set (h' := fun t => mu * exp (mu * t) * (p t * p t + q t * q t) + exp (mu * t) * (((a * p t - b * q t + f t) * p t + p t * (a * p t - b * q t + f t)) + ((b * p t + a * q t + g t) * q t + q t * (b * p t + a * q t + g t)))
                 + Q * K / (m - mu) * (- (m - mu) * exp (- (m - mu) * t))).
  assert (H : h t <= h 0).
  { apply (nonincreasing h h'); [lra| |].
    - intros s Hs. destruct (D s ltac:(lra)) as [Dp Dq]. unfold h, h'. apply (derivable_pt_lim_plus (fun t => exp (mu * t) * (p t * p t + q t * q t)) (fun t => Q * K / (m - mu) * exp (- (m - mu) * t))).
      + apply (derivable_pt_lim_mult (fun t => exp (mu * t)) (fun t => p t * p t + q t * q t)); [apply d_exp|].
        apply (derivable_pt_lim_plus (fun t => p t * p t) (fun t => q t * q t)); [apply (derivable_pt_lim_mult p p); exact Dp|apply (derivable_pt_lim_mult q q); exact Dq].
      + apply (derivable_pt_lim_scal (fun t => exp (- (m - mu) * t))). apply d_exp.
    - intros s Hs. unfold h'. pose proof (F s ltac:(lra)) as Fs. set (E := exp (mu * s)) in *. assert (EP : 0 < E) by apply exp_pos.
      assert (EE : exp (- (m - mu) * s) = E * exp (- m * s)) by (unfold E; rewrite <- exp_plus; f_equal; ring). rewrite EE. set (X := exp (- m * s)) in *. assert (XP : 0 < X) by apply exp_pos.
      replace (Q * K / (m - mu) * (- (m - mu) * (E * X))) with (- (Q * K * X) * E) by (field; lra).
      set (P := p s) in *. set (R := q s) in *. set (ff := f s) in *. set (gg := g s) in *. clearbody P R ff gg E X.
      assert (S : mu * (P * P + R * R) + (2 * a * (P * P + R * R) + 2 * (P * ff + R * gg)) <= Q * K * X).
      { assert (Y : 2 * (P * ff + R * gg) <= - a * (P * P + R * R) + K * Q * X).
        { apply (Rmult_le_reg_r (- a)); [lra|]. replace ((- a * (P * P + R * R) + K * Q * X) * - a) with (a ^ 2 * (P * P + R * R) + K * - a * Q * X) by ring. rewrite KA.
          assert (0 <= (a * P + ff) ^ 2 + (a * R + gg) ^ 2) by (apply Rplus_le_le_0_compat; apply pow2_ge_0). nra. }
        assert (0 <= P * P + R * R) by nra. nra. }
      replace (mu * E * (P * P + R * R) + E * ((a * P - b * R + ff) * P + P * (a * P - b * R + ff) + ((b * P + a * R + gg) * R + R * (b * P + a * R + gg))) + - (Q * K * X) * E)
        with (- E * (Q * K * X - (mu * (P * P + R * R) + (2 * a * (P * P + R * R) + 2 * (P * ff + R * gg))))) by ring.
      assert (0 <= E * (Q * K * X - (mu * (P * P + R * R) + (2 * a * (P * P + R * R) + 2 * (P * ff + R * gg))))) by (apply Rmult_le_pos; lra). lra. }
  unfold h in H. rewrite !Rmult_0_r, exp_0 in H.
  assert (HX : 0 <= Q * K / (m - mu) * exp (- (m - mu) * t)).
  { apply Rmult_le_pos; [|left; apply exp_pos]. unfold Rdiv. apply Rmult_le_pos; [apply Rmult_le_pos; assumption|left; apply Rinv_0_lt_compat; exact HM]. }
  assert (HB : exp (mu * t) * (p t * p t + q t * q t) <= Q * (C0 + K / (m - mu))).
  { replace (Q * (C0 + K / (m - mu))) with (Q * C0 + Q * K / (m - mu)) by (field; lra). lra. }
  replace (- mu * t) with (- (mu * t)) by ring. rewrite exp_Ropp. apply (Rmult_le_reg_l (exp (mu * t))); [apply exp_pos|].
  replace (exp (mu * t) * (Q * (C0 + K / (m - mu)) * / exp (mu * t))) with (Q * (C0 + K / (m - mu))) by (rewrite (Rmult_comm (exp (mu * t))), Rmult_assoc, Rinv_l; [ring|apply Rgt_not_eq, exp_pos]).
  replace (p t ^ 2 + q t ^ 2) with (p t * p t + q t * q t) by ring. exact HB.
Qed.

(* ---- vectors as functions, A as a function of two indices ---- *)
From Verif Require Import PModels8.
Section Lin.
  Variable n : nat.
  Variable A : nat -> nat -> R.
  Definition mv (z : nat -> R) (i : nat) : R := sumn n (fun j => A i j * z j).
  (* (A - w_k) ... (A - w_1) x, real and imaginary part *)
  Fixpoint Y (l : list cplx) (p : (nat -> R) * (nat -> R)) : (nat -> R) * (nat -> R) :=
    match l with [] => p | w :: l => Y l (fun i => mv (fst p) i - (fst w * fst p i - snd w * snd p i), fun i => mv (snd p) i - (snd w * fst p i + fst w * snd p i)) end.
  Definition N2 (x : nat -> R) : R := sumn n (fun i => x i ^ 2).
  Lemma Y_app l w p i : fst (Y (l ++ [w]) p) i = mv (fst (Y l p)) i - (fst w * fst (Y l p) i - snd w * snd (Y l p) i) /\
    snd (Y (l ++ [w]) p) i = mv (snd (Y l p)) i - (snd w * fst (Y l p) i + fst w * snd (Y l p) i).
  Proof. revert p. induction l as [|v l IH]; intros p; [split; reflexivity|]. cbn [app Y]. apply IH. Qed.
  Lemma cs_bound (a z : nat -> R) m : (sumn m (fun j => a j * z j)) ^ 2 <= sumn m (fun j => a j ^ 2) * sumn m (fun j => z j ^ 2).
  Proof.
    induction m as [|m IH]; cbn [sumn]; [lra|].
    assert (P1 : 0 <= sumn m (fun j => a j ^ 2)) by (apply sumn_nonneg; intros; apply pow2_ge_0).
    assert (P2 : 0 <= sumn m (fun j => z j ^ 2)) by (apply sumn_nonneg; intros; apply pow2_ge_0).
    set (u := sumn m (fun j => a j * z j)) in *. set (p := sumn m (fun j => a j ^ 2)) in *. set (q := sumn m (fun j => z j ^ 2)) in *. clearbody u p q.
    generalize dependent (a m). generalize dependent (z m). intros y x.
    assert (K : 2 * u * (x * y) <= p * y ^ 2 + x ^ 2 * q).
    { destruct (Rle_dec 0 p); [|lra]. assert (u ^ 2 <= p * q) by exact IH.
      (* 2 u x y <= 2 sqrt(pq) |x y| <= p y^2 + q x^2 *)
      assert (S : (2 * u * (x * y)) ^ 2 <= (p * y ^ 2 + x ^ 2 * q) ^ 2).
      { assert ((2 * u * (x * y)) ^ 2 <= 4 * (p * q) * (x * y) ^ 2). { replace ((2 * u * (x * y)) ^ 2) with (4 * u ^ 2 * (x * y) ^ 2) by ring. apply Rmult_le_compat_r; [apply pow2_ge_0|lra]. }
        assert (0 <= (p * y ^ 2 - x ^ 2 * q) ^ 2) by apply pow2_ge_0. nra. }
      apply Rsqr_incr_0_var; [unfold Rsqr; lra|]. apply Rplus_le_le_0_compat; apply Rmult_le_pos; try assumption; apply pow2_ge_0. }
    replace ((u + x * y) ^ 2) with (u ^ 2 + 2 * u * (x * y) + x ^ 2 * y ^ 2) by ring. replace ((p + x ^ 2) * (q + y ^ 2)) with (p * q + (p * y ^ 2 + x ^ 2 * q) + x ^ 2 * y ^ 2) by ring. lra.
  Qed.
  Lemma mv_bound : exists K, 0 <= K /\ forall z, N2 (mv z) <= K * N2 z.
  Proof.
    exists (sumn n (fun i => sumn n (fun j => A i j ^ 2))). split; [apply sumn_nonneg; intros; apply sumn_nonneg; intros; apply pow2_ge_0|].
    intros z. rewrite Rmult_comm, <- sumn_scal. apply sumn_le. intros i _. rewrite Rmult_comm. apply cs_bound.
  Qed.
  Lemma N2_term z i : (i < n)%nat -> z i ^ 2 <= N2 z.
  Proof. intros Hi. apply (sumn_term n (fun i => z i ^ 2)); [intros; apply pow2_ge_0|exact Hi]. Qed.
  Lemma N2_pos z : 0 <= N2 z.
  Proof. apply sumn_nonneg. intros; apply pow2_ge_0. Qed.
  Lemma three x y z : (x + y + z) ^ 2 <= 3 * x ^ 2 + 3 * y ^ 2 + 3 * z ^ 2.
  Proof. assert (0 <= (x - y) ^ 2) by apply pow2_ge_0. assert (0 <= (x - z) ^ 2) by apply pow2_ge_0. assert (0 <= (y - z) ^ 2) by apply pow2_ge_0. nra. Qed.
  Lemma N2_lin a b p q z : N2 (fun i => z i - (a * p i + b * q i)) <= 3 * N2 z + 3 * a ^ 2 * N2 p + 3 * b ^ 2 * N2 q.
  Proof.
    unfold N2. rewrite <- !sumn_scal, <- !sumn_plus. apply sumn_le. intros i _.
    generalize (z i) (p i) (q i). intros u x y. pose proof (three u (- (a * x)) (- (b * y))).
    replace (u - (a * x + b * y)) with (u + - (a * x) + - (b * y)) by ring. replace (3 * a ^ 2 * x ^ 2) with (3 * (- (a * x)) ^ 2) by ring. replace (3 * b ^ 2 * y ^ 2) with (3 * (- (b * y)) ^ 2) by ring. exact H.
  Qed.
  Lemma Y_bound l : exists K, 0 <= K /\ forall p, N2 (fst (Y l p)) + N2 (snd (Y l p)) <= K * (N2 (fst p) + N2 (snd p)).
  Proof.
    induction l as [|w l (K & HK & IH)].
    - exists 1. split; [lra|]. intros p. cbn [Y]. lra.
    - destruct mv_bound as (L & HL & B). exists (K * (3 * L + 3 * (fst w ^ 2 + snd w ^ 2))). assert (0 <= fst w ^ 2) by apply pow2_ge_0. assert (0 <= snd w ^ 2) by apply pow2_ge_0.
      split; [apply Rmult_le_pos; lra|]. intros [p q]. cbn [Y fst snd]. eapply Rle_trans; [apply IH|]. rewrite Rmult_assoc. apply Rmult_le_compat_l; [exact HK|]. cbn [fst snd].
      pose proof (N2_lin (fst w) (- snd w) p q (mv p)) as E1. pose proof (N2_lin (snd w) (fst w) p q (mv q)) as E2. pose proof (B p) as B1. pose proof (B q) as B2.
      assert (X : N2 (fun i => mv p i - (fst w * p i - snd w * q i)) = N2 (fun i => mv p i - (fst w * p i + - snd w * q i))) by (apply sumn_ext; intros; f_equal; ring). rewrite X.
      replace ((- snd w) ^ 2) with (snd w ^ 2) in E1 by ring. lra.
  Qed.
  Lemma mv_ext p q i : (forall i, (i < n)%nat -> p i = q i) -> mv p i = mv q i.
  Proof. intros E. apply sumn_ext. intros j Hj. rewrite E by exact Hj. reflexivity. Qed.
  (* Y commutes with A *)
  Lemma Y_ext l p q p' q' i : (forall i, (i < n)%nat -> p i = p' i /\ q i = q' i) -> (i < n)%nat -> fst (Y l (p, q)) i = fst (Y l (p', q')) i /\ snd (Y l (p, q)) i = snd (Y l (p', q')) i.
  Proof.
    revert p q p' q'. induction l as [|w l IH]; intros p q p' q' E Hi; [exact (E i Hi)|]. cbn [Y fst snd]. apply IH; [|exact Hi]. intros j Hj. cbn beta. destruct (E j Hj) as [-> ->].
    rewrite (mv_ext p p' j) by (intros k Hk; apply E, Hk). rewrite (mv_ext q q' j) by (intros k Hk; apply E, Hk). auto.
  Qed.
  Lemma mv_lin a b z p q i : mv (fun i => z i - (a * p i + b * q i)) i = mv z i - (a * mv p i + b * mv q i).
  Proof. unfold mv. rewrite <- !sumn_scal, <- sumn_plus, <- sumn_minus. apply sumn_ext. intros j _. ring. Qed.
  Lemma Y_commute l p q i : (i < n)%nat -> fst (Y l (mv p, mv q)) i = mv (fst (Y l (p, q))) i /\ snd (Y l (mv p, mv q)) i = mv (snd (Y l (p, q))) i.
  Proof.
    intros Hi. revert p q. induction l as [|w l IH]; intros p q; [auto|]. cbn [Y fst snd].
    destruct (IH (fun i => mv p i - (fst w * p i - snd w * q i)) (fun i => mv q i - (snd w * p i + fst w * q i))) as [<- <-]. apply Y_ext; [|exact Hi].
    intros j Hj. rewrite mv_lin. split; [|reflexivity].
    rewrite (mv_ext (fun i => mv p i - (fst w * p i - snd w * q i)) (fun i => mv p i - (fst w * p i + - snd w * q i))) by (intros; ring). rewrite mv_lin. ring.
  Qed.
  Lemma Y_deriv l (p q p' q' : R -> nat -> R) t : (forall i, (i < n)%nat -> derivable_pt_lim (fun t => p t i) t (p' t i) /\ derivable_pt_lim (fun t => q t i) t (q' t i)) ->
    forall i, (i < n)%nat -> derivable_pt_lim (fun t => fst (Y l (p t, q t)) i) t (fst (Y l (p' t, q' t)) i) /\ derivable_pt_lim (fun t => snd (Y l (p t, q t)) i) t (snd (Y l (p' t, q' t)) i).
  Proof.
    revert p q p' q'. induction l as [|w l IH]; intros p q p' q' D i Hi; [exact (D i Hi)|]. cbn [Y fst snd].
    apply (IH (fun t i => mv (p t) i - (fst w * p t i - snd w * q t i)) (fun t i => mv (q t) i - (snd w * p t i + fst w * q t i))
              (fun t i => mv (p' t) i - (fst w * p' t i - snd w * q' t i)) (fun t i => mv (q' t) i - (snd w * p' t i + fst w * q' t i))); [|exact Hi].
    intros j Hj. destruct (D j Hj) as [Dp Dq].
    assert (Mp : derivable_pt_lim (fun t => mv (p t) j) t (mv (p' t) j)) by (apply (sumn_deriv n (fun k t => A j k * p t k)); intros k Hk; apply (derivable_pt_lim_scal (fun t => p t k)), D, Hk).
    assert (Mq : derivable_pt_lim (fun t => mv (q t) j) t (mv (q' t) j)) by (apply (sumn_deriv n (fun k t => A j k * q t k)); intros k Hk; apply (derivable_pt_lim_scal (fun t => q t k)), D, Hk).
    split.
    - apply (derivable_pt_lim_minus (fun t => mv (p t) j) (fun t => fst w * p t j - snd w * q t j)); [exact Mp|].
      apply (derivable_pt_lim_minus (fun t => fst w * p t j) (fun t => snd w * q t j)); [apply (derivable_pt_lim_scal (fun t => p t j)), Dp|apply (derivable_pt_lim_scal (fun t => q t j)), Dq].
    - apply (derivable_pt_lim_minus (fun t => mv (q t) j) (fun t => snd w * p t j + fst w * q t j)); [exact Mq|].
      apply (derivable_pt_lim_plus (fun t => snd w * p t j) (fun t => fst w * q t j)); [apply (derivable_pt_lim_scal (fun t => p t j)), Dp|apply (derivable_pt_lim_scal (fun t => q t j)), Dq].
  Qed.
  Definition solves (T : R) (x : R -> nat -> R) : Prop := forall t i, 0 <= t <= T -> (i < n)%nat -> derivable_pt_lim (fun t => x t i) t (mv (x t) i).
  Lemma suffix_decay suf : (forall w, In w suf -> fst w < 0) -> forall pre,
    (forall x i, (i < n)%nat -> fst (Y (pre ++ suf) (x, fun _ => 0)) i = 0 /\ snd (Y (pre ++ suf) (x, fun _ => 0)) i = 0) ->
    exists C mu, 0 < mu /\ 0 <= C /\ forall T x, 0 <= T -> solves T x -> forall t i, 0 <= t <= T -> (i < n)%nat ->
      fst (Y pre (x t, fun _ => 0)) i ^ 2 + snd (Y pre (x t, fun _ => 0)) i ^ 2 <= N2 (x 0) * C * exp (- mu * t).
  Proof.
    induction suf as [|w suf IH]; intros HW pre Z.
    - exists 0, 1. split; [lra|]. split; [lra|]. intros T x HT S t i Ht Hi. rewrite app_nil_r in Z. destruct (Z (x t) i Hi) as [-> ->]. lra.
    - destruct (IH (fun w' H => HW w' (or_intror H)) (pre ++ [w])%list) as (C & m & Hm & HC & D).
      { intros x i Hi. rewrite <- app_assoc. exact (Z x i Hi). }
      destruct (Y_bound pre) as (K & HK & B). destruct (decay (fst w) (snd w) C K m (HW w (or_introl eq_refl)) Hm HC HK) as (C' & mu & H1 & _ & H3 & H4).
      exists C', mu. split; [exact H1|]. split; [exact H3|]. intros T x HT S t i Ht Hi.
      apply (H4 (N2 (x 0)) T (fun t => fst (Y pre (x t, fun _ => 0)) i) (fun t => snd (Y pre (x t, fun _ => 0)) i)
               (fun t => fst (Y (pre ++ [w]) (x t, fun _ => 0)) i) (fun t => snd (Y (pre ++ [w]) (x t, fun _ => 0)) i)); [apply N2_pos|exact HT| | | |exact Ht].
      + intros s Hs. destruct (Y_app pre w (x s, fun _ => 0) i) as [E1 E2]. rewrite E1, E2.
        destruct (Y_deriv pre x (fun _ _ => 0) (fun t => mv (x t)) (fun t => mv (fun _ => 0)) s) with (i := i) as [D1 D2]; [|exact Hi|].
        { intros j Hj. split; [apply S; assumption|]. replace (mv (fun _ => 0) j) with 0; [apply derivable_pt_lim_const|]. transitivity (sumn n (fun _ => 0)); [symmetry; apply sumn_zero|]. apply sumn_ext. intros; ring. }
        destruct (Y_commute pre (x s) (fun _ => 0) i Hi) as [C1 C2]. rewrite C1 in D1. rewrite C2 in D2. split.
        * refine (eq_ind _ (fun r => derivable_pt_lim _ s r) D1 _ _). cbv beta. generalize (mv (fst (Y pre (x s, fun _ : nat => 0))) i) (fst (Y pre (x s, fun _ : nat => 0)) i) (snd (Y pre (x s, fun _ : nat => 0)) i). intros; ring.
        * refine (eq_ind _ (fun r => derivable_pt_lim _ s r) D2 _ _). cbv beta. generalize (mv (snd (Y pre (x s, fun _ : nat => 0))) i) (fst (Y pre (x s, fun _ : nat => 0)) i) (snd (Y pre (x s, fun _ : nat => 0)) i). intros; ring.
      + intros s Hs. apply (D T x HT S s i Hs Hi).
      + rewrite (Rmult_comm (N2 (x 0))). specialize (B (x 0, fun _ => 0)). cbn [fst snd] in B. replace (N2 (fun _ => 0)) with 0 in B.
        * rewrite Rplus_0_r in B. pose proof (N2_term (fst (Y pre (x 0, fun _ => 0))) i Hi). pose proof (N2_term (snd (Y pre (x 0, fun _ => 0))) i Hi). lra.
        * transitivity (sumn n (fun _ => 0)); [symmetry; apply sumn_zero|]. apply sumn_ext. intros; ring.
  Qed.
  Lemma linear_decay w : (forall z, In z w -> fst z < 0) -> (forall x i, (i < n)%nat -> fst (Y w (x, fun _ => 0)) i = 0 /\ snd (Y w (x, fun _ => 0)) i = 0) ->
    exists C mu, 0 < mu /\ 0 <= C /\ forall T x, 0 <= T -> solves T x -> forall t i, 0 <= t <= T -> (i < n)%nat -> x t i ^ 2 <= N2 (x 0) * C * exp (- mu * t).
  Proof.
    intros HW Z. destruct (suffix_decay w HW [] Z) as (C & mu & H1 & H2 & H3). exists C, mu. split; [exact H1|]. split; [exact H2|]. intros T x HT S t i Ht Hi.
    specialize (H3 T x HT S t i Ht Hi). cbn [Y fst snd] in H3. lra.
  Qed.
End Lin.
