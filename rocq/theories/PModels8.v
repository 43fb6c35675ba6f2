(* PModels8.v -- trajectories of linear systems are unique *)
From Coq Require Import Lra Lia.
From Verif Require Import Base MString MHeap MBicycle MVec MInertia MSets MModels MModels2 PBase PBicycle PHeap SModels SModels2
  PModels PModels2.
Local Open Scope string_scope.
Local Open Scope R_scope.

Fixpoint sumn (n : nat) (f : nat -> R) : R := match n with O => 0 | S n => sumn n f + f n end.
Lemma sumn_ext n f g : (forall i, (i < n)%nat -> f i = g i) -> sumn n f = sumn n g.
Proof. induction n as [|n IH]; intros E; [reflexivity|]. cbn [sumn]. rewrite IH by (intros; apply E; lia). rewrite E by lia. reflexivity. Qed.
Lemma sumn_le n f g : (forall i, (i < n)%nat -> f i <= g i) -> sumn n f <= sumn n g.
Proof. induction n as [|n IH]; intros E; [simpl; lra|]. cbn [sumn]. apply Rplus_le_compat; [apply IH; intros; apply E; lia | apply E; lia]. Qed.
Lemma sumn_scal n c f : sumn n (fun i => c * f i) = c * sumn n f.
Proof. induction n as [|n IH]; cbn [sumn]; [ring|]. rewrite IH. ring. Qed.
Lemma sumn_plus n f g : sumn n (fun i => f i + g i) = sumn n f + sumn n g.
Proof. induction n as [|n IH]; cbn [sumn]; [ring|]. rewrite IH. ring. Qed.
Lemma sumn_minus n f g : sumn n (fun i => f i - g i) = sumn n f - sumn n g.
Proof. induction n as [|n IH]; cbn [sumn]; [ring|]. rewrite IH. ring. Qed.
Lemma sumn_zero n : sumn n (fun _ => 0) = 0.
Proof. induction n as [|n IH]; cbn [sumn]; [reflexivity|]. rewrite IH. ring. Qed.
Lemma sumn_nonneg n f : (forall i, (i < n)%nat -> 0 <= f i) -> 0 <= sumn n f.
Proof. intros F. rewrite <- (sumn_zero n). apply sumn_le, F. Qed.
Lemma sumn_term n f i : (forall j, (j < n)%nat -> 0 <= f j) -> (i < n)%nat -> f i <= sumn n f.
Proof.
  induction n as [|n IH]; intros F Hi; [lia|]. cbn [sumn]. destruct (Nat.eq_dec i n) as [->|NE].
  - assert (0 <= sumn n f) by (apply sumn_nonneg; intros; apply F; lia). lra.
  - assert (f i <= sumn n f) by (apply IH; [intros; apply F|]; lia). assert (0 <= f n) by (apply F; lia). lra.
Qed.
Lemma sumn_deriv n (f : nat -> R -> R) (f' : nat -> R) t : (forall i, (i < n)%nat -> derivable_pt_lim (f i) t (f' i)) ->
  derivable_pt_lim (fun t => sumn n (fun i => f i t)) t (sumn n f').
Proof.
  induction n as [|n IH]; intros F; cbn [sumn].
  - apply (derivable_pt_lim_const 0).
  - apply (derivable_pt_lim_plus (fun t => sumn n (fun i => f i t)) (f n)); [apply IH; intros; apply F; lia | apply F; lia].
Qed.

Section Zero.
Context (n : nat) (a : nat -> nat -> R) (e : nat -> R -> R) (t0 tf : R).
Hypothesis ODE : forall t, t0 <= t <= tf -> forall i, (i < n)%nat -> derivable_pt_lim (e i) t (sumn n (fun j => a i j * e j t)).
Hypothesis INI : forall i, (i < n)%nat -> e i t0 = 0.

Let D (t : R) : R := sumn n (fun i => e i t * e i t).
Let D' (t : R) : R := sumn n (fun i => 2 * (e i t * sumn n (fun j => a i j * e j t))).
Let K : R := 2 * sumn n (fun i => sumn n (fun j => Rabs (a i j))).

Lemma d_deriv t : t0 <= t <= tf -> derivable_pt_lim D t (D' t).
Proof.
  intros Ht. unfold D, D'. apply (sumn_deriv n (fun i t => e i t * e i t)). intros i Hi.
  replace (2 * (e i t * sumn n (fun j => a i j * e j t))) with (sumn n (fun j => a i j * e j t) * e i t + e i t * sumn n (fun j => a i j * e j t)) by ring.
  apply (derivable_pt_lim_mult (e i) (e i)); apply ODE; auto.
Qed.
Lemma sq_le t i : (i < n)%nat -> e i t * e i t <= D t.
Proof. intros Hi. unfold D. apply (sumn_term n (fun i => e i t * e i t)); auto. intros j _. nra. Qed.
Lemma d_bound t : D' t <= K * D t.
Proof.
  unfold D', K. rewrite sumn_scal, Rmult_assoc. apply Rmult_le_compat_l; [lra|].
  rewrite Rmult_comm, <- sumn_scal. apply sumn_le. intros i Hi. rewrite <- !sumn_scal. apply sumn_le. intros j Hj.
  pose proof (sq_le t i Hi) as Si. pose proof (sq_le t j Hj) as Sj.
  assert (EE : Rabs (e i t * e j t) <= D t).
  { apply Rabs_le. set (x := e i t) in *. set (y := e j t) in *. clearbody x y. set (dd := D t) in *. clearbody dd.
    assert (0 <= (x - y) * (x - y)) by (apply Rle_0_sqr). assert (0 <= (x + y) * (x + y)) by (apply Rle_0_sqr). split; nra. }
  replace (e i t * (a i j * e j t)) with (a i j * (e i t * e j t)) by ring.
  eapply Rle_trans; [apply Rle_abs|]. rewrite Rabs_mult, Rmult_comm. apply Rmult_le_compat_r; [apply Rabs_pos | exact EE].
Qed.
Lemma exp_deriv t : derivable_pt_lim (fun t => exp (- K * (t - t0))) t (- K * exp (- K * (t - t0))).
Proof.
  replace (- K * exp (- K * (t - t0))) with (exp (- K * (t - t0)) * (- K * (1 - 0))) by ring.
  apply (derivable_pt_lim_comp (fun t => - K * (t - t0)) exp).
  - apply (derivable_pt_lim_scal (fun t => t - t0)). apply (derivable_pt_lim_minus (fun t => t) (fun _ => t0)); [apply derivable_pt_lim_id | apply derivable_pt_lim_const].
  - apply derivable_pt_lim_exp.
Qed.
Lemma all_zero t i : t0 <= t <= tf -> (i < n)%nat -> e i t = 0.
Proof.
  intros Ht Hi. destruct (Req_dec t t0) as [->|NE]; [apply INI, Hi|].
  assert (LT : t0 < t) by lra.
  destruct (MVT_cor2 (fun t => D t * exp (- K * (t - t0))) (fun t => D' t * exp (- K * (t - t0)) + D t * (- K * exp (- K * (t - t0)))) t0 t LT) as (c & EQ & Hc).
  { intros c Hc. apply (derivable_pt_lim_mult D (fun t => exp (- K * (t - t0)))); [apply d_deriv; lra | apply exp_deriv]. }
  assert (D0 : D t0 = 0).
  { unfold D. rewrite <- (sumn_zero n). apply sumn_ext. intros j Hj. rewrite INI by exact Hj. ring. }
  rewrite D0 in EQ.
  assert (DN : D' c * exp (- K * (c - t0)) + D c * (- K * exp (- K * (c - t0))) <= 0).
  { pose proof (d_bound c) as B. pose proof (exp_pos (- K * (c - t0))) as P. set (x := exp _) in *. clearbody x. nra. }
  assert (LE : D t * exp (- K * (t - t0)) <= 0).
  { assert (X : D t * exp (- K * (t - t0)) = (D' c * exp (- K * (c - t0)) + D c * (- K * exp (- K * (c - t0)))) * (t - t0)) by lra.
    rewrite X. clear EQ X. set (y := D' c * _ + _) in *. clearbody y. nra. }
  pose proof (exp_pos (- K * (t - t0))) as P.
  assert (DP : D t <= 0). { destruct (Rle_dec (D t) 0); [assumption|]. exfalso. assert (0 < D t * exp (- K * (t - t0))) by (apply Rmult_lt_0_compat; lra). lra. }
  pose proof (sq_le t i Hi). assert (e i t * e i t = 0) by nra. destruct (Rmult_integral _ _ H0); assumption.
Qed.
End Zero.

(* ---- the linear right hand side ---- *)
Lemma rsum_combine : forall n row x, length row = n -> length x = n ->
  rsum (map (fun p => fst p * snd p) (combine row x)) = rsum (map (fun j => nth j row 0 * nth j x 0) (seq 0 n)).
Proof.
  induction n as [|n IH]; intros row x Lr Lx; destruct row, x; try discriminate; [reflexivity|].
  cbn [combine map seq]. unfold rsum in *. cbn [fold_right fst snd]. rewrite (IH row x) by (simpl in *; lia).
  rewrite <- seq_shift, map_map. reflexivity.
Qed.
Lemma rsum_seq n f : rsum (map f (seq 0 n)) = sumn n f.
Proof.
  induction n as [|n IH]; [reflexivity|]. rewrite seq_S, map_app. cbn [map plus]. unfold rsum in *. rewrite fold_right_app. cbn [fold_right sumn].
  rewrite <- IH. assert (X : forall l z, fold_right Rplus z l = fold_right Rplus 0 l + z).
  { induction l as [|y l IHl]; intros z; simpl; [ring|]. rewrite IHl. ring. }
  rewrite X. ring.
Qed.
Lemma matvec_ok A x n dx : shape n n A -> length x = n -> matvec A x = Ok dx ->
  length dx = n /\ forall i, (i < n)%nat -> nth i dx 0 = sumn n (fun j => ent A i j * nth j x 0).
Proof.
  intros (HL & HR) Lx E. unfold matvec in E. pose proof (mapM_length _ _ _ E) as LD. split; [lia|].
  intros i Hi. assert (Hi' : (i < length A)%nat) by lia.
  assert (HX : (if Nat.eqb (length (nth i A [])) (length x) then Ok (rsum (map (fun p => fst p * snd p) (combine (nth i A []) x)))
                else Err (ValueError "matmul: mismatch in its core dimension")) = Ok (nth i dx 0)).
  { exact (mapM_nth _ A dx i [] 0 E Hi'). }
  destruct (Nat.eqb _ _); [|discriminate]. injection HX as <-.
  rewrite (rsum_combine n) by (auto; apply HR, nth_In, Hi'). rewrite rsum_seq. reflexivity.
Qed.

Lemma linear_unique n A t0 tf x y : shape n n A ->
  trajectory n (fun _ z => matvec A z) t0 tf x -> trajectory n (fun _ z => matvec A z) t0 tf y -> x t0 = y t0 ->
  forall t, t0 <= t <= tf -> x t = y t.
Proof.
  intros S TX TY E0 t Ht.
  assert (Z : forall i, (i < n)%nat -> comp x i t - comp y i t = 0).
  { intros i Hi. apply (all_zero n (ent A) (fun i t => comp x i t - comp y i t) t0 tf); auto.
    - clear t Ht i Hi. intros t Ht i Hi. destruct (TX t Ht) as (Lx & dx & EX & LDX & DX). destruct (TY t Ht) as (Ly & dy & EY & LDY & DY).
      destruct (matvec_ok A (x t) n dx S Lx EX) as (_ & FX). destruct (matvec_ok A (y t) n dy S Ly EY) as (_ & FY).
      specialize (DX i Hi). specialize (DY i Hi). rewrite FX in DX by exact Hi. rewrite FY in DY by exact Hi.
      assert (X : sumn n (fun j => ent A i j * (comp x j t - comp y j t)) =
                  sumn n (fun j => ent A i j * nth j (x t) 0) - sumn n (fun j => ent A i j * nth j (y t) 0)).
      { rewrite <- sumn_minus. apply sumn_ext. intros j Hj. unfold comp. ring. }
      rewrite X. apply (derivable_pt_lim_minus (comp x i) (comp y i)); assumption.
    - clear i Hi. intros i Hi. unfold comp. rewrite E0. ring. }
  destruct (TX t Ht) as (Lx & _). destruct (TY t Ht) as (Ly & _).
  apply (nth_ext _ _ 0 0); [congruence|]. intros i Hi. specialize (Z i ltac:(lia)). unfold comp in Z. lra.
Qed.

(* ---- modes: Re(v exp(lam (t - t0))) ---- *)
Lemma mode_deriv lam v t0 t : derivable_pt_lim (mode_re lam v t0) t (mode_re lam (cmul lam v) t0 t).
Proof.
  unfold mode_re. destruct lam as [al be]. destruct v as [p q]. cbn [fst snd cmul].
  assert (L : forall c, derivable_pt_lim (fun t => c * (t - t0)) t c).
  { intros c. cut (derivable_pt_lim (fun t => c * (t - t0)) t (c * (1 - 0))); [intros X; replace (c * (1 - 0)) with c in X by ring; exact X|].
    apply (derivable_pt_lim_scal (fun t => t - t0)). apply (derivable_pt_lim_minus (fun t => t) (fun _ => t0)); [apply derivable_pt_lim_id | apply derivable_pt_lim_const]. }
  assert (DE : derivable_pt_lim (fun t => exp (al * (t - t0))) t (exp (al * (t - t0)) * al)).
  { apply (derivable_pt_lim_comp (fun t => al * (t - t0)) exp); [apply L | apply derivable_pt_lim_exp]. }
  assert (DC : derivable_pt_lim (fun t => cos (be * (t - t0))) t (- sin (be * (t - t0)) * be)).
  { apply (derivable_pt_lim_comp (fun t => be * (t - t0)) cos); [apply L | apply derivable_pt_lim_cos]. }
  assert (DS : derivable_pt_lim (fun t => sin (be * (t - t0))) t (cos (be * (t - t0)) * be)).
  { apply (derivable_pt_lim_comp (fun t => be * (t - t0)) sin); [apply L | apply derivable_pt_lim_sin]. }
  match goal with |- derivable_pt_lim _ _ ?r =>
    replace r with (exp (al * (t - t0)) * al * (p * cos (be * (t - t0)) - q * sin (be * (t - t0))) +
      exp (al * (t - t0)) * (p * (- sin (be * (t - t0)) * be) - q * (cos (be * (t - t0)) * be))) by ring end.
  apply (derivable_pt_lim_mult (fun t => exp (al * (t - t0))) (fun t => p * cos (be * (t - t0)) - q * sin (be * (t - t0)))); [exact DE|].
  apply (derivable_pt_lim_minus (fun t => p * cos (be * (t - t0))) (fun t => q * sin (be * (t - t0)))).
  - apply (derivable_pt_lim_scal (fun t => cos (be * (t - t0)))). exact DC.
  - apply (derivable_pt_lim_scal (fun t => sin (be * (t - t0)))). exact DS.
Qed.
