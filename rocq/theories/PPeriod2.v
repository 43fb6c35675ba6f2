(* PPeriod2.v -- the fit function and its Jacobian, goodness of fit *)
From Verif Require Import Base MIo SIo MPeriod SPeriod PBase.
From Coq Require Import Lra Lia ZArith.
From Coquelicot Require Import Coquelicot.
Local Open Scope R_scope.

Lemma one_minus_sq z : Rabs z < 1 -> 0 < 1 - z ^ 2.
Proof. intros H. apply Rabs_def2 in H. nra. Qed.
Lemma jac_derivative p t i : length p = 5%nat -> Rabs (par p 3) < 1 -> (i < 5)%nat ->
  derivable_pt_lim (fun x => fitfunc (upd p i x) t) (par p i) (nth i (jac_row p t) 0).
Proof.
  intros L Z Hi. destruct p as [|p0 [|p1 [|p2 [|p3 [|p4 [|]]]]]]; try discriminate. clear L.
  unfold par in Z. cbn in Z. pose proof (one_minus_sq p3 Z) as Q. assert (S : 0 < sqrt (1 - p3 ^ 2)) by (apply sqrt_lt_R0, Q).
  apply is_derive_Reals.
  destruct i as [|[|[|[|[|i]]]]]; unfold fitfunc, jac_row, par; cbn [upd nth]; [..|lia].
  - auto_derive; [exact I|ring].
  - replace (sqrt (1 - p3 ^ 2) * p4 * t) with (p4 * sqrt (1 - p3 ^ 2) * t) by ring. set (q := p4 * sqrt (1 - p3 ^ 2) * t). auto_derive; [exact I|ring].
  - replace (sqrt (1 - p3 ^ 2) * p4 * t) with (p4 * sqrt (1 - p3 ^ 2) * t) by ring. set (q := p4 * sqrt (1 - p3 ^ 2) * t). auto_derive; [exact I|ring].
  - replace (sqrt (1 - p3 ^ 2) * p4 * t) with (p4 * sqrt (1 - p3 ^ 2) * t) by ring.
    auto_derive; [cbn [pow] in Q |- *; lra|].
    replace (1 + - (p3 * (p3 * 1))) with (1 - p3 ^ 2) by ring. replace (p4 * t * sqrt (1 - p3 ^ 2)) with (p4 * sqrt (1 - p3 ^ 2) * t) by ring. field. lra.
  - replace (sqrt (1 - p3 ^ 2) * p4 * t) with (p4 * sqrt (1 - p3 ^ 2) * t) by ring. set (q := sqrt (1 - p3 ^ 2)). auto_derive; [exact I|ring].
Qed.

(* ---- the period ---- *)
Lemma period_of_fit_eq p : Rabs (par p 3) < 1 -> par p 4 <> 0 ->
  period_of_fit p = 2 * PI / (par p 4 * sqrt (1 - par p 3 ^ 2)).
Proof.
  intros Z W. assert (S : 0 < sqrt (1 - par p 3 ^ 2)) by (apply sqrt_lt_R0, one_minus_sq, Z). unfold period_of_fit.
  pose proof PI_RGT_0. field. repeat split; lra.
Qed.
Lemma fit_shift p t : Rabs (par p 3) < 1 -> par p 4 <> 0 ->
  fitfunc p (t + period_of_fit p) - par p 0 = exp (- par p 3 * par p 4 * period_of_fit p) * (fitfunc p t - par p 0).
Proof.
  intros Z W. assert (S : 0 < sqrt (1 - par p 3 ^ 2)) by (apply sqrt_lt_R0, one_minus_sq, Z).
  rewrite (period_of_fit_eq p Z W). set (T := 2 * PI / (par p 4 * sqrt (1 - par p 3 ^ 2))). unfold fitfunc.
  assert (A : par p 4 * sqrt (1 - par p 3 ^ 2) * (t + T) = par p 4 * sqrt (1 - par p 3 ^ 2) * t + 2 * PI).
  { unfold T. field. split; lra. }
  rewrite A, sin_plus, cos_plus, sin_2PI, cos_2PI.
  replace (- par p 3 * par p 4 * (t + T)) with (- par p 3 * par p 4 * t + - par p 3 * par p 4 * T) by ring. rewrite exp_plus. ring.
Qed.
(* no smaller positive shift is a period of the undamped oscillation *)
Lemma cos_one_lt2pi y : 0 < y < 2 * PI -> cos y <> 1.
Proof.
  intros [H1 H2] E. assert (sin (y/2) = 0).
  { assert (K : cos y = 1 - 2 * sin (y/2) * sin (y/2)). { replace y with (2 * (y/2)) at 1 by lra. apply cos_2a_sin. }
    rewrite E in K. assert (sin (y/2) * sin (y/2) = 0) by lra. apply Rmult_integral in H. tauto. }
  assert (0 < sin (y/2)) by (apply sin_gt_0; lra). lra.
Qed.

(* ---- goodness of fit ---- *)
Lemma rsum_cons x l : rsum (x :: l) = x + rsum l. Proof. reflexivity. Qed.
Lemma rsum_map_plus {A} (f g : A -> R) l : rsum (map (fun x => f x + g x) l) = rsum (map f l) + rsum (map g l).
Proof. induction l as [|x l IH]; cbn [map]; [cbn; lra|]. rewrite !rsum_cons, IH. lra. Qed.
Lemma rsum_map_scal {A} (c : R) (f : A -> R) l : rsum (map (fun x => c * f x) l) = c * rsum (map f l).
Proof. induction l as [|x l IH]; cbn [map]; [cbn; lra|]. rewrite !rsum_cons, IH. lra. Qed.
Lemma rsum_nonneg {A} (f : A -> R) l : (forall x, 0 <= f x) -> 0 <= rsum (map f l).
Proof. intros H. induction l as [|x l IH]; cbn [map]; [cbn; lra|]. rewrite rsum_cons. specialize (H x). lra. Qed.
Lemma map_fst_combine {A B} (l : list A) (l' : list B) : length l = length l' -> map fst (combine l l') = l.
Proof. revert l'. induction l as [|x l IH]; intros [|y l'] H; try discriminate; [reflexivity|]. cbn in *. f_equal. apply IH. lia. Qed.
Lemma map_snd_combine {A B} (l : list A) (l' : list B) : length l = length l' -> map snd (combine l l') = l'.
Proof. revert l'. induction l as [|x l IH]; intros [|y l'] H; try discriminate; [reflexivity|]. cbn in *. f_equal. apply IH. lia. Qed.
Lemma sums_identity ym yp m : length ym = length yp ->
  rsum (map (fun y => Rsqr (y - m)) ym) - rsum (map (fun y => Rsqr (y - m)) yp)
  = rsum (map (fun q => Rsqr (fst q - snd q)) (combine ym yp))
    + 2 * (rsum (map (fun q => (fst q - snd q) * snd q) (combine ym yp)) - m * rsum (map (fun q => fst q - snd q) (combine ym yp))).
Proof.
  revert yp. induction ym as [|a ym IH]; intros [|b yp] H; try discriminate; [cbn; lra|].
  cbn [map combine fst snd]. rewrite !rsum_cons. specialize (IH yp ltac:(cbn in H; lia)). unfold Rsqr in *. lra.
Qed.
