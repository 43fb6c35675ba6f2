(* TPeriod.v -- properties C39-C42, C53 *)
From Verif Require Import Base MString MIo SIo MPeriod SPeriod PBase PIo PIo3 PPeriod PPeriod2 PPeriod3 PPeriod4.
From Coq Require Import Lra Lia ZArith Permutation.
Local Open Scope string_scope.
Local Open Scope R_scope.

(* ================= C39 ================= *)
(* The name of a period: "T", the small first letter of the pendulum, the
   documented letter of the part, the digit of the orientation; anything else raises. *)
Theorem C39_key : forall mat split key, get_period_key mat split = Ok key <-> period_key mat split key.
Proof. exact get_period_key_iff. Qed.
Print Assumptions C39_key.
Example C39_key_example :
  get_period_key [("part", "Fork"); ("pendulum", "Torsional"); ("angleOrder", "Second")] false = Ok "TtH2"
  /\ get_period_key [("part", "Fork"); ("pendulum", "Compound"); ("angle", "First")] true = Ok "TcS1"
  /\ get_period_key [("part", "Handlebar"); ("pendulum", "Compound"); ("angle", "First")] false = Err (KeyError "Handlebar")
  /\ get_period_key [("rod", "Rod2"); ("part", "Rod2"); ("pendulum", "Torsional"); ("angle", "First")] false = Ok "TtP1".
Proof. repeat split. Qed.

(* Two recordings (of the same rod name) get the same name only if part,
   orientation and pendulum letter agree. *)
Theorem C39_key_distinguishes : forall mat mat' split key p p' w w' c c' r r',
  dget mat "rod" = dget mat' "rod" ->
  get_period_key mat split = Ok key -> get_period_key mat' split = Ok key ->
  dget mat "part" = Some p -> dget mat' "part" = Some p' ->
  orientation_word mat w -> orientation_word mat' w' ->
  dget mat "pendulum" = Some (String c r) -> dget mat' "pendulum" = Some (String c' r') ->
  p = p' /\ w = w' /\ exists d, small_of c d /\ small_of c' d.
Proof.
  intros mat mat' split key p p' w w' c c' r r' HR H H' Hp Hp' Hw Hw' Hc Hc'.
  apply get_period_key_iff in H as [w1 [c1 [r1 [d1 [p1 [l1 [n1 [A1 [A2 [A3 [A4 [A5 [A6 A7]]]]]]]]]]]]].
  apply get_period_key_iff in H' as [w2 [c2 [r2 [d2 [p2 [l2 [n2 [B1 [B2 [B3 [B4 [B5 [B6 B7]]]]]]]]]]]]].
  rewrite Hp in A4. injection A4 as <-. rewrite Hp' in B4. injection B4 as <-.
  rewrite Hc in A2. injection A2 as <- <-. rewrite Hc' in B2. injection B2 as <- <-.
  assert (w1 = w) by (destruct A1 as [A1|[A1 A1']], Hw as [K|[K K']]; congruence).
  assert (w2 = w') by (destruct B1 as [B1|[B1 B1']], Hw' as [K|[K K']]; congruence). subst w1 w2.
  destruct (letter_one _ _ _ _ A5) as [a1 ->]. destruct (letter_one _ _ _ _ B5) as [a2 ->].
  rewrite A7 in B7. cbn in B7. injection B7 as E1 E2 E3. subst d2 a2 n2.
  rewrite <- HR in B5. split; [eapply part_letter_inj; eassumption|]. split; [eapply ordinal_inj; eassumption|]. eauto.
Qed.
Print Assumptions C39_key_distinguishes.

Lemma periods_of_trials split k files : Forall (fun f => exists k p, get_period_key (fst f) split = Ok k /\ snd f = Ok p) files ->
  trials split k files (periods_of split k files).
Proof.
  induction 1 as [|[mat per] files [q [p [Hq Hp]]] H IH]; [constructor|]. cbn in Hq, Hp. subst per.
  cbn [periods_of flat_map fst snd]. rewrite Hq. fold (periods_of split k files). apply get_period_key_iff in Hq.
  destruct (String.eqb_spec k q) as [<-|N]; cbn; [constructor; assumption|]. apply tr_other with (q := q); auto.
Qed.
Lemma trials_fun split k files l l' : trials split k files l -> trials split k files l' -> l = l'.
Proof.
  intros H. revert l'. induction H as [|mat p fs l K H IH|mat p q fs l K N H IH]; intros l' H'; inversion H'; subst; auto.
  - f_equal. auto.
  - apply get_period_key_iff in K. match goal with K' : period_key mat split ?q |- _ => apply get_period_key_iff in K' end. congruence.
  - apply get_period_key_iff in K. match goal with K' : period_key mat split ?q |- _ => apply get_period_key_iff in K' end. congruence.
Qed.
Lemma sum_sq_eq l : rsum (map (fun u : R * R => Rsqr (snd u)) l) = fold_right (fun u a => snd u * snd u + a) 0 l.
Proof. induction l as [|u l IH]; [reflexivity|]. cbn [map]. rewrite rsum_cons, IH. reflexivity. Qed.
Lemma umean_trials l : umean l = PU (fst (mean_of_trials l)) (snd (mean_of_trials l)).
Proof. unfold umean, mean_of_trials. cbn [fst snd]. rewrite sum_sq_eq. unfold mean, average. reflexivity. Qed.

(* Every file is used: the result exists iff every file has a name and a period,
   and then each name maps to the mean of all its trials. *)
Theorem C39_averages : forall split files,
  ((exists d, calc_periods_for_files split files = Ok d) <->
   Forall (fun f => (exists k, period_key (fst f) split k) /\ exists p, snd f = Ok p) files)
  /\ forall d, calc_periods_for_files split files = Ok d ->
     NoDup (dkeys d) /\ forall k, exists l, trials split k files l /\
       dget d k = match l with [] => None | _ => Some (PerMean (PU (fst (mean_of_trials l)) (snd (mean_of_trials l)))) end.
Proof.
  intros split files. split; [split|].
  - intros [d H]. unfold calc_periods_for_files in H. apply bind_ok in H as [acc [H _]]. apply collect_all in H.
    eapply Forall_impl; [|exact H]. intros f [k [p [K1 K2]]]. apply get_period_key_iff in K1. split; eauto.
  - intros H. destruct (collect_ok split [] files) as [out Ho].
    + eapply Forall_impl; [|exact H]. intros f [[k K] [p P]]. exists k, p. apply get_period_key_iff in K. auto.
    + unfold calc_periods_for_files. rewrite Ho. eexists. reflexivity.
  - intros d H. destruct (calc_periods_get split files d H) as [N G]. split; [exact N|]. intros k. exists (periods_of split k files). split.
    + apply periods_of_trials. unfold calc_periods_for_files in H. apply bind_ok in H as [acc [H _]]. apply collect_all in H. exact H.
    + rewrite G. destruct (periods_of split k files) eqn:E; [reflexivity|]. rewrite umean_trials. reflexivity.
Qed.
Print Assumptions C39_averages.
(* The order of the files does not matter. *)
Theorem C39_order_independent : forall split files files' d, Permutation files files' ->
  calc_periods_for_files split files = Ok d ->
  exists d', calc_periods_for_files split files' = Ok d' /\ forall k, dget d' k = dget d k.
Proof. exact calc_periods_perm. Qed.
Print Assumptions C39_order_independent.
Definition rec1 : dict string := [("part", "Fork"); ("pendulum", "Torsional"); ("angleOrder", "Second")].
Example C39_averages_example : exists d, calc_periods_for_files false [(rec1, Ok (1, 0)); (rec1, Ok (3, 0))] = Ok d
  /\ exists s, dget d "TtH2" = Some (PerMean (PU 2 s)).
Proof.
  exists [("TtH2", PerMean (umean [(1, 0); (3, 0)]))]. split; [reflexivity|]. unfold umean, mean, rsum. cbn [map fst snd fold_right length].
  exists (sqrt (Rsqr 0 + (Rsqr 0 + 0)) / INR 2). change (INR 2) with (1 + 1). replace ((1 + (3 + 0)) / (1 + 1)) with 2 by field. reflexivity.
Qed.

(* check_for_period asks for recomputation iff there are too few compound or
   torsional periods: 5 and 11 with a split fork, 4 and 8 without. *)
Theorem C39_forced : forall V (mp : dict V) split, check_for_period mp split = true <->
  (if split then how_many "Tc" (dkeys mp) < 5 \/ how_many "Tt" (dkeys mp) < 11
   else how_many "Tc" (dkeys mp) < 4 \/ how_many "Tt" (dkeys mp) < 8)%nat.
Proof. intros V. exact check_for_period_iff. Qed.
Print Assumptions C39_forced.
(* the names produced for the measurements are counted: adding one compound
   period never takes the answer from no to yes *)
Theorem C39_forced_monotone : forall V (mp : dict V) split k v, dget mp k = None ->
  check_for_period mp split = false -> check_for_period (mp ++ [(k, v)])%list split = false.
Proof.
  intros V mp split k v _ H. destruct (check_for_period (mp ++ [(k, v)])%list split) eqn:E; [|reflexivity]. exfalso.
  apply not_true_iff_false in H. apply H. apply check_for_period_iff in E. apply check_for_period_iff.
  assert (M : forall pre a b, (how_many pre a <= how_many pre (a ++ b))%nat).
  { intros pre a b. induction a as [|x a IH]; cbn; lia. }
  unfold dkeys in *. rewrite map_app in E. destruct split; destruct E as [E|E]; [left|right|left|right]; (eapply Nat.le_lt_trans; [apply M|exact E]).
Qed.
Print Assumptions C39_forced_monotone.

(* ================= C40 ================= *)
Lemma fitfunc_oscillation p t : length p = 5%nat -> fitfunc p t = oscillation p t.
Proof.
  destruct p as [|a [|b [|c [|z [|w [|]]]]]]; try discriminate. intros _. unfold fitfunc, oscillation, par. cbn [nth].
  replace (z ^ 2) with (z * z) by ring. reflexivity.
Qed.
(* The fitted function is the documented damped oscillation. *)
Theorem C40_fitfunc : forall a b c z w t,
  fitfunc [a; b; c; z; w] t =
  a + exp (- z * w * t) * (b * sin (w * sqrt (1 - z * z) * t) + c * cos (w * sqrt (1 - z * z) * t)).
Proof. intros. rewrite fitfunc_oscillation by reflexivity. reflexivity. Qed.
Print Assumptions C40_fitfunc.
(* jac_fitfunc has one row per time, five entries per row, and entry i of a row is
   the partial derivative of the fitted function with respect to parameter i. *)
Theorem C40_jacobian : forall p ts, length p = 5%nat -> Rabs (nth 3 p 0) < 1 ->
  length (jac_fitfunc p ts) = length ts /\
  forall j t row, nth_error ts j = Some t -> nth_error (jac_fitfunc p ts) j = Some row ->
    length row = 5%nat /\
    forall i d, nth_error row i = Some d ->
      derivable_pt_lim (fun x => oscillation (firstn i p ++ x :: skipn (S i) p) t) (nth i p 0) d.
Proof.
  intros p ts L Z. split; [apply map_length|]. intros j t row Ht Hr. unfold jac_fitfunc in Hr. rewrite nth_error_map, Ht in Hr. injection Hr as <-.
  split; [reflexivity|]. intros i d Hd. assert (Hi : (i < 5)%nat) by (change 5%nat with (length (jac_row p t)); apply nth_error_Some; congruence).
  pose proof (jac_derivative p t i L Z Hi) as D. rewrite (nth_of_error _ _ _ 0 Hd) in D. unfold par in D.
  assert (E : forall x, fitfunc (upd p i x) t = oscillation (firstn i p ++ x :: skipn (S i) p) t).
  { intros x. rewrite fitfunc_oscillation.
    - f_equal. destruct p as [|a [|b [|c [|z [|w [|]]]]]]; try discriminate. destruct i as [|[|[|[|[|i]]]]]; try reflexivity. lia.
    - destruct p as [|a [|b [|c [|z [|w [|]]]]]]; try discriminate. destruct i as [|[|[|[|[|i]]]]]; try reflexivity. }
  intros eps He. destruct (D eps He) as [delta K]. exists delta. intros h H1 H2. specialize (K h H1 H2). rewrite !E in K. exact K.
Qed.
Print Assumptions C40_jacobian.
Example C40_example : length [1; 2; 3; 1/10; 5] = 5%nat /\ Rabs (nth 3 [1; 2; 3; 1/10; 5] 0) < 1.
Proof. cbn. split; [reflexivity|]. rewrite Rabs_right; lra. Qed.

(* ================= C53 ================= *)
(* The period reported for a fit is 2 pi over the damped frequency. *)
Theorem C53_period_formula : forall a b c z w, Rabs z < 1 -> w <> 0 ->
  period_of_fit [a; b; c; z; w] = 2 * PI / (w * sqrt (1 - z ^ 2)).
Proof. intros a b c z w. exact (period_of_fit_eq [a; b; c; z; w]). Qed.
Print Assumptions C53_period_formula.
(* After one reported period the deviation of the fitted oscillation from its
   offset repeats, up to the decay over that time. *)
Theorem C53_repeats : forall p t, length p = 5%nat -> Rabs (nth 3 p 0) < 1 -> nth 4 p 0 <> 0 ->
  oscillation p (t + period_of_fit p) - nth 0 p 0
  = exp (- nth 3 p 0 * nth 4 p 0 * period_of_fit p) * (oscillation p t - nth 0 p 0).
Proof. intros p t L Z W. rewrite <- !fitfunc_oscillation by exact L. exact (fit_shift p t Z W). Qed.
Print Assumptions C53_repeats.
(* No shorter positive time does. *)
Theorem C53_smallest : forall p S, length p = 5%nat -> Rabs (nth 3 p 0) < 1 -> 0 < nth 4 p 0 ->
  nth 1 p 0 <> 0 \/ nth 2 p 0 <> 0 -> 0 < S < period_of_fit p ->
  ~ (forall t, oscillation p (t + S) - nth 0 p 0 = exp (- nth 3 p 0 * nth 4 p 0 * S) * (oscillation p t - nth 0 p 0)).
Proof.
  intros p S L Z W NZ HS H. rewrite (period_of_fit_eq p) in HS; [|exact Z|unfold par; lra]. unfold par in HS.
  destruct p as [|a [|b [|c [|z [|w [|]]]]]]; try discriminate. cbn [nth] in *.
  assert (Q : 0 < sqrt (1 - z ^ 2)) by (apply sqrt_lt_R0, one_minus_sq, Z). set (wd := w * sqrt (1 - z * z)).
  assert (Ewd : w * sqrt (1 - z ^ 2) = wd) by (unfold wd; f_equal; f_equal; ring).
  assert (Hwd : 0 < wd) by (rewrite <- Ewd; apply Rmult_lt_0_compat; lra). rewrite Ewd in HS.
  assert (C1 : cos (wd * S) <> 1).
  { apply cos_one_lt2pi. split; [apply Rmult_lt_0_compat; lra|]. apply (Rmult_lt_reg_r (/ wd)); [apply Rinv_0_lt_compat, Hwd|].
    replace (wd * S * / wd) with S by (field; lra). unfold Rdiv in HS. lra. }
  (* at every time the bracket repeats *)
  assert (B : forall t, b * sin (wd * (t + S)) + c * cos (wd * (t + S)) = b * sin (wd * t) + c * cos (wd * t)).
  { intros t. specialize (H t). unfold oscillation in H. fold wd in H. cbv zeta in H.
    replace (- z * w * (t + S)) with (- z * w * S + - z * w * t) in H by ring. rewrite exp_plus in H.
    assert (P1 := exp_pos (- z * w * S)). assert (P2 := exp_pos (- z * w * t)).
    set (X := b * sin (wd * (t + S)) + c * cos (wd * (t + S))) in *. set (Y := b * sin (wd * t) + c * cos (wd * t)) in *.
    assert (K : exp (- z * w * S) * exp (- z * w * t) * (X - Y) = 0) by lra. apply Rmult_integral in K as [K|K]; [|lra].
    apply Rmult_integral in K. lra. }
  pose proof (B 0) as B0. pose proof (B (PI / 2 / wd)) as B1.
  replace (wd * (PI / 2 / wd + S)) with (PI / 2 + wd * S) in B1 by (field; lra). replace (wd * (PI / 2 / wd)) with (PI / 2) in B1 by (field; lra).
  rewrite Rplus_0_l, Rmult_0_r, sin_0, cos_0 in B0. rewrite sin_plus, cos_plus, sin_PI2, cos_PI2 in B1.
  set (s := sin (wd * S)) in *. set (k := cos (wd * S)) in *.
  assert (K1 : (b * b + c * c) * (k - 1) = 0).
  { assert (E1 : b * s = c * (1 - k)) by lra. assert (E2 : c * s = b * (k - 1)) by lra.
    assert (E3 : b * b * (k - 1) = b * (c * s)) by (rewrite E2; ring). assert (E4 : c * c * (k - 1) = - (c * (b * s))) by (rewrite E1; ring).
    assert (b * b * (k - 1) + c * c * (k - 1) = 0) by (rewrite E3, E4; ring). lra. }
  apply Rmult_integral in K1 as [K1|K1]; [|apply C1; lra].
  pose proof (Rle_0_sqr b) as Pb. pose proof (Rle_0_sqr c) as Pc. unfold Rsqr in Pb, Pc.
  assert (Zb : b * b = 0) by lra. assert (Zc : c * c = 0) by lra. apply Rmult_integral in Zb. apply Rmult_integral in Zc.
  destruct NZ as [N|N]; apply N; tauto.
Qed.
Print Assumptions C53_smallest.
Example C53_example : length [1; 2; 3; 1/10; 5] = 5%nat /\ Rabs (nth 3 [1; 2; 3; 1/10; 5] 0) < 1 /\ 0 < nth 4 [1; 2; 3; 1/10; 5] 0
  /\ nth 1 [1; 2; 3; 1/10; 5] 0 <> 0.
Proof. cbn. repeat split; try lra. rewrite Rabs_right; lra. Qed.
(* sample times: n times, the first 0, constant step 1/rate *)
Theorem C53_time_vector : forall n rate, rate <> 0 ->
  length (time_vector n rate) = n /\ forall i, (i < n)%nat -> nth_error (time_vector n rate) i = Some (INR i / rate).
Proof.
  intros n rate _. unfold time_vector. split; [rewrite map_length, seq_length; reflexivity|]. intros i Hi. rewrite nth_error_map.
  assert (E : nth_error (seq 0 n) i = Some i); [|rewrite E; reflexivity].
  rewrite (nth_error_nth' (seq 0 n) 0%nat) by (rewrite seq_length; exact Hi). rewrite seq_nth by exact Hi. reflexivity.
Qed.
Print Assumptions C53_time_vector.

(* ================= C41 ================= *)
(* What select_good_data returns: the part of the data from the (first) largest
   deviation from the mean to just before the last deviation above
   percent times that largest one. *)
Theorem C41_select : forall data pct out, select_good_data data pct = Ok out ->
  exists i j peak v,
    first_largest (map Rabs (deviations data)) i /\ nth_error (deviations data) i = Some peak
    /\ nth_error (deviations data) j = Some v /\ pct * Rabs peak < v
    /\ (forall k w, nth_error (deviations data) k = Some w -> pct * Rabs peak < w -> (k <= j)%nat)
    /\ part_of data i j out.
Proof. exact select_good_data_ok. Qed.
Print Assumptions C41_select.
(* the point at that last position is itself left out: defect against the
   documented claim *)
Theorem C41_last_point_dropped : forall data pct out, select_good_data data pct = Ok out ->
  exists i j peak v, first_largest (map Rabs (deviations data)) i /\ nth_error (deviations data) i = Some peak
    /\ nth_error (deviations data) j = Some v /\ pct * Rabs peak < v
    /\ (forall k w, nth_error (deviations data) k = Some w -> pct * Rabs peak < w -> (k <= j)%nat)
    /\ nth_error out (j - i) = None.
Proof.
  intros data pct out H. destruct (select_good_data_ok data pct out H) as [i [j [peak [v [A [B [C [D [E [P1 [P2 P3]]]]]]]]]]].
  exists i, j, peak, v. repeat (split; [assumption|]). apply nth_error_None. destruct (Nat.le_ge_cases i j) as [Q|Q]; [rewrite (P1 Q); lia|rewrite (P2 Q); cbn; lia].
Qed.
Print Assumptions C41_last_point_dropped.
(* It succeeds whenever the largest deviation is upward. *)
Theorem C41_select_defined : forall data pct i peak, first_largest (map Rabs (deviations data)) i ->
  nth_error (deviations data) i = Some peak -> 0 < peak -> pct < 1 -> exists out, select_good_data data pct = Ok out.
Proof. exact select_positive_peak. Qed.
Print Assumptions C41_select_defined.
(* The only failures: no data, or no deviation above the threshold (then the loop
   variable is never set). *)
Theorem C41_select_fails : forall data pct e, select_good_data data pct = Err e ->
  (data = [] /\ exists m, e = ValueError m)
  \/ (e = UnboundLocalError /\ exists i peak, first_largest (map Rabs (deviations data)) i /\ nth_error (deviations data) i = Some peak
        /\ forall w, In w (deviations data) -> w <= pct * Rabs peak).
Proof. exact select_good_data_err. Qed.
Print Assumptions C41_select_fails.
(* Such data exist: one large downward peak. *)
Theorem C41_downward_peak_fails : select_good_data (-11 :: repeat 0 10) (2/10) = Err UnboundLocalError.
Proof.
  destruct (select_good_data (-11 :: repeat 0 10) (2/10)) as [out|e] eqn:E.
  - exfalso. apply select_good_data_ok in E as [i [j [peak [v [[m [F1 F2]] [B [C [D _]]]]]]]].
    assert (AV : average (-11 :: repeat 0 10) = -1) by (unfold average; cbn; field).
    assert (DV : deviations (-11 :: repeat 0 10) = (-10) :: repeat 1 10).
    { unfold deviations. rewrite AV. cbn. repeat (f_equal; try lra). }
    rewrite DV in *. assert (i = 0%nat /\ peak = -10).
    { assert (K : nth_error (map Rabs (-10 :: repeat 1 10)) 0 = Some (Rabs (-10))) by reflexivity. destruct (F2 0%nat _ K) as [G1 G2].
      destruct i as [|i]; [cbn in B; injection B as <-; auto|]. exfalso.
      rewrite Rabs_left in G1 by lra. rewrite nth_error_map in F1. cbn [nth_error] in F1.
      destruct (nth_error (repeat 1 10) i) as [u|] eqn:U; [|discriminate]. apply nth_error_In, repeat_spec in U. subst u. cbn in F1. injection F1 as <-.
      rewrite Rabs_right in G1 by lra. lra. }
    destruct H as [-> ->]. rewrite Rabs_left in D by lra. destruct j as [|j]; [cbn in C; injection C as <-; lra|].
    cbn [nth_error] in C. apply nth_error_In, repeat_spec in C. subst v. lra.
  - apply select_good_data_err in E as [[E _]|[-> _]]; [discriminate|reflexivity].
Qed.
Print Assumptions C41_downward_peak_fails.

(* average_rectified_sections: the data is cut at the sign changes of the
   deviations; the result is the part of the data from the peak of the section
   with the largest mean to the peak of the section with the smallest mean above
   the mean of the means. *)
Theorem C41_rectified : forall data out, average_rectified_sections data = Ok out ->
  exists starts secs,
    (length starts = length secs /\ concat secs = map Rabs (deviations data)
     /\ (forall k st, nth_error starts k = Some st -> st = length (concat (firstn k secs)))
     /\ (forall q, In q (tl starts) <-> exists x y, nth_error (deviations data) q = Some x /\ nth_error (deviations data) (S q) = Some y
          /\ ~ (0 < x /\ 0 < y) /\ ~ (x < 0 /\ y < 0) /\ ~ (x = 0 /\ y = 0)))
    /\ Forall (fun s => s <> []) secs /\
    let thr := average (map average secs) in
    exists i si xi li j sj xj lj,
      nth_error starts i = Some si /\ nth_error secs i = Some xi /\ first_largest xi li
      /\ thr < average xi /\ (forall x, In x secs -> average x <= average xi)
      /\ nth_error starts j = Some sj /\ nth_error secs j = Some xj /\ first_largest xj lj
      /\ thr < average xj /\ (forall x, In x secs -> thr < average x -> average xj <= average x)
      /\ part_of data (si + li) (sj + lj) out.
Proof.
  intros data out H. destruct (rectified_ok data out H) as (starts & secs & (A & B & C & D) & R). exists starts, secs. split; [|exact R]. split; [exact A|]. split; [exact B|]. split; [exact C|].
  intros q. rewrite D. split; intros (x & y & X & Y & N); exists x, y; (split; [exact X|]); (split; [exact Y|]); apply sgn_neq; exact N.
Qed.
Print Assumptions C41_rectified.
(* consequence: contiguous *)
Theorem C41_contiguous : forall data out,
  (exists pct, select_good_data data pct = Ok out) \/ average_rectified_sections data = Ok out ->
  exists pre post, data = (pre ++ out ++ post)%list.
Proof.
  assert (G : forall (data : list R) a b, exists pre post, data = (pre ++ slice data a b ++ post)%list).
  { intros data a b. exists (firstn a data), (skipn (b - a) (skipn a data)). unfold slice. rewrite firstn_skipn, firstn_skipn. reflexivity. }
  intros data out [[pct H]|H].
  - unfold select_good_data in H. apply bind_ok in H as [[i v] [_ H]]. destruct (last_index _ _); [|discriminate]. injection H as <-. apply G.
  - unfold average_rectified_sections in H. apply bind_ok in H as [loc [_ H]]. apply bind_ok in H as [[i v] [_ H]]. apply bind_ok in H as [[j w] [_ H]].
    injection H as <-. apply G.
Qed.
Print Assumptions C41_contiguous.

(* ================= C42 ================= *)
Definition sq_dev (m : R) (l : list R) : R := fold_right (fun y a => (y - m) * (y - m) + a) 0 l.
Lemma sq_dev_eq m l : rsum (map (fun y => Rsqr (y - m)) l) = sq_dev m l.
Proof. induction l as [|x l IH]; [reflexivity|]. cbn [map sq_dev fold_right]. rewrite rsum_cons, IH. reflexivity. Qed.
(* The four numbers: sums of squares about the mean of the measurements. *)
Theorem C42_values : forall ym yp rsq SSE SST SSR,
  fit_goodness ym yp = Ok (rsq, SSE, SST, SSR) <->
  SST = sq_dev (average ym) ym /\ SSR = sq_dev (average ym) yp /\ SST = SSE + SSR /\ SST <> 0 /\ rsq * SST = SSR.
Proof.
  intros ym yp rsq SSE SST SSR. unfold fit_goodness. rewrite !sq_dev_eq. change (mean ym) with (average ym).
  set (T := sq_dev (average ym) ym). set (Q := sq_dev (average ym) yp). split.
  - intros H. apply bind_ok in H as [r [H E]]. injection E as <- <- <- <-. apply rdiv_ok in H as [N ->].
    repeat split; try lra; try exact N. field. exact N.
  - intros [-> [-> [H1 [H2 H3]]]]. unfold rdiv. destruct (Req_EM_T T 0); [contradiction|]. cbn [bind].
    assert (E1 : rsq = Q / T) by (rewrite <- H3; field; exact H2). rewrite <- E1. do 3 f_equal. f_equal. lra.
Qed.
Print Assumptions C42_values.
(* A perfect fit of data that are not constant. *)
Theorem C42_perfect : forall ym, sq_dev (average ym) ym <> 0 ->
  fit_goodness ym ym = Ok (1, 0, sq_dev (average ym) ym, sq_dev (average ym) ym).
Proof. intros ym H. apply C42_values. repeat split; auto; lra. Qed.
Print Assumptions C42_perfect.
Lemma sq_dev_zero m l : sq_dev m l = 0 -> forall y, In y l -> y = m.
Proof.
  assert (P : forall l, 0 <= sq_dev m l) by (intros l0; induction l0 as [|a l0 IH0]; cbn; [lra|]; fold (sq_dev m l0); pose proof (Rle_0_sqr (a - m)); unfold Rsqr in *; lra).
  induction l as [|x l IH]; intros H y Hy; [destruct Hy|]. cbn in H. fold (sq_dev m l) in H. pose proof (P l). pose proof (Rle_0_sqr (x - m)). unfold Rsqr in *.
  destruct Hy as [<-|Hy]; [|apply IH; [lra|exact Hy]]. assert (K : (x - m) * (x - m) = 0) by lra.
  apply Rmult_integral in K. lra.
Qed.
Lemma sq_dev_const m l : (forall y, In y l -> y = m) -> sq_dev m l = 0.
Proof. induction l as [|x l IH]; intros H; [reflexivity|]. cbn. fold (sq_dev m l). rewrite (H x (or_introl eq_refl)), IH by (intros; apply H; right; assumption). ring. Qed.
(* It is undefined (a division by zero) iff the measurements are all equal. *)
Theorem C42_undefined : forall ym yp, (exists e, fit_goodness ym yp = Err e) <-> forall y, In y ym -> y = average ym.
Proof.
  intros ym yp. unfold fit_goodness. rewrite !sq_dev_eq. change (mean ym) with (average ym). split.
  - intros [e H]. unfold rdiv in H. destruct (Req_EM_T (sq_dev (average ym) ym) 0) as [E|E]; [|discriminate]. apply sq_dev_zero, E.
  - intros H. rewrite (sq_dev_const _ _ H). unfold rdiv. destruct (Req_EM_T 0 0); [|congruence]. eexists. reflexivity.
Qed.
Print Assumptions C42_undefined.
Definition residuals (ym yp : list R) : list R := map (fun q => fst q - snd q) (combine ym yp).
Definition dot (a b : list R) : R := fold_right Rplus 0 (map (fun q => fst q * snd q) (combine a b)).
Definition total (l : list R) : R := fold_right Rplus 0 l.
Lemma dot_resid_yp ym yp : length ym = length yp ->
  dot (residuals ym yp) yp = rsum (map (fun q => (fst q - snd q) * snd q) (combine ym yp)).
Proof.
  revert yp. induction ym as [|a ym IH]; intros [|b yp] H; try discriminate; [reflexivity|]. cbn [combine map residuals]. unfold dot in *. cbn [combine map fold_right fst snd].
  rewrite rsum_cons. cbn in H. rewrite <- IH by lia. reflexivity.
Qed.
Lemma dot_resid_self ym yp : dot (residuals ym yp) (residuals ym yp) = rsum (map (fun q => Rsqr (fst q - snd q)) (combine ym yp)).
Proof.
  unfold dot, residuals. induction (combine ym yp) as [|q l IH]; [reflexivity|]. cbn [combine map fold_right fst snd]. rewrite rsum_cons, IH. reflexivity.
Qed.
(* Least squares: if the residuals sum to zero and are orthogonal to the
   prediction (normal equations of a model with an offset, linearised at the fit),
   SSE is the sum of the squared residuals and 0 <= rsq <= 1. *)
Theorem C42_least_squares : forall ym yp rsq SSE SST SSR, length ym = length yp ->
  total (residuals ym yp) = 0 -> dot (residuals ym yp) yp = 0 ->
  fit_goodness ym yp = Ok (rsq, SSE, SST, SSR) ->
  SSE = dot (residuals ym yp) (residuals ym yp) /\ 0 <= rsq <= 1.
Proof.
  intros ym yp rsq SSE SST SSR L N1 N2 H. apply C42_values in H as [E1 [E2 [E3 [E4 E5]]]].
  pose proof (sums_identity ym yp (average ym) L) as I. rewrite !sq_dev_eq, <- E1, <- E2, <- dot_resid_self, <- dot_resid_yp in I by exact L.
  change (rsum (map (fun q => fst q - snd q) (combine ym yp))) with (total (residuals ym yp)) in I. rewrite N1, N2 in I.
  assert (S1 : SSE = dot (residuals ym yp) (residuals ym yp)) by lra. split; [exact S1|].
  assert (P1 : 0 <= SSE) by (rewrite S1, dot_resid_self; apply rsum_nonneg; intros; apply Rle_0_sqr).
  assert (P2 : 0 <= SSR) by (rewrite E2, <- sq_dev_eq; apply rsum_nonneg; intros; apply Rle_0_sqr).
  assert (P3 : 0 < SST) by lra. assert (rsq = SSR / SST) by (rewrite <- E5; field; lra). subst rsq. split.
  - apply Rmult_le_pos; [exact P2|]. left. apply Rinv_0_lt_compat, P3.
  - apply (Rmult_le_reg_r SST); [exact P3|]. rewrite E5. lra.
Qed.
Print Assumptions C42_least_squares.
Example C42_least_squares_example : length [0; 1; 5] = length [-1/2; 2; 9/2] /\ total (residuals [0; 1; 5] [-1/2; 2; 9/2]) = 0
  /\ dot (residuals [0; 1; 5] [-1/2; 2; 9/2]) [-1/2; 2; 9/2] = 0 /\ exists q, fit_goodness [0; 1; 5] [-1/2; 2; 9/2] = Ok q.
Proof.
  split; [reflexivity|]. split; [unfold total, residuals; cbn; lra|]. split; [unfold dot, residuals; cbn; lra|].
  exists (25/28, 3/2, 14, 25/2). apply C42_values. unfold sq_dev, average. cbn. repeat split; try field; try reflexivity; lra.
Qed.
(* Without the normal equations SSE is not the sum of squared residuals: it can
   be negative and rsq above 1 (refuted part: "error sum of squares"). *)
Theorem C42_SSE_can_be_negative : exists ym yp rsq SSE SST SSR,
  fit_goodness ym yp = Ok (rsq, SSE, SST, SSR) /\ SSE < 0 /\ 1 < rsq.
Proof.
  exists [0; 2], [-1; 3], 4, (-6), 2, 8. split; [|lra]. apply C42_values. unfold sq_dev, average. cbn. repeat split; try field; lra.
Qed.
Print Assumptions C42_SSE_can_be_negative.
