(* TPeriod2.v -- property C67: reading measurement files and estimating periods *)
From Verif Require Import Base MString MIo SIo MPeriod SPeriod MPeriod2 SPeriod2 PBase PString PIo PIo3 PPeriod PPeriod2 PPeriod3 PPeriod4 PPeriod5 PPeriod6 TPeriod.
From Coq Require Import ZArith Lra Lia Sorted.
Local Open Scope string_scope.
Local Open Scope R_scope.

(* A measurement file is usable iff it carries MATLAB's three housekeeping entries and
   notes that are a text or an array; these are removed, empty notes become the empty
   text, and a file with a time record loses sample rate and duration.  All other entries
   are unchanged. *)
Theorem C67_reading : forall raw, NoDup (dkeys raw) ->
  ((exists out, clean_mat raw = Ok out) <->
   (forall k, In k ["__globals__"; "__header__"; "__version__"] -> exists v, dget raw k = Some v)
   /\ exists v, dget raw "notes" = Some v /\ match v with MvText _ | MvArr _ | MvGrid => True | _ => False end)
  /\ forall out, clean_mat raw = Ok out -> NoDup (dkeys out) /\ forall k, dget out k = kept_entry raw k.
Proof.
  intros raw N. split; [|intros out; apply clean_mat_get, N]. rewrite clean_mat_ok by exact N.
  assert (E : forall k, dmem raw k = true <-> exists v, dget raw k = Some v) by (intros k; unfold dmem; destruct (dget raw k); split; intros H; eauto; try discriminate; destruct H; discriminate).
  split; intros [A B]; (split; [|exact B]); intros k Hk; apply E, A, Hk.
Qed.
Print Assumptions C67_reading.
(* the first missing housekeeping entry is the one reported *)
Theorem C67_reading_missing : forall raw k, NoDup (dkeys raw) ->
  (clean_mat raw = Err (KeyError k) <->
   dget raw k = None /\
   exists before after, ["__globals__"; "__header__"; "__version__"; "notes"] = (before ++ k :: after)%list
     /\ forall q, In q before -> dget raw q <> None).
Proof.
  intros raw k N. pose proof (ddel_nodup raw "__globals__" N) as N1. pose proof (ddel_nodup _ "__header__" N1) as N2. pose proof (ddel_nodup _ "__version__" N2) as N3.
  unfold clean_mat, ddel_key, dlook.
  assert (INV : forall before after q l, (q :: l)%list = (before ++ k :: after)%list -> (before = [] /\ k = q /\ after = l) \/ exists b, before = q :: b /\ l = (b ++ k :: after)%list).
  { intros [|a b] af q l E; cbn in E; injection E as E1 E2; [left; auto|right; exists b; subst; auto]. }
  destruct (dget raw "__globals__") as [g|] eqn:G; cbn [bind].
  2: { split; [intros H; injection H as <-; split; [exact G|]; exists [], ["__header__"; "__version__"; "notes"]; split; [reflexivity|intros q []]|].
       intros [K [b [a [E Q]]]]. apply INV in E as [[_ [-> _]]|[b' [-> _]]]; [reflexivity|]. exfalso. apply (Q "__globals__"); [left; reflexivity|exact G]. }
  rewrite dget_ddel by exact N. cbn [String.eqb Ascii.eqb Bool.eqb].
  destruct (dget raw "__header__") as [h|] eqn:H; cbn [bind].
  2: { split; [intros J; injection J as <-; split; [exact H|]; exists ["__globals__"], ["__version__"; "notes"]; split; [reflexivity|intros q [<-|[]]; congruence]|].
       intros [K [b [a [E Q]]]]. apply INV in E as [[_ [-> _]]|[b' [-> E]]]; [congruence|]. apply INV in E as [[_ [-> _]]|[b'' [-> _]]]; [reflexivity|]. exfalso. apply (Q "__header__"); [right; left; reflexivity|exact H]. }
  rewrite !dget_ddel by assumption. cbn [String.eqb Ascii.eqb Bool.eqb].
  destruct (dget raw "__version__") as [v|] eqn:V; cbn [bind].
  2: { split; [intros J; injection J as <-; split; [exact V|]; exists ["__globals__"; "__header__"], ["notes"]; split; [reflexivity|intros q [<-|[<-|[]]]; congruence]|].
       intros [K [b [a [E Q]]]]. apply INV in E as [[_ [-> _]]|[b' [-> E]]]; [congruence|]. apply INV in E as [[_ [-> _]]|[b'' [-> E]]]; [congruence|]. apply INV in E as [[_ [-> _]]|[b3 [-> E]]]; [reflexivity|]. exfalso. apply (Q "__version__"); [right; right; left; reflexivity|exact V]. }
  rewrite !dget_ddel by assumption. cbn [String.eqb Ascii.eqb Bool.eqb].
  destruct (dget raw "notes") as [n|] eqn:M; cbn [bind].
  2: { split; [intros J; injection J as <-; split; [exact M|]; exists ["__globals__"; "__header__"; "__version__"], []; split; [reflexivity|intros q [<-|[<-|[<-|[]]]]; congruence]|].
       intros [K [b [a [E Q]]]]. apply INV in E as [[_ [-> _]]|[b' [-> E]]]; [congruence|]. apply INV in E as [[_ [-> _]]|[b'' [-> E]]]; [congruence|]. apply INV in E as [[_ [-> _]]|[b3 [-> E]]]; [congruence|]. apply INV in E as [[_ [-> _]]|[b4 [-> E]]]; [reflexivity|]. destruct b4; discriminate E. }
  split.
  - destruct n as [| | |[|]| |]; cbn; intros J; discriminate.
  - intros [K [b [a [E Q]]]]. exfalso. apply INV in E as [[_ [-> _]]|[b' [-> E]]]; [congruence|]. apply INV in E as [[_ [-> _]]|[b'' [-> E]]]; [congruence|]. apply INV in E as [[_ [-> _]]|[b3 [-> E]]]; [congruence|]. apply INV in E as [[_ [-> _]]|[b4 [-> E]]]; [congruence|]. destruct b4; discriminate E.
Qed.
Print Assumptions C67_reading_missing.
Definition raw1 : dict matv :=
  [("__globals__", MvOther); ("__header__", MvText "MATLAB"); ("__version__", MvText "1.0"); ("notes", MvArr []);
   ("part", MvText "Fork"); ("pendulum", MvText "Torsional"); ("angleOrder", MvText "Second"); ("sampleRate", MvInt 200); ("duration", MvInt 30);
   ("data", MvArr [1; 2])].
Example C67_reading_example : NoDup (dkeys raw1) /\
  clean_mat raw1 = Ok [("notes", MvText ""); ("part", MvText "Fork"); ("pendulum", MvText "Torsional"); ("angleOrder", MvText "Second"); ("sampleRate", MvInt 200); ("duration", MvInt 30); ("data", MvArr [1; 2])]
  /\ clean_mat (("time", MvArr [0; 1]) :: raw1) = Ok [("time", MvArr [0; 1]); ("notes", MvText ""); ("part", MvText "Fork"); ("pendulum", MvText "Torsional"); ("angleOrder", MvText "Second"); ("data", MvArr [1; 2])].
Proof. split; [|split; reflexivity]. cbn. repeat (constructor; [cbn; intuition discriminate|]). constructor. Qed.
(* the texts get_period_key sees are the text entries of the file *)
Theorem C67_texts : forall raw out k s, NoDup (dkeys raw) -> clean_mat raw = Ok out ->
  (dget (texts out) k = Some s <-> kept_entry raw k = Some (MvText s)).
Proof. intros raw out k s N H. destruct (clean_mat_get raw out N H) as [N' G]. rewrite texts_get by exact N'. rewrite G. reflexivity. Qed.
Print Assumptions C67_texts.

(* ---- the starting point ---- *)
(* make_guess: offset = mean of the record, amplitudes = +-half and +-once the largest
   deviation with the sign of the initial slope, damping 1/1000, frequency from the mean
   distance of the spaced crossings (one per half period), or 4 if there are not two. *)
Theorem C67_guess : forall honours data rate p, make_guess honours data rate = Ok p <-> first_guess honours data rate p.
Proof. exact make_guess_iff. Qed.
Print Assumptions C67_guess.
(* it fails exactly for records of fewer than eleven samples *)
Theorem C67_guess_short : forall honours data rate,
  (make_guess honours data rate = Err IndexError <-> (length data < 11)%nat)
  /\ ((exists p, make_guess honours data rate = Ok p) <-> (11 <= length data)%nat).
Proof.
  intros h data rate. split; [symmetry; apply make_guess_short|]. split.
  - intros [p H]. destruct (Nat.le_gt_cases 11 (length data)) as [L|L]; [exact L|]. apply (make_guess_short h data rate) in L. congruence.
  - intros L. unfold make_guess. destruct (nth_error (map (fun x => x - mean data) data) 10) as [x|] eqn:E; [|apply nth_error_None in E; rewrite map_length in E; lia].
    cbn [bind]. destruct (argmax_ok (map (fun x => x - mean data) data)) as [[i m] M]; [destruct data; [cbn in L; lia|discriminate]|]. rewrite M. eexists. reflexivity.
Qed.
Print Assumptions C67_guess_short.
(* For a positive rate the guessed frequency is 4 or lies between half a turn per record
   and half a turn per 21 samples. *)
Theorem C67_guess_bounds : forall honours data rate p0 p1 p2 p3 w, 0 < rate -> make_guess honours data rate = Ok [p0; p1; p2; p3; w] ->
  w = 4 \/ PI * rate / INR (length data) < w <= PI * rate / 21.
Proof.
  intros h data rate p0 p1 p2 p3 w R0 H. apply make_guess_iff in H as [zc [zs [m [s [w' [A [B [C [D [F E]]]]]]]]]]. assert (w' = w) by congruence. subst w'. clear E.
  destruct F as [|a b L R' Ha Hb|]; [left; reflexivity| |lra]. right. pose proof (spaced_extent zs (spaced_gap zc zs (proj1 A) B) a b Ha Hb) as X.
  assert (IB : (S b < length data)%nat).
  { apply nth_error_In in Hb. apply B in Hb as [j [Hb _]]. apply nth_error_In in Hb. apply A in Hb as [x [y [_ [Y _]]]]. assert (K : (S b < length (deviations data))%nat) by (apply nth_error_Some; congruence). unfold deviations in K. rewrite map_length in K. exact K. }
  apply le_INR in X. rewrite plus_INR, mult_INR, minus_INR in X by lia. cbn [INR] in X. apply lt_INR in IB. rewrite S_INR in IB. pose proof (INR_gt1 _ L) as P. pose proof (pos_INR a). pose proof PI_RGT_0.
  assert (LEN : 0 < INR (length data)) by lra. assert (PR : 0 < PI * rate) by (apply Rmult_lt_0_compat; assumption). set (n1 := INR (length zs) - 1) in *. set (g := INR b - INR a).
  assert (G0 : 21 * n1 <= g) by (unfold g; replace (1 + 1 + 1 + 1 + 1 + 1 + 1 + 1 + 1 + 1 + 1 + 1 + 1 + 1 + 1 + 1 + 1 + 1 + 1 + 1 + 1) with 21 in X by ring; change 1 with (INR 1) in n1; lra).
  assert (N1 : 1 <= n1) by (unfold n1; apply le_INR in L; cbn in L; lra). assert (GL : g < INR (length data)) by (unfold g; lra). clearbody n1 g. split.
  - apply (Rmult_lt_reg_r (INR (length data) * g)); [apply Rmult_lt_0_compat; lra|]. replace (PI * rate / INR (length data) * (INR (length data) * g)) with (PI * rate * g) by (field; lra).
    replace (PI * rate * n1 / g * (INR (length data) * g)) with (PI * rate * (n1 * INR (length data))) by (field; lra). apply Rmult_lt_compat_l; [exact PR|]. apply Rlt_le_trans with (1 * INR (length data)); [lra|]. apply Rmult_le_compat_r; lra.
  - apply (Rmult_le_reg_r (21 * g)); [lra|]. replace (PI * rate * n1 / g * (21 * g)) with (PI * rate * (21 * n1)) by (field; lra). replace (PI * rate / 21 * (21 * g)) with (PI * rate * g) by field. apply Rmult_le_compat_l; lra.
Qed.
Print Assumptions C67_guess_bounds.
(* A shift of the record changes the offset only. *)
Theorem C67_guess_shift : forall honours data rate d p0 rest, make_guess honours data rate = Ok (p0 :: rest) ->
  make_guess honours (map (fun x => x + d) data) rate = Ok (p0 + d :: rest).
Proof.
  intros h data rate d p0 rest H. apply make_guess_iff in H as [zc [zs [m [s [w [A [B [C [D [F E]]]]]]]]]].
  assert (NE : data <> []) by (intros ->; destruct D as [a [b [D _]]]; discriminate).
  assert (AV : average (map (fun x => x + d) data) = average data + d).
  { unfold average. rewrite map_length. assert (L : INR (length data) <> 0) by (apply not_0_INR; destruct data; [congruence|discriminate]).
    assert (S : fold_right Rplus 0 (map (fun x => x + d) data) = fold_right Rplus 0 data + INR (length data) * d).
    { clear. induction data as [|x l IH]; [cbn; lra|]. cbn [map fold_right]. change (length (x :: l)) with (S (length l)). rewrite IH, S_INR. lra. }
    rewrite S. field. exact L. }
  assert (DV : deviations (map (fun x => x + d) data) = deviations data).
  { unfold deviations. rewrite AV, map_map. apply map_ext. intros x. lra. }
  apply make_guess_iff. exists zc, zs, m, s, w. rewrite DV, AV. repeat (split; [assumption|]). injection E as -> ->. reflexivity.
Qed.
Print Assumptions C67_guess_shift.
Example C67_guess_example : exists p, make_guess true (repeat 1 6 ++ repeat (-1) 6)%list 10 = Ok p.
Proof. apply (proj2 (C67_guess_short true _ 10)). cbn. lia. Qed.

(* ---- the times of the samples ---- *)
(* An integer sample rate gives the times 0, 1/rate, 2/rate ...; an array of times is used
   as it is, with the whole number of samples per unit of time as the rate. *)
Theorem C67_times : forall n rt x rate, times_and_rate n rt = Ok (x, rate) <-> sample_times n rt x rate.
Proof. exact times_iff. Qed.
Print Assumptions C67_times.
Example C67_times_example : sample_times 3 (MvInt 2) [0; 1 / 2; 1] 2 /\ sample_times 3 (MvArr [0; 1; 3]) [0; 1; 3] 0.
Proof.
  split.
  - replace [0; 1 / 2; 1] with (map (fun i => INR i / 2) (seq 0 3)) by (cbn; repeat (f_equal; try lra)). apply st_rate. discriminate.
  - apply st_times; [cbn; lia|cbn; lra|]. cbv zeta. exists 0%Z. cbn. split; [reflexivity|]. rewrite Rabs_R0. split; [rewrite Rabs_right; lra|]. split; [apply Rabs_pos|lra].
Qed.

Section Estimate.
  Variable leastsq : (list R -> list R) -> list R -> res (list R).
  Variable inv : list (list R) -> res (list (list R)).
  Variable honours : bool.
  (* contract of scipy.optimize.leastsq: as many parameters as in the starting point; the
     function is only asked for vectors of that many entries *)
  Definition fits_vectors : Prop :=
    (forall f p0 p1, leastsq f p0 = Ok p1 -> length p1 = length p0) /\
    (forall f g p0, (forall p, length p = length p0 -> f p = g p) -> leastsq f p0 = leastsq g p0).

  (* a fractional sample rate is not usable *)
  Theorem C67_fractional_rate : forall data r, exists msg, get_period leastsq inv honours data (MvFloat r) = Err (ValueError msg).
  Proof. intros. eexists. reflexivity. Qed.

  (* The estimate: fit of the damped oscillation to the whole record, the damped period of
     the fitted frequency and damping ratio, and their uncertainties (standard deviation
     times the diagonal of the inverse normal matrix) propagated to first order. *)
  Theorem C67_estimate : fits_vectors -> forall data rt T sd,
    get_period leastsq inv honours data rt = Ok (T, sd) <-> period_estimate leastsq inv honours data rt T sd.
  Proof. intros [L E] data rt T sd. apply get_period_iff; assumption. Qed.

  (* an exact fit has no uncertainty *)
  Theorem C67_exact_fit : fits_vectors -> forall x rate rt a b c z w p0 H,
    let p := [a; b; c; z; w] in let data := map (oscillation p) x in
    sample_times (length data) rt x rate -> make_guess honours data rate = Ok p0 -> z * z < 1 -> w <> 0 -> ~ (forall y, In y data -> y = average data) ->
    leastsq (misfits x data) p0 = Ok p -> inv (gram (jac_fitfunc p x)) = Ok H ->
    get_period leastsq inv honours data rt = Ok (2 * PI / (w * sqrt (1 - z * z)), 0).
  Proof.
    intros LS x rate rt a b c z w p0 H p data A1 A2 A3 A4 A5 A6 A7. apply (C67_estimate LS). apply make_guess_iff in A2.
    assert (V : fit_variance x data p = 0). { unfold fit_variance. fold data. unfold Rdiv. ring. }
    destruct (proj1 (gram_is _ a b c z w x A3) eq_refl) as [G1 [G2 G3]].
    assert (Z0 : sqrt ((damped_period w z / w) ^ 2 * (fit_variance x data p * nth 4 (nth 4 H []) 0) + (damped_period w z * z / (1 - z * z)) ^ 2 * (fit_variance x data p * nth 3 (nth 3 H []) 0)) = 0)
      by (rewrite V, !Rmult_0_l, !Rmult_0_r, Rplus_0_l; apply sqrt_0).
    rewrite <- Z0. change (2 * PI / (w * sqrt (1 - z * z))) with (damped_period w z).
    eapply period_estimate_intro with (x := x) (rate := rate) (p0 := p0) (a := a) (b := b) (c := c) (H := H) (G := gram (jac_fitfunc p x)); try eassumption; try reflexivity; fold p; try (rewrite V; lra).
    unfold data. rewrite map_length. reflexivity.
  Qed.
  (* only two diagonal entries of the inverse enter: correlation between frequency and
     damping ratio is ignored *)
  Theorem C67_correlation_ignored : forall inv' data rt,
    (forall G, match inv G, inv' G with
               | Ok H, Ok H' => nth 4 (nth 4 H []) 0 = nth 4 (nth 4 H' []) 0 /\ nth 3 (nth 3 H []) 0 = nth 3 (nth 3 H' []) 0
               | Err e, Err e' => e = e' | _, _ => False end) ->
    get_period leastsq inv honours data rt = get_period leastsq inv' honours data rt.
  Proof.
    intros inv' data rt E. unfold get_period.
    destruct (times_and_rate (length data) rt) as [[x rate]|]; [cbn [bind]|reflexivity].
    destruct (make_guess honours data rate) as [p0|]; [cbn [bind]|reflexivity].
    destruct (if (length x =? length data)%nat then _ else _) as [p1|]; [cbn [bind]|reflexivity].
    destruct (if Rltb 0 (1 - par p1 3 ^ 2) then Ok tt else Err (OtherError "nan")) as [?|]; [cbn [bind]|reflexivity].
    cbv zeta. destruct (fit_goodness data (map (fitfunc p1) x)) as [[[[rsq SSE] SST] SSR]|]; [cbn [bind]|reflexivity].
    destruct (root (SSE / _)) as [sg|]; [cbn [bind]|reflexivity].
    specialize (E (gram (jac_fitfunc p1 x))). destruct (inv _) as [H|e], (inv' _) as [H'|e']; try contradiction; [|subst; reflexivity]. cbn [bind]. destruct E as [-> ->]. reflexivity.
  Qed.

  (* ---- files ---- *)
  (* a record of times: the whole record with these times *)
  Theorem C67_file_time : forall mat l d, dget mat "time" = Some (MvArr l) -> dget mat "data" = Some (MvArr d) ->
    file_period leastsq inv honours mat = get_period leastsq inv honours d (MvArr l).
  Proof. intros mat l d T D. unfold file_period, data_entry, dlook. rewrite T, D. reflexivity. Qed.
  (* otherwise the sample rate, ActualRate before sampleRate, and the record cut at a tenth
     of its largest deviation *)
  Theorem C67_file_rate : forall mat z d, dget mat "time" = None -> dget mat "data" = Some (MvArr d) ->
    dget mat "ActualRate" = Some (MvInt z) \/ (dget mat "ActualRate" = None /\ dget mat "sampleRate" = Some (MvInt z)) ->
    (forall good, select_good_data d (1 / 10) = Ok good -> file_period leastsq inv honours mat = get_period leastsq inv honours good (MvInt z))
    /\ (forall e, select_good_data d (1 / 10) = Err e -> file_period leastsq inv honours mat = Err e).
  Proof.
    intros mat z d T D S.
    assert (E : get_sample_rate mat = Ok (MvInt z)) by (unfold get_sample_rate, dmem, dlook; destruct S as [S|[S S']]; rewrite ?S, ?S'; reflexivity).
    unfold file_period, data_entry, dlook. rewrite T, D, E. unfold get_period_from_truncated. cbn [bind]. split; intros g G; rewrite G; reflexivity.
  Qed.
  (* All files: the result exists iff every file is readable, has a name and an estimate;
     every name then maps to the mean of the estimates of its files. *)
  Theorem C67_all_files : forall split raw d, calc_periods_for_mat leastsq inv honours split raw = Ok d <->
    exists cs, Forall2 (fun r c => clean_mat r = Ok c) raw cs
      /\ calc_periods_for_files split (map (fun c => (texts c, file_period leastsq inv honours c)) cs) = Ok d.
  Proof.
    intros split raw d. unfold calc_periods_for_mat. split.
    - intros H. apply bind_ok in H as [cs [H1 H]]. exists cs. split; [apply mapM_ok, H1|exact H].
    - intros [cs [H1 H]]. assert (E : mapM clean_mat raw = Ok cs) by (apply mapM_intro; exact H1). rewrite E. exact H.
  Qed.
  Theorem C67_all_files_mean : forall split raw d, calc_periods_for_mat leastsq inv honours split raw = Ok d ->
    exists cs, Forall2 (fun r c => clean_mat r = Ok c) raw cs
      /\ (forall c, In c cs -> (exists k, period_key (texts c) split k) /\ exists p, file_period leastsq inv honours c = Ok p)
      /\ forall k, exists l, trials split k (map (fun c => (texts c, file_period leastsq inv honours c)) cs) l /\
         dget d k = match l with [] => None | _ => Some (PerMean (PU (fst (mean_of_trials l)) (snd (mean_of_trials l)))) end.
  Proof.
    intros split raw d H. apply C67_all_files in H as [cs [H1 H]]. exists cs. split; [exact H1|]. destruct (C39_averages split (map (fun c => (texts c, file_period leastsq inv honours c)) cs)) as [X Y]. split.
    - intros c Hc. pose proof (proj1 X (ex_intro _ d H)) as F. rewrite Forall_forall in F. apply (F (texts c, file_period leastsq inv honours c)). apply in_map_iff. exists c. auto.
    - intros k. destruct (Y d H) as [_ G]. apply G.
  Qed.
End Estimate.
Print Assumptions C67_fractional_rate.
Print Assumptions C67_estimate.
Print Assumptions C67_exact_fit.
Print Assumptions C67_correlation_ignored.
Print Assumptions C67_file_time.
Print Assumptions C67_file_rate.
Print Assumptions C67_all_files.
Print Assumptions C67_all_files_mean.

(* the two factors of the propagation are the derivatives of the period *)
Theorem C67_propagation : forall w z, z * z < 1 -> w <> 0 ->
  derivable_pt_lim (fun v => 2 * PI / (v * sqrt (1 - z * z))) w (- (damped_period w z / w))
  /\ derivable_pt_lim (fun u => 2 * PI / (w * sqrt (1 - u * u))) z (damped_period w z * z / (1 - z * z)).
Proof.
  intros w z Z W. set (q := sqrt (1 - z * z)). assert (Q : q * q = 1 - z * z) by (apply sqrt_sqrt; lra). assert (Q0 : 0 < q) by (apply sqrt_lt_R0; lra).
  unfold damped_period. fold q. split.
  - assert (D : derivable_pt_lim ((fct_cte (2 * PI)) / (mult_real_fct q id))%F w ((0 * (q * w) - (q * 1) * (2 * PI)) / Rsqr (q * w))).
    { refine (derivable_pt_lim_div (fct_cte (2 * PI)) (mult_real_fct q id) w 0 (q * 1) _ _ _); [apply derivable_pt_lim_const|apply derivable_pt_lim_scal, derivable_pt_lim_id|]. unfold mult_real_fct, id. apply Rmult_integral_contrapositive. split; lra. }
    replace (- (2 * PI / (w * q) / w)) with ((0 * (q * w) - (q * 1) * (2 * PI)) / Rsqr (q * w)) by (unfold Rsqr; field; lra).
    intros eps He. destruct (D eps He) as [delta K]. exists delta. intros h H1 H2. specialize (K h H1 H2). unfold div_fct, fct_cte, mult_real_fct, id in K.
    rewrite (Rmult_comm (w + h) q), (Rmult_comm w q). exact K.
  - assert (D1 : derivable_pt_lim (fct_cte 1 - (id * id))%F z (0 - (1 * z + z * 1))).
    { apply derivable_pt_lim_minus; [apply derivable_pt_lim_const|]. apply (derivable_pt_lim_mult id id z 1 1); apply derivable_pt_lim_id. }
    assert (D2 : derivable_pt_lim (comp sqrt (fct_cte 1 - (id * id))%F) z (/ (2 * sqrt (1 - z * z)) * (0 - (1 * z + z * 1)))).
    { apply derivable_pt_lim_comp; [exact D1|]. apply derivable_pt_lim_sqrt. unfold minus_fct, fct_cte, mult_fct, id. lra. }
    fold q in D2.
    assert (D : derivable_pt_lim ((fct_cte (2 * PI)) / (mult_real_fct w (comp sqrt (fct_cte 1 - (id * id))%F)))%F z ((0 * (w * q) - (w * (/ (2 * q) * (0 - (1 * z + z * 1)))) * (2 * PI)) / Rsqr (w * q))).
    { refine (derivable_pt_lim_div (fct_cte (2 * PI)) (mult_real_fct w (comp sqrt (fct_cte 1 - (id * id))%F)) z 0 (w * (/ (2 * q) * (0 - (1 * z + z * 1)))) _ _ _); [apply derivable_pt_lim_const|apply derivable_pt_lim_scal, D2|]. unfold mult_real_fct, comp, minus_fct, fct_cte, mult_fct, id. fold q. apply Rmult_integral_contrapositive. split; lra. }
    replace (2 * PI / (w * q) * z / (1 - z * z)) with ((0 * (w * q) - (w * (/ (2 * q) * (0 - (1 * z + z * 1)))) * (2 * PI)) / Rsqr (w * q)) by (rewrite <- Q; unfold Rsqr; field; lra).
    exact D.
Qed.
Print Assumptions C67_propagation.

Lemma sum_squares_deriv {A} (l : list A) (g : R -> A -> R) (g' : A -> R) v0 : (forall y, In y l -> derivable_pt_lim (fun v => g v y) v0 (g' y)) ->
  derivable_pt_lim (fun v => fold_right (fun e a => e * e + a) 0 (map (g v) l)) v0 (2 * fold_right Rplus 0 (map (fun y => g v0 y * g' y) l)).
Proof.
  induction l as [|y l IH]; intros H.
  - cbn. rewrite Rmult_0_r. apply derivable_pt_lim_const.
  - specialize (IH (fun q Hq => H q (or_intror Hq))). pose proof (H y (or_introl eq_refl)) as Hy. cbn [map fold_right].
    replace (2 * (g v0 y * g' y + fold_right Rplus 0 (map (fun y => g v0 y * g' y) l))) with ((g' y * g v0 y + g v0 y * g' y) + 2 * fold_right Rplus 0 (map (fun y => g v0 y * g' y) l)) by ring.
    exact (derivable_pt_lim_plus ((fun v => g v y) * (fun v => g v y))%F _ v0 _ _ (derivable_pt_lim_mult _ _ v0 _ _ Hy Hy) IH).
Qed.
Lemma misfit_deriv a b c z w i ty : z * z < 1 -> (i < 5)%nat -> let p := [a; b; c; z; w] in
  derivable_pt_lim (fun v => oscillation (firstn i p ++ v :: skipn (S i) p) (fst ty) - snd ty) (nth i p 0) (nth i (jac_row p (fst ty)) 0).
Proof.
  intros Z I p. replace (nth i (jac_row p (fst ty)) 0) with (nth i (jac_row p (fst ty)) 0 - 0) by ring.
  exact (derivable_pt_lim_minus _ (fct_cte (snd ty)) _ _ _ (jac_row_deriv a b c z w i (fst ty) Z I) (derivable_pt_lim_const _ _)).
Qed.
(* If the fitted parameters are a stationary point of the squared error with respect to
   offset and amplitudes (as a minimum is), the variance is the mean squared error per
   degree of freedom. *)
Theorem C67_variance : forall x data a b c z w, length x = length data -> (5 < length data)%nat -> z * z < 1 ->
  derivable_pt_lim (fun v => squared_error x data [v; b; c; z; w]) a 0 ->
  derivable_pt_lim (fun v => squared_error x data [a; v; c; z; w]) b 0 ->
  derivable_pt_lim (fun v => squared_error x data [a; b; v; z; w]) c 0 ->
  fit_variance x data [a; b; c; z; w] = squared_error x data [a; b; c; z; w] / (INR (length data) - 5)
  /\ 0 <= fit_variance x data [a; b; c; z; w].
Proof.
  intros x data a b c z w L N Z Da Db Dc. set (p := [a; b; c; z; w]) in *.
  assert (ST : forall i, (i < 3)%nat -> derivable_pt_lim (fun v => squared_error x data (firstn i p ++ v :: skipn (S i) p)) (nth i p 0) 0 ->
             fold_right Rplus 0 (map (fun ty => (oscillation p (fst ty) - snd ty) * nth i (jac_row p (fst ty)) 0) (combine x data)) = 0).
  { intros i I D. pose proof (sum_squares_deriv (combine x data) (fun v ty => oscillation (firstn i p ++ v :: skipn (S i) p) (fst ty) - snd ty) (fun ty => nth i (jac_row p (fst ty)) 0) (nth i p 0)
      (fun ty _ => misfit_deriv a b c z w i ty Z ltac:(lia))) as K. pose proof (uniqueness_limite _ _ _ _ D K) as U.
    assert (EP : (firstn i p ++ nth i p 0 :: skipn (S i) p)%list = p) by (destruct i as [|[|[|]]]; try reflexivity; lia). cbv beta in U. rewrite EP in U. lra. }
  pose proof (ST 0%nat ltac:(lia) Da) as S0. pose proof (ST 1%nat ltac:(lia) Db) as S1. pose proof (ST 2%nat ltac:(lia) Dc) as S2. clear ST.
  set (yp := map (oscillation p) x).
  assert (RES : residuals data yp = map (fun ty => - (oscillation p (fst ty) - snd ty)) (combine x data)).
  { unfold residuals, yp. clear - L. revert data L. induction x as [|t x IH]; intros [|y data] L; try discriminate; [reflexivity|]. cbn [map combine fst snd]. f_equal; [ring|]. apply IH. cbn in L. lia. }
  assert (T0 : total (residuals data yp) = 0).
  { rewrite RES. unfold total. clear - S0. assert (E : fold_right Rplus 0 (map (fun ty : R * R => - (oscillation p (fst ty) - snd ty)) (combine x data)) = - fold_right Rplus 0 (map (fun ty : R * R => (oscillation p (fst ty) - snd ty) * nth 0 (jac_row p (fst ty)) 0) (combine x data))).
    { clear S0. induction (combine x data) as [|ty l IH]; cbn [map fold_right]; [lra|]. rewrite IH. unfold jac_row. cbn [nth]. lra. }
    rewrite E, S0. lra. }
  assert (T1 : dot (residuals data yp) yp = 0).
  { assert (E : dot (residuals data yp) yp = - (a * fold_right Rplus 0 (map (fun ty => (oscillation p (fst ty) - snd ty) * nth 0 (jac_row p (fst ty)) 0) (combine x data))
        + b * fold_right Rplus 0 (map (fun ty => (oscillation p (fst ty) - snd ty) * nth 1 (jac_row p (fst ty)) 0) (combine x data))
        + c * fold_right Rplus 0 (map (fun ty => (oscillation p (fst ty) - snd ty) * nth 2 (jac_row p (fst ty)) 0) (combine x data)))).
    { rewrite RES. unfold dot, yp. clear - L. revert data L. induction x as [|t x IH]; intros [|y data] L; try discriminate; [cbn; lra|]. cbn [map combine fold_right fst snd]. rewrite IH by (cbn in L; lia).
      assert (O : oscillation p t = a + b * nth 1 (jac_row p t) 0 + c * nth 2 (jac_row p t) 0).
      { unfold oscillation, p, jac_row, par. cbn [nth]. replace (z ^ 2) with (z * z) by ring. rewrite (Rmult_comm (sqrt (1 - z * z)) w). ring. }
      change (nth 0 (jac_row p t) 0) with 1. set (j1 := nth 1 (jac_row p t) 0) in *. set (j2 := nth 2 (jac_row p t) 0) in *. clearbody j1 j2. rewrite !O. ring. }
    rewrite E, S0, S1, S2. lra. }
  assert (SE : squared_error x data p = dot (residuals data yp) (residuals data yp)).
  { rewrite RES. unfold squared_error, misfits, dot. clear. induction (combine x data) as [|ty l IH]; [reflexivity|]. cbn [map combine fold_right fst snd]. rewrite IH. lra. }
  assert (LY : length data = length yp) by (unfold yp; rewrite map_length; congruence).
  assert (N5 : 0 < INR (length data) - 5) by (apply lt_INR in N; cbn in N; lra).
  assert (SQ : squares_about (average data) data - squares_about (average data) yp = dot (residuals data yp) (residuals data yp)).
  { pose proof (sums_identity data yp (average data) LY) as I. rewrite !squares_eq, <- dot_resid_self, <- dot_resid_yp in I by exact LY.
    change (rsum (map (fun q => fst q - snd q) (combine data yp))) with (total (residuals data yp)) in I. rewrite T0, T1 in I. lra. }
  unfold fit_variance. fold yp. rewrite SQ, SE. split; [reflexivity|]. apply Rmult_le_pos; [|left; apply Rinv_0_lt_compat, N5]. rewrite dot_resid_self. apply rsum_nonneg. intros; apply Rle_0_sqr.
Qed.
Print Assumptions C67_variance.
(* ---- the hypotheses are met: eleven samples of a pure cosine ---- *)
Definition wave : list R := [0; 0; 1; 0; PI].
Definition ls0 (f : list R -> list R) (p0 : list R) : res (list R) := if (length p0 =? 5)%nat then Ok wave else Ok p0.
Definition wave_times : list R := map (fun i => INR i / IZR 1) (seq 0 11).
Lemma ls0_fits : fits_vectors ls0.
Proof.
  split; [|reflexivity]. intros f p0 p1 H. unfold ls0 in H. destruct (Nat.eqb_spec (length p0) 5) as [E|E]; injection H as <-; [rewrite E|]; reflexivity.
Qed.
Lemma wave_estimate rt rate : sample_times 11 rt wave_times rate ->
  get_period ls0 (fun G => Ok G) true (map (oscillation wave) wave_times) rt = Ok (2 * PI / (PI * sqrt (1 - 0 * 0)), 0).
Proof.
  intros ST. assert (L : length (map (oscillation wave) wave_times) = 11%nat) by reflexivity.
  destruct (proj2 (proj2 (C67_guess_short true (map (oscillation wave) wave_times) rate)) ltac:(rewrite L; lia)) as [p0 G].
  pose proof (proj1 (make_guess_iff _ _ _ _) G) as G5. apply guess_five in G5.
  apply (C67_exact_fit ls0 (fun G => Ok G) true ls0_fits wave_times rate rt 0 0 1 0 PI p0 (gram (jac_fitfunc wave wave_times))); fold wave; try exact G.
  - rewrite L. exact ST.
  - lra.
  - apply PI_neq0.
  - intros H.
    assert (A : oscillation wave 0 = average (map (oscillation wave) wave_times)). { apply H. apply in_map. left. cbn. lra. }
    assert (B : oscillation wave 1 = average (map (oscillation wave) wave_times)). { apply H. apply in_map. right. left. cbn. lra. }
    rewrite <- A in B. unfold oscillation, wave in B. replace (1 - 0 * 0) with 1 in B by ring. rewrite sqrt_1 in B. replace (- 0 * PI * 1) with 0 in B by ring. replace (- 0 * PI * 0) with 0 in B by ring.
    rewrite exp_0 in B. replace (PI * 1 * 1) with PI in B by ring. replace (PI * 1 * 0) with 0 in B by ring. rewrite cos_PI, cos_0 in B. lra.
  - unfold ls0. rewrite G5. reflexivity.
  - reflexivity.
Qed.
Example C67_estimate_example : fits_vectors ls0 /\
  get_period ls0 (fun G => Ok G) true (map (oscillation wave) wave_times) (MvInt 1) = Ok (2 * PI / (PI * sqrt (1 - 0 * 0)), 0).
Proof. split; [exact ls0_fits|]. apply (wave_estimate (MvInt 1) 1). apply (st_rate 11 1). discriminate. Qed.
Example C67_variance_example : let data := map (oscillation wave) wave_times in
  length wave_times = length data /\ (5 < length data)%nat /\
  derivable_pt_lim (fun v => squared_error wave_times data [v; 0; 1; 0; PI]) 0 0 /\
  derivable_pt_lim (fun v => squared_error wave_times data [0; v; 1; 0; PI]) 0 0 /\
  derivable_pt_lim (fun v => squared_error wave_times data [0; 0; v; 0; PI]) 1 0.
Proof.
  intros data. split; [reflexivity|]. split; [cbn; lia|].
  assert (K : forall i, (i < 3)%nat -> derivable_pt_lim (fun v => squared_error wave_times data (firstn i wave ++ v :: skipn (S i) wave)) (nth i wave 0) 0).
  { intros i I. pose proof (sum_squares_deriv (combine wave_times data) (fun v ty => oscillation (firstn i wave ++ v :: skipn (S i) wave) (fst ty) - snd ty) (fun ty => nth i (jac_row wave (fst ty)) 0) (nth i wave 0)
      (fun ty _ => misfit_deriv 0 0 1 0 PI i ty ltac:(lra) ltac:(lia))) as D.
    assert (EP : (firstn i wave ++ nth i wave 0 :: skipn (S i) wave)%list = wave) by (destruct i as [|[|[|]]]; try reflexivity; lia). cbv beta in D. rewrite EP in D.
    assert (Z : fold_right Rplus 0 (map (fun y => (oscillation wave (fst y) - snd y) * nth i (jac_row wave (fst y)) 0) (combine wave_times data)) = 0).
    { unfold data. clear. induction wave_times as [|t l IH]; [reflexivity|]. cbn [map combine fold_right fst snd]. rewrite IH. ring. }
    rewrite Z, Rmult_0_r in D. exact D. }
  split; [exact (K 0%nat ltac:(lia))|]. split; [exact (K 1%nat ltac:(lia))|exact (K 2%nat ltac:(lia))].
Qed.
(* two files of the same part with a time record *)
Definition raw2 : dict matv :=
  [("__globals__", MvOther); ("__header__", MvOther); ("__version__", MvText "1.0"); ("notes", MvText "");
   ("part", MvText "Fork"); ("pendulum", MvText "Torsional"); ("angleOrder", MvText "Second");
   ("time", MvArr wave_times); ("data", MvArr (map (oscillation wave) wave_times))].
Lemma wave_times_ok : sample_times 11 (MvArr wave_times) wave_times 1.
Proof.
  apply st_times; [cbn; lia| |].
  - unfold wave_times. cbn. lra.
  - cbv zeta. exists 1%Z. split; [reflexivity|]. unfold wave_times. cbn [last hd map seq length INR].
    match goal with |- context [Rabs (?e - 1)] => replace e with 1 by (unfold Rdiv; rewrite Rinv_1; field; lra) end. replace (1 - 1) with 0 by ring. rewrite Rabs_R0, Rabs_R1. lra.
Qed.
Example C67_files_example : exists d, calc_periods_for_mat ls0 (fun G => Ok G) true false [raw2; raw2] = Ok d
  /\ exists s, dget d "TtH2" = Some (PerMean (PU (2 * PI / (PI * sqrt (1 - 0 * 0))) s)).
Proof.
  pose proof (wave_estimate (MvArr wave_times) 1 wave_times_ok) as W. set (T := 2 * PI / (PI * sqrt (1 - 0 * 0))) in *.
  set (c := [("notes", MvText ""); ("part", MvText "Fork"); ("pendulum", MvText "Torsional"); ("angleOrder", MvText "Second");
             ("time", MvArr wave_times); ("data", MvArr (map (oscillation wave) wave_times))]).
  assert (FP : file_period ls0 (fun G => Ok G) true c = Ok (T, 0)) by (rewrite (C67_file_time ls0 (fun G => Ok G) true c wave_times (map (oscillation wave) wave_times) eq_refl eq_refl); exact W).
  exists [("TtH2", PerMean (umean [(T, 0); (T, 0)]))]. split.
  - apply C67_all_files. exists [c; c]. split; [repeat constructor|]. cbn [map]. rewrite FP. reflexivity.
  - unfold umean, mean. cbn [map fst snd rsum fold_right length]. exists (sqrt (Rsqr 0 + (Rsqr 0 + 0)) / INR 2). change (INR 2) with (1 + 1). replace ((T + (T + 0)) / (1 + 1)) with T by field. reflexivity.
Qed.
