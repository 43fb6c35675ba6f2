(* PPeriod6.v -- lemmas for C67 (times, fit) *)
From Verif Require Import Base MString MIo SIo MPeriod SPeriod MPeriod2 SPeriod2 PBase PString PIo PIo3 PPeriod PPeriod2 PPeriod3 PPeriod4 PPeriod5.
From Coq Require Import ZArith Lra Sorted.
Local Open Scope string_scope.
Local Open Scope R_scope.

Lemma np_diff_nil l : np_diff l = [] <-> (length l < 2)%nat.
Proof. destruct l as [|a [|b l]]; cbn; split; intros H; try reflexivity; try lia; discriminate. Qed.
Lemma times_iff n rt x rate : times_and_rate n rt = Ok (x, rate) <-> sample_times n rt x rate.
Proof.
  split.
  - destruct rt; cbn [times_and_rate]; intros H; try discriminate.
    + destruct (Z.eqb_spec z 0); [discriminate|]. injection H as <- <-. apply st_rate; assumption.
    + destruct (np_diff l) as [|d ds] eqn:E; [discriminate|].
      assert (L : (2 <= length l)%nat). { destruct (Nat.le_gt_cases 2 (length l)) as [L|L]; [exact L|]. apply np_diff_nil in L. congruence. }
      rewrite <- E in H. destruct (Req_EM_T (mean (np_diff l)) 0) as [Z|Z]; [discriminate|]. injection H as <- <-. pose proof (INR_gt1 _ L) as P. rewrite np_diff_mean in Z by exact L.
      assert (D : last l 0 - hd 0 l <> 0) by (intros D; apply Z; rewrite D; unfold Rdiv; ring).
      apply st_times; [exact L|lra|]. cbv zeta. exists (trunc (1 / mean (np_diff l))). split; [reflexivity|]. rewrite np_diff_mean by exact L.
      replace (1 / ((last l 0 - hd 0 l) / (INR (length l) - 1))) with ((INR (length l) - 1) / (last l 0 - hd 0 l)) by (field; lra). apply trunc_spec.
  - intros H. inversion H as [z N|l r L D [z [E [A [B C]]]]]; subst.
    + cbn. destruct (Z.eqb_spec z 0); [contradiction|]. reflexivity.
    + cbn [times_and_rate]. pose proof (INR_gt1 _ L) as P. destruct (np_diff x) as [|d ds] eqn:E; [apply np_diff_nil in E; lia|]. rewrite <- E.
      assert (D' : last x 0 - hd 0 x <> 0) by lra. rewrite np_diff_mean by exact L.
      destruct (Req_EM_T ((last x 0 - hd 0 x) / (INR (length x) - 1)) 0) as [Z|Z].
      { exfalso. apply D'. replace (last x 0 - hd 0 x) with ((last x 0 - hd 0 x) / (INR (length x) - 1) * (INR (length x) - 1)) by (field; lra). rewrite Z. ring. }
      replace (1 / ((last x 0 - hd 0 x) / (INR (length x) - 1))) with ((INR (length x) - 1) / (last x 0 - hd 0 x)) by (field; lra).
      rewrite <- (trunc_unique _ z A B C). reflexivity.
Qed.

Lemma root_ok x r : root x = Ok r <-> 0 <= x /\ r = sqrt x.
Proof. unfold root. destruct (Rltb x 0) eqn:E; [apply Rltb_t in E; split; [discriminate|intros [? _]; lra]|]. apply Rltb_f in E. split; [intros H; injection H as <-; auto|intros [_ ->]; reflexivity]. Qed.
Lemma fitfunc_osc p t : length p = 5%nat -> fitfunc p t = oscillation p t.
Proof.
  destruct p as [|a [|b [|c [|z [|w [|]]]]]]; try discriminate. intros _. unfold fitfunc, oscillation, par. cbn [nth]. replace (z ^ 2) with (z * z) by ring. reflexivity.
Qed.
Lemma squares_eq m l : rsum (map (fun y => Rsqr (y - m)) l) = squares_about m l.
Proof. induction l as [|x l IH]; [reflexivity|]. cbn [map squares_about fold_right]. rewrite rsum_cons, IH. reflexivity. Qed.
Lemma squares_nonneg m l : 0 <= squares_about m l.
Proof. induction l as [|x l IH]; cbn; [lra|]. fold (squares_about m l). pose proof (Rle_0_sqr (x - m)). unfold Rsqr in *. lra. Qed.
Lemma squares_zero m l : squares_about m l = 0 <-> forall y, In y l -> y = m.
Proof.
  split.
  - induction l as [|x l IH]; intros H y Hy; [destruct Hy|]. cbn in H. fold (squares_about m l) in H. pose proof (squares_nonneg m l). pose proof (Rle_0_sqr (x - m)). unfold Rsqr in *.
    destruct Hy as [<-|Hy]; [|apply IH; [lra|exact Hy]]. assert (K : (x - m) * (x - m) = 0) by lra. apply Rmult_integral in K. lra.
  - induction l as [|x l IH]; intros H; [reflexivity|]. cbn. fold (squares_about m l). rewrite (H x (or_introl eq_refl)), IH by (intros; apply H; right; assumption). ring.
Qed.
Lemma fit_goodness_ok ym yp q : fit_goodness ym yp = Ok q <->
  squares_about (average ym) ym <> 0 /\
  q = (squares_about (average ym) yp / squares_about (average ym) ym, squares_about (average ym) ym - squares_about (average ym) yp, squares_about (average ym) ym, squares_about (average ym) yp).
Proof.
  unfold fit_goodness. rewrite !squares_eq. change (mean ym) with (average ym). split.
  - intros H. apply bind_ok in H as [r [H E]]. apply rdiv_ok in H as [N ->]. injection E as <-. auto.
  - intros [N ->]. unfold rdiv. destruct (Req_EM_T _ 0); [contradiction|]. reflexivity.
Qed.

(* normal matrix *)
Lemma gram_shape L : length (gram L) = 5%nat /\ forall row, In row (gram L) -> length row = 5%nat.
Proof. split; [reflexivity|]. intros row H. unfold gram in H. apply in_map_iff in H as [i [<- _]]. reflexivity. Qed.
Lemma gram_entry L i j : (i < 5)%nat -> (j < 5)%nat -> nth j (nth i (gram L) []) 0 = rsum (map (fun row => nth i row 0 * nth j row 0) L).
Proof.
  intros I J. unfold gram. destruct i as [|[|[|[|[|i]]]]]; try lia; destruct j as [|[|[|[|[|j]]]]]; try lia; reflexivity.
Qed.
Lemma matrix_ext (G G' : list (list R)) : length G = 5%nat -> length G' = 5%nat -> (forall row, In row G -> length row = 5%nat) -> (forall row, In row G' -> length row = 5%nat) ->
  (forall i j, (i < 5)%nat -> (j < 5)%nat -> nth j (nth i G []) 0 = nth j (nth i G' []) 0) -> G = G'.
Proof.
  intros L L' S S' E. apply nth_ext with (d := []) (d' := []); [congruence|]. intros i I. rewrite L in I.
  assert (R1 : length (nth i G []) = 5%nat) by (apply S, nth_In; lia). assert (R2 : length (nth i G' []) = 5%nat) by (apply S', nth_In; lia).
  apply nth_ext with (d := 0) (d' := 0); [congruence|]. intros j J. rewrite R1 in J. apply E; assumption.
Qed.
Lemma jac_row_deriv a b c z w i t : z * z < 1 -> (i < 5)%nat ->
  let p := [a; b; c; z; w] in derivable_pt_lim (fun v => oscillation (firstn i p ++ v :: skipn (S i) p) t) (nth i p 0) (nth i (jac_row p t) 0).
Proof.
  intros Z I p. assert (ZA : Rabs (nth 3 p 0) < 1). { cbn. apply Rabs_def1; nra. } 
  pose proof (jac_derivative p t i eq_refl ZA I) as D. unfold par in D.
  assert (E : forall x, fitfunc (upd p i x) t = oscillation (firstn i p ++ x :: skipn (S i) p) t).
  { intros x. rewrite fitfunc_osc; destruct i as [|[|[|[|[|i]]]]]; try reflexivity; lia. }
  intros eps He. destruct (D eps He) as [delta K]. exists delta. intros h H1 H2. specialize (K h H1 H2). rewrite !E in K. exact K.
Qed.
Lemma gram_is (G : list (list R)) a b c z w x : let p := [a; b; c; z; w] in z * z < 1 ->
  (G = gram (jac_fitfunc p x) <->
   length G = 5%nat /\ (forall row, In row G -> length row = 5%nat) /\
   (forall i j, (i < 5)%nat -> (j < 5)%nat -> exists di dj,
        (forall t, derivable_pt_lim (fun v => oscillation (firstn i p ++ v :: skipn (S i) p) t) (nth i p 0) (di t)) /\
        (forall t, derivable_pt_lim (fun v => oscillation (firstn j p ++ v :: skipn (S j) p) t) (nth j p 0) (dj t)) /\
        nth j (nth i G []) 0 = fold_right Rplus 0 (map (fun t => di t * dj t) x))).
Proof.
  intros p Z. split.
  - intros ->. split; [reflexivity|]. split; [apply gram_shape|]. intros i j I J. exists (fun t => nth i (jac_row p t) 0), (fun t => nth j (jac_row p t) 0).
    split; [intros t; apply jac_row_deriv; assumption|]. split; [intros t; apply jac_row_deriv; assumption|]. rewrite gram_entry by assumption. unfold jac_fitfunc. rewrite map_map. reflexivity.
  - intros [L [S E]]. apply matrix_ext; [exact L|reflexivity|exact S|apply gram_shape|]. intros i j I J. destruct (E i j I J) as [di [dj [Di [Dj En]]]]. rewrite En, gram_entry by assumption.
    unfold jac_fitfunc. rewrite map_map. unfold rsum. f_equal. apply map_ext. intros t. f_equal.
    + exact (uniqueness_limite _ _ _ _ (Di t) (jac_row_deriv a b c z w i t Z I)).
    + exact (uniqueness_limite _ _ _ _ (Dj t) (jac_row_deriv a b c z w j t Z J)).
Qed.
(* the uncertain arithmetic *)
Lemma period_value w z : z * z < 1 -> w <> 0 ->
  let T := un_inv (un_div (un_div (un_mul (un_root (un_one_minus (un_square (mkun z 0 1)))) (mkun w 1 0)) 2) PI) in
  un T = damped_period w z /\ un_w T = - (damped_period w z / w) /\ un_z T = damped_period w z * z / (1 - z * z).
Proof.
  intros Z W. cbv zeta. unfold un_inv, un_div, un_mul, un_root, un_one_minus, un_square, damped_period. cbn [un un_w un_z]. replace (z ^ 2) with (z * z) by ring.
  set (q := sqrt (1 - z * z)). assert (Q : q * q = 1 - z * z) by (apply sqrt_sqrt; lra). assert (Q0 : 0 < q) by (apply sqrt_lt_R0; lra). pose proof PI_RGT_0.
  split; [field; repeat split; lra|]. split; [field; repeat split; lra|]. rewrite <- Q. field. repeat split; lra.
Qed.
Section G.
  Variable leastsq : (list R -> list R) -> list R -> res (list R).
  Variable inv : list (list R) -> res (list (list R)).
  Variable honours : bool.
  Hypothesis LS_len : forall f p0 p1, leastsq f p0 = Ok p1 -> length p1 = length p0.
  Hypothesis LS_ext : forall f g p0, (forall p, length p = length p0 -> f p = g p) -> leastsq f p0 = leastsq g p0.
  Lemma guess_five data rate p : first_guess honours data rate p -> length p = 5%nat.
  Proof. intros [zc [zs [m [s [w [_ [_ [_ [_ [_ ->]]]]]]]]]]. reflexivity. Qed.
  Lemma misfits_model x data p : length p = 5%nat -> map (fun ty => fitfunc p (fst ty) - snd ty) (combine x data) = misfits x data p.
  Proof. intros L. unfold misfits. apply map_ext. intros ty. rewrite fitfunc_osc by exact L. reflexivity. Qed.
  Lemma get_period_iff data rt T sd : get_period leastsq inv honours data rt = Ok (T, sd) <-> period_estimate leastsq inv honours data rt T sd.
  Proof.
    split.
    - unfold get_period. intros H. apply bind_ok in H as [[x rate] [H1 H]]. apply times_iff in H1. apply bind_ok in H as [p0 [H2 H]]. apply make_guess_iff in H2. pose proof (guess_five _ _ _ H2) as L0.
      apply bind_ok in H as [p1 [H3 H]]. destruct (Nat.eqb_spec (length x) (length data)) as [LX|LX]; [|discriminate].
      pose proof (LS_len _ _ _ H3) as L1. rewrite L0 in L1. rewrite (LS_ext _ (misfits x data)) in H3 by (intros p Lp; apply misfits_model; congruence).
      destruct p1 as [|a [|b [|c [|z [|w [|]]]]]]; try discriminate L1. clear L1. unfold par in H. cbn [nth] in H.
      apply bind_ok in H as [? [H4 H]]. destruct (Rltb 0 (1 - z ^ 2)) eqn:EZ; [|discriminate]. apply Rltb_t in EZ. assert (Z : z * z < 1) by (replace (z * z) with (z ^ 2) by ring; lra). clear H4 x0.
      cbv zeta in H. apply bind_ok in H as [[[[rsq SSE] SST] SSR] [H4 H]]. apply fit_goodness_ok in H4 as [N4 E4]. injection E4 as -> -> -> ->.
      assert (EC : map (fitfunc [a; b; c; z; w]) x = map (oscillation [a; b; c; z; w]) x) by (apply map_ext; intros t; apply fitfunc_osc; reflexivity). rewrite EC in *.
      apply bind_ok in H as [sigma [H5 H]]. rewrite L0 in H5. change (INR 5) with (1 + 1 + 1 + 1 + 1) in H5. replace (1 + 1 + 1 + 1 + 1) with 5 in H5 by ring. fold (fit_variance x data [a; b; c; z; w]) in H5. apply root_ok in H5 as [V ->].
      apply bind_ok in H as [Hi [H6 H]]. apply bind_ok in H as [sw [H7 H]]. apply bind_ok in H as [sz [H8 H]]. rewrite pow2_sqrt in H7, H8 by exact V. apply root_ok in H7 as [V7 ->]. apply root_ok in H8 as [V8 ->].
      destruct (Req_EM_T _ 0) as [F|F]; [discriminate|]. match type of H with Ok (?u, ?v) = Ok _ => assert (HT : T = u) by congruence; assert (HS : sd = v) by congruence end. clear H. subst T sd.
      assert (W : w <> 0). { intros ->. apply F. cbn. field. apply PI_neq0. }
      destruct (period_value w z Z W) as [P1 [P2 P3]]. unfold un_std. rewrite P1, P2, P3.
      assert (GR := proj1 (gram_is _ a b c z w x Z) eq_refl). destruct GR as [G1 [G2 G3]].
      replace ((- (damped_period w z / w) * sqrt (fit_variance x data [a; b; c; z; w] * nth 4 (nth 4 Hi []) 0)) ^ 2 + (damped_period w z * z / (1 - z * z) * sqrt (fit_variance x data [a; b; c; z; w] * nth 3 (nth 3 Hi []) 0)) ^ 2)
        with ((damped_period w z / w) ^ 2 * (fit_variance x data [a; b; c; z; w] * nth 4 (nth 4 Hi []) 0) + (damped_period w z * z / (1 - z * z)) ^ 2 * (fit_variance x data [a; b; c; z; w] * nth 3 (nth 3 Hi []) 0)).
      2: { rewrite !Rpow_mult_distr. rewrite !pow2_sqrt by assumption. replace ((- (damped_period w z / w)) ^ 2) with ((damped_period w z / w) ^ 2) by ring. reflexivity. }
      eapply period_estimate_intro; try eassumption; try reflexivity. intros Q. apply N4, squares_zero, Q.
    - intros H. inversion H as [x rate p0 a b c z w Hi G vw vz A1 A2 A3 A4 A5 A6 A7 p A8 A9 A10 A11 A12 A13 A14 A15 A16]; subst T sd. unfold get_period.
      apply times_iff in A1. rewrite A1. cbn [bind]. pose proof (guess_five _ _ _ A3) as L0. apply make_guess_iff in A3. rewrite A3. cbn [bind]. rewrite A2, Nat.eqb_refl.
      rewrite (LS_ext _ (misfits x data)) by (intros q Lq; apply misfits_model; congruence). rewrite A4. cbn [bind]. unfold par at 1. cbn [nth].
      replace (Rltb 0 (1 - z ^ 2)) with true by (symmetry; apply Rltb_t; replace (z ^ 2) with (z * z) by ring; lra). cbn [bind].
      assert (EC : map (fitfunc [a; b; c; z; w]) x = map (oscillation [a; b; c; z; w]) x) by (apply map_ext; intros t; apply fitfunc_osc; reflexivity). rewrite EC.
      assert (N4 : squares_about (average data) data <> 0) by (intros Q; apply A7; apply squares_zero, Q). fold p.
      rewrite (proj2 (fit_goodness_ok data (map (oscillation p) x) _) (conj N4 eq_refl)). cbn [bind].
      rewrite L0. change (INR 5) with (1 + 1 + 1 + 1 + 1). replace (1 + 1 + 1 + 1 + 1) with 5 by ring. fold (fit_variance x data p).
      rewrite (proj2 (root_ok _ _) (conj A8 eq_refl)). cbn [bind].
      assert (GR : G = gram (jac_fitfunc p x)) by (apply gram_is; auto). rewrite <- GR, A12. cbn [bind]. rewrite pow2_sqrt by exact A8.
      rewrite <- A13, <- A15. rewrite (proj2 (root_ok _ _) (conj A14 eq_refl)). cbn [bind]. rewrite (proj2 (root_ok _ _) (conj A16 eq_refl)). cbn [bind].
      unfold par, p. cbn [nth]. destruct (period_value w z A5 A6) as [P1 [P2 P3]].
      destruct (Req_EM_T _ 0) as [F|F].
      + exfalso. assert (Z0 : 0 < sqrt (1 - z ^ 2)) by (apply sqrt_lt_R0; replace (z ^ 2) with (z * z) by ring; lra). cbn in F. pose proof PI_RGT_0.
        assert (F' : sqrt (1 - z ^ 2) * w = 0). { replace (sqrt (1 - z ^ 2) * w) with (sqrt (1 - z ^ 2) * w / 2 / PI * (2 * PI)) by (field; lra). cbn. rewrite F. ring. }
        apply Rmult_integral in F' as [F'|F']; lra.
      + unfold un_std. rewrite P1, P2, P3. do 3 f_equal. rewrite !Rpow_mult_distr, !pow2_sqrt by assumption. replace ((- (damped_period w z / w)) ^ 2) with ((damped_period w z / w) ^ 2) by ring. reflexivity.
  Qed.
End G.
