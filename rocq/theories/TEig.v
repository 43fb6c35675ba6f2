(* TEig.v -- C60-C62: the Bicycle object's canonical matrices, state space, eigenvalues,
   eigenvalue plots and Bode comparison *)
From Coq Require Import Lra Lia Permutation Sorting.Sorted ZArith.
From Verif Require Import Base MString MHeap MBicycle MVec MInertia MSets MModels MModels2 PBase SBicycle PBicycle PBicycle2 PHeap SModels SModels2 PModels PModels2 PModels3
  PSets PSets2 PSets3 PModels4 PModels7 PModels10 PModels11 PModels12 SSort PSort MEig SEig PEig PEig2 PEig3 TModels TModels2.
Local Open Scope string_scope.
Local Open Scope R_scope.

(* ---------------- C60 ---------------- *)
Theorem C60_canonical_is_the_standalone_function : forall ps p f, dget ps "Benchmark" = Some p -> f = FTrue \/ f = FFalse ->
  snd (bicycle_canonical ps f) = snd (benchmark_par_to_canonical p).
Proof.
  intros ps p f E H. rewrite (bicycle_canonical_eq ps p f E). unfold canonical. destruct (snd (benchmark_par_to_canonical p)); destruct H; subst f; reflexivity.
Qed.
Print Assumptions C60_canonical_is_the_standalone_function.

Theorem C60_state_space_is_the_standalone_function : forall ps p f v A B, dget ps "Benchmark" = Some p -> f = FTrue \/ f = FFalse ->
  (snd (bicycle_state_space ps v f) = Ok (A, B) <->
   exists c g, snd (benchmark_par_to_canonical p) = Ok c /\ dget p "g" = Some g /\ ab_matrix (cM c) (cC1 c) (cK0 c) (cK2 c) v g = Ok (A, B)).
Proof.
  intros ps p f v A B E H. rewrite (bicycle_space_eq ps v f p E). unfold canonical, dlook.
  assert (HF : forall X (x : X), check_flag f x = Ok x) by (intros X x; destruct H; subst f; reflexivity). split.
  - intros X. apply bind_ok in X. destruct X as (c & EC & X). apply bind_ok in X. destruct X as (g & EG & X). apply bind_ok in X. destruct X as (ab & EA & X).
    rewrite HF in X. injection X as ->. exists c, g. split; [exact EC|]. destruct (dget p "g"); [injection EG as ->; auto|discriminate].
  - intros (c & g & EC & EG & EA). rewrite EC. cbn [bind]. rewrite EG. cbn [bind]. rewrite EA. cbn [bind]. apply HF.
Qed.
Print Assumptions C60_state_space_is_the_standalone_function.

Theorem C60_other_flag_is_ValueError : forall ps v,
  (forall c, snd (bicycle_canonical ps FTrue) = Ok c -> snd (bicycle_canonical ps FOther) = Err (ValueError "nominal must be True or False")) /\
  (forall ab, snd (bicycle_state_space ps v FTrue) = Ok ab -> snd (bicycle_state_space ps v FOther) = Err (ValueError "nominal must be True or False")).
Proof.
  intros ps v. destruct (dget ps "Benchmark") as [p|] eqn:E.
  - split; [intros c H; rewrite (bicycle_canonical_eq ps p FTrue E) in H; rewrite (bicycle_canonical_eq ps p FOther E)|intros ab H; rewrite (bicycle_space_eq ps v FTrue p E) in H; rewrite (bicycle_space_eq ps v FOther p E)].
    + apply bind_ok in H. destruct H as (c' & -> & _). reflexivity.
    + apply bind_ok in H. destruct H as (c & -> & H). apply bind_ok in H. destruct H as (g & EG & H). apply bind_ok in H. destruct H as (ab' & EA & H).
      cbn [bind]. rewrite EG. cbn [bind]. rewrite EA. reflexivity.
  - unfold bicycle_state_space, bicycle_canonical. rewrite E. split; intros ? H; discriminate.
Qed.
Print Assumptions C60_other_flag_is_ValueError.

(* the stored parameters survive any history of calls except for two entries *)
Theorem C60_only_two_entries_are_ever_written : forall cs ps, same_but_written ps (object_after_all cs ps).
Proof. exact sbw_all. Qed.
Print Assumptions C60_only_two_entries_are_ever_written.

(* ... which do change: a wheel's stored Izz becomes its Ixx *)
Theorem C60_refuted_calls_leave_the_parameters_alone : forall ps p f c, dget ps "Benchmark" = Some p ->
  snd (benchmark_par_to_canonical p) = Ok c ->
  exists p', dget (fst (bicycle_canonical ps f)) "Benchmark" = Some p' /\ dget p' "IRzz" = dget p "IRxx" /\ dget p' "IFzz" = dget p "IFxx".
Proof.
  intros ps p f c E H. destruct (canonical_fst_frame ps f p E) as (p' & -> & ->). exists (fst (benchmark_par_to_canonical p)).
  rewrite dget_dset, String.eqb_refl. split; [reflexivity|].
  destruct (benchmark_par_to_canonical p) as [p' r] eqn:EB. cbn [snd] in H. subst r. exact (canonical_writes p p' c EB).
Qed.
Print Assumptions C60_refuted_calls_leave_the_parameters_alone.

Theorem C60_results_do_not_depend_on_history : forall cs ps,
  (forall f, snd (bicycle_canonical (object_after_all cs ps) f) = snd (bicycle_canonical ps f)) /\
  (forall v f, snd (bicycle_state_space (object_after_all cs ps) v f) = snd (bicycle_state_space ps v f)) /\
  (forall eig s, bicycle_eig eig (object_after_all cs ps) s = bicycle_eig eig ps s).
Proof.
  intros cs ps. pose proof (sbw_all cs ps) as S. split; [|split].
  - intros f. apply history_canonical, S.
  - intros v f. apply history_space, S.
  - intros eig s. apply history_eig, S.
Qed.
Print Assumptions C60_results_do_not_depend_on_history.

Theorem C60_eig_rows_are_the_spectra : forall eig ps l evs, eig_contract eig -> bicycle_eig eig ps (SpSeq l) = Ok evs ->
  length evs = length l /\ forall i, (i < length l)%nat -> spectrum_at ps (nth i l 0) (fst (nth i evs ([], []))) (snd (nth i evs ([], []))).
Proof. exact eig_rows. Qed.
Print Assumptions C60_eig_rows_are_the_spectra.

Theorem C60_eig_is_the_model_calc_eigen : forall eig ps p s h l evs, dget ps "Benchmark" = Some p -> nth_error h (ps_ref s) = Some (nums p) ->
  complete (required CMeijaard2007) (nums p) -> l <> [] ->
  (bicycle_eig eig ps (SpSeq l) = Ok evs <-> snd (calc_eigen eig (state_space MMeijaard s) false [("v", OArray l)] h) = Ok (Stack evs)).
Proof. exact eig_is_model_eig. Qed.
Print Assumptions C60_eig_is_the_model_calc_eigen.

Theorem C60_float_is_one_speed : forall eig ps x, bicycle_eig eig ps (SpFloat x) = bicycle_eig eig ps (SpSeq [x]).
Proof. reflexivity. Qed.
Print Assumptions C60_float_is_one_speed.

(* "array_like, shape (n,) or float": an integer speed crashes *)
Theorem C60_refuted_any_scalar_speed : forall eig ps x evs, bicycle_eig eig ps (SpFloat x) = Ok evs ->
  bicycle_eig eig ps (SpScalar x) = Err IndexError.
Proof.
  intros eig ps x evs H. change (bicycle_eig eig ps (SpSeq [x]) = Ok evs) in H. destruct (eig_none eig ps [x] evs H) as (p & c & E & EC).
  rewrite (bicycle_eig_eq eig ps _ p E), EC. reflexivity.
Qed.
Print Assumptions C60_refuted_any_scalar_speed.

Example C60_satisfiable : exists B, snd (bicycle_state_space [("Benchmark", rest_bike)] 0 FTrue) = Ok (rest_A, B) /\
  exists e, bicycle_eig eig0 [("Benchmark", rest_bike)] (SpFloat 0) = Ok [e].
Proof.
  assert (C : complete (required CMeijaard2007) (nums rest_bike)).
  { apply (complete_required CMeijaard2007). intros k Hk. cbn [par_strings In] in Hk. repeat (destruct Hk as [<-|Hk]; [eexists; reflexivity|]). contradiction. }
  destruct rest_matrices as (B & E). exists B.
  assert (S : snd (bicycle_state_space [("Benchmark", rest_bike)] 0 FTrue) = Ok (rest_A, B)).
  { apply (C60_state_space_is_the_standalone_function [("Benchmark", rest_bike)] rest_bike FTrue 0 rest_A B eq_refl (or_introl eq_refl)).
    cbn [state_space] in E. apply (ss_scalar bike_set rest [nums bike] (nums bike) (rest_A, B) eq_refl rest_nodup rest_scalar) in E.
    apply ss_row_iff in E. destruct E as (c & v & g & EC & EV & EG & EM). rewrite rest_floats in EC. exists c, g. split; [exact EC|].
    assert (v = 0) as -> by (cbn in EV; congruence). assert (g = 0) as -> by (cbn in EG; congruence). split; [reflexivity|exact EM]. }
  split; [exact S|]. change (exists e, bicycle_eig eig0 [("Benchmark", rest_bike)] (SpSeq [0]) = Ok [e]).
  assert (Z : zero_col rest_A 0 = true).
  { unfold zero_col, rest_A. cbn [forallb nth]. destruct (Req_EM_T 0 0); [reflexivity|congruence]. }
  assert (X : exists w, eig0 rest_A = Ok w).
  { unfold eig0. cbn [length rest_A seq find]. fold rest_A. rewrite Z. eauto. }
  destruct X as (w & X). exists w. destruct rest_canonical as (p' & c & EC).
  apply (eig_iff eig0 [("Benchmark", rest_bike)] [0] [w] rest_bike eq_refl).
  { exists c. unfold canonical. rewrite EC. reflexivity. }
  constructor; [|constructor]. exists rest_A, B. auto.
Qed.

(* ---------------- C61: eigenvalue plots ---------------- *)
Theorem C61_plotted_points_are_eigenvalues : forall eig ps sp cs speeds, eig_contract eig -> sorted_copy sp speeds ->
  plot_eigenvalues eig ps sp false = Ok cs -> exists re im, cs = (im ++ re)%list /\ shows_spectrum ps speeds re im.
Proof.
  intros eig ps sp cs speeds EC SC E. apply rsort_unique in SC. subst speeds. destruct (plot_drawn eig ps sp cs EC E) as (evs & m4 & D & ->).
  do 2 eexists. split; [reflexivity|]. apply (drawn_shows _ _ _ _ _ D).
Qed.
Print Assumptions C61_plotted_points_are_eigenvalues.

Theorem C61_plotly_points_are_eigenvalues : forall eig ps sp fg lg st cs reg speeds, eig_contract eig -> sorted_copy sp speeds ->
  plot_eigenvalues_plotly eig ps sp fg lg st = Ok (cs, reg) -> exists re im, cs = (re ++ im)%list /\ shows_spectrum ps speeds re im.
Proof.
  intros eig ps sp fg lg st cs reg speeds EC SC E. apply rsort_unique in SC. subst speeds.
  destruct (plotly_drawn eig ps sp fg lg st cs reg EC E) as (_ & _ & evs & w1 & w2 & cap & cas & D & -> & _).
  do 2 eexists. split; [reflexivity|]. apply (drawn_shows _ _ _ _ _ D).
Qed.
Print Assumptions C61_plotly_points_are_eigenvalues.

(* when the curves are resolved finely enough (C10) no eigenvalue is missing from the plot *)
Theorem C61_no_eigenvalue_is_missing_for_smooth_curves : forall eig ps sp speeds evs e0 rest eps cs, eig_contract eig -> sorted_copy sp speeds ->
  bicycle_eig eig ps (SpSeq speeds) = Ok evs -> evs = e0 :: rest -> smooth eps 4 (fst e0) (with_columns rest) ->
  plot_eigenvalues eig ps sp false = Ok cs ->
  exists re im, cs = (im ++ re)%list /\ shows_spectrum ps speeds re im /\
    forall i, (i < length speeds)%nat -> shows_all re im i (fst (nth i evs ([], []))).
Proof.
  intros eig ps sp speeds evs e0 rest eps cs EC SC EE EV SM E. apply rsort_unique in SC. subst speeds.
  destruct (plot_drawn eig ps sp cs EC E) as (evs' & m4 & D & ->). pose proof (dr_eig _ _ _ _ _ D) as X. assert (evs' = evs) as -> by congruence.
  do 2 eexists. split; [reflexivity|]. split; [apply (drawn_shows _ _ _ _ _ D)|]. apply (drawn_smooth _ _ _ _ _ eps e0 rest D EV SM).
Qed.
Print Assumptions C61_no_eigenvalue_is_missing_for_smooth_curves.

Theorem C61_no_eigenvalue_is_missing_at_the_lowest_speed : forall eig ps sp speeds evs cs, eig_contract eig -> sorted_copy sp speeds ->
  bicycle_eig eig ps (SpSeq speeds) = Ok evs -> plot_eigenvalues eig ps sp false = Ok cs ->
  exists re im, cs = (im ++ re)%list /\ shows_spectrum ps speeds re im /\ shows_all re im 0 (fst (nth 0 evs ([], []))).
Proof.
  intros eig ps sp speeds evs cs EC SC EE E. apply rsort_unique in SC. subst speeds.
  destruct (plot_drawn eig ps sp cs EC E) as (evs' & m4 & D & ->). pose proof (dr_eig _ _ _ _ _ D) as X. assert (evs' = evs) as -> by congruence.
  do 2 eexists. split; [reflexivity|]. split; [apply (drawn_shows _ _ _ _ _ D)|]. apply (drawn_first _ _ _ _ _ D).
Qed.
Print Assumptions C61_no_eigenvalue_is_missing_at_the_lowest_speed.

Theorem C61_largest_is_the_greatest_real_part : forall eig ps sp cs speeds, eig_contract eig -> sorted_copy sp speeds ->
  plot_eigenvalues eig ps sp true = Ok cs -> exists c, cs = [c] /\ over speeds c /\
    forall i, (i < length speeds)%nat -> exists w V, spectrum_at ps (nth i speeds 0) w V /\
      (forall z, In z w -> fst z <= snd (pt c i)) /\ exists z, In z w /\ fst z = snd (pt c i).
Proof.
  intros eig ps sp cs speeds EC SC E. apply rsort_unique in SC. subst speeds. unfold plot_eigenvalues in E.
  apply bind_ok in E. destruct E as (evs & EE & E). apply bind_ok in E. destruct E as (ys & EY & E). apply bind_ok in E. destruct E as (lo & _ & E). injection E as <-.
  destruct (eig_rows eig ps (rsort sp) evs EC EE) as (L & H). apply mapM_nth_iff in EY. destruct EY as (LY & HY).
  eexists. split; [reflexivity|]. assert (LL : length ys = length (rsort sp)) by (unfold eigres in *; lia). destruct (curve_over (rsort sp) ys LL) as (O & V). split; [exact O|].
  intros i Hi. do 2 eexists. split; [apply H, Hi|]. rewrite (V i Hi). specialize (HY i ([], []) 0 ltac:(unfold eigres in *; lia)). apply lmax_spec in HY. destruct HY as (I1 & I2). split.
  - intros z Hz. apply I2, in_map, Hz.
  - apply in_map_iff in I1. destruct I1 as (z & E1 & E2). eauto.
Qed.
Print Assumptions C61_largest_is_the_greatest_real_part.

Theorem C61_order_of_speeds_does_not_matter : forall eig ps s1 s2 fg lg st, Permutation s1 s2 ->
  plot_eigenvalues eig ps s1 lg = plot_eigenvalues eig ps s2 lg /\ plot_eigenvalues_plotly eig ps s1 fg lg st = plot_eigenvalues_plotly eig ps s2 fg lg st.
Proof. intros eig ps s1 s2 fg lg st P. unfold plot_eigenvalues, plot_eigenvalues_plotly. rewrite (rsort_order s1 s2 P). auto. Qed.
Print Assumptions C61_order_of_speeds_does_not_matter.

(* every sampled speed at which all four plotted real parts are negative is highlighted *)
Theorem C61_stable_speeds_are_highlighted : forall eig ps sp fg lg st cs a b speeds, eig_contract eig -> sorted_copy sp speeds ->
  plot_eigenvalues_plotly eig ps sp fg lg st = Ok (cs, Region a b) ->
  a < b /\ forall i, (i < length speeds)%nat -> stable_sample cs i -> a <= nth i speeds 0 <= b.
Proof.
  intros eig ps sp fg lg st cs a b speeds EC SC E. apply rsort_unique in SC. subst speeds.
  destruct (plotly_drawn eig ps sp fg lg st cs _ EC E) as (_ & _ & evs & w1 & w2 & cap & cas & D & -> & ER).
  destruct st; [|discriminate]. destruct (region_bounds _ _ _ _ _ _ ER) as (a' & b' & (HB & (la & Ila & Ea) & (lb & Ilb & Eb)) & X).
  unfold Rltb in X. destruct (Rlt_dec b' a'); [discriminate|]. destruct (Rlt_dec (b' - a') (1 / 10000)); [discriminate|]. injection X as <- <-.
  split; [lra|]. intros i Hi ST.
  assert (NG : forall l, In l [w1; w2; cap; cas] -> In (nth i (rsort sp) 0) (neg_speeds (rsort sp) l)).
  { intros l Hl. pose proof (dr_lens _ _ _ _ _ D l Hl) as LL. apply neg_iff; [exact LL|]. exists i. split; [exact Hi|]. split; [reflexivity|].
    rewrite <- (re_curve_at (rsort sp) l i LL Hi). destruct Hl as [<-|[<-|[<-|[<-|[]]]]];
      [apply (ST 0%nat)|apply (ST 1%nat)|apply (ST 2%nat)|apply (ST 3%nat)]; lia. }
  split; [apply (lmin_spec _ _ Ea), NG, Ila|apply (lmax_spec _ _ Eb), NG, Ilb].
Qed.
Print Assumptions C61_stable_speeds_are_highlighted.

(* "No stability region": any two stable samples are closer than 0.0001 *)
Theorem C61_no_region_means_no_stable_interval : forall eig ps sp fg lg st cs speeds, eig_contract eig -> sorted_copy sp speeds ->
  plot_eigenvalues_plotly eig ps sp fg lg st = Ok (cs, NoRegion) ->
  forall i j, (i < length speeds)%nat -> (j < length speeds)%nat -> stable_sample cs i -> stable_sample cs j -> nth j speeds 0 - nth i speeds 0 < 1 / 10000.
Proof.
  intros eig ps sp fg lg st cs speeds EC SC E i j Hi Hj SI SJ. apply rsort_unique in SC. subst speeds.
  destruct (plotly_drawn eig ps sp fg lg st cs _ EC E) as (_ & _ & evs & w1 & w2 & cap & cas & D & -> & ER).
  destruct st; [|discriminate]. destruct (region_bounds _ _ _ _ _ _ ER) as (a' & b' & (HB & (la & Ila & Ea) & (lb & Ilb & Eb)) & X).
  assert (NG : forall k l, (k < length (rsort sp))%nat -> stable_sample (map (re_curve (rsort sp)) [w1; w2; cap; cas] ++ map (im_curve (rsort sp)) [w1; w2; cap; cas]) k ->
            In l [w1; w2; cap; cas] -> In (nth k (rsort sp) 0) (neg_speeds (rsort sp) l)).
  { intros k l Hk ST Hl. pose proof (dr_lens _ _ _ _ _ D l Hl) as LL. apply neg_iff; [exact LL|]. exists k. split; [exact Hk|]. split; [reflexivity|].
    rewrite <- (re_curve_at (rsort sp) l k LL Hk). destruct Hl as [<-|[<-|[<-|[<-|[]]]]];
      [apply (ST 0%nat)|apply (ST 1%nat)|apply (ST 2%nat)|apply (ST 3%nat)]; lia. }
  pose proof (proj2 (lmin_spec _ _ Ea) _ (NG i la Hi SI Ila)). pose proof (proj2 (lmax_spec _ _ Eb) _ (NG j lb Hj SJ Ilb)).
  unfold Rltb in X. destruct (Rlt_dec b' a'); [lra|]. destruct (Rlt_dec (b' - a') (1 / 10000)); [lra|discriminate].
Qed.
Print Assumptions C61_no_region_means_no_stable_interval.

(* conversely all samples in the region are stable if every mode is stable on one
   interval of the samples *)
Theorem C61_highlighted_speeds_are_stable_if_contiguous : forall eig ps sp fg lg st cs a b speeds, eig_contract eig -> sorted_copy sp speeds -> NoDup sp ->
  plot_eigenvalues_plotly eig ps sp fg lg st = Ok (cs, Region a b) -> (forall q, (q < 4)%nat -> contiguous (nth q cs [])) ->
  forall i, (i < length speeds)%nat -> a <= nth i speeds 0 <= b -> stable_sample cs i.
Proof.
  intros eig ps sp fg lg st cs a b speeds EC SC ND E CT i Hi AB q Hq. destruct SC as (PM & SS). pose proof (Permutation_NoDup PM ND) as ND'.
  pose proof (rsort_unique sp speeds (conj PM SS)) as ->.
  destruct (plotly_drawn eig ps sp fg lg st cs _ EC E) as (_ & _ & evs & w1 & w2 & cap & cas & D & -> & ER).
  destruct st; [|discriminate]. destruct (region_bounds _ _ _ _ _ _ ER) as (a' & b' & (HB & _ & _) & X).
  unfold Rltb in X. destruct (Rlt_dec b' a'); [discriminate|]. destruct (Rlt_dec (b' - a') (1 / 10000)); [discriminate|]. injection X as <- <-.
  specialize (CT q Hq). set (m4 := [w1; w2; cap; cas]) in *.
  assert (NQ : nth q (map (re_curve (rsort sp)) m4 ++ map (im_curve (rsort sp)) m4) [] = re_curve (rsort sp) (nth q m4 [])).
  { rewrite app_nth1 by (rewrite map_length; exact Hq). apply nth_map. exact Hq. }
  rewrite NQ in *. assert (IN : In (nth q m4 []) m4) by (apply nth_In; exact Hq). pose proof (dr_lens _ _ _ _ _ D _ IN) as LL.
  destruct (HB _ IN) as (lo & hi & EL & EH & H1 & H2).
  apply lmin_spec in EL. apply lmax_spec in EH. destruct EL as (IL & _), EH as (IH & _).
  apply (neg_iff _ _ _ LL) in IL. apply (neg_iff _ _ _ LL) in IH. destruct IL as (i1 & Hi1 & <- & N1). destruct IH as (i2 & Hi2 & <- & N2).
  apply (CT i1 i i2).
  - split; apply (sorted_nodup_lt (rsort sp)); auto; lra.
  - rewrite (proj1 (re_over (rsort sp) (nth q m4 []) LL)). exact Hi2.
  - rewrite re_curve_at by auto. exact N1.
  - rewrite re_curve_at by auto. exact N2.
Qed.
Print Assumptions C61_highlighted_speeds_are_stable_if_contiguous.

(* without that the highlighted interval may contain unstable speeds *)
Theorem C61_refuted_highlighted_speeds_are_stable : exists speeds w1 w2 cap cas a b,
  length w1 = length speeds /\ length w2 = length speeds /\ length cap = length speeds /\ length cas = length speeds /\ NoDup speeds /\
  stability_region speeds w1 w2 cap cas = Ok (Region a b) /\
  exists i, (i < length speeds)%nat /\ a < nth i speeds 0 < b /\ 0 < fst (nth i w1 (0, 0)).
Proof.
  exists [1; 2; 3], [(-1, 0); (1, 0); (-1, 0)], [(-1, 0); (-1, 0); (-1, 0)], [(-1, 0); (-1, 0); (-1, 0)], [(-1, 0); (-1, 0); (-1, 0)], 1, 3.
  do 4 (split; [reflexivity|]). split; [repeat constructor; cbn; intuition lra|].
  assert (R1 : Rltb (-1) 0 = true) by (unfold Rltb; destruct (Rlt_dec (-1) 0); [reflexivity|lra]).
  assert (R2 : Rltb 1 0 = false) by (unfold Rltb; destruct (Rlt_dec 1 0); [lra|reflexivity]).
  assert (M : forall x y, x <= y -> Rmin x y = x /\ Rmax y x = y) by (intros x y H; split; [apply Rmin_left|apply Rmax_left]; exact H).
  assert (M' : forall x y, y <= x -> Rmin x y = y /\ Rmax y x = x) by (intros x y H; split; [apply Rmin_right|apply Rmax_right]; exact H).
  assert (N1 : neg_speeds [1; 2; 3] [(-1, 0); (1, 0); (-1, 0)] = [1; 3]) by (unfold neg_speeds; cbn [combine filter fst snd]; rewrite R1, R2; reflexivity).
  assert (N2 : neg_speeds [1; 2; 3] [(-1, 0); (-1, 0); (-1, 0)] = [1; 2; 3]) by (unfold neg_speeds; cbn [combine filter fst snd]; rewrite R1; reflexivity).
  split.
  - unfold stability_region. rewrite N1, N2. cbn [lmin lmax fold_left bind].
    rewrite !(Rmin_left 1 2), !(Rmin_left 1 3), !(Rmax_right 1 2), !(Rmax_right 2 3), !(Rmax_right 1 3), !(Rmax_left 1 1), !(Rmin_left 3 3) by lra.
    unfold Rltb. destruct (Rlt_dec 3 1); [lra|]. destruct (Rlt_dec (3 - 1) (1 / 10000)); [lra|]. reflexivity.
  - exists 1%nat. cbn [length nth fst]. split; [lia|]. split; lra.
Qed.
Print Assumptions C61_refuted_highlighted_speeds_are_stable.

(* a bicycle with a mode that is unstable at every sampled speed gets no annotation: the
   call crashes *)
Theorem C61_refuted_unstable_bicycle_can_be_plotted : forall eig ps sp q cs reg, eig_contract eig ->
  plot_eigenvalues_plotly eig ps sp false false false = Ok (cs, reg) -> (q < 4)%nat ->
  (forall i, (i < length sp)%nat -> 0 <= snd (pt (nth q cs []) i)) ->
  plot_eigenvalues_plotly eig ps sp false false true = Err UnboundLocalError.
Proof.
  intros eig ps sp q cs reg EC E Hq H.
  assert (LS : length sp = length (rsort sp)) by (apply Permutation_length, rsort_perm).
  pose proof E as E'. unfold plot_eigenvalues_plotly in E' |- *. apply bind_ok in E'. destruct E' as (evs & EE & E'). rewrite EE. cbn [bind].
  apply bind_ok in E'. destruct E' as (m & EM & E'). rewrite EM. cbn [bind]. apply bind_ok in E'. destruct E' as (w1 & E1 & E'). rewrite E1. cbn [bind].
  apply bind_ok in E'. destruct E' as (w2 & E2 & E'). rewrite E2. cbn [bind]. injection E' as ECS _.
  assert (NE : evs <> []) by (intros ->; discriminate).
  destruct (drawn_exists eig ps (rsort sp) evs EC EE NE) as (m' & w1' & w2' & E2' & E3' & E4' & D).
  assert (m' = m) as -> by congruence. assert (w1' = w1) as -> by congruence. assert (w2' = w2) as -> by congruence.
  set (m4 := [w1; w2; map fst (capsize m); map fst (caster m)]) in *.
  assert (NQ : nth q cs [] = re_curve (rsort sp) (nth q m4 [])).
  { rewrite <- ECS. destruct q as [|[|[|[|]]]]; try lia; reflexivity. }
  assert (IN : In (nth q m4 []) m4) by (apply nth_In; exact Hq). pose proof (dr_lens _ _ _ _ _ D _ IN) as LL.
  rewrite (region_crash (rsort sp) w1 w2 (map fst (capsize m)) (map fst (caster m)) (nth q m4 []) IN); [reflexivity|].
  destruct (neg_speeds (rsort sp) (nth q m4 [])) as [|x r] eqn:EN; [reflexivity|]. exfalso.
  assert (IX : In x (neg_speeds (rsort sp) (nth q m4 []))) by (rewrite EN; left; reflexivity).
  apply (neg_iff _ _ _ LL) in IX. destruct IX as (i & Hi & _ & NN). rewrite <- LS in Hi. specialize (H i Hi). rewrite NQ, re_curve_at in H by (auto; congruence). lra.
Qed.
Print Assumptions C61_refuted_unstable_bicycle_can_be_plotted.

Theorem C61_refuted_figure_and_largest_options : forall eig ps sp largest stability,
  plot_eigenvalues_plotly eig ps sp true largest stability = Err UnboundLocalError /\
  forall evs, bicycle_eig eig ps (SpSeq (rsort sp)) = Ok evs -> plot_eigenvalues_plotly eig ps sp false true stability = Err UnboundLocalError.
Proof. intros. split; [reflexivity|]. intros evs E. unfold plot_eigenvalues_plotly. rewrite E. reflexivity. Qed.
Print Assumptions C61_refuted_figure_and_largest_options.


(* a bicycle whose eigenvalues are easy to name: vertical steer axis, every body at the
   same height; s = -1 and s = 1 are eigenvalues at every speed *)
Definition even_bike : dict R :=
  [("w", 1); ("c", 1 / 10); ("lam", PI / 2); ("g", 1); ("v", 1); ("rR", 1 / 2); ("mR", 4); ("IRxx", 1); ("IRyy", 2);
   ("xB", 1 / 2); ("zB", -1 / 2); ("mB", 4); ("IBxx", 1); ("IByy", 1); ("IBzz", 1); ("IBxz", 0);
   ("xH", 9 / 10); ("zH", -1 / 2); ("mH", 4); ("IHxx", 1); ("IHyy", 1); ("IHzz", 1); ("IHxz", 0);
   ("rF", 1 / 2); ("mF", 4); ("IFxx", 1); ("IFyy", 2)].
Definition is_mode (s : R) (A : marr) : bool :=
  Nat.eqb (length A) 4 && forallb (fun i => if Req_EM_T (ent A i 0 + s * ent A i 2) (s * nth i [1; 0; s; 0] 0) then true else false) (seq 0 4).
Definition eigs (s : R) (A : marr) : res eigres :=
  if is_mode s A then Ok (repeat (s, 0) 4, [repeat (1, 0) 4; repeat (0, 0) 4; repeat (s, 0) 4; repeat (0, 0) 4]) else Err RuntimeError.
Lemma eigs_contract s : eig_contract (eigs s).
Proof.
  intros n A w V (LA & LR) E. unfold eigs in E. destruct (is_mode s A) eqn:EM; [|discriminate]. injection E as <- <-.
  unfold is_mode in EM. apply Bool.andb_true_iff in EM. destruct EM as (E4 & EM). apply Nat.eqb_eq in E4. assert (n = 4%nat) as -> by congruence.
  split; [reflexivity|]. split; [reflexivity|]. split.
  - intros row [<-|[<-|[<-|[<-|[]]]]]; reflexivity.
  - rewrite forallb_forall in EM. intros j Hj. split.
    + exists 0%nat. split; [lia|]. unfold cent. destruct j as [|[|[|[|]]]]; try lia; cbn [nth repeat]; intros X; injection X; lra.
    + intros i Hi. specialize (EM i ltac:(apply in_seq; lia)). destruct (Req_EM_T _ _) as [EQ|]; [|discriminate].
      unfold csum, cent, cmul, rsum. destruct j as [|[|[|[|]]]]; try lia; destruct i as [|[|[|[|]]]]; try lia; cbn [nth repeat seq map fst snd fold_right fold_left] in *; f_equal; lra.
Qed.
Lemma even_canonical : exists p' c, benchmark_par_to_canonical even_bike = (p', Ok c).
Proof.
  apply canonical_success. split.
  - intros k Hk. unfold canon_keys in Hk. unfold even_bike, dkeys. cbn [In map fst] in *. repeat (destruct Hk as [Hk|Hk]; [subst k; tauto|]). contradiction.
  - unfold canon_nonzero, pv, even_bike. cbn [map fst snd dget String.eqb Ascii.eqb Bool.eqb]. repeat split; lra.
Qed.
Lemma even_modes s v : s * s = 1 -> exists A B, snd (bicycle_state_space [("Benchmark", even_bike)] v FTrue) = Ok (A, B) /\ is_mode s A = true.
Proof.
  intros HS. destruct even_canonical as (p' & c & X).
  assert (Y : exists A B, ab_matrix (cM c) (cC1 c) (cK0 c) (cK2 c) v 1 = Ok (A, B)).
  { apply (canonical_state_space_exists _ _ _ v 1 X);
      unfold bike_of, rear_wheel, rear_frame, front_frame, front_wheel, pv, even_bike; cbn [map fst snd dget String.eqb Ascii.eqb Bool.eqb k_bodies]; try lra.
    repeat (constructor; [unfold physical; cbn [b_m b_Ixx b_Izz b_Ixz]; lra|]). constructor. }
  destruct Y as (A & B & Y). exists A, B. split.
  { apply (C60_state_space_is_the_standalone_function [("Benchmark", even_bike)] even_bike FTrue v A B eq_refl (or_introl eq_refl)).
    exists c, 1. rewrite X. auto. }
  assert (N : newton_euler (bike_of even_bike) v 1 1 s 1 0 0 0 0 0).
  { exists 0, 0, 0, 0, 0, (s * - v * 8 + 48 / 10). unfold hx', hz', sumb, front_load, lat, rot_x, rot_z, arm, fr, spin, bike_of, rear_wheel, rear_frame, front_frame, front_wheel, pv, even_bike.
    cbn [map fst snd dget String.eqb Ascii.eqb Bool.eqb k_bodies fold_right b_m b_x b_z b_Ixx b_Ixz b_Izz b_Iyy_over_r b_front k_w k_c k_lam].
    rewrite cos_PI2, sin_PI2. repeat split; field. }
  apply (canonical_newton_euler _ _ _ X) in N.
  assert (N' : [s; 0; 1; 0] = addv (mulv A [1; 0; s; 0]) (mulv B [0; 0])).
  { apply (ab_eom _ _ _ _ _ _ _ _ Y). split; [reflexivity|]. split; [reflexivity|exact N]. }
  destruct (ab_shape _ _ _ _ _ _ _ _ Y) as (LA & RA & LB & RB). unfold is_mode. rewrite LA. cbn [Nat.eqb andb].
  destruct A as [|r0 [|r1 [|r2 [|r3 [|]]]]]; try discriminate. destruct B as [|q0 [|q1 [|q2 [|q3 [|]]]]]; try discriminate.
  repeat match goal with H : Forall _ (_ :: _) |- _ => inversion H; clear H; subst end.
  destruct q0 as [|? [|? [|]]]; try discriminate. destruct q1 as [|? [|? [|]]]; try discriminate. destruct q2 as [|? [|? [|]]]; try discriminate. destruct q3 as [|? [|? [|]]]; try discriminate.
  destruct r0 as [|? [|? [|? [|? [|]]]]]; try discriminate. destruct r1 as [|? [|? [|? [|? [|]]]]]; try discriminate.
  destruct r2 as [|? [|? [|? [|? [|]]]]]; try discriminate. destruct r3 as [|? [|? [|? [|? [|]]]]]; try discriminate.
  unfold addv, mulv, dotl in N'. cbn [map combine fold_right fst snd] in N'. injection N' as E1 E2 E3 E4.
  cbn [seq forallb ent nth]. unfold ent. cbn [nth].
  repeat match goal with |- context [Req_EM_T ?a ?b] => destruct (Req_EM_T a b) as [|NE]; [|exfalso; apply NE; lra] end. reflexivity.
Qed.
Lemma even_drawn s sp : s * s = 1 -> sp <> [] -> exists evs m w1 w2, bicycle_eig (eigs s) [("Benchmark", even_bike)] (SpSeq sp) = Ok evs /\
  sort_modes (with_columns evs) = Ok m /\ mapM (fun r => index (fst r) 0) (weave m) = Ok w1 /\ mapM (fun r => index (fst r) 1) (weave m) = Ok w2 /\
  forall l, In l [w1; w2; map fst (capsize m); map fst (caster m)] -> length l = length sp /\ forall i, (i < length sp)%nat -> fst (nth i l (0, 0)) = s.
Proof.
  intros HS NE.
  set (e := (repeat (s, 0) 4, [repeat (1, 0) 4; repeat (0, 0) 4; repeat (s, 0) 4; repeat (0, 0) 4]) : eigres).
  assert (E : bicycle_eig (eigs s) [("Benchmark", even_bike)] (SpSeq sp) = Ok (repeat e (length sp))).
  { destruct even_canonical as (p' & c & EC). apply (eig_iff (eigs s) [("Benchmark", even_bike)] sp _ even_bike eq_refl).
    { exists c. unfold canonical. rewrite EC. reflexivity. }
    clear NE. induction sp as [|v sp IH]; [constructor|]. cbn [length repeat]. constructor; [|exact IH].
    destruct (even_modes s v HS) as (A & B & EA & EM). exists A, B. split; [exact EA|]. unfold eigs. rewrite EM. reflexivity. }
  destruct (drawn_exists _ _ _ _ (eigs_contract s) E) as (m & w1 & w2 & E1 & E2 & E3 & D).
  { destruct sp; [congruence|discriminate]. }
  exists (repeat e (length sp)), m, w1, w2. do 4 (split; [assumption|]). intros l Hl. split; [apply (dr_lens _ _ _ _ _ D l Hl)|].
  intros i Hi. apply (In_nth _ _ []) in Hl. destruct Hl as (q & Hq & <-). pose proof (dr_in _ _ _ _ _ D q i Hq Hi) as X.
  rewrite nth_repeat_lt in X by exact Hi. cbn [e fst repeat In] in X. unfold e in X. cbn [fst repeat In] in X.
  destruct X as [X|[X|[X|[X|[]]]]]; rewrite <- X; reflexivity.
Qed.
Example C61_satisfiable_stable : exists eig cs, eig_contract eig /\ sorted_copy [2; 1] [1; 2] /\
  plot_eigenvalues_plotly eig [("Benchmark", even_bike)] [2; 1] false false true = Ok (cs, Region 1 2) /\ (forall i, (i < 2)%nat -> stable_sample cs i).
Proof.
  assert (SC : sorted_copy [2; 1] [1; 2]).
  { split; [apply perm_swap|]. repeat constructor; lra. }
  pose proof (rsort_unique _ _ SC) as RS.
  destruct (even_drawn (-1) [1; 2] ltac:(lra) ltac:(discriminate)) as (evs & m & w1 & w2 & E & E1 & E2 & E3 & H).
  assert (NG : forall l, In l [w1; w2; map fst (capsize m); map fst (caster m)] -> neg_speeds [1; 2] l = [1; 2]).
  { intros l Hl. destruct (H l Hl) as (L & V). destruct l as [|a [|b [|]]]; try discriminate. pose proof (V 0%nat ltac:(cbn; lia)) as V0. pose proof (V 1%nat ltac:(cbn; lia)) as V1. cbn [nth] in V0, V1.
    unfold neg_speeds. cbn [combine filter fst snd]. rewrite V0, V1. unfold Rltb. destruct (Rlt_dec (-1) 0); [reflexivity|lra]. }
  exists (eigs (-1)). eexists. split; [apply eigs_contract|]. split; [exact SC|]. split.
  - unfold plot_eigenvalues_plotly. rewrite <- RS, E. cbn [bind]. rewrite E1. cbn [bind]. rewrite E2. cbn [bind]. rewrite E3. cbn [bind].
    unfold stability_region. rewrite !NG by (cbn [In]; auto). cbn [lmin lmax fold_left bind].
    rewrite !(Rmin_left 1 2), !(Rmax_right 1 2), !(Rmax_left 1 1), !(Rmin_left 2 2) by lra.
    unfold Rltb. destruct (Rlt_dec 2 1); [lra|]. destruct (Rlt_dec (2 - 1) (1 / 10000)); [lra|]. reflexivity.
  - intros i Hi q Hq. set (m4 := [w1; w2; map fst (capsize m); map fst (caster m)]) in *.
    assert (IN : In (nth q m4 []) m4) by (apply nth_In; exact Hq). destruct (H _ IN) as (L & V).
    assert (X : snd (pt (re_curve [1; 2] (nth q m4 [])) i) < 0) by (rewrite re_curve_at by (auto; cbn; lia); rewrite V by (cbn; lia); lra).
    destruct q as [|[|[|[|]]]]; try lia; exact X.
Qed.
Example C61_satisfiable_unstable : exists eig cs reg, eig_contract eig /\
  plot_eigenvalues_plotly eig [("Benchmark", even_bike)] [1; 2] false false false = Ok (cs, reg) /\ (forall i, (i < 2)%nat -> 0 <= snd (pt (nth 0 cs []) i)).
Proof.
  assert (SC : sorted_copy [1; 2] [1; 2]).
  { split; [apply Permutation_refl|]. repeat constructor; lra. }
  pose proof (rsort_unique _ _ SC) as RS.
  destruct (even_drawn 1 [1; 2] ltac:(lra) ltac:(discriminate)) as (evs & m & w1 & w2 & E & E1 & E2 & E3 & H).
  exists (eigs 1). do 2 eexists. split; [apply eigs_contract|]. split.
  - unfold plot_eigenvalues_plotly. rewrite <- RS, E. cbn [bind]. rewrite E1. cbn [bind]. rewrite E2. cbn [bind]. rewrite E3. cbn [bind]. reflexivity.
  - intros i Hi. destruct (H w1 (or_introl eq_refl)) as (L & V).
    assert (X : 0 <= snd (pt (re_curve [1; 2] w1) i)) by (rewrite re_curve_at by (auto; cbn; lia); rewrite V by (cbn; lia); lra). exact X.
Qed.

(* ---------------- C62: Bode comparison ---------------- *)
(* the transfer function plotted is that from input u to state y *)
Theorem C62_bode_system_is_one_input_one_state : forall ps v u y A b c d, snd (bode_system ps v u y) = Ok (A, b, c, d) ->
  exists B, snd (bicycle_state_space ps v FTrue) = Ok (A, B) /\ (u < 2)%nat /\ (y < 4)%nat /\
    length b = 4%nat /\ (forall i, (i < 4)%nat -> nth i b 0 = ent B i u) /\
    length c = 4%nat /\ (forall j, (j < 4)%nat -> nth j c 0 = if Nat.eqb y j then 1 else 0) /\ d = 0.
Proof.
  intros ps v u y A b c d E. unfold bode_system in E. destruct (bicycle_state_space ps v FTrue) as [ps' r] eqn:ES. cbn [snd] in *.
  apply bind_ok in E. destruct E as ((A' & B) & -> & E). cbn [fst snd] in E. apply bind_ok in E. destruct E as (b' & EB & E).
  apply bind_ok in E. destruct E as (c' & ECC & E). apply bind_ok in E. destruct E as (d' & ED & E). injection E as <- <- <- <-.
  assert (SH : shape 4 4 A' /\ shape 4 2 B).
  { destruct (dget ps "Benchmark") as [p|] eqn:EP.
    - pose proof (bicycle_space_eq ps v FTrue p EP) as X. rewrite ES in X. cbn [snd] in X. symmetry in X. apply bind_ok in X. destruct X as (cc & _ & X).
      apply bind_ok in X. destruct X as (g & _ & X). apply bind_ok in X. destruct X as (ab & EM & X). injection X as ->. exact (shape_ab _ _ _ _ _ _ _ _ EM).
    - unfold bicycle_state_space, bicycle_canonical in ES. rewrite EP in ES. discriminate. }
  destruct SH as ((LA & _) & (LB & RB)). rewrite LA in ECC. exists B. split; [reflexivity|].
  apply mapM_nth_iff in EB. destruct EB as (LB' & HB).
  assert (Hu : (u < 2)%nat).
  { specialize (HB 0%nat [] 0 ltac:(lia)). unfold index in HB. destruct (nth_error (nth 0 B []) u) eqn:EN; [|discriminate].
    assert (IN : In (nth 0 B []) B) by (apply nth_In; lia). specialize (RB _ IN). rewrite <- RB. apply nth_error_Some. congruence. }
  assert (Hy : (y < 4)%nat).
  { unfold index in ECC. match type of ECC with context [nth_error ?l y] => assert (X : (y < length l)%nat); [apply nth_error_Some; destruct (nth_error l y); [discriminate|discriminate]|] end.
    rewrite map_length, seq_length in X. exact X. }
  split; [exact Hu|]. split; [exact Hy|]. split; [congruence|]. split.
  - intros i Hi. specialize (HB i [] 0 ltac:(lia)). unfold index in HB. unfold ent. destruct (nth_error (nth i B []) u) eqn:EN; [|discriminate].
    apply nth_error_nth with (d := 0) in EN. congruence.
  - unfold index in ECC. rewrite (nth_error_nth' _ [] (n := y)) in ECC by (rewrite map_length, seq_length; exact Hy).
    match type of ECC with Ok ?t = _ => assert (EQ : c' = t) by congruence end. rewrite EQ.
    rewrite (nth_map _ (seq 0 4) y 0%nat) by (rewrite seq_length; exact Hy). rewrite seq_nth by exact Hy. cbn [Nat.add]. split; [reflexivity|]. split.
    + intros j Hj. rewrite (nth_map _ (seq 0 4) j 0%nat) by (rewrite seq_length; exact Hj). rewrite seq_nth by exact Hj. reflexivity.
    + apply bind_ok in ED. destruct ED as (row & E1 & E2). unfold index in E1, E2. destruct (nth_error (map _ B) y) eqn:EN; [|discriminate]. injection E1 as ->.
      apply nth_error_In in EN. apply in_map_iff in EN. destruct EN as (r0 & <- & _). destruct (nth_error (map _ r0) u) eqn:EN2; [|discriminate]. injection E2 as ->.
      apply nth_error_In in EN2. apply in_map_iff in EN2. destruct EN2 as (? & <- & _). reflexivity.
Qed.
Print Assumptions C62_bode_system_is_one_input_one_state.

(* the system handed over, x' = A x + b tau and output c x + d tau, is the bicycle driven by
   the torque the title names and observed through the angle or rate the title names *)
Theorem C62_bode_system_is_the_bicycle_with_one_torque : forall ps v u y A b c d, snd (bode_system ps v u y) = Ok (A, b, c, d) ->
  exists cc g, snd (bicycle_canonical ps FTrue) = Ok cc /\ stored ps "g" = Some g /\
  forall roll steer rollrate steerrate roll' steer' rollrate' steerrate' tau out,
    ([roll'; steer'; rollrate'; steerrate'] = addv (mulv A [roll; steer; rollrate; steerrate]) (map (Rmult tau) b) /\
     out = dotl c [roll; steer; rollrate; steerrate] + d * tau) <->
    (exists Troll Tsteer input output, (roll' = rollrate /\ steer' = steerrate /\
       eom (cM cc) (cC1 cc) (cK0 cc) (cK2 cc) v g roll steer rollrate steerrate rollrate' steerrate' Troll Tsteer) /\
     named_torque input tau Troll Tsteer /\ named_output output roll steer rollrate steerrate out /\
     bode_title u y = Ok (input ++ " to " ++ output)).
Proof.
  intros ps v u y A b c d E. destruct (C62_bode_system_is_one_input_one_state _ _ _ _ _ _ _ _ E) as (B & ES & Hu & Hy & Lb & Eb & Lc & Ec & ->).
  destruct (dget ps "Benchmark") as [p|] eqn:EP; [|unfold bicycle_state_space, bicycle_canonical in ES; rewrite EP in ES; discriminate].
  pose proof (bicycle_space_eq ps v FTrue p EP) as X. rewrite ES in X. symmetry in X. apply bind_ok in X. destruct X as (cc & EC & X).
  apply bind_ok in X. destruct X as (g & EG & X). apply bind_ok in X. destruct X as (ab & EM & X). injection X as ->.
  exists cc, g. rewrite (bicycle_canonical_eq ps p FTrue EP), EC. split; [reflexivity|].
  split; [unfold stored; rewrite EP; unfold dlook in EG; destruct (dget p "g"); [congruence|discriminate]|].
  intros q0 q1 q2 q3 q0' q1' q2' q3' tau out.
  pose proof (fun Ta Tb => ab_eom _ _ _ _ _ _ _ _ EM q0 q1 q2 q3 q0' q1' q2' q3' Ta Tb) as EOM.
  destruct (shape_ab _ _ _ _ _ _ _ _ EM) as (_ & (LB & RB)).
  destruct B as [|r0 [|r1 [|r2 [|r3 [|]]]]]; try discriminate.
  pose proof (RB r0 ltac:(cbn; auto)) as R0. pose proof (RB r1 ltac:(cbn; auto)) as R1. pose proof (RB r2 ltac:(cbn; auto)) as R2. pose proof (RB r3 ltac:(cbn; auto)) as R3. clear RB.
  destruct r0 as [|x0 [|y0 [|]]]; try discriminate. destruct r1 as [|x1 [|y1 [|]]]; try discriminate. destruct r2 as [|x2 [|y2 [|]]]; try discriminate. destruct r3 as [|x3 [|y3 [|]]]; try discriminate.
  destruct b as [|b0 [|b1 [|b2 [|b3 [|]]]]]; try discriminate. destruct c as [|c0 [|c1 [|c2 [|c3 [|]]]]]; try discriminate.
  pose proof (Eb 0%nat ltac:(lia)) as B0. pose proof (Eb 1%nat ltac:(lia)) as B1. pose proof (Eb 2%nat ltac:(lia)) as B2. pose proof (Eb 3%nat ltac:(lia)) as B3. clear Eb.
  pose proof (Ec 0%nat ltac:(lia)) as C0. pose proof (Ec 1%nat ltac:(lia)) as C1. pose proof (Ec 2%nat ltac:(lia)) as C2. pose proof (Ec 3%nat ltac:(lia)) as C3. clear Ec.
  cbn [nth] in B0, B1, B2, B3, C0, C1, C2, C3. unfold ent in B0, B1, B2, B3. cbn [nth] in B0, B1, B2, B3.
  assert (U : exists Ta Tb input, named_torque input tau Ta Tb /\ index ["Roll Torque"; "Steer Torque"] u = Ok input /\
              map (Rmult tau) [b0; b1; b2; b3] = mulv [[x0; y0]; [x1; y1]; [x2; y2]; [x3; y3]] [Ta; Tb]).
  { unfold mulv, dotl. cbn [map combine fold_right fst snd].
    destruct u as [|[|]]; [| |lia]; cbn [nth] in B0, B1, B2, B3; subst b0 b1 b2 b3.
    - exists tau, 0, "Roll Torque". split; [left; auto|]. split; [reflexivity|]. repeat apply f_equal2; try reflexivity; ring.
    - exists 0, tau, "Steer Torque". split; [right; auto|]. split; [reflexivity|]. repeat apply f_equal2; try reflexivity; ring. }
  destruct U as (Ta & Tb & inp & NT & TI & EB). rewrite EB.
  assert (Y : exists o, index ["Roll Angle"; "Steer Angle"; "Roll Rate"; "Steer Rate"] y = Ok o /\
              forall w, w = dotl [c0; c1; c2; c3] [q0; q1; q2; q3] + 0 * tau <-> named_output o q0 q1 q2 q3 w).
  { unfold dotl. cbn [map combine fold_right fst snd].
    destruct y as [|[|[|[|]]]]; [| | | |lia]; cbn [Nat.eqb] in C0, C1, C2, C3; subst c0 c1 c2 c3; eexists; (split; [reflexivity|]);
      intros w; unfold named_output; (split; [intros ->|]).
    all: try (intuition (try discriminate); lra).
    all: [> left | right; left | right; right; left | right; right; right ]; split; [reflexivity|lra|reflexivity|lra|reflexivity|lra|reflexivity|lra]. }
  destruct Y as (o & TO & EO). rewrite (EO out), (EOM Ta Tb). unfold bode_title. rewrite TI, TO. cbn [bind]. split.
  - intros (H1 & H2). exists Ta, Tb, inp, o. auto.
  - intros (Ta' & Tb' & inp' & o' & H1 & H2 & H3 & H4).
    assert (inp = inp' /\ o = o') as (<- & <-).
    { destruct NT as [(-> & _)|(-> & _)], H2 as [(-> & _)|(-> & _)]; cbn [append] in H4; injection H4 as H4; try discriminate H4; auto; congruence. }
    split; [|exact H3].
    assert (Ta' = Ta /\ Tb' = Tb) as (-> & ->) by (destruct NT as [(-> & -> & ->)|(-> & -> & ->)], H2 as [(N & -> & ->)|(N & -> & ->)]; try discriminate N; auto).
    exact H1.
Qed.
Print Assumptions C62_bode_system_is_the_bicycle_with_one_torque.

(* which inputs and outputs are accepted *)
Theorem C62_accepted_indices : forall ps v u y A B, snd (bicycle_state_space ps v FTrue) = Ok (A, B) ->
  ((u < 2)%nat /\ (y < 4)%nat <-> exists sys, snd (bode_system ps v u y) = Ok sys) /\
  (~ ((u < 2)%nat /\ (y < 4)%nat) -> snd (bode_system ps v u y) = Err IndexError).
Proof.
  intros ps v u y A B ES.
  assert (SH : shape 4 4 A /\ shape 4 2 B).
  { destruct (dget ps "Benchmark") as [p|] eqn:EP; [|unfold bicycle_state_space, bicycle_canonical in ES; rewrite EP in ES; discriminate].
    pose proof (bicycle_space_eq ps v FTrue p EP) as X. rewrite ES in X. symmetry in X. apply bind_ok in X. destruct X as (cc & _ & X).
    apply bind_ok in X. destruct X as (g & _ & X). apply bind_ok in X. destruct X as (ab & EM & X). injection X as ->. exact (shape_ab _ _ _ _ _ _ _ _ EM). }
  destruct SH as ((LA & _) & (LB & RB)).
  assert (F : (u < 2)%nat /\ (y < 4)%nat -> exists sys, snd (bode_system ps v u y) = Ok sys).
  { intros (Hu & Hy). unfold bode_system. destruct (bicycle_state_space ps v FTrue) as [ps' r]. cbn [snd] in *. subst r. cbn [bind fst snd]. rewrite LA.
    destruct B as [|r0 [|r1 [|r2 [|r3 [|]]]]]; try discriminate.
    pose proof (RB r0 ltac:(cbn; auto)) as R0. pose proof (RB r1 ltac:(cbn; auto)) as R1. pose proof (RB r2 ltac:(cbn; auto)) as R2. pose proof (RB r3 ltac:(cbn; auto)) as R3. clear RB.
    destruct r0 as [|x0 [|y0 [|]]]; try discriminate. destruct r1 as [|x1 [|y1 [|]]]; try discriminate. destruct r2 as [|x2 [|y2 [|]]]; try discriminate. destruct r3 as [|x3 [|y3 [|]]]; try discriminate.
    destruct u as [|[|]]; [| |lia]; destruct y as [|[|[|[|]]]]; try lia; eexists; reflexivity. }
  assert (G : ~ ((u < 2)%nat /\ (y < 4)%nat) -> snd (bode_system ps v u y) = Err IndexError).
  { intros N. unfold bode_system. destruct (bicycle_state_space ps v FTrue) as [ps' r]. cbn [snd] in *. subst r. cbn [bind fst snd]. rewrite LA.
    destruct B as [|r0 [|r1 [|r2 [|r3 [|]]]]]; try discriminate.
    pose proof (RB r0 ltac:(cbn; auto)) as R0. pose proof (RB r1 ltac:(cbn; auto)) as R1. pose proof (RB r2 ltac:(cbn; auto)) as R2. pose proof (RB r3 ltac:(cbn; auto)) as R3. clear RB.
    destruct r0 as [|x0 [|y0 [|]]]; try discriminate. destruct r1 as [|x1 [|y1 [|]]]; try discriminate. destruct r2 as [|x2 [|y2 [|]]]; try discriminate. destruct r3 as [|x3 [|y3 [|]]]; try discriminate.
    destruct u as [|[|u]].
    3: { cbn [mapM]. unfold index at 1. cbn [nth_error]. destruct u; reflexivity. }
    all: destruct y as [|[|[|[|y]]]]; try (exfalso; apply N; lia); unfold index; cbn [mapM seq map nth_error bind]; destruct y; reflexivity. }
  split; [split; [exact F|]|exact G]. intros (sys & E). destruct (Nat.lt_ge_cases u 2) as [Hu|Hu]; [destruct (Nat.lt_ge_cases y 4) as [Hy|Hy]; [auto|]|].
  all: rewrite G in E by lia; discriminate.
Qed.
Print Assumptions C62_accepted_indices.

Example C62_satisfiable : exists A b c d, snd (bode_system [("Benchmark", even_bike)] 3 1 2) = Ok (A, b, c, d).
Proof.
  destruct (even_modes 1 3 ltac:(lra)) as (A & B & E & _).
  destruct (proj1 (proj1 (C62_accepted_indices _ _ 1%nat 2%nat _ _ E)) ltac:(lia)) as ((((A' & b) & c) & d) & H). eauto.
Qed.
