(* TStab.v -- C71: the sign of the real parts of the reported eigenvalues decides whether
   the coasting bicycle balances itself *)
From Coq Require Import Lra ClassicalDescription Lia Permutation Sorting.Sorted.
From Verif Require Import Base MString MHeap MBicycle MVec MInertia MSets MModels MModels2 PBase SBicycle PBicycle PBicycle2 PHeap SModels SModels2 PModels PModels2 PModels3
  PSets PSets2 PSets3 PModels4 PModels7 PModels9 PModels10 PModels11 PModels12 SSort PSort MEig SEig PEig PEig2 PEig3 TModels TModels2 TEig PModels8 SStab PStab PStab2 PStab3 PStab4.
Local Open Scope string_scope.
Local Open Scope R_scope.

Lemma eigvec_reversed M C1 K0 K2 v g A B A' B' z u : ab_matrix M C1 K0 K2 v g = Ok (A, B) -> ab_matrix M C1 K0 K2 (- v) g = Ok (A', B') -> eigvec A z u ->
  eigvec A' (- fst z, - snd z) (fun k => if (k <? 2)%nat then u k else (- fst (u k), - snd (u k))).
Proof.
  intros H H' E. pose proof (ab_ok _ _ _ _ _ _ _ H) as D. rewrite ab_forward in H by exact D. injection H as <- <-. rewrite ab_forward in H' by exact D. injection H' as <- <-.
  intros i Hi. destruct (E i Hi) as [E1 E2]. clear E. unfold mv, ent in *. cbn [sumn nth] in *. unfold cmul in *. cbn [fst snd Nat.ltb Nat.leb] in *.
  destruct i as [|[|[|[|]]]]; [| | | |lia]; cbn [nth fst snd Nat.ltb Nat.leb] in *; split; lra.
Qed.
(* what a reported row says about the bicycle *)
Lemma row_data eig ps p g l evs i : dget ps "Benchmark" = Some p -> dget p "g" = Some g -> bicycle_eig eig ps (SpSeq l) = Ok evs -> (i < length l)%nat ->
  length evs = length l /\ exists p' c A B, benchmark_par_to_canonical p = (p', Ok c) /\ ab_matrix (cM c) (cC1 c) (cK0 c) (cK2 c) (nth i l 0) g = Ok (A, B) /\
    shape 4 4 A /\ eig A = Ok (nth i evs ([], [])).
Proof.
  intros E G H Hi. destruct (eig_none eig ps l evs H) as (p1 & c1 & E1 & EC1). assert (p1 = p) as -> by congruence.
  apply (eig_iff eig ps l evs p E) in H; [|eauto].
  apply (forall2_nth _ 0 ([], [])) in H. destruct H as (L & H). split; [auto|]. destruct (H i Hi) as (A & B & ES & EE).
  apply (C60_state_space_is_the_standalone_function ps p FTrue _ A B E (or_introl eq_refl)) in ES. destruct ES as (c & g' & EC & EG & EM). assert (g' = g) as -> by congruence.
  destruct (benchmark_par_to_canonical p) as [p' r] eqn:EB. cbn [snd] in EC. subst r. exists p', c, A, B. split; [reflexivity|]. split; [exact EM|]. split; [|exact EE].
  destruct (ab_shape _ _ _ _ _ _ _ _ EM) as (LA & RA & _). split; [exact LA|]. rewrite Forall_forall in RA. exact RA.
Qed.

(* a reported eigenvalue with positive real part: the bicycle falls over *)
Theorem C71_positive_real_part_falls_over : forall eig ps p g l evs i z, eig_contract eig -> dget ps "Benchmark" = Some p -> dget p "g" = Some g ->
  bicycle_eig eig ps (SpSeq l) = Ok evs -> (i < length l)%nat -> In z (fst (nth i evs ([], []))) -> 0 < fst z -> falls_over (bike_of p) (nth i l 0) g.
Proof.
  intros eig ps p g l evs i z EC E G H Hi Hz HP. destruct (row_data eig ps p g l evs i E G H Hi) as (_ & p' & c & A & B & HC & HA & SA & EE).
  destruct (nth i evs ([], [])) as [w V]. cbn [fst] in Hz. destruct (EC 4%nat A w V SA EE) as (LW & _ & _ & EP). destruct (In_nth w z (0, 0) Hz) as (j & Hj & EJ). rewrite LW in Hj.
  destruct (pair_eigvec A _ V j (EP j Hj)) as [EV NZ]. rewrite EJ in EV. exact (unstable_falls p p' c _ g A B HC HA z _ EV NZ HP).
Qed.
Print Assumptions C71_positive_real_part_falls_over.

(* the bicycle balances itself exactly if all of them are negative *)
Theorem C71_balances_itself_iff_all_real_parts_are_negative : forall eig ps p g l evs i, eig_contract eig -> eig_complete eig -> dget ps "Benchmark" = Some p -> dget p "g" = Some g ->
  bicycle_eig eig ps (SpSeq l) = Ok evs -> (i < length l)%nat ->
  (balances_itself (bike_of p) (nth i l 0) g <-> forall z, In z (fst (nth i evs ([], []))) -> fst z < 0).
Proof.
  intros eig ps p g l evs i EC CP E G H Hi. destruct (row_data eig ps p g l evs i E G H Hi) as (_ & p' & c & A & B & HC & HA & SA & EE).
  destruct (nth i evs ([], [])) as [w V]. cbn [fst]. destruct (EC 4%nat A w V SA EE) as (LW & _ & _ & EP). split.
  - intros BI z Hz. destruct (Rlt_dec (fst z) 0) as [|N]; [assumption|]. exfalso. destruct (In_nth w z (0, 0) Hz) as (j & Hj & EJ). rewrite LW in Hj.
    destruct (pair_eigvec A _ V j (EP j Hj)) as [EV NZ]. rewrite EJ in EV. exact (nondecreasing_mode p p' c _ g A B HC HA z _ EV NZ ltac:(lra) BI).
  - intros N. exact (stable_balances p p' c _ g A B HC HA w (CP A w V SA EE) LW N).
Qed.
Print Assumptions C71_balances_itself_iff_all_real_parts_are_negative.

(* no bicycle does both *)
Theorem C71_falling_is_not_balancing : forall k v g, falls_over k v g -> ~ balances_itself k v g.
Proof.
  intros k v g F (C & mu & HM & BI). destruct (F 1 ltac:(lra)) as (phi & phi1 & del & del1 & CO & SZ & UB). specialize (BI _ _ _ _ CO).
  assert (X : forall t, 0 <= t -> size (phi t) (phi1 t) (del t) (del1 t) <= Rabs C).
  { intros t Ht. eapply Rle_trans; [apply BI, Ht|]. pose proof (RRle_abs C) as R1. pose proof (Rabs_pos C) as R2.
    assert (S0 : 0 <= size (phi 0) (phi1 0) (del 0) (del1 0)) by (unfold size; pose proof (Rabs_pos (phi 0)); pose proof (Rabs_pos (phi1 0)); pose proof (Rabs_pos (del 0)); pose proof (Rabs_pos (del1 0)); lra).
    assert (E0 : 0 < exp (- mu * t)) by apply exp_pos. assert (E1 : exp (- mu * t) <= 1).
    { pose proof (exp_ge (mu * t)) as X. assert (0 <= mu * t) by (apply Rmult_le_pos; lra). replace (- mu * t) with (- (mu * t)) by ring. rewrite exp_Ropp. rewrite <- Rinv_1. apply Rinv_le_contravar; lra. }
    apply (Rle_trans _ (Rabs C * size (phi 0) (phi1 0) (del 0) (del1 0) * exp (- mu * t))); [apply Rmult_le_compat_r; [lra|]; apply Rmult_le_compat_r; lra|].
    apply (Rle_trans _ (Rabs C * 1 * 1)); [|lra]. apply Rmult_le_compat; [apply Rmult_le_pos; lra|lra|apply Rmult_le_compat_l; lra|exact E1]. }
  unfold size in X. destruct UB as [UB|UB]; destruct (UB (Rabs C)) as (t & Ht & B); specialize (X t Ht); pose proof (Rabs_pos (phi t)); pose proof (Rabs_pos (phi1 t)); pose proof (Rabs_pos (del t)); pose proof (Rabs_pos (del1 t)); lra.
Qed.
Print Assumptions C71_falling_is_not_balancing.

(* travelling backwards: a bicycle that balances itself one way falls over the other way *)
Theorem C71_self_stable_bicycle_falls_over_backwards : forall eig ps p g l evs i, eig_contract eig -> dget ps "Benchmark" = Some p -> dget p "g" = Some g ->
  bicycle_eig eig ps (SpSeq l) = Ok evs -> (i < length l)%nat ->
  balances_itself (bike_of p) (nth i l 0) g -> falls_over (bike_of p) (- nth i l 0) g.
Proof.
  intros eig ps p g l evs i EC E G H Hi BI. destruct (row_data eig ps p g l evs i E G H Hi) as (_ & p' & c & A & B & HC & HA & SA & EE).
  destruct (nth i evs ([], [])) as [w V]. destruct (EC 4%nat A w V SA EE) as (LW & _ & _ & EP).
  destruct (pair_eigvec A _ V 0%nat (EP 0%nat ltac:(lia))) as [EV NZ]. set (z := nth 0 w (0, 0)) in *.
  destruct (Rlt_dec (fst z) 0) as [N|N]; [|exfalso; exact (nondecreasing_mode p p' c _ g A B HC HA z _ EV NZ ltac:(lra) BI)].
  assert (HB : exists A' B', ab_matrix (cM c) (cC1 c) (cK0 c) (cK2 c) (- nth i l 0) g = Ok (A', B')) by (rewrite (ab_forward _ _ _ _ _ _ (ab_ok _ _ _ _ _ _ _ HA)); eauto).
  destruct HB as (A' & B' & HB). apply (unstable_falls p p' c _ g A' B' HC HB (- fst z, - snd z) (fun k => if (k <? 2)%nat then cent V k 0 else (- fst (cent V k 0), - snd (cent V k 0)))).
  - exact (eigvec_reversed _ _ _ _ _ _ _ _ _ _ _ _ HA HB EV).
  - destruct NZ as (k & Hk & NK). exists k. split; [exact Hk|]. destruct (k <? 2)%nat; [exact NK|]. intros X. injection X as X1 X2. apply NK. apply injective_projections; cbn [fst snd]; lra.
  - cbn [fst]. lra.
Qed.
Print Assumptions C71_self_stable_bicycle_falls_over_backwards.

(* and none balances itself at rest *)
Theorem C71_no_bicycle_balances_itself_at_rest : forall eig ps p g l evs i, eig_contract eig -> dget ps "Benchmark" = Some p -> dget p "g" = Some g ->
  bicycle_eig eig ps (SpSeq l) = Ok evs -> (i < length l)%nat -> nth i l 0 = 0 -> ~ balances_itself (bike_of p) 0 g.
Proof.
  intros eig ps p g l evs i EC E G H Hi EZ BI. pose proof (C71_self_stable_bicycle_falls_over_backwards eig ps p g l evs i EC E G H Hi) as X. rewrite EZ, Ropp_0 in X.
  exact (C71_falling_is_not_balancing _ _ _ (X BI) BI).
Qed.
Print Assumptions C71_no_bicycle_balances_itself_at_rest.

(* ---- what the plots show ---- *)
Lemma plot_rows eig ps sp cs lg : plot_eigenvalues eig ps sp lg = Ok cs -> exists evs, bicycle_eig eig ps (SpSeq (rsort sp)) = Ok evs.
Proof. intros E. unfold plot_eigenvalues in E. apply bind_ok in E. destruct E as (evs & EE & _). eauto. Qed.

(* the curve of the largest real part is below zero exactly where the bicycle balances itself *)
Theorem C71_largest_real_part_curve : forall eig ps p g sp speeds cs, eig_contract eig -> eig_complete eig -> dget ps "Benchmark" = Some p -> dget p "g" = Some g ->
  sorted_copy sp speeds -> plot_eigenvalues eig ps sp true = Ok cs ->
  exists c, cs = [c] /\ over speeds c /\ forall i, (i < length speeds)%nat ->
    (snd (pt c i) < 0 <-> balances_itself (bike_of p) (nth i speeds 0) g) /\ (0 < snd (pt c i) -> falls_over (bike_of p) (nth i speeds 0) g).
Proof.
  intros eig ps p g sp speeds cs EC CP E G SC H. apply rsort_unique in SC. subst speeds. unfold plot_eigenvalues in H.
  apply bind_ok in H. destruct H as (evs & EE & H). apply bind_ok in H. destruct H as (ys & EY & H). apply bind_ok in H. destruct H as (lo & _ & H). injection H as <-.
  destruct (eig_rows eig ps (rsort sp) evs EC EE) as (L & HR). apply mapM_nth_iff in EY. destruct EY as (LY & HY).
  eexists. split; [reflexivity|]. assert (LL : length ys = length (rsort sp)) by (unfold eigres in *; lia). destruct (curve_over (rsort sp) ys LL) as (O & VL). split; [exact O|].
  intros i Hi. rewrite (VL i Hi). specialize (HY i ([], []) 0 ltac:(unfold eigres in *; lia)). cbn beta in HY. apply lmax_spec in HY. destruct HY as (IN & UP). apply in_map_iff in IN. destruct IN as (z & EZ & IZ). split.
  - rewrite (C71_balances_itself_iff_all_real_parts_are_negative eig ps p g (rsort sp) evs i EC CP E G EE Hi). split.
    + intros N z' Hz'. eapply Rle_lt_trans; [apply UP, in_map, Hz'|exact N].
    + intros N. rewrite <- EZ. apply N, IZ.
  - intros P. apply (C71_positive_real_part_falls_over eig ps p g (rsort sp) evs i z EC E G EE Hi IZ). rewrite EZ. exact P.
Qed.
Print Assumptions C71_largest_real_part_curve.

Lemma balances_stable_sample eig ps p g sp fg lg st cs reg speeds : eig_contract eig -> dget ps "Benchmark" = Some p -> dget p "g" = Some g -> sorted_copy sp speeds ->
  plot_eigenvalues_plotly eig ps sp fg lg st = Ok (cs, reg) -> forall i, (i < length speeds)%nat -> balances_itself (bike_of p) (nth i speeds 0) g -> stable_sample cs i.
Proof.
  intros EC E G SC H i Hi BI q Hq. apply rsort_unique in SC. subst speeds.
  destruct (plotly_drawn eig ps sp fg lg st cs _ EC H) as (_ & _ & evs & w1 & w2 & cap & cas & D & -> & _). pose proof (dr_eig _ _ _ _ _ D) as EE.
  set (m4 := [w1; w2; cap; cas]) in *. assert (IN : In (nth q m4 []) m4) by (apply nth_In; exact Hq). pose proof (dr_lens _ _ _ _ _ D _ IN) as LL.
  rewrite app_nth1 by (rewrite map_length; exact Hq). rewrite (nth_map _ m4 q []) by exact Hq. rewrite re_curve_at by auto.
  set (z := nth i (nth q m4 []) (0, 0)). assert (HZ : In z (fst (nth i evs ([], [])))) by (unfold z; apply (dr_in _ _ _ _ _ D); assumption).
  destruct (Rlt_dec (fst z) 0) as [|NN]; [assumption|]. exfalso.
  destruct (row_data eig ps p g _ evs i E G EE Hi) as (_ & p' & c & A & B & HC & HA & SA & EA). destruct (nth i evs ([], [])) as [w V]. cbn [fst] in HZ.
  destruct (EC 4%nat A w V SA EA) as (LW & _ & _ & EP). destruct (In_nth w z (0, 0) HZ) as (j & Hj & EJ). rewrite LW in Hj.
  destruct (pair_eigvec A _ V j (EP j Hj)) as [EV NZ]. rewrite EJ in EV. exact (nondecreasing_mode p p' c _ g A B HC HA z _ EV NZ ltac:(lra) BI).
Qed.
(* every sampled speed at which the bicycle balances itself is highlighted *)
Theorem C71_self_stable_speeds_are_highlighted : forall eig ps p g sp fg lg st cs a b speeds, eig_contract eig -> dget ps "Benchmark" = Some p -> dget p "g" = Some g -> sorted_copy sp speeds ->
  plot_eigenvalues_plotly eig ps sp fg lg st = Ok (cs, Region a b) ->
  forall i, (i < length speeds)%nat -> balances_itself (bike_of p) (nth i speeds 0) g -> a <= nth i speeds 0 <= b.
Proof.
  intros eig ps p g sp fg lg st cs a b speeds EC E G SC H i Hi BI. destruct (C61_stable_speeds_are_highlighted eig ps sp fg lg st cs a b speeds EC SC H) as (_ & X). apply X; [exact Hi|].
  exact (balances_stable_sample eig ps p g sp fg lg st cs _ speeds EC E G SC H i Hi BI).
Qed.
Print Assumptions C71_self_stable_speeds_are_highlighted.

(* and "no stability region" means that no two sampled speeds as far as 0.0001 apart are self-stable *)
Theorem C71_no_region_no_self_stable_interval : forall eig ps p g sp fg lg st cs speeds, eig_contract eig -> dget ps "Benchmark" = Some p -> dget p "g" = Some g -> sorted_copy sp speeds ->
  plot_eigenvalues_plotly eig ps sp fg lg st = Ok (cs, NoRegion) ->
  forall i j, (i < length speeds)%nat -> (j < length speeds)%nat -> balances_itself (bike_of p) (nth i speeds 0) g -> balances_itself (bike_of p) (nth j speeds 0) g -> nth j speeds 0 - nth i speeds 0 < 1 / 10000.
Proof.
  intros eig ps p g sp fg lg st cs speeds EC E G SC H i j Hi Hj BI BJ. apply (C61_no_region_means_no_stable_interval eig ps sp fg lg st cs speeds EC SC H i j Hi Hj);
    eapply (balances_stable_sample eig ps p g sp fg lg st cs _ speeds EC E G SC H); assumption.
Qed.
Print Assumptions C71_no_region_no_self_stable_interval.

(* with smooth curves each contiguous in its negative part, the highlighted samples are exactly the self-stable ones *)
Theorem C71_highlighted_speeds_are_self_stable : forall eig ps p g sp fg lg st cs a b speeds evs e0 rest eps, eig_contract eig -> eig_complete eig -> dget ps "Benchmark" = Some p -> dget p "g" = Some g ->
  sorted_copy sp speeds -> NoDup sp -> bicycle_eig eig ps (SpSeq speeds) = Ok evs -> evs = e0 :: rest -> smooth eps 4 (fst e0) (with_columns rest) ->
  plot_eigenvalues_plotly eig ps sp fg lg st = Ok (cs, Region a b) -> (forall q, (q < 4)%nat -> contiguous (nth q cs [])) ->
  forall i, (i < length speeds)%nat -> (a <= nth i speeds 0 <= b <-> balances_itself (bike_of p) (nth i speeds 0) g).
Proof.
  intros eig ps p g sp fg lg st cs a b speeds evs e0 rest eps EC CP E G SC ND EE EV SM H CT i Hi. split; [|eapply C71_self_stable_speeds_are_highlighted; eauto].
  intros AB. pose proof (C61_highlighted_speeds_are_stable_if_contiguous eig ps sp fg lg st cs a b speeds EC SC ND H CT i Hi AB) as SS.
  apply (C71_balances_itself_iff_all_real_parts_are_negative eig ps p g speeds evs i EC CP E G EE Hi). pose proof (rsort_unique sp speeds SC) as ->.
  destruct (plotly_drawn eig ps sp fg lg st cs _ EC H) as (_ & _ & evs' & w1 & w2 & cap & cas & D & -> & _). pose proof (dr_eig _ _ _ _ _ D) as X. assert (evs' = evs) as -> by congruence.
  destruct (drawn_smooth _ _ _ _ _ eps e0 rest D EV SM i Hi) as (zs & PM & SH). intros z Hz. apply (Permutation_in _ (Permutation_sym PM)) in Hz.
  assert (LZ : length zs = 4%nat).
  { rewrite (Permutation_length PM). destruct (row_data eig ps p g _ evs i E G EE Hi) as (_ & p' & c & A & B & _ & _ & SA & EA). destruct (nth i evs ([], [])) as [w V]. exact (proj1 (EC 4%nat A w V SA EA)). }
  destruct (In_nth zs z (0, 0) Hz) as (q & Hq & <-). rewrite LZ in Hq. destruct (SH q Hq) as (<- & _). specialize (SS q Hq).
  rewrite app_nth1 in SS by (rewrite map_length; exact Hq). exact SS.
Qed.
Print Assumptions C71_highlighted_speeds_are_self_stable.

(* ---- the models ---- *)
(* free simulations of a model whose eigenvalues have negative real parts die out, at a
   rate and with a bound that depend on neither the initial state nor the times *)
Theorem C71_stable_simulations_die_out : forall solve eig m s ov h d w V, solver_contract solve -> eig_contract eig -> eig_complete eig -> m = MMeijaard \/ m = MFeedback ->
  fit m s h d -> NoDup (dkeys ov) -> snd (calc_eigen eig (state_space m s) false ov h) = Ok (Single (w, V)) -> (forall z, In z w -> fst z < 0) ->
  exists C mu, 0 < mu /\ forall times x0 st us t0, increasing times -> hd_error times = Some t0 -> snd (simulate solve s (state_space m s) times x0 None ov h) = Ok (st, us) ->
    forall k i, (k < length times)%nat -> (i < 4)%nat -> Rabs (ent st k i) <= C * rsum (map Rabs x0) * exp (- mu * (nth k times 0 - t0)).
Proof.
  intros solve eig m s ov h d w V SC EC CP HM F N HE NEG.
  assert (SE : sound_equations m) by (destruct HM; subst m; exact Logic.I). assert (N4 : n_states m = 4%nat) by (destruct HM; subst m; reflexivity).
  pose proof (sst_shape m s ov h d SE F N) as (SH & _). rewrite calc_eigen_eq in HE. cbn [snd] in HE.
  destruct (snd (state_space m s ov h)) as [[[A B]|l]|] eqn:ES; [|destruct (mapM _ l); discriminate|discriminate]. cbn [fst orient] in HE.
  destruct (eig A) as [wv|] eqn:EE; [|discriminate]. injection HE as ->. destruct (SH A B eq_refl) as (SA & _). rewrite N4 in SA.
  destruct (EC 4%nat A w V SA EE) as (LW & _). destruct (lin_stable A w (CP A w V SA EE) LW NEG) as (C & mu & H1 & H2 & H3).
  exists C, mu. split; [exact H1|]. intros times x0 st us t0 IN ET SM k i Hk Hi.
  destruct (simulation solve m s ov h d times x0 None st us SC SE IN F N SM) as (A' & B' & t1 & x & EA & ET1 & I0 & MO & LS & _ & VS).
  assert (A' = A /\ B' = B /\ t1 = t0) as (-> & -> & ->) by (repeat split; congruence). rewrite N4 in MO.
  pose proof (increasing_bounds times t0 k IN ET Hk) as BD. unfold ent. rewrite (proj1 (VS k Hk)).
  assert (SO : solves 4 (ent A) (nth k times 0 - t0) (fun t i => nth i (x (t0 + t)) 0)).
  { intros t j Ht Hj. destruct (MO (t0 + t) ltac:(lra)) as (_ & u & (_ & U0) & D). specialize (D j Hj). rewrite !rsum_seq in D.
    assert (Z : sumn (n_inputs m) (fun k => ent B j k * nth k u 0) = 0) by (transitivity (sumn (n_inputs m) (fun _ => 0)); [apply sumn_ext; intros q _; rewrite U0; ring|apply sumn_zero]). rewrite Z, Rplus_0_r in D.
    refine (eq_ind _ (fun r => derivable_pt_lim _ t r) (derivable_pt_lim_comp (fun t => t0 + t) (fun t => nth j (x t) 0) t (0 + 1) _ _ D) _ _).
    - apply (derivable_pt_lim_plus (fun _ => t0) (fun t => t)); [apply derivable_pt_lim_const|apply derivable_pt_lim_id].
    - unfold mv. ring. }
  pose proof (H3 (nth k times 0 - t0) _ ltac:(lra) SO (nth k times 0 - t0) i ltac:(lra) Hi) as X. cbn beta in X. rewrite Rplus_0_r in X. replace (t0 + (nth k times 0 - t0)) with (nth k times 0) in X by ring.
  rewrite I0 in X. destruct (MO t0 ltac:(lra)) as (L0 & _). rewrite I0 in L0. destruct x0 as [|a [|b [|c [|e [|]]]]]; try discriminate. unfold rsum. cbn [map fold_right].
  cbn [sumn nth] in X. replace (Rabs a + (Rabs b + (Rabs c + (Rabs e + 0)))) with (0 + Rabs a + Rabs b + Rabs c + Rabs e) by ring. exact X.
Qed.
Print Assumptions C71_stable_simulations_die_out.

(* ---- a bicycle that balances itself at 4 m/s: its eigenvalues are -1, -2, -4 and -7 ---- *)
Definition self_bike : dict R :=
  [("w", 1); ("c", 0); ("lam", 0); ("g", 10); ("v", 4); ("rR", 1 / 4); ("mR", 4); ("IRxx", 1 / 8); ("IRyy", 349 / 1600);
   ("xB", 1); ("zB", -19 / 50); ("mB", 16); ("IBxx", 6521 / 10000); ("IByy", 2); ("IBzz", 1); ("IBxz", 31 / 100);
   ("xH", 21 / 16); ("zH", -1 / 10); ("mH", 8); ("IHxx", 1 / 2); ("IHyy", 1 / 2); ("IHzz", 5 / 32); ("IHxz", -1 / 4);
   ("rF", 1 / 10); ("mF", 2); ("IFxx", 1 / 16); ("IFyy", 1 / 8)].
Definition self_A : marr := [[0; 0; 1; 0]; [0; 0; 0; 1]; [101 / 5; - 864 / 25; 0; - 216 / 25]; [25; -40; 5; -14]].
Definition self_w : list cplx := [(-1, 0); (-2, 0); (-4, 0); (-7, 0)].
Definition self_V : list (list cplx) :=
  [[(27, 0); (16, 0); (0, 0); (9, 0)]; [(20, 0); (15, 0); (1, 0); (10, 0)]; [(-27, 0); (-32, 0); (0, 0); (-63, 0)]; [(-20, 0); (-30, 0); (-4, 0); (-70, 0)]].
Definition self_eig (A : marr) : res eigres := if list_eq_dec (list_eq_dec Req_EM_T) A self_A then Ok (self_w, self_V) else Err RuntimeError.
Lemma self_contract : eig_contract self_eig.
Proof.
  intros n A w V (LA & _) E. unfold self_eig in E. destruct (list_eq_dec _ A self_A) as [->|]; [|discriminate]. injection E as <- <-. assert (n = 4%nat) as -> by (symmetry; exact LA).
  split; [reflexivity|]. split; [reflexivity|]. split; [intros row [<-|[<-|[<-|[<-|[]]]]]; reflexivity|]. intros j Hj. split.
  - exists 1%nat. split; [lia|]. unfold cent, self_V. destruct j as [|[|[|[|]]]]; try lia; cbn [nth]; intros X; injection X; lra.
  - intros i Hi. unfold csum, cent, cmul, rsum, ent, self_V, self_w, self_A.
    destruct j as [|[|[|[|]]]]; try lia; destruct i as [|[|[|[|]]]]; try lia; cbn [nth seq map fst snd fold_right]; apply (f_equal2 (@pair R R)); lra.
Qed.
Lemma self_complete : eig_complete self_eig.
Proof.
  intros A w V _ E. unfold self_eig in E. destruct (list_eq_dec _ A self_A) as [->|]; [|discriminate]. injection E as <- <-. intros s.
  unfold self_w. rewrite cprod4. unfold e1r, e1i, e2r, e2i, e3r, e3i, e4r, e4i, w12, w34, s12, s34, cmul. cbn [fst snd].
  rewrite cdet_ent. unfold cdet, ent, self_A. cbn [nth det altsum hd tl map remove_at]. apply (f_equal2 (@pair R R)); field.
Qed.
Lemma self_canonical : exists p' c, benchmark_par_to_canonical self_bike = (p', Ok c).
Proof.
  apply canonical_success. split.
  - intros k Hk. unfold canon_keys in Hk. unfold self_bike, dkeys. cbn [In map fst] in *. repeat (destruct Hk as [Hk|Hk]; [subst k; tauto|]). contradiction.
  - unfold canon_nonzero, pv, self_bike. cbn [map fst snd dget String.eqb Ascii.eqb Bool.eqb]. repeat split; lra.
Qed.
Lemma self_matrices : F_canon (pv self_bike) = mkcanon (mk2 4 0 0 1) (mk2 0 (216 / 25) (- (5 / 4)) (7 / 2)) (mk2 (- 202 / 25) (- (5 / 2)) (- (5 / 2)) 0) (mk2 0 (4081 / 400) 0 (5 / 2)).
Proof.
  assert (L : pv self_bike "lam" = 0) by reflexivity. unfold F_canon, F_mu, F_IAll, F_IAlx, F_IAlz, F_SA, F_uA, F_mu. rewrite L, cos_0, sin_0.
  unfold F_ITxx, F_ITxz, F_ITzz, F_ST, F_SR, F_SF, F_zT, F_mT, F_IAxx, F_IAxz, F_IAzz, F_xA, F_zA, F_mA. unfold pv, self_bike. cbn [dget String.eqb Ascii.eqb Bool.eqb].
  assert (E4 : forall a b c d a' b' c' d', a = a' -> b = b' -> c = c' -> d = d' -> mk2 a b c d = mk2 a' b' c' d') by (intros; subst; reflexivity).
  assert (E5 : forall a b c d a' b' c' d', a = a' -> b = b' -> c = c' -> d = d' -> mkcanon a b c d = mkcanon a' b' c' d') by (intros; subst; reflexivity).
  apply E5; apply E4; field; lra.
Qed.
Lemma self_state_space : exists p' c B, benchmark_par_to_canonical self_bike = (p', Ok c) /\ ab_matrix (cM c) (cC1 c) (cK0 c) (cK2 c) 4 10 = Ok (self_A, B).
Proof.
  destruct self_canonical as (p' & c & H). pose proof (canon_inversion _ _ _ H) as (_ & _ & _ & EC). rewrite self_matrices in EC. exists p', c. subst c. eexists. split; [exact H|]. cbn [cM cC1 cK0 cK2].
  rewrite ab_forward by (unfold det2; cbn [m11 m12 m21 m22]; lra). cbv zeta. apply (f_equal Ok). apply (f_equal2 (@pair _ _)); [|reflexivity]. unfold self_A, det2. cbn [m11 m12 m21 m22 m2_neg m2_dot m2_scale m2_add].
  repeat match goal with |- _ :: _ = _ :: _ => apply f_equal2 | |- [] = [] => reflexivity end; field.
Qed.
Lemma self_reported : bicycle_eig self_eig [("Benchmark", self_bike)] (SpSeq [4]) = Ok [(self_w, self_V)].
Proof.
  destruct self_state_space as (p' & c & B & H & HA). apply (eig_iff self_eig [("Benchmark", self_bike)] [4] [(self_w, self_V)] self_bike eq_refl); [exists c; unfold canonical; rewrite H; reflexivity|].
  constructor; [|constructor]. exists self_A, B. split.
  - apply (C60_state_space_is_the_standalone_function [("Benchmark", self_bike)] self_bike FTrue 4 self_A B eq_refl (or_introl eq_refl)). exists c, 10. rewrite H. auto.
  - unfold self_eig. destruct (list_eq_dec _ self_A self_A) as [_|N]; [reflexivity|contradiction N; reflexivity].
Qed.
(* its bodies are physical, it balances itself riding forwards at 4 m/s and falls over backwards *)
Example C71_bicycle : eig_contract self_eig /\ eig_complete self_eig /\ bicycle_eig self_eig [("Benchmark", self_bike)] (SpSeq [4]) = Ok [(self_w, self_V)] /\
  Forall physical (k_bodies (bike_of self_bike)) /\ balances_itself (bike_of self_bike) 4 10 /\ falls_over (bike_of self_bike) (-4) 10 /\
  exists phi phi1 del del1, coasts (bike_of self_bike) 4 10 phi phi1 del del1 /\ phi 0 = 27.
Proof.
  assert (BI : balances_itself (bike_of self_bike) 4 10).
  { apply (proj2 (C71_balances_itself_iff_all_real_parts_are_negative self_eig [("Benchmark", self_bike)] self_bike 10 [4] [(self_w, self_V)] 0 self_contract self_complete eq_refl eq_refl self_reported ltac:(cbn; lia))).
    intros z Hz. cbn [nth fst] in Hz. destruct Hz as [<-|[<-|[<-|[<-|[]]]]]; cbn [fst]; lra. }
  split; [exact self_contract|]. split; [exact self_complete|]. split; [exact self_reported|]. split.
  { unfold bike_of, rear_wheel, rear_frame, front_frame, front_wheel, pv, self_bike. cbn [map fst snd dget String.eqb Ascii.eqb Bool.eqb k_bodies].
    repeat (constructor; [unfold physical; cbn [b_m b_Ixx b_Izz b_Ixz]; lra|]). constructor. }
  split; [exact BI|]. split.
  { exact (C71_self_stable_bicycle_falls_over_backwards self_eig [("Benchmark", self_bike)] self_bike 10 [4] [(self_w, self_V)] 0 self_contract eq_refl eq_refl self_reported ltac:(cbn; lia) BI). }
  destruct self_state_space as (p' & c & B & H & HA). assert (SH : shape 4 4 self_A) by (split; [reflexivity|intros row [<-|[<-|[<-|[<-|[]]]]]; reflexivity]).
  destruct (self_contract 4%nat self_A self_w self_V SH) as (_ & _ & _ & EP).
  { unfold self_eig. destruct (list_eq_dec _ self_A self_A) as [_|N]; [reflexivity|contradiction N; reflexivity]. }
  destruct (pair_eigvec _ _ _ 0%nat (EP 0%nat ltac:(lia))) as [EV _]. pose proof (solves_coasts _ _ _ _ _ _ _ H HA _ (mode_solves _ _ _ EV)) as CO. do 4 eexists. split; [exact CO|].
  cbn beta. rewrite mode_start. reflexivity.
Qed.
(* the plots of it *)
Example C71_plots : (exists cs, plot_eigenvalues self_eig [("Benchmark", self_bike)] [4] true = Ok cs) /\ sorted_copy [4] [4].
Proof.
  split.
  - unfold plot_eigenvalues. change (rsort [4]) with [4]. rewrite self_reported. cbn [bind mapM lmax map fst self_w]. eexists. reflexivity.
  - split; [apply Permutation_refl|]. repeat constructor.
Qed.
(* a simulation that dies out *)
Definition self_solver : solver := fun f t0 tf x0 times =>
  if excluded_middle_informative (forall t, f t (map (Rmult (exp (- (t - t0)))) x0) = Ok (map (Rmult (- exp (- (t - t0)))) x0))
  then Ok (map (fun x => map (fun t => exp (- (t - t0)) * x) times) x0) else Err RuntimeError.
Lemma deriv_ext f h t l : (forall s, f s = h s) -> derivable_pt_lim f t l -> derivable_pt_lim h t l.
Proof. intros E D e He. destruct (D e He) as (d & Hd). exists d. intros x N L. rewrite <- !E. apply Hd; assumption. Qed.
Lemma self_solver_contract : solver_contract self_solver.
Proof.
  intros f t0 tf x0 times y. unfold self_solver. destruct (excluded_middle_informative _) as [H|_]; [|discriminate]. intros E. injection E as <-.
  split; [apply map_length|]. split.
  - intros row Hr. apply in_map_iff in Hr. destruct Hr as (x & <- & _). apply map_length.
  - exists (fun t => map (Rmult (exp (- (t - t0)))) x0). split.
    + replace (- (t0 - t0)) with 0 by ring. rewrite exp_0. rewrite <- (map_id x0) at 2. apply map_ext. intros; ring.
    + split.
      * intros t _. split; [apply map_length|]. eexists. split; [apply H|]. split; [apply map_length|]. intros i Hi. unfold comp.
        assert (NM : forall k, nth i (map (Rmult k) x0) 0 = k * nth i x0 0) by (intros k; rewrite <- (Rmult_0_r k) at 1; apply map_nth). rewrite NM.
        apply (deriv_ext (fun t => nth i x0 0 * exp (- (t - t0)))); [intros s; rewrite NM; ring|]. replace (- exp (- (t - t0)) * nth i x0 0) with (nth i x0 0 * (exp (- (t - t0)) * (- (1 - 0)))) by ring.
        apply (derivable_pt_lim_scal (fun t => exp (- (t - t0)))). apply (derivable_pt_lim_comp (fun t => - (t - t0)) exp); [|apply derivable_pt_lim_exp].
        apply (derivable_pt_lim_opp (fun t => t - t0)). apply (derivable_pt_lim_minus (fun t => t) (fun _ => t0)); [apply derivable_pt_lim_id|apply derivable_pt_lim_const].
      * intros i k Hi Hk. unfold ent. rewrite (nth_indep _ [] ((fun x => map (fun t => exp (- (t - t0)) * x) times) 0)) by (rewrite map_length; exact Hi).
        rewrite (map_nth (fun x => map (fun t => exp (- (t - t0)) * x) times)). rewrite (nth_indep _ 0 (exp (- (0 - t0)) * nth i x0 0)) by (rewrite map_length; exact Hk). rewrite (map_nth (fun t => exp (- (t - t0)) * nth i x0 0)).
        symmetry. generalize (exp (- (nth k times 0 - t0))). intros e. rewrite <- (Rmult_0_r e) at 1. apply map_nth.
Qed.
Definition self_set : pset := mkset CMeijaard2007 0 (Some true).
Example C71_simulation : fit MMeijaard self_set [nums self_bike] (nums self_bike) /\ solver_contract self_solver /\
  snd (calc_eigen self_eig (state_space MMeijaard self_set) false [] [nums self_bike]) = Ok (Single (self_w, self_V)) /\ (forall z, In z self_w -> fst z < 0) /\
  exists st us, snd (simulate self_solver self_set (state_space MMeijaard self_set) [0; 1; 2] [27; 20; -27; -20] None [] [nums self_bike]) = Ok (st, us) /\ ent st 2 0 = exp (-2) * 27.
Proof.
  assert (F : fit MMeijaard self_set [nums self_bike] (nums self_bike)).
  { split; [reflexivity|]. apply (complete_required CMeijaard2007). intros k Hk. cbn [par_strings In] in Hk. repeat (destruct Hk as [<-|Hk]; [eexists; reflexivity|]). contradiction. }
  split; [exact F|]. split; [exact self_solver_contract|].
  assert (SS : exists B, snd (state_space MMeijaard self_set [] [nums self_bike]) = Ok (Single (self_A, B))).
  { destruct self_state_space as (p' & c & B & H & HA). exists B. cbn [state_space]. apply (ss_scalar self_set [] [nums self_bike] (nums self_bike) (self_A, B) eq_refl (NoDup_nil _) empty_scalar).
    rewrite rowd_nil. apply ss_row_iff. exists c, 4, 10. change (floats (nums self_bike)) with self_bike. rewrite H. auto. }
  destruct SS as (B & SS). split.
  { rewrite calc_eigen_eq. cbn [snd]. rewrite SS. cbn [fst orient]. unfold self_eig. destruct (list_eq_dec _ self_A self_A) as [_|N]; [reflexivity|contradiction N; reflexivity]. }
  split; [intros z Hz; destruct Hz as [<-|[<-|[<-|[<-|[]]]]]; cbn [fst]; lra|].
  do 2 eexists. split.
  - eapply simulate_run; [exact F|apply NoDup_nil|exact empty_scalar|exact SS|reflexivity| |].
    + unfold self_solver. destruct (excluded_middle_informative _) as [_|X]; [reflexivity|]. exfalso. apply X. intros t. generalize (exp (- (t - 0))). intros e.
      unfold matvec, self_A, rsum. cbn [mapM length Nat.eqb bind map combine fst snd fold_right]. do 2 f_equal; [ring|f_equal; [ring|f_equal; [field|f_equal; ring]]].
    + cbn [map ytimes hd length seq mapM column index nth_error bind]. reflexivity.
  - unfold ent. cbn [nth]. f_equal. f_equal. ring.
Qed.
