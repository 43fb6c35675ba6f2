(* PPlots5.v -- plot_eigenvectors: scalar and array calls *)
From Coq Require Import Lra Lia.
From Verif Require Import Base MString MHeap MBicycle MVec MInertia MSets MSets2 MModels MModels2 MEig MDraw PBase SBicycle PBicycle PHeap SModels SModels2 SSort PSort
  PModels PModels2 PModels3 PModels4 PSets3 PModels5 PModels6 PModels7 PModels8 PModels9 PModels10 PModels11 PEig3 PDraw MPlots SPlots PPlots PPlots2 PPlots3 PPlots4.
Local Open Scope string_scope.
Local Open Scope R_scope.

Lemma parse_bad_eigen eig m s left ov h d e : fit m s h d -> NoDup (dkeys ov) -> parsed d ov = Err e -> snd (calc_eigen eig (state_space m s) left ov h) = Err e.
Proof.
  intros F N E. pose proof (parsed_ok d ov N) as P. rewrite E in P. destruct P as (-> & P).
  rewrite calc_eigen_eq. cbn [snd]. rewrite (sst_bad m s ov h d F N); [reflexivity|]. intros X. apply P. exact X.
Qed.
Lemma plot_vectors_eq eig m s n hz ov h d : fit m s h d -> NoDup (dkeys ov) ->
  preserved h (fst (plot_eigenvectors eig m s n hz ov h)) /\
  snd (plot_eigenvectors eig m s n hz ov h) =
    (ev <- snd (calc_eigen eig (state_space m s) false ov h) ;; vectors_figure n (par_of d ov) (array_keys_of d ov) ev hz).
Proof.
  intros F N. unfold plot_eigenvectors, hbind.
  rewrite (parse_parameter_overrides_eq _ _ _ _ (proj1 F)). pose proof (parsed_ok d ov N) as PO. destruct (parsed d ov) as [[[d' ks] len]|e] eqn:EP.
  2:{ cbn [fst snd]. rewrite (parse_bad_eigen eig m s false ov h d e F N EP). split; [|reflexivity]. apply preserved_refl || apply preserved_app. }
  destruct PO as (-> & _ & _ & _ & E'). fold (par_of d ov) in E'. subst d'. cbn [fst snd]. fold (par_of d ov).
  assert (P1 : preserved h (h ++ [par_of d ov])) by apply preserved_app.
  pose proof (fit_preserved m s _ _ d P1 F) as F1. pose proof (eigen_preserves eig false m s ov _ d F1 N) as P2.
  pose proof (calc_eigen_det eig m s ov h _ d F P1 N false) as DT.
  destruct (calc_eigen eig (state_space m s) false ov (h ++ [par_of d ov])%list) as [h2 r] eqn:EC. cbn [fst snd] in *. subst r.
  destruct (snd (calc_eigen eig (state_space m s) false ov h)) as [ev|e]; cbn [bind]; [|split; [eapply preserved_trans; eauto|reflexivity]].
  assert (HL : hload (length h) h2 = (h2, Ok (par_of d ov))).
  { apply hload_eq. destruct P2 as (t & ->). rewrite nth_error_app1 by (rewrite app_length; cbn; lia). rewrite nth_error_app2 by lia. rewrite Nat.sub_diag. reflexivity. }
  rewrite HL. unfold lift. cbn [fst snd]. split; [eapply preserved_trans; eauto|reflexivity].
Qed.

(* the columns of the array of eigenvectors are not zero *)
Lemma column_nonzero n A w V j : eigenpairs false n A w V -> (j < n)%nat -> length (ccol V j) = n /\ ccol V j <> [] /\ exists z, In z (ccol V j) /\ z <> (0, 0).
Proof.
  intros (LW & LV & RV & EP) Hj. unfold ccol. rewrite map_length. split; [exact LV|]. destruct (EP j Hj) as ((i & Hi & NZ) & _). cbn [fst] in *.
  assert (Iz : In (cent V i j) (map (fun row => nth j row (0, 0)) V)).
  { unfold cent. apply (in_map (fun row => nth j row (0, 0))). apply nth_In. rewrite LV. exact Hi. }
  split; [intros X; rewrite X in Iz; destruct Iz|]. exists (cent V i j). auto.
Qed.

Lemma vectors_single eig m s hz ov h d w V : eig_contract eig -> sound_equations m -> fit m s h d -> NoDup (dkeys ov) -> (forall k, ~ array_given d ov k) ->
  snd (calc_eigen eig (state_space m s) false ov h) = Ok (Single (w, V)) ->
  exists js, shown_modes (1 / 10 ^ 14) hz w js /\
    (js = [] -> snd (plot_eigenvectors eig m s (n_states m) hz ov h) = Err (ValueError "Number of columns must be a positive integer")) /\
    (js <> [] -> exists ps, snd (plot_eigenvectors eig m s (n_states m) hz ov h) = Ok (ps, []) /\ length ps = length js /\
       forall a, (a < length js)%nat -> exists p, nth_error ps a = Some p /\ pn_row p = 0%nat /\ pn_col p = a /\
         pn_title p = nth (nth a js 0%nat) w (0, 0) /\ (pn_red p = true <-> 0 <= fst (nth (nth a js 0%nat) w (0, 0))) /\
         shows_vector (ccol V (nth a js 0%nat)) (pn_lines p)).
Proof.
  intros EC SE F N NA EV. destruct (plot_vectors_eq eig m s (n_states m) hz ov h d F N) as (_ & EQ). rewrite EV in EQ. cbn [bind] in EQ.
  assert (EK : array_keys_of d ov = []).
  { destruct (array_keys_of d ov) as [|k r] eqn:EK; [reflexivity|]. exfalso. apply (NA k). apply (in_array_keys d ov k N). rewrite EK. left; reflexivity. }
  rewrite EK in EQ. destruct (eigen_single eig m s false ov h d w V EC SE F N EV) as (A & B & _ & EP).
  pose proof EP as (LW & LV & RV & _).
  assert (LC : length (columns_of V) = n_states m) by (unfold columns_of; rewrite map_length, seq_length; exact LV).
  destruct (figure_rows (n_states m) (par_of d ov) [] (Single (w, V)) hz 1 w [0]) as (R1 & R3); auto; try (cbn; lia).
  { intros k Hk. assert (k = 0%nat) as -> by lia. cbn [evals_2d evecs_T nth fst snd]. split; [reflexivity|]. rewrite LW. exact LC. }
  exists (vis (1 / 10 ^ 14) hz w). pose proof (vis_shown (1 / 10 ^ 14) hz w ltac:(apply Rdiv_lt_0_compat; [lra|apply pow_lt; lra])) as SV.
  assert (HJ : forall j, In j (vis (1 / 10 ^ 14) hz w) -> (j < n_states m)%nat /\ nth j (columns_of V) [] = ccol V j).
  { intros j I. apply (proj2 SV) in I. destruct I as (Hj & _). rewrite LW in Hj. split; [exact Hj|]. apply (columns_of_nth V (n_states m)); auto. }
  split; [exact SV|]. split; [intros EJ; rewrite EQ; apply R1, EJ|].
  intros NJ. destruct R3 as (_ & R3).
  { intros k j Hk Ij. assert (k = 0%nat) as -> by lia. cbn [evecs_T nth snd]. destruct (HJ j Ij) as (Hj & ->). destruct (column_nonzero _ _ _ _ _ EP Hj) as (L1 & L2 & _). split; [exact L2|]. rewrite L1. lia. }
  destruct R3 as (ps & EF & LP & HP); [exact NJ|auto|]. exists ps. split; [rewrite EQ; exact EF|]. split; [rewrite LP; lia|].
  intros a Ha. destruct (HP 0%nat a ltac:(lia) Ha) as (p & E1 & E2 & E3 & E4 & E5 & E6). exists p. cbn [evals_2d evecs_T nth fst snd] in *.
  destruct (HJ _ (nth_In _ 0%nat Ha)) as (Hj & ECj). rewrite ECj in E6. destruct (column_nonzero _ _ _ _ _ EP Hj) as (L1 & L2 & L3).
  destruct (vector_lines_ok (n_states m) (ccol V (nth a (vis (1 / 10 ^ 14) hz w) 0%nat)) ltac:(lia) L2) as (ls & EL & _ & _ & SH & _).
  rewrite E6 in EL. injection EL as EL. subst ls. repeat split; auto; apply E5 || apply SH; auto.
Qed.

Lemma last_map {A B} (f : A -> B) (l : list A) d d' : l <> [] -> last (map f l) d = f (last l d').
Proof. induction l as [|x l IH]; [congruence|]. intros _. destruct l as [|y l]; [reflexivity|]. cbn [map] in *. change (last (f y :: map f l) d = f (last (y :: l) d')). apply IH. discriminate. Qed.
Lemma last_in {A} (l : list A) d : l <> [] -> In (last l d) l.
Proof. induction l as [|x l IH]; [congruence|]. intros _. destruct l as [|y l]; [left; reflexivity|]. right. change (In (last (y :: l) d) (y :: l)). apply IH. discriminate. Qed.
(* component i of the eigenvector j along the rows *)
Definition across (evs : list eigres) (i j : nat) : list cplx := map (fun e : eigres => cent (snd e) i j) evs.
Lemma vectors_stack eig m s hz ov h d evs k xs : eig_contract eig -> sound_equations m -> fit m s h d -> NoDup (dkeys ov) -> first_array d ov k xs ->
  snd (calc_eigen eig (state_space m s) false ov h) = Ok (Stack evs) ->
  let r := snd (plot_eigenvectors eig m s (n_states m) hz ov h) in
  (length xs = 0%nat -> r = Err IndexError) /\
  ((10 < length xs)%nat -> r = Err (ValueError "Plots will be too large, use fewer than 11 values in the varied parameter.")) /\
  exists js, shown_modes (1 / 10 ^ 14) hz (fst (last evs ([], []))) js /\
    ((0 < length xs <= 10)%nat -> js = [] -> r = Err (ValueError "Number of columns must be a positive integer")) /\
    ((0 < length xs <= 10)%nat -> js <> [] -> (n_states m < length xs)%nat \/ (length js = 1%nat /\ (1 < length xs)%nat) -> r = Err IndexError) /\
    ((0 < length xs <= 10)%nat -> js <> [] -> (length xs <= n_states m)%nat -> (length js = 1%nat -> length xs = 1%nat) ->
       exists ps, r = Ok (ps, map (fun i => (i, k, nth i xs 0)) (seq 0 (length xs))) /\ length ps = (length xs * length js)%nat /\
       forall i a, (i < length xs)%nat -> (a < length js)%nat -> exists p, nth_error ps (i * length js + a) = Some p /\ pn_row p = i /\ pn_col p = a /\
         pn_title p = nth (nth a js 0%nat) (fst (nth i evs ([], []))) (0, 0) /\ (pn_red p = true <-> 0 <= fst (pn_title p)) /\
         length (pn_lines p) = length xs /\
         ((exists z, In z (across evs (nth a js 0%nat) i) /\ z <> (0, 0)) -> shows_vector (across evs (nth a js 0%nat) i) (pn_lines p)) /\
         ((forall z, In z (across evs (nth a js 0%nat) i) -> z = (0, 0)) -> forall q, In q (pn_lines p) -> po_radius q = None)).
Proof.
  intros EC SE F N FA EV r. destruct (plot_vectors_eq eig m s (n_states m) hz ov h d F N) as (_ & EQ). rewrite EV in EQ. cbn [bind] in EQ. fold r in EQ. clearbody r.
  destruct (eigen_ok_lens eig m s false ov h d _ F N EV) as (d' & ks & len & _ & Ed & _ & _ & HD). rewrite <- Ed in EQ.
  pose proof (x_values_eq d ov d' N HD) as XV. destruct (x_values d' (array_keys_of d ov)) as [[k' xs']|e] eqn:EX.
  2:{ exfalso. destruct XV as (_ & _ & XV). apply (XV k). apply (first_array_get d ov k xs N FA). }
  destruct XV as (FA' & _). destruct (first_array_unique d ov k xs k' xs' FA FA') as (<- & <-).
  destruct (stack_abs eig m s ov h d evs F N SE EC EV) as (abs & EA & LE & HW & EP).
  pose proof (first_len_rows m s ov h d abs k xs F N EA FA) as LX.
  assert (LV : length evs = length xs) by lens. clear LE LX.
  assert (KK : exists ks', array_keys_of d ov = k :: ks').
  { unfold x_values in EX. destruct (array_keys_of d ov) as [|k0 ks']; [discriminate|]. apply bind_ok in EX. destruct EX as (v & _ & EX). destruct v; try discriminate. injection EX as -> _. eauto. }
  destruct KK as (ks' & KK). rewrite KK in *.
  split.
  { intros E0. destruct evs; [|rewrite E0 in LV; discriminate]. rewrite EQ. reflexivity. }
  split.
  { intros H10. rewrite EQ. unfold vectors_figure. cbn [evals_2d]. rewrite map_length. destruct evs as [|e0 evs]; [cbn in LV; lia|]. cbn [map bind].
    match goal with |- context [(10 <? ?q)%nat] => replace (10 <? q)%nat with true by (symmetry; apply Nat.ltb_lt; lens) end. reflexivity. }
  exists (vis (1 / 10 ^ 14) hz (fst (last evs ([], [])))). set (lastw := fst (last evs ([], []))). set (js := vis (1 / 10 ^ 14) hz lastw).
  pose proof (vis_shown (1 / 10 ^ 14) hz lastw ltac:(apply Rdiv_lt_0_compat; [lra|apply pow_lt; lra])) as SV. fold js in SV. split; [exact SV|].
  destruct (Nat.eq_dec (length xs) 0) as [Z|NZ]; [repeat split; intros; exfalso; lia|].
  assert (NE : evs <> []) by (intros ->; cbn in LV; lia).
  assert (LL : length lastw = n_states m) by (apply HW, last_in, NE).
  destruct (le_lt_dec (length xs) 10) as [H10|H10]; [|repeat split; intros; exfalso; lia].
  assert (HN : length (fst (hd ([], []) evs)) = n_states m) by (destruct evs as [|e0 r0]; [congruence|]; apply HW; left; reflexivity).
  set (nth_vs := fun i => nth i (evecs_T (Stack evs)) []).
  assert (VS : forall i, (i < n_states m)%nat -> length (nth_vs i) = n_states m /\ forall j, (j < n_states m)%nat -> nth j (nth_vs i) [] = across evs j i).
  { intros i Hi. unfold nth_vs. cbn [evecs_T]. rewrite HN. rewrite nth_map_seq by exact Hi. split; [rewrite map_length, seq_length; reflexivity|].
    intros j Hj. rewrite nth_map_seq by exact Hj. reflexivity. }
  assert (LT : length (evecs_T (Stack evs)) = n_states m) by (cbn [evecs_T]; rewrite HN, map_length, seq_length; reflexivity).
  assert (HJ : forall j, In j js -> (j < n_states m)%nat) by (intros j I; apply (proj2 SV) in I; rewrite LL in I; tauto).
  assert (LAC : forall j i, length (across evs j i) = length xs) by (intros; unfold across; rewrite map_length; exact LV).
  assert (PV : (match k :: ks' with [] => Ok [0] | _ => kx <- x_values d' (k :: ks') ;; Ok (snd kx) end) = Ok xs) by (rewrite EX; reflexivity).
  assert (WSL : forall i, (i < length xs)%nat -> length (nth i (evals_2d (Stack evs)) []) = length lastw).
  { intros i Hi. cbn [evals_2d]. rewrite (nth_map fst _ i ([], [])) by lens. rewrite LL. apply HW, nth_In. lens. }
  assert (LAST : last (evals_2d (Stack evs)) [] = lastw) by (cbn [evals_2d]; apply last_map, NE).
  assert (L2D : length (evals_2d (Stack evs)) = length xs) by (cbn [evals_2d]; rewrite map_length; lens).
  destruct (le_lt_dec (length xs) (n_states m)) as [HM|HM].
  - destruct (figure_rows (n_states m) d' (k :: ks') (Stack evs) hz (length xs) lastw xs L2D ltac:(lia) LAST ltac:(lia) PV eq_refl) as (R1 & R3).
    { intros i Hi. split; [apply WSL, Hi|]. rewrite LL. apply VS. lia. }
    destruct R3 as (R3 & R4).
    { intros i j Hi Ij. fold (nth_vs i). destruct (VS i ltac:(lia)) as (_ & V2). rewrite V2 by (apply HJ, Ij). rewrite LAC. split; [|lia]. intros X. specialize (LAC j i). rewrite X in LAC. cbn in LAC. lia. }
    fold js in R1, R3, R4. split; [|split].
    + intros _ EJ. rewrite EQ. apply R1, EJ.
    + intros _ NJ [C|(C1 & C2)]; [exfalso; lia|]. rewrite EQ. apply R3; assumption.
    + intros _ NJ _ H1. destruct (R4 NJ H1) as (ps & EF & LP & HP). exists ps. split.
      { rewrite EQ, EF. f_equal. f_equal. cbn beta iota.
        apply (nth_ext _ _ (0%nat, k, 0) (0%nat, k, 0)); [rewrite !map_length, combine_length, seq_length; lia|].
        intros i Hi. rewrite map_length, combine_length, seq_length, Nat.min_id in Hi.
        rewrite nth_map_seq by exact Hi. rewrite (nth_map _ _ i (0%nat, 0)) by (rewrite combine_length, seq_length; lia).
        rewrite combine_nth by (apply seq_length). rewrite seq_nth by exact Hi. reflexivity. }
      split; [exact LP|]. intros i a Hi Ha. destruct (HP i a Hi Ha) as (p & E1 & E2 & E3 & E4 & E5 & E6). exists p.
      fold (nth_vs i) in E6. destruct (VS i ltac:(lia)) as (_ & V2). rewrite V2 in E6 by (apply HJ, nth_In, Ha).
      assert (TT : pn_title p = nth (nth a js 0%nat) (fst (nth i evs ([], []))) (0, 0)).
      { rewrite E4. cbn [evals_2d]. rewrite (nth_map fst _ i ([], [])) by lens. reflexivity. }
      destruct (vector_lines_ok (n_states m) (across evs (nth a js 0%nat) i)) as (ls & EL & LN & _ & SH & SZ).
      { rewrite LAC. exact HM. } { intros X. specialize (LAC (nth a js 0%nat) i). rewrite X in LAC. cbn in LAC. lia. }
      rewrite E6 in EL. injection EL as EL. rewrite <- EL in *. rewrite E4 in *.
      split; [exact E1|]. split; [exact E2|]. split; [exact E3|]. split; [exact TT|]. split; [exact E5|]. split; [rewrite LN; apply LAC|]. split; assumption.
  - split; [intros _ EJ|split].
    + rewrite EQ. unfold vectors_figure. cbn [evals_2d] in *. rewrite map_length. destruct evs as [|e0 evs']; [congruence|]. cbn [map].
      assert (LR : last (map fst evs') (fst e0) = lastw).
      { rewrite <- LAST. cbn [map]. destruct evs' as [|e1 evs']; [reflexivity|]. cbn [map]. apply (last_indep (fst e1 :: map fst evs')). discriminate. }
      rewrite LR. cbn [bind]. match goal with |- context [(10 <? ?q)%nat] => replace (10 <? q)%nat with false by (symmetry; apply Nat.ltb_ge; lens) end.
      change (map (fun z => negb (hides hz && Rltb (cmod z) (tol_of (1 / 10 ^ 14) hz))) lastw) with (map (vmask (1 / 10 ^ 14) hz) lastw).
      rewrite count_vis. fold js. rewrite EJ. reflexivity.
    + intros _ NJ _. rewrite EQ. destruct (evecs_T (Stack evs)) as [|v0 vr] eqn:ET; [exfalso; pose proof (n_states_pos m); cbn in LT; lia|].
      destruct evs as [|e0 evs'] eqn:EE; [congruence|].
      apply (figure_long (n_states m) d' (k :: ks') (Stack (e0 :: evs')) hz (length xs) lastw xs (fst e0) (map fst evs') v0 vr); auto; try lia.
      * intros ->. cbn in NZ. congruence.
      * rewrite LL. apply HW. left; reflexivity.
      * destruct (VS 0%nat (n_states_pos m)) as (V1 & _). unfold nth_vs in V1. cbn [nth] in V1. rewrite LL. exact V1.
      * intros j Ij. destruct (VS 0%nat (n_states_pos m)) as (_ & V2). specialize (V2 j (HJ j Ij)). unfold nth_vs in V2. cbn [nth] in V2. rewrite V2, LAC. exact HM.
    + intros. exfalso. lia.
Qed.
