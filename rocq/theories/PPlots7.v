(* PPlots7.v -- the figures of the models: modes, modal controllability, gains *)
From Coq Require Import Lra Lia.
From Verif Require Import Base MString MHeap MBicycle MVec MInertia MGeometry MIo MSets MSets2 MModels MModels2 MEig MDraw PBase SBicycle PBicycle PHeap SModels SModels2 SSort PSort
  PModels PModels2 PModels3 PModels4 PSets3 PModels5 PModels6 PModels7 PModels8 PModels9 PModels10 PModels11 PEig3 PDraw MPlots SPlots PPlots PPlots2 PPlots3 PPlots4 PPlots5 PPlots6.
From Verif Require MApp.
Local Open Scope string_scope.
Local Open Scope R_scope.

(* ---- mode simulations ---- *)
Definition mode_body (m : lin_model) (times : list R) (re : marr * cplx) : res mode_row :=
  let '(r, e) := re in
    cs <- mapM (fun iun : nat * (string * string) => let '(i, (unit, name)) := iun in
            c <- plot_columns times r [i] (if contains "rad" unit then rad2deg else fun x => x) ;;
            Ok (unit, (dollars name, hd [] c)))
          (combine (seq 0 (width r)) (combine (state_units m) (state_latex m))) ;;
    Ok (mkmode e (Rleb 0 (fst e))
          (map (fun u => ("[" ++ u ++ "]", map snd (filter (fun x : string * (string * curve) => String.eqb (fst x) u) cs))) (unique_units m))).
Lemma mode_body_ok m times r e : length r = length times -> (0 < length times)%nat -> (forall k, (k < length times)%nat -> length (nth k r []) = n_states m) ->
  mode_body m times (r, e) = Ok (mkmode e (Rleb 0 (fst e)) (mode_axes m (fun i => samples times (fun k => ent r k i)) (fun i => samples times (fun k => in_degrees (ent r k i))))).
Proof.
  intros LR TP HW. unfold mode_body. rewrite (width_ok times r (n_states m) LR TP HW).
  assert (PC : forall i u, (i < n_states m)%nat -> plot_columns times r [i] (if contains "rad" u then rad2deg else fun x => x) =
     Ok [if contains "rad" u then samples times (fun k => in_degrees (ent r k i)) else samples times (fun k => ent r k i)]).
  { intros i u Hi. destruct (contains "rad" u).
    - rewrite (plot_columns_ok times r [i] rad2deg (n_states m) LR HW) by (intros ? [<-|[]]; exact Hi). cbn [map]. f_equal. f_equal. apply samples_ext. intros. apply rad2deg_eq.
    - rewrite (plot_columns_ok times r [i] (fun x => x) (n_states m) LR HW) by (intros ? [<-|[]]; exact Hi). reflexivity. }
  set (raw := fun i => samples times (fun k => ent r k i)) in *. set (deg := fun i => samples times (fun k => in_degrees (ent r k i))) in *.
  assert (PC' : forall i u, (i < n_states m)%nat -> plot_columns times r [i] (if contains "rad" u then rad2deg else fun x => x) = Ok [if contains "rad" u then deg i else raw i]) by exact PC.
  clearbody raw deg. clear PC.
  assert (EM : forall l : list (nat * (string * string)), (forall x, In x l -> (fst x < n_states m)%nat) ->
    mapM (fun iun : nat * (string * string) => let '(i, (unit, name)) := iun in
            c <- plot_columns times r [i] (if contains "rad" unit then rad2deg else fun x => x) ;;
            Ok (unit, (dollars name, hd [] c))) l = Ok (map (fun x => (fst (snd x), (dollars (snd (snd x)), if contains "rad" (fst (snd x)) then deg (fst x) else raw (fst x)))) l)).
  { induction l as [|[i [u nm]] l IH]; intros HL; [reflexivity|]. cbn [mapM map fst snd]. rewrite PC' by (apply (HL _ (or_introl eq_refl))). cbn [bind hd]. rewrite IH by (intros; apply HL; right; assumption). reflexivity. }
  rewrite EM.
  - cbn [bind]. f_equal. f_equal. destruct m as [| |pitch body]; reflexivity.
  - intros [i x] Hx. apply in_combine_l in Hx. apply in_seq in Hx. cbn [fst]. lia.
Qed.
Lemma filter_snd_combine {A} (l : list A) (w : list cplx) (p : cplx -> bool) (d : A) : length l = length w ->
  filter (fun x => p (snd x)) (combine l w) = map (fun j => (nth j l d, nth j w (0, 0))) (filter (fun j => p (nth j w (0, 0))) (seq 0 (length w))).
Proof.
  intros E. assert (G : forall a, filter (fun x => p (snd x)) (combine l w) = map (fun j => (nth (j - a) l d, nth (j - a) w (0, 0))) (filter (fun j => p (nth (j - a) w (0, 0))) (seq a (length w)))).
  { revert l E. induction w as [|z w IH]; intros l E a; [destruct l; [reflexivity|discriminate]|]. destruct l as [|x l]; [discriminate|]. injection E as E.
    cbn [combine filter snd length seq]. replace (nth (a - a) (z :: w) (0, 0)) with z by (rewrite Nat.sub_diag; reflexivity). rewrite (IH l E (S a)).
    assert (F : filter (fun j => p (nth (j - a) (z :: w) (0, 0))) (seq (S a) (length w)) = filter (fun j => p (nth (j - S a) w (0, 0))) (seq (S a) (length w))).
    { apply filter_ext_in. intros j Hj. apply in_seq in Hj. replace (j - a)%nat with (S (j - S a)) by lia. reflexivity. }
    rewrite F. assert (M : forall L, (forall j, In j L -> (a < j)%nat) -> map (fun j => (nth (j - a) (x :: l) d, nth (j - a) (z :: w) (0, 0))) L = map (fun j => (nth (j - S a) l d, nth (j - S a) w (0, 0))) L).
    { intros L HL. apply map_ext_in. intros j Hj. specialize (HL j Hj). replace (j - a)%nat with (S (j - S a)) by lia. reflexivity. }
    destruct (p z); [cbn [map]; rewrite Nat.sub_diag; change (nth 0 (x :: l) d) with x; change (nth 0 (z :: w) (0, 0)) with z; f_equal|]; rewrite M; auto; intros j Hj; apply filter_In in Hj; destruct Hj as (Hj & _); apply in_seq in Hj; lia. }
  rewrite (G 0%nat). rewrite (filter_ext _ (fun j => p (nth j w (0, 0)))) by (intros; rewrite Nat.sub_0_r; reflexivity). apply map_ext. intros j. rewrite Nat.sub_0_r. reflexivity.
Qed.
Lemma modes_figure_eq m times results w hz : length results = length w ->
  modes_figure m times results w hz =
    let js := vis (1 / 10 ^ 12) hz w in
    if (length js =? 0)%nat then Err (ValueError "Number of rows must be a positive integer") else
    if (length js =? 1)%nat then Err IndexError else mapM (mode_body m times) (map (fun j => (nth j results [], nth j w (0, 0))) js).
Proof.
  intros L. unfold modes_figure.
  assert (C : count (fun z => negb (hides hz && Rltb (cmod z) (tol_of (1 / 10 ^ 12) hz))) w = length (vis (1 / 10 ^ 12) hz w)).
  { rewrite <- count_vis. unfold count. change (fun z : cplx => negb (hides hz && Rltb (cmod z) (tol_of (1 / 10 ^ 12) hz))) with (vmask (1 / 10 ^ 12) hz).
    induction w as [|z w IH] in |- *; [reflexivity|]. cbn [map filter]. destruct (vmask (1 / 10 ^ 12) hz z); cbn [length]; rewrite IH; reflexivity. }
  rewrite C. cbn zeta. destruct (length (vis (1 / 10 ^ 12) hz w) =? 0)%nat; [reflexivity|]. destruct (length (vis (1 / 10 ^ 12) hz w) =? 1)%nat; [reflexivity|].
  change (fun re : marr * cplx => negb (hides hz && Rltb (cmod (snd re)) (tol_of (1 / 10 ^ 12) hz))) with (fun re : marr * cplx => vmask (1 / 10 ^ 12) hz (snd re)).
  rewrite (filter_snd_combine results w (vmask (1 / 10 ^ 12) hz) [] L). reflexivity.
Qed.

Lemma plot_modes_heap solve eig m s times hz ov h d : fit m s h d -> NoDup (dkeys ov) ->
  preserved h (fst (plot_mode_simulations solve eig m s times hz ov h)) /\
  (forall e, snd (simulate_modes solve eig s (state_space m s) times ov h) = Err e -> snd (plot_mode_simulations solve eig m s times hz ov h) = Err e) /\
  forall results, snd (simulate_modes solve eig s (state_space m s) times ov h) = Ok results ->
    snd (plot_mode_simulations solve eig m s times hz ov h) =
      (ev <- snd (calc_eigen eig (state_space m s) false ov h) ;; w <- (match ev with Single e => Ok (fst e) | Stack _ => Err TypeError end) ;; modes_figure m times results w hz).
Proof.
  intros F N. unfold plot_mode_simulations, hbind. pose proof (modes_preserves solve eig m s ov h d times F N) as P1.
  destruct (simulate_modes solve eig s (state_space m s) times ov h) as [h1 [res|e]]; cbn [fst snd] in *.
  2:{ split; [exact P1|]. split; [intros e0 X; injection X as ->; reflexivity|]. intros; discriminate. }
  pose proof (fit_preserved m s _ _ d P1 F) as F1. pose proof (eigen_preserves eig false m s ov h1 d F1 N) as P2.
  pose proof (calc_eigen_det eig m s ov h h1 d F P1 N false) as DT.
  destruct (calc_eigen eig (state_space m s) false ov h1) as [h2 r] eqn:EC. cbn [fst snd] in *. subst r.
  assert (P : preserved h h2) by (eapply preserved_trans; eauto).
  destruct (snd (calc_eigen eig (state_space m s) false ov h)) as [ev|e]; cbn [bind].
  - unfold lift. destruct ev as [e|l]; cbn [fst snd bind]; (split; [exact P|]); (split; [intros; discriminate|]); intros res0 X; injection X as ->; reflexivity.
  - split; [exact P|]. split; [intros; discriminate|]. reflexivity.
Qed.
Lemma plot_modes_meaning solve eig m s times hz ov h d results : solver_contract solve -> eig_contract eig -> sound_equations m -> increasing times -> fit m s h d -> NoDup (dkeys ov) ->
  snd (simulate_modes solve eig s (state_space m s) times ov h) = Ok results ->
  exists A B w V t0 js, snd (state_space m s ov h) = Ok (Single (A, B)) /\ eigenpairs false (n_states m) A w V /\ hd_error times = Some t0 /\ shown_modes (1 / 10 ^ 12) hz w js /\
    (js = [] -> snd (plot_mode_simulations solve eig m s times hz ov h) = Err (ValueError "Number of rows must be a positive integer")) /\
    (length js = 1%nat -> snd (plot_mode_simulations solve eig m s times hz ov h) = Err IndexError) /\
    ((2 <= length js)%nat -> exists rows, snd (plot_mode_simulations solve eig m s times hz ov h) = Ok rows /\ length rows = length js /\
       forall a, (a < length js)%nat -> exists row, nth_error rows a = Some row /\
         mr_title row = nth (nth a js 0%nat) w (0, 0) /\ (mr_red row = true <-> 0 <= fst (nth (nth a js 0%nat) w (0, 0))) /\
         mr_axes row = (let value i k := mode_re (nth (nth a js 0%nat) w (0, 0)) (cent V i (nth a js 0%nat)) t0 (nth k times 0) in
                        mode_axes m (fun i => samples times (value i)) (fun i => samples times (fun k => in_degrees (value i k))))).
Proof.
  intros SC EC SE HI F N E. destruct (modes solve eig m s ov h d times results SC EC SE HI F N E) as (A & B & w & V & t0 & EA & EV & EP & ET & LR & HR).
  pose proof EP as (LW & _). destruct (plot_modes_heap solve eig m s times hz ov h d F N) as (_ & _ & EQ). specialize (EQ results E). rewrite EV in EQ. cbn [bind fst] in EQ.
  rewrite modes_figure_eq in EQ by (rewrite LW; exact LR). cbn zeta in EQ.
  exists A, B, w, V, t0, (vis (1 / 10 ^ 12) hz w). do 3 (split; [assumption|]).
  pose proof (vis_shown (1 / 10 ^ 12) hz w ltac:(apply Rdiv_lt_0_compat; [lra|apply pow_lt; lra])) as SV. split; [exact SV|].
  set (js := vis (1 / 10 ^ 12) hz w) in *. split; [intros EJ; rewrite EQ, EJ; reflexivity|]. split; [intros EJ; rewrite EQ, EJ; reflexivity|].
  intros H2. replace (length js =? 0)%nat with false in EQ by (symmetry; apply Nat.eqb_neq; lia). replace (length js =? 1)%nat with false in EQ by (symmetry; apply Nat.eqb_neq; lia).
  pose proof (hd_error_pos _ _ ET) as TP.
  assert (HB : forall j, In j js -> mode_body m times (nth j results [], nth j w (0, 0)) = Ok (mkmode (nth j w (0, 0)) (Rleb 0 (fst (nth j w (0, 0))))
     (mode_axes m (fun i => samples times (fun k => ent (nth j results []) k i)) (fun i => samples times (fun k => in_degrees (ent (nth j results []) k i)))))).
  { intros j Ij. apply (proj2 SV) in Ij. destruct Ij as (Hj & _). rewrite LW in Hj. destruct (HR j Hj) as (L1 & L2). apply mode_body_ok; auto. intros k Hk. apply L2, Hk. }
  assert (EX : exists rows, mapM (mode_body m times) (map (fun j => (nth j results [], nth j w (0, 0))) js) = Ok rows).
  { apply mapM_total. intros x Ix. apply in_map_iff in Ix. destruct Ix as (j & <- & Ij). rewrite HB by exact Ij. eauto. }
  destruct EX as (rows & ER). exists rows. split; [rewrite EQ; exact ER|]. pose proof (mapM_length _ _ _ ER) as LRW. rewrite map_length in LRW. split; [exact LRW|].
  intros a Ha. assert (NA : nth_error (map (fun j => (nth j results [], nth j w (0, 0))) js) a = Some (nth (nth a js 0%nat) results [], nth (nth a js 0%nat) w (0, 0))).
  { rewrite (map_nth_error _ a js (d := nth a js 0%nat)); [reflexivity|]. apply nth_error_nth', Ha. }
  destruct (mapM_nth_error _ _ _ _ _ ER NA) as (row & E1 & E2). exists row. split; [exact E1|].
  rewrite HB in E2 by (apply nth_In, Ha). injection E2 as <-. cbn [mr_title mr_red mr_axes]. split; [reflexivity|]. split; [apply Rleb_spec|].
  assert (Hj : (nth a js 0 < n_states m)%nat) by (assert (Ij : In (nth a js 0%nat) js) by (apply nth_In, Ha); apply (proj2 SV) in Ij; rewrite LW in Ij; tauto).
  destruct (HR _ Hj) as (_ & L2). cbn zeta.
  assert (S1 : forall i f, (i < n_states m)%nat -> samples times (fun k => f (ent (nth (nth a js 0%nat) results []) k i)) =
     samples times (fun k => f (mode_re (nth (nth a js 0%nat) w (0, 0)) (cent V i (nth a js 0%nat)) t0 (nth k times 0)))).
  { intros i f Hi. apply samples_ext. intros k Hk. destruct (L2 k Hk) as (_ & L3). rewrite L3 by exact Hi. reflexivity. }
  pose proof (fun i => S1 i (fun x => x)) as S0. pose proof (fun i => S1 i in_degrees) as SD. clear S1. cbn beta in S0.
  destruct m; cbn [mode_axes n_states] in *; rewrite ?SD, ?S0 by lia; reflexivity.
Qed.

(* ---- modal controllability ---- *)
Lemma modal_preserves eig m s acute ov h d : fit m s h d -> NoDup (dkeys ov) -> preserved h (fst (modal_controllability eig (state_space m s) acute ov h)).
Proof.
  intros F N. unfold modal_controllability, hbind. pose proof (sst_preserves m s ov h d F N) as P1.
  destruct (state_space m s ov h) as [h1 [ab|e]]; cbn [fst] in *; [|exact P1].
  pose proof (fit_preserved m s _ _ d P1 F) as F1. pose proof (eigen_preserves eig true m s ov h1 d F1 N) as P2.
  destruct (calc_eigen eig (state_space m s) true ov h1) as [h2 [ev|e]]; cbn [fst] in *; [|eapply preserved_trans; eauto].
  assert (P : preserved h h2) by (eapply preserved_trans; eauto). unfold lift.
  destruct ab as [ab|abs], ev as [e|evs]; cbn [fst]; try exact P. destruct (sort_eigenmodes _); cbn [fst]; exact P.
Qed.
Definition modal_figure (d' : pdict) (keys : list string) (betas : list marr) : res (list (list curve) * string) :=
  b0 <- index betas 0 ;;
  axes <- mapM (fun i => mapM (fun j =>
            kx <- x_values d' keys ;;
            ys <- mapM (fun b => r <- index b i ;; index r j) betas ;;
            if Nat.eqb (length (snd kx)) (length ys) then Ok (combine (snd kx) (map rad2deg ys))
            else Err (ValueError "x and y must have same first dimension")) (seq 0 (width b0))) (seq 0 (length b0)) ;;
  kx <- x_values d' keys ;;
  _ <- (r <- index axes 3 ;; index r 1) ;;
  Ok (axes, fst kx).
Lemma plot_modal_eq eig m s acute ov h d : fit m s h d -> NoDup (dkeys ov) ->
  preserved h (fst (plot_modal_controllability eig m s acute ov h)) /\
  snd (plot_modal_controllability eig m s acute ov h) =
    (betas <- snd (modal_controllability eig (state_space m s) acute ov h) ;; modal_figure (par_of d ov) (array_keys_of d ov) betas).
Proof.
  intros F N. unfold plot_modal_controllability, hbind.
  rewrite (parse_parameter_overrides_eq _ _ _ _ (proj1 F)). pose proof (parsed_ok d ov N) as PO. destruct (parsed d ov) as [[[d' ks] len]|e] eqn:EP.
  2:{ cbn [fst snd]. split; [apply preserved_app|]. destruct PO as (-> & PO). rewrite (modal_eq eig m s acute ov h d F N).
      rewrite (sst_bad m s ov h d F N); [reflexivity|]. intros X. apply PO. exact X. }
  destruct PO as (-> & _ & _ & _ & E'). fold (par_of d ov) in E'. subst d'. cbn [fst snd]. fold (par_of d ov).
  assert (P1 : preserved h (h ++ [par_of d ov])) by apply preserved_app.
  pose proof (fit_preserved m s _ _ d P1 F) as F1. pose proof (modal_preserves eig m s acute ov _ d F1 N) as P2.
  assert (DT : snd (modal_controllability eig (state_space m s) acute ov (h ++ [par_of d ov])%list) = snd (modal_controllability eig (state_space m s) acute ov h)).
  { rewrite (modal_eq eig m s acute ov _ d F1 N), (modal_eq eig m s acute ov h d F N). rewrite (calc_eigen_det eig m s ov h _ d F P1 N true), (sst_det2 m s ov h _ d F P1 N). reflexivity. }
  destruct (modal_controllability eig (state_space m s) acute ov (h ++ [par_of d ov])%list) as [h2 r] eqn:EC. cbn [fst snd] in *. subst r.
  destruct (snd (modal_controllability eig (state_space m s) acute ov h)) as [ev|e]; cbn [bind]; [|split; [eapply preserved_trans; eauto|reflexivity]].
  assert (HL : hload (length h) h2 = (h2, Ok (par_of d ov))).
  { apply hload_eq. destruct P2 as (t & ->). rewrite nth_error_app1 by (rewrite app_length; cbn; lia). rewrite nth_error_app2 by lia. rewrite Nat.sub_diag. reflexivity. }
  rewrite HL. unfold lift. cbn [fst snd]. split; [eapply preserved_trans; eauto|reflexivity].
Qed.
Lemma index_nth {A} (l : list A) i d : (i < length l)%nat -> index l i = Ok (nth i l d).
Proof. intros H. unfold index. rewrite (nth_error_nth' l d H). reflexivity. Qed.
Lemma plot_modal_meaning eig m s acute ov h d abs evs k xs : eig_contract eig -> m = MMeijaard \/ m = MFeedback -> fit m s h d -> NoDup (dkeys ov) ->
  snd (state_space m s ov h) = Ok (Stack abs) -> snd (calc_eigen eig (state_space m s) true ov h) = Ok (Stack evs) -> first_array d ov k xs -> xs <> [] ->
  exists axes (beta : nat -> nat -> nat -> R), snd (plot_modal_controllability eig m s acute ov h) = Ok (axes, k) /\ length axes = 4%nat /\
    (forall i, (i < 4)%nat -> length (nth i axes []) = 2%nat) /\
    forall i j, (i < 4)%nat -> (j < 2)%nat -> nth j (nth i axes []) [] = samples xs (fun r => in_degrees (beta r i j)) /\
      forall r, (r < length xs)%nat -> exists c, (c < 4)%nat /\ (r = 0%nat -> c = i) /\
        modal_angle acute (ccol (snd (nth r evs ([], []))) c) (rcol (snd (nth r abs ([], []))) j) (beta r i j).
Proof.
  intros EC Hm F N EA EV FA NX. pose proof (first_len_rows m s ov h d abs k xs F N EA FA) as LX.
  destruct (modal_meaning eig m s acute ov h d abs evs EC Hm F N EA EV) as (l & EL & LL & HL); [intros ->; destruct xs; [congruence|discriminate]|].
  destruct (plot_modal_eq eig m s acute ov h d F N) as (_ & EQ). rewrite EL in EQ. cbn [bind] in EQ.
  destruct (eigen_ok_lens eig m s true ov h d _ F N EV) as (d' & ks & len & _ & Ed & _ & _ & HD). rewrite <- Ed in EQ.
  pose proof (x_values_eq d ov d' N HD) as XV. destruct (x_values d' (array_keys_of d ov)) as [[k' xs']|e] eqn:EX.
  2:{ exfalso. destruct XV as (_ & _ & XV). apply (XV k). apply (first_array_get d ov k xs N FA). }
  destruct XV as (FA' & _). destruct (first_array_unique d ov k xs k' xs' FA FA') as (<- & <-).
  assert (XP : (0 < length xs)%nat) by (destruct xs; [congruence|cbn; lia]).
  assert (SH : forall r, (r < length xs)%nat -> shape 4 2 (nth r l [])) by (intros r Hr; apply HL; lens).
  unfold modal_figure in EQ. rewrite (index_nth l 0 []) in EQ by lens. cbn [bind] in EQ.
  assert (L0 : length (nth 0 l []) = 4%nat) by (apply SH, XP). assert (W0 : width (nth 0 l []) = 2%nat).
  { destruct (SH 0%nat XP) as (S1 & S2). unfold width. destruct (nth 0 l []) as [|r0 b]; [discriminate|]. apply S2. left; reflexivity. }
  rewrite L0, W0 in EQ.
  assert (CUR : forall i j, (i < 4)%nat -> (j < 2)%nat -> (kx <- x_values d' (array_keys_of d ov) ;;
            ys <- mapM (fun b => r <- index b i ;; index r j) l ;;
            if Nat.eqb (length (snd kx)) (length ys) then Ok (combine (snd kx) (map rad2deg ys))
            else Err (ValueError "x and y must have same first dimension")) = Ok (samples xs (fun r => in_degrees (ent (nth r l []) i j)))).
  { intros i j Hi Hj. rewrite EX. cbn [bind snd].
    assert (EM : mapM (fun b => r <- index b i ;; index r j) l = Ok (map (fun b => ent b i j) l)).
    { apply mapM_nth_iff. split; [rewrite map_length; reflexivity|]. intros r a b Hr.
      assert (S1 : shape 4 2 (nth r l a)) by (rewrite (nth_indep l a []) by exact Hr; apply SH; lens).
      destruct S1 as (S1 & S2). assert (S3 : (i < length (nth r l a))%nat) by lens. cbn beta. unfold marr in *. rewrite (index_nth _ i [] S3). cbn [bind].
      pose proof (S2 _ (nth_In _ [] S3)) as S4. assert (S5 : (j < length (nth i (nth r l a) []))%nat) by lens. rewrite (index_nth _ j 0 S5). rewrite (nth_map _ l r a) by exact Hr. reflexivity. }
    rewrite EM. cbn [bind]. rewrite map_length. replace (length l) with (length xs) by lens. rewrite Nat.eqb_refl. f_equal.
    apply combine_samples; [rewrite !map_length; lens|]. intros r Hr. rewrite (nth_map rad2deg _ r 0) by (rewrite map_length; lens). rewrite rad2deg_eq. f_equal. rewrite (nth_map _ l r []) by lens. reflexivity. }
  set (c := fun i j => samples xs (fun r => in_degrees (ent (nth r l []) i j))) in *.
  exists [[c 0 0; c 0 1]; [c 1 0; c 1 1]; [c 2 0; c 2 1]; [c 3 0; c 3 1]]%nat, (fun r i j => ent (nth r l []) i j). split; [|split; [reflexivity|split]].
  - rewrite EQ. cbn [seq mapM]. rewrite (CUR 0 0)%nat, (CUR 0 1)%nat, (CUR 1 0)%nat, (CUR 1 1)%nat, (CUR 2 0)%nat, (CUR 2 1)%nat, (CUR 3 0)%nat, (CUR 3 1)%nat by lia. cbn [bind]. rewrite EX. reflexivity.
  - intros i Hi. do 4 (destruct i as [|i]; [reflexivity|]). lia.
  - intros i j Hi Hj. split; [do 4 (destruct i as [|i]; [do 2 (destruct j as [|j]; [reflexivity|]); lia|]); lia|].
    intros r Hr. destruct (HL r ltac:(lens)) as (_ & H2). apply H2; assumption.
Qed.
Lemma plot_modal_single eig m s acute ov h d ab ev : fit m s h d -> NoDup (dkeys ov) -> snd (state_space m s ov h) = Ok (Single ab) ->
  snd (calc_eigen eig (state_space m s) true ov h) = Ok (Single ev) -> snd (plot_modal_controllability eig m s acute ov h) = Err TypeError.
Proof. intros F N EA EV. destruct (plot_modal_eq eig m s acute ov h d F N) as (_ & ->). rewrite (modal_eq eig m s acute ov h d F N), EA, EV. reflexivity. Qed.

(* ---- gains ---- *)
Definition gains_figure (c : pclass) (d : pdict) (array_keys : list string) : res (list (string * curve) * string) :=
  match filter (fun k => negb (smem k gain_names)) array_keys with
  | [] => Err (ValueError "No x axis key. Set one parameter other than the gains as an array.")
  | xk :: _ =>
      kx <- x_values d [xk] ;;
      cs <- mapM (fun name =>
              v <- dlook d name ;;
              ys <- (if smem name array_keys then match v with VArr l => Ok l | _ => Err TypeError end
                     else match v with VNum y => Ok (map (fun _ => y) (snd kx)) | _ => Err TypeError end) ;;
              lab <- par_label c name ;;
              if Nat.eqb (length (snd kx)) (length ys) then Ok (dollars lab, combine (snd kx) ys)
              else Err (ValueError "x and y must have same first dimension")) gain_names ;;
      Ok (cs, xk)
  end.
Lemma plot_gains_eq s ov h d : nth_error h (ps_ref s) = Some d ->
  preserved h (fst (plot_gains s ov h)) /\
  snd (plot_gains s ov h) = match parsed d ov with Err e => Err e | Ok (_, ks, _) => gains_figure (ps_class s) (par_of d ov) ks end.
Proof.
  intros E. unfold plot_gains, hbind. pose proof (parse_preserves s ov h d E) as P. destruct (parse_parameter_overrides s ov h) as [h1 r] eqn:EP. cbn [fst] in P.
  pose proof EP as EP'. rewrite (parse_parameter_overrides_eq _ _ _ _ E) in EP'. destruct (parsed d ov) as [[[d' ks] len]|e].
  - injection EP' as _ <-. rewrite (parse_load s ov h d _ _ _ h1 E EP). unfold lift. cbn [fst snd]. auto.
  - injection EP' as _ <-. auto.
Qed.
Definition without_gains (ov : dict oval) : dict oval := filter (fun e => negb (smem (fst e) gain_names)) ov.
Lemma array_keys_filter d ov : array_keys_of d (without_gains ov) = filter (fun k => negb (smem k gain_names)) (array_keys_of d ov).
Proof.
  unfold without_gains. induction ov as [|[k v] ov IH]; [reflexivity|]. cbn [filter fst]. unfold array_keys_of in *. cbn [flat_map snd fst].
  rewrite filter_app, <- IH. destruct (negb (smem k gain_names)) eqn:G; cbn [flat_map snd fst];
    destruct v as [x|l]; try reflexivity; destruct (dmem d k); cbn [filter app]; rewrite ?G; reflexivity.
Qed.
Lemma nodup_filter_keys (ov : dict oval) p : NoDup (dkeys ov) -> NoDup (dkeys (filter p ov)).
Proof.
  unfold dkeys. induction ov as [|e ov IH]; [auto|]. cbn [map filter]. intros N. inversion N; subst. destruct (p e); [|auto]. cbn [map]. constructor; [|auto].
  intros I. apply H1. apply in_map_iff in I. destruct I as (x & E & I). apply filter_In in I. apply in_map_iff. exists x. tauto.
Qed.
Lemma gains_meaning s ov h d n : ps_class s = CMeijaard2007WithFeedback -> fit MFeedback s h d -> NoDup (dkeys ov) -> same_lengths d ov n ->
  ((forall k, array_given d ov k -> In k gain_names) ->
     snd (plot_gains s ov h) = Err (ValueError "No x axis key. Set one parameter other than the gains as an array.")) /\
  (forall k xs, first_array d (without_gains ov) k xs ->
     exists cs, snd (plot_gains s ov h) = Ok (cs, k) /\ length cs = length gain_names /\
       forall i name, nth_error gain_names i = Some name -> exists lab g, nth_error cs i = Some ("$" ++ lab ++ "$", samples xs g) /\ label_of (ps_class s) name lab /\
         forall j, (j < length xs)%nat -> row_value d ov name j (g j)).
Proof.
  intros EC (E & CP) N SL. destruct (plot_gains_eq s ov h d E) as (_ & ->). pose proof (parsed_ok d ov N) as PO. destruct (parsed d ov) as [[[d' ks] len]|e].
  2:{ exfalso. destruct PO as (_ & PO). apply PO. apply (proj2 (lens_agree_iff d ov)). exists n. exact SL. }
  destruct PO as (-> & _ & _ & HD & E'). fold (par_of d ov) in E'. rewrite <- E'. unfold gains_figure. rewrite <- array_keys_filter. split.
  - intros HG. destruct (array_keys_of d (without_gains ov)) as [|k r] eqn:EK; [reflexivity|exfalso].
    assert (I : In k (array_keys_of d (without_gains ov))) by (rewrite EK; left; reflexivity). rewrite array_keys_filter in I. apply filter_In in I. destruct I as (I & G).
    apply (in_array_keys d ov k N) in I. apply HG in I. apply smem_spec in I. rewrite I in G. discriminate.
  - intros k xs FA. pose proof (nodup_filter_keys ov (fun e => negb (smem (fst e) gain_names)) N) as NF. fold (without_gains ov) in NF.
    pose proof (array_keys_first d (without_gains ov)) as AF. destruct (array_keys_of d (without_gains ov)) as [|k' r] eqn:EK.
    { exfalso. destruct (first_array_get _ _ _ _ NF FA) as (G & I & _). eapply AF; [apply dget_in, G|exact I]. }
    destruct AF as (xs' & FA'). destruct (first_array_unique _ _ _ _ _ _ FA FA') as (<- & <-). clear FA'.
    assert (AG : array_given d ov k /\ dget ov k = Some (OArray xs)).
    { destruct (first_array_get _ _ _ _ NF FA) as (G & I & _). assert (G' : dget ov k = Some (OArray xs)).
      { apply in_dget; [exact N|]. apply dget_in in G. apply filter_In in G. tauto. }
      split; [split; [exact I|eauto]|exact G']. }
    destruct AG as (AG & GK). assert (EX : x_values d' [k] = Ok (k, xs)).
    { unfold x_values, dlook. rewrite HD. unfold overridden. rewrite GK. destruct AG as (I & _). apply dget_some_in in I. destruct I as (v & ->). reflexivity. }
    assert (LN : length xs = n) by (apply SL, (in_array_lengths d ov _ N); exists k, xs; destruct AG; auto).
    rewrite EX. cbn [bind snd].
    set (f := fun name : string => _).
    assert (GN : forall name, In name gain_names -> exists lab g, f name = Ok ("$" ++ lab ++ "$", samples xs g) /\ label_of (ps_class s) name lab /\ forall j, (j < length xs)%nat -> row_value d ov name j (g j)).
    { intros name In_. assert (PS : In name (par_strings (ps_class s))).
      { rewrite EC. revert name In_. apply Forall_forall. repeat (constructor; [cbv; tauto|]). constructor. }
      destruct (label_of_par _ _ PS) as (lab & EL). assert (RQ : In name (required (model_class MFeedback))).
      { revert name In_ PS EL. intros name In_ _ _. revert name In_. apply Forall_forall. repeat (constructor; [cbv; tauto|]). constructor. }
      destruct (CP name RQ) as (x & EXD). unfold f, dlook. rewrite HD. unfold overridden, row_value. rewrite EXD.
      destruct (dget ov name) as [[y|l]|] eqn:EO.
      - cbn [bind]. replace (smem name (array_keys_of d ov)) with false.
        + exists lab, (fun _ => y). cbn [bind]. rewrite EL. cbn [bind]. rewrite map_length, Nat.eqb_refl. split; [|split; [apply par_label_of, EL|auto]].
          f_equal. f_equal. apply combine_samples; [apply map_length|]. intros j Hj. rewrite (nth_map _ xs j 0) by exact Hj. reflexivity.
        + symmetry. destruct (smem name (array_keys_of d ov)) eqn:SM; [|reflexivity]. apply smem_spec in SM. apply (in_array_keys d ov name N) in SM. destruct SM as (_ & l & X). congruence.
      - cbn [bind]. assert (AN : array_given d ov name) by (split; [apply dget_some_in; eauto|eauto]).
        replace (smem name (array_keys_of d ov)) with true by (symmetry; apply smem_spec, (in_array_keys d ov name N), AN).
        assert (LL : length l = n) by (apply SL, (in_array_lengths d ov _ N); exists name, l; destruct AN; auto).
        exists lab, (fun j => nth j l 0). cbn [bind]. rewrite EL. cbn [bind]. replace (length xs =? length l)%nat with true by (symmetry; apply Nat.eqb_eq; lia). split; [|split; [apply par_label_of, EL|]].
        + f_equal. f_equal. apply combine_samples; [lia|auto].
        + intros j Hj. apply nth_error_nth'. lia.
      - cbn [bind]. replace (smem name (array_keys_of d ov)) with false.
        + exists lab, (fun _ => x). cbn [bind]. rewrite EL. cbn [bind]. rewrite map_length, Nat.eqb_refl. split; [|split; [apply par_label_of, EL|auto]].
          f_equal. f_equal. apply combine_samples; [apply map_length|]. intros j Hj. rewrite (nth_map _ xs j 0) by exact Hj. reflexivity.
        + symmetry. destruct (smem name (array_keys_of d ov)) eqn:SM; [|reflexivity]. apply smem_spec in SM. apply (in_array_keys d ov name N) in SM. destruct SM as (_ & l & X). congruence. }
    destruct (mapM_total f gain_names) as (cs & EM). { intros name In_. destruct (GN name In_) as (lab & g & -> & _). eauto. }
    exists cs. rewrite EM. split; [reflexivity|]. split; [apply (mapM_length _ _ _ EM)|].
    intros i name Ei. destruct (mapM_nth_error _ _ _ _ _ EM Ei) as (c & Ec & Ef). destruct (GN name (nth_error_In _ _ Ei)) as (lab & g & EG & LG & RG).
    exists lab, g. rewrite EG in Ef. injection Ef as <-. auto.
Qed.
