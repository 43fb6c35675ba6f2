(* PModels10.v -- eigenvalues of the models, modes, rider lean simulation *)
From Coq Require Import Lra Lia.
From Verif Require Import Base MString MHeap MBicycle MVec MInertia MSets MModels MModels2 PBase PBicycle PHeap SModels SModels2
  PModels PModels2 PModels3 PModels4 PSets3 PModels5 PModels6 PModels7 PModels8 PModels9.
Local Open Scope string_scope.
Local Open Scope R_scope.

Lemma eigen_single eig m s left ov h d w V : eig_contract eig -> sound_equations m -> fit m s h d -> NoDup (dkeys ov) ->
  snd (calc_eigen eig (state_space m s) left ov h) = Ok (Single (w, V)) ->
  exists A B, snd (state_space m s ov h) = Ok (Single (A, B)) /\ eigenpairs left (n_states m) A w V.
Proof.
  intros EC SE F N E. rewrite calc_eigen_eq in E. cbn [snd] in E.
  destruct (snd (state_space m s ov h)) as [[[A B]|l]|] eqn:ES; [|destruct (mapM _ l); discriminate|discriminate].
  exists A, B. split; [reflexivity|]. cbn [fst] in E. destruct (eig (orient left A)) as [wv|] eqn:EE; [|discriminate]. injection E as ->.
  eapply eig_oriented; eauto. eapply (proj1 (sst_shape m s ov h d SE F N)); eauto.
Qed.
Lemma eigen_stack eig m s left ov h d l : eig_contract eig -> sound_equations m -> fit m s h d -> NoDup (dkeys ov) ->
  snd (calc_eigen eig (state_space m s) left ov h) = Ok (Stack l) ->
  exists abs, snd (state_space m s ov h) = Ok (Stack abs) /\ length l = length abs /\
    forall i, (i < length l)%nat -> eigenpairs left (n_states m) (fst (nth i abs ([], []))) (fst (nth i l ([], []))) (snd (nth i l ([], []))).
Proof.
  intros EC SE F N E. rewrite calc_eigen_eq in E. cbn [snd] in E.
  destruct (snd (state_space m s ov h)) as [[x|abs]|] eqn:ES; [destruct (eig _); discriminate| |discriminate].
  exists abs. split; [reflexivity|]. destruct (mapM _ abs) as [l'|] eqn:EM; [|discriminate]. injection E as ->.
  apply mapM_nth_iff in EM. destruct EM as (LL & HM). split; [exact LL|]. intros i Hi.
  specialize (HM i ([], []) ([], []) ltac:(lia)). destruct (nth i abs ([], [])) as [A B] eqn:EA. destruct (nth i l ([], [])) as [w V]. cbn [fst snd] in *.
  eapply eig_oriented; eauto. eapply (proj2 (sst_shape m s ov h d SE F N)); eauto. rewrite <- EA. apply nth_In. lia.
Qed.
Lemma pointwise_eigen eig left whole single n :
  pointwise whole single n ->
  pointwise (match whole with Err e => Err e | Ok (Single x) => map_res Single (eig (orient left (fst x)))
             | Ok (Stack l) => map_res Stack (mapM (fun x : marr * marr => eig (orient left (fst x))) l) end : res (shaped eigres))
    (fun i => match single i with Err e => Err e | Ok (Single x) => map_res Single (eig (orient left (fst x)))
             | Ok (Stack l) => map_res Stack (mapM (fun x : marr * marr => eig (orient left (fst x))) l) end) n.
Proof.
  intros (P1 & P2 & P3). split; [|split].
  - intros a. destruct whole as [[x|l]|e]; [exfalso; apply (P1 x eq_refl)| |discriminate]. destruct (mapM _ l); discriminate.
  - intros l. destruct whole as [[x|l']|e]; [exfalso; apply (P1 x eq_refl)| |discriminate]. destruct (mapM _ l') as [l''|] eqn:EM; [|discriminate].
    intros X. injection X as ->. destruct (P2 l' eq_refl) as (LL & HS). apply mapM_nth_iff in EM. destruct EM as (LM & HM). split; [lia|].
    intros i a Hi. rewrite (HS i ([], []) Hi). rewrite (HM i ([], []) a) by lia. reflexivity.
  - intros Hn HA. destruct P3 as (l & EL); [exact Hn| |].
    + intros i Hi. destruct (HA i Hi) as (a & E). destruct (single i) as [[x|l]|]; [eauto| |discriminate]. destruct (mapM _ l); discriminate.
    + destruct (P2 l EL) as (LL & HS). rewrite EL.
      assert (EM : exists l', mapM (fun x : marr * marr => eig (orient left (fst x))) l = Ok l').
      { assert (EA : forall x, In x l -> exists w, eig (orient left (fst x)) = Ok w).
        { intros x IN. destruct (In_nth l x ([], []) IN) as (i & Hi & <-). destruct (HA i ltac:(lia)) as (a & E). rewrite (HS i ([], [])) in E by lia.
          destruct (eig _); [eauto|discriminate]. }
        clear - EA. induction l as [|x l IH]; [eexists; reflexivity|]. cbn [mapM]. destruct (EA x) as (w & ->); [left; reflexivity|]. cbn [bind].
        destruct IH as (l' & ->); [intros; apply EA; right; assumption|]. eexists; reflexivity. }
      destruct EM as (l' & ->). eexists; reflexivity.
Qed.
Lemma sst_pointwise m s ov h d n : fit m s h d -> NoDup (dkeys ov) -> same_lengths d ov n -> changes m d ov ->
  pointwise (snd (state_space m s ov h)) (fun i => snd (state_space m s (at_row i ov) h)) n.
Proof.
  intros (E & C) N HS (k & AG & BP). destruct m as [| |pitch body]; cbn [state_space].
  - apply (ss_pointwise s ov h d n E N HS). apply ex_vg_deps. exists k. auto.
  - apply (fb_pointwise s ov h d n E N HS). eauto.
  - apply (rl_pointwise pitch body s ov h d n E N HS C). eauto.
Qed.
Lemma eigen_pointwise eig left m s ov h d n : fit m s h d -> NoDup (dkeys ov) -> same_lengths d ov n -> changes m d ov ->
  pointwise (snd (calc_eigen eig (state_space m s) left ov h)) (fun i => snd (calc_eigen eig (state_space m s) left (at_row i ov) h)) n.
Proof.
  intros F N HS CH. pose proof (pointwise_eigen eig left _ _ n (sst_pointwise m s ov h d n F N HS CH)) as P.
  rewrite calc_eigen_eq. cbn [snd]. destruct P as (P1 & P2 & P3). split; [exact P1|]. split.
  - intros l EL. destruct (P2 l EL) as (LL & HS'). split; [exact LL|]. intros i a Hi. rewrite calc_eigen_eq. cbn [snd]. apply HS', Hi.
  - intros Hn HA. apply P3; [exact Hn|]. intros i Hi. destruct (HA i Hi) as (a & EA). rewrite calc_eigen_eq in EA. exists a. exact EA.
Qed.
Lemma eigen_preserves eig left m s ov h d : fit m s h d -> NoDup (dkeys ov) -> preserved h (fst (calc_eigen eig (state_space m s) left ov h)).
Proof. intros F N. rewrite calc_eigen_eq. cbn [fst]. eapply sst_preserves; eauto. Qed.

(* ---- first and second order form ---- *)
Lemma eigen_rates A B lam V j : first_order A B -> right_eigenpair 4 A lam V j ->
  cent V 2 j = cmul lam (cent V 0 j) /\ cent V 3 j = cmul lam (cent V 1 j).
Proof.
  intros (a & b & -> & _) (_ & EQ). rewrite <- (EQ 0%nat), <- (EQ 1%nat) by lia. unfold csum, rsum, ent. cbn [seq map nth fold_right fst snd cmul].
  destruct (cent V 2 j) as [x2 y2]. destruct (cent V 3 j) as [x3 y3]. cbn [fst snd]. split; f_equal; ring.
Qed.
Lemma eigen_second_order M C1 K0 K2 v g A B lam V j : ab_matrix M C1 K0 K2 v g = Ok (A, B) -> right_eigenpair 4 A lam V j ->
  second_order M C1 K0 K2 v g lam (cent V 0 j) (cent V 1 j).
Proof.
  intros E EP. unfold ab_matrix, inv2 in E. apply bind_ok in E. destruct E as (iM & EI & E). apply bind_ok in EI. destruct EI as (k & EK & EI).
  apply rdiv_ok in EK. destruct EK as (ND & EK). injection EI as <-. injection E as <- <-.
  assert (R : cent V 2 j = cmul lam (cent V 0 j) /\ cent V 3 j = cmul lam (cent V 1 j)).
  { destruct EP as (_ & EQ). rewrite <- (EQ 0%nat), <- (EQ 1%nat) by lia. unfold csum, rsum, ent. cbn.
    destruct (cent V 2 j) as [x2 y2]. destruct (cent V 3 j) as [x3 y3]. cbn [fst snd]. split; f_equal; ring. }
  destruct R as (R2 & R3). destruct EP as (_ & EQ). pose proof (EQ 2%nat ltac:(lia)) as E2. pose proof (EQ 3%nat ltac:(lia)) as E3. clear EQ.
  unfold csum, rsum, ent in E2, E3. cbn [seq map] in E2, E3. rewrite R2, R3 in E2, E3. clear R2 R3.
  destruct (cent V 0 j) as [x0 y0]. destruct (cent V 1 j) as [x1 y1]. destruct lam as [al be]. destruct M as [a b c d]. destruct C1 as [c11 c12 c21 c22].
  destruct K0 as [p11 p12 p21 p22]. destruct K2 as [q11 q12 q21 q22]. cbn in ND, EK, E2, E3. clear V j.
  injection E2 as E2r E2i. injection E3 as E3r E3i.
  assert (NZ : a * d - b * c <> 0) by exact ND. set (D := a * d - b * c) in *. assert (KD : k * D = 1) by (subst k; field; exact NZ).
  intros i Hi. destruct i as [|[|i]]; [| |lia]; unfold cadd, cscale, cmul; cbn [m2_rows m11 m12 m21 m22 nth fst snd]; f_equal.
  - transitivity (a * (al * (al * x0 - be * y0) - be * (al * y0 + be * x0)) + b * (al * (al * x1 - be * y1) - be * (al * y1 + be * x1))
       + k * D * (v * (c11 * (al * x0 - be * y0) + c12 * (al * x1 - be * y1)) + (g * p11 + v ^ 2 * q11) * x0 + (g * p12 + v ^ 2 * q12) * x1)).
    { rewrite KD. ring. }
    rewrite <- E2r, <- E3r. unfold D. ring.
  - transitivity (a * (al * (al * y0 + be * x0) + be * (al * x0 - be * y0)) + b * (al * (al * y1 + be * x1) + be * (al * x1 - be * y1))
       + k * D * (v * (c11 * (al * y0 + be * x0) + c12 * (al * y1 + be * x1)) + (g * p11 + v ^ 2 * q11) * y0 + (g * p12 + v ^ 2 * q12) * y1)).
    { rewrite KD. ring. }
    rewrite <- E2i, <- E3i. unfold D. ring.
  - transitivity (c * (al * (al * x0 - be * y0) - be * (al * y0 + be * x0)) + d * (al * (al * x1 - be * y1) - be * (al * y1 + be * x1))
       + k * D * (v * (c21 * (al * x0 - be * y0) + c22 * (al * x1 - be * y1)) + (g * p21 + v ^ 2 * q21) * x0 + (g * p22 + v ^ 2 * q22) * x1)).
    { rewrite KD. ring. }
    rewrite <- E2r, <- E3r. unfold D. ring.
  - transitivity (c * (al * (al * y0 + be * x0) + be * (al * x0 - be * y0)) + d * (al * (al * y1 + be * x1) + be * (al * x1 - be * y1))
       + k * D * (v * (c21 * (al * y0 + be * x0) + c22 * (al * y1 + be * x1)) + (g * p21 + v ^ 2 * q21) * y0 + (g * p22 + v ^ 2 * q22) * y1)).
    { rewrite KD. ring. }
    rewrite <- E2i, <- E3i. unfold D. ring.
Qed.

(* ---- modes ---- *)
Lemma modes solve eig m s ov h d times res : solver_contract solve -> eig_contract eig -> sound_equations m -> increasing times -> fit m s h d -> NoDup (dkeys ov) ->
  snd (simulate_modes solve eig s (state_space m s) times ov h) = Ok res ->
  exists A B w V t0, snd (state_space m s ov h) = Ok (Single (A, B)) /\ snd (calc_eigen eig (state_space m s) false ov h) = Ok (Single (w, V)) /\
    eigenpairs false (n_states m) A w V /\ hd_error times = Some t0 /\ length res = n_states m /\
    forall j, (j < n_states m)%nat -> length (nth j res []) = length times /\
      forall k, (k < length times)%nat -> length (nth k (nth j res []) []) = n_states m /\
        forall i, (i < n_states m)%nat -> ent (nth j res []) k i = mode_re (nth j w (0, 0)) (cent V i j) t0 (nth k times 0).
Proof.
  intros SC EC SE IN F N. unfold simulate_modes. unfold hbind at 1. rewrite (parse_parameter_overrides_eq _ _ _ _ (proj1 F)).
  pose proof (parsed_ok d ov N) as P. destruct (parsed d ov) as [[[d' ks] len]|e]; [|discriminate].
  destruct P as (-> & -> & _ & HD & ED). cbn [fst snd]. rewrite <- ED. destruct (array_keys_of d ov) as [|k0 ks0]; [|discriminate].
  pose proof (fit_app m s h d [d'] F) as F1.
  pose proof (sst_preserves m s ov (h ++ [d'])%list d F1 N) as P1. pose proof (sst_det m s ov h (h ++ [d'])%list d F F1 N) as D1.
  unfold hbind at 1. destruct (state_space m s ov (h ++ [d'])%list) as [h2 [r|e]] eqn:ES; cbn [fst snd] in *; [|discriminate].
  unfold hbind at 1, lift at 1. destruct r as [[A B]|l]; [|discriminate]. cbn [fst snd].
  pose proof (fit_preserved m s _ _ d P1 F1) as F2. unfold hbind at 1.
  assert (DE : snd (calc_eigen eig (state_space m s) false ov h) = snd (calc_eigen eig (state_space m s) false ov h2)).
  { rewrite !calc_eigen_eq. cbn [snd]. rewrite (sst_det m s ov h h2 d F F2 N). reflexivity. }
  destruct (calc_eigen eig (state_space m s) false ov h2) as [h3 [ev|e]] eqn:EE; cbn [snd] in DE; [|discriminate].
  unfold hbind at 1, lift at 1. destruct ev as [[w V]|l]; [|discriminate]. cbn [fst snd].
  unfold lift. cbn [snd]. intros E.
  destruct (eigen_single eig m s false ov h d w V EC SE F N DE) as (A' & B' & EA & EP). assert (A' = A /\ B' = B) as [-> ->] by (split; congruence).
  destruct (proj1 (sst_shape m s ov h d SE F N) A B EA) as (SA & SB). pose proof (n_states_pos m) as NP.
  set (n := n_states m) in *. destruct EP as (LW & LV & LR & EPJ).
  assert (LH : length (hd [] V) = n) by (destruct V as [|row V']; [simpl in LV; lia | apply LR; left; reflexivity]).
  rewrite LH in E. apply mapM_nth_iff in E. rewrite seq_length in E. destruct E as (LE & HE).
  destruct times as [|t0 ts] eqn:ET.
  { specialize (HE 0%nat 0%nat [] NP). cbn [time_span] in HE. destruct (mapM _ V); discriminate. }
  rewrite <- ET in *. exists A, B, w, V, t0. split; [exact EA|]. split; [exact DE|]. split; [split; auto|]. split; [rewrite ET; reflexivity|]. split; [exact LE|].
  assert (HD0 : hd_error times = Some t0) by (rewrite ET; reflexivity). clear D1 ES EE.
  assert (TS : time_span times = Ok (t0, last times t0)) by (rewrite ET; reflexivity).
  assert (LT : (0 < length times)%nat) by (rewrite ET; simpl; lia). clear ET ts.
  intros j Hj. specialize (HE j 0%nat [] Hj). rewrite seq_nth in HE by exact Hj. cbn [plus] in HE.
  assert (X0 : mapM (fun row : list cplx => z <- index row j ;; Ok (fst z)) V = Ok (map (fun i => fst (cent V i j)) (seq 0 n))).
  { rewrite <- LV. clear - LR Hj. unfold cent.
    assert (G : forall V0 : list (list cplx), (forall row, In row V0 -> length row = n) -> mapM (fun row => z <- index row j ;; Ok (fst z)) V0 = Ok (map (fun i => fst (nth j (nth i V0 []) (0, 0))) (seq 0 (length V0)))).
    { induction V0 as [|row V0 IH]; intros HR; [reflexivity|]. cbn [mapM length seq map]. rewrite (index_ok row j (0, 0)) by (rewrite HR; [exact Hj | left; reflexivity]). cbn [bind].
      rewrite IH by (intros; apply HR; right; assumption). cbn [bind]. rewrite <- seq_shift, map_map. reflexivity. }
    apply G, LR. }
  rewrite X0 in HE. cbn [bind] in HE. rewrite TS in HE. cbn [bind fst snd] in HE.
  apply bind_ok in HE. destruct HE as (y & EY & HE). destruct (Nat.eqb _ _) eqn:EQ; [|discriminate]. apply Nat.eqb_eq in EQ.
  set (x0 := map (fun i => fst (cent V i j)) (seq 0 n)) in *.
  assert (LX0 : length x0 = n) by (unfold x0; rewrite map_length; apply seq_length).
  destruct (SC _ _ _ _ _ _ EY) as (LY & LRY & x & XI & TR & SM). rewrite LX0 in *.
  pose (z := fun t => map (fun i => mode_re (nth j w (0, 0)) (cent V i j) t0 t) (seq 0 n)).
  assert (NM : forall (f : nat -> R) i, (i < n)%nat -> nth i (map f (seq 0 n)) 0 = f i).
  { intros f i Hi. rewrite (nth_indep _ 0 (f 0%nat)) by (rewrite map_length, seq_length; exact Hi). rewrite (map_nth f). rewrite seq_nth by exact Hi. reflexivity. }
  assert (ZX : forall t, t0 <= t <= last times t0 -> x t = z t).
  { apply (linear_unique n A t0 (last times t0) x z SA TR).
    - apply (motion_trajectory n (n_inputs m) A B t0 (last times t0) z SA). apply (mode_motion n (n_inputs m) A B w V j t0 (last times t0)); [repeat split; auto; apply EPJ; auto | exact Hj].
    - rewrite XI. unfold z, x0. apply map_ext. intros i. unfold mode_re. replace (t0 - t0) with 0 by ring. rewrite !Rmult_0_r, exp_0, cos_0, sin_0. ring. }
  assert (BD : forall k, (k < length times)%nat -> t0 <= nth k times 0 <= last times t0) by (intros; apply increasing_bounds; auto).
  rewrite EQ in HE. apply mapM_nth_iff in HE. rewrite seq_length in HE. destruct HE as (LS & HS). split; [exact LS|].
  intros k Hk. specialize (HS k 0%nat [] Hk). rewrite seq_nth in HS by exact Hk. cbn [plus] in HS.
  assert (LXK : length (x (nth k times 0)) = n) by (destruct (TR _ (BD k Hk)) as (L & _); exact L).
  rewrite (column_samples y x0 x times k) in HS; try (rewrite LX0); auto; try congruence.
  injection HS as HS. unfold ent. rewrite <- HS. split; [exact LXK|]. intros i Hi. rewrite (ZX _ (BD k Hk)). unfold z. apply NM, Hi.
Qed.

(* ---- arrays are rejected ---- *)
Lemma arrays_rejected solve m s ov h d times x0 inp n k : fit m s h d -> NoDup (dkeys ov) -> same_lengths d ov n -> array_given d ov k ->
  snd (simulate solve s (state_space m s) times x0 inp ov h) = Err (ValueError "Can only simulate with fixed parameters.").
Proof.
  intros F N HS AG. unfold simulate. unfold hbind at 1. rewrite (parse_parameter_overrides_eq _ _ _ _ (proj1 F)).
  pose proof (parsed_ok d ov N) as P. destruct (parsed d ov) as [[[d' ks] len]|e].
  2:{ exfalso. destruct P as (_ & P). apply P. exists n. split; [discriminate|]. intros q Hq; apply HS; exact Hq. }
  destruct P as (-> & _). apply in_array_keys in AG; auto. destruct (array_keys_of d ov); [destruct AG|]. reflexivity.
Qed.
Lemma arrays_rejected_modes solve eig m s ov h d times n k : fit m s h d -> NoDup (dkeys ov) -> same_lengths d ov n -> array_given d ov k ->
  snd (simulate_modes solve eig s (state_space m s) times ov h) = Err (ValueError "Can only simulate with fixed parameters.").
Proof.
  intros F N HS AG. unfold simulate_modes. unfold hbind at 1. rewrite (parse_parameter_overrides_eq _ _ _ _ (proj1 F)).
  pose proof (parsed_ok d ov N) as P. destruct (parsed d ov) as [[[d' ks] len]|e].
  2:{ exfalso. destruct P as (_ & P). apply P. exists n. split; [discriminate|]. intros q Hq; apply HS; exact Hq. }
  destruct P as (-> & _). apply in_array_keys in AG; auto. destruct (array_keys_of d ov); [destruct AG|]. reflexivity.
Qed.

(* ---- rider lean: the caller's initial conditions ---- *)
Lemma rider_lean_initial solve pitch body s ov h d times x0 inp x0' r : nth_error h (ps_ref s) = Some d -> NoDup (dkeys ov) ->
  snd (simulate_rl solve pitch body s times x0 inp ov h) = Ok (x0', r) ->
  exists v rr, dget (with_scalars d ov) "v" = Some (VNum v) /\ dget (with_scalars d ov) "rr" = Some (VNum rr) /\ rr <> 0 /\
    x0' = upd x0 9 (- v / rr) /\ (9 < length x0)%nat /\
    exists h1, preserved h h1 /\ r = snd (simulate solve s (state_space (MRiderLean pitch body) s) times x0' inp ov h1).
Proof.
  intros E N. unfold simulate_rl. unfold hbind at 1. rewrite (parse_parameter_overrides_eq _ _ _ _ E).
  pose proof (parsed_ok d ov N) as P. destruct (parsed d ov) as [[[d' ks] len]|e]; [|discriminate].
  destruct P as (-> & -> & _ & HD & ED). cbn [fst snd]. rewrite <- ED. unfold hbind at 1. rewrite (hload_eq _ _ _ (nth_error_app_last h [] d')).
  unfold hbind at 1, lift at 1. destruct (scalar_at d' "v") as [v|] eqn:EV; [|discriminate].
  unfold hbind at 1, lift at 1. destruct (scalar_at d' "rr") as [rr|] eqn:ERR; [|discriminate].
  unfold hbind at 1, lift at 1. destruct (rdiv (- v) rr) as [w|] eqn:EW; [|discriminate].
  unfold hbind at 1, lift at 1. destruct (index x0 9) as [x9|] eqn:E9; [|discriminate].
  intros X. exists v, rr. apply rdiv_ok in EW. destruct EW as (NZ & ->).
  assert (G : forall k x, scalar_at d' k = Ok x -> dget (with_scalars d ov) k = Some (VNum x)).
  { intros k x EK. unfold scalar_at, dlook in EK. rewrite HD in EK. unfold overridden in EK. unfold with_scalars.
    rewrite (dget_map_val d (fun k v => match dget ov k with Some (OScalar x) => VNum x | _ => v end) k).
    destruct (dget d k) as [v0|]; [|discriminate]. destruct (dget ov k) as [[y|l]|]; cbn [bind] in EK; try discriminate.
    - injection EK as ->. reflexivity.
    - destruct v0; try discriminate. injection EK as ->. reflexivity. }
  split; [apply G, EV|]. split; [apply G, ERR|]. split; [exact NZ|].
  destruct (simulate solve s (form_state_space_matrices_rl pitch body s) times (upd x0 9 (- v / rr)) inp ov (h ++ [d'])%list) as [h' r'] eqn:ES.
  cbn [snd] in X. injection X as <- <-. split; [reflexivity|]. split.
  - unfold index in E9. apply nth_error_Some. destruct (nth_error x0 9); [discriminate|discriminate].
  - exists (h ++ [d'])%list. split; [apply preserved_app|]. cbn [state_space]. rewrite ES. reflexivity.
Qed.
