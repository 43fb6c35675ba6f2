(* PModels4.v -- consequences of the row-by-row characterisation *)
From Coq Require Import Lra.
From Verif Require Import Base MString MHeap MBicycle MVec MInertia MSets MModels PBase SBicycle PBicycle PBicycle2 PHeap SModels PModels PModels2 PModels3 PSets.
Local Open Scope string_scope.
Local Open Scope R_scope.

(* ---------- no leaks ---------- *)
Lemma canonical_preserves s ov h d : nth_error h (ps_ref s) = Some d -> NoDup (dkeys ov) -> preserved h (fst (form_reduced_canonical_matrices s ov h)).
Proof.
  intros E N. destruct (lens_agree_dec d ov) as [A|A].
  - apply lens_agree_iff in A. destruct A as [n A]. destruct (form_canonical_eq s ov h d n E N A) as (h' & P & ->). exact P.
  - destruct (form_canonical_bad s ov h d E N A) as (h' & P & ->). exact P.
Qed.
Lemma ss_preserves s ov h d : nth_error h (ps_ref s) = Some d -> NoDup (dkeys ov) -> preserved h (fst (form_state_space_matrices s ov h)).
Proof.
  intros E N. destruct (lens_agree_dec d ov) as [A|A].
  - apply lens_agree_iff in A. destruct A as [n A]. destruct (form_ss_eq s ov h d n E N A) as (h' & r & P & -> & _). exact P.
  - destruct (form_ss_bad s ov h d E N A) as (h' & P & ->). exact P.
Qed.
Lemma fb_preserves s ov h d : nth_error h (ps_ref s) = Some d -> NoDup (dkeys ov) -> preserved h (fst (form_state_space_matrices_fb s ov h)).
Proof.
  intros E N. destruct (lens_agree_dec d ov) as [A|A].
  - apply lens_agree_iff in A. destruct A as [n A]. destruct (form_fb_eq s ov h d n E N A) as (h' & r & P & -> & _). exact P.
  - destruct (form_fb_bad s ov h d E N A) as (h' & P & ->). exact P.
Qed.

(* ---------- the result is a function of the dictionary and the overrides ---------- *)
Lemma canonical_det s s2 ov h h2 d : nth_error h (ps_ref s) = Some d -> nth_error h2 (ps_ref s2) = Some d -> NoDup (dkeys ov) ->
  snd (form_reduced_canonical_matrices s ov h) = snd (form_reduced_canonical_matrices s2 ov h2).
Proof.
  intros E E2 N. destruct (lens_agree_dec d ov) as [A|A].
  - apply lens_agree_iff in A. destruct A as [n A].
    destruct (form_canonical_eq s ov h d n E N A) as (h' & P & ->). destruct (form_canonical_eq s2 ov h2 d n E2 N A) as (h2' & P2 & ->). reflexivity.
  - destruct (form_canonical_bad s ov h d E N A) as (h' & P & ->). destruct (form_canonical_bad s2 ov h2 d E2 N A) as (h2' & P2 & ->). reflexivity.
Qed.
Ltac same_res := repeat (match goal with
  | |- context [match ?x with Ok _ => _ | Err _ => _ end] => destruct x; try reflexivity
  | |- context [match ?x with Single _ => _ | Stack _ => _ end] => destruct x; try reflexivity
  | |- context [match ?x with [] => _ | _ :: _ => _ end] => destruct x; try reflexivity
  | |- context [if ?x then _ else _] => destruct x; try reflexivity
  end; cbn [snd]).
Lemma ss_det s s2 ov h h2 d : nth_error h (ps_ref s) = Some d -> nth_error h2 (ps_ref s2) = Some d -> NoDup (dkeys ov) ->
  snd (form_state_space_matrices s ov h) = snd (form_state_space_matrices s2 ov h2).
Proof.
  intros E E2 N. destruct (lens_agree_dec d ov) as [A|A].
  - apply lens_agree_iff in A. destruct A as [n A].
    unfold form_state_space_matrices, hbind, lift, hret.
    rewrite (parse_parameter_overrides_eq _ _ _ _ E), (parse_parameter_overrides_eq _ _ _ _ E2).
    pose proof (parsed_ok d ov N) as P. destruct (parsed d ov) as [[[d' ks] len]|e]; [|reflexivity].
    destruct P as (-> & -> & _ & HD & ED). cbn [fst snd]. rewrite <- ED.
    destruct (form_canonical_eq s ov (h ++ [d'])%list d n (nth_error_app_l _ _ _ _ E) N A) as (h1 & P1 & E1).
    destruct (form_canonical_eq s2 ov (h2 ++ [d'])%list d n (nth_error_app_l _ _ _ _ E2) N A) as (h3 & P3 & E3).
    assert (X1 : nth_error h1 (length h) = Some d') by (eapply preserved_nth; [exact P1|]; apply nth_error_app_last).
    assert (X3 : nth_error h3 (length h2) = Some d') by (eapply preserved_nth; [exact P3|]; apply nth_error_app_last).
    rewrite E1, E3. destruct (canon_pure d ov n) as [cs|e]; [|reflexivity].
    rewrite (hload_eq _ _ _ X1), (hload_eq _ _ _ X3). same_res.
  - destruct (form_ss_bad s ov h d E N A) as (h' & P & ->). destruct (form_ss_bad s2 ov h2 d E2 N A) as (h2' & P2 & ->). reflexivity.
Qed.
Lemma fb_det s s2 ov h h2 d : nth_error h (ps_ref s) = Some d -> nth_error h2 (ps_ref s2) = Some d -> NoDup (dkeys ov) ->
  snd (form_state_space_matrices_fb s ov h) = snd (form_state_space_matrices_fb s2 ov h2).
Proof.
  intros E E2 N. destruct (lens_agree_dec d ov) as [A|A].
  - apply lens_agree_iff in A. destruct A as [n A].
    unfold form_state_space_matrices_fb, hbind, lift, hret.
    rewrite (parse_parameter_overrides_eq _ _ _ _ E), (parse_parameter_overrides_eq _ _ _ _ E2).
    pose proof (parsed_ok d ov N) as P. destruct (parsed d ov) as [[[d' ks] len]|e]; [|reflexivity].
    destruct P as (-> & -> & _ & HD & ED). cbn [fst snd]. rewrite <- ED.
    destruct (form_canonical_eq s ov (h ++ [d'])%list d n (nth_error_app_l _ _ _ _ E) N A) as (h1 & P1 & E1).
    destruct (form_canonical_eq s2 ov (h2 ++ [d'])%list d n (nth_error_app_l _ _ _ _ E2) N A) as (h3 & P3 & E3).
    assert (X1 : nth_error h1 (length h) = Some d') by (eapply preserved_nth; [exact P1|]; apply nth_error_app_last).
    assert (X3 : nth_error h3 (length h2) = Some d') by (eapply preserved_nth; [exact P3|]; apply nth_error_app_last).
    rewrite E1, E3. destruct (canon_pure d ov n) as [cs|e]; [|reflexivity].
    rewrite (hload_eq _ _ _ X1), (hload_eq _ _ _ X3). same_res.
  - destruct (form_fb_bad s ov h d E N A) as (h' & P & ->). destruct (form_fb_bad s2 ov h2 d E2 N A) as (h2' & P2 & ->). reflexivity.
Qed.

(* ---------- unknown names are ignored ---------- *)
Lemma parse_known d ov : forall d0 keys len, (forall k, dmem d0 k = dmem d k) -> parse_pure d0 (known d ov) keys len = parse_pure d0 ov keys len.
Proof.
  induction ov as [|[key val] ov IH]; intros d0 keys len HE; cbn [known filter parse_pure fst]; auto.
  rewrite <- (HE key). destruct (dmem d0 key) eqn:EK; cbn [negb].
  - cbn [parse_pure]. rewrite EK. cbn [negb]. destruct val as [x|l].
    + apply IH. intros k. rewrite dmem_dset_in by exact EK. apply HE.
    + destruct (Nat.eqb _ _); cbn [negb]; auto. apply IH. intros k. rewrite dmem_dset_in by exact EK. apply HE.
  - apply IH; exact HE.
Qed.
Lemma parse_overrides_known s ov h d : nth_error h (ps_ref s) = Some d ->
  parse_parameter_overrides s (known d ov) h = parse_parameter_overrides s ov h.
Proof.
  intros E. rewrite !(parse_parameter_overrides_eq _ _ _ _ E). unfold parsed. rewrite (parse_known d ov d [] None) by reflexivity. reflexivity.
Qed.
Lemma canonical_known s ov h d : nth_error h (ps_ref s) = Some d ->
  form_reduced_canonical_matrices s (known d ov) h = form_reduced_canonical_matrices s ov h.
Proof. intros E. unfold form_reduced_canonical_matrices. unfold hbind at 1. rewrite (parse_overrides_known s ov h d E). reflexivity. Qed.
Lemma hbind_cong {A B} (m1 m2 : H A) (f1 f2 : A -> H B) h : m1 h = m2 h ->
  (forall h' a, m1 h = (h', Ok a) -> f1 a h' = f2 a h') -> hbind m1 f1 h = hbind m2 f2 h.
Proof. intros E F. unfold hbind. rewrite E. destruct (m2 h) as [h' [a|e]] eqn:EM; auto. Qed.
Lemma ss_known s ov h d : nth_error h (ps_ref s) = Some d ->
  form_state_space_matrices s (known d ov) h = form_state_space_matrices s ov h.
Proof.
  intros E. unfold form_state_space_matrices. apply hbind_cong; [apply (parse_overrides_known s ov h d E)|].
  intros h' [[par ks] n] EP. apply hbind_cong.
  - apply (canonical_known s ov h' d). rewrite (parse_parameter_overrides_eq _ _ _ _ E) in EP. injection EP as <- _. apply nth_error_app_l; exact E.
  - reflexivity.
Qed.
Lemma fb_known s ov h d : nth_error h (ps_ref s) = Some d ->
  form_state_space_matrices_fb s (known d ov) h = form_state_space_matrices_fb s ov h.
Proof.
  intros E. unfold form_state_space_matrices_fb. apply hbind_cong; [apply (parse_overrides_known s ov h d E)|].
  intros h' [[par ks] n] EP. apply hbind_cong.
  - apply (canonical_known s ov h' d). rewrite (parse_parameter_overrides_eq _ _ _ _ E) in EP. injection EP as <- _. apply nth_error_app_l; exact E.
  - reflexivity.
Qed.

(* ---------- scalar overrides act like a set holding those values ---------- *)
Lemma rowd_scalars d ov i : all_scalar ov -> rowd d ov i = rowd (with_scalars d ov) [] 0.
Proof.
  intros HA. unfold rowd, with_scalars. rewrite map_map. apply map_ext. intros [k v]. cbn [fst snd dget].
  destruct (dget ov k) as [[x|l]|] eqn:E; auto. apply dget_in in E. destruct (HA _ _ E). discriminate.
Qed.
Lemma scalar_keys d ov : all_scalar ov -> array_keys_of d ov = [] /\ array_lengths d ov = [].
Proof.
  unfold all_scalar, array_keys_of, array_lengths. induction ov as [|[k v] ov IH]; simpl; intros HA; auto.
  destruct (HA k v (or_introl eq_refl)) as (x & ->). apply IH. intros k0 v0 H0. apply (HA k0 v0). auto.
Qed.
Lemma scalar_lengths d ov n : all_scalar ov -> same_lengths d ov n.
Proof. intros HA m. rewrite (proj2 (scalar_keys d ov HA)). intros []. Qed.
Lemma empty_scalar : all_scalar [].
Proof. intros k v []. Qed.
Lemma at_row_scalar i ov : all_scalar (at_row i ov).
Proof.
  intros k v HI. unfold at_row in HI. apply in_map_iff in HI. destruct HI as ([k0 v0] & E & _). injection E as <- <-.
  destruct v0; simpl; eauto.
Qed.

Lemma canonical_scalar s ov h d : nth_error h (ps_ref s) = Some d -> NoDup (dkeys ov) -> all_scalar ov ->
  snd (form_reduced_canonical_matrices s ov h) = map_res Single (canonical (floats (rowd d ov 0))).
Proof.
  intros E N HA. destruct (form_canonical_eq s ov h d 0 E N (scalar_lengths d ov 0 HA)) as (h' & _ & ->).
  unfold canon_pure, canon_varies. rewrite (proj1 (scalar_keys d ov HA)). reflexivity.
Qed.
Lemma ss_scalar s ov h d ab : nth_error h (ps_ref s) = Some d -> NoDup (dkeys ov) -> all_scalar ov ->
  (snd (form_state_space_matrices s ov h) = Ok (Single ab) <-> ss_row (rowd d ov 0) = Ok ab).
Proof.
  intros E N HA. destruct (form_ss_eq s ov h d 0 E N (scalar_lengths d ov 0 HA)) as (h' & r & _ & -> & HR).
  unfold ss_varies, canon_varies in HR. rewrite (proj1 (scalar_keys d ov HA)) in HR. cbn [existsb smem orb] in HR.
  destruct HR as (_ & HR). apply HR.
Qed.
Lemma fb_scalar s ov h d ab : nth_error h (ps_ref s) = Some d -> NoDup (dkeys ov) -> all_scalar ov ->
  (snd (form_state_space_matrices_fb s ov h) = Ok (Single ab) <-> fb_row (rowd d ov 0) = Ok ab).
Proof.
  intros E N HA. destruct (form_fb_eq s ov h d 0 E N (scalar_lengths d ov 0 HA)) as (h' & r & _ & -> & HR).
  rewrite (proj1 (scalar_keys d ov HA)) in HR. destruct HR as (_ & HR). apply HR.
Qed.
Lemma rowd_at_row d ov i j : rowd d (at_row i ov) j = rowd d ov i.
Proof.
  unfold rowd. apply map_ext. intros [k v]. cbn [fst snd]. rewrite dget_at_row. destruct (dget ov k) as [[x|l]|]; reflexivity.
Qed.
Lemma rowd_nil d i : rowd d [] i = d.
Proof. unfold rowd. cbn [dget]. rewrite <- (map_id d) at 2. apply map_ext. intros [k v]; reflexivity. Qed.

Lemma canonical_at_row s ov h d i : nth_error h (ps_ref s) = Some d -> NoDup (dkeys ov) ->
  snd (form_reduced_canonical_matrices s (at_row i ov) h) = map_res Single (canonical (floats (rowd d ov i))).
Proof.
  intros E N. rewrite (canonical_scalar s _ h d E); [|rewrite dkeys_at_row; exact N|apply at_row_scalar].
  rewrite rowd_at_row. reflexivity.
Qed.
Lemma ss_at_row s ov h d i ab : nth_error h (ps_ref s) = Some d -> NoDup (dkeys ov) ->
  (snd (form_state_space_matrices s (at_row i ov) h) = Ok (Single ab) <-> ss_row (rowd d ov i) = Ok ab).
Proof.
  intros E N. rewrite (ss_scalar s _ h d ab E); [|rewrite dkeys_at_row; exact N|apply at_row_scalar].
  rewrite rowd_at_row. tauto.
Qed.
Lemma fb_at_row s ov h d i ab : nth_error h (ps_ref s) = Some d -> NoDup (dkeys ov) ->
  (snd (form_state_space_matrices_fb s (at_row i ov) h) = Ok (Single ab) <-> fb_row (rowd d ov i) = Ok ab).
Proof.
  intros E N. rewrite (fb_scalar s _ h d ab E); [|rewrite dkeys_at_row; exact N|apply at_row_scalar].
  rewrite rowd_at_row. tauto.
Qed.

(* ---------- vectorised = pointwise ---------- *)
Lemma canon_varies_iff d ov : NoDup (dkeys ov) -> (canon_varies d ov = true <-> exists k, In k canon_deps /\ array_given d ov k).
Proof.
  intros N. unfold canon_varies. rewrite existsb_exists. split.
  - intros (k & Hk & HS). exists k. apply smem_spec in HS. apply in_array_keys in Hk; auto.
  - intros (k & Hk & HG). exists k. split; [apply in_array_keys; auto | apply smem_spec; auto].
Qed.
Lemma canonical_pointwise s ov h d n : nth_error h (ps_ref s) = Some d -> NoDup (dkeys ov) -> same_lengths d ov n ->
  (exists k, In k canon_deps /\ array_given d ov k) ->
  pointwise (snd (form_reduced_canonical_matrices s ov h)) (fun i => snd (form_reduced_canonical_matrices s (at_row i ov) h)) n.
Proof.
  intros E N HS HG. apply (canon_varies_iff d ov N) in HG.
  destruct (form_canonical_eq s ov h d n E N HS) as (h' & _ & ->). cbn [snd]. unfold canon_pure. rewrite HG.
  unfold pointwise. split; [|split].
  - intros a. destruct (mapM _ _); discriminate.
  - intros l HL. destruct (mapM _ _) as [l'|e] eqn:EM; [|discriminate]. injection HL as <-.
    apply mapM_seq_ok in EM. destruct EM as [EL EM]. split; auto. intros i a Hi.
    rewrite (canonical_at_row s ov h d i E N). rewrite (EM i a Hi). reflexivity.
  - intros Hn HA. destruct (all_rows (fun i => canonical (floats (rowd d ov i))) n) as (l & EL).
    + intros i Hi. destruct (HA i Hi) as (a & EA). rewrite (canonical_at_row s ov h d i E N) in EA.
      destruct (canonical _); [eauto|discriminate].
    + rewrite EL. eexists; reflexivity.
Qed.
Lemma canonical_constant s ov h d n : nth_error h (ps_ref s) = Some d -> NoDup (dkeys ov) -> same_lengths d ov n ->
  ~ (exists k, In k canon_deps /\ array_given d ov k) ->
  forall i, snd (form_reduced_canonical_matrices s ov h) = snd (form_reduced_canonical_matrices s (at_row i ov) h).
Proof.
  intros E N HS HG i. rewrite <- (canon_varies_iff d ov N) in HG. apply not_true_is_false in HG.
  destruct (form_canonical_eq s ov h d n E N HS) as (h' & _ & ->). cbn [snd]. unfold canon_pure. rewrite HG.
  rewrite (canonical_at_row s ov h d i E N). rewrite (rowd_single d ov 0 i N HG). reflexivity.
Qed.
Lemma rows_pointwise {A} (whole : res (shaped A)) (single : nat -> res (shaped A)) row n :
  rows_of n row whole -> (forall i a, single i = Ok (Single a) <-> row i = Ok a) -> pointwise whole single n.
Proof.
  intros (R1 & R2 & R3) HE. split; [exact R1|]. split.
  - intros l HL. apply R2 in HL. apply mapM_seq_ok in HL. destruct HL as [HL HM]. split; auto.
    intros i a Hi. apply HE. apply HM. exact Hi.
  - intros Hn HA. destruct (all_rows row n) as (l & EL).
    + intros i Hi. destruct (HA i Hi) as (a & EA). exists a. apply HE. exact EA.
    + exists l. apply R3; auto.
Qed.
Lemma ss_varies_iff d ov : NoDup (dkeys ov) ->
  (ss_varies d ov = true <-> exists k, In k ("v" :: "g" :: canon_deps) /\ array_given d ov k).
Proof.
  intros N. unfold ss_varies. rewrite !orb_true_iff, (canon_varies_iff d ov N), !smem_spec, !(in_array_keys d ov _ N). split.
  - intros [(k & Hk & HG)|[HG|HG]]; [exists k|exists "v"|exists "g"]; split; auto; simpl; auto.
  - intros (k & [<-|[<-|Hk]] & HG); auto. left. eauto.
Qed.
Lemma ss_pointwise s ov h d n : nth_error h (ps_ref s) = Some d -> NoDup (dkeys ov) -> same_lengths d ov n ->
  (exists k, In k ("v" :: "g" :: canon_deps) /\ array_given d ov k) ->
  pointwise (snd (form_state_space_matrices s ov h)) (fun i => snd (form_state_space_matrices s (at_row i ov) h)) n.
Proof.
  intros E N HS HG. apply (ss_varies_iff d ov N) in HG.
  destruct (form_ss_eq s ov h d n E N HS) as (h' & r & _ & -> & HR). cbn [snd]. rewrite HG in HR.
  eapply rows_pointwise; [exact HR|]. intros i a. apply ss_at_row; auto.
Qed.
Lemma ss_constant s ov h d n : nth_error h (ps_ref s) = Some d -> NoDup (dkeys ov) -> same_lengths d ov n ->
  ~ (exists k, In k ("v" :: "g" :: canon_deps) /\ array_given d ov k) ->
  forall i, (forall l, snd (form_state_space_matrices s ov h) <> Ok (Stack l)) /\
    forall ab, snd (form_state_space_matrices s ov h) = Ok (Single ab) <-> snd (form_state_space_matrices s (at_row i ov) h) = Ok (Single ab).
Proof.
  intros E N HS HG i. rewrite <- (ss_varies_iff d ov N) in HG. apply not_true_is_false in HG.
  destruct (form_ss_eq s ov h d n E N HS) as (h' & r & _ & -> & HR). cbn [snd]. rewrite HG in HR. destruct HR as (R1 & R2).
  split; auto. intros ab. rewrite (ss_at_row s ov h d i ab E N). apply R2.
Qed.
Lemma fb_pointwise s ov h d n : nth_error h (ps_ref s) = Some d -> NoDup (dkeys ov) -> same_lengths d ov n ->
  (exists k, array_given d ov k) ->
  pointwise (snd (form_state_space_matrices_fb s ov h)) (fun i => snd (form_state_space_matrices_fb s (at_row i ov) h)) n.
Proof.
  intros E N HS (k & HG). apply (in_array_keys d ov k N) in HG.
  destruct (form_fb_eq s ov h d n E N HS) as (h' & r & _ & -> & HR). cbn [snd].
  destruct (array_keys_of d ov); [contradiction|].
  eapply rows_pointwise; [exact HR|]. intros i a. apply fb_at_row; auto.
Qed.
Lemma scalars_as_set_canonical s s2 ov h d : nth_error h (ps_ref s) = Some d -> NoDup (dkeys ov) -> all_scalar ov ->
  nth_error h (ps_ref s2) = Some (with_scalars d ov) ->
  snd (form_reduced_canonical_matrices s ov h) = snd (form_reduced_canonical_matrices s2 [] h).
Proof.
  intros E N HA E2. rewrite (canonical_scalar s ov h d E N HA), (canonical_scalar s2 [] h _ E2 (NoDup_nil _) empty_scalar).
  rewrite (rowd_scalars d ov 0 HA). reflexivity.
Qed.
Lemma scalars_as_set_ss s s2 ov h d ab : nth_error h (ps_ref s) = Some d -> NoDup (dkeys ov) -> all_scalar ov ->
  nth_error h (ps_ref s2) = Some (with_scalars d ov) ->
  (snd (form_state_space_matrices s ov h) = Ok (Single ab) <-> snd (form_state_space_matrices s2 [] h) = Ok (Single ab)).
Proof.
  intros E N HA E2. rewrite (ss_scalar s ov h d ab E N HA), (ss_scalar s2 [] h _ ab E2 (NoDup_nil _) empty_scalar).
  rewrite (rowd_scalars d ov 0 HA). tauto.
Qed.
Lemma scalars_as_set_fb s s2 ov h d ab : nth_error h (ps_ref s) = Some d -> NoDup (dkeys ov) -> all_scalar ov ->
  nth_error h (ps_ref s2) = Some (with_scalars d ov) ->
  (snd (form_state_space_matrices_fb s ov h) = Ok (Single ab) <-> snd (form_state_space_matrices_fb s2 [] h) = Ok (Single ab)).
Proof.
  intros E N HA E2. rewrite (fb_scalar s ov h d ab E N HA), (fb_scalar s2 [] h _ ab E2 (NoDup_nil _) empty_scalar).
  rewrite (rowd_scalars d ov 0 HA). tauto.
Qed.

(* ---------- against the standalone functions ---------- *)
Lemma num_at_floats d k x : num_at d k = Ok x <-> dget (floats d) k = Some x.
Proof.
  unfold num_at, dlook. rewrite dget_floats. destruct (dget d k) as [[y|l|o]|]; cbn [bind]; split; intros HX; try discriminate; congruence.
Qed.
Lemma pv_of_floats d k x : dget (floats d) k = Some x -> pv (floats d) k = x.
Proof. unfold pv. intros ->. reflexivity. Qed.
Lemma ss_row_iff d ab : ss_row d = Ok ab <-> exists c v g, snd (benchmark_par_to_canonical (floats d)) = Ok c /\
  dget d "v" = Some (VNum v) /\ dget d "g" = Some (VNum g) /\ ab_matrix (cM c) (cC1 c) (cK0 c) (cK2 c) v g = Ok ab.
Proof.
  unfold ss_row, vg_ab, canonical, ab_of. split.
  - intros E. apply bind_ok in E. destruct E as (c & EC & E). apply bind_ok in E. destruct E as (g & EG & E).
    apply bind_ok in E. destruct E as (v & EV & E). exists c, v, g. repeat split; auto.
    + unfold num_at, dlook in EV. destruct (dget d "v") as [[x|l|o]|]; cbn [bind] in EV; congruence.
    + unfold num_at, dlook in EG. destruct (dget d "g") as [[x|l|o]|]; cbn [bind] in EG; congruence.
  - intros (c & v & g & -> & EV & EG & E). unfold num_at, dlook. rewrite EV, EG. exact E.
Qed.
Lemma ss_no_overrides s h d ab : nth_error h (ps_ref s) = Some d ->
  (snd (form_state_space_matrices s [] h) = Ok (Single ab) <->
   exists c v g, snd (benchmark_par_to_canonical (floats d)) = Ok c /\
     dget d "v" = Some (VNum v) /\ dget d "g" = Some (VNum g) /\ ab_matrix (cM c) (cC1 c) (cK0 c) (cK2 c) v g = Ok ab).
Proof.
  intros E. rewrite (ss_scalar s [] h d ab E (NoDup_nil _) empty_scalar). rewrite rowd_nil. apply ss_row_iff.
Qed.
Lemma ss_no_stack s h d l : nth_error h (ps_ref s) = Some d -> snd (form_state_space_matrices s [] h) <> Ok (Stack l).
Proof.
  intros E. destruct (form_ss_eq s [] h d 0 E (NoDup_nil _) (scalar_lengths d [] 0 empty_scalar)) as (h' & r & _ & -> & HR).
  unfold ss_varies, canon_varies in HR. cbn [array_keys_of flat_map existsb smem orb] in HR. apply HR.
Qed.

(* ---------- closed loop ---------- *)
Lemma num_at_ok d k : (exists x, dget d k = Some (VNum x)) -> num_at d k = Ok (gain d k).
Proof. intros (x & E). unfold num_at, dlook, gain, pv. rewrite dget_floats, E. reflexivity. Qed.
Lemma gain_of_ok d : complete gain_names d -> gain_of d = Ok (gain_matrix d).
Proof.
  intros C. unfold gain_of. cbn [gain_names firstn skipn mapM].
  rewrite !num_at_ok by (apply C; cbn [gain_names In]; tauto). reflexivity.
Qed.
Lemma fb_row_iff d A B : complete gain_names d ->
  (fb_row d = Ok (A, B) <-> exists A0, ss_row d = Ok (A0, B) /\ A = msub A0 (mdot B (gain_matrix d))).
Proof.
  intros C. unfold fb_row, ss_row, vg_ab. rewrite (gain_of_ok d C).
  destruct (canonical (floats d)) as [c|e]; cbn [bind]; [|split; [discriminate|intros (? & HX & _); discriminate]].
  destruct (num_at d "v") as [v|ev]; cbn [bind];
    [|split; [discriminate|]; destruct (num_at d "g"); intros (? & HX & _); discriminate].
  destruct (num_at d "g") as [g|eg]; cbn [bind]; [|split; [discriminate|intros (? & HX & _); discriminate]].
  destruct (ab_of c v g) as [[A1 B1]|e]; cbn [bind]; [|split; [discriminate|intros (? & HX & _); discriminate]].
  unfold closed. cbn [fst snd]. split.
  - intros HX. injection HX as <- <-. eauto.
  - intros (A0 & HX & ->). injection HX as <- <-. reflexivity.
Qed.
Lemma fb_closed s h d A B : nth_error h (ps_ref s) = Some d -> complete gain_names d ->
  (snd (form_state_space_matrices_fb s [] h) = Ok (Single (A, B)) <->
   exists A0, snd (form_state_space_matrices s [] h) = Ok (Single (A0, B)) /\ A = msub A0 (mdot B (gain_matrix d))).
Proof.
  intros E C. rewrite (fb_scalar s [] h d (A, B) E (NoDup_nil _) empty_scalar). rewrite rowd_nil, (fb_row_iff d A B C).
  split; intros (A0 & HX & ->); exists A0; split; auto.
  - rewrite (ss_scalar s [] h d _ E (NoDup_nil _) empty_scalar), rowd_nil. exact HX.
  - rewrite (ss_scalar s [] h d _ E (NoDup_nil _) empty_scalar), rowd_nil in HX. exact HX.
Qed.
Lemma ss_row_shape d A B : ss_row d = Ok (A, B) -> exists a b, A =
   [[0; 0; 1; 0]; [0; 0; 0; 1]; [a 2%nat 0%nat; a 2%nat 1%nat; a 2%nat 2%nat; a 2%nat 3%nat]; [a 3%nat 0%nat; a 3%nat 1%nat; a 3%nat 2%nat; a 3%nat 3%nat]]
  /\ B = [[0; 0]; [0; 0]; [b 2%nat 0%nat; b 2%nat 1%nat]; [b 3%nat 0%nat; b 3%nat 1%nat]].
Proof.
  intros E. apply ss_row_iff in E. destruct E as (c & v & g & _ & _ & _ & E).
  unfold ab_matrix in E. apply bind_ok in E. destruct E as (i & _ & E). injection E as <- <-.
  match goal with |- exists a b, ?X = _ /\ ?Y = _ => exists (ent X), (ent Y) end. split; reflexivity.
Qed.
Lemma closed_entries d A B K i j : ss_row d = Ok (A, B) -> length K = 2%nat -> Forall (fun r => length r = 4%nat) K ->
  (i < 4)%nat -> (j < 4)%nat ->
  ent (msub A (mdot B K)) i j = ent A i j - (ent B i 0 * ent K 0 j + ent B i 1 * ent K 1 j).
Proof.
  intros E LK FK Hi Hj. destruct (ss_row_shape d A B E) as (a & b & -> & ->).
  destruct K as [|k1 [|k2 [|? ?]]]; try discriminate. inversion FK as [|? ? F1 F2]; subst. inversion F2 as [|? ? F3 _]; subst.
  destruct k1 as [|x0 [|x1 [|x2 [|x3 [|? ?]]]]]; try discriminate.
  destruct k2 as [|y0 [|y1 [|y2 [|y3 [|? ?]]]]]; try discriminate.
  destruct i as [|[|[|[|i]]]]; try lia; destruct j as [|[|[|[|j]]]]; try lia; cbn; ring.
Qed.
Lemma closed_zero d A B : ss_row d = Ok (A, B) -> msub A (mdot B [[0; 0; 0; 0]; [0; 0; 0; 0]]) = A.
Proof.
  intros E. destruct (ss_row_shape d A B E) as (a & b & -> & ->). cbn. repeat f_equal; ring.
Qed.
Lemma fb_zero s h d : nth_error h (ps_ref s) = Some d -> (forall k, In k gain_names -> dget d k = Some (VNum 0)) ->
  forall ab, snd (form_state_space_matrices_fb s [] h) = Ok (Single ab) <-> snd (form_state_space_matrices s [] h) = Ok (Single ab).
Proof.
  intros E HZ [A B].
  assert (C : complete gain_names d) by (intros k Hk; rewrite (HZ k Hk); eauto).
  assert (GZ : gain_matrix d = [[0; 0; 0; 0]; [0; 0; 0; 0]]).
  { unfold gain_matrix, gain, pv. rewrite !dget_floats. rewrite !HZ by (cbn [gain_names In]; tauto). reflexivity. }
  rewrite (fb_closed s h d A B E C), GZ. split.
  - intros (A0 & HX & ->). rewrite (ss_scalar s [] h d _ E (NoDup_nil _) empty_scalar), rowd_nil in HX.
    rewrite (closed_zero d A0 B HX). rewrite (ss_scalar s [] h d _ E (NoDup_nil _) empty_scalar), rowd_nil. exact HX.
  - intros HX. exists A. split; auto. rewrite (ss_scalar s [] h d _ E (NoDup_nil _) empty_scalar), rowd_nil in HX.
    symmetry. eapply closed_zero; eauto.
Qed.
(* the feedback model built from an open-loop set *)
Lemma fb_of_open btm s h d h' s' : nth_error h (ps_ref s) = Some d -> ps_class s = CMeijaard2007 ->
  complete (par_strings CMeijaard2007) d ->
  to_parameterization btm s "Meijaard2007WithFeedback" h = (h', Ok s') ->
  forall ab, snd (form_state_space_matrices_fb s' [] h') = Ok (Single ab) <-> snd (form_state_space_matrices s [] h) = Ok (Single ab).
Proof.
  intros E EC C T ab. destruct (conv_feedback btm s h d E EC C) as (d' & T1 & HD). rewrite T1 in T. injection T as <- <-.
  set (s' := mkset CMeijaard2007WithFeedback (length h) (ps_rider s)).
  assert (E' : nth_error (h ++ [d']) (ps_ref s') = Some d') by apply nth_error_app_last.
  rewrite (fb_zero s' _ d' E').
  2:{ intros k Hk. rewrite HD. apply smem_spec in Hk. rewrite Hk. reflexivity. }
  rewrite (ss_scalar s' [] _ d' ab E' (NoDup_nil _) empty_scalar), (ss_scalar s [] h d ab E (NoDup_nil _) empty_scalar), !rowd_nil.
  assert (NG : forall k, In k ("v" :: "g" :: canon_deps) -> dget d' k = dget d k).
  { intros k Hk. rewrite HD. destruct (smem k gain_names) eqn:ES; auto. exfalso. apply smem_spec in ES.
    cbn [gain_names In] in ES. repeat destruct ES as [<-|ES]; try contradiction; cbn [canon_deps In] in Hk; intuition discriminate. }
  assert (SR : ss_row d' = ss_row d); [|rewrite SR; tauto].
  unfold ss_row, vg_ab, num_at, dlook. rewrite !NG by (simpl; auto).
  rewrite (canonical_ext (floats d') (floats d)); auto.
  intros k Hk. rewrite !dget_floats, NG; auto. right; right. apply canon_keys_deps; exact Hk.
Qed.

(* ---------- the only ValueError is the one about lengths ---------- *)
Definition no_ve {A} (r : res A) : Prop := forall m, r <> Err (ValueError m).
Lemma nv_ok {A} (a : A) : no_ve (Ok a). Proof. intros m; discriminate. Qed.
Lemma nv_bind {A B} (x : res A) (f : A -> res B) : no_ve x -> (forall a, no_ve (f a)) -> no_ve (bind x f).
Proof. intros X F. destruct x as [a|e]; cbn [bind]; [apply F|]. intros m HE. apply (X m). congruence. Qed.
Lemma nv_dlook {V} (d : dict V) k : no_ve (dlook d k).
Proof. unfold dlook. destruct (dget d k); intros m; discriminate. Qed.
Lemma nv_rdiv x y : no_ve (rdiv x y).
Proof. unfold rdiv. destruct (Req_EM_T y 0); intros m; discriminate. Qed.
Lemma nv_index {A} (l : list A) i : no_ve (index l i).
Proof. unfold index. destruct (nth_error l i); intros m; discriminate. Qed.
Ltac nv := repeat first [apply nv_ok | apply nv_bind; [apply nv_dlook || apply nv_rdiv || apply nv_index | intros ?]].
Lemma nv_canonical p : no_ve (canonical p).
Proof.
  unfold canonical, benchmark_par_to_canonical.
  assert (X : no_ve (canon_phase1 p)) by (unfold canon_phase1; cbv zeta; nv).
  destruct (canon_phase1 p) as [k|e]; cbn [snd]; [|intros m HE; apply (X m); congruence].
  unfold canon_phase2; cbv zeta. nv.
Qed.
Lemma nv_num d k : no_ve (num_at d k).
Proof. unfold num_at. apply nv_bind; [apply nv_dlook|]. intros [x|l|o] m; discriminate. Qed.
Lemma nv_ab c v g : no_ve (ab_of c v g).
Proof. unfold ab_of, ab_matrix, inv2. apply nv_bind; [apply nv_bind; [apply nv_rdiv|]; intros; apply nv_ok|]. intros; apply nv_ok. Qed.
Lemma nv_mapM {A B} (f : A -> res B) l : (forall x, no_ve (f x)) -> no_ve (mapM f l).
Proof. intros F. induction l as [|x l IH]; cbn [mapM]; [apply nv_ok|]. apply nv_bind; [apply F|]. intros a. apply nv_bind; [exact IH|]. intros b. apply nv_ok. Qed.
Lemma nv_item d k i : no_ve (item d k i).
Proof. unfold item. apply nv_bind; [apply nv_dlook|]. intros [x|l|o]; [intros m; discriminate | apply nv_index | intros m; discriminate]. Qed.
Lemma nv_ios d ks k i : no_ve (item_or_scalar d ks k i).
Proof. unfold item_or_scalar. destruct (smem k ks); [apply nv_item | apply nv_num]. Qed.
Lemma nv_canon_pure d ov n : no_ve (canon_pure d ov n).
Proof.
  unfold canon_pure. destruct (canon_varies d ov).
  - pose proof (nv_mapM (fun i => canonical (floats (rowd d ov i))) (seq 0 n) (fun i => nv_canonical _)) as X.
    destruct (mapM _ _) as [l|e]; cbn [map_res]; intros m HE; [discriminate|]. apply (X m). congruence.
  - pose proof (nv_canonical (floats (rowd d ov 0))) as X.
    destruct (canonical _) as [l|e]; cbn [map_res]; intros m HE; [discriminate|]. apply (X m). congruence.
Qed.
Lemma nv_gain_row d ks names b : no_ve (gain_row d ks names b).
Proof. unfold gain_row. apply nv_mapM. intros p. destruct (b && smem p ks); [apply nv_item | apply nv_num]. Qed.
Lemma nv_set_gains d names i : forall ks row, no_ve (set_gains d ks names i row).
Proof.
  induction ks as [|k ks IH]; intros row; cbn [set_gains]; [apply nv_ok|]. apply nv_bind; [|intros; apply IH].
  destruct (find_index k names); [|apply nv_ok]. apply nv_bind; [apply nv_item|]. intros; apply nv_ok.
Qed.
Lemma nv_gain_matrices d ks len : no_ve (gain_matrices d ks len).
Proof.
  unfold gain_matrices; cbv zeta. destruct (existsb _ ks).
  - apply nv_bind; [apply nv_gain_row|]. intros r1. apply nv_bind; [apply nv_gain_row|]. intros r2.
    apply nv_bind; [destruct len; intros m; discriminate|]. intros n. apply nv_bind; [|intros; apply nv_ok].
    apply nv_mapM. intros i. apply nv_bind; [apply nv_set_gains|]. intros a. apply nv_bind; [apply nv_set_gains|]. intros b. apply nv_ok.
  - apply nv_bind; [apply nv_gain_row|]. intros r1. apply nv_bind; [apply nv_gain_row|]. intros r2. apply nv_ok.
Qed.
Lemma nv_pick {A} (x : shaped A) i : no_ve (pick x i).
Proof. destruct x; [apply nv_ok | apply nv_index]. Qed.

Definition nvH {A} (m : H A) (h : heap) : Prop := no_ve (snd (m h)).
Lemma nvH_bind {A B} (m : H A) (f : A -> H B) h : nvH m h -> (forall a h', m h = (h', Ok a) -> nvH (f a) h') -> nvH (hbind m f) h.
Proof.
  unfold nvH, hbind. intros X F. destruct (m h) as [h' [a|e]] eqn:E; [apply (F a h' eq_refl)|]. cbn [snd] in *.
  intros msg HE. apply (X msg). congruence.
Qed.
Lemma nvH_lift {A} (x : res A) h : no_ve x -> nvH (lift x) h.
Proof. intros X. exact X. Qed.
Lemma nvH_ret {A} (a : A) h : nvH (hret a) h.
Proof. apply nv_ok. Qed.
Lemma nvH_load r h : nvH (hload r) h.
Proof. unfold nvH, hload. destruct (nth_error h r); intros m; discriminate. Qed.

Lemma nvH_parse s ov h d n : nth_error h (ps_ref s) = Some d -> NoDup (dkeys ov) -> same_lengths d ov n ->
  nvH (parse_parameter_overrides s ov) h.
Proof.
  intros E N HS. unfold nvH. rewrite (parse_parameter_overrides_eq _ _ _ _ E). cbn [snd].
  pose proof (parsed_ok d ov N) as P. destruct (parsed d ov) as [[[d' ks] len]|e]; [intros m; discriminate|].
  exfalso. destruct P as (_ & P). apply P. exists n. split; [discriminate|]. exact HS.
Qed.
Lemma nvH_canonical s ov h d n : nth_error h (ps_ref s) = Some d -> NoDup (dkeys ov) -> same_lengths d ov n ->
  nvH (form_reduced_canonical_matrices s ov) h.
Proof. intros E N HS. unfold nvH. destruct (form_canonical_eq s ov h d n E N HS) as (h' & _ & ->). apply nv_canon_pure. Qed.
Lemma parsed_ref s ov h h' d par : nth_error h (ps_ref s) = Some d -> parse_parameter_overrides s ov h = (h', Ok par) -> nth_error h' (ps_ref s) = Some d.
Proof. intros E EP. rewrite (parse_parameter_overrides_eq _ _ _ _ E) in EP. injection EP as <- _. apply nth_error_app_l; exact E. Qed.
Lemma nvH_ss s ov h d n : nth_error h (ps_ref s) = Some d -> NoDup (dkeys ov) -> same_lengths d ov n ->
  nvH (form_state_space_matrices s ov) h.
Proof.
  intros E N HS. unfold form_state_space_matrices. apply nvH_bind; [eapply nvH_parse; eauto|].
  intros [[par ks] len] h1 EP. pose proof (parsed_ref _ _ _ _ _ _ E EP) as E1.
  apply nvH_bind; [eapply nvH_canonical; eauto|]. intros cs h2 _. apply nvH_bind; [apply nvH_load|]. intros d2 h3 _. cbv zeta.
  assert (R : forall i c, no_ve (g <- item_or_scalar d2 ks "g" i ;; v <- item_or_scalar d2 ks "v" i ;; ab_of c v g)).
  { intros i c. apply nv_bind; [apply nv_ios|]. intros g. apply nv_bind; [apply nv_ios|]. intros v. apply nv_ab. }
  destruct cs as [c|l].
  - destruct (_ || _).
    + apply nvH_bind; [destruct len; apply nvH_lift; intros m; discriminate|]. intros n0 h4 _.
      apply nvH_bind; [apply nvH_lift, nv_mapM; intros i; apply R|]. intros; apply nvH_ret.
    + apply nvH_bind; [apply nvH_lift, nv_ios|]. intros v h4 _. apply nvH_bind; [apply nvH_lift, nv_ios|]. intros g h5 _.
      apply nvH_bind; [apply nvH_lift, nv_ab|]. intros; apply nvH_ret.
  - apply nvH_bind; [apply nvH_lift, nv_mapM; intros [i c]; apply R|]. intros; apply nvH_ret.
Qed.
Lemma nvH_fb s ov h d n : nth_error h (ps_ref s) = Some d -> NoDup (dkeys ov) -> same_lengths d ov n ->
  nvH (form_state_space_matrices_fb s ov) h.
Proof.
  intros E N HS. unfold form_state_space_matrices_fb. apply nvH_bind; [eapply nvH_parse; eauto|].
  intros [[par ks] len] h1 EP. pose proof (parsed_ref _ _ _ _ _ _ E EP) as E1.
  apply nvH_bind; [eapply nvH_canonical; eauto|]. intros cs h2 _. apply nvH_bind; [apply nvH_load|]. intros d2 h3 _.
  apply nvH_bind; [apply nvH_lift, nv_gain_matrices|]. intros K h4 _. destruct ks as [|k0 ks].
  - apply nvH_bind; [apply nvH_lift, nv_ios|]. intros v h5 _. apply nvH_bind; [apply nvH_lift, nv_ios|]. intros g h6 _.
    apply nvH_bind; [apply nvH_lift, nv_pick|]. intros c h7 _. apply nvH_bind; [apply nvH_lift, nv_pick|]. intros k h8 _.
    apply nvH_bind; [apply nvH_lift, nv_ab|]. intros; apply nvH_ret.
  - apply nvH_bind; [destruct len; apply nvH_lift; intros m; discriminate|]. intros n0 h5 _.
    apply nvH_bind; [apply nvH_lift, nv_mapM|intros; apply nvH_ret]. intros i.
    apply nv_bind; [apply nv_pick|]. intros c. apply nv_bind; [apply nv_ios|]. intros v. apply nv_bind; [apply nv_ios|]. intros g.
    apply nv_bind; [apply nv_pick|]. intros k. apply nv_bind; [apply nv_ab|]. intros ab. apply nv_ok.
Qed.
