(* PModels5.v -- lemmas on the rider lean model *)
From Coq Require Import Lra Lia.
From Verif Require Import Base MString MHeap MBicycle MVec MInertia MSets MModels MModels2 PBase PBicycle PHeap SModels SModels2
  PModels PModels2 PModels3 PModels4 PSets3.
Local Open Scope string_scope.
Local Open Scope R_scope.

Lemma scalar_at_num d k : scalar_at d k = num_at d k.
Proof. reflexivity. Qed.

Section RL.
Context (pitch : R -> R -> R -> R -> R -> R -> R -> res R) (body : (string -> R) -> res (marr * marr)).
Notation rlm := (rider_lean_matrices pitch body).

Lemma rlm_ext d1 d2 v : (forall k, In k (par_strings CMooreRiderLean2012) -> dget d1 k = dget d2 k) -> rlm d1 v = rlm d2 v.
Proof.
  intros E.
  assert (S : forall k, In k (par_strings CMooreRiderLean2012) -> scalar_at d1 k = scalar_at d2 k).
  { intros k Hk. unfold scalar_at. rewrite (dlook_ext d1 d2 k (E k Hk)). reflexivity. }
  unfold rider_lean_matrices.
  rewrite (S "rf"), (S "rr"), (S "d1"), (S "d2"), (S "d3") by (cbn [par_strings In]; tauto).
  assert (F : filter (dmem d1) (par_strings CMooreRiderLean2012) = filter (dmem d2) (par_strings CMooreRiderLean2012)).
  { clear S. induction (par_strings CMooreRiderLean2012) as [|k l IH]; [reflexivity|].
    cbn [filter]. assert (DM : dmem d1 k = dmem d2 k) by (unfold dmem; rewrite (E k) by (left; reflexivity); reflexivity).
    rewrite DM, IH by (intros; apply E; right; assumption). reflexivity. }
  rewrite F.
  assert (M : mapM (scalar_at d1) (filter (dmem d2) (par_strings CMooreRiderLean2012)) = mapM (scalar_at d2) (filter (dmem d2) (par_strings CMooreRiderLean2012))).
  { apply mapM_ext_in. intros k Hk. apply S. apply filter_In in Hk. apply Hk. }
  rewrite M. reflexivity.
Qed.

(* one dictionary of floats *)
Definition rl_row (d : pdict) : res (marr * marr) := v <- num_at d "v" ;; rlm (without d "v") v.
Lemma dget_without {V} (d : dict V) k0 k : dget (without d k0) k = if String.eqb k k0 then None else dget d k.
Proof. apply dget_filter_neq. Qed.
Lemma rl_row_ext d1 d2 : (forall k, In k (par_strings CMooreRiderLean2012) -> dget d1 k = dget d2 k) -> rl_row d1 = rl_row d2.
Proof.
  intros E. unfold rl_row, num_at. rewrite (dlook_ext d1 d2 "v") by (apply E; cbn [par_strings In]; tauto).
  destruct (dlook d2 "v") as [x|e]; [|reflexivity]. cbn [bind]. destruct x; try reflexivity. cbn [bind]. apply rlm_ext.
  intros k Hk. rewrite !dget_without. destruct (String.eqb k "v"); auto.
Qed.

Lemma fill_rl (d' : pdict) i n ak : holds_arrays d' ak n -> (i < n)%nat ->
  forall keys H0 par mut m, incl keys ak -> nth_error H0 par = Some d' -> nth_error H0 mut = Some m -> par <> mut ->
  exists m', hiter (fun key => if String.eqb key "v" then hret tt
                               else (d <-- hload par ;;; x <-- lift (item d key i) ;;; hset mut key (VNum x))) keys H0 = (upd H0 mut m', Ok tt) /\
    forall k, dget m' k = if (smem k keys && negb (String.eqb k "v"))%bool then match dget d' k with Some (VArr l) => Some (VNum (nth i l 0)) | o => o end else dget m k.
Proof.
  intros HA Hi. induction keys as [|key keys IH]; intros H0 par mut m HI EP EM NE.
  - exists m. simpl. split; auto. unfold hret. rewrite (upd_same _ _ _ EM). reflexivity.
  - cbn [hiter]. unfold hbind at 1. destruct (String.eqb key "v") eqn:EV.
    + unfold hret at 1. destruct (IH H0 par mut m) as (m' & E1 & E2); auto.
      { intros k Hk; apply HI; right; exact Hk. }
      exists m'. split; [exact E1|]. intros k. rewrite E2. unfold smem; cbn [existsb]. fold (smem k keys).
      destruct (String.eqb k key) eqn:EK; [|reflexivity]. apply String.eqb_eq in EK; subst k. rewrite EV. cbn [negb]. rewrite !andb_false_r. reflexivity.
    + destruct (item_ok d' ak n key i HA (HI key (or_introl eq_refl)) Hi) as (l & EL & EI).
      unfold hbind at 1. rewrite (hload_eq _ _ _ EP). unfold hbind at 1. unfold lift. rewrite EI.
      rewrite (hset_eq _ _ _ _ _ EM).
      assert (LM : (mut < length H0)%nat) by (apply nth_error_Some; congruence).
      destruct (IH (upd H0 mut (dset m key (VNum (nth i l 0)))) par mut (dset m key (VNum (nth i l 0)))) as (m' & E1 & E2).
      * intros k Hk. apply HI. right; exact Hk.
      * rewrite nth_error_upd_neq by congruence. exact EP.
      * apply nth_error_upd_eq; exact LM.
      * exact NE.
      * exists m'. split.
        -- unfold lift in E1. rewrite E1. rewrite upd_upd. reflexivity.
        -- intros k. rewrite E2. unfold smem; cbn [existsb]. fold (smem k keys).
           destruct (String.eqb k "v") eqn:EKV.
           { cbn [negb]. rewrite !andb_false_r. rewrite dget_dset. destruct (String.eqb k key) eqn:E; auto.
             apply String.eqb_eq in E; subst k. congruence. }
           cbn [negb]. rewrite !andb_true_r. destruct (smem k keys) eqn:ES; [rewrite orb_true_r; reflexivity|]. rewrite orb_false_r.
           rewrite dget_dset. destruct (String.eqb k key) eqn:E; auto.
           apply String.eqb_eq in E; subst k. rewrite EL. reflexivity.
Qed.

Lemma overridden_v_index d ov d' n i : NoDup (dkeys ov) -> (forall k, dget d' k = overridden d ov k) -> same_lengths d ov n -> (i < n)%nat ->
  forall v, dget d' "v" = Some v ->
  (match v with VNum x => Ok x | VArr l => index l i | VObj _ => Err TypeError end) = num_at (rowd d ov i) "v" \/
  (exists l, v = VArr l /\ ~ array_given d ov "v").
Proof.
  intros N HD HS Hi v EV. rewrite HD in EV. unfold overridden in EV. unfold num_at, dlook. rewrite dget_rowd.
  destruct (dget d "v") as [v0|] eqn:E0; [|discriminate].
  destruct (dget ov "v") as [[x|l]|] eqn:EO; injection EV as <-; cbn [bind].
  - left. reflexivity.
  - left. apply index_ok. assert (X : In (length l) (array_lengths d ov)) by (apply in_array_lengths; auto; exists "v", l; split; [apply dget_some_in; eauto | auto]).
    apply HS in X. lia.
  - destruct v0; [left; reflexivity| |left; reflexivity]. right. eexists. split; [reflexivity|]. intros (_ & l' & E'). congruence.
Qed.

Lemma rows_rl d ov d' n v : NoDup (dkeys ov) -> (forall k, dget d' k = overridden d ov k) -> same_lengths d ov n ->
  dget d' "v" = Some v -> (forall l, v = VArr l -> array_given d ov "v") ->
  forall is_ H0 par mut m, (forall i, In i is_ -> (i < n)%nat) ->
  nth_error H0 par = Some d' -> nth_error H0 mut = Some m -> par <> mut ->
  (forall k, ~ In k (array_keys_of d ov) -> dget m k = if String.eqb k "v" then None else dget d' k) -> dget m "v" = None ->
  exists m', hmapM (fun i =>
      _ <-- hiter (fun key => if String.eqb key "v" then hret tt
                              else (d <-- hload par ;;; x <-- lift (item d key i) ;;; hset mut key (VNum x))) (array_keys_of d ov) ;;;
      vi <-- lift (match v with VNum x => Ok x | VArr l => index l i | VObj _ => Err TypeError end) ;;;
      d <-- hload mut ;;; lift (rlm d vi)) is_ H0 = (upd H0 mut m', mapM (fun i => rl_row (rowd d ov i)) is_).
Proof.
  intros N HD HS EV VA. pose proof (parsed_holds _ _ _ _ N HD HS) as HA.
  induction is_ as [|i is_ IH]; intros H0 par mut m HI EP EM NE INV MV.
  - exists m. simpl. unfold hret. rewrite (upd_same _ _ _ EM). reflexivity.
  - cbn [hmapM mapM].
    destruct (fill_rl d' i n _ HA (HI i (or_introl eq_refl)) _ H0 par mut m (incl_refl _) EP EM NE) as (m1 & E1 & E2).
    assert (LM : (mut < length H0)%nat) by (apply nth_error_Some; congruence).
    assert (EM1 : nth_error (upd H0 mut m1) mut = Some m1) by (apply nth_error_upd_eq; exact LM).
    unfold hbind at 1. unfold hbind at 1. rewrite E1. unfold hbind at 1. unfold lift at 1.
    destruct (overridden_v_index d ov d' n i N HD HS (HI i (or_introl eq_refl)) v EV) as [VI|(l & -> & NA)]; [|exfalso; apply NA, (VA l); reflexivity].
    rewrite VI. unfold rl_row at 1. destruct (num_at (rowd d ov i) "v") as [vi|e]; cbn [bind]; [|exists m1; reflexivity].
    unfold hbind at 1. rewrite (hload_eq _ _ _ EM1). unfold lift at 1.
    assert (MV1 : dget m1 "v" = None) by (rewrite E2; cbn [String.eqb Ascii.eqb Bool.eqb negb]; rewrite andb_false_r; exact MV).
    assert (ER : rlm m1 vi = rlm (without (rowd d ov i) "v") vi).
    { apply rlm_ext. intros k _. rewrite E2, dget_without. destruct (String.eqb k "v") eqn:EKV.
      - cbn [negb]. rewrite andb_false_r. apply String.eqb_eq in EKV; subst k. exact MV.
      - cbn [negb]. rewrite andb_true_r. rewrite dget_rowd. destruct (smem k (array_keys_of d ov)) eqn:ES.
        + apply smem_spec in ES. rewrite HD. unfold overridden. apply in_array_keys in ES; auto. destruct ES as [_ [l EL]]. rewrite EL.
          destruct (dget d k); reflexivity.
        + assert (NK : ~ In k (array_keys_of d ov)) by (rewrite <- smem_spec; congruence).
          rewrite INV by assumption. rewrite EKV, HD. unfold overridden. destruct (dget d k) eqn:EK; auto.
          destruct (dget ov k) as [[x|l]|] eqn:EO; auto.
          exfalso. apply NK. apply in_array_keys; auto. split; [apply dget_some_in; eauto | eauto]. }
    rewrite ER. destruct (rlm (without (rowd d ov i) "v") vi) as [ab|e]; cbn [bind]; [|exists m1; reflexivity].
    unfold hbind at 1.
    destruct (IH (upd H0 mut m1) par mut m1) as (m3 & E5); auto.
    + intros j Hj. apply HI. right; exact Hj.
    + rewrite nth_error_upd_neq by congruence. exact EP.
    + intros k NK. rewrite E2. destruct (smem k (array_keys_of d ov)) eqn:ES; [apply smem_spec in ES; contradiction|]. cbn [andb]. apply INV; assumption.
    + rewrite E5. rewrite upd_upd. exists m3. destruct (mapM _ is_); reflexivity.
Qed.

Definition rl_pure (d : pdict) (ov : dict oval) (n : nat) : res (shaped (marr * marr)) :=
  match array_keys_of d ov with
  | [] => map_res Single (rl_row (rowd d ov 0))
  | _ => match dget d "v" with None => Err (KeyError "v") | Some _ => map_res Stack (mapM (fun i => rl_row (rowd d ov i)) (seq 0 n)) end
  end.

(* the set holds no array under v (a set's values are floats) *)
Lemma form_rl_eq s ov h d n : nth_error h (ps_ref s) = Some d -> NoDup (dkeys ov) -> same_lengths d ov n ->
  (forall l, dget d "v" <> Some (VArr l)) ->
  exists h', preserved h h' /\ form_state_space_matrices_rl pitch body s ov h = (h', rl_pure d ov n).
Proof.
  intros E N HS NV. unfold form_state_space_matrices_rl. unfold hbind at 1.
  rewrite (parse_parameter_overrides_eq _ _ _ _ E).
  pose proof (parsed_ok d ov N) as P. destruct (parsed d ov) as [[[d' ks] len]|e].
  2:{ exfalso. destruct P as (_ & P). apply P. exists n. split; [discriminate|]. intros m Hm; apply HS; exact Hm. }
  destruct P as (-> & -> & _ & HD & ED). cbn [fst snd]. rewrite <- ED. clear ED.
  unfold hbind at 1. rewrite (hcopy_eq _ _ _ (nth_error_app_last h [] d')).
  set (h2 := ((h ++ [d']) ++ [d'])%list). set (mut := length (h ++ [d'])).
  assert (EM : nth_error h2 mut = Some d') by (apply nth_error_app_last).
  unfold hbind at 1. unfold hpop, hbind at 1. rewrite (hload_eq _ _ _ EM). unfold hbind at 1, lift at 1.
  assert (OV : dget d' "v" = overridden d ov "v") by apply HD.
  unfold dlook. rewrite OV. destruct (overridden d ov "v") as [v|] eqn:EOV.
  2:{ unfold overridden in EOV. destruct (dget d "v") as [v0|] eqn:EDV; [destruct (dget ov "v") as [[x|l]|]; discriminate|].
      exists h2. split; [unfold h2; rewrite <- app_assoc; apply preserved_app|]. unfold rl_pure. rewrite EDV.
      destruct (array_keys_of d ov) eqn:EAK; [|reflexivity]. unfold rl_row, num_at, dlook. rewrite dget_rowd, EDV. reflexivity. }
  assert (DV : exists v0, dget d "v" = Some v0) by (unfold overridden in EOV; destruct (dget d "v"); [eauto|discriminate]).
  destruct DV as (v0 & EDV).
  unfold hbind at 1, hstore at 1. unfold hret at 1.
  assert (U : upd h2 mut (without d' "v") = (((h ++ [d']) ++ [without d' "v"]))%list) by (unfold h2, mut; apply upd_app_last).
  rewrite U. set (h3 := ((h ++ [d']) ++ [without d' "v"])%list).
  assert (P3 : preserved h h3) by (unfold h3; rewrite <- app_assoc; apply preserved_app).
  assert (EM3 : nth_error h3 mut = Some (without d' "v")) by (apply nth_error_app_last).
  unfold rl_pure. rewrite EDV. destruct (array_keys_of d ov) as [|k0 ks] eqn:EAK.
  - exists h3. split; [exact P3|].
    assert (VS : (match v with VNum x => Ok x | _ => Err TypeError end) = num_at (rowd d ov 0) "v").
    { unfold overridden in EOV. rewrite EDV in EOV. unfold num_at, dlook. rewrite dget_rowd, EDV. cbn [bind].
      destruct (dget ov "v") as [[x|l]|] eqn:EO; injection EOV as <-; auto.
      exfalso. assert (X : In "v" (array_keys_of d ov)) by (apply in_array_keys; auto; split; [apply dget_some_in; eauto | eauto]). rewrite EAK in X; exact X. }
    unfold hbind at 1. unfold lift at 1. rewrite VS. unfold rl_row at 1. destruct (num_at (rowd d ov 0) "v") as [vs|e]; cbn [bind map_res]; [|reflexivity].
    unfold hbind at 1. rewrite (hload_eq _ _ _ EM3). unfold hbind at 1, lift at 1.
    assert (ER : rlm (without d' "v") vs = rlm (without (rowd d ov 0) "v") vs).
    { apply rlm_ext. intros k _. rewrite !dget_without. destruct (String.eqb k "v"); auto. rewrite HD, dget_rowd. unfold overridden.
      destruct (dget d k) eqn:EK; auto. destruct (dget ov k) as [[x|l]|] eqn:EO; auto.
      exfalso. assert (X : In k (array_keys_of d ov)) by (apply in_array_keys; auto; split; [apply dget_some_in; eauto | eauto]). rewrite EAK in X; exact X. }
    rewrite ER. destruct (rlm (without (rowd d ov 0) "v") vs); reflexivity.
  - assert (HL : hd_error (array_lengths d ov) = Some n) by (eapply hd_error_len; eauto; rewrite EAK; left; reflexivity).
    rewrite HL. rewrite <- EAK. unfold hbind at 1, lift at 1.
    destruct (rows_rl d ov d' n v N HD HS) with (is_ := seq 0 n) (H0 := h3) (par := length h) (mut := mut) (m := without d' "v") as (m' & E1).
    + congruence.
    + intros l ->. unfold overridden in EOV. rewrite EDV in EOV. destruct (dget ov "v") as [[x|l']|] eqn:EO; injection EOV as EOV; try discriminate.
      * split; [apply dget_some_in; eauto | eauto].
      * exfalso. apply (NV l). rewrite EDV, EOV. reflexivity.
    + intros i Hi. apply in_seq in Hi. lia.
    + unfold h3. rewrite <- app_assoc. simpl. apply nth_error_app_last.
    + exact EM3.
    + unfold mut. rewrite app_length; simpl; lia.
    + intros k NK. apply dget_without.
    + rewrite dget_without. reflexivity.
    + unfold hbind at 1. rewrite E1. exists (upd h3 mut m'). split; [|destruct (mapM _ _); reflexivity].
      unfold h3, mut. rewrite upd_app_last. rewrite <- app_assoc. apply preserved_app.
Qed.
End RL.
