(* PModels3.v -- the feedback model, row by row *)
From Verif Require Import Base MString MHeap MBicycle MVec MInertia MSets MModels PBase SBicycle PBicycle PBicycle2 PHeap SModels PModels PModels2.
Local Open Scope string_scope.
Local Open Scope R_scope.

Lemma mapM_nth_iff {A B} (f : A -> res B) l ys : mapM f l = Ok ys <->
  length ys = length l /\ forall j a b, (j < length l)%nat -> f (nth j l a) = Ok (nth j ys b).
Proof.
  split.
  - intros E. split; [eapply mapM_length; eauto|]. intros j a b Hj. eapply mapM_nth; eauto.
  - intros [HL HE]. apply mapM_intro. revert ys HL HE. induction l as [|x l IH]; intros [|y ys]; simpl; intros HL HE; try discriminate; constructor.
    + apply (HE 0%nat x y). lia.
    + apply IH; [lia|]. intros j a b Hj. apply (HE (S j) a b). lia.
Qed.

Lemma find_index_some k names j : find_index k names = Some j -> nth_error names j = Some k.
Proof.
  revert j. induction names as [|a names IH]; simpl; intros j E; [discriminate|].
  destruct (String.eqb k a) eqn:E1.
  - injection E as <-. apply String.eqb_eq in E1; subst; reflexivity.
  - destruct (find_index k names) eqn:E2; [|discriminate]. injection E as <-. simpl. apply IH. reflexivity.
Qed.
Lemma find_index_none k names : find_index k names = None -> ~ In k names.
Proof.
  induction names as [|a names IH]; simpl; intros E; [tauto|].
  destruct (String.eqb k a) eqn:E1; [discriminate|]. destruct (find_index k names) eqn:E2; [discriminate|].
  apply String.eqb_neq in E1. intros [HX|HX]; [congruence|]. apply IH; auto.
Qed.

Lemma set_gains_eq d' ak n i names : holds_arrays d' ak n -> (i < n)%nat -> NoDup names ->
  forall keys row, incl keys ak -> length row = length names ->
  exists row', set_gains d' keys names i row = Ok row' /\ length row' = length names /\
    forall j p, nth_error names j = Some p ->
      nth j row' 0 = if smem p keys then match dget d' p with Some (VArr l) => nth i l 0 | _ => 0 end else nth j row 0.
Proof.
  intros HA Hi ND. induction keys as [|k keys IH]; intros row HI HL.
  - exists row. simpl. auto.
  - cbn [set_gains]. destruct (item_ok d' ak n k i HA (HI k (or_introl eq_refl)) Hi) as (l & EL & EI).
    assert (HI' : incl keys ak) by (intros x Hx; apply HI; right; exact Hx).
    destruct (find_index k names) as [j0|] eqn:EF.
    + rewrite EI. cbn [bind].
      destruct (IH (upd row j0 (nth i l 0)) HI') as (row' & E1 & E2 & E3); [rewrite upd_length; exact HL|].
      exists row'. split; [exact E1|]. split; [exact E2|]. intros j p Hp. rewrite (E3 j p Hp).
      unfold smem; cbn [existsb]. fold (smem p keys).
      destruct (smem p keys) eqn:ES; [rewrite orb_true_r; reflexivity|]. rewrite orb_false_r.
      apply find_index_some in EF.
      destruct (String.eqb p k) eqn:E.
      * apply String.eqb_eq in E; subst p. rewrite EL.
        assert (j = j0).
        { apply (proj1 (NoDup_nth_error names) ND); [apply nth_error_Some; congruence | congruence]. }
        subst j0. apply upd_nth_eq. rewrite HL. apply nth_error_Some. congruence.
      * apply upd_nth_neq. intros ->. apply String.eqb_neq in E. congruence.
    + cbn [bind]. destruct (IH row HI' HL) as (row' & E1 & E2 & E3).
      exists row'. split; [exact E1|]. split; [exact E2|]. intros j p Hp. rewrite (E3 j p Hp).
      unfold smem; cbn [existsb]. fold (smem p keys).
      destruct (String.eqb p k) eqn:E; auto.
      apply String.eqb_eq in E; subst p. apply find_index_none in EF. apply nth_error_In in Hp. contradiction.
Qed.

(* the gain matrix of one dictionary of floats *)
Definition gain_of (d : pdict) : res marr :=
  r1 <- mapM (num_at d) (firstn 4 gain_names) ;; r2 <- mapM (num_at d) (skipn 4 gain_names) ;; Ok [r1; r2].

Section Gains.
Context (d : pdict) (ov : dict oval) (d' : pdict) (n : nat).
Context (N : NoDup (dkeys ov)) (HD : forall k, dget d' k = overridden d ov k) (HS : same_lengths d ov n).

Lemma num_not_array p i : smem p (array_keys_of d ov) = false -> num_at d' p = num_at (rowd d ov i) p.
Proof. intros E. exact (item_or_scalar_const d ov d' p i N HD E). Qed.
Lemma num_array p i : smem p (array_keys_of d ov) = true -> (i < n)%nat ->
  exists l, dget d' p = Some (VArr l) /\ length l = n /\ num_at (rowd d ov i) p = Ok (nth i l 0).
Proof.
  intros E Hi. rewrite <- (item_or_scalar_row d ov d' n p i N HD HS Hi).
  unfold item_or_scalar. rewrite E. apply smem_spec in E.
  destruct (item_ok d' _ n p i (parsed_holds _ _ _ _ N HD HS) E Hi) as (l & E1 & E2).
  exists l. repeat split; auto.
  destruct (parsed_holds _ _ _ _ N HD HS p E) as (l2 & E3 & E4). congruence.
Qed.

Lemma gain_row_first names i r : NoDup names -> (i < n)%nat -> gain_row d' (array_keys_of d ov) names true = Ok r ->
  exists row, set_gains d' (array_keys_of d ov) names i r = Ok row /\ mapM (num_at (rowd d ov i)) names = Ok row.
Proof.
  intros ND Hi E. unfold gain_row in E. cbn [andb] in E. apply mapM_nth_iff in E. destruct E as [HL HE].
  destruct (set_gains_eq d' _ n i names (parsed_holds _ _ _ _ N HD HS) Hi ND (array_keys_of d ov) r (incl_refl _) HL) as (row & E1 & E2 & E3).
  exists row. split; auto. apply mapM_nth_iff. split; auto. intros j a b Hj.
  assert (HN : nth_error names j = Some (nth j names a)) by (apply nth_error_nth'; exact Hj).
  rewrite (nth_indep row b 0) by lia. rewrite (E3 _ _ HN).
  specialize (HE j a 0 Hj). set (p := nth j names a) in *.
  destruct (smem p (array_keys_of d ov)) eqn:ES.
  - destruct (num_array p i ES Hi) as (l & EL & _ & EN). rewrite EL. exact EN.
  - rewrite <- (num_not_array p i ES). exact HE.
Qed.
Lemma gain_row_false names i : (forall p, In p names -> smem p (array_keys_of d ov) = false) ->
  gain_row d' (array_keys_of d ov) names false = mapM (num_at (rowd d ov i)) names.
Proof.
  intros HX. unfold gain_row. cbn [andb]. apply mapM_ext_in. intros p Hp. apply num_not_array. apply HX; exact Hp.
Qed.
Lemma gain_row_first_conv names i row : (i < n)%nat -> mapM (num_at (rowd d ov i)) names = Ok row ->
  exists r, gain_row d' (array_keys_of d ov) names true = Ok r.
Proof.
  intros Hi. unfold gain_row. cbn [andb]. revert row. induction names as [|p names IH]; intros row E; [exists []; reflexivity|].
  cbn [mapM] in *. apply bind_ok in E. destruct E as (y & HY & E). apply bind_ok in E. destruct E as (ys & HYS & E).
  destruct (IH _ HYS) as (r & ER). rewrite ER.
  destruct (smem p (array_keys_of d ov)) eqn:ES.
  - destruct (num_array p i ES Hi) as (l & EL & LL & _). unfold item, dlook. rewrite EL. cbn [bind].
    rewrite (index_ok l 0 0) by lia. eexists; reflexivity.
  - fold (num_at d' p). rewrite (num_not_array p i ES), HY. eexists; reflexivity.
Qed.

Lemma gains_nodup : NoDup (firstn 4 gain_names) /\ NoDup (skipn 4 gain_names).
Proof. split; cbn; repeat constructor; simpl; intuition discriminate. Qed.

Lemma gain_matrices_pick K i : gain_matrices d' (array_keys_of d ov) (hd_error (array_lengths d ov)) = Ok K ->
  (i < n)%nat -> exists k, pick K i = Ok k /\ gain_of (rowd d ov i) = Ok k.
Proof.
  intros E Hi. unfold gain_matrices in E. destruct (existsb _ _) eqn:EX.
  - apply bind_ok in E. destruct E as (r1 & E1 & E). apply bind_ok in E. destruct E as (r2 & E2 & E).
    apply existsb_exists in EX. destruct EX as (k0 & Hk0 & _). rewrite (hd_error_len d ov n k0 N HS Hk0) in E. cbn [bind] in E.
    apply bind_ok in E. destruct E as (ks & E3 & E). injection E as <-.
    apply mapM_seq_ok in E3. destruct E3 as [L3 E3]. specialize (E3 i [] Hi).
    exists (nth i ks []). split; [unfold pick; apply index_ok; exact (eq_ind_r (fun z => (i < z)%nat) Hi L3)|].
    destruct gains_nodup as [ND1 ND2].
    destruct (gain_row_first _ i r1 ND1 Hi E1) as (row1 & S1 & M1). destruct (gain_row_first _ i r2 ND2 Hi E2) as (row2 & S2 & M2).
    rewrite S1 in E3. cbn [bind] in E3. rewrite S2 in E3. cbn [bind] in E3.
    unfold gain_of. rewrite M1. cbn [bind]. rewrite M2. cbn [bind]. exact E3.
  - assert (HX : forall p, In p gain_names -> smem p (array_keys_of d ov) = false).
    { intros p Hp. destruct (smem p (array_keys_of d ov)) eqn:ES; auto. apply smem_spec in ES.
      assert (existsb (fun k => smem k gain_names) (array_keys_of d ov) = true); [|congruence].
      apply existsb_exists. exists p. split; auto. apply smem_spec; exact Hp. }
    rewrite (gain_row_false _ i) in E by (intros p Hp; apply HX; rewrite <- (firstn_skipn 4 gain_names); apply in_or_app; left; exact Hp).
    rewrite (gain_row_false (skipn 4 gain_names) i) in E by (intros p Hp; apply HX; rewrite <- (firstn_skipn 4 gain_names); apply in_or_app; right; exact Hp).
    unfold gain_of. apply bind_ok in E. destruct E as (r1 & E1 & E). apply bind_ok in E. destruct E as (r2 & E2 & E).
    injection E as <-. exists [r1; r2]. split; auto. rewrite E1. cbn [bind]. rewrite E2. reflexivity.
Qed.
Lemma gain_matrices_conv k : (0 < n)%nat -> gain_of (rowd d ov 0) = Ok k ->
  exists K, gain_matrices d' (array_keys_of d ov) (hd_error (array_lengths d ov)) = Ok K.
Proof.
  intros Hn E. unfold gain_of in E. apply bind_ok in E. destruct E as (r1 & E1 & E). apply bind_ok in E. destruct E as (r2 & E2 & E).
  unfold gain_matrices. destruct (existsb _ _) eqn:EX.
  - destruct (gain_row_first_conv _ 0 r1 Hn E1) as (q1 & Q1). destruct (gain_row_first_conv _ 0 r2 Hn E2) as (q2 & Q2).
    rewrite Q1. cbn [bind]. rewrite Q2. cbn [bind].
    apply existsb_exists in EX. destruct EX as (k0 & Hk0 & _). rewrite (hd_error_len d ov n k0 N HS Hk0). cbn [bind].
    destruct gains_nodup as [ND1 ND2].
    assert (X : exists ks, mapM (fun i => a <- set_gains d' (array_keys_of d ov) (firstn 4 gain_names) i q1 ;;
                      b <- set_gains d' (array_keys_of d ov) (skipn 4 gain_names) i q2 ;; Ok [a; b]) (seq 0 n) = Ok ks).
    { assert (HI : forall i, In i (seq 0 n) -> (i < n)%nat) by (intros i Hi; apply in_seq in Hi; lia).
      induction (seq 0 n) as [|i is_ IH]; [exists []; reflexivity|].
      destruct IH as (ks & EK); [intros j Hj; apply HI; right; exact Hj|].
      cbn [mapM]. rewrite EK.
      destruct (gain_row_first _ i q1 ND1 (HI i (or_introl eq_refl)) Q1) as (row1 & S1 & M1).
      destruct (gain_row_first _ i q2 ND2 (HI i (or_introl eq_refl)) Q2) as (row2 & S2 & M2).
      rewrite S1. cbn [bind]. rewrite S2. cbn [bind]. eexists; reflexivity. }
    destruct X as (ks & ->). eexists; reflexivity.
  - assert (HX : forall p, In p gain_names -> smem p (array_keys_of d ov) = false).
    { intros p Hp. destruct (smem p (array_keys_of d ov)) eqn:ES; auto. apply smem_spec in ES.
      assert (existsb (fun k => smem k gain_names) (array_keys_of d ov) = true); [|congruence].
      apply existsb_exists. exists p. split; auto. apply smem_spec; exact Hp. }
    rewrite (gain_row_false _ 0) by (intros p Hp; apply HX; rewrite <- (firstn_skipn 4 gain_names); apply in_or_app; left; exact Hp).
    rewrite (gain_row_false (skipn 4 gain_names) 0) by (intros p Hp; apply HX; rewrite <- (firstn_skipn 4 gain_names); apply in_or_app; right; exact Hp).
    rewrite E1. cbn [bind]. rewrite E2. eexists; reflexivity.
Qed.
End Gains.

(* closed loop for one dictionary of floats *)
Definition closed (k : marr) (ab : marr * marr) : marr * marr := (msub (fst ab) (mdot (snd ab) k), snd ab).
Definition fb_row (d : pdict) : res (marr * marr) :=
  c <- canonical (floats d) ;; v <- num_at d "v" ;; g <- num_at d "g" ;; k <- gain_of d ;; ab <- ab_of c v g ;; Ok (closed k ab).

Lemma rows_all {A} (f : nat -> res A) n l : mapM f (seq 0 n) = Ok l -> forall i, (i < n)%nat -> exists a, f i = Ok a.
Proof.
  intros E i Hi. apply mapM_seq_ok in E. destruct E as [HL HE]. destruct l as [|a l]; [simpl in HL; lia|]. eexists. apply (HE i a Hi).
Qed.
Lemma all_rows {A} (f : nat -> res A) n : (forall i, (i < n)%nat -> exists a, f i = Ok a) -> exists l, mapM f (seq 0 n) = Ok l.
Proof.
  intros HX. assert (HI : forall i, In i (seq 0 n) -> exists a, f i = Ok a) by (intros i Hi; apply HX; apply in_seq in Hi; lia).
  clear HX. induction (seq 0 n) as [|i is_ IH]; [exists []; reflexivity|].
  destruct IH as (l & EL); [intros j Hj; apply HI; right; exact Hj|].
  destruct (HI i (or_introl eq_refl)) as (a & EA). cbn [mapM]. rewrite EA. cbn [bind]. rewrite EL. eexists; reflexivity.
Qed.

Lemma canon_pick d ov n cs i : NoDup (dkeys ov) -> canon_pure d ov n = Ok cs -> (i < n)%nat ->
  exists c, pick cs i = Ok c /\ canonical (floats (rowd d ov i)) = Ok c.
Proof.
  intros N E Hi. unfold canon_pure in E. destruct (canon_varies d ov) eqn:EV.
  - destruct (mapM _ _) as [l|e] eqn:EM; [|discriminate]. injection E as <-.
    apply mapM_seq_ok in EM. destruct EM as [HL HE]. exists (nth i l zero_canon). split; auto.
    unfold pick. apply index_ok. lia.
  - destruct (canonical (floats (rowd d ov 0))) as [c|e] eqn:EC; [|discriminate]. injection E as <-.
    exists c. split; auto. rewrite (rowd_single d ov i 0); auto.
Qed.

Lemma form_fb_eq s ov h d n : nth_error h (ps_ref s) = Some d -> NoDup (dkeys ov) -> same_lengths d ov n ->
  exists h' r, preserved h h' /\ form_state_space_matrices_fb s ov h = (h', r) /\
    (if match array_keys_of d ov with [] => false | _ => true end then rows_of n (fun i => fb_row (rowd d ov i)) r
     else (forall l, r <> Ok (Stack l)) /\ forall ab i, r = Ok (Single ab) <-> fb_row (rowd d ov i) = Ok ab).
Proof.
  intros E N HS. unfold form_state_space_matrices_fb. unfold hbind at 1.
  rewrite (parse_parameter_overrides_eq _ _ _ _ E).
  pose proof (parsed_ok d ov N) as P. destruct (parsed d ov) as [[[d' ks] len]|e].
  2:{ exfalso. destruct P as (_ & P). apply P. exists n. split; [discriminate|]. intros m Hm; apply HS; exact Hm. }
  destruct P as (-> & -> & _ & HD & ED). cbn [fst snd]. rewrite <- ED.
  unfold hbind at 1.
  destruct (form_canonical_eq s ov (h ++ [d'])%list d n (nth_error_app_l _ _ _ _ E) N HS) as (h1 & P1 & E1).
  rewrite E1.
  assert (P2 : preserved h h1) by (eapply preserved_trans; [apply preserved_app | exact P1]).
  assert (EP : nth_error h1 (length h) = Some d').
  { eapply preserved_nth; [exact P1|]. apply nth_error_app_last. }
  destruct (array_keys_of d ov) as [|k0 kt] eqn:EAK.
  - (* scalars only: every row is the same *)
    assert (SR : forall i, rowd d ov i = rowd d ov 0).
    { intros i. unfold rowd. apply map_ext_in. intros [k v] Hin. cbn [fst snd]. destruct (dget ov k) as [[x|l]|] eqn:EO; auto.
      exfalso. assert (HI : In k (array_keys_of d ov)).
      { apply in_array_keys; auto. split; [|eauto]. apply in_map with (f := fst) in Hin. exact Hin. }
      rewrite EAK in HI. contradiction. }
    assert (DG : forall k, dget d' k = dget (rowd d ov 0) k).
    { intros k. rewrite HD, dget_rowd. unfold overridden. destruct (dget d k) eqn:EK; auto.
      destruct (dget ov k) as [[x|l]|] eqn:EO; auto.
      exfalso. assert (HI : In k (array_keys_of d ov)).
      { apply in_array_keys; auto. split; [apply dget_some_in; eauto|eauto]. }
      rewrite EAK in HI. contradiction. }
    assert (NA : forall k, num_at d' k = num_at (rowd d ov 0) k).
    { intros k. unfold num_at, dlook. rewrite DG. reflexivity. }
    unfold canon_pure, canon_varies. rewrite EAK. cbn [existsb].
    assert (GM : gain_matrices d' [] (hd_error (array_lengths d ov)) = map_res Single (gain_of (rowd d ov 0))).
    { unfold gain_matrices. cbn [existsb]. unfold gain_row. cbn [andb].
      rewrite (mapM_ext_in _ (num_at (rowd d ov 0))) by (intros; apply NA).
      rewrite (mapM_ext_in _ (num_at (rowd d ov 0)) (skipn 4 gain_names)) by (intros; apply NA).
      unfold gain_of. destruct (mapM _ (firstn 4 gain_names)); auto. cbn [bind map_res]. destruct (mapM _ (skipn 4 gain_names)); auto. }
    assert (FB : forall i, fb_row (rowd d ov i) = fb_row (rowd d ov 0)) by (intros i; rewrite (SR i); reflexivity).
    remember (rowd d ov 0) as d0 eqn:Ed0.
    assert (G : exists r, (match map_res Single (canonical (floats d0)) with
        | Ok a => fun h' : heap => (d1 <-- hload (length h) ;;;
             K <-- lift (gain_matrices d1 [] (hd_error (array_lengths d ov))) ;;;
             v <-- lift (item_or_scalar d1 [] "v" 0) ;;; g <-- lift (item_or_scalar d1 [] "g" 0) ;;;
             c <-- lift (pick a 0) ;;; k <-- lift (pick K 0) ;;;
             ab <-- lift (ab_of c v g) ;;; hret (Single (msub (fst ab) (mdot (snd ab) k), snd ab))) h'
        | Err e => fun h' => (h', Err e) end) h1 = (h1, r) /\
       (forall l, r <> Ok (Stack l)) /\ forall ab, r = Ok (Single ab) <-> fb_row d0 = Ok ab).
    { destruct (canonical (floats d0)) as [c|e] eqn:EC; cbn [map_res].
      - unfold hbind, lift. rewrite (hload_eq _ _ _ EP). rewrite GM.
        change (item_or_scalar d' [] "v" 0) with (num_at d' "v"). change (item_or_scalar d' [] "g" 0) with (num_at d' "g"). rewrite !NA.
        unfold fb_row. rewrite EC. cbn [bind].
        destruct (gain_of d0) as [k|ek]; cbn [map_res].
        + destruct (num_at d0 "v") as [v|ev]; [|eexists; split; [reflexivity|split; [discriminate|split; discriminate]]].
          destruct (num_at d0 "g") as [g|eg]; [|eexists; split; [reflexivity|split; [discriminate|split; discriminate]]].
          cbn [pick bind]. destruct (ab_of c v g) as [ab|eab]; [|eexists; split; [reflexivity|split; [discriminate|split; discriminate]]].
          eexists. split; [reflexivity|]. split; [discriminate|]. intros ab'. cbn [bind]. unfold closed.
          split; intros HX; injection HX as <-; reflexivity.
        + eexists. split; [reflexivity|]. split; [discriminate|]. intros ab. split; [discriminate|].
          destruct (num_at d0 "v"); [|discriminate]. destruct (num_at d0 "g"); discriminate.
      - eexists. split; [reflexivity|]. split; [discriminate|]. intros ab. unfold fb_row. rewrite EC. split; discriminate. }
    destruct G as (r & G1 & G2 & G3). exists h1, r. split; auto. split; [|split; auto].
    + rewrite <- G1. destruct (map_res Single (canonical (floats d0))); reflexivity.
    + intros ab i. rewrite FB. apply G3.
  - (* arrays *)
    rewrite <- EAK in *.
    assert (HLn : hd_error (array_lengths d ov) = Some n).
    { apply (hd_error_len d ov n k0 N HS). rewrite EAK. left; reflexivity. }
    destruct (canon_pure d ov n) as [cs|e] eqn:ECS.
    + unfold hbind at 1. rewrite (hload_eq _ _ _ EP). unfold hbind at 1. unfold lift at 1.
      destruct (gain_matrices d' (array_keys_of d ov) (hd_error (array_lengths d ov))) as [K|ek] eqn:EK.
      * set (F := fun i => c <- pick cs i ;; v <- item_or_scalar d' (array_keys_of d ov) "v" i ;;
                   g <- item_or_scalar d' (array_keys_of d ov) "g" i ;; k <- pick K i ;; ab <- ab_of c v g ;;
                   Ok (msub (fst ab) (mdot (snd ab) k), snd ab)).
        assert (EQ : mapM F (seq 0 n) = mapM (fun i => fb_row (rowd d ov i)) (seq 0 n)).
        { apply mapM_ext_in. intros i Hi. apply in_seq in Hi. assert (Hi' : (i < n)%nat) by lia. unfold F, fb_row.
          destruct (canon_pick d ov n cs i N ECS Hi') as (c & -> & ->). cbn [bind].
          rewrite !(item_or_scalar_row d ov d' n) by assumption.
          destruct (gain_matrices_pick d ov d' n N HD HS K i EK Hi') as (k & -> & ->). reflexivity. }
        destruct (mapM (fun i => fb_row (rowd d ov i)) (seq 0 n)) as [rows|er] eqn:ER.
        -- exists h1, (Ok (Stack rows)). split; auto. split.
           ++ rewrite HLn. unfold hbind, lift. fold F. rewrite EQ. reflexivity.
           ++ repeat split; intros; congruence.
        -- exists h1, (Err er). split; auto. split.
           ++ rewrite HLn. unfold hbind, lift. fold F. rewrite EQ. reflexivity.
           ++ repeat split; intros; congruence.
      * exists h1, (Err ek). split; auto. split; auto. repeat split; try (intros; congruence).
        intros Hn l HX. exfalso. destruct (rows_all _ _ _ HX 0%nat Hn) as (a & EA).
        unfold fb_row in EA. apply bind_ok in EA. destruct EA as (c & _ & EA). apply bind_ok in EA. destruct EA as (v & _ & EA).
        apply bind_ok in EA. destruct EA as (g & _ & EA). apply bind_ok in EA. destruct EA as (k & EG & EA).
        destruct (gain_matrices_conv d ov d' n N HD HS k Hn EG) as (K & HK). congruence.
    + exists h1, (Err e). split; auto. split; auto. repeat split; try (intros; congruence).
      intros Hn l HX. exfalso.
      assert (AC : forall i, (i < n)%nat -> exists c, canonical (floats (rowd d ov i)) = Ok c).
      { intros i Hi. destruct (rows_all _ _ _ HX i Hi) as (a & EA). unfold fb_row in EA. apply bind_ok in EA. destruct EA as (c & EC & _). eauto. }
      unfold canon_pure in ECS. destruct (canon_varies d ov).
      * destruct (all_rows _ _ AC) as (cs & HC). rewrite HC in ECS. discriminate.
      * destruct (AC 0%nat Hn) as (c & HC). rewrite HC in ECS. discriminate.
Qed.
Lemma form_fb_bad s ov h d : nth_error h (ps_ref s) = Some d -> NoDup (dkeys ov) -> ~ lens_agree d ov ->
  exists h', preserved h h' /\
    form_state_space_matrices_fb s ov h = (h', Err (ValueError "All array valued parameters must have the same length.")).
Proof.
  intros E N HB. unfold form_state_space_matrices_fb. unfold hbind at 1.
  rewrite (parse_parameter_overrides_eq _ _ _ _ E).
  pose proof (parsed_ok d ov N) as P. destruct (parsed d ov) as [[[d' ks] len]|e].
  - exfalso. destruct P as (_ & _ & P & _). apply HB. exact P.
  - destruct P as (-> & _). eexists. split; [|reflexivity]. apply preserved_app.
Qed.
