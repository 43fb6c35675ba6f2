(* PModels2.v -- vectorised canonical matrices and state space, row by row *)
From Verif Require Import Base MString MHeap MBicycle MVec MInertia MSets MModels PBase SBicycle PBicycle PBicycle2 PHeap SModels PModels.
Local Open Scope string_scope.
Local Open Scope R_scope.

Lemma index_ok {A} (l : list A) i d : (i < length l)%nat -> index l i = Ok (nth i l d).
Proof.
  intros Hi. unfold index. destruct (nth_error l i) eqn:E.
  - erewrite nth_error_nth; eauto.
  - apply nth_error_None in E. lia.
Qed.

(* the array keys hold arrays of length n in the parsed dictionary *)
Definition holds_arrays (d' : pdict) (keys : list string) (n : nat) : Prop :=
  forall k, In k keys -> exists l, dget d' k = Some (VArr l) /\ length l = n.

Lemma item_ok d' keys n k i : holds_arrays d' keys n -> In k keys -> (i < n)%nat ->
  exists l, dget d' k = Some (VArr l) /\ item d' k i = Ok (nth i l 0).
Proof.
  intros HA HK Hi. destruct (HA k HK) as (l & E & L). exists l. split; auto.
  unfold item, dlook. rewrite E. simpl. apply index_ok. lia.
Qed.

Lemma fill_eq (d' : pdict) i n ak : holds_arrays d' ak n -> (i < n)%nat ->
  forall keys H0 par mut m, incl keys ak -> nth_error H0 par = Some d' -> nth_error H0 mut = Some m -> par <> mut ->
  exists m', hiter (fun key => d <-- hload par ;;; x <-- lift (item d key i) ;;; hset mut key (VNum x)) keys H0 = (upd H0 mut m', Ok tt) /\
    forall k, dget m' k = if smem k keys then match dget d' k with Some (VArr l) => Some (VNum (nth i l 0)) | o => o end else dget m k.
Proof.
  intros HA Hi. induction keys as [|key keys IH]; intros H0 par mut m HI EP EM NE.
  - exists m. simpl. split; auto. unfold hret. rewrite (upd_same _ _ _ EM). reflexivity.
  - cbn [hiter]. destruct (item_ok d' ak n key i HA (HI key (or_introl eq_refl)) Hi) as (l & EL & EI).
    unfold hbind at 1. unfold hbind at 1. rewrite (hload_eq _ _ _ EP). unfold hbind at 1. unfold lift. rewrite EI.
    rewrite (hset_eq _ _ _ _ _ EM).
    assert (LM : (mut < length H0)%nat) by (apply nth_error_Some; congruence).
    destruct (IH (upd H0 mut (dset m key (VNum (nth i l 0)))) par mut (dset m key (VNum (nth i l 0)))) as (m' & E1 & E2).
    + intros k Hk. apply HI. right; exact Hk.
    + rewrite nth_error_upd_neq by congruence. exact EP.
    + apply nth_error_upd_eq; exact LM.
    + exact NE.
    + exists m'. split.
      * unfold lift in E1. rewrite E1. rewrite upd_upd. reflexivity.
      * intros k. rewrite E2. unfold smem; cbn [existsb]. fold (smem k keys).
        destruct (smem k keys) eqn:ES; [rewrite orb_true_r; reflexivity|]. rewrite orb_false_r.
        rewrite dget_dset. destruct (String.eqb k key) eqn:E; auto.
        apply String.eqb_eq in E; subst k. rewrite EL. reflexivity.
Qed.

Lemma canon_keys_not_zz k : In k canon_keys -> k <> "IRzz" /\ k <> "IFzz".
Proof. unfold canon_keys; simpl; intros Hk; split; intros ->; intuition discriminate. Qed.

Lemma rows_eq d ov d' n : NoDup (dkeys ov) -> (forall k, dget d' k = overridden d ov k) ->
  holds_arrays d' (array_keys_of d ov) n ->
  forall is_ H0 par mut m, (forall i, In i is_ -> (i < n)%nat) ->
  nth_error H0 par = Some d' -> nth_error H0 mut = Some m -> par <> mut ->
  (forall k, ~ In k (array_keys_of d ov) -> k <> "IRzz" -> k <> "IFzz" -> dget m k = dget d' k) ->
  exists m', hmapM (fun i =>
      _ <-- hiter (fun key => d <-- hload par ;;; x <-- lift (item d key i) ;;; hset mut key (VNum x)) (array_keys_of d ov) ;;;
      canonical_of mut) is_ H0 = (upd H0 mut m', mapM (fun i => canonical (floats (rowd d ov i))) is_).
Proof.
  intros N HD HA. induction is_ as [|i is_ IH]; intros H0 par mut m HI EP EM NE INV.
  - exists m. simpl. unfold hret. rewrite (upd_same _ _ _ EM). reflexivity.
  - cbn [hmapM mapM].
    destruct (fill_eq d' i n _ HA (HI i (or_introl eq_refl)) _ H0 par mut m (incl_refl _) EP EM NE) as (m1 & E1 & E2).
    unfold hbind at 1. unfold hbind at 1. rewrite E1.
    assert (LM : (mut < length H0)%nat) by (apply nth_error_Some; congruence).
    destruct (canonical_of_eq (upd H0 mut m1) mut m1 (nth_error_upd_eq _ _ _ LM)) as (m2 & E3 & E4).
    rewrite E3. rewrite upd_upd.
    assert (EC : canonical (floats m1) = canonical (floats (rowd d ov i))).
    { apply canonical_ext. intros k Hk. destruct (canon_keys_not_zz k Hk) as [NZ1 NZ2].
      rewrite !dget_floats. rewrite dget_rowd. rewrite E2.
      destruct (smem k (array_keys_of d ov)) eqn:ES.
      - apply smem_spec in ES. rewrite HD. unfold overridden.
        apply in_array_keys in ES; auto. destruct ES as [_ [l EL]]. rewrite EL.
        destruct (dget d k); reflexivity.
      - assert (NK : ~ In k (array_keys_of d ov)) by (rewrite <- smem_spec; congruence).
        rewrite INV by assumption. rewrite HD. unfold overridden.
        destruct (dget d k) eqn:EK; auto. destruct (dget ov k) as [[x|l]|] eqn:EO; auto.
        exfalso. apply NK. apply in_array_keys; auto. split; [apply dget_some_in; eauto | eauto]. }
    rewrite EC. destruct (canonical (floats (rowd d ov i))) as [c|e] eqn:ECR; cbn [bind].
    + unfold hbind at 1.
      destruct (IH (upd H0 mut m2) par mut m2) as (m3 & E5).
      * intros j Hj. apply HI. right; exact Hj.
      * rewrite nth_error_upd_neq by congruence. exact EP.
      * apply nth_error_upd_eq; exact LM.
      * exact NE.
      * intros k NK N1 N2. rewrite E4 by assumption. rewrite E2.
        destruct (smem k (array_keys_of d ov)) eqn:ES; [apply smem_spec in ES; contradiction|]. apply INV; assumption.
      * rewrite E5. rewrite upd_upd. exists m3.
        destruct (mapM _ is_); reflexivity.
    + exists m2. reflexivity.
Qed.

(* pure form of form_reduced_canonical_matrices *)
Definition canon_varies (d : pdict) (ov : dict oval) : bool := existsb (fun k => smem k canon_deps) (array_keys_of d ov).
Definition lens_agree (d : pdict) (ov : dict oval) : Prop := agree None (array_lengths d ov).
Definition map_res {A B} (f : A -> B) (x : res A) : res B := match x with Ok a => Ok (f a) | Err e => Err e end.
Definition canon_pure (d : pdict) (ov : dict oval) (n : nat) : res (shaped canon) :=
  if canon_varies d ov then map_res Stack (mapM (fun i => canonical (floats (rowd d ov i))) (seq 0 n))
  else map_res Single (canonical (floats (rowd d ov 0))).

Lemma canon_keys_deps k : In k canon_keys -> In k canon_deps.
Proof. unfold canon_keys, canon_deps; simpl; intuition (subst; tauto). Qed.

Lemma single_row d ov d' i : NoDup (dkeys ov) -> (forall k, dget d' k = overridden d ov k) -> canon_varies d ov = false ->
  canonical (floats d') = canonical (floats (rowd d ov i)).
Proof.
  intros N HD HV. apply canonical_ext. intros k Hk. rewrite !dget_floats, HD, dget_rowd. unfold overridden.
  destruct (dget d k) eqn:EK; auto. destruct (dget ov k) as [[x|l]|] eqn:EO; auto.
  exfalso. assert (HI : In k (array_keys_of d ov)).
  { apply in_array_keys; auto. split; [apply dget_some_in; eauto | eauto]. }
  assert (X : canon_varies d ov = true); [|congruence].
  unfold canon_varies. apply existsb_exists. exists k. split; auto. apply smem_spec. apply canon_keys_deps; exact Hk.
Qed.
Lemma rowd_single d ov i j : NoDup (dkeys ov) -> canon_varies d ov = false ->
  canonical (floats (rowd d ov i)) = canonical (floats (rowd d ov j)).
Proof.
  intros N HV. apply canonical_ext. intros k Hk. rewrite !dget_floats, !dget_rowd.
  destruct (dget d k) eqn:EK; auto. destruct (dget ov k) as [[x|l]|] eqn:EO; auto.
  exfalso. assert (HI : In k (array_keys_of d ov)).
  { apply in_array_keys; auto. split; [apply dget_some_in; eauto | eauto]. }
  assert (X : canon_varies d ov = true); [|congruence].
  unfold canon_varies. apply existsb_exists. exists k. split; auto. apply smem_spec. apply canon_keys_deps; exact Hk.
Qed.

Lemma parsed_holds d ov d' n : NoDup (dkeys ov) -> (forall k, dget d' k = overridden d ov k) ->
  same_lengths d ov n -> holds_arrays d' (array_keys_of d ov) n.
Proof.
  intros N HD HS k Hk. apply in_array_keys in Hk; auto. destruct Hk as [HK [l HL]].
  exists l. split.
  - rewrite HD. unfold overridden. apply dget_some_in in HK. destruct HK as [v ->]. rewrite HL. reflexivity.
  - apply HS. apply in_array_lengths; auto. exists k, l. auto.
Qed.
Lemma hd_error_len d ov n k : NoDup (dkeys ov) -> same_lengths d ov n -> In k (array_keys_of d ov) ->
  hd_error (array_lengths d ov) = Some n.
Proof.
  intros N HS HK. apply in_array_keys in HK; auto. destruct HK as [HK [l HL]].
  assert (X : In (length l) (array_lengths d ov)) by (apply in_array_lengths; eauto).
  unfold same_lengths in HS. destruct (array_lengths d ov) as [|m ms]; [contradiction|].
  simpl. f_equal. apply HS. left; reflexivity.
Qed.

Lemma form_canonical_eq s ov h d n : nth_error h (ps_ref s) = Some d -> NoDup (dkeys ov) -> same_lengths d ov n ->
  exists h', preserved h h' /\ form_reduced_canonical_matrices s ov h = (h', canon_pure d ov n).
Proof.
  intros E N HS. unfold form_reduced_canonical_matrices. unfold hbind at 1.
  rewrite (parse_parameter_overrides_eq _ _ _ _ E).
  pose proof (parsed_ok d ov N) as P. destruct (parsed d ov) as [[[d' ks] len]|e].
  2:{ exfalso. destruct P as (_ & P). apply P. exists n. split; [discriminate|]. intros m Hm; apply HS; exact Hm. }
  destruct P as (-> & -> & _ & HD & ED). cbn [fst snd]. rewrite <- ED.
  unfold hbind at 1. rewrite (hcopy_eq _ _ _ (nth_error_app_last h [] d')).
  fold (canon_varies d ov). unfold canon_pure. destruct (canon_varies d ov) eqn:EV.
  - assert (HL : hd_error (array_lengths d ov) = Some n).
    { unfold canon_varies in EV. apply existsb_exists in EV. destruct EV as (k & Hk & _). eapply hd_error_len; eauto. }
    rewrite HL. unfold hbind at 1. unfold lift at 1.
    destruct (rows_eq d ov d' n N HD (parsed_holds _ _ _ _ N HD HS) (seq 0 n) ((h ++ [d']) ++ [d'])%list (length h) (length (h ++ [d'])) d') as (m' & E1).
    + intros i Hi. apply in_seq in Hi. lia.
    + rewrite <- app_assoc. simpl. apply nth_error_app_last.
    + apply nth_error_app_last.
    + rewrite app_length; simpl; lia.
    + intros k _ _ _. reflexivity.
    + unfold hbind at 1. rewrite E1. rewrite upd_app_last. eexists. split; [|destruct (mapM _ _); reflexivity].
      rewrite <- app_assoc. apply preserved_app.
  - destruct (canonical_of_eq ((h ++ [d']) ++ [d'])%list (length h) d') as (m' & E1 & _).
    { rewrite <- app_assoc. simpl. apply nth_error_app_last. }
    unfold hbind. rewrite E1. rewrite (single_row d ov d' 0 N HD EV).
    eexists. split; [|destruct (canonical (floats (rowd d ov 0))); reflexivity].
    rewrite <- app_assoc. simpl. rewrite upd_app_last. apply preserved_app.
Qed.
Lemma form_canonical_bad s ov h d : nth_error h (ps_ref s) = Some d -> NoDup (dkeys ov) -> ~ lens_agree d ov ->
  exists h', preserved h h' /\
    form_reduced_canonical_matrices s ov h = (h', Err (ValueError "All array valued parameters must have the same length.")).
Proof.
  intros E N HB. unfold form_reduced_canonical_matrices. unfold hbind at 1.
  rewrite (parse_parameter_overrides_eq _ _ _ _ E).
  pose proof (parsed_ok d ov N) as P. destruct (parsed d ov) as [[[d' ks] len]|e].
  - exfalso. destruct P as (_ & _ & P & _). apply HB. exact P.
  - destruct P as (-> & _). eexists. split; [|reflexivity]. apply preserved_app.
Qed.
Lemma lens_agree_iff d ov : lens_agree d ov <-> exists n, same_lengths d ov n.
Proof.
  unfold lens_agree, agree, same_lengths. split; intros [n Hn]; exists n.
  - apply Hn.
  - split; [discriminate|exact Hn].
Qed.
Lemma lens_agree_dec d ov : lens_agree d ov \/ ~ lens_agree d ov.
Proof.
  rewrite lens_agree_iff. unfold same_lengths. destruct (array_lengths d ov) as [|m ms].
  - left. exists 0%nat. intros k [].
  - destruct (forallb (Nat.eqb m) ms) eqn:E.
    + left. exists m. rewrite forallb_forall in E. intros k [<-|Hk]; auto. specialize (E k Hk). apply Nat.eqb_eq in E. auto.
    + right. intros [n Hn]. assert (forallb (Nat.eqb m) ms = true); [|congruence].
      apply forallb_forall. intros k Hk. apply Nat.eqb_eq. rewrite (Hn m (or_introl eq_refl)). symmetry. apply Hn. right; exact Hk.
Qed.

(* values of v, g for row i *)
Definition num_at (d : pdict) (k : string) : res R := v <- dlook d k ;; match v with VNum x => Ok x | _ => Err TypeError end.
Lemma item_or_scalar_row d ov d' n k i : NoDup (dkeys ov) -> (forall k, dget d' k = overridden d ov k) ->
  same_lengths d ov n -> (i < n)%nat -> item_or_scalar d' (array_keys_of d ov) k i = num_at (rowd d ov i) k.
Proof.
  intros N HD HS Hi. unfold item_or_scalar. destruct (smem k (array_keys_of d ov)) eqn:ES.
  - apply smem_spec in ES. destruct (item_ok d' _ n k i (parsed_holds _ _ _ _ N HD HS) ES Hi) as (l & E1 & E2).
    rewrite E2. apply in_array_keys in ES; auto. destruct ES as [HK [l' HL]].
    unfold num_at, dlook. rewrite dget_rowd. apply dget_some_in in HK. destruct HK as [v HK].
    rewrite HD in E1. unfold overridden in E1. rewrite HK, HL in E1. injection E1 as <-. rewrite HK, HL. reflexivity.
  - unfold num_at, dlook. rewrite HD, dget_rowd. unfold overridden.
    destruct (dget d k) eqn:EK; auto. destruct (dget ov k) as [[x|l]|] eqn:EO; auto.
    exfalso. assert (X : smem k (array_keys_of d ov) = true); [|congruence].
    apply smem_spec. apply in_array_keys; auto. split; [apply dget_some_in; eauto | eauto].
Qed.
Lemma item_or_scalar_const d ov d' k i : NoDup (dkeys ov) -> (forall k, dget d' k = overridden d ov k) ->
  smem k (array_keys_of d ov) = false -> item_or_scalar d' [] k 0 = num_at (rowd d ov i) k.
Proof.
  intros N HD ES. unfold item_or_scalar. cbn [smem existsb].
  unfold num_at, dlook. rewrite HD, dget_rowd. unfold overridden.
  destruct (dget d k) eqn:EK; auto. destruct (dget ov k) as [[x|l]|] eqn:EO; auto.
  exfalso. assert (X : smem k (array_keys_of d ov) = true); [|congruence].
  apply smem_spec. apply in_array_keys; auto. split; [apply dget_some_in; eauto | eauto].
Qed.

Definition vg_ab (d : pdict) (c : canon) : res (marr * marr) := g <- num_at d "g" ;; v <- num_at d "v" ;; ab_of c v g.
(* A, B for one dictionary of floats *)
Definition ss_row (d : pdict) : res (marr * marr) := c <- canonical (floats d) ;; vg_ab d c.

Lemma mapM_ext_in {A B} (f g : A -> res B) l : (forall x, In x l -> f x = g x) -> mapM f l = mapM g l.
Proof.
  induction l as [|x l IH]; simpl; intros HE; auto. rewrite (HE x) by auto. rewrite IH by auto. reflexivity.
Qed.
Lemma mapM_length {A B} (f : A -> res B) l ys : mapM f l = Ok ys -> length ys = length l.
Proof. intros E. apply mapM_ok in E. induction E; simpl; auto. Qed.
Lemma mapM_nth {A B} (f : A -> res B) l ys i a b : mapM f l = Ok ys -> (i < length l)%nat -> f (nth i l a) = Ok (nth i ys b).
Proof.
  intros E. apply mapM_ok in E. revert i. induction E as [|x y l ys H1 H2 IH]; simpl; intros i Hi; [lia|].
  destruct i; simpl; auto. apply IH. lia.
Qed.
Lemma mapM_seq_ok {B} (f : nat -> res B) n ys : mapM f (seq 0 n) = Ok ys <->
  length ys = n /\ forall i b, (i < n)%nat -> f i = Ok (nth i ys b).
Proof.
  split.
  - intros E. split.
    + rewrite (mapM_length _ _ _ E), seq_length. reflexivity.
    + intros i b Hi. pose proof (mapM_nth f _ _ i 0%nat b E) as X. rewrite seq_length, seq_nth in X by lia. apply X; exact Hi.
  - intros [HL HE]. apply mapM_intro.
    assert (X : forall m k zs, length zs = m -> (forall i b, (i < m)%nat -> f (k + i)%nat = Ok (nth i zs b)) ->
                Forall2 (fun x y => f x = Ok y) (seq k m) zs).
    { induction m as [|m IH]; intros k [|z zs]; simpl; intros HL' HE'; try discriminate; constructor.
      - specialize (HE' 0%nat z). rewrite Nat.add_0_r in HE'. apply HE'. lia.
      - apply IH; [lia|]. intros i b Hi. specialize (HE' (S i) b). simpl in HE'. replace (S k + i)%nat with (k + S i)%nat by lia. apply HE'. lia. }
    apply X; auto.
Qed.

Lemma mapM_map {A B C} (f : B -> res C) (g : A -> B) l : mapM f (map g l) = mapM (fun x => f (g x)) l.
Proof. induction l as [|x l IH]; simpl; auto. rewrite IH. reflexivity. Qed.
Lemma combine_seq {A} (l : list A) c : forall k, combine (seq k (length l)) l = map (fun i => (i, nth (i - k) l c)) (seq k (length l)).
Proof.
  induction l as [|x l IH]; intros k; simpl; auto. rewrite Nat.sub_diag. f_equal. rewrite IH.
  apply map_ext_in. intros i Hi. apply in_seq in Hi. replace (i - k)%nat with (S (i - S k)) by lia. reflexivity.
Qed.
Lemma mapM_combine_seq {A B} (F : nat -> A -> res B) l c :
  mapM (fun ic => F (fst ic) (snd ic)) (combine (seq 0 (length l)) l) = mapM (fun i => F i (nth i l c)) (seq 0 (length l)).
Proof.
  rewrite (combine_seq l c 0). rewrite mapM_map. apply mapM_ext_in. intros i _. simpl. rewrite Nat.sub_0_r. reflexivity.
Qed.

Definition zero_canon : canon := let z := mk2 0 0 0 0 in mkcanon z z z z.

Definition ss_varies (d : pdict) (ov : dict oval) : bool :=
  (canon_varies d ov || (smem "v" (array_keys_of d ov) || smem "g" (array_keys_of d ov)))%bool.

(* the result of a whole vectorised call against its rows *)
Definition rows_of {A} (n : nat) (row : nat -> res A) (r : res (shaped A)) : Prop :=
  (forall a, r <> Ok (Single a)) /\
  (forall l, r = Ok (Stack l) -> mapM row (seq 0 n) = Ok l) /\
  ((0 < n)%nat -> forall l, mapM row (seq 0 n) = Ok l -> r = Ok (Stack l)).

Lemma form_ss_eq s ov h d n : nth_error h (ps_ref s) = Some d -> NoDup (dkeys ov) -> same_lengths d ov n ->
  exists h' r, preserved h h' /\ form_state_space_matrices s ov h = (h', r) /\
    (if ss_varies d ov then rows_of n (fun i => ss_row (rowd d ov i)) r
     else (forall l, r <> Ok (Stack l)) /\ forall ab i, r = Ok (Single ab) <-> ss_row (rowd d ov i) = Ok ab).
Proof.
  intros E N HS. unfold form_state_space_matrices. unfold hbind at 1.
  rewrite (parse_parameter_overrides_eq _ _ _ _ E).
  pose proof (parsed_ok d ov N) as P. destruct (parsed d ov) as [[[d' ks] len]|e].
  2:{ exfalso. destruct P as (_ & P). apply P. exists n. split; [discriminate|]. intros m Hm; apply HS; exact Hm. }
  destruct P as (-> & -> & _ & HD & ED). cbn [fst snd]. rewrite <- ED.
  unfold hbind at 1.
  destruct (form_canonical_eq s ov (h ++ [d'])%list d n (nth_error_app_l _ _ _ _ E) N HS) as (h1 & P1 & E1).
  rewrite E1.
  assert (P2 : preserved h h1) by (eapply preserved_trans; [apply preserved_app | exact P1]).
  assert (EP : nth_error h1 (length h) = Some d').
  { eapply preserved_nth; [exact P1|]. apply nth_error_app_last. }
  assert (ROW : forall i c, (i < n)%nat ->
     (g <- item_or_scalar d' (array_keys_of d ov) "g" i ;; v <- item_or_scalar d' (array_keys_of d ov) "v" i ;; ab_of c v g)
     = vg_ab (rowd d ov i) c).
  { intros i c Hi. unfold vg_ab. rewrite !(item_or_scalar_row d ov d' n) by assumption. reflexivity. }
  unfold canon_pure, ss_varies in *. destruct (canon_varies d ov) eqn:EV; cbn [orb].
  - (* a canonical parameter is an array *)
    destruct (mapM (fun i => canonical (floats (rowd d ov i))) (seq 0 n)) as [cs|e] eqn:ECS; cbn [map_res].
    + unfold hbind at 1. rewrite (hload_eq _ _ _ EP).
      assert (LC : length cs = n) by (apply mapM_length in ECS; rewrite seq_length in ECS; exact ECS).
      rewrite (mapM_combine_seq (fun i c => g <- item_or_scalar d' (array_keys_of d ov) "g" i ;; v <- item_or_scalar d' (array_keys_of d ov) "v" i ;; ab_of c v g) cs zero_canon).
      assert (EQ : mapM (fun i => g <- item_or_scalar d' (array_keys_of d ov) "g" i ;; v <- item_or_scalar d' (array_keys_of d ov) "v" i ;; ab_of (nth i cs zero_canon) v g) (seq 0 (length cs))
                 = mapM (fun i => ss_row (rowd d ov i)) (seq 0 n)).
      { rewrite LC. apply mapM_ext_in. intros i Hi. apply in_seq in Hi. rewrite ROW by lia.
        apply mapM_seq_ok in ECS. destruct ECS as [_ ECS]. unfold ss_row. rewrite (ECS i zero_canon) by lia. reflexivity. }
      unfold hbind at 1, lift. rewrite EQ.
      destruct (mapM (fun i => ss_row (rowd d ov i)) (seq 0 n)) as [rows|e] eqn:ER.
      * exists h1, (Ok (Stack rows)). repeat split; auto; try discriminate; intros; congruence.
      * exists h1, (Err e). repeat split; auto; intros; congruence.
    + exists h1, (Err e). repeat split; auto; try discriminate.
      intros Hn l HL. exfalso.
      assert (X : exists cs, mapM (fun i => canonical (floats (rowd d ov i))) (seq 0 n) = Ok cs); [|destruct X; congruence].
      clear - HL. revert l HL. induction (seq 0 n) as [|i is_ IH]; intros l HL; [exists []; reflexivity|].
      cbn [mapM] in *. apply bind_ok in HL. destruct HL as (y & HY & HL). apply bind_ok in HL. destruct HL as (ys & HYS & HL).
      unfold ss_row in HY. apply bind_ok in HY. destruct HY as (c & HC & _). rewrite HC. cbn [bind].
      destruct (IH _ HYS) as (cs & ->). eexists; reflexivity.
  - (* the canonical matrices are single *)
    destruct (canonical (floats (rowd d ov 0))) as [c|e] eqn:EC; cbn [map_res].
    + unfold hbind at 1. rewrite (hload_eq _ _ _ EP).
      destruct (smem "v" (array_keys_of d ov) || smem "g" (array_keys_of d ov))%bool eqn:EVG.
      * assert (HL : hd_error (array_lengths d ov) = Some n).
        { apply orb_true_iff in EVG. destruct EVG as [X|X]; apply smem_spec in X; eapply hd_error_len; eauto. }
        rewrite HL. unfold hbind at 1, lift at 1. unfold hbind, lift.
        assert (EQ : mapM (fun i => g <- item_or_scalar d' (array_keys_of d ov) "g" i ;; v <- item_or_scalar d' (array_keys_of d ov) "v" i ;; ab_of c v g) (seq 0 n)
                 = mapM (fun i => ss_row (rowd d ov i)) (seq 0 n)).
        { apply mapM_ext_in. intros i Hi. apply in_seq in Hi. rewrite ROW by lia.
          unfold ss_row. rewrite (rowd_single d ov i 0) by assumption. rewrite EC. reflexivity. }
        rewrite EQ. destruct (mapM (fun i => ss_row (rowd d ov i)) (seq 0 n)) as [rows|e] eqn:ER.
        -- exists h1, (Ok (Stack rows)). repeat split; auto; try discriminate; intros; congruence.
        -- exists h1, (Err e). repeat split; auto; intros; congruence.
      * apply orb_false_iff in EVG. destruct EVG as [EV1 EV2].
        unfold hbind, lift.
        rewrite (item_or_scalar_const d ov d' "v" 0 N HD EV1), (item_or_scalar_const d ov d' "g" 0 N HD EV2).
        assert (NV : forall i, num_at (rowd d ov i) "v" = num_at (rowd d ov 0) "v").
        { intros i. rewrite <- !(item_or_scalar_const d ov d' "v") by assumption. reflexivity. }
        assert (NG : forall i, num_at (rowd d ov i) "g" = num_at (rowd d ov 0) "g").
        { intros i. rewrite <- !(item_or_scalar_const d ov d' "g") by assumption. reflexivity. }
        assert (SR : forall i, ss_row (rowd d ov i) = (g <- num_at (rowd d ov 0) "g" ;; v <- num_at (rowd d ov 0) "v" ;; ab_of c v g)).
        { intros i. unfold ss_row, vg_ab. rewrite (rowd_single d ov i 0) by assumption. rewrite EC, NV, NG. reflexivity. }
        destruct (num_at (rowd d ov 0) "v") as [v|ev] eqn:XV.
        -- destruct (num_at (rowd d ov 0) "g") as [g|eg] eqn:XG.
           ++ destruct (ab_of c v g) as [ab|eab] eqn:XA.
              ** exists h1, (Ok (Single ab)). repeat split; auto; try discriminate.
                 --- intros HX. injection HX as <-. rewrite SR; auto.
                 --- intros HX. rewrite SR in HX. cbn [bind] in HX. congruence.
              ** exists h1, (Err eab). repeat split; auto; try discriminate.
                 intros HX. rewrite SR in HX. cbn [bind] in HX. congruence.
           ++ exists h1, (Err eg). repeat split; auto; try discriminate.
              intros HX. rewrite SR in HX. discriminate.
        -- exists h1, (Err ev). repeat split; auto; try discriminate.
           intros HX. rewrite SR in HX. destruct (num_at (rowd d ov 0) "g"); discriminate.
    + exists h1, (Err e). split; auto. split; auto.
      assert (SR : forall i, ss_row (rowd d ov i) = Err e).
      { intros i. unfold ss_row. rewrite (rowd_single d ov i 0) by assumption. rewrite EC. reflexivity. }
      destruct (smem "v" (array_keys_of d ov) || smem "g" (array_keys_of d ov))%bool.
      * repeat split; try discriminate. intros Hn l HX. destruct n; [lia|]. simpl in HX. rewrite SR in HX. discriminate.
      * repeat split; try discriminate. intros HX. rewrite SR in HX. discriminate.
Qed.
Lemma form_ss_bad s ov h d : nth_error h (ps_ref s) = Some d -> NoDup (dkeys ov) -> ~ lens_agree d ov ->
  exists h', preserved h h' /\
    form_state_space_matrices s ov h = (h', Err (ValueError "All array valued parameters must have the same length.")).
Proof.
  intros E N HB. unfold form_state_space_matrices. unfold hbind at 1.
  rewrite (parse_parameter_overrides_eq _ _ _ _ E).
  pose proof (parsed_ok d ov N) as P. destruct (parsed d ov) as [[[d' ks] len]|e].
  - exfalso. destruct P as (_ & _ & P & _). apply HB. exact P.
  - destruct P as (-> & _). eexists. split; [|reflexivity]. apply preserved_app.
Qed.
