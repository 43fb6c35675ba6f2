(* PModels.v -- the heap-level model methods equal pure functions of the set's
   dictionary and the overrides *)
From Verif Require Import Base MString MHeap MBicycle MVec MInertia MSets MModels PBase SBicycle PBicycle PBicycle2 PHeap SModels.
Local Open Scope string_scope.
Local Open Scope R_scope.

(* ---------- the canonical matrices read the dictionary only through canon_keys ---------- *)
Lemma dlook_ext {V} (p q : dict V) k : dget p k = dget q k -> dlook p k = dlook q k.
Proof. unfold dlook; intros ->; reflexivity. Qed.

Lemma canon_phase1_ext p q : (forall k, In k canon_keys -> dget p k = dget q k) -> canon_phase1 p = canon_phase1 q.
Proof.
  intros E.
  assert (L : forall k, In k canon_keys -> dlook p k = dlook q k) by (intros; apply dlook_ext; auto).
  unfold canon_phase1.
  repeat match goal with |- context [dlook p ?k] => rewrite (L k) by (unfold canon_keys; simpl; tauto) end.
  reflexivity.
Qed.
Lemma canon_phase2_ext p q c : (forall k, In k canon_keys \/ k = "IRzz" \/ k = "IFzz" -> dget p k = dget q k) ->
  canon_phase2 p c = canon_phase2 q c.
Proof.
  intros E.
  assert (L : forall k, In k canon_keys \/ k = "IRzz" \/ k = "IFzz" -> dlook p k = dlook q k) by (intros; apply dlook_ext; auto).
  unfold canon_phase2.
  repeat match goal with |- context [dlook p ?k] => rewrite (L k) by (unfold canon_keys; simpl; tauto) end.
  reflexivity.
Qed.
Definition canonical (p : dict R) : res canon := snd (benchmark_par_to_canonical p).
Lemma canonical_ext p q : (forall k, In k canon_keys -> dget p k = dget q k) -> canonical p = canonical q.
Proof.
  intros E. unfold canonical, benchmark_par_to_canonical. rewrite (canon_phase1_ext p q E).
  destruct (canon_phase1 q) as [k|e]; [|reflexivity]. cbn [snd].
  apply canon_phase2_ext. intros k0 Hk. rewrite !dget_dset.
  destruct (String.eqb k0 "IFzz") eqn:E1; auto. destruct (String.eqb k0 "IRzz") eqn:E2; auto.
  destruct Hk as [Hk|[->| ->]]; auto; discriminate.
Qed.

(* canonical_of on a heap object *)
Lemma canonical_of_eq h r d : nth_error h r = Some d ->
  exists d', canonical_of r h = (upd h r d', canonical (floats d)) /\
    (forall k, k <> "IRzz" -> k <> "IFzz" -> dget d' k = dget d k).
Proof.
  intros E. unfold canonical_of, hbind, lift, canonical, benchmark_par_to_canonical. rewrite (hload_eq _ _ _ E).
  destruct (canon_phase1 (floats d)) as [k|e].
  - assert (HL : (r < length h)%nat) by (apply nth_error_Some; congruence).
    rewrite (hset_eq _ _ _ "IRzz" (VNum (k_IRxx k)) E).
    rewrite (hset_eq _ _ _ "IFzz" (VNum (k_IFxx k)) (nth_error_upd_eq _ _ _ HL)). rewrite upd_upd.
    rewrite (hload_eq _ _ _ (nth_error_upd_eq _ _ _ HL)).
    eexists; split; [reflexivity || f_equal|].
    + cbn [snd]. apply canon_phase2_ext. intros k0 _.
      rewrite dget_floats, !dget_dset, dget_floats.
      destruct (String.eqb k0 "IFzz"); auto. destruct (String.eqb k0 "IRzz"); auto.
    + intros k0 N1 N2. rewrite !dget_dset. apply String.eqb_neq in N1, N2. rewrite N1, N2. reflexivity.
  - exists d. split; auto. rewrite (upd_same _ _ _ E). reflexivity.
Qed.

(* ---------- parsing the overrides ---------- *)
Fixpoint parse_pure (d : pdict) (ov : dict oval) (keys : list string) (len : option nat) : pdict * res (list string * option nat) :=
  match ov with
  | [] => (d, Ok (keys, len))
  | (key, val) :: rest =>
      if negb (dmem d key) then parse_pure d rest keys len
      else match val with
           | OScalar x => parse_pure (dset d key (VNum x)) rest keys len
           | OArray l =>
               let n := match len with None => length l | Some n => n end in
               if negb (Nat.eqb (length l) n) then
                 (d, Err (ValueError "All array valued parameters must have the same length."))
               else parse_pure (dset d key (VArr l)) rest (keys ++ [key])%list (Some n)
           end
  end.
Lemma parse_loop_eq ov : forall h r d keys len, nth_error h r = Some d ->
  parse_loop r ov keys len h = (upd h r (fst (parse_pure d ov keys len)), snd (parse_pure d ov keys len)).
Proof.
  induction ov as [|[key val] ov IH]; intros h r d keys len E; cbn [parse_loop parse_pure].
  - cbn [fst snd]. rewrite (upd_same _ _ _ E). reflexivity.
  - assert (HL : (r < length h)%nat) by (apply nth_error_Some; congruence).
    unfold hbind at 1. rewrite (hload_eq _ _ _ E).
    destruct (dmem d key); cbn [negb]; [|apply IH; exact E].
    destruct val as [x|l].
    + unfold hbind at 1. rewrite (hset_eq _ _ _ _ _ E).
      rewrite (IH _ _ _ _ _ (nth_error_upd_eq h r (dset d key (VNum x)) HL)). rewrite upd_upd. reflexivity.
    + destruct (Nat.eqb _ _); cbn [negb].
      * unfold hbind at 1. rewrite (hset_eq _ _ _ _ _ E).
        rewrite (IH _ _ _ _ _ (nth_error_upd_eq h r (dset d key (VArr l)) HL)). rewrite upd_upd. reflexivity.
      * cbn [fst snd]. rewrite (upd_same _ _ _ E). reflexivity.
Qed.

Definition parsed (d : pdict) (ov : dict oval) : res (pdict * list string * option nat) :=
  match parse_pure d ov [] None with (d', Ok (ks, n)) => Ok (d', ks, n) | (_, Err e) => Err e end.
Lemma parse_parameter_overrides_eq s ov h d : nth_error h (ps_ref s) = Some d ->
  parse_parameter_overrides s ov h =
  ((h ++ [fst (parse_pure d ov [] None)])%list,
   match parsed d ov with Ok (_, ks, n) => Ok (length h, ks, n) | Err e => Err e end).
Proof.
  intros E. unfold parse_parameter_overrides, hbind, parsed. rewrite (hcopy_eq _ _ _ E).
  rewrite (parse_loop_eq _ _ _ _ _ _ (nth_error_app_last h [] d)). rewrite upd_app_last.
  destruct (parse_pure d ov [] None) as [d' [[ks n]|e]]; reflexivity.
Qed.

(* array keys and lengths in the pure parse *)
Definition array_keys_of (d : pdict) (ov : dict oval) : list string :=
  flat_map (fun e => match snd e with OArray l => if dmem d (fst e) then [fst e] else [] | OScalar _ => [] end) ov.
Lemma dmem_dset {V} (d : dict V) k k' v : dmem (dset d k v) k' = (String.eqb k' k || dmem d k')%bool.
Proof. unfold dmem. rewrite dget_dset. destruct (String.eqb k' k); reflexivity. Qed.
Lemma dmem_dset_in {V} (d : dict V) k k' v : dmem d k = true -> dmem (dset d k v) k' = dmem d k'.
Proof.
  intros E. rewrite dmem_dset. destruct (String.eqb k' k) eqn:E1; auto.
  apply String.eqb_eq in E1; subst. auto.
Qed.
Lemma array_keys_ext d1 d2 ov : (forall k, dmem d1 k = dmem d2 k) -> array_keys_of d1 ov = array_keys_of d2 ov.
Proof. intros E. unfold array_keys_of. apply flat_map_ext. intros [k [x|l]]; simpl; auto. rewrite E; reflexivity. Qed.
Lemma array_lengths_ext d1 d2 ov : (forall k, dmem d1 k = dmem d2 k) -> array_lengths d1 ov = array_lengths d2 ov.
Proof. intros E. unfold array_lengths. apply flat_map_ext. intros [k [x|l]]; simpl; auto. rewrite E; reflexivity. Qed.

Definition agree (len : option nat) (ls : list nat) : Prop :=
  exists n, (forall m, len = Some m -> m = n) /\ (forall m, In m ls -> m = n).
Definition overridden (d : pdict) (ov : dict oval) (k : string) : option pyval :=
  match dget d k with
  | None => None
  | Some v => match dget ov k with Some (OScalar x) => Some (VNum x) | Some (OArray l) => Some (VArr l) | None => Some v end
  end.
Definition first_len (len : option nat) (ls : list nat) : option nat :=
  match len with Some n => Some n | None => hd_error ls end.

Lemma parse_pure_ok ov : forall d keys len, NoDup (dkeys ov) ->
  match parse_pure d ov keys len with
  | (d', Ok (ks, n)) => ks = (keys ++ array_keys_of d ov)%list /\ n = first_len len (array_lengths d ov) /\
                        agree len (array_lengths d ov) /\ (forall k, dget d' k = overridden d ov k)
  | (d', Err e) => e = ValueError "All array valued parameters must have the same length." /\ ~ agree len (array_lengths d ov)
  end.
Proof.
  induction ov as [|[key val] ov IH]; intros d keys len N; cbn [parse_pure].
  - cbn. rewrite app_nil_r. repeat split; auto.
    + destruct len; reflexivity.
    + destruct len as [n|]; [exists n | exists 0%nat]; split; intros m Hm; try contradiction; congruence.
    + intros k. unfold overridden; simpl. destruct (dget d k); reflexivity.
  - inversion N as [|? ? N1 N2]; subst.
    assert (NG : dget ov key = None) by (apply dget_none; exact N1).
    assert (OV : forall d2 v2, dget d key <> None -> (forall k, dget d2 k = overridden (dset d key v2) ov k) ->
              (match val with OScalar x => VNum x | OArray l => VArr l end) = v2 ->
              forall k, dget d2 k = overridden d ((key, val) :: ov) k).
    { intros d2 v2 HK G HV k. rewrite G. unfold overridden. rewrite dget_dset. cbn [dget].
      destruct (String.eqb k key) eqn:E; auto.
      apply String.eqb_eq in E; subst k. destruct (dget d key) eqn:E2; [|congruence].
      rewrite NG. rewrite <- HV. destruct val; reflexivity. }
    unfold dmem at 1. destruct (dget d key) as [v0|] eqn:EK; cbn [negb].
    + assert (DM : dmem d key = true) by (unfold dmem; rewrite EK; reflexivity).
      assert (ND : dget d key <> None) by congruence.
      destruct val as [x|l].
      * specialize (IH (dset d key (VNum x)) keys len N2).
        rewrite (array_keys_ext (dset d key (VNum x)) d) in IH by (intros; apply dmem_dset_in; auto).
        rewrite (array_lengths_ext (dset d key (VNum x)) d) in IH by (intros; apply dmem_dset_in; auto).
        unfold array_keys_of, array_lengths. cbn [flat_map snd fst app]. fold (array_keys_of d ov) (array_lengths d ov).
        destruct (parse_pure _ _ _ _) as [d2 [[ks n]|e]]; auto.
        destruct IH as (H1 & H2 & H3 & H4). repeat split; auto. eapply OV; eauto. intros Hc; congruence.
      * unfold array_keys_of, array_lengths. cbn [flat_map snd fst]. rewrite DM. cbn [app].
        fold (array_keys_of d ov) (array_lengths d ov).
        destruct (Nat.eqb_spec (length l) (match len with None => length l | Some n => n end)) as [EL|EL]; cbn [negb].
        -- specialize (IH (dset d key (VArr l)) (keys ++ [key])%list (Some (match len with None => length l | Some n => n end)) N2).
           rewrite (array_keys_ext (dset d key (VArr l)) d) in IH by (intros; apply dmem_dset_in; auto).
           rewrite (array_lengths_ext (dset d key (VArr l)) d) in IH by (intros; apply dmem_dset_in; auto).
           rewrite <- EL in *.
           destruct (parse_pure _ _ _ _) as [d2 [[ks n]|e]].
           ++ destruct IH as (H1 & H2 & (n0 & H3 & H3') & H4). repeat split; auto.
              ** rewrite H1, <- app_assoc. reflexivity.
              ** rewrite H2. destruct len as [m|]; simpl in *; congruence.
              ** exists n0. split.
                 --- intros m ->. rewrite <- EL. apply H3. reflexivity.
                 --- intros m [<-|Hm]; auto.
              ** eapply OV; eauto. intros Hc; congruence.
           ++ destruct IH as (H1 & H2). split; auto. intros (n0 & A1 & A2). apply H2.
              exists n0. split; [intros m Hm; injection Hm as <-; apply A2; left; reflexivity|].
              intros m Hm. apply A2. right; exact Hm.
        -- split; auto. intros (n0 & A1 & A2). apply EL. destruct len as [m|]; [|reflexivity].
           rewrite (A1 m eq_refl). apply A2. left; reflexivity.
    + assert (DM : dmem d key = false) by (unfold dmem; rewrite EK; reflexivity).
      specialize (IH d keys len N2).
      assert (EQ1 : array_keys_of d ((key, val) :: ov) = array_keys_of d ov)
        by (unfold array_keys_of; cbn [flat_map snd fst]; rewrite DM; destruct val; reflexivity).
      assert (EQ2 : array_lengths d ((key, val) :: ov) = array_lengths d ov)
        by (unfold array_lengths; cbn [flat_map snd fst]; rewrite DM; destruct val; reflexivity).
      rewrite EQ1, EQ2.
      destruct (parse_pure d ov keys len) as [d2 [[ks n]|e]]; auto.
      destruct IH as (H1 & H2 & H3 & H4). repeat split; auto.
      intros k. rewrite H4. unfold overridden. cbn [dget].
      destruct (String.eqb k key) eqn:E; auto.
      apply String.eqb_eq in E; subst k. rewrite EK. reflexivity.
Qed.

Lemma in_array_keys d ov k : NoDup (dkeys ov) -> (In k (array_keys_of d ov) <-> array_given d ov k).
Proof.
  intros N. unfold array_keys_of, array_given. rewrite in_flat_map. split.
  - intros [[k1 [x|l]] [HI HK]]; simpl in HK; [contradiction|].
    destruct (dmem d k1) eqn:E; [|contradiction]. destruct HK as [<-|[]]. split.
    + unfold dmem in E. apply dget_some_in. destruct (dget d k1); [eauto|discriminate].
    + exists l. apply in_dget; auto.
  - intros [HK [l HL]]. exists (k, OArray l). split; [apply dget_in; exact HL|]. simpl.
    apply dget_some_in in HK. destruct HK as [v HK]. unfold dmem. rewrite HK. left; reflexivity.
Qed.
Lemma in_array_lengths d ov n : NoDup (dkeys ov) ->
  (In n (array_lengths d ov) <-> exists k l, In k (dkeys d) /\ dget ov k = Some (OArray l) /\ length l = n).
Proof.
  intros N. unfold array_lengths. rewrite in_flat_map. split.
  - intros [[k1 [x|l]] [HI HK]]; simpl in HK; [contradiction|].
    destruct (dmem d k1) eqn:E; [|contradiction]. destruct HK as [<-|[]]. exists k1, l. repeat split.
    + unfold dmem in E. apply dget_some_in. destruct (dget d k1); [eauto|discriminate].
    + apply in_dget; auto.
  - intros (k & l & HK & HL & <-). exists (k, OArray l). split; [apply dget_in; exact HL|]. simpl.
    apply dget_some_in in HK. destruct HK as [v HK]. unfold dmem. rewrite HK. left; reflexivity.
Qed.

(* the dictionary used for row i *)
Definition rowd (d : pdict) (ov : dict oval) (i : nat) : pdict :=
  map (fun e => (fst e, match dget ov (fst e) with Some (OScalar x) => VNum x | Some (OArray l) => VNum (nth i l 0) | None => snd e end)) d.
Lemma dget_map_val {V W} (d : dict V) (f : string -> V -> W) k :
  dget (map (fun e => (fst e, f (fst e) (snd e))) d) k = match dget d k with Some v => Some (f k v) | None => None end.
Proof.
  induction d as [|[k1 v1] d IH]; simpl; auto.
  destruct (String.eqb k k1) eqn:E; auto. apply String.eqb_eq in E; subst; reflexivity.
Qed.
Lemma dget_rowd d ov i k : dget (rowd d ov i) k =
  match dget d k with
  | None => None
  | Some v => Some (match dget ov k with Some (OScalar x) => VNum x | Some (OArray l) => VNum (nth i l 0) | None => v end)
  end.
Proof.
  unfold rowd. exact (dget_map_val d (fun k v => match dget ov k with Some (OScalar x) => VNum x | Some (OArray l) => VNum (nth i l 0) | None => v end) k).
Qed.
Lemma dkeys_at_row i ov : dkeys (at_row i ov) = dkeys ov.
Proof. unfold dkeys, at_row. rewrite map_map. reflexivity. Qed.
Lemma dget_at_row i ov k : dget (at_row i ov) k =
  match dget ov k with Some (OArray l) => Some (OScalar (nth i l 0)) | o => o end.
Proof.
  unfold at_row. induction ov as [|[k1 [x|l]] ov IH]; simpl; auto; destruct (String.eqb k k1); auto.
Qed.
Lemma overridden_at_row d ov i k : overridden d (at_row i ov) k = dget (rowd d ov i) k.
Proof.
  rewrite dget_rowd. unfold overridden. rewrite dget_at_row.
  destruct (dget d k); auto. destruct (dget ov k) as [[x|l]|]; auto.
Qed.
Lemma array_keys_at_row d i ov : array_keys_of d (at_row i ov) = [].
Proof. unfold array_keys_of, at_row. induction ov as [|[k1 [x|l]] ov IH]; simpl; auto. Qed.
Lemma array_lengths_at_row d i ov : array_lengths d (at_row i ov) = [].
Proof. unfold array_lengths, at_row. induction ov as [|[k1 [x|l]] ov IH]; simpl; auto. Qed.

Lemma parsed_ok d ov : NoDup (dkeys ov) ->
  match parsed d ov with
  | Ok (d', ks, n) => ks = array_keys_of d ov /\ n = hd_error (array_lengths d ov) /\
                      agree None (array_lengths d ov) /\ (forall k, dget d' k = overridden d ov k) /\
                      d' = fst (parse_pure d ov [] None)
  | Err e => e = ValueError "All array valued parameters must have the same length." /\ ~ agree None (array_lengths d ov)
  end.
Proof.
  intros N. pose proof (parse_pure_ok ov d [] None N) as P. unfold parsed.
  destruct (parse_pure d ov [] None) as [d2 [[ks n]|e]]; auto.
  destruct P as (H1 & H2 & H3 & H4). auto.
Qed.
Lemma parsed_at_row d ov i : NoDup (dkeys ov) ->
  exists d', parsed d (at_row i ov) = Ok (d', [], None) /\ d' = fst (parse_pure d (at_row i ov) [] None) /\
             forall k, dget d' k = dget (rowd d ov i) k.
Proof.
  intros N. pose proof (parsed_ok d (at_row i ov)) as P. rewrite dkeys_at_row in P. specialize (P N).
  destruct (parsed d (at_row i ov)) as [[[d' ks] n]|e].
  - destruct P as (H1 & H2 & H3 & H4 & H5). rewrite array_keys_at_row in H1. rewrite array_lengths_at_row in H2.
    subst ks n. exists d'. repeat split; auto. intros k. rewrite H4. apply overridden_at_row.
  - destruct P as (_ & P). exfalso. apply P. rewrite array_lengths_at_row. exists 0%nat. split; intros m Hm; [discriminate|contradiction].
Qed.
