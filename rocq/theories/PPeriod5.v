(* PPeriod5.v -- lemmas for C67 (files, guess, fit) *)
From Verif Require Import Base MString MIo SIo MPeriod SPeriod MPeriod2 SPeriod2 PBase PString PIo PIo3 PPeriod PPeriod2 PPeriod3 PPeriod4.
From Coq Require Import ZArith Lra Sorted.
Local Open Scope string_scope.
Local Open Scope R_scope.

(* ---- files ---- *)
Lemma ddel_subset {V} (d : dict V) k q : In q (dkeys (ddel d k)) -> In q (dkeys d).
Proof. induction d as [|[a v] d IH]; [tauto|]. cbn. destruct (String.eqb_spec k a) as [->|N]; cbn; tauto. Qed.
Lemma ddel_nodup {V} (d : dict V) k : NoDup (dkeys d) -> NoDup (dkeys (ddel d k)).
Proof.
  induction d as [|[a v] d IH]; intros N; [constructor|]. inversion N as [|? ? N1 N2]; subst. cbn. destruct (String.eqb_spec k a); [exact N2|]. cbn. constructor; [|apply IH, N2].
  intros H. apply N1. eapply ddel_subset, H.
Qed.
Lemma dget_ddel {V} (d : dict V) k q : NoDup (dkeys d) -> dget (ddel d k) q = if String.eqb q k then None else dget d q.
Proof.
  intros N. destruct (String.eqb q k) eqn:E; [|apply dget_ddel_neq, E]. apply String.eqb_eq in E. subst q. apply dget_none.
  induction d as [|[a v] d IH]; [intros []|]. inversion N as [|? ? N1 N2]; subst. cbn. destruct (String.eqb_spec k a) as [E|K]; [subst; exact N1|]. intros [H|H]; [cbn in H; congruence|]. exact (IH N2 H).
Qed.
Lemma ddel_key_ok {V} (d out : dict V) k : ddel_key d k = Ok out <-> dmem d k = true /\ out = ddel d k.
Proof. unfold ddel_key, dmem. destruct (dget d k); split; intros H; try discriminate; try (destruct H; congruence). injection H as <-. auto. Qed.
Lemma dset_nodup_keys {V} (d : dict V) k v : NoDup (dkeys d) -> NoDup (dkeys (dset d k v)).
Proof.
  induction d as [|[a w] d IH]; intros N; [cbn; constructor; [intros []|constructor]|]. inversion N as [|? ? N1 N2]; subst. cbn. destruct (String.eqb_spec k a) as [->|K]; [exact N|].
  cbn. constructor; [|apply IH, N2]. intros H. apply N1. clear - H K. induction d as [|[b x] d IH]; cbn in *; [destruct H; [congruence|tauto]|]. destruct (String.eqb_spec k b) as [->|Q]; cbn in *; [exact H|]. destruct H; [tauto|right; auto].
Qed.
Definition shaped (v : matv) : Prop := match v with MvText _ | MvArr _ | MvGrid => True | _ => False end.
Lemma dmem_ddel {V} (d : dict V) k q : NoDup (dkeys d) -> dmem (ddel d k) q = negb (String.eqb q k) && dmem d q.
Proof. intros N. unfold dmem. rewrite dget_ddel by exact N. destruct (String.eqb q k); reflexivity. Qed.
Lemma clean_mat_ok raw : NoDup (dkeys raw) ->
  (exists out, clean_mat raw = Ok out) <-> (forall k, In k housekeeping -> dmem raw k = true) /\ exists v, dget raw "notes" = Some v /\ shaped v.
Proof.
  intros N. pose proof (ddel_nodup raw "__globals__" N) as N1. pose proof (ddel_nodup _ "__header__" N1) as N2. pose proof (ddel_nodup _ "__version__" N2) as N3.
  unfold clean_mat, ddel_key.
  destruct (dget raw "__globals__") as [g|] eqn:G; cbn [bind].
  2: { split; [intros [o H]; discriminate|]. intros [H _]. specialize (H "__globals__" (or_introl eq_refl)). unfold dmem in H. rewrite G in H. discriminate. }
  rewrite dget_ddel by exact N. cbn [String.eqb Ascii.eqb Bool.eqb].
  destruct (dget raw "__header__") as [h|] eqn:H; cbn [bind].
  2: { split; [intros [o K]; discriminate|]. intros [K _]. specialize (K "__header__" (or_intror (or_introl eq_refl))). unfold dmem in K. rewrite H in K. discriminate. }
  rewrite !dget_ddel by assumption. cbn [String.eqb Ascii.eqb Bool.eqb].
  destruct (dget raw "__version__") as [v|] eqn:V; cbn [bind].
  2: { split; [intros [o K]; discriminate|]. intros [K _]. specialize (K "__version__" (or_intror (or_intror (or_introl eq_refl)))). unfold dmem in K. rewrite V in K. discriminate. }
  unfold dlook. rewrite !dget_ddel by assumption. cbn [String.eqb Ascii.eqb Bool.eqb].
  destruct (dget raw "notes") as [n|] eqn:M; cbn [bind].
  2: { split; [intros [o K]; discriminate|]. intros [_ [x [K _]]]. discriminate. }
  assert (HK : forall k, In k housekeeping -> dmem raw k = true) by (intros k [<-|[<-|[<-|[]]]]; unfold dmem; rewrite ?G, ?H, ?V; reflexivity).
  assert (EX : forall m : res (dict matv), (exists p, m = Ok p) -> exists out, (p <- m ;; Ok (if dmem p "time" then ddel (ddel p "sampleRate") "duration" else p)) = Ok out) by (intros m [p ->]; eexists; reflexivity).
  split.
  - intros [o K]. split; [exact HK|]. exists n. split; [reflexivity|]. destruct n; cbn in K; try discriminate; exact I.
  - intros [_ [w [Ew S]]]. injection Ew as <-. apply EX. destruct n as [| | |[|]| |]; try destruct S; eexists; reflexivity.
Qed.
Lemma clean_mat_get raw out : NoDup (dkeys raw) -> clean_mat raw = Ok out -> NoDup (dkeys out) /\ forall k, dget out k = kept_entry raw k.
Proof.
  intros N. pose proof (ddel_nodup raw "__globals__" N) as N1. pose proof (ddel_nodup _ "__header__" N1) as N2. pose proof (ddel_nodup _ "__version__" N2) as N3. unfold clean_mat. intros H.
  apply bind_ok in H as [p1 [H1 H]]. apply ddel_key_ok in H1 as [_ ->].
  apply bind_ok in H as [p2 [H1 H]]. apply ddel_key_ok in H1 as [_ ->].
  apply bind_ok in H as [p3 [H1 H]]. apply ddel_key_ok in H1 as [_ ->].
  apply bind_ok in H as [n [H1 H]]. unfold dlook in H1. set (p3 := ddel (ddel (ddel raw "__globals__") "__header__") "__version__") in *.
  assert (G3 : forall k, dget p3 k = if smem k housekeeping then None else dget raw k).
  { intros k. unfold p3. rewrite !dget_ddel by assumption. unfold housekeeping, smem. cbn [existsb].
    destruct (String.eqb_spec k "__globals__"), (String.eqb_spec k "__header__"), (String.eqb_spec k "__version__"); subst; reflexivity. }
  clearbody p3. destruct (dget p3 "notes") as [n'|] eqn:En; [|discriminate]. injection H1 as ->. rewrite G3 in En. change (smem "notes" housekeeping) with false in En. cbv iota in En.
  apply bind_ok in H as [p4 [H4 H]]. injection H as <-.
  assert (G4 : NoDup (dkeys p4) /\ forall k, dget p4 k = if smem k housekeeping then None else match dget raw k with Some (MvArr []) => if String.eqb k "notes" then Some (MvText "") else Some (MvArr []) | v => v end).
  { assert (SAME : n <> MvArr [] -> forall k, dget p3 k = if smem k housekeeping then None else match dget raw k with Some (MvArr []) => if String.eqb k "notes" then Some (MvText "") else Some (MvArr []) | v => v end).
    { intros NE k. rewrite G3. destruct (smem k housekeeping); [reflexivity|]. destruct (String.eqb_spec k "notes") as [->|K]; [rewrite En; destruct n as [| | |[|]| |]; try reflexivity; congruence|]. destruct (dget raw k) as [[| | |[|]| |]|]; reflexivity. }
    destruct n as [| | |[|x l]| |]; try discriminate; injection H4 as <-; try (split; [exact N3|apply SAME; discriminate]).
    split; [apply dset_nodup_keys, N3|]. intros k. rewrite dget_dset. destruct (String.eqb_spec k "notes") as [->|K]; [rewrite En; reflexivity|]. rewrite G3. destruct (smem k housekeeping); [reflexivity|]. destruct (dget raw k) as [[| | |[|]| |]|]; reflexivity. }
  destruct G4 as [N4 G4].
  assert (TM : dmem p4 "time" = dmem raw "time").
  { unfold dmem. rewrite G4. change (smem "time" housekeeping) with false. cbv iota. change (String.eqb "time" "notes") with false. cbv iota. destruct (dget raw "time") as [[| | |[|]| |]|]; reflexivity. }
  rewrite TM. unfold kept_entry. destruct (dmem raw "time").
  - pose proof (ddel_nodup _ "sampleRate" N4) as N5. split; [apply ddel_nodup, N5|]. intros k. rewrite !dget_ddel by assumption. rewrite G4, andb_true_r.
    destruct (String.eqb_spec k "duration") as [->|K1]; [reflexivity|]. destruct (String.eqb_spec k "sampleRate") as [->|K2]; reflexivity.
  - split; [exact N4|]. intros k. rewrite G4, andb_false_r. reflexivity.
Qed.
Lemma texts_get c k s : NoDup (dkeys c) -> dget (texts c) k = Some s <-> dget c k = Some (MvText s).
Proof.
  induction c as [|[a v] c IH]; intros N; [cbn; split; discriminate|]. inversion N as [|? ? N1 N2]; subst. specialize (IH N2). cbn [texts flat_map snd fst dget]. fold (texts c).
  assert (NI : dget (texts c) a = None).
  { destruct (dget (texts c) a) as [t|] eqn:E; [|reflexivity]. exfalso. apply N1. apply dget_in in E. unfold texts in E. apply in_flat_map in E as [[b w] [I1 I2]]. cbn in I2. destruct w; try destruct I2; try contradiction. injection H as -> ->. apply (in_map fst) in I1. exact I1. }
  destruct v; cbn [app dget]; destruct (String.eqb_spec k a) as [->|K]; try exact IH; rewrite ?NI; split; intros H; congruence.
Qed.

(* ---- sorted lists of the same numbers ---- *)
Lemma sorted_same (l m : list nat) : StronglySorted lt l -> StronglySorted lt m -> (forall x, In x l <-> In x m) -> l = m.
Proof.
  intros S. revert m. induction S as [|x l S IH F]; intros m T E.
  - destruct m as [|y m]; [reflexivity|]. exfalso. apply (proj2 (E y)). left. reflexivity.
  - destruct T as [|y m T G]; [exfalso; apply (proj1 (E x)); left; reflexivity|]. rewrite Forall_forall in F, G.
    assert (x = y).
    { destruct (proj1 (E x) (or_introl eq_refl)) as [->|A]; [reflexivity|]. destruct (proj2 (E y) (or_introl eq_refl)) as [->|B]; [reflexivity|]. specialize (F y B). specialize (G x A). lia. }
    subst y. f_equal. apply IH; [exact T|]. intros v. split; intros H.
    + destruct (proj1 (E v) (or_intror H)) as [<-|K]; [|exact K]. specialize (F x H). lia.
    + destruct (proj2 (E v) (or_intror H)) as [<-|K]; [|exact K]. specialize (G x H). lia.
Qed.
Lemma crossings_unique h dev a b : all_crossings h dev a -> all_crossings h dev b -> a = b.
Proof. intros [S A] [T B]. apply sorted_same; try assumption. intros x. rewrite A, B. tauto. Qed.
Lemma spaced_unique zc a b : spaced zc a -> spaced zc b -> a = b.
Proof. intros [S A] [T B]. apply sorted_same; try assumption. intros x. rewrite A, B. tauto. Qed.
Lemma largest_unique l a b : largest l a -> largest l b -> a = b.
Proof. intros [A A'] [B B']. specialize (A' b B). specialize (B' a A). lra. Qed.

Lemma hd_error_hd {A} (l : list A) d a : hd_error l = Some a -> hd d l = a.
Proof. destruct l; [discriminate|]. cbn. congruence. Qed.
Lemma gaps_nil l : gaps l = [] <-> (length l < 2)%nat.
Proof. destruct l as [|a [|b l]]; cbn; split; intros H; try reflexivity; try lia; discriminate. Qed.
Lemma sorted_first_last (l : list nat) : StronglySorted lt l -> (2 <= length l)%nat -> (hd 0 l < last l 0)%nat.
Proof.
  intros S L. destruct S as [|x l S F]; [cbn in L; lia|]. destruct l as [|y l]; [cbn in L; lia|]. cbn [hd]. change (last (x :: y :: l) 0%nat) with (last (y :: l) 0%nat).
  rewrite Forall_forall in F. apply F. clear. revert y. induction l as [|z l IH]; intros y; [left; reflexivity|]. right. apply IH.
Qed.
Definition the_freq (rate : R) (zs : list nat) : R :=
  match gaps zs with [] => 4 | ds => if Req_EM_T rate 0 then 0 else / (2 * mean ds / rate / 2 / PI) end.
Lemma freq_spec rate zs : StronglySorted lt zs -> guessed_frequency rate zs (the_freq rate zs).
Proof.
  intros S. unfold the_freq. destruct (gaps zs) as [|d ds] eqn:E; [apply gf_few, gaps_nil, E|].
  assert (L : (2 <= length zs)%nat). { destruct (Nat.le_gt_cases 2 (length zs)) as [L|L]; [exact L|]. apply gaps_nil in L. congruence. }
  destruct (Req_EM_T rate 0) as [Z|Z]; [apply gf_rate; assumption|]. rewrite <- E, gaps_mean by exact L.
  assert (NE : zs <> []) by (destruct zs; [cbn in L; lia|discriminate]).
  pose proof (sorted_first_last zs S L) as LT. apply lt_INR in LT. pose proof (INR_gt1 _ L) as P. pose proof PI_RGT_0.
  replace (/ (2 * ((INR (last zs 0%nat) - INR (hd 0%nat zs)) / (INR (length zs) - 1)) / rate / 2 / PI)) with (PI * rate * (INR (length zs) - 1) / (INR (last zs 0%nat) - INR (hd 0%nat zs))).
  - apply gf_many; try assumption; [destruct zs; [congruence|reflexivity]|apply last_nth_error, NE].
  - field. repeat split; try lra. 
Qed.
Lemma freq_unique rate zs a b : guessed_frequency rate zs a -> guessed_frequency rate zs b -> a = b.
Proof. intros A B. destruct A, B; try lia; try reflexivity; try congruence. Qed.
Lemma start_sign_ok dev d10 : nth_error dev 10 = Some d10 -> start_sign dev (if Rltb (nth 0 dev 0) d10 then 1 else -1).
Proof.
  intros H. destruct dev as [|x dev]; [discriminate|]. exists x, d10. split; [reflexivity|]. split; [exact H|]. cbn [nth]. destruct (Rltb x d10) eqn:E; [left; split; [apply Rltb_t, E|reflexivity]|right; split; [apply Rltb_f, E|reflexivity]].
Qed.
Lemma start_sign_unique dev a b : start_sign dev a -> start_sign dev b -> a = b.
Proof. intros [x [y [A [B C]]]] [x' [y' [A' [B' C']]]]. assert (x' = x) by congruence. assert (y' = y) by congruence. subst. destruct C as [[C ->]|[C ->]], C' as [[C' ->]|[C' ->]]; try reflexivity; lra. Qed.
Lemma argmax_largest l i v : argmax l = Ok (i, v) -> largest l v.
Proof.
  intros H. apply argmax_spec in H as [N [w [W F]]]. split; [eapply nth_error_In, N|]. intros x Hx. apply In_nth_error in Hx as [j Hj]. destruct (F j x Hj) as [A _]. assert (w = v) by congruence. lra.
Qed.
Lemma make_guess_iff h data rate p : make_guess h data rate = Ok p <-> first_guess h data rate p.
Proof.
  unfold make_guess. rewrite deviations_eq. change (mean data) with (average data). set (dev := deviations data). set (zc := masked_crossings h 0 dev).
  pose proof (masked_all h dev) as ZC. fold zc in ZC. pose proof (distant_spaced zc (proj1 ZC)) as ZS. set (zs := distant zc) in *.
  change (match gaps zs with [] => 4 | _ :: _ => if Req_EM_T rate 0 then 0 else / (2 * mean (gaps zs) / rate / 2 / PI) end) with (the_freq rate zs).
  assert (FR := freq_spec rate zs (proj1 ZS)).
  assert (DF : (match gaps zs with [] => 4 | (_ :: _) as ds => if Req_EM_T rate 0 then 0 else / (2 * mean ds / rate / 2 / PI) end) = the_freq rate zs) by reflexivity.
  split.
  - intros H. apply bind_ok in H as [d10 [H1 H]]. destruct (nth_error dev 10) as [x|] eqn:E; [|discriminate]. injection H1 as ->. apply bind_ok in H as [[i m] [H1 H]]. apply argmax_largest in H1.
    cbv zeta in H. injection H as <-. exists zc, zs, m, (if Rltb (nth 0 dev 0) d10 then 1 else -1), (the_freq rate zs). repeat (split; [first [assumption|apply start_sign_ok, E]|]). reflexivity.
  - intros [zc' [zs' [m [s [w [A [B [C [D [F ->]]]]]]]]]]. assert (zc' = zc) by (eapply crossings_unique; eassumption). subst zc'. assert (zs' = zs) by (eapply spaced_unique; eassumption). subst zs'.
    assert (w = the_freq rate zs) by (eapply freq_unique; eassumption). subst w. destruct D as [a [b [D1 [D2 D3]]]].
    fold dev in D1, D2, C. rewrite D2. cbn [bind]. assert (NE : dev <> []) by (destruct dev; [discriminate|discriminate]).
    destruct (argmax_ok dev NE) as [[i m'] M]. rewrite M. cbn [bind]. apply argmax_largest in M. assert (m' = m) by (eapply largest_unique; eassumption). subst m'. cbv zeta. fold zs.
    assert (SG : s = if Rltb (nth 0 dev 0) b then 1 else -1) by (eapply start_sign_unique; [exists a, b; repeat split; eassumption|apply start_sign_ok, D2]).
    rewrite <- SG. reflexivity.
Qed.
Lemma make_guess_short h data rate : (length data < 11)%nat <-> make_guess h data rate = Err IndexError.
Proof.
  split.
  - intros L. unfold make_guess. assert (E : nth_error (map (fun x => x - mean data) data) 10 = None) by (apply nth_error_None; rewrite map_length; lia). rewrite E. reflexivity.
  - intros H. destruct (Nat.lt_ge_cases (length data) 11) as [L|L]; [exact L|]. exfalso. unfold make_guess in H. rewrite deviations_eq in H.
    destruct (nth_error (deviations data) 10) as [x|] eqn:E; [|apply nth_error_None in E; unfold deviations in E; rewrite map_length in E; lia].
    cbn [bind] in H. destruct (argmax_ok (deviations data)) as [[i m] M]; [destruct (deviations data); discriminate|]. rewrite M in H. discriminate.
Qed.
Lemma spaced_gap zc zs : StronglySorted lt zc -> spaced zc zs -> forall i a b, nth_error zs i = Some a -> nth_error zs (S i) = Some b -> (a + 21 <= b)%nat.
Proof.
  intros Sz [T E] i a b A B. assert (LT : (a < b)%nat).
  { clear - T A B. revert i A B. induction T as [|x l T IH F]; intros i A B; [destruct i; discriminate|]. destruct i as [|i]; [|exact (IH i A B)]. cbn in A. injection A as <-. rewrite Forall_forall in F. apply F. exact (nth_error_In l 0 B). }
  assert (IA : In a zc). { apply nth_error_In in A. apply E in A as [j [A _]]. eapply nth_error_In, A. }
  apply nth_error_In in B. apply E in B as [j [J D]]. 
  assert (MON : forall p q u v, nth_error zc p = Some u -> nth_error zc q = Some v -> (u <= v <-> p <= q)%nat).
  { clear - Sz. assert (M1 : forall l, StronglySorted lt l -> forall p q u v, nth_error l p = Some u -> nth_error l q = Some v -> (p < q)%nat -> (u < v)%nat).
    { induction 1 as [|x l S' IH F]; intros p q u v P Q L; [destruct p; discriminate|]. destruct q as [|q]; [lia|]. destruct p as [|p]; [cbn in P; injection P as <-; rewrite Forall_forall in F; apply F; eapply nth_error_In, Q|]. apply (IH p q); try assumption. lia. }
    intros p q u v P Q. destruct (Nat.lt_trichotomy p q) as [L|[->|L]]; [pose proof (M1 zc Sz _ _ _ _ P Q L); lia|assert (u = v) by congruence; lia|pose proof (M1 zc Sz _ _ _ _ Q P L); lia]. }
  apply In_nth_error in IA as [q Q]. assert (QJ : (q < j)%nat). { destruct (Nat.lt_ge_cases q j) as [L|L]; [exact L|]. apply (MON _ _ _ _ J Q) in L. lia. }
  destruct j as [|j]; [lia|]. cbn [previous] in D. assert (Lj : (j < length zc)%nat) by (assert (S j < length zc)%nat by (apply nth_error_Some; congruence); lia).
  pose proof (nth_error_nth' zc 0%nat Lj) as Nj. assert (a <= nth j zc 0)%nat by (apply (MON _ _ _ _ Q Nj); lia).
  assert (nth j zc 0 <= b)%nat by (apply (MON _ _ _ _ Nj J); lia). lia.
Qed.
Lemma spaced_extent zs : (forall i a b, nth_error zs i = Some a -> nth_error zs (S i) = Some b -> (a + 21 <= b)%nat) ->
  forall a b, hd_error zs = Some a -> nth_error zs (length zs - 1) = Some b -> (a + 21 * (length zs - 1) <= b)%nat.
Proof.
  induction zs as [|x zs IH]; intros G a b A B; [discriminate|]. cbn in A. injection A as <-. destruct zs as [|y zs]; [cbn in B; injection B as <-; cbn; lia|].
  assert (G' : forall i a b, nth_error (y :: zs) i = Some a -> nth_error (y :: zs) (S i) = Some b -> (a + 21 <= b)%nat) by (intros i u v U V; exact (G (S i) u v U V)).
  assert (B' : nth_error (y :: zs) (length (y :: zs) - 1) = Some b). { rewrite <- B. cbn [length]. replace (S (S (length zs)) - 1)%nat with (S (S (length zs) - 1)) by lia. reflexivity. }
  specialize (IH G' y b eq_refl B'). pose proof (G 0%nat x y eq_refl eq_refl). cbn [length] in *. lia.
Qed.
