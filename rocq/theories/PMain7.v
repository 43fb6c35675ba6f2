(* PMain7.v -- the order of the orientations in the intermediate results (C47) *)
From Verif Require Import Base PBase MString MVec MBicycle MInertia MGeometry MPeriod MMain SBicycle SInertia SGeometry SMain
  PBicycle PInertia PInertia2 PInertia3 PString PGeometry PGeometry2 PGeometry3 PIo PPeriod PPeriod2 PPeriod3 PMain PMain2 PMain3 PMain4.
From Coq Require Import Lra Permutation Sorted.
Local Open Scope string_scope.
Local Open Scope R_scope.

Lemma Permutation_filter {A} (f : A -> bool) l l' : Permutation l l' -> Permutation (filter f l) (filter f l').
Proof.
  induction 1; cbn [filter].
  - constructor.
  - destruct (f x); [constructor; assumption | assumption].
  - destruct (f x), (f y); try apply Permutation_refl; constructor.
  - etransitivity; eassumption.
Qed.
Lemma filter_filter {A} (f g : A -> bool) l : filter f (filter g l) = filter (fun x => g x && f x) l.
Proof. induction l as [|x l IH]; [reflexivity|]. cbn [filter]. destruct (g x); cbn [filter andb]; [destruct (f x); rewrite IH; reflexivity | exact IH]. Qed.
Lemma is_part_starts X key : In X ["B"; "G"; "S"; "H"] -> starts_with "alpha" key && is_part X key = starts_with ("alpha" ++ X) key.
Proof.
  intros HX. destruct (starts_with "alpha" key) eqn:E; cbn [andb].
  - apply starts_with_iff in E. destruct E as [r ->]. unfold is_part. destruct r as [|c r].
    + cbn [In] in HX. repeat (destruct HX as [<-|HX]; [reflexivity|]). contradiction.
    + change (schar 5 ("alpha" ++ String c r)) with (Ok (String c "")).
      cbn [In] in HX. repeat (destruct HX as [<-|HX]; [cbn; destruct c as [[] [] [] [] [] [] [] []]; reflexivity|]). contradiction.
  - symmetry. apply Bool.not_true_is_false. intros K. apply starts_with_iff in K. destruct K as [r ->].
    assert (T : starts_with "alpha" (("alpha" ++ X) ++ r) = true).
    { apply starts_with_iff. exists (X ++ r)%string. cbn. reflexivity. }
    congruence.
Qed.
Lemma alpha_keys_sorted keys X : In X ["B"; "G"; "S"; "H"] ->
  filter (is_part X) (ssort (filter (starts_with "alpha") keys)) = filter (starts_with ("alpha" ++ X)) (ssort keys).
Proof.
  intros HX. apply sorted_unique; try (apply SSorted_filter, ssort_sorted).
  etransitivity; [apply Permutation_filter, ssort_perm|]. rewrite filter_filter.
  etransitivity; [|apply Permutation_filter; symmetry; apply ssort_perm].
  erewrite filter_ext; [apply Permutation_refl|]. intros key. apply is_part_starts, HX.
Qed.
Lemma in_plane_pend mp k sl : NoDup (dkeys sl) -> forall be par pend p, bm_in_plane mp k sl be par pend = Ok p ->
  (forall X s, dget sl X = Some s -> exists l, bm_part_inertias mp k X (length s) = Ok l /\ dget (snd p) X = Some l) /\
  (forall X, ~ In X (dkeys sl) -> dget (snd p) X = dget pend X).
Proof.
  induction sl as [|[part s] sl IH]; intros ND be par pend p H; cbn [bm_in_plane] in H.
  - injection H as <-. split; [intros X s H; discriminate | reflexivity].
  - cbn [dkeys map fst] in ND. inversion ND as [|? ? N1 N2]; subst. do 3 step_bind H. destruct (IH N2 _ _ _ _ H) as [A B]. split.
    + intros X t. cbn [dget]. destruct (String.eqb_spec X part) as [->|NE].
      * intros T. injection T as <-. exists x0. split; [assumption|]. rewrite B by exact N1. apply dget_dset_eq.
      * intros T. apply A. exact T.
    + intros X NX. cbn [dkeys map fst In] in NX. rewrite B by tauto. apply dget_dset_neq. apply String.eqb_neq. intros ->. apply NX. left. reflexivity.
Qed.
Lemma inertias_map mp k X n l : bm_part_inertias mp k X n = Ok l -> l = map (fun i => tor_inertia k (pv mp ("Tt" ++ X ++ nat_str i))) (seq 1 n).
Proof.
  unfold bm_part_inertias. intros H. rewrite <- seq_shift, map_map. revert l H. generalize (seq 0 n). intros is.
  induction is as [|i is IH]; intros l H; cbn [mapM] in H; [injection H as <-; reflexivity|].
  step_bind H. step_bind E. injection E as <-. step_bind H. injection H as <-. cbn [map]. f_equal; [|apply IH; assumption].
  apply pv_of_dlook in E0. rewrite Nat.add_1_r in E0. rewrite <- E0. reflexivity.
Qed.
Lemma extras_order newton mp par ex : calculate_benchmark_from_measured newton mp = Ok (par, ex) ->
  exists k lam, bm_stiffness mp = Ok k /\ dget par "lam" = Some lam /\
  forall X, In X (if is_fork_split mp then ["B"; "G"; "S"] else ["B"; "H"]) ->
    let keys := filter (starts_with ("alpha" ++ X)) (ssort (dkeys mp)) in
    dget (ex_betas ex) X = Some (map (fun key => lam - pv mp key * PI / 180) keys) /\
    dget (ex_pendulum ex) X = Some (map (fun i => tor_inertia k (pv mp ("Tt" ++ X ++ nat_str i))) (seq 1 (length keys))).
Proof.
  intros H. unfold calculate_benchmark_from_measured in H. cbv zeta in H. set (s := is_fork_split mp) in *.
  step_bind H. rename x into p0. apply geom_inv in E.
  destruct E as (rF & rR & lam & w & fo & ct & cm & _ & _ & _ & _ & _ & _ & _ & L0 & _ & _ & FR0 & _).
  step_bind H. rename x into p1. pose proof (masses_inv _ _ _ _ E) as (FR1 & _).
  step_bind H. destruct x as [[sl ic] be]. pose proof (lines_keys _ _ _ _ _ _ E0) as (KS & _).
  apply part_com_lines_ok in E0. cbv zeta in E0. destruct E0 as (l1 & l2 & es & _ & FE & _ & LN).
  step_bind H. rename x into p2. pose proof (centres_frame _ _ _ _ E0) as FR2.
  step_bind H. rename x into p3.
  assert (FR3 : forall key, ~ In key ["mH"; "xH"; "zH"] -> dget p3 key = dget p2 key).
  { unfold bm_split_centre in E1. destruct s; [|injection E1 as <-; reflexivity].
    do 6 step_bind E1. step_bind E1. destruct x5 as [mH [|cx [|cy [|cz [|? ?]]]]]; try discriminate. injection E1 as <-. frame. }
  step_bind H. rename x into p4. pose proof (wheels_yy_inv _ _ _ E2) as (g & mF & lF & TF & mR & lR & TR & A1 & A2 & A3 & A4 & A5 & A6 & A7 & FR4 & _).
  step_bind H. rename x into p5.
  assert (FR5 : forall key, ~ In key ["IByy"; "ISyy"; "IGyy"; "IHyy"] -> dget p5 key = dget p4 key).
  { destruct s.
    - apply frames_yy_split in E3. destruct E3 as (? & ? & ? & ? & ? & ? & ? & ? & ? & ? & ? & ? & ? & ? & ? & ? & ? & ? & ? & ? & ?
      & _ & _ & _ & _ & _ & _ & _ & _ & _ & _ & _ & _ & _ & _ & _ & _ & _ & _ & _ & F & _). intros key K. apply F. cbn [In] in *. tauto.
    - apply frames_yy_whole in E3. destruct E3 as (? & ? & ? & ? & ? & ? & ? & ? & ? & ? & ? & ? & _ & _ & _ & _ & _ & _ & _ & _ & _ & _ & _ & _ & F & _).
      intros key K. apply F. cbn [In] in *. tauto. }
  step_bind H. rename x into k. step_bind H. rename x into p6. pose proof (wheels_xx_inv _ _ _ _ E5) as (TtF & TtR & _ & _ & FR6 & _).
  step_bind H. destruct x as [p7 pend]. pose proof (in_plane_frame _ _ _ _ _ _ _ E6) as FR7. cbn [fst] in FR7.
  step_bind H. rename x into p8. injection H as <- <-.
  assert (FR8 : forall key, ~ In key ["mH"; "xH"; "zH"; "IHxx"; "IHxz"; "IHyy"; "IHzz"] -> dget p8 key = dget p7 key).
  { unfold bm_split_inertia in E7. destruct s; [|injection E7 as <-; reflexivity].
    do 8 step_bind E7. step_bind E7. destruct x7 as [mH [|cx [|cy [|cz [|? ?]]]]]; try discriminate. injection E7 as <-. frame. }
  assert (PK : forall part, In part (dkeys sl) -> In part ["B"; "G"; "S"; "H"]) by (rewrite KS; destruct s; cbn [In]; tauto).
  assert (L1 : dget p1 "lam" = Some lam) by (rewrite FR1 by notin; exact L0).
  exists k, lam. split; [assumption|]. split.
  { rewrite FR8 by notin. rewrite FR7.
    2: { intros part HP. apply PK in HP. cbn [In] in HP. repeat (destruct HP as [<-|HP]; [repeat split; discriminate|]). contradiction. }
    rewrite FR6, FR5, FR4, FR3 by notin. rewrite FR2; [exact L1|].
    intros part HP. apply PK in HP. cbn [In] in HP. repeat (destruct HP as [<-|HP]; [repeat split; discriminate|]). contradiction. }
  intros X HX. cbv zeta. cbn [ex_betas ex_pendulum].
  assert (HX4 : In X ["B"; "G"; "S"; "H"]) by (destruct s; cbn [In] in *; tauto).
  rewrite <- (alpha_keys_sorted _ _ HX4). set (keys := filter (is_part X) _).
  destruct (LN X HX) as (LS & _ & LB).
  assert (FX : Forall2 (com_entry mp p1 l1 l2) keys (filter (fun e => String.eqb X (fst e)) es)).
  { apply Forall2_filter; [|exact FE]. intros key e (al & a & _ & _ & C & _). unfold is_part. rewrite C. reflexivity. }
  assert (LEN : length (map (fun t : R * R * R => fst (fst t)) (of_part X es)) = length keys).
  { unfold of_part. rewrite !map_length. symmetry. eapply Forall2_len. exact FX. }
  split.
  - rewrite LB. f_equal. unfold of_part. rewrite map_map. clear LEN.
    set (fe := filter (fun e => String.eqb X (fst e)) es) in *. clearbody fe keys. 
    induction FX as [|key e keys fe (al & a & C1 & C2 & C3 & C4) FX IH]; [reflexivity|]. cbn [map]. f_equal; [|exact IH].
    destruct (snd e) as [[m b] beta]. apply com_line_spec in C4. destruct C4 as (_ & C4 & _). cbn [snd]. rewrite C4. apply pv_of_dlook in C1. rewrite C1.
    rewrite (pv_get _ _ _ L1). reflexivity.
  - destruct (in_plane_pend mp k sl) with (be := be) (par := p6) (pend := @nil (string * list R)) (p := (p7, pend)) as [IP _]; [| exact E6 |].
    + rewrite KS. destruct s; repeat constructor; cbn [In]; intuition discriminate.
    + destruct (IP X _ LS) as (l & Hl & HG). cbn [snd] in HG. rewrite HG. rewrite LEN in Hl. apply inertias_map in Hl. rewrite Hl. reflexivity.
Qed.
