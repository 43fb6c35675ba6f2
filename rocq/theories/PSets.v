(* PSets.v -- lemmas about parameter sets *)
From Coq Require Import Permutation Lra.
From Verif Require Import Base MString MHeap MBicycle MVec MInertia MSets MModels PBase SBicycle PBicycle PBicycle2 SInertia PInertia PInertia3 PHeap SModels PModels.
Local Open Scope string_scope.
Local Open Scope R_scope.

(* ---------- construction ---------- *)
Lemma check_ok ks d : check_parameters ks d = Ok tt <-> complete ks d.
Proof.
  unfold complete. induction ks as [|k ks IH]; simpl.
  - split; auto. intros _ k [].
  - destruct (dget d k) as [[x|l|o]|] eqn:E.
    + rewrite IH. split; intros HX k0 Hk; [destruct Hk as [<-|Hk]; eauto | apply HX; auto].
    + split; [discriminate|]. intros HX. destruct (HX k (or_introl eq_refl)). congruence.
    + split; [discriminate|]. intros HX. destruct (HX k (or_introl eq_refl)). congruence.
    + split; [discriminate|]. intros HX. destruct (HX k (or_introl eq_refl)). congruence.
Qed.
Lemma check_err ks d e : check_parameters ks d = Err e <->
  exists pre k post msg, ks = (pre ++ k :: post)%list /\ complete pre d /\ offends d k msg /\ e = ValueError msg.
Proof.
  induction ks as [|k ks IH]; simpl.
  - split; [discriminate|]. intros (pre & k & post & msg & E & _). destruct pre; discriminate.
  - assert (HERE : forall v, dget d k = v -> (forall x, v <> Some (VNum x)) ->
       forall pre k0 post, k :: ks = (pre ++ k0 :: post)%list -> complete pre d -> pre = [] /\ k0 = k).
    { intros v EV NV [|q pre] k0 post E C; simpl in E.
      - injection E as <- _. auto.
      - injection E as <- _. destruct (C k (or_introl eq_refl)) as (x & HX). exfalso. apply (NV x). congruence. }
    destruct (dget d k) as [[x|l|o]|] eqn:E.
    + rewrite IH. split.
      * intros (pre & k0 & post & msg & -> & C & O & ->). exists (k :: pre), k0, post, msg. repeat split; auto.
        intros q [<-|Hq]; eauto.
      * intros (pre & k0 & post & msg & E2 & C & O & ->). destruct pre as [|q pre]; simpl in E2.
        -- injection E2 as <- <-. destruct O as [[O _]|(v & O & NV & _)]; [congruence|]. exfalso. apply (NV x). congruence.
        -- injection E2 as <- ->. exists pre, k0, post, msg. repeat split; auto. intros r Hr. apply C. right; exact Hr.
    + split.
      * intros H0; injection H0 as <-. exists [], k, ks, (show_value (VArr l) ++ " is not a valid value for parameter " ++ k).
        repeat split; auto. { intros q []. } right. exists (VArr l). repeat split; auto; discriminate.
      * intros (pre & k0 & post & msg & E2 & C & O & ->). destruct (HERE _ eq_refl ltac:(intros; discriminate) _ _ _ E2 C) as [-> ->].
        destruct O as [[O _]|(v & O & NV & ->)]; [congruence|]. rewrite E in O. injection O as <-. reflexivity.
    + split.
      * intros H0; injection H0 as <-. exists [], k, ks, (show_value (VObj o) ++ " is not a valid value for parameter " ++ k).
        repeat split; auto. { intros q []. } right. exists (VObj o). repeat split; auto; discriminate.
      * intros (pre & k0 & post & msg & E2 & C & O & ->). destruct (HERE _ eq_refl ltac:(intros; discriminate) _ _ _ E2 C) as [-> ->].
        destruct O as [[O _]|(v & O & NV & ->)]; [congruence|]. rewrite E in O. injection O as <-. reflexivity.
    + split.
      * intros H0; injection H0 as <-. exists [], k, ks, (k ++ " is missing from the provided parameter dictionary.").
        repeat split; auto. { intros q []. } left. auto.
      * intros (pre & k0 & post & msg & E2 & C & O & ->). destruct (HERE _ eq_refl ltac:(intros; discriminate) _ _ _ E2 C) as [-> ->].
        destruct O as [[_ ->]|(v & O & _)]; congruence.
Qed.
Lemma make_set_eq c r rider h d : nth_error h r = Some d ->
  make_set c r rider h = (h, match check_parameters (par_strings c) d with Ok _ => Ok (mkset c r rider) | Err e => Err e end).
Proof.
  intros E. unfold make_set, hbind, lift. rewrite (hload_eq _ _ _ E).
  destruct (check_parameters (par_strings c) d) as [[]|e]; reflexivity.
Qed.
Lemma make_set_ok c r rider h d : nth_error h r = Some d ->
  (make_set c r rider h = (h, Ok (mkset c r rider)) <-> complete (par_strings c) d).
Proof.
  intros E. rewrite (make_set_eq c r rider h d E), <- check_ok.
  destruct (check_parameters (par_strings c) d) as [[]|e]; split; intros HX; auto; try discriminate; congruence.
Qed.
Lemma make_set_err c r rider h d e : nth_error h r = Some d ->
  (make_set c r rider h = (h, Err e) <->
   exists pre k post msg, par_strings c = (pre ++ k :: post)%list /\ complete pre d /\ offends d k msg /\ e = ValueError msg).
Proof.
  intros E. rewrite (make_set_eq c r rider h d E), <- check_err.
  destruct (check_parameters (par_strings c) d) as [[]|e0]; split; intros HX; try discriminate; congruence.
Qed.

(* ---------- conversions ---------- *)
Lemma hiter_set_eq names x : forall h r d, nth_error h r = Some d ->
  hiter (fun g => hset r g x) names h = (upd h r (fold_left (fun m g => dset m g x) names d), Ok tt).
Proof.
  induction names as [|g names IH]; intros h r d E; cbn [hiter fold_left].
  - unfold hret. rewrite (upd_same _ _ _ E). reflexivity.
  - unfold hbind. rewrite (hset_eq _ _ _ _ _ E).
    assert (HL : (r < length h)%nat) by (apply nth_error_Some; congruence).
    rewrite (IH _ _ _ (nth_error_upd_eq h r (dset d g x) HL)), upd_upd. reflexivity.
Qed.
Lemma dget_fold_set names (x : pyval) : forall d k,
  dget (fold_left (fun m g => dset m g x) names d) k = if smem k names then Some x else dget d k.
Proof.
  induction names as [|g names IH]; intros d k; cbn [fold_left]; [reflexivity|].
  rewrite IH. unfold smem; cbn [existsb]. fold (smem k names). rewrite dget_dset.
  destruct (smem k names); [rewrite orb_true_r; reflexivity|]. rewrite orb_false_r. reflexivity.
Qed.

Definition with_gains (d : pdict) : pdict := fold_left (fun m g => dset m g (VNum 0)) gain_names d.

(* the heap and result of a conversion, without the heap *)
Definition conv_new (btm : pdict -> res pdict) (c : pclass) (d : pdict) (name : string) : res (pdict * pclass) :=
  match c with
  | CMeijaard2007 | CMeijaard2007WithFeedback =>
      if String.eqb name "Moore2012" then
        m <- btm d ;; v <- dlook d "v" ;; Ok (dset m "v" v, CMoore2012)
      else if String.eqb name "Meijaard2007WithFeedback" then Ok (with_gains d, CMeijaard2007WithFeedback)
      else Err (ValueError (name ++ " is not an avaialble parameter set"))
  | CMoore2019 =>
      if String.eqb name "Meijaard2007" then b <- convert_principal_to_benchmark (floats d) ;; Ok (nums b, CMeijaard2007)
      else if String.eqb name "Meijaard2007WithFeedback" then
        b <- convert_principal_to_benchmark (floats d) ;; Ok (nums b, CMeijaard2007WithFeedback)
      else Err (ValueError (name ++ " is not an available parameter set"))
  | CMoore2012 | CMooreRiderLean2012 => Err (ValueError (name ++ " is not an avaialble parameter set."))
  end.
Definition new_rider (s : pset) : option bool := match ps_class s with CMoore2019 => Some true | _ => ps_rider s end.
Definition conv_res (btm : pdict -> res pdict) (s : pset) (d : pdict) (name : string) (r : nat) : res pset :=
  dc <- conv_new btm (ps_class s) d name ;;
  _ <- check_parameters (par_strings (snd dc)) (fst dc) ;;
  Ok (mkset (snd dc) r (new_rider s)).

Lemma conv_eq btm s name h d : nth_error h (ps_ref s) = Some d -> name <> parameterization (ps_class s) ->
  exists h', preserved h h' /\ to_parameterization btm s name h = (h', conv_res btm s d name (length h)) /\
    forall dc, conv_new btm (ps_class s) d name = Ok dc -> h' = (h ++ [fst dc])%list.
Proof.
  intros E NE. unfold to_parameterization. apply String.eqb_neq in NE. rewrite NE.
  assert (MK : forall c rider m, make_set c (length h) rider (h ++ [m])%list =
     ((h ++ [m])%list, _ <- check_parameters (par_strings c) m ;; Ok (mkset c (length h) rider))).
  { intros c rider m. rewrite (make_set_eq c (length h) rider _ m (nth_error_app_last h [] m)).
    destruct (check_parameters (par_strings c) m); reflexivity. }
  unfold conv_res, new_rider.
  assert (BEN : (forall rider, exists h', preserved h h' /\
     (if String.eqb name "Moore2012" then
        d <-- hload (ps_ref s) ;;; m <-- lift (btm d) ;;; r <-- hnew m ;;; d' <-- hload (ps_ref s) ;;;
        v <-- lift (dlook d' "v") ;;; _ <-- hset r "v" v ;;; make_set CMoore2012 r rider
      else if String.eqb name "Meijaard2007WithFeedback" then
        r <-- hcopy (ps_ref s) ;;; _ <-- hiter (fun g => hset r g (VNum 0)) gain_names ;;;
        make_set CMeijaard2007WithFeedback r rider
      else lift (Err (ValueError (name ++ " is not an avaialble parameter set")))) h =
     (h', dc <- conv_new btm CMeijaard2007 d name ;; _ <- check_parameters (par_strings (snd dc)) (fst dc) ;; Ok (mkset (snd dc) (length h) rider)) /\
     forall dc, conv_new btm CMeijaard2007 d name = Ok dc -> h' = (h ++ [fst dc])%list)).
  { intros rider. unfold conv_new. destruct (String.eqb name "Moore2012").
    - unfold hbind, lift. rewrite (hload_eq _ _ _ E). destruct (btm d) as [m|e]; cbn [bind].
      + unfold hnew. rewrite (hload_eq _ _ _ (nth_error_app_l _ [m] _ _ E)).
        destruct (dlook d "v") as [v|e]; cbn [bind].
        * rewrite (hset_eq _ _ _ _ _ (nth_error_app_last h [] m)). rewrite upd_app_last. rewrite MK.
          eexists. split; [apply preserved_app|]. split; [reflexivity|]. intros dc HX; injection HX as <-. reflexivity.
        * eexists. split; [apply preserved_app|]. split; [reflexivity|]. discriminate.
      + exists h. split; [apply preserved_refl|]. split; [reflexivity|]. discriminate.
    - destruct (String.eqb name "Meijaard2007WithFeedback").
      + unfold hbind at 1. rewrite (hcopy_eq _ _ _ E). unfold hbind at 1.
        rewrite (hiter_set_eq _ _ _ _ _ (nth_error_app_last h [] d)). rewrite upd_app_last. rewrite MK.
        eexists. split; [apply preserved_app|]. split; [reflexivity|]. intros dc HX; injection HX as <-. reflexivity.
      + exists h. split; [apply preserved_refl|]. split; [reflexivity|]. discriminate. }
  assert (PRI : forall c, exists h', preserved h h' /\
      (d <-- hload (ps_ref s) ;;; b <-- lift (convert_principal_to_benchmark (floats d)) ;;; r <-- hnew (nums b) ;;; make_set c r (Some true)) h =
      (h', dc <- (b <- convert_principal_to_benchmark (floats d) ;; Ok (nums b, c)) ;;
           _ <- check_parameters (par_strings (snd dc)) (fst dc) ;; Ok (mkset (snd dc) (length h) (Some true))) /\
      forall dc, (b <- convert_principal_to_benchmark (floats d) ;; Ok (nums b, c)) = Ok dc -> h' = (h ++ [fst dc])%list).
  { intros c. unfold hbind, lift. rewrite (hload_eq _ _ _ E).
    destruct (convert_principal_to_benchmark (floats d)) as [b|e]; cbn [bind].
    - unfold hnew. rewrite MK. eexists. split; [apply preserved_app|]. split; [reflexivity|]. intros dc HX; injection HX as <-. reflexivity.
    - exists h. split; [apply preserved_refl|]. split; [reflexivity|]. discriminate. }
  destruct (ps_class s).
  - apply BEN.
  - apply BEN.
  - unfold conv_new. destruct (String.eqb name "Meijaard2007"); [apply PRI|].
    destruct (String.eqb name "Meijaard2007WithFeedback"); [apply PRI|].
    exists h. split; [apply preserved_refl|]. split; [reflexivity|]. discriminate.
  - exists h. split; [apply preserved_refl|]. split; [reflexivity|]. discriminate.
  - exists h. split; [apply preserved_refl|]. split; [reflexivity|]. discriminate.
Qed.

Lemma conv_own btm s h : to_parameterization btm s (parameterization (ps_class s)) h = (h, Ok s).
Proof. unfold to_parameterization. rewrite String.eqb_refl. reflexivity. Qed.

Lemma conv_preserves btm s name h d : nth_error h (ps_ref s) = Some d -> preserved h (fst (to_parameterization btm s name h)).
Proof.
  intros E. destruct (String.eqb_spec name (parameterization (ps_class s))) as [->|NE].
  - rewrite conv_own. apply preserved_refl.
  - destruct (conv_eq btm s name h d E NE) as (h' & P & -> & _). exact P.
Qed.
Lemma conv_new_class btm c d name dc : conv_new btm c d name = Ok dc -> parameterization (snd dc) = name.
Proof.
  unfold conv_new. intros E.
  destruct c; try discriminate.
  1,2: destruct (String.eqb_spec name "Moore2012") as [->|_];
    [apply bind_ok in E; destruct E as (m & _ & E); apply bind_ok in E; destruct E as (v & _ & E); injection E as <-; reflexivity|];
    destruct (String.eqb_spec name "Meijaard2007WithFeedback") as [->|_]; [injection E as <-; reflexivity | discriminate].
  destruct (String.eqb_spec name "Meijaard2007") as [->|_];
    [apply bind_ok in E; destruct E as (b & _ & E); injection E as <-; reflexivity|].
  destruct (String.eqb_spec name "Meijaard2007WithFeedback") as [->|_];
    [apply bind_ok in E; destruct E as (b & _ & E); injection E as <-; reflexivity | discriminate].
Qed.
Lemma conv_valid btm s name h h' s' d : nth_error h (ps_ref s) = Some d -> complete (par_strings (ps_class s)) d ->
  to_parameterization btm s name h = (h', Ok s') ->
  parameterization (ps_class s') = name /\
  exists d', nth_error h' (ps_ref s') = Some d' /\ complete (par_strings (ps_class s')) d'.
Proof.
  intros E C T. destruct (String.eqb_spec name (parameterization (ps_class s))) as [->|NE].
  - rewrite conv_own in T. injection T as <- <-. eauto.
  - destruct (conv_eq btm s name h d E NE) as (h1 & P & T1 & HX). rewrite T1 in T. injection T as <- T.
    unfold conv_res in T. apply bind_ok in T. destruct T as (dc & EN & T). apply bind_ok in T. destruct T as ([] & EC & T).
    injection T as <-. cbn [ps_class ps_ref]. split; [eapply conv_new_class; eauto|].
    rewrite (HX _ EN). exists (fst dc). split; [apply nth_error_app_last|]. apply check_ok. exact EC.
Qed.
Lemma conv_unsupported btm s name h d : nth_error h (ps_ref s) = Some d -> name <> parameterization (ps_class s) ->
  ~ In name (convertible (ps_class s)) ->
  exists msg, to_parameterization btm s name h = (h, Err (ValueError msg)) /\ starts_with name msg = true.
Proof.
  intros E NE NI. unfold to_parameterization. apply String.eqb_neq in NE. rewrite NE. apply String.eqb_neq in NE.
  assert (SW : forall a b, starts_with a (a ++ b) = true).
  { induction a as [|ch a IH]; intros b; simpl; [destruct b; reflexivity|]. rewrite IH. rewrite Ascii.eqb_refl. reflexivity. }
  assert (NN : forall n, In n (convertible (ps_class s)) -> String.eqb name n = false).
  { intros n Hn. apply String.eqb_neq. intros ->. contradiction. }
  destruct (ps_class s) eqn:EC; cbn [convertible] in NN.
  - rewrite !NN by (simpl; tauto). eexists; split; [reflexivity|apply SW].
  - rewrite (NN "Moore2012") by (simpl; tauto). change (parameterization CMeijaard2007WithFeedback) with "Meijaard2007WithFeedback" in NE.
    apply String.eqb_neq in NE. rewrite NE. eexists; split; [reflexivity|apply SW].
  - rewrite !NN by (simpl; tauto). eexists; split; [reflexivity|apply SW].
  - eexists; split; [reflexivity|apply SW].
  - eexists; split; [reflexivity|apply SW].
Qed.

Lemma complete_app a b d : complete a d -> complete b d -> complete (a ++ b) d.
Proof. intros A B k Hk. apply in_app_or in Hk. destruct Hk; auto. Qed.
Lemma feedback_complete d : complete (par_strings CMeijaard2007) d -> complete (par_strings CMeijaard2007WithFeedback) (with_gains d).
Proof.
  intros C k Hk. unfold with_gains. rewrite dget_fold_set. destruct (smem k gain_names) eqn:E; [eauto|].
  apply C. assert (NG : ~ In k gain_names) by (rewrite <- smem_spec; congruence).
  cbn [par_strings In] in Hk |- *. cbn [gain_names In] in NG. tauto.
Qed.
Lemma conv_feedback btm s h d : nth_error h (ps_ref s) = Some d -> ps_class s = CMeijaard2007 ->
  complete (par_strings CMeijaard2007) d ->
  exists d', to_parameterization btm s "Meijaard2007WithFeedback" h =
      ((h ++ [d'])%list, Ok (mkset CMeijaard2007WithFeedback (length h) (ps_rider s))) /\
    forall k, dget d' k = if smem k gain_names then Some (VNum 0) else dget d k.
Proof.
  intros E EC C. destruct (conv_eq btm s "Meijaard2007WithFeedback" h d E) as (h' & P & T & HX).
  { rewrite EC. discriminate. }
  exists (with_gains d). split.
  - rewrite T. unfold conv_res. rewrite EC in *. cbn [conv_new String.eqb] in *. rewrite (HX _ eq_refl). unfold new_rider. rewrite EC.
    assert (K : check_parameters (par_strings CMeijaard2007WithFeedback) (with_gains d) = Ok tt) by (apply check_ok, feedback_complete; exact C).
    cbn - [par_strings check_parameters with_gains]. rewrite K. reflexivity.
  - intros k. apply dget_fold_set.
Qed.
Lemma conv_to_moore2012 btm s h d : nth_error h (ps_ref s) = Some d ->
  ps_class s = CMeijaard2007 \/ ps_class s = CMeijaard2007WithFeedback ->
  forall h' s', to_parameterization btm s "Moore2012" h = (h', Ok s') ->
  exists m v, btm d = Ok m /\ dget d "v" = Some v /\ nth_error h' (ps_ref s') = Some (dset m "v" v) /\
    ps_class s' = CMoore2012 /\ ps_rider s' = ps_rider s /\ ps_ref s' = length h.
Proof.
  intros E EC h' s' T. destruct (conv_eq btm s "Moore2012" h d E) as (h1 & P & T1 & HX).
  { destruct EC as [-> | ->]; discriminate. }
  rewrite T1 in T. injection T as <- T. unfold conv_res in T. apply bind_ok in T. destruct T as (dc & EN & T).
  apply bind_ok in T. destruct T as ([] & ECK & T). injection T as <-. cbn [ps_class ps_ref ps_rider].
  rewrite (HX _ EN).
  assert (EN2 : (m <- btm d ;; v <- dlook d "v" ;; Ok (dset m "v" v, CMoore2012)) = Ok dc)
    by (destruct EC as [EC | EC]; rewrite EC in EN; exact EN).
  apply bind_ok in EN2. destruct EN2 as (m & EB & EN2). apply bind_ok in EN2. destruct EN2 as (v & EV & EN2). injection EN2 as <-.
  exists m, v. repeat split; auto.
  - unfold dlook in EV. destruct (dget d "v"); [congruence|discriminate].
  - cbn [fst]. apply nth_error_app_last.
  - unfold new_rider. destruct EC as [-> | ->]; reflexivity.
Qed.
Lemma dget_in_floats d k x : dget d k = Some (VNum x) -> dget (floats d) k = Some x.
Proof. intros E. rewrite dget_floats, E. reflexivity. Qed.
Lemma dlook_floats_complete ks d k : complete ks d -> In k ks -> In k (dkeys (floats d)).
Proof. intros C Hk. apply dget_some_in. destruct (C k Hk) as (x & E). exists x. apply dget_in_floats; exact E. Qed.

Lemma conv_principal btm s h d : nth_error h (ps_ref s) = Some d -> ps_class s = CMoore2019 ->
  complete (par_strings CMoore2019) d ->
  forall b, convert_principal_to_benchmark (floats d) = Ok b ->
  to_parameterization btm s "Meijaard2007" h = ((h ++ [nums b])%list, Ok (mkset CMeijaard2007 (length h) (Some true))).
Proof.
  intros E EC C b EB. destruct (conv_eq btm s "Meijaard2007" h d E) as (h' & P & T & HX).
  { rewrite EC. discriminate. }
  rewrite T. unfold conv_res. rewrite EC in *. 
  assert (EN : conv_new btm CMoore2019 d "Meijaard2007" = Ok (nums b, CMeijaard2007)).
  { cbn - [convert_principal_to_benchmark]. rewrite EB. reflexivity. }
  rewrite (HX _ EN), EN. cbn [bind fst snd].
  assert (K : check_parameters (par_strings CMeijaard2007) (nums b) = Ok tt).
  { apply check_ok. intros k Hk. apply convert_keys in EB.
    assert (KK : In k (dkeys b)) by (rewrite EB; clear - Hk; cbn [par_strings In] in Hk; unfold benchmark_keys; cbn [In]; tauto).
    apply dget_some_in in KK. destruct KK as (x & EX). exists x. rewrite dget_nums, EX. reflexivity. }
  rewrite K. cbn [bind]. unfold new_rider. rewrite EC. reflexivity.
Qed.
(* the conversion of a principal set to the feedback parameterization never succeeds *)
Lemma conv_principal_feedback_fails btm s h d : nth_error h (ps_ref s) = Some d -> ps_class s = CMoore2019 ->
  forall h' s', to_parameterization btm s "Meijaard2007WithFeedback" h <> (h', Ok s').
Proof.
  intros E EC h' s' T. destruct (conv_eq btm s "Meijaard2007WithFeedback" h d E) as (h1 & P & T1 & HX).
  { rewrite EC. discriminate. }
  rewrite T1 in T. injection T as _ T. unfold conv_res in T. apply bind_ok in T. destruct T as (dc & EN & T).
  apply bind_ok in T. destruct T as ([] & ECK & T). apply check_ok in ECK.
  rewrite EC in EN. cbn - [convert_principal_to_benchmark] in EN. apply bind_ok in EN. destruct EN as (b & EB & EN). injection EN as <-.
  cbn [fst snd] in ECK. destruct (ECK "kTdel_del") as (x & EX); [cbn [par_strings In]; tauto|].
  rewrite dget_nums in EX. destruct (dget b "kTdel_del") eqn:EG; [|discriminate].
  assert (KK : In "kTdel_del" (dkeys b)) by (apply dget_some_in; eauto).
  rewrite (convert_keys _ _ EB) in KK. unfold benchmark_keys in KK. cbn [In] in KK. intuition discriminate.
Qed.
Lemma conv_principal_needs_y btm s h d k : nth_error h (ps_ref s) = Some d -> ps_class s = CMoore2019 ->
  In k ["yD"; "yP"; "yH"] -> dget d k = None ->
  forall h' s', to_parameterization btm s "Meijaard2007" h <> (h', Ok s').
Proof.
  intros E EC HK HN h' s' T. destruct (conv_eq btm s "Meijaard2007" h d E) as (h1 & P & T1 & HX).
  { rewrite EC. discriminate. }
  rewrite T1 in T. injection T as _ T. unfold conv_res in T. apply bind_ok in T. destruct T as (dc & EN & T).
  rewrite EC in EN. cbn - [convert_principal_to_benchmark] in EN. apply bind_ok in EN. destruct EN as (b & EB & EN).
  apply convert_ok in EB. destruct EB as (EB & _). 
  assert (KK : In k (dkeys (floats d))).
  { apply EB. unfold principal_keys. cbn [In] in *. intuition (subst; tauto). }
  apply dget_some_in in KK. destruct KK as (x & KK). rewrite dget_floats, HN in KK. discriminate.
Qed.
