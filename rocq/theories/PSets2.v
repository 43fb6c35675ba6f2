(* PSets2.v -- mass centres and inertia tensors of parameter sets *)
From Coq Require Import Permutation Lra.
From Verif Require Import Base MString MHeap MBicycle MVec MInertia MSets MModels PBase SBicycle PBicycle PBicycle2 SInertia PInertia PInertia3 PHeap SModels PModels PSets.
Local Open Scope string_scope.
Local Open Scope R_scope.

Lemma dget_dupdate {V} (q p : dict V) k : NoDup (dkeys q) ->
  dget (dupdate p q) k = match dget q k with Some v => Some v | None => dget p k end.
Proof.
  unfold dupdate. revert p. induction q as [|[k1 v1] q IH]; intros p N; cbn [fold_left dget]; auto.
  inversion N as [|? ? N1 N2]; subst. rewrite (IH _ N2). cbn [fst snd]. rewrite dget_dset.
  destruct (String.eqb k k1) eqn:E; auto. apply String.eqb_eq in E; subst.
  apply dget_none in N1. rewrite N1. reflexivity.
Qed.
Lemma dlook_dupdate {V} (q p : dict V) k : NoDup (dkeys q) ->
  dlook (dupdate p q) k = match dget q k with Some v => Ok v | None => dlook p k end.
Proof. intros N. unfold dlook. rewrite (dget_dupdate q p k N). destruct (dget q k); reflexivity. Qed.

Lemma has_look p ks k : has p ks -> In k ks -> dlook p k = Ok (pv p k).
Proof. intros HX Hk. apply dlook_pv. apply HX; exact Hk. Qed.

Ltac nodup := repeat constructor; simpl; intuition discriminate.

Lemma center_benchmark c p b : c = CMeijaard2007 \/ c = CMeijaard2007WithFeedback -> has p (par_strings CMeijaard2007) ->
  In b (body_labels c) -> form_mass_center_vector c p b = Ok (snd (body_of c (pv p) b)) /\
  dlook p ("m" ++ b) = Ok (fst (body_of c (pv p) b)).
Proof.
  intros EC HP HB.
  assert (DV : derived c p = Ok [("IFxz", 0); ("IFzz", pv p "IFxx"); ("IRxz", 0); ("IRzz", pv p "IRxx"); ("xF", pv p "w"); ("xR", 0);
      ("yB", 0); ("yF", 0); ("yH", 0); ("yR", 0); ("zF", - pv p "rF"); ("zR", - pv p "rR")]).
  { destruct EC as [-> | ->]; cbn [derived]; unfold derived_benchmark;
      rewrite !(has_look p _ _ HP) by (cbn [par_strings In]; tauto); reflexivity. }
  unfold form_mass_center_vector. rewrite DV. cbn [bind].
  assert (HB' : In b ["B"; "F"; "H"; "R"]) by (destruct EC as [-> | ->]; exact HB).
  assert (BO : body_of c = benchmark_body) by (destruct EC as [-> | ->]; reflexivity). rewrite BO.
  rewrite !dlook_dupdate by nodup.
  cbn [In] in HB'. destruct HB' as [<-|[<-|[<-|[<-|[]]]]]; cbn - [dlook]; 
    rewrite ?(has_look p _ _ HP) by (cbn [par_strings In]; tauto); split; reflexivity.
Qed.
Lemma center_principal p b : has p (par_strings CMoore2019) -> In b (body_labels CMoore2019) ->
  form_mass_center_vector CMoore2019 p b = Ok (snd (body_of CMoore2019 (pv p) b)) /\
  dlook p ("m" ++ b) = Ok (fst (body_of CMoore2019 (pv p) b)).
Proof.
  intros HP HB.
  assert (DV : derived CMoore2019 p = Ok [("alphaF", 0); ("alphaR", 0); ("yD", 0); ("yP", 0); ("yH", 0); ("yR", 0); ("yF", 0); ("xR", 0); ("xF", pv p "w");
      ("zR", - pv p "rR"); ("zF", - pv p "rF"); ("kRbb", pv p "kRaa"); ("kFbb", pv p "kFaa")]).
  { cbn [derived]; unfold derived_principal;
      rewrite !(has_look p _ _ HP) by (cbn [par_strings In]; tauto); reflexivity. }
  unfold form_mass_center_vector. rewrite DV. cbn [bind].
  rewrite !dlook_dupdate by nodup.
  cbn [body_labels In] in HB. destruct HB as [<-|[<-|[<-|[<-|[<-|[]]]]]]; cbn - [dlook];
    rewrite ?(has_look p _ _ HP) by (cbn [par_strings In]; tauto); split; reflexivity.
Qed.
Lemma feedback_has p : has p (par_strings CMeijaard2007WithFeedback) -> has p (par_strings CMeijaard2007).
Proof. intros HP k Hk. apply HP. cbn [par_strings In] in *. tauto. Qed.
Lemma center_any c p b : has p (par_strings c) -> In b (body_labels c) ->
  form_mass_center_vector c p b = Ok (snd (body_of c (pv p) b)) /\ dlook p ("m" ++ b) = Ok (fst (body_of c (pv p) b)).
Proof.
  intros HP HB. destruct c; try contradiction.
  - apply center_benchmark; auto.
  - apply center_benchmark; auto. apply feedback_has; exact HP.
  - apply center_principal; auto.
Qed.

Lemma mass_center_eval c p bodies : has p (par_strings c) -> (forall b, In b bodies -> In b (body_labels c)) ->
  (2 <= length bodies)%nat ->
  mass_center_of c p bodies =
  match total_com (coord_rows (map (body_of c (pv p)) bodies)) (mass_list (map (body_of c (pv p)) bodies)) with
  | Ok (_, [x; y; z]) => Ok (mk3 x y z) | Ok _ => Err (ValueError "shape") | Err e => Err e end.
Proof.
  intros HP HB HL. destruct bodies as [|b1 [|b2 bs]]; try (simpl in HL; lia).
  unfold mass_center_of.
  assert (EM : mapM (fun body => m <- dlook p ("m" ++ body) ;; r <- form_mass_center_vector c p body ;; Ok (m, r)) (b1 :: b2 :: bs)
             = Ok (map (body_of c (pv p)) (b1 :: b2 :: bs))).
  { apply mapM_intro. clear HL. induction (b1 :: b2 :: bs) as [|b l IH]; simpl; constructor.
    - destruct (center_any c p b HP (HB b (or_introl eq_refl))) as [E1 E2]. cbn [append] in E2. rewrite E1, E2. cbn [bind]. rewrite <- surjective_pairing. reflexivity.
    - apply IH. intros b0 Hb0. apply HB. right; exact Hb0. }
  rewrite EM. cbn [bind]. unfold coord_rows, mass_list.
  destruct (total_com _ _) as [[m l]|e]; reflexivity.
Qed.
Lemma mass_center_many c p bodies r : has p (par_strings c) -> (forall b, In b bodies -> In b (body_labels c)) ->
  (2 <= length bodies)%nat ->
  (mass_center_of c p bodies = Ok r <->
   mass_of (map (body_of c (pv p)) bodies) <> 0 /\ is_com (map (body_of c (pv p)) bodies) r).
Proof.
  intros HP HB HL. rewrite (mass_center_eval c p bodies HP HB HL). rewrite total_com_eval.
  destruct (Req_EM_T (mass_of (map (body_of c (pv p)) bodies)) 0) as [E|E].
  - split; [discriminate|]. intros [X _]; contradiction.
  - cbn [coords]. rewrite is_com_iff by exact E. split.
    + intros X; injection X as <-. auto.
    + intros [_ ->]. reflexivity.
Qed.
Lemma mass_center_one c p b : has p (par_strings c) -> In b (body_labels c) ->
  mass_center_of c p [b] = Ok (snd (body_of c (pv p) b)).
Proof. intros HP HB. exact (proj1 (center_any c p b HP HB)). Qed.
Lemma mass_center_perm c p l1 l2 : has p (par_strings c) -> (forall b, In b l1 -> In b (body_labels c)) ->
  Permutation l1 l2 -> mass_center_of c p l1 = mass_center_of c p l2.
Proof.
  intros HP HB PM. destruct l1 as [|b1 [|b2 l1]].
  - apply Permutation_nil in PM. subst; reflexivity.
  - apply Permutation_length_1_inv in PM. subst; reflexivity.
  - assert (L2 : (2 <= length l2)%nat) by (rewrite <- (Permutation_length PM); simpl; lia).
    rewrite (mass_center_eval c p (b1 :: b2 :: l1) HP HB) by (simpl; lia).
    assert (HB2 : forall b, In b l2 -> In b (body_labels c)).
    { intros b Hb. apply HB. eapply Permutation_in; [apply Permutation_sym; exact PM | exact Hb]. }
    rewrite (mass_center_eval c p l2 HP HB2 L2).
    rewrite (total_com_perm _ _ (Permutation_map (body_of c (pv p)) PM)). reflexivity.
Qed.
Lemma mass_center_unknown c p b bodies : has p (par_strings c) -> (2 <= length bodies)%nat -> In b bodies ->
  ~ In ("m" ++ b) (dkeys p) -> forall r, mass_center_of c p bodies <> Ok r.
Proof.
  intros HP HL HB HN r E. destruct bodies as [|b1 [|b2 bs]]; try (simpl in HL; lia).
  unfold mass_center_of in E. apply bind_ok in E. destruct E as (rows & EM & _). apply mapM_ok in EM.
  clear HL. induction EM as [|x y l ys H1 H2 IH]; [contradiction|]. destruct HB as [->|HB]; [|auto].
  apply bind_ok in H1. destruct H1 as (m & H1 & _). unfold dlook in H1. apply dget_none in HN. rewrite HN in H1. discriminate.
Qed.

Lemma whole_center p c : snd (benchmark_par_to_canonical p) = Ok c -> has p (par_strings CMeijaard2007) ->
  exists xT zT, mass_center_of CMeijaard2007 p ["R"; "B"; "H"; "F"] = Ok (mk3 xT 0 zT) /\
    let mT := pv p "mR" + pv p "mB" + pv p "mH" + pv p "mF" in
    m11 (cK0 c) = mT * zT /\
    xT * mT = pv p "xB" * pv p "mB" + pv p "xH" * pv p "mH" + pv p "w" * pv p "mF" /\
    zT * mT = - pv p "rR" * pv p "mR" + pv p "zB" * pv p "mB" + pv p "zH" * pv p "mH" - pv p "rF" * pv p "mF".
Proof.
  intros E HP.
  destruct (benchmark_par_to_canonical p) as [p' rc] eqn:EB. cbn [snd] in E. subst rc.
  pose proof (canon_inversion p p' c EB) as (HK & HNZ & -> & ->).
  destruct HNZ as (MT & _).
  set (mT := pv p "mR" + pv p "mB" + pv p "mH" + pv p "mF") in *.
  exists ((pv p "xB" * pv p "mB" + pv p "xH" * pv p "mH" + pv p "w" * pv p "mF") / mT).
  exists ((- pv p "rR" * pv p "mR" + pv p "zB" * pv p "mB" + pv p "zH" * pv p "mH" - pv p "rF" * pv p "mF") / mT).
  split.
  - apply mass_center_many; [exact HP | | simpl; lia | ].
    + intros b Hb. cbn [In body_labels] in *. tauto.
    + assert (EMs : mass_of (map (body_of CMeijaard2007 (pv p)) ["R"; "B"; "H"; "F"]) = mT).
      { unfold mass_of, sum_over. cbn. unfold mT. ring. }
      split; [rewrite EMs; exact MT|]. apply is_com_iff; rewrite EMs; auto.
      unfold wsum, sum_over. cbn. apply vec3_ext; cbn; unfold mT; field; exact MT.
  - cbn zeta. repeat split.
    + field; exact MT.
    + field; exact MT.
Qed.

Lemma inertia_tensor_eval p b : has p (par_strings CMeijaard2007) -> In b ["B"; "F"; "H"; "R"] ->
  let Ixx := pv p ("I" ++ b ++ "xx") in let Iyy := pv p ("I" ++ b ++ "yy") in
  let Ixz := if smem b ["F"; "R"] then 0 else pv p ("I" ++ b ++ "xz") in
  let Izz := if smem b ["F"; "R"] then Ixx else pv p ("I" ++ b ++ "zz") in
  form_inertia_tensor p b = Ok (mk33 (mk3 Ixx 0 Ixz) (mk3 0 Iyy 0) (mk3 Ixz 0 Izz)).
Proof.
  intros HP HB. unfold form_inertia_tensor, derived_benchmark.
  rewrite (has_look p _ "IFxx" HP), (has_look p _ "IRxx" HP), (has_look p _ "w" HP), (has_look p _ "rF" HP), (has_look p _ "rR" HP) by (cbn [par_strings In]; tauto).
  cbn [bind]. rewrite !dlook_dupdate by nodup.
  cbn [In] in HB. destruct HB as [<-|[<-|[<-|[<-|[]]]]]; cbn - [dlook];
    rewrite ?(has_look p _ _ HP) by (cbn [par_strings In]; tauto); reflexivity.
Qed.
