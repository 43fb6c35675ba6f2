(* PMain4.v -- when calculate_benchmark_from_measured succeeds; the flywheel (C47) *)
From Verif Require Import Base PBase MString MVec MBicycle MInertia MGeometry MPeriod MMain SBicycle SInertia SGeometry SMain
  PBicycle PInertia PInertia2 PInertia3 PString PGeometry PGeometry2 PGeometry3 PPeriod PPeriod2 PPeriod3 PMain PMain2 PMain3.
From Coq Require Import Lra Permutation Sorted.
Local Open Scope string_scope.
Local Open Scope R_scope.

(* ---------- frame lemmas for the loops ---------- *)
Lemma centres_frame sl : forall ic par p, bm_centres sl ic par = Ok p -> forall key,
  (forall part, In part (dkeys sl) -> key <> "x" ++ part /\ key <> "z" ++ part) -> dget p key = dget par key.
Proof.
  induction sl as [|[part s] sl IH]; intros ic par p H key K; cbn [bm_centres] in H; [injection H as <-; reflexivity|].
  do 2 step_bind H. rewrite (IH _ _ _ H).
  - destruct (K part) as [K1 K2]; [left; reflexivity|]. rewrite !dget_dset_neq by (apply String.eqb_neq; assumption). reflexivity.
  - intros q Hq. apply K. right. exact Hq.
Qed.
Lemma in_plane_frame mp k sl : forall be par pend p, bm_in_plane mp k sl be par pend = Ok p -> forall key,
  (forall part, In part (dkeys sl) -> key <> "I" ++ part ++ "xx" /\ key <> "I" ++ part ++ "xz" /\ key <> "I" ++ part ++ "zz") ->
  dget (fst p) key = dget par key.
Proof.
  induction sl as [|[part s] sl IH]; intros be par pend p H key K; cbn [bm_in_plane] in H; [injection H as <-; reflexivity|].
  do 3 step_bind H. rewrite (IH _ _ _ _ H).
  - destruct (K part) as (K1 & K2 & K3); [left; reflexivity|]. rewrite !dget_dset_neq by (apply String.eqb_neq; assumption). reflexivity.
  - intros q Hq. apply K. right. exact Hq.
Qed.

(* ---------- flywheel ---------- *)
Lemma calc_keeps newton mp par ex : calculate_benchmark_from_measured newton mp = Ok (par, ex) ->
  exists p0 p1 p3 p4 p5 k p6, bm_masses mp p0 (is_fork_split mp) = Ok p1 /\ bm_wheels_yy mp p3 = Ok p4 /\ bm_stiffness mp = Ok k /\ bm_wheels_xx mp p5 k = Ok p6 /\
   (forall key, In key ["mD"; "mF"; "mR"; "mB"] -> dget par key = dget p1 key) /\
   (forall key, In key ["IDyy"; "IFyy"; "IRyy"; "g"] -> dget par key = dget p4 key) /\
   (forall key, In key ["IDxx"; "IFxx"; "IRxx"] -> dget par key = dget p6 key) /\
   dget p0 "mD" = None /\ dget p3 "IDyy" = None /\ dget p5 "IDxx" = None.
Proof.
  intros H. unfold calculate_benchmark_from_measured in H. cbv zeta in H. set (s := is_fork_split mp) in *.
  step_bind H. rename x into p0. apply geom_inv in E.
  destruct E as (rF & rR & lam & w & fo & ct & cm & _ & _ & _ & _ & _ & _ & _ & _ & _ & _ & FR0 & _).
  step_bind H. rename x into p1. pose proof (masses_inv _ _ _ _ E) as (FR1 & _).
  step_bind H. destruct x as [[sl ic] be]. pose proof (lines_keys _ _ _ _ _ _ E0) as (KS & _).
  step_bind H. rename x into p2. pose proof (centres_frame _ _ _ _ E1) as FR2.
  step_bind H. rename x into p3.
  assert (FR3 : forall key, ~ In key ["mH"; "xH"; "zH"] -> dget p3 key = dget p2 key).
  { unfold bm_split_centre in E2. destruct s; [|injection E2 as <-; reflexivity].
    do 6 step_bind E2. step_bind E2. destruct x5 as [mH [|cx [|cy [|cz [|? ?]]]]]; try discriminate. injection E2 as <-. frame. }
  step_bind H. rename x into p4. pose proof (wheels_yy_inv _ _ _ E3) as (g & mF & lF & TF & mR & lR & TR & A1 & A2 & A3 & A4 & A5 & A6 & A7 & FR4 & _).
  step_bind H. rename x into p5.
  assert (FR5 : forall key, ~ In key ["IByy"; "ISyy"; "IGyy"; "IHyy"] -> dget p5 key = dget p4 key).
  { destruct s.
    - apply frames_yy_split in E4. destruct E4 as (? & ? & ? & ? & ? & ? & ? & ? & ? & ? & ? & ? & ? & ? & ? & ? & ? & ? & ? & ? & ?
      & _ & _ & _ & _ & _ & _ & _ & _ & _ & _ & _ & _ & _ & _ & _ & _ & _ & _ & _ & F & _). intros key K. apply F. cbn [In] in *. tauto.
    - apply frames_yy_whole in E4. destruct E4 as (? & ? & ? & ? & ? & ? & ? & ? & ? & ? & ? & ? & _ & _ & _ & _ & _ & _ & _ & _ & _ & _ & _ & _ & F & _).
      intros key K. apply F. cbn [In] in *. tauto. }
  step_bind H. rename x into k. step_bind H. rename x into p6. pose proof (wheels_xx_inv _ _ _ _ E6) as (TtF & TtR & _ & _ & FR6 & _).
  step_bind H. destruct x as [p7 pend]. pose proof (in_plane_frame _ _ _ _ _ _ _ E7) as FR7. cbn [fst] in FR7.
  step_bind H. rename x into p8. injection H as <- _.
  assert (FR8 : forall key, ~ In key ["mH"; "xH"; "zH"; "IHxx"; "IHxz"; "IHyy"; "IHzz"] -> dget p8 key = dget p7 key).
  { unfold bm_split_inertia in E8. destruct s; [|injection E8 as <-; reflexivity].
    do 8 step_bind E8. step_bind E8. destruct x7 as [mH [|cx [|cy [|cz [|? ?]]]]]; try discriminate. injection E8 as <-. frame. }
  exists p0, p1, p3, p4, p5, k, p6.
  assert (PK : forall part, In part (dkeys sl) -> In part ["B"; "G"; "S"; "H"]) by (rewrite KS; destruct s; cbn [In]; tauto).
  assert (F7 : forall key, In key ["mD"; "mF"; "mR"; "mB"; "IDyy"; "IFyy"; "IRyy"; "g"; "IDxx"; "IFxx"; "IRxx"] -> dget p8 key = dget p6 key).
  { intros key K. rewrite FR8.
    - apply FR7. intros part HP. apply PK in HP. cbn [In] in HP, K.
      repeat (destruct HP as [<-|HP]; [repeat (destruct K as [<-|K]; [repeat split; discriminate|]); contradiction|]). contradiction.
    - cbn [In] in K. repeat (destruct K as [<-|K]; [notin|]). contradiction. }
  assert (F2 : forall key, In key ["mD"; "mF"; "mR"; "mB"; "IDyy"; "IDxx"] -> dget p3 key = dget p1 key).
  { intros key K. rewrite FR3.
    - apply FR2. intros part HP. apply PK in HP. cbn [In] in HP, K.
      repeat (destruct HP as [<-|HP]; [repeat (destruct K as [<-|K]; [repeat split; discriminate|]); contradiction|]). contradiction.
    - cbn [In] in K. repeat (destruct K as [<-|K]; [notin|]). contradiction. }
  do 4 (split; [assumption|]). split; [|split; [|split]].
  - intros key K. rewrite F7 by (cbn [In] in *; tauto). cbn [In] in K.
    repeat (destruct K as [<-|K]; [rewrite FR6, FR5, FR4, F2 by first [notin | cbn [In]; tauto]; reflexivity|]). contradiction.
  - intros key K. rewrite F7 by (cbn [In] in *; tauto). cbn [In] in K.
    repeat (destruct K as [<-|K]; [rewrite FR6, FR5 by notin; reflexivity|]). contradiction.
  - intros key K. apply F7. cbn [In] in *. tauto.
  - repeat split.
    + rewrite FR0 by notin. reflexivity.
    + rewrite F2, FR1, FR0 by first [notin | cbn [In]; tauto]. reflexivity.
    + rewrite FR5, FR4, F2, FR1, FR0 by first [notin | cbn [In]; tauto]. reflexivity.
Qed.
Lemma flywheel newton mp par ex T k D : calculate_benchmark_from_measured newton mp = Ok (par, ex) ->
  dget mp "g" = Some (rb_g T) -> exact_rod mp k -> exact_wheel mp T k "F" (rb_F T) -> exact_flywheel mp (rb_g T) k (rb_F T) D ->
  dget par "mD" = Some (w_m D) /\ dget par "IDyy" = Some (w_yy D) /\ dget par "IDxx" = Some (w_xx D).
Proof.
  intros H Gg ER EF (l & Tc & Tt & F1 & F2 & F3 & F4 & N1 & N2 & O1 & O2).
  apply calc_keeps in H. destruct H as (p0 & p1 & p3 & p4 & p5 & k' & p6 & H1 & H4 & HK & H6 & K1 & K4 & K6 & _).
  rewrite K1, K4, K6 by (cbn [In]; tauto). clear K1 K4 K6.
  apply (stiffness_exact _ _ _ ER) in HK. subst k'.
  apply masses_inv in H1. destruct H1 as (_ & _ & _ & _ & MD & _).
  apply wheels_yy_inv in H4. destruct H4 as (g & mF & lF & TF & mR & lR & TR & A1 & A2 & A3 & A4 & A5 & A6 & A7 & _ & _ & _ & _ & YD).
  apply wheels_xx_inv in H6. destruct H6 as (TtF & TtR & D1 & D2 & _ & _ & _ & XD).
  assert (g = rb_g T) by congruence. subst g. assert (lF = l) by congruence. subst lF.
  destruct (wheel_facts mp T k "F" _ _ _ _ _ EF A2 A3 A4 D1) as (WF1 & WF2 & WF3).
  rewrite MD, YD, XD, F1, F3, F4, A2. cbn [opt_sub]. rewrite WF2, WF3.
  apply compound_spec in O1; [|exact N1]. apply torsional_spec in O2; [|exact N2]. rewrite <- O1, <- O2. rewrite WF1. repeat split; f_equal; ring.
Qed.
Lemma no_flywheel newton mp par ex : calculate_benchmark_from_measured newton mp = Ok (par, ex) ->
  (In "mD" (dkeys mp) <-> In "mD" (dkeys par)) /\
  (In "mD" (dkeys mp) /\ In "TcD1" (dkeys mp) <-> In "IDyy" (dkeys par)) /\ (In "TtD1" (dkeys mp) <-> In "IDxx" (dkeys par)).
Proof.
  intros H. apply calc_keeps in H. destruct H as (p0 & p1 & p3 & p4 & p5 & k' & p6 & H1 & H4 & HK & H6 & K1 & K4 & K6 & N0 & N3 & N5).
  rewrite !dget_some_in. rewrite K1, K4, K6 by (cbn [In]; tauto). clear K1 K4 K6.
  apply masses_inv in H1. destruct H1 as (_ & _ & _ & _ & MD & _).
  apply wheels_yy_inv in H4. destruct H4 as (g & mF & lF & TF & mR & lR & TR & A1 & A2 & A3 & A4 & A5 & A6 & A7 & _ & _ & _ & _ & YD).
  apply wheels_xx_inv in H6. destruct H6 as (TtF & TtR & D1 & D2 & _ & _ & _ & XD). rewrite MD, YD, XD, A2, N0, N3, N5. unfold opt_sub.
  repeat split.
  - intros [v ->]. eauto.
  - destruct (dget mp "mD"); [eauto | intros [v Hv]; discriminate].
  - intros [[v ->] [u ->]]. eauto.
  - destruct (dget mp "mD"); [eauto | destruct H as [v Hv]; discriminate].
  - destruct (dget mp "TcD1"); [eauto | destruct (dget mp "mD"); destruct H as [v Hv]; discriminate].
  - intros [v ->]. eauto.
  - destruct (dget mp "TtD1"); [eauto | intros [v Hv]; discriminate].
Qed.

(* ---------- definedness ---------- *)
Ltac rewr_looks := repeat match goal with H : dget ?d ?k = Some _ |- context [dlook ?d ?k] => unfold dlook at 1; rewrite H; cbn [bind] end.
Lemma some_not_none {A} (o : option A) : o <> None -> exists v, o = Some v.
Proof. destruct o; [eauto | congruence]. Qed.
Lemma masses_def mp par (s : bool) : (forall key, In key (["mB"; "mF"; "mR"] ++ (if s then ["mS"; "mG"] else ["mH"]))%list -> In key (dkeys mp)) ->
  exists p, bm_masses mp par s = Ok p.
Proof.
  intros H. unfold bm_masses.
  rewrite (dlook_pv mp "mB"), (dlook_pv mp "mF"), (dlook_pv mp "mR") by (apply H; cbn; tauto). cbn [bind].
  assert (Q : forall d, exists p, pass_keyerror d (mD <- dlook mp "mD";; Ok (dset d "mD" (mD - pv mp "mF"))) = Ok p).
  { intros d. unfold pass_keyerror, dlook. destruct (dget mp "mD"); cbn [bind]; eauto. }
  destruct (Q (dset (dset (dset par "mB" (pv mp "mB")) "mF" (pv mp "mF")) "mR" (pv mp "mR"))) as [p ->]. cbn [bind].
  destruct s.
  - rewrite (dlook_pv mp "mS"), (dlook_pv mp "mG") by (apply H; cbn; tauto). cbn [bind]. eauto.
  - rewrite (dlook_pv mp "mH") by (apply H; cbn; tauto). cbn [bind]. eauto.
Qed.
Lemma wheels_yy_def mp par : (forall key, In key ["g"; "mF"; "lF"; "TcF1"; "mR"; "lR"; "TcR1"] -> In key (dkeys mp)) -> exists p, bm_wheels_yy mp par = Ok p.
Proof.
  intros H. unfold bm_wheels_yy.
  rewrite (dlook_pv mp "g"), (dlook_pv mp "mF"), (dlook_pv mp "lF"), (dlook_pv mp "TcF1"), (dlook_pv mp "mR"), (dlook_pv mp "lR"), (dlook_pv mp "TcR1") by (apply H; cbn; tauto).
  cbn [bind]. unfold pass_keyerror, dlook. destruct (dget mp "mD"); cbn [bind]; [|eauto]. destruct (dget mp "TcD1"); cbn [bind]; [|eauto].
  dg. cbn [bind]. eauto.
Qed.
Lemma frames_whole_def mp par : (forall key, In key ["xB"; "zB"; "rR"; "xH"; "w"; "zH"; "rF"] -> In key (dkeys par)) ->
  (forall key, In key ["mB"; "g"; "TcB1"; "mH"; "TcH1"] -> In key (dkeys mp)) -> exists p, bm_frames_yy mp par false = Ok p.
Proof.
  intros H K. unfold bm_frames_yy.
  rewrite (dlook_pv par "xB"), (dlook_pv par "zB"), (dlook_pv par "rR") by (apply H; cbn; tauto).
  rewrite (dlook_pv mp "mB"), (dlook_pv mp "g"), (dlook_pv mp "TcB1"), (dlook_pv mp "mH"), (dlook_pv mp "TcH1") by (apply K; cbn; tauto). cbn [bind].
  unfold dlook. dg. destruct (proj1 (dget_some_in par "xH") (H "xH" ltac:(cbn; tauto))) as [a ->].
  destruct (proj1 (dget_some_in par "w") (H "w" ltac:(cbn; tauto))) as [b ->].
  destruct (proj1 (dget_some_in par "zH") (H "zH" ltac:(cbn; tauto))) as [c ->].
  destruct (proj1 (dget_some_in par "rF") (H "rF" ltac:(cbn; tauto))) as [d ->]. cbn [bind]. eauto.
Qed.
Lemma frames_split_def mp par l1 l2 : (forall key, In key ["xB"; "zB"; "rR"; "xS"; "w"; "zS"; "rF"; "lam"; "xG"; "zG"] -> In key (dkeys par)) ->
  (forall key, In key ["mB"; "g"; "TcB1"; "mS"; "TcS1"; "mG"; "TcG1"; "h6"; "h7"; "d5"; "d6"; "l"] -> In key (dkeys mp)) ->
  calculate_l1_l2 (pv mp "h6") (pv mp "h7") (pv mp "d5") (pv mp "d6") (pv mp "l") = Ok (l1, l2) ->
  sin (pv par "lam") <> 0 -> cos (pv par "lam") <> 0 -> exists p, bm_frames_yy mp par true = Ok p.
Proof.
  intros H K L S C. unfold bm_frames_yy.
  rewrite (dlook_pv par "xB"), (dlook_pv par "zB"), (dlook_pv par "rR") by (apply H; cbn; tauto).
  rewrite (dlook_pv mp "mB"), (dlook_pv mp "g"), (dlook_pv mp "TcB1"), (dlook_pv mp "mS"), (dlook_pv mp "TcS1"), (dlook_pv mp "mG"), (dlook_pv mp "TcG1"),
   (dlook_pv mp "h6"), (dlook_pv mp "h7"), (dlook_pv mp "d5"), (dlook_pv mp "d6"), (dlook_pv mp "l") by (apply K; cbn; tauto). cbn [bind].
  rewrite L. cbn [bind fst snd].
  unfold dlook. dg. destruct (proj1 (dget_some_in par "xS") (H "xS" ltac:(cbn; tauto))) as [a ->].
  destruct (proj1 (dget_some_in par "w") (H "w" ltac:(cbn; tauto))) as [b ->].
  destruct (proj1 (dget_some_in par "zS") (H "zS" ltac:(cbn; tauto))) as [c ->].
  destruct (proj1 (dget_some_in par "rF") (H "rF" ltac:(cbn; tauto))) as [d ->]. cbn [bind]. dg.
  destruct (proj1 (dget_some_in par "lam") (H "lam" ltac:(cbn; tauto))) as [e Ee]. rewrite Ee. rewrite (pv_get _ _ _ Ee) in S, C.
  destruct (proj1 (dget_some_in par "xG") (H "xG" ltac:(cbn; tauto))) as [f ->].
  destruct (proj1 (dget_some_in par "zG") (H "zG" ltac:(cbn; tauto))) as [h ->]. cbn [bind].
  rewrite (proj2 (handlebar_spec e l1 l2 _ _) (conj S (conj C (conj eq_refl eq_refl)))). cbn [bind]. eauto.
Qed.
Lemma stiffness_def mp k : exact_rod mp k -> bm_stiffness mp = Ok k.
Proof.
  intros ER. assert (Q : exists k', bm_stiffness mp = Ok k').
  { destruct ER as (lP & mP & dP & TtP & rho & G1 & G2 & G3 & G4 & TN & _). unfold bm_stiffness, dlook. rewrite G1, G2, G3. cbn [bind].
    destruct (tube_inertia lP mP (dP / 2) 0) as [[Ix Iy] Iz]. rewrite G4. cbn [bind]. unfold torsional_pendulum_stiffness.
    rewrite rdiv_eq by (apply pow_nonzero; exact TN). eauto. }
  destruct Q as [k' Q]. rewrite Q. f_equal. exact (stiffness_exact _ _ _ ER Q).
Qed.
Lemma wheels_xx_def mp par k : In "TtF1" (dkeys mp) -> In "TtR1" (dkeys mp) -> exists p, bm_wheels_xx mp par k = Ok p.
Proof.
  intros A B. unfold bm_wheels_xx. rewrite (dlook_pv _ _ A), (dlook_pv _ _ B). cbn [bind]. unfold pass_keyerror, dlook.
  destruct (dget mp "TtD1"); cbn [bind]; [|eauto]. dg. cbn [bind]. eauto.
Qed.
(* the loop over the angles *)
Lemma loop_def mp par l1 l2 keys : forall sl ic be, 
  (forall key, In key keys -> exists e, com_entry mp par l1 l2 key e /\ In (fst e) (dkeys sl) /\ In (fst e) (dkeys ic) /\ In (fst e) (dkeys be)) ->
  exists r, com_lines_loop mp par l1 l2 keys (sl, ic, be) = Ok r.
Proof.
  induction keys as [|key keys IH]; intros sl ic be H; cbn [com_lines_loop]; [eauto|].
  destruct (H key) as ([part [[m b] beta]] & (al & a & A1 & A2 & A3 & A4) & K1 & K2 & K3); [left; reflexivity|]. cbn [fst snd] in *.
  rewrite A1, A2, A3. cbn [bind]. rewrite A4. cbn [bind].
  apply dget_some_in in K1, K2, K3. destruct K1 as [x K1], K2 as [y K2], K3 as [z K3].
  rewrite (proj2 (append_to_ok sl part m _) (ex_intro _ x (conj K1 eq_refl))). cbn [bind].
  rewrite (proj2 (append_to_ok ic part b _) (ex_intro _ y (conj K2 eq_refl))). cbn [bind].
  rewrite (proj2 (append_to_ok be part beta _) (ex_intro _ z (conj K3 eq_refl))). cbn [bind].
  apply IH. intros key' Hk. destruct (H key' (or_intror Hk)) as (e & C & I1 & I2 & I3). exists e. split; [exact C|].
  assert (KD : forall (d : dict (list R)) v q, In q (dkeys d) -> In q (dkeys (dset d part v))).
  { intros d v q. rewrite !dget_some_in. intros [u G]. rewrite dget_dset. destruct (String.eqb q part); eauto. }
  repeat split; apply KD; assumption.
Qed.
