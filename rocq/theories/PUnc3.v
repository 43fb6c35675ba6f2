(* PUnc3.v -- the functions of bicycle.py, inertia.py, geometry.py and com.py on uncertain numbers *)
From Verif Require Import Base MString MVec MBicycle MInertia MGeometry MMain MUnc PBase PUnc PUnc2.
From Coq Require Import FunctionalExtensionality Lra.
From Coquelicot Require Import Coquelicot.
Local Open Scope string_scope.
Local Open Scope R_scope.

Ltac leaf := first [assumption | eassumption].
Section Functions.
  Variable v : source.
  Notation tr := (tr v).
  Variable allow : Prop.
  Notation rr := (rr allow).
  Notation qv := (qv v).
  Notation qm := (qm v).
  Notation qm2 := (qm2 v).

  Lemma q2_mk {A B A' B'} (P : A -> (R -> B) -> Prop) (Q : A' -> (R -> B') -> Prop) a f b g : P a f -> Q b g -> q2 P Q (a, b) (fun h => (f h, g h)).
  Proof. intros H K. exists f, g. auto. Qed.
  (* ---- vectors ---- *)
  Lemma qv_mk a b c f g k : tr a f -> tr b g -> tr c k -> qv (umk3 a b c) (fun h => mk3 (f h) (g h) (k h)).
  Proof. intros A B C. repeat split; (apply A || apply B || apply C). Qed.
  Lemma qv_x u F : qv u F -> tr (uvx u) (fun h => vx (F h)). Proof. intros [H _]. exact H. Qed.
  Lemma qv_y u F : qv u F -> tr (uvy u) (fun h => vy (F h)). Proof. intros [_ [H _]]. exact H. Qed.
  Lemma qv_z u F : qv u F -> tr (uvz u) (fun h => vz (F h)). Proof. intros [_ [_ H]]. exact H. Qed.
  Lemma qm_mk a b c f g k : qv a f -> qv b g -> qv c k -> qm (umk33 a b c) (fun h => mk33 (f h) (g h) (k h)).
  Proof. intros A B C. split; [exact A|split; [exact B|exact C]]. Qed.
  Lemma qm_1 u F : qm u F -> qv (ur1 u) (fun h => r1 (F h)). Proof. intros [H _]. exact H. Qed.
  Lemma qm_2 u F : qm u F -> qv (ur2 u) (fun h => r2 (F h)). Proof. intros [_ [H _]]. exact H. Qed.
  Lemma qm_3 u F : qm u F -> qv (ur3 u) (fun h => r3 (F h)). Proof. intros [_ [_ H]]. exact H. Qed.
  Lemma q2_mk2 a b c d f g k l : tr a f -> tr b g -> tr c k -> tr d l -> qm2 (umk2 a b c d) (fun h => mk2 (f h) (g h) (k h) (l h)).
  Proof. intros A B C D. split; [exact A|split; [exact B|split; [exact C|exact D]]]. Qed.
  Lemma m2_11 u F : qm2 u F -> tr (um11 u) (fun h => m11 (F h)). Proof. intros [H _]. exact H. Qed.
  Lemma m2_12 u F : qm2 u F -> tr (um12 u) (fun h => m12 (F h)). Proof. intros [_ [H _]]. exact H. Qed.
  Lemma m2_21 u F : qm2 u F -> tr (um21 u) (fun h => m21 (F h)). Proof. intros [_ [_ [H _]]]. exact H. Qed.
  Lemma m2_22 u F : qm2 u F -> tr (um22 u) (fun h => m22 (F h)). Proof. intros [_ [_ [_ H]]]. exact H. Qed.
  Ltac vtac := cbv beta zeta; lazymatch goal with
  | |- PUnc.tr _ (ucst _) _ => apply tr_cst
  | |- PUnc.tr _ (uadd _ _) _ => apply tr_add; vtac
  | |- PUnc.tr _ (usub _ _) _ => apply tr_sub; vtac
  | |- PUnc.tr _ (umul _ _) _ => apply tr_mul; vtac
  | |- PUnc.tr _ (uneg _) _ => apply tr_neg; vtac
  | |- PUnc.tr _ (upow _ _) _ => apply tr_pow; vtac
  | |- PUnc.tr _ (udivc _ _) _ => apply tr_divc; vtac
  | |- PUnc.tr _ (usin _) _ => apply tr_sin; vtac
  | |- PUnc.tr _ (ucos _) _ => apply tr_cos; vtac
  | |- PUnc.tr _ (uatan _) _ => apply tr_atan; vtac
  | |- PUnc.tr _ (uvx (umk3 _ _ _)) _ => cbn [uvx vx]; vtac
  | |- PUnc.tr _ (uvy (umk3 _ _ _)) _ => cbn [uvy vy]; vtac
  | |- PUnc.tr _ (uvz (umk3 _ _ _)) _ => cbn [uvz vz]; vtac
  | |- PUnc.tr _ (uvx _) _ => first [leaf | apply qv_x; vtac]
  | |- PUnc.tr _ (uvy _) _ => first [leaf | apply qv_y; vtac]
  | |- PUnc.tr _ (uvz _) _ => first [leaf | apply qv_z; vtac]
  | |- PUnc.tr _ (um11 _) _ => first [leaf | apply m2_11; vtac]
  | |- PUnc.tr _ (um12 _) _ => first [leaf | apply m2_12; vtac]
  | |- PUnc.tr _ (um21 _) _ => first [leaf | apply m2_21; vtac]
  | |- PUnc.tr _ (um22 _) _ => first [leaf | apply m2_22; vtac]
  | |- PUnc2.qv _ (umk3 _ _ _) _ => apply qv_mk; vtac
  | |- PUnc2.qv _ (ur1 _) _ => first [leaf | apply qm_1; vtac]
  | |- PUnc2.qv _ (ur2 _) _ => first [leaf | apply qm_2; vtac]
  | |- PUnc2.qv _ (ur3 _) _ => first [leaf | apply qm_3; vtac]
  | |- PUnc2.qm _ (umk33 _ _ _) _ => apply qm_mk; vtac
  | |- PUnc2.qm2 _ (umk2 _ _ _ _) _ => apply q2_mk2; vtac
  | |- q2 _ _ (_, _) _ => apply q2_mk; vtac
  | |- ql _ [] _ => apply ql_nil
  | |- ql _ (_ :: _) _ => apply ql_cons; vtac
  | |- ql _ (_ ++ _)%list _ => apply ql_app; vtac
  | |- qd _ [] _ => apply qd_nil
  | |- qd _ (dset _ _ _) _ => apply qd_dset; vtac
  | |- _ => leaf
  end.
  Lemma qv_sub u w F G : qv u F -> qv w G -> qv (uv3_sub u w) (fun h => v3_sub (F h) (G h)).
  Proof. intros A B. unfold uv3_sub, v3_sub. vtac. Qed.
  Lemma qv_add u w F G : qv u F -> qv w G -> qv (uv3_add u w) (fun h => v3_add (F h) (G h)).
  Proof. intros A B. unfold uv3_add, v3_add. vtac. Qed.
  Lemma qv_scale k f w G : tr k f -> qv w G -> qv (uv3_scale k w) (fun h => v3_scale (f h) (G h)).
  Proof. intros A B. unfold uv3_scale, v3_scale. vtac. Qed.
  Lemma qv_dot u w F G : qv u F -> qv w G -> tr (uv3_dot u w) (fun h => v3_dot (F h) (G h)).
  Proof. intros A B. unfold uv3_dot, v3_dot. vtac. Qed.
  Lemma qv_cross u w F G : qv u F -> qv w G -> qv (uv3_cross u w) (fun h => v3_cross (F h) (G h)).
  Proof. intros A B. unfold uv3_cross, v3_cross. vtac. Qed.
  Lemma qm_add u w F G : qm u F -> qm w G -> qm (um3_add u w) (fun h => m3_add (F h) (G h)).
  Proof. intros A B. unfold um3_add, m3_add, uv3_add, v3_add. vtac. Qed.
  Lemma qm_scale k f w G : tr k f -> qm w G -> qm (um3_scale k w) (fun h => m3_scale (f h) (G h)).
  Proof. intros A B. unfold um3_scale, m3_scale, uv3_scale, v3_scale. vtac. Qed.
  Lemma qm_T w G : qm w G -> qm (um3_T w) (fun h => m3_T (G h)).
  Proof. intros B. unfold um3_T, m3_T. vtac. Qed.
  Lemma qm_dot u w F G : qm u F -> qm w G -> qm (um3_dot u w) (fun h => m3_dot (F h) (G h)).
  Proof. intros A B. unfold um3_dot, m3_dot, uv3_dot, v3_dot, um3_T, m3_T. cbn [uvx uvy uvz ur1 ur2 ur3 vx vy vz r1 r2 r3]. vtac. Qed.
  Lemma qm_diag a b c f g k : tr a f -> tr b g -> tr c k -> qm (um3_diag a b c) (fun h => m3_diag (f h) (g h) (k h)).
  Proof. intros A B C. unfold um3_diag, m3_diag. vtac. Qed.

  (* ---- bicycle.py ---- *)
  Lemma m2_scale_tr k f w G : tr k f -> qm2 w G -> qm2 (um2_scale k w) (fun h => m2_scale (f h) (G h)).
  Proof. intros A B. unfold um2_scale, m2_scale. vtac. Qed.
  Lemma m2_add_tr u w F G : qm2 u F -> qm2 w G -> qm2 (um2_add u w) (fun h => m2_add (F h) (G h)).
  Proof. intros A B. unfold um2_add, m2_add. vtac. Qed.
  Lemma m2_neg_tr u F : qm2 u F -> qm2 (um2_neg u) (fun h => m2_neg (F h)).
  Proof. intros A. unfold um2_neg, m2_neg. vtac. Qed.
  Lemma m2_dot_tr u w F G : qm2 u F -> qm2 w G -> qm2 (um2_dot u w) (fun h => m2_dot (F h) (G h)).
  Proof. intros A B. unfold um2_dot, m2_dot. vtac. Qed.

  (* further cases, added below *)
  Ltac trx := fail.
  Ltac trd := cbv beta; lazymatch goal with
  | |- PUnc.tr _ (ucst _) _ => apply tr_cst
  | |- PUnc.tr _ (uadd _ _) _ => apply tr_add; trd
  | |- PUnc.tr _ (usub _ _) _ => apply tr_sub; trd
  | |- PUnc.tr _ (umul _ _) _ => apply tr_mul; trd
  | |- PUnc.tr _ (uneg _) _ => apply tr_neg; trd
  | |- PUnc.tr _ (upow _ _) _ => apply tr_pow; trd
  | |- PUnc.tr _ (udivc _ _) _ => apply tr_divc; trd
  | |- PUnc.tr _ (usin _) _ => apply tr_sin; trd
  | |- PUnc.tr _ (ucos _) _ => apply tr_cos; trd
  | |- PUnc.tr _ (uatan _) _ => apply tr_atan; trd
  | |- PUnc.tr _ (uvx (umk3 _ _ _)) _ => cbn [uvx vx]; trd
  | |- PUnc.tr _ (uvy (umk3 _ _ _)) _ => cbn [uvy vy]; trd
  | |- PUnc.tr _ (uvz (umk3 _ _ _)) _ => cbn [uvz vz]; trd
  | |- PUnc.tr _ (uvx _) _ => first [leaf | apply qv_x; trd]
  | |- PUnc.tr _ (uvy _) _ => first [leaf | apply qv_y; trd]
  | |- PUnc.tr _ (uvz _) _ => first [leaf | apply qv_z; trd]
  | |- PUnc.tr _ (um11 _) _ => first [leaf | apply m2_11; trd]
  | |- PUnc.tr _ (um12 _) _ => first [leaf | apply m2_12; trd]
  | |- PUnc.tr _ (um21 _) _ => first [leaf | apply m2_21; trd]
  | |- PUnc.tr _ (um22 _) _ => first [leaf | apply m2_22; trd]
  | |- PUnc.tr _ (uv3_dot _ _) _ => apply qv_dot; trd
  | |- PUnc2.qv _ (umk3 _ _ _) _ => apply qv_mk; trd
  | |- PUnc2.qv _ (uv3_sub _ _) _ => apply qv_sub; trd
  | |- PUnc2.qv _ (uv3_add _ _) _ => apply qv_add; trd
  | |- PUnc2.qv _ (uv3_scale _ _) _ => apply qv_scale; trd
  | |- PUnc2.qv _ (uv3_cross _ _) _ => apply qv_cross; trd
  | |- PUnc2.qv _ (ur1 _) _ => first [leaf | apply qm_1; trd]
  | |- PUnc2.qv _ (ur2 _) _ => first [leaf | apply qm_2; trd]
  | |- PUnc2.qv _ (ur3 _) _ => first [leaf | apply qm_3; trd]
  | |- PUnc2.qm _ (umk33 _ _ _) _ => apply qm_mk; trd
  | |- PUnc2.qm _ (um3_add _ _) _ => apply qm_add; trd
  | |- PUnc2.qm _ (um3_scale _ _) _ => apply qm_scale; trd
  | |- PUnc2.qm _ (um3_T _) _ => apply qm_T; trd
  | |- PUnc2.qm _ (um3_dot _ _) _ => apply qm_dot; trd
  | |- PUnc2.qm _ (um3_diag _ _ _) _ => apply qm_diag; trd
  | |- PUnc2.qm2 _ (umk2 _ _ _ _) _ => apply q2_mk2; trd
  | |- PUnc2.qm2 _ (um2_scale _ _) _ => apply m2_scale_tr; trd
  | |- PUnc2.qm2 _ (um2_add _ _) _ => apply m2_add_tr; trd
  | |- PUnc2.qm2 _ (um2_neg _) _ => apply m2_neg_tr; trd
  | |- PUnc2.qm2 _ (um2_dot _ _) _ => apply m2_dot_tr; trd
  | |- q2 _ _ (_, _) _ => apply q2_mk; trd
  | |- ql _ [] _ => apply ql_nil
  | |- ql _ (_ :: _) _ => apply ql_cons; trd
  | |- ql _ (_ ++ _)%list _ => apply ql_app; trd
  | |- qd _ [] _ => apply qd_nil
  | |- qd _ (dset _ _ _) _ => apply qd_dset; trd
  | |- _ => first [leaf | trx]
  end.
  (* one statement of the code *)
  Ltac st := lazymatch goal with
  | |- PUnc.rr _ _ (bind (dlook _ _) _) _ => eapply rr_bind; [apply rr_look; trd|intros ? ? ?]
  | |- PUnc.rr _ _ (bind (udiv _ _) _) _ => eapply rr_bind; [apply rr_div; trd|intros ? ? ?]
  | |- PUnc.rr _ _ (bind (utan _) _) _ => eapply rr_bind; [apply rr_tan; trd|intros ? ? ?]
  | |- PUnc.rr _ _ (bind (usqrt _) _) _ => eapply rr_bind; [apply rr_sqrt; [|trd]|intros ? ? ?]
  | |- PUnc.rr _ _ (bind (uasin _) _) _ => eapply rr_bind; [apply rr_asin; [|trd]|intros ? ? ?]
  | |- PUnc.rr _ _ (bind (index _ _) _) _ => eapply rr_bind; [apply ql_index; trd|intros ? ? ?]
  end.

  Lemma inv2_rr M F : qm2 M F -> rr qm2 (uinv2 M) (fun h => inv2 (F h)).
  Proof. intros A. unfold uinv2, inv2. st. apply (rr_ret _ _ (fun h => m2_scale (f h) (mk2 (m22 (F h)) (- m12 (F h)) (- m21 (F h)) (m11 (F h))))). trd. Qed.
  Lemma ab_rr M C1 K0 K2 s g FM FC F0 F2 fs fg : qm2 M FM -> qm2 C1 FC -> qm2 K0 F0 -> qm2 K2 F2 -> tr s fs -> tr g fg ->
    rr (q2 (ql (ql tr)) (ql (ql tr))) (uab_matrix M C1 K0 K2 s g) (fun h => ab_matrix (FM h) (FC h) (F0 h) (F2 h) (fs h) (fg h)).
  Proof.
    intros A B C D E F. unfold uab_matrix, ab_matrix. eapply rr_bind; [apply inv2_rr; eassumption|]. intros iM iF H. cbv zeta.
    apply rr_ret. unfold uvstack, uhstack, vstack, hstack, um2_rows, m2_rows, um2_zero, m2_zero, um2_eye, m2_eye. cbn [combine map fst snd app um11 um12 um21 um22 m11 m12 m21 m22]. trd.
  Qed.
  Lemma ql_map2 us F co CO : ql tr us F -> ql (ql tr) co CO ->
    ql (ql tr) (map (fun row => map (fun p => umul (fst p) (snd p)) (combine us row)) co) (fun h => map (fun row => map (fun p => fst p * snd p) (combine (F h) row)) (CO h)).
  Proof.
    intros K [fs [-> H]]. exists (map (fun G h => map (fun p => fst p * snd p) (combine (F h) (G h))) fs). split; [apply functional_extensionality; intros h; rewrite !map_map; reflexivity|].
    induction H as [|u f co fs H1 H IH]; cbn [map]; constructor; [|exact IH].
    apply (ql_map (q2 tr tr) tr (fun p => umul (fst p) (snd p)) (fun p => fst p * snd p)); [|apply ql_combine; assumption].
    intros [a b] g [g1 [g2 [-> [A B]]]]. cbn [fst snd] in *. apply tr_mul; assumption.
  Qed.
  Ltac sp := repeat lazymatch goal with |- _ /\ _ => split end.
  Lemma canon1_rr p F : qd tr p F -> rr (qc1 v) (ucanon_phase1 p) (fun h => canon_phase1 (F h)).
  Proof.
    intros H. unfold ucanon_phase1, canon_phase1. cbv zeta. repeat st.
    apply rr_ret. unfold qc1. cbn [uk_mT uk_xT uk_zT uk_ITxx uk_ITxz uk_IRxx uk_IFxx k_mT k_xT k_zT k_ITxx k_ITxz k_IRxx k_IFxx]. sp; trd.
  Qed.
  Lemma canon2_rr p F k K : qd tr p F -> qc1 v k K -> rr (qc v) (ucanon_phase2 p k) (fun h => canon_phase2 (F h) (K h)).
  Proof.
    intros H [K1 [K2 [K3 [K4 [K5 [K6 K7]]]]]]. unfold ucanon_phase2, canon_phase2. cbv zeta. repeat st.
    apply rr_ret. unfold qc. cbn [ucM ucC1 ucK0 ucK2 cM cC1 cK0 cK2]. sp; trd.
  Qed.
  Lemma canonical_rr p F : qd tr p F -> rr (qc v) (snd (ubenchmark_par_to_canonical p)) (fun h => snd (benchmark_par_to_canonical (F h))).
  Proof.
    intros H. unfold ubenchmark_par_to_canonical, benchmark_par_to_canonical.
    replace (snd _) with (bind (ucanon_phase1 p) (fun k => ucanon_phase2 (dset (dset p "IRzz" (uk_IRxx k)) "IFzz" (uk_IFxx k)) k)) by (destruct (ucanon_phase1 p); reflexivity).
    apply (rr_ext _ _ (fun h => bind (canon_phase1 (F h)) (fun k => canon_phase2 (dset (dset (F h) "IRzz" (k_IRxx k)) "IFzz" (k_IFxx k)) k))); [intros h; destruct (canon_phase1 (F h)); reflexivity|].
    eapply rr_bind; [apply canon1_rr, H|]. intros k K C. apply (canon2_rr _ (fun h => dset (dset (F h) "IRzz" (k_IRxx (K h))) "IFzz" (k_IFxx (K h)))); [|exact C].
    destruct C as [K1 [K2 [K3 [K4 [K5 [K6 K7]]]]]]. trd.
  Qed.
  Lemma trail_rr rF lam fo f g k : tr rF f -> tr lam g -> tr fo k -> rr (q2 tr tr) (utrail rF lam fo) (fun h => trail (f h) (g h) (k h)).
  Proof. intros A B C. unfold utrail, trail. st. apply rr_ret. trd. Qed.

  (* ---- inertia.py ---- *)
  Lemma total_com_rr co CO ms MS : ql (ql tr) co CO -> ql tr ms MS -> rr (q2 tr (ql tr)) (utotal_com co ms) (fun h => total_com (CO h) (MS h)).
  Proof.
    intros H K. unfold utotal_com, total_com. cbv zeta.
    assert (E : forall h, forallb (fun row => Nat.eqb (length row) (length (MS h))) (CO h) = forallb (fun row => Nat.eqb (length row) (length ms)) co).
    { intros h. rewrite (ql_length _ _ _ K h). destruct H as [fs [-> F]]. induction F as [|u f co fs H F IH]; [reflexivity|]. cbn [map forallb]. rewrite (ql_length _ _ _ H h). f_equal. exact IH. }
    eapply rr_ext; [intros h; symmetry; rewrite E; reflexivity|]. cbv beta. destruct (forallb _ co); [|apply rr_err].
    eapply rr_bind.
    - eapply (rr_mapM2 (ql tr) tr); [|apply (ql_map2 _ _ _ _ K H)]. intros row F G. cbv beta. apply rr_div; apply ql_sum; assumption.
    - intros c C HC. apply rr_ret. apply q2_mk; [apply ql_sum, K|exact HC].
  Qed.
  Lemma parallel_axis_tr I m d FI fm fd : qm I FI -> tr m fm -> qv d fd -> qm (uparallel_axis I m d) (fun h => parallel_axis (FI h) (fm h) (fd h)).
  Proof. intros A B C. unfold uparallel_axis, parallel_axis. cbv zeta. trd. Qed.
  Ltac trx ::= lazymatch goal with |- PUnc2.qm _ (uparallel_axis _ _ _) _ => apply parallel_axis_tr; trd end.
  Lemma part_tensor_rr p F part : qd tr p F -> rr qm (upart_inertia_tensor p part) (fun h => part_inertia_tensor (F h) part).
  Proof. intros H. unfold upart_inertia_tensor, part_inertia_tensor. cbv zeta. st. destruct (in_FRD part); repeat st; apply rr_ret; trd. Qed.
  (* three sums *)
  Lemma three_rr {A B} (Q : A -> (R -> B) -> Prop) mT l F (k : unum -> unum -> unum -> unum -> res A) (kk : R -> R -> R -> R -> R -> res B) e :
    q2 tr (ql tr) (mT, l) F ->
    (forall a b c fm f g j, tr mT fm -> tr a f -> tr b g -> tr c j -> rr Q (k mT a b c) (fun h => kk h (fm h) (f h) (g h) (j h))) ->
    rr Q (match (mT, l) with (mT, [a; b; c]) => k mT a b c | _ => Err e end) (fun h => match F h with (mT, [a; b; c]) => kk h mT a b c | _ => Err e end).
  Proof.
    intros [fm [G [-> [M [fs [-> L]]]]]] K. cbn [fst snd] in *.
    inversion L as [|a f l1 fs1 A0 L1]; subst; [apply rr_err|]. inversion L1 as [|b g l2 fs2 B0 L2]; subst; [apply rr_err|].
    inversion L2 as [|c j l3 fs3 C L3]; subst; [apply rr_err|]. inversion L3 as [|d o l4 fs4 D L4]; subst; [|apply rr_err].
    cbn [map]. apply K; assumption.
  Qed.
  Lemma combine_rr p F q G : qd tr p F -> qd tr q G -> rr (qd tr) (ucombine_bike_rider p q) (fun h => combine_bike_rider (F h) (G h)).
  Proof.
    intros A B. unfold ucombine_bike_rider, combine_bike_rider. cbv zeta. repeat st.
    eapply rr_bind; [apply total_com_rr; trd|]. intros [mT l] T HT. apply (three_rr _ mT l T (fun mT cx cy cz => _) (fun h mT cx cy cz => _)); [exact HT|]. clear HT. intros.
    eapply rr_bind; [apply part_tensor_rr; eassumption|]. intros ? ? ?. eapply rr_bind; [apply part_tensor_rr; eassumption|]. intros ? ? ?.
    apply rr_ret. trd.
  Qed.
  Lemma compound_tr m g l T a b c d : tr m a -> tr g b -> tr l c -> tr T d -> tr (ucompound_pendulum_inertia m g l T) (fun h => compound_pendulum_inertia (a h) (b h) (c h) (d h)).
  Proof. intros. unfold ucompound_pendulum_inertia, compound_pendulum_inertia. trd. Qed.
  Lemma tor_tr k T a b : tr k a -> tr T b -> tr (utor_inertia k T) (fun h => tor_inertia (a h) (b h)).
  Proof. intros. unfold utor_inertia, tor_inertia. trd. Qed.
  Lemma stiffness_rr I T a b : tr I a -> tr T b -> rr tr (utorsional_pendulum_stiffness I T) (fun h => torsional_pendulum_stiffness (a h) (b h)).
  Proof. intros. unfold utorsional_pendulum_stiffness, torsional_pendulum_stiffness. apply rr_div; trd. Qed.
  Lemma rotate_tr I F x f : qm I F -> tr x f -> qm (urotate_inertia_tensor I x) (fun h => rotate_inertia_tensor (F h) (f h)).
  Proof. intros. unfold urotate_inertia_tensor, rotate_inertia_tensor. cbv zeta. trd. Qed.
  Lemma beta_row_tr x f : tr x f -> qv (ubeta_row x) (fun h => beta_row (f h)).
  Proof. intros. unfold ubeta_row, beta_row. trd. Qed.
  Lemma outer_tr x f : qv x f -> qm (uouter x) (fun h => outer (f h)).
  Proof. intros. unfold uouter, outer. trd. Qed.
  Lemma v3_sum_tr l F : ql qv l F -> qv (uv3_sum l) (fun h => v3_sum (F h)).
  Proof. intros [fs [-> H]]. induction H as [|u f us fs H1 H IH]; cbn; [apply qv_mk; apply tr_cst|]. apply qv_add; assumption. Qed.
  Lemma m3_sum_tr l F : ql qm l F -> qm (um3_sum l) (fun h => m3_sum (F h)).
  Proof. intros [fs [-> H]]. induction H as [|u f us fs H1 H IH]; cbn; [apply qm_diag; apply tr_cst|]. apply qm_add; assumption. Qed.
  Lemma solve3_rr a F h0 H : qm a F -> qv h0 H -> rr qv (usolve3 a h0) (fun h => solve3 (F h) (H h)).
  Proof.
    intros A B. unfold usolve3, solve3, udet3, det3. cbv zeta. do 3 st. apply rr_ret. trd.
  Qed.
  Lemma components_rr j J b B : ql tr j J -> ql tr b B -> rr qv (uinertia_components j b) (fun h => inertia_components (J h) (B h)).
  Proof.
    intros HJ HB. unfold uinertia_components, inertia_components. cbv zeta.
    eapply rr_ext; [intros h; symmetry; rewrite (ql_length _ _ _ HJ h), (ql_length _ _ _ HB h); reflexivity|]. cbv beta. destruct (Nat.eqb _ _); [|apply rr_err].
    assert (HR : ql qv (map ubeta_row b) (fun h => map beta_row (B h))) by (apply (ql_map tr); [intros; apply beta_row_tr; assumption|exact HB]).
    apply solve3_rr.
    - apply m3_sum_tr. apply (ql_map qv); [intros; apply outer_tr; assumption|exact HR].
    - apply v3_sum_tr. apply (ql_map (q2 tr qv) qv (fun p => uv3_scale (fst p) (snd p)) (fun p => v3_scale (fst p) (snd p))); [|apply ql_combine; assumption].
      intros [x y] g [g1 [g2 [-> [P Q]]]]. cbn [fst snd] in *. apply qv_scale; assumption.
  Qed.
  (* ---- geometry.py ---- *)
  Lemma abc_rr h1 h2 h3 h4 h5 d1 d2 d3 d4 d_ f1 f2 f3 f4 f5 g1 g2 g3 g4 g5 :
    (- (f1 0 + f2 0 - f3 0 + /2 * g1 0 - /2 * g2 0 - (f4 0 - /2 * g3 0 - f5 0 + /2 * g4 0)) ^ 2 + (g5 0 + /2 * (g2 0 + g3 0)) ^ 2 = 0 -> allow) -> tr h1 f1 -> tr h2 f2 -> tr h3 f3 -> tr h4 f4 -> tr h5 f5 -> tr d1 g1 -> tr d2 g2 -> tr d3 g3 -> tr d4 g4 -> tr d_ g5 ->
    rr (q2 (q2 tr tr) tr) (ucalculate_abc_geometry h1 h2 h3 h4 h5 d1 d2 d3 d4 d_)
       (fun h => calculate_abc_geometry (f1 h) (f2 h) (f3 h) (f4 h) (f5 h) (g1 h) (g2 h) (g3 h) (g4 h) (g5 h)).
  Proof. intros AL. intros. unfold ucalculate_abc_geometry, calculate_abc_geometry. cbv zeta. st; [exact AL|]. apply rr_ret. trd. Qed.
  Lemma l1l2_rr a b c d e fa fb fc fd fe : (Rabs ((fb 0 - fa 0 + fc 0 / 2 - fd 0 / 2) / (fe 0 - fc 0 / 2 - fd 0 / 2)) = 1 -> allow) -> tr a fa -> tr b fb -> tr c fc -> tr d fd -> tr e fe ->
    rr (q2 tr tr) (ucalculate_l1_l2 a b c d e) (fun h => calculate_l1_l2 (fa h) (fb h) (fc h) (fd h) (fe h)).
  Proof.
    intros AL. intros. unfold ucalculate_l1_l2, calculate_l1_l2. cbv zeta. eapply rr_bind0; [apply rr_div; trd|]. intros q fq _ E Hq. cbv beta in E.
    st; [|apply rr_ret; trd]. intros Q. apply AL. unfold rdiv in E. destruct (Req_EM_T _ 0); [discriminate|]. rewrite <- Q. f_equal. congruence.
  Qed.
  Lemma fwheel_rr a b c fa fb fc : tr a fa -> tr b fb -> tr c fc ->
    rr (q2 tr tr) (ufwheel_to_handlebar_ref a b c) (fun h => fwheel_to_handlebar_ref (fa h) (fb h) (fc h)).
  Proof. intros. unfold ufwheel_to_handlebar_ref, fwheel_to_handlebar_ref. cbv zeta. do 3 st. apply rr_ret. trd. Qed.
  Lemma norm_rr w F : allow -> qv w F -> rr tr (unorm3 w) (fun h => Ok (norm3 (F h))).
  Proof.
    intros AL H. unfold unorm3, norm3. apply (rr_sqrt' v allow (uv3_dot w w) (fun h => v3_dot (F h) (F h))); [intros _; exact AL|trd|].
    unfold uv3_dot. cbn. generalize (Rle_0_sqr (nom (uvx w))) (Rle_0_sqr (nom (uvy w))) (Rle_0_sqr (nom (uvz w))). unfold Rsqr. lra.
  Qed.
  Lemma hyp_rr x y f g : (f 0 = 0 -> g 0 = 0 -> allow) -> tr x f -> tr y g -> rr tr (uhyp x y) (fun h => Ok (hyp (f h) (g h))).
  Proof.
    intros AL. intros. unfold uhyp, hyp. apply (rr_sqrt' v allow (uadd (upow x 2) (upow y 2)) (fun h => f h ^ 2 + g h ^ 2)); [|trd|].
    { intros Z. generalize (pow2_ge_0 (f 0)) (pow2_ge_0 (g 0)). intros. apply AL; apply Rsqr_0_uniq; unfold Rsqr; lra. }
    cbn. generalize (Rle_0_sqr (nom x)) (Rle_0_sqr (nom y)). unfold Rsqr. lra.
  Qed.
  Lemma p2l_rr a b c fa fb fc : allow -> qv a fa -> qv b fb -> qv c fc -> rr tr (upoint_to_line_distance a b c) (fun h => point_to_line_distance (fa h) (fb h) (fc h)).
  Proof.
    intros AL. intros. unfold upoint_to_line_distance, point_to_line_distance.
    eapply (rr_ext _ _ (fun h => bind (Ok (norm3 _)) (fun n => bind (Ok (norm3 _)) (fun d => rdiv n d)))); [intros h; reflexivity|].
    eapply (rr_bind tr tr _ (fun h => Ok (norm3 (v3_cross (v3_sub (fa h) (fb h)) (v3_sub (fa h) (fc h)))))); [apply norm_rr; [exact AL|trd]|]. intros n fn Hn.
    eapply (rr_bind tr tr _ (fun h => Ok (norm3 (v3_sub (fc h) (fb h))))); [apply norm_rr; [exact AL|trd]|]. intros d fd Hd. apply rr_div; assumption.
  Qed.
  Lemma steer_distance_rr w c lam p fw fc fl fp : allow -> tr w fw -> tr c fc -> tr lam fl -> qv p fp ->
    rr tr (udistance_to_steer_axis w c lam p) (fun h => distance_to_steer_axis (fw h) (fc h) (fl h) (fp h)).
  Proof. intros AL. intros. unfold udistance_to_steer_axis, distance_to_steer_axis. cbv zeta. apply p2l_rr; [exact AL|..]; trd. Qed.
  (* an operation that fails only for lack of a deviation *)
  Lemma rr_bindp {A B} (Q : A -> (R -> B) -> Prop) x f k kk :
    rr tr x (fun h => Ok (f h)) -> (forall a, tr a f -> rr Q (k a) kk) -> rr Q (bind x k) kk.
  Proof.
    destruct x as [a|e].
    - intros [f' [L [H1 H2]]] K. apply K. split.
      + rewrite <- H1. apply locally_singleton in L. congruence.
      + apply (is_derive_ext_loc f'); [|exact H2]. revert L. apply filter_imp. intros h E. congruence.
    - intros E _. destruct e; cbn in E |- *; try (destruct E as [E|E]; [discriminate|right; exact E]). apply locally_singleton in E. discriminate.
  Qed.
  Ltac trx ::= lazymatch goal with
    | |- PUnc2.qm _ (uparallel_axis _ _ _) _ => apply parallel_axis_tr; trd
    | |- PUnc2.qm _ (urotate_inertia_tensor _ _) _ => apply rotate_tr; trd
    | |- PUnc.tr _ (ucompound_pendulum_inertia _ _ _ _) _ => apply compound_tr; trd
    | |- PUnc.tr _ (utor_inertia _ _) _ => apply tor_tr; trd
    end.

  (* the steer axis tilt *)
  Variable sds : dict R.
  Variable newton : (R -> res R) -> R -> res R.
  Variable NF : R -> (R -> res R) -> R -> res R.
  (* what the tilt is calculated from *)
  Definition tilt_inputs (mp : dict unum) : res (unum * unum * (unum * unum * unum)) :=
    dF <- dlook mp "dF" ;; nF <- dlook mp "nF" ;; rF <- udiv (udivc (udivc dF 2) PI) nF ;;
    dR <- dlook mp "dR" ;; nR <- dlook mp "nR" ;; rR <- udiv (udivc (udivc dR 2) PI) nR ;;
    h1 <- dlook mp "h1" ;; h2 <- dlook mp "h2" ;; h3 <- dlook mp "h3" ;; h4 <- dlook mp "h4" ;; h5 <- dlook mp "h5" ;;
    d1 <- dlook mp "d1" ;; d2 <- dlook mp "d2" ;; d3 <- dlook mp "d3" ;; d4 <- dlook mp "d4" ;; d_ <- dlook mp "d" ;;
    abc <- ucalculate_abc_geometry h1 h2 h3 h4 h5 d1 d2 d3 d4 d_ ;; Ok (rF, rR, abc).
  Definition gv (d : dict R) (k : string) : R := match dget d k with Some x => x | None => 0 end.
  Lemma gv_look d k x : dlook d k = Ok x -> x = gv d k.
  Proof. unfold dlook, gv. destruct (dget d k); [congruence|discriminate]. Qed.
  Definition flat (m : dict R) : Prop :=
    - (gv m "h1" + gv m "h2" - gv m "h3" + /2 * gv m "d1" - /2 * gv m "d2" - (gv m "h4" - /2 * gv m "d3" - gv m "h5" + /2 * gv m "d4")) ^ 2 + (gv m "d" + /2 * (gv m "d2" + gv m "d3")) ^ 2 = 0.
  Definition tilt_follows (mp : dict unum) (m0 : dict R) : Prop := (flat m0 -> allow) /\ forall rF rR a b c f g k l m, tilt_inputs mp = Ok (rF, rR, (a, b, c)) ->
    tr rF f -> tr rR g -> tr a k -> tr b l -> tr c m ->
    rr tr (ulambda_from_abc sds newton rF rR a b c) (fun h => lambda_from_abc (NF h) (f h) (g h) (k h) (l h) (m h)).
  Ltac st0 := lazymatch goal with
  | |- PUnc.rr _ _ (bind (dlook _ _) _) _ => eapply rr_bind0; [apply rr_look; trd|intros ? ? ? _ ?]
  | |- PUnc.rr _ _ (bind (udiv _ _) _) _ => eapply rr_bind0; [apply rr_div; trd|intros ? ? ? _ ?]
  end.
  Lemma geometry_rr mp MP p P : qd tr mp MP -> qd tr p P -> dmem mp "w" = true \/ tilt_follows mp (MP 0) ->
    rr (qd tr) (ucalculate_benchmark_geometry sds newton mp p) (fun h => calculate_benchmark_geometry (NF h) (MP h) (P h)).
  Proof.
    intros A B W. unfold ucalculate_benchmark_geometry, calculate_benchmark_geometry. cbv zeta. do 6 st0.
    eapply rr_ext; [intros h; symmetry; rewrite (qd_dmem tr mp MP "w" A h); reflexivity|]. cbv beta.
    eapply (rr_bind (q2 (q2 tr tr) tr)).
    { destruct (dmem mp "w").
      - do 3 st. apply rr_ret. trd.
      - destruct W as [W|[AL W]]; [discriminate|]. do 10 (eapply rr_bind0; [apply rr_look; trd|let E := fresh "E" in intros ? ? ? E ?; apply gv_look in E; cbv beta in E]). eapply rr_bind0; [apply abc_rr; try eassumption; intros Q; apply AL; unfold flat; repeat match goal with E : _ = gv _ _ |- _ => rewrite <- E; clear E end; exact Q|]. intros [[a' b'] c'] F EA _ [F1 [F2 [-> [[G1 [G2 [-> [X Y]]]] Z]]]]. cbn [fst snd] in X, Y, Z. cbv beta iota.
        eapply rr_bind; [apply W; try eassumption|intros lam fl L].
        { unfold tilt_inputs. repeat match goal with E : _ = gv _ _ |- _ => clear E end. repeat match goal with E : _ = Ok _ |- _ => rewrite E; cbn [bind]; clear E end. reflexivity. }
        apply rr_ret. trd. }
    intros [[lam w] fo] F [F1 [F2 [-> [[G1 [G2 [-> [X Y]]]] Z]]]]. cbn [fst snd] in X, Y, Z. cbv beta iota.
    eapply rr_bind; [apply trail_rr; eassumption|]. intros [c cm] F [F1 [F3 [-> [T1 T2]]]]. cbn [fst snd] in *.
    generalize (qd_dget tr mp MP "xcl" A). destruct (dget mp "xcl") as [xcl|].
    - intros [fx [HX EX]]. generalize (qd_dget tr mp MP "zcl" A). destruct (dget mp "zcl") as [zcl|].
      + intros [fz [HZ EZ]]. eapply rr_ext; [intros h; symmetry; rewrite EX, EZ; reflexivity|]. apply rr_ret. trd.
      + intros EZ. eapply rr_ext; [intros h; symmetry; rewrite EX, EZ; reflexivity|]. apply rr_ret. trd.
    - intros EX. eapply rr_ext; [intros h; symmetry; rewrite EX; reflexivity|]. apply rr_ret. trd.
  Qed.

  (* ---- com.py ---- *)
  Lemma intersection_rr a b c d fa fb fc fd : tr a fa -> tr b fb -> tr c fc -> tr d fd ->
    rr (q2 tr tr) (uline_intersection a b c d) (fun h => line_intersection (fa h) (fb h) (fc h) (fd h)).
  Proof. intros. unfold uline_intersection, line_intersection. cbv zeta. do 4 st. apply rr_ret. trd. Qed.
  Lemma centre_rr sl SL ic IC : ql tr sl SL -> ql tr ic IC -> rr (q2 tr tr) (ucenter_of_mass sl ic) (fun h => center_of_mass (SL h) (IC h)).
  Proof.
    intros A B. unfold ucenter_of_mass, center_of_mass. cbv zeta.
    eapply rr_ext; [intros h; symmetry; rewrite (ql_length _ _ _ A h); reflexivity|]. cbv beta.
    destruct (cartesian 0%nat [seq 0 (length sl); seq 0 (length sl)]) as [comb|e]; [|apply rr_err]. cbn [bind].
    eapply rr_bind.
    { apply (rr_mapM (q2 tr tr)). intros row. do 4 st. apply intersection_rr; eassumption. }
    intros ls LS H.
    assert (H1 : ql tr (map fst ls) (fun h => map fst (LS h))) by (apply (ql_map (q2 tr tr)); [intros [x y] f [g1 [g2 [-> [X Y]]]]; exact X|exact H]).
    assert (H2 : ql tr (map snd ls) (fun h => map snd (LS h))) by (apply (ql_map (q2 tr tr)); [intros [x y] f [g1 [g2 [-> [X Y]]]]; exact Y|exact H]).
    eapply rr_ext; [intros h; symmetry; rewrite (ql_length _ _ _ H h); reflexivity|]. cbv beta.
    eapply rr_bind; [apply rr_div; [apply ql_sum; exact H1|apply tr_cst]|]. intros x fx X.
    eapply rr_bind; [apply rr_div; [apply ql_sum; exact H2|apply tr_cst]|]. intros z fz Z. apply rr_ret. trd.
  Qed.
  Lemma com_line_rr alpha a p P part l1 l2 fa fb f1 f2 : tr alpha fa -> tr a fb -> qd tr p P -> tr l1 f1 -> tr l2 f2 ->
    rr (q2 (q2 tr tr) tr) (ucom_line alpha a p part l1 l2) (fun h => com_line (fa h) (fb h) (P h) part (f1 h) (f2 h)).
  Proof.
    intros. unfold ucom_line, com_line. cbv zeta. do 2 st. destruct (String.eqb part "B"); [|destruct (String.eqb part "S" || String.eqb part "H"); [|destruct (String.eqb part "G"); [|apply rr_err]]].
    - do 2 st. apply rr_ret. trd.
    - do 3 st. apply rr_ret. trd.
    - eapply rr_bind; [apply fwheel_rr; eassumption|]. intros [u1 u2] F [F1 [F2 [-> [U1 U2]]]]. cbn [fst snd] in *. do 3 st. apply rr_ret. trd.
  Qed.
  Notation qlines := (q2 (q2 (qd (ql tr)) (qd (ql tr))) (qd (ql tr))).
  Lemma append_rr d D k x f : qd (ql tr) d D -> tr x f -> rr (qd (ql tr)) (uappend_to d k x) (fun h => append_to (D h) k (f h)).
  Proof. intros A B. unfold uappend_to, append_to. eapply rr_bind; [apply rr_look, A|]. intros l L H. apply rr_ret. apply qd_dset; [exact A|]. apply ql_app; [exact H|]. trd. Qed.
  Lemma lines_loop_rr mp MP p P l1 l2 f1 f2 keys : qd tr mp MP -> qd tr p P -> tr l1 f1 -> tr l2 f2 -> forall acc ACC, qlines acc ACC ->
    rr qlines (ucom_lines_loop mp p l1 l2 keys acc) (fun h => com_lines_loop (MP h) (P h) (f1 h) (f2 h) keys (ACC h)).
  Proof.
    intros A B C D. induction keys as [|key keys IH]; intros acc ACC H; cbn [ucom_lines_loop com_lines_loop]; [apply rr_ret; exact H|].
    do 2 st. destruct (schar 5 key) as [part|e]; [|apply rr_err]. cbn [bind].
    eapply rr_bind; [apply com_line_rr; eassumption|]. intros [[m b] beta] F [F1 [F2 [-> [[G1 [G2 [-> [X Y]]]] Z]]]]. cbn [fst snd] in X, Y, Z.
    destruct acc as [[sl ic] be]. destruct H as [SI [BE [-> [[SL [IC [-> [Y1 Y2]]]] Y3]]]]. cbn [fst snd] in Y1, Y2, Y3. cbv beta iota.
    eapply rr_bind; [apply append_rr; eassumption|]. intros ? ? ?. eapply rr_bind; [apply append_rr; eassumption|]. intros ? ? ?. eapply rr_bind; [apply append_rr; eassumption|]. intros ? ? ?.
    apply (IH _ (fun h => (_, _, _))). trd.
  Qed.
  Lemma gv_dset d k' y k : String.eqb k k' = false -> gv (dset d k' y) k = gv d k.
  Proof. intros N. unfold gv. rewrite dget_dset_neq by exact N. reflexivity. Qed.
  (* the steering axis at the handlebar's reference point: no angle can be given a deviation *)
  Definition in_line (m : dict R) : Prop :=
    Rabs ((gv m "h7" - gv m "h6" + gv m "d5" / 2 - gv m "d6" / 2) / (gv m "l" - gv m "d5" / 2 - gv m "d6" / 2)) = 1.
  Ltac stv := lazymatch goal with
  | |- PUnc.rr _ _ (bind (dlook _ _) _) _ => eapply rr_bind0; [apply rr_look; trd|let E := fresh "E" in intros ? ? _ E ?; apply gv_look in E; cbv beta in E; rewrite ?gv_dset in E by reflexivity]
  end.
  Lemma part_lines_rr mp MP p P split : (split = true -> in_line (MP 0) -> allow) -> qd tr mp MP -> qd tr p P -> rr qlines (upart_com_lines mp p split) (fun h => part_com_lines (MP h) (P h) split).
  Proof.
    intros AL A B. unfold upart_com_lines, part_com_lines. cbv zeta. eapply (rr_bind (q2 tr tr)).
    { destruct split; [do 5 stv; apply l1l2_rr; try eassumption; intros Q; apply (AL eq_refl); unfold in_line; rewrite <- Q; congruence|]. apply (rr_ret _ _ (fun _ => (0, 0))). apply (q2_mk tr tr _ (fun _ => 0) _ (fun _ => 0)); apply tr_cst. }
    intros [l1 l2] F [F1 [F2 [-> [X Y]]]]. cbn [fst snd] in *.
    eapply rr_ext; [intros h; symmetry; rewrite (qd_keys tr mp MP A h); reflexivity|]. cbv beta.
    assert (I : qd (ql tr) (if split then [("B", []); ("G", []); ("S", [])] else [("B", []); ("H", [])]) (fun _ => if split then [("B", []); ("G", []); ("S", [])] else [("B", []); ("H", [])])).
    { destruct split; [exists [("B", fun _ => []); ("G", fun _ => []); ("S", fun _ => [])]|exists [("B", fun _ => []); ("H", fun _ => [])]]; (split; [reflexivity|]); repeat (constructor; [split; [reflexivity|apply ql_nil]|]); constructor. }
    apply (lines_loop_rr mp MP p P l1 l2 F1 F2 _ A B X Y _ (fun _ => (_, _, _))). apply q2_mk; [apply q2_mk; exact I|exact I].
  Qed.

  (* ---- main.py ---- *)
  Lemma masses_rr mp MP p P split : qd tr mp MP -> qd tr p P -> rr (qd tr) (ubm_masses mp p split) (fun h => bm_masses (MP h) (P h) split).
  Proof.
    intros A B. unfold ubm_masses, bm_masses. cbv zeta. do 3 st. eapply (rr_bind (qd tr)).
    - eapply (rr_keyerror (qd tr)); [trd|]. do 2 st. apply rr_ret. trd.
    - intros p' P' B'. destruct split; repeat st; apply rr_ret; trd.
  Qed.
  Lemma centres_rr sl SL ic IC : qd (ql tr) sl SL -> qd (ql tr) ic IC -> forall p P, qd tr p P ->
    rr (qd tr) (ubm_centres sl ic p) (fun h => bm_centres (SL h) (IC h) (P h)).
  Proof.
    intros [ds [-> H]] A. induction H as [|[part l] [part' L] sl ds [E H1] H IH]; intros p P B; cbn [ubm_centres bm_centres map]; [apply rr_ret; exact B|].
    cbn [fst snd] in *. subst part'. eapply rr_bind; [apply rr_look, A|]. intros i I HI. eapply rr_bind; [apply centre_rr; eassumption|].
    intros [x z] F [F1 [F2 [-> [X Z]]]]. cbn [fst snd] in *. apply (IH _ (fun h => dset (dset (P h) _ (F1 h)) _ (F2 h))). trd.
  Qed.
  Lemma split_centre_rr p P split : qd tr p P -> rr (qd tr) (ubm_split_centre p split) (fun h => bm_split_centre (P h) split).
  Proof.
    intros A. unfold ubm_split_centre, bm_split_centre. destruct split; [|apply rr_ret; exact A]. repeat st.
    eapply rr_bind; [apply total_com_rr; trd|]. intros [mT l] T HT. apply (three_rr _ mT l T (fun mT cx _ cz => _) (fun h mT cx _ cz => _)); [exact HT|]. clear HT. intros. apply rr_ret. trd.
  Qed.
  Lemma wheels_yy_rr mp MP p P : qd tr mp MP -> qd tr p P -> rr (qd tr) (ubm_wheels_yy mp p) (fun h => bm_wheels_yy (MP h) (P h)).
  Proof.
    intros A B. unfold ubm_wheels_yy, bm_wheels_yy. cbv zeta. do 7 st. eapply (rr_keyerror (qd tr)); [trd|]. do 5 st. apply rr_ret. trd.
  Qed.
  Ltac hypst := eapply rr_bindp; [apply hyp_rr; trd|intros ? ?].
  Definition on_axis (split : bool) (m p : dict R) : Prop :=
    (gv p "xB" = 0 /\ gv p "zB" + gv p "rR" = 0)
    \/ if split then
         (gv p "xS" - gv p "w" = 0 /\ gv p "zS" + gv p "rF" = 0)
         \/ exists l1 l2 u1 u2, calculate_l1_l2 (gv m "h6") (gv m "h7") (gv m "d5") (gv m "d6") (gv m "l") = Ok (l1, l2)
              /\ fwheel_to_handlebar_ref (gv p "lam") l1 l2 = Ok (u1, u2)
              /\ gv p "xG" - gv p "w" + u1 = 0 /\ gv p "zG" + gv p "rF" + u2 = 0
       else gv p "xH" - gv p "w" = 0 /\ gv p "zH" + gv p "rF" = 0.
  Lemma frames_yy_rr mp MP p P split : (split = true -> in_line (MP 0) -> allow) -> (on_axis split (MP 0) (P 0) -> allow) -> qd tr mp MP -> qd tr p P -> rr (qd tr) (ubm_frames_yy mp p split) (fun h => bm_frames_yy (MP h) (P h) split).
  Proof.
    intros AL AX A B. unfold ubm_frames_yy, bm_frames_yy. cbv zeta. do 6 stv. destruct split.
    - eapply rr_bindp; [apply hyp_rr; [|trd|trd]|intros ? ?]; [intros Z1 Z2; apply AX; left; cbv beta in Z1, Z2; split; congruence|].
      do 6 stv. eapply rr_bindp; [apply hyp_rr; [|trd|trd]|intros ? ?]; [intros Z1 Z2; apply AX; right; left; split; congruence|].
      do 5 stv. eapply rr_bind0; [apply l1l2_rr; try eassumption; intros Q; apply (AL eq_refl); unfold in_line; rewrite <- Q; congruence|]. intros [l1 l2] F _ EL [F1 [F2 [-> [L1 L2]]]]. cbn [fst snd] in *. stv.
      eapply rr_bind0; [apply fwheel_rr; eassumption|]. intros [u1 u2] F _ EU [F3 [F4 [-> [U1 U2]]]]. cbn [fst snd] in *. do 4 stv.
      eapply rr_bindp; [apply hyp_rr; [|trd|trd]|intros ? ?]; [|apply rr_ret; trd].
      intros Z1 Z2. apply AX. right. right. exists (F1 0), (F2 0), (F3 0), (F4 0). cbv beta in *. split; [congruence|]. split; [congruence|]. split; congruence.
    - eapply rr_bindp; [apply hyp_rr; [|trd|trd]|intros ? ?]; [intros Z1 Z2; apply AX; left; cbv beta in Z1, Z2; split; congruence|].
      do 6 stv. eapply rr_bindp; [apply hyp_rr; [|trd|trd]|intros ? ?]; [intros Z1 Z2; apply AX; right; split; congruence|]. apply rr_ret. trd.
  Qed.
  Lemma bm_stiffness_rr mp MP : qd tr mp MP -> rr tr (ubm_stiffness mp) (fun h => bm_stiffness (MP h)).
  Proof.
    intros A. unfold ubm_stiffness, bm_stiffness, utube_inertia, tube_inertia. cbv zeta. repeat st. apply stiffness_rr; [|assumption]. trd.
  Qed.
  Lemma wheels_xx_rr mp MP p P k f : qd tr mp MP -> qd tr p P -> tr k f -> rr (qd tr) (ubm_wheels_xx mp p k) (fun h => bm_wheels_xx (MP h) (P h) (f h)).
  Proof.
    intros A B C. unfold ubm_wheels_xx, bm_wheels_xx. cbv zeta. do 2 st. eapply (rr_keyerror (qd tr)); [trd|]. do 2 st. apply rr_ret. trd.
  Qed.
  Lemma part_inertias_rr mp MP k f part n : qd tr mp MP -> tr k f -> rr (ql tr) (ubm_part_inertias mp k part n) (fun h => bm_part_inertias (MP h) (f h) part n).
  Proof. intros A B. unfold ubm_part_inertias, bm_part_inertias. apply rr_mapM. intros i. st. apply rr_ret. trd. Qed.
  Lemma in_plane_rr mp MP k f sl SL be BE : qd tr mp MP -> tr k f -> qd (ql tr) sl SL -> qd (ql tr) be BE -> forall p P pe PE, qd tr p P -> qd (ql tr) pe PE ->
    rr (q2 (qd tr) (qd (ql tr))) (ubm_in_plane mp k sl be p pe) (fun h => bm_in_plane (MP h) (f h) (SL h) (BE h) (P h) (PE h)).
  Proof.
    intros A B [ds [-> H]] C. induction H as [|[part l] [part' L] sl ds [E H1] H IH]; intros p P pe PE D G; cbn [ubm_in_plane bm_in_plane map]; [apply rr_ret; trd|].
    cbn [fst snd] in *. subst part'. eapply rr_bind; [apply rr_look, C|]. intros i I HI. cbv zeta.
    eapply rr_ext; [intros h; symmetry; rewrite (ql_length _ _ _ H1 h); reflexivity|]. cbv beta.
    eapply rr_bind; [apply part_inertias_rr; eassumption|]. intros pen PEN HP. eapply rr_bind; [apply components_rr; eassumption|].
    intros J FJ HJ. apply (IH _ (fun h => dset (dset (dset (P h) _ _) _ _) _ _) _ (fun h => dset (PE h) _ _)); trd.
  Qed.
  Lemma split_inertia_rr p P split : qd tr p P -> rr (qd tr) (ubm_split_inertia p split) (fun h => bm_split_inertia (P h) split).
  Proof.
    intros A. unfold ubm_split_inertia, bm_split_inertia. destruct split; [|apply rr_ret; exact A].
    eapply rr_bind; [apply part_tensor_rr; eassumption|]. intros ? ? ?. eapply rr_bind; [apply part_tensor_rr; eassumption|]. intros ? ? ?. repeat st. cbv zeta.
    eapply rr_bind; [apply total_com_rr; trd|]. intros [mT l] T HT. apply (three_rr _ mT l T (fun mT cx _ cz => _) (fun h mT cx _ cz => _)); [exact HT|]. clear HT. intros. apply rr_ret. trd.
  Qed.
  Definition qx (x : uextras) (F : R -> extras) : Prop :=
    qd (ql tr) (uex_slopes x) (fun h => ex_slopes (F h)) /\ qd (ql tr) (uex_intercepts x) (fun h => ex_intercepts (F h))
    /\ qd (ql tr) (uex_betas x) (fun h => ex_betas (F h)) /\ qd (ql tr) (uex_pendulum x) (fun h => ex_pendulum (F h)).
  (* main.py up to line 1626 *)
  Definition so_far (newton : (R -> res R) -> R -> res R) (mp : dict R) : res (dict R) :=
    let split := is_fork_split mp in
    par <- calculate_benchmark_geometry newton mp [] ;;
    par <- bm_masses mp par split ;;
    '(sl, ic, be) <- part_com_lines mp par split ;;
    par <- bm_centres sl ic par ;;
    par <- bm_split_centre par split ;;
    bm_wheels_yy mp par.
  Lemma measured_rr mp MP : qd tr mp MP -> dmem mp "w" = true \/ tilt_follows mp (MP 0) ->
    (is_fork_split mp = true -> in_line (MP 0) -> allow) -> (forall p, so_far (NF 0) (MP 0) = Ok p -> on_axis (is_fork_split mp) (MP 0) p -> allow) ->
    rr (q2 (qd tr) qx) (ucalculate_benchmark_from_measured sds newton mp) (fun h => calculate_benchmark_from_measured (NF h) (MP h)).
  Proof.
    intros A W AL AX. unfold ucalculate_benchmark_from_measured, calculate_benchmark_from_measured. unfold so_far in AX. cbv zeta in AX |- *.
    assert (E : forall h, is_fork_split (MP h) = is_fork_split mp) by (intros h; unfold is_fork_split; rewrite (qd_keys tr mp MP A h); reflexivity).
    eapply rr_ext; [intros h; symmetry; rewrite (E h); reflexivity|]. cbv beta. rewrite E in AX. revert AL AX. set (split := is_fork_split mp). clearbody split. clear E. intros AL AX.
    eapply rr_bind0; [apply (geometry_rr mp MP [] (fun _ => [])); [exact A|apply qd_nil|exact W]|]. intros p1 P1 _ X B1. cbv beta in X. rewrite X in AX. cbn [bind] in AX. clear X.
    eapply rr_bind0; [apply masses_rr; eassumption|]. intros p2 P2 _ X B2. cbv beta in X. rewrite X in AX. cbn [bind] in AX. clear X.
    eapply rr_bind0; [apply part_lines_rr; eassumption|]. intros [[sl ic] be] F _ X [SI [BE [-> [[SL [IC [-> [Y1 Y2]]]] Y3]]]]. cbn [fst snd] in Y1, Y2, Y3. cbv beta in X. rewrite X in AX. cbn [bind] in AX. clear X. cbv beta iota in AX |- *.
    eapply rr_bind0; [apply centres_rr; eassumption|]. intros p3 P3 _ X B3. cbv beta in X. rewrite X in AX. cbn [bind] in AX. clear X.
    eapply rr_bind0; [apply split_centre_rr; eassumption|]. intros p4 P4 _ X B4. cbv beta in X. rewrite X in AX. cbn [bind] in AX. clear X.
    eapply rr_bind0; [apply wheels_yy_rr; eassumption|]. intros p5 P5 _ X B5. cbv beta in X. specialize (AX _ X).
    eapply rr_bind; [apply frames_yy_rr; eassumption|]. intros p6 P6 B6.
    eapply rr_bind; [apply bm_stiffness_rr; eassumption|]. intros k fk K.
    eapply rr_bind; [apply wheels_xx_rr; eassumption|]. intros p7 P7 B7.
    eapply rr_bind; [apply (in_plane_rr mp MP k fk sl SL be BE A K Y1 Y3 p7 P7 [] (fun _ => [])); [exact B7|apply qd_nil]|]. intros [p8 pe] F [P8 [PE [-> [B8 B9]]]]. cbn [fst snd] in B8, B9. cbv beta iota.
    eapply rr_bind; [apply split_inertia_rr; eassumption|]. intros p9 P9 B10.
    apply rr_ret. apply q2_mk; [exact B10|]. unfold qx. cbn. sp; assumption.
  Qed.
  Definition recode {A} (m : string) (x : res A) : res A := match x with Err (KeyError _) => Err (ValueError m) | _ => x end.
  Lemma rr_recode {A B} (Q : A -> (R -> B) -> Prop) m x y : rr Q x y -> rr Q (recode m x) (fun h => recode m (y h)).
  Proof.
    unfold recode.
    destruct x as [a|e].
    - intros [g [L G]]. exists g. split; [|exact G]. revert L. apply filter_imp. intros h ->. reflexivity.
    - destruct e; cbn; intros E; try (destruct E as [E|E]; [left; rewrite E; reflexivity|right; exact E]). left. apply locally_singleton in E. rewrite E. reflexivity.
  Qed.
  Lemma steer_part_rr p P X : qd tr p P -> rr (q2 (q2 (q2 qm tr) tr) tr) (usteer_part p X) (fun h => steer_part (P h) X).
  Proof. intros A. unfold usteer_part, steer_part. eapply rr_bind; [apply part_tensor_rr; eassumption|]. intros ? ? ?. do 3 st. apply rr_ret. trd. Qed.
  Lemma steer_rr p P hb fk wh ab : (ab = true -> allow) -> qd tr p P -> rr qm (usteer_assembly p hb fk wh ab) (fun h => steer_assembly (P h) hb fk wh ab).
  Proof.
    intros AL A. unfold usteer_assembly, steer_assembly. eapply (rr_bind (q2 (q2 (q2 qm tr) tr) tr)).
    { match goal with |- rr _ ?x _ => replace x with (recode "The fork and handlebar were not measured separately for this bicycle." (if fk && hb then usteer_part p "H" else if fk then usteer_part p "S" else if hb then usteer_part p "G" else Ok (um3_diag (ucst 0) (ucst 0) (ucst 0), ucst 0, ucst 0, ucst 0)))
        by (destruct (if fk && hb then usteer_part p "H" else if fk then usteer_part p "S" else if hb then usteer_part p "G" else Ok (um3_diag (ucst 0) (ucst 0) (ucst 0), ucst 0, ucst 0, ucst 0)) as [|[]]; reflexivity) end.
      apply (rr_ext _ _ (fun h => recode "The fork and handlebar were not measured separately for this bicycle." (if fk && hb then steer_part (P h) "H" else if fk then steer_part (P h) "S" else if hb then steer_part (P h) "G" else Ok (m3_diag 0 0 0, 0, 0, 0))));
        [intros h; destruct (if fk && hb then steer_part (P h) "H" else if fk then steer_part (P h) "S" else if hb then steer_part (P h) "G" else Ok (m3_diag 0 0 0, 0, 0, 0)) as [|[]]; reflexivity|].
      apply (rr_recode _ _ _ (fun h => if fk && hb then steer_part (P h) "H" else if fk then steer_part (P h) "S" else if hb then steer_part (P h) "G" else Ok (m3_diag 0 0 0, 0, 0, 0))). destruct (fk && hb); [apply steer_part_rr, A|]. destruct fk; [apply steer_part_rr, A|]. destruct hb; [apply steer_part_rr, A|].
      apply (rr_ret _ _ (fun _ => (m3_diag 0 0 0, 0, 0, 0))). apply (q2_mk (q2 (q2 qm tr) tr) tr _ (fun _ => (m3_diag 0 0 0, 0, 0)) _ (fun _ => 0)); [|apply tr_cst].
      apply (q2_mk (q2 qm tr) tr _ (fun _ => (m3_diag 0 0 0, 0)) _ (fun _ => 0)); [|apply tr_cst]. apply (q2_mk qm tr _ (fun _ => m3_diag 0 0 0) _ (fun _ => 0)); [|apply tr_cst].
      apply (qm_diag _ _ _ (fun _ => 0) (fun _ => 0) (fun _ => 0)); apply tr_cst. }
    intros [[[J m] x] z] F [F1 [fz [-> [[F2 [fx [-> [[FJ [fm [-> [HJ Hm]]]] Hx]]]] Hz]]]]. cbn [fst snd] in *. cbv beta iota.
    eapply (rr_bind (q2 (q2 tr qv) qm)).
    { destruct wh.
      - do 3 st. eapply rr_bind; [apply total_com_rr; trd|]. intros [mT l] T HT. cbv zeta. apply (three_rr _ mT l T (fun mT cx cy cz => _) (fun h mT cx cy cz => _)); [exact HT|]. clear HT. intros.
        eapply rr_bind; [apply part_tensor_rr; eassumption|]. intros ? ? ?. st. apply rr_ret. trd.
      - st. apply rr_ret. trd. }
    intros [[mA cA] iR] G [G1 [G2 [-> [[G3 [G4 [-> [X Y]]]] Z]]]]. cbn [fst snd] in *. cbv beta iota. destruct ab; [|apply rr_ret; exact Z].
    do 3 st. eapply rr_bind; [apply steer_distance_rr; [exact (AL eq_refl)|eassumption..]|]. intros ? ? ?. apply rr_ret. trd.
  Qed.
End Functions.
