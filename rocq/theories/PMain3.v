(* PMain3.v -- exact measurements give the parameters of the real bicycle (C47) *)
From Verif Require Import Base PBase MString MVec MBicycle MInertia MGeometry MPeriod MMain SBicycle SInertia SGeometry SMain
  PBicycle PInertia PInertia2 PInertia3 PString PGeometry PGeometry2 PGeometry3 PPeriod PPeriod2 PPeriod3 PMain PMain2.
From Coq Require Import Lra Permutation Sorted.
Local Open Scope string_scope.
Local Open Scope R_scope.

Lemma part_swing mp T k X ref n m g l Tc : exact_part mp T k X ref n -> dget mp ("m" ++ X) = Some m -> rb_g T = g ->
  dget mp ("Tc" ++ X ++ "1") = Some Tc -> l = sqrt (sqdist2 (b_x (rb_part T X), b_z (rb_part T X)) ref) ->
  compound_pendulum_inertia m g l Tc = b_yy (rb_part T X).
Proof.
  intros (M & _ & Tc' & TC & TN & O) HM HG HT HL. rewrite M in HM. injection HM as <-. rewrite TC in HT. injection HT as ->.
  cbv zeta in O. rewrite <- HL, HG in O. apply compound_spec in O; auto.
Qed.
Lemma alpha_present mp T k X ref n : exact_part mp T k X ref n -> forall i, (1 <= i <= n)%nat -> In (alpha_name X i) (dkeys mp).
Proof. intros (_ & H & _) i Hi. destruct (H i Hi) as (al & a & Tt & r & u & A & _). apply dget_some_in. exists al. exact A. Qed.
Lemma wheel_facts mp T k X wh m l Tc Tt : exact_wheel mp T k X wh -> dget mp ("m" ++ X) = Some m -> dget mp ("l" ++ X) = Some l ->
  dget mp ("Tc" ++ X ++ "1") = Some Tc -> dget mp ("Tt" ++ X ++ "1") = Some Tt ->
  m = w_m wh /\ compound_pendulum_inertia m (rb_g T) l Tc = w_yy wh /\ tor_inertia k Tt = w_xx wh.
Proof.
  intros (M & l' & Tc' & Tt' & A & B & C & N1 & N2 & O1 & O2) HM HL HT HT'. rewrite M in HM. injection HM as <-. split; [reflexivity|].
  rewrite A in HL. rewrite B in HT. rewrite C in HT'. injection HL as ->. injection HT as ->. injection HT' as ->.
  apply compound_spec in O1; [|exact N1]. apply torsional_spec in O2; [|exact N2]. auto.
Qed.
Ltac notin := intros X__; cbn [In] in X__; repeat (destruct X__ as [X__|X__]; [discriminate X__|]); exact X__.

Section Whole.
Variables (newton : (R -> res R) -> R -> res R) (mp : dict R) (T : rbike) (k : R) (n : string -> nat).
Hypothesis EX : exact_measurements_whole newton mp T k n.
Lemma whole_exact par ex : calculate_benchmark_from_measured newton mp = Ok (par, ex) ->
  forall key v, In (key, v) (common_entries T ++ body_entries "H" (rb_part T "H"))%list -> dget par key = Some v.
Proof.
  destruct EX as (NS & EG & ON & Gg & ER & EF & ERw & EB & EH).
  intros H. unfold calculate_benchmark_from_measured in H.
  assert (SP : is_fork_split mp = false).
  { destruct (is_fork_split mp) eqn:E; [|reflexivity]. apply fork_split_iff in E. destruct E as (key & I1 & E). destruct (NS key I1). tauto. }
  rewrite SP in H. cbv zeta in H. step_bind H. rename x into p0. destruct (geom_exact _ _ _ _ EG E) as (W0 & C0 & L0 & F0 & R0 & CL). clear E.
  step_bind H. rename x into p1. apply masses_inv in E. destruct E as (FR1 & MB & MF & MR & _ & MH).
  step_bind H. destruct x as [[sl ic] be]. pose proof (lines_keys _ _ _ _ _ _ E) as (K1 & K2 & K3).
  apply part_com_lines_ok in E. destruct E as (l1 & l2 & es & _ & ES & _ & EL).
  destruct (EL "B") as (SB & IB & BB); [cbn; auto|]. destruct (EL "H") as (SH & IH & BH); [cbn; auto|]. clear EL.
  assert (PLT : forall Y, In Y ["B"; "H"] -> part_letter Y) by (unfold part_letter; cbn [In]; intros Y; tauto).
  assert (W1 : dget p1 "w" = Some (rb_w T)) by (rewrite FR1 by notin; exact W0).
  assert (L1 : dget p1 "lam" = Some (rb_lam T)) by (rewrite FR1 by notin; exact L0).
  assert (F1 : dget p1 "rF" = Some (w_r (rb_F T))) by (rewrite FR1 by notin; exact F0).
  assert (R1 : dget p1 "rR" = Some (w_r (rb_R T))) by (rewrite FR1 by notin; exact R0).
  assert (LB : _) by (exact (part_lines mp p1 ["B"; "H"] n "B" l1 l2 es ON PLT (or_introl eq_refl) (alpha_present _ _ _ _ _ _ EB) ES)).
  assert (LH : _) by (exact (part_lines mp p1 ["B"; "H"] n "H" l1 l2 es ON PLT (or_intror (or_introl eq_refl)) (alpha_present _ _ _ _ _ _ EH) ES)).
  assert (RB : reference_point (pv p1 "w") (pv p1 "rR") (pv p1 "rF") (pv p1 "lam") "B" l1 l2 = rear_hub T).
  { unfold reference_point, rear_hub. cbn [String.eqb Ascii.eqb Bool.eqb]. rewrite (pv_get _ _ _ R1). reflexivity. }
  assert (RH : reference_point (pv p1 "w") (pv p1 "rR") (pv p1 "rF") (pv p1 "lam") "H" l1 l2 = front_hub T).
  { unfold reference_point, front_hub. cbn [String.eqb Ascii.eqb Bool.eqb]. rewrite (pv_get _ _ _ F1), (pv_get _ _ _ W1). reflexivity. }
  pose proof (part_centre mp p1 T k "B" _ _ l1 l2 _ L1 RB EB LB) as CB. pose proof (part_centre mp p1 T k "H" _ _ l1 l2 _ L1 RH EH LH) as CH.
  pose proof (part_inertia mp p1 T k "B" _ _ l1 l2 _ L1 RB EB LB) as JB. pose proof (part_inertia mp p1 T k "H" _ _ l1 l2 _ L1 RH EH LH) as JH.
  assert (NBH : "B" <> "H") by discriminate. pose proof (dict2 sl _ _ _ _ NBH K1 SB SH) as ->. clear NBH.
  step_bind H. rename x into p2. cbn [bm_centres] in E. unfold dlook at 1 in E. rewrite IB in E. cbn [bind] in E. step_bind E.
  apply CB in E0. subst x. unfold dlook at 1 in E. rewrite IH in E. cbn [bind] in E. step_bind E. apply CH in E0. subst x. cbn [fst snd] in E.
  injection E as <-. cbn [append] in H.
  step_bind H. cbn [bm_split_centre] in E. injection E as <-. clear CB CH LB LH ES SB SH IB IH K1 K2 K3.
  set (p2 := dset (dset (dset (dset p1 "xB" _) "zB" _) "xH" _) "zH" _) in H.
  step_bind H. rename x into p4. apply wheels_yy_inv in E. destruct E as (g & mF & lF & TF & mR & lR & TR & A1 & A2 & A3 & A4 & A5 & A6 & A7 & FR4 & G4 & YF & YR & _).
  assert (HG : g = rb_g T) by congruence. rewrite HG in *. clear HG A1.
  step_bind H. rename x into p5. apply frames_yy_whole in E.
  destruct E as (xB & zB & rR & mB & g' & TB & hx & w & hz & rF & mH & TH & B1 & B2 & B3 & B4 & B5 & B6 & B7 & B8 & B9 & B10 & B11 & B12 & FR5 & YB & YH).
  assert (HG : g' = rb_g T) by congruence. rewrite HG in *. clear HG.
  rewrite FR4 in B1, B2, B3, B7, B8, B9, B10 by notin. unfold p2 in B1, B2, B3, B7, B8, B9, B10.
  revert B1 B2 B3 B7 B8 B9 B10. dg. intros B1 B2 B3 B7 B8 B9 B10. rewrite R1 in B3. rewrite W1 in B8. rewrite F1 in B10.
  injection B1 as <-. injection B2 as <-. injection B3 as <-. injection B7 as <-. injection B8 as <-. injection B9 as <-. injection B10 as <-.
  rewrite (part_swing mp T k "B" _ _ _ _ _ _ EB B4 eq_refl B6) in YB.
  2:{ unfold hyp, sqdist2, rear_hub. cbn [fst snd]. f_equal. ring. }
  rewrite (part_swing mp T k "H" _ _ _ _ _ _ EH B11 eq_refl B12) in YH.
  2:{ unfold hyp, sqdist2, front_hub. cbn [fst snd]. f_equal. ring. }
  step_bind H. apply (stiffness_exact _ _ _ ER) in E. subst x.
  step_bind H. rename x into p6. apply wheels_xx_inv in E. destruct E as (TtF & TtR & D1 & D2 & FR6 & XF & XR & _).
  destruct (wheel_facts mp T k "F" _ _ _ _ _ EF A2 A3 A4 D1) as (WF1 & WF2 & WF3). rewrite WF2 in YF. rewrite WF3 in XF.
  destruct (wheel_facts mp T k "R" _ _ _ _ _ ERw A5 A6 A7 D2) as (WR1 & WR2 & WR3). rewrite WR2 in YR. rewrite WR3 in XR.
  step_bind H. destruct x as [p7 pend]. cbn [bm_in_plane] in E. unfold dlook at 1 in E. rewrite BB in E. cbn [bind] in E.
  apply bind_ok in E. destruct E as (penJB & E0 & E). apply bind_ok in E. destruct E as (qJB & E1 & E). apply (JB _ _ E0) in E1. subst qJB. clear E0. cbn [vx vy vz] in E.
  unfold dlook at 1 in E. rewrite BH in E. cbn [bind] in E.
  apply bind_ok in E. destruct E as (penJH & E0 & E). apply bind_ok in E. destruct E as (qJH & E1 & E). apply (JH _ _ E0) in E1. subst qJH. clear E0. cbn [vx vy vz] in E. injection E as <- _. cbn [append] in H.
  step_bind H. cbn [bm_split_inertia] in E. injection E as <-. injection H as <- _.
  destruct EB as (mBe & _), EH as (mHe & _). cbn [append] in mBe, mHe.
  intros key v HI. unfold common_entries, wheel_entries, body_entries in HI. cbn [app append In] in HI.
  repeat (destruct HI as [HI|HI]; [injection HI as <- <-|]); [..|contradiction]; dg; try reflexivity;
    repeat first [assumption | rewrite FR6 by notin | rewrite FR5 by notin | rewrite FR4 by notin
      | progress (unfold p2; dg) | reflexivity | rewrite FR1 by notin | congruence].
Qed.
End Whole.

(* the masses and mass centre of two parts *)
Lemma tcom2 m1 x1 z1 m2 x2 z2 tc : total_com [[x1; x2]; [0; 0]; [z1; z2]] [m1; m2] = Ok tc ->
  m1 + m2 <> 0 /\ exists cx cz, tc = (m1 + m2, [cx; 0; cz]) /\ (m1 + m2) * cx = m1 * x1 + m2 * x2 /\ (m1 + m2) * cz = m1 * z1 + m2 * z2.
Proof.
  unfold total_com. cbn [forallb length Nat.eqb andb combine map fst snd mapM rsum fold_right bind].
  unfold rsum; cbn [fold_right]. unfold rdiv. destruct (Req_EM_T (m1 + (m2 + 0)) 0) as [Z|NZ]; [discriminate|]. cbn [bind].
  intros H. injection H as <-. assert (Q : m1 + (m2 + 0) = m1 + m2) by ring. rewrite Q in *. split; [exact NZ|].
  do 2 eexists. split.
  - apply f_equal2; [reflexivity|]. apply f_equal2; [reflexivity|]. apply f_equal2; [|reflexivity]. field. exact NZ.
  - split; field; exact NZ.
Qed.
Lemma l12_unique h6 h7 d5 d6 l a b c d : calculate_l1_l2 h6 h7 d5 d6 l = Ok (a, b) ->
  (let l0 := l - d5 / 2 - d6 / 2 in c = (h7 - d6 / 2) - (h6 - d5 / 2) /\ 0 <= l0 * d /\ c ^ 2 + d ^ 2 = l0 ^ 2) -> a = c /\ b = d.
Proof.
  intros H (C1 & C2 & C3). assert (K : calculate_l1_l2 h6 h7 d5 d6 l = Ok (c, d)).
  { apply l12_spec. apply l12_spec in H. cbv zeta in *. repeat split; tauto. }
  rewrite K in H. injection H as -> ->. auto.
Qed.
Lemma union_ok (a b : rbody) hx hz : let mH := b_m a + b_m b in
  mH * hx = b_m a * b_x a + b_m b * b_x b -> mH * hz = b_m a * b_z a + b_m b * b_z b ->
  let J := m3_add (parallel_axis (tensor_of b) (b_m b) (mk3 (b_x b - hx) 0 (b_z b - hz)))
                  (parallel_axis (tensor_of a) (b_m a) (mk3 (b_x a - hx) 0 (b_z a - hz))) in
  is_union a b (mkrbody mH hx hz (vx (r1 J)) (vz (r1 J)) (vy (r2 J)) (vz (r3 J))).
Proof.
  intros mH HX HZ J. unfold is_union; cbn [b_m b_x b_z]. split; [reflexivity|]. split; [exact HX|]. split; [exact HZ|].
  intros [ox oy oz] [nx ny nz]. unfold body_moment, rigid_moment, J; cbn [b_m b_x b_z b_xx b_xz b_yy b_zz].
  unfold tensor_of, parallel_axis, moment, sqnorm. vsimpl.
  unfold mH in *. clear J mH.
  assert (SX : b_m a * (b_x a - hx) + b_m b * (b_x b - hx) = 0) by lra.
  assert (SZ : b_m a * (b_z a - hz) + b_m b * (b_z b - hz) = 0) by lra.
  set (ex := hx - ox). set (ey := 0 - oy). set (ez := hz - oz).
  apply Rminus_diag_uniq.
  transitivity (-2 * ((nz * (nz * ex - nx * ez) - ny * (nx * ey - ny * ex)) * (b_m a * (b_x a - hx) + b_m b * (b_x b - hx))
                  + (ny * (ny * ez - nz * ey) - nx * (nz * ex - nx * ez)) * (b_m a * (b_z a - hz) + b_m b * (b_z b - hz)))).
  - unfold ex, ey, ez. cbn [b_m b_x b_z b_xx b_xz b_yy b_zz]. ring.
  - rewrite SX, SZ. ring.
Qed.

Section Split.
Variables (newton : (R -> res R) -> R -> res R) (mp : dict R) (T : rbike) (k : R) (n : string -> nat).
Hypothesis EX : exact_measurements_split newton mp T k n.
Lemma split_exact par ex : calculate_benchmark_from_measured newton mp = Ok (par, ex) ->
  exists H, is_union (rb_part T "S") (rb_part T "G") H /\
  forall key v, In (key, v) (common_entries T ++ body_entries "S" (rb_part T "S") ++ body_entries "G" (rb_part T "G") ++ body_entries "H" H)%list ->
    dget par key = Some v.
Proof.
  destruct EX as (EG & ON & Gg & ER & EF & ERw & EB & ESp & l1 & l2 & EL12 & EL0 & ELn & EGp). cbv zeta in *.
  intros H. unfold calculate_benchmark_from_measured in H.
  assert (SP : is_fork_split mp = true).
  { apply fork_split_iff. exists "mS". split; [|right; reflexivity]. apply dget_some_in. destruct ESp as (M & _). eauto. }
  rewrite SP in H. cbv zeta in H. step_bind H. rename x into p0. destruct (geom_exact _ _ _ _ EG E) as (W0 & C0 & L0 & F0 & R0 & CL). clear E.
  step_bind H. rename x into p1. apply masses_inv in E. destruct E as (FR1 & MB & MF & MR & _ & MS & MG).
  step_bind H. destruct x as [[sl ic] be]. pose proof (lines_keys _ _ _ _ _ _ E) as (K1 & K2 & K3).
  apply part_com_lines_ok in E. destruct E as (l1' & l2' & es & HL & ES & _ & EL).
  destruct (l12_unique _ _ _ _ _ _ _ l1 l2 HL) as [-> ->]; [cbv zeta; auto|].
  destruct (EL "B") as (SB & IB & BB); [cbn; auto|]. destruct (EL "G") as (SG & IG & BG); [cbn; auto|]. destruct (EL "S") as (SS & IS & BS); [cbn; auto|]. clear EL.
  assert (PLT : forall Y, In Y ["B"; "G"; "S"] -> part_letter Y) by (unfold part_letter; cbn [In]; intros Y; tauto).
  assert (W1 : dget p1 "w" = Some (rb_w T)) by (rewrite FR1 by notin; exact W0).
  assert (L1 : dget p1 "lam" = Some (rb_lam T)) by (rewrite FR1 by notin; exact L0).
  assert (F1 : dget p1 "rF" = Some (w_r (rb_F T))) by (rewrite FR1 by notin; exact F0).
  assert (R1 : dget p1 "rR" = Some (w_r (rb_R T))) by (rewrite FR1 by notin; exact R0).
  assert (LB : _) by (exact (part_lines mp p1 ["B"; "G"; "S"] n "B" l1 l2 es ON PLT (or_introl eq_refl) (alpha_present _ _ _ _ _ _ EB) ES)).
  assert (LG : _) by (exact (part_lines mp p1 ["B"; "G"; "S"] n "G" l1 l2 es ON PLT (or_intror (or_introl eq_refl)) (alpha_present _ _ _ _ _ _ EGp) ES)).
  assert (LS : _) by (exact (part_lines mp p1 ["B"; "G"; "S"] n "S" l1 l2 es ON PLT (or_intror (or_intror (or_introl eq_refl))) (alpha_present _ _ _ _ _ _ ESp) ES)).
  assert (RB : reference_point (pv p1 "w") (pv p1 "rR") (pv p1 "rF") (pv p1 "lam") "B" l1 l2 = rear_hub T).
  { unfold reference_point, rear_hub. cbn [String.eqb Ascii.eqb Bool.eqb]. rewrite (pv_get _ _ _ R1). reflexivity. }
  assert (RS : reference_point (pv p1 "w") (pv p1 "rR") (pv p1 "rF") (pv p1 "lam") "S" l1 l2 = front_hub T).
  { unfold reference_point, front_hub. cbn [String.eqb Ascii.eqb Bool.eqb]. rewrite (pv_get _ _ _ F1), (pv_get _ _ _ W1). reflexivity. }
  set (gref := (rb_w T + l1 * cos (rb_lam T) - l2 * sin (rb_lam T), - w_r (rb_F T) - l1 * sin (rb_lam T) - l2 * cos (rb_lam T))) in EGp.
  assert (RG : reference_point (pv p1 "w") (pv p1 "rR") (pv p1 "rF") (pv p1 "lam") "G" l1 l2 = gref).
  { unfold reference_point, gref. cbn [String.eqb Ascii.eqb Bool.eqb]. rewrite (pv_get _ _ _ F1), (pv_get _ _ _ W1), (pv_get _ _ _ L1). reflexivity. }
  pose proof (part_centre mp p1 T k "B" _ _ l1 l2 _ L1 RB EB LB) as CB. pose proof (part_centre mp p1 T k "G" _ _ l1 l2 _ L1 RG EGp LG) as CG.
  pose proof (part_centre mp p1 T k "S" _ _ l1 l2 _ L1 RS ESp LS) as CS.
  pose proof (part_inertia mp p1 T k "B" _ _ l1 l2 _ L1 RB EB LB) as JB. pose proof (part_inertia mp p1 T k "G" _ _ l1 l2 _ L1 RG EGp LG) as JG.
  pose proof (part_inertia mp p1 T k "S" _ _ l1 l2 _ L1 RS ESp LS) as JS.
  assert (N1 : "B" <> "G") by discriminate. assert (N2 : "B" <> "S") by discriminate. assert (N3 : "G" <> "S") by discriminate.
  pose proof (dict3 sl _ _ _ _ _ _ N1 N2 N3 K1 SB SG SS) as ->. clear N1 N2 N3.
  step_bind H. rename x into p2. cbn [bm_centres] in E.
  unfold dlook at 1 in E. rewrite IB in E. cbn [bind] in E. step_bind E. apply CB in E0. subst x.
  unfold dlook at 1 in E. rewrite IG in E. cbn [bind] in E. step_bind E. apply CG in E0. subst x.
  unfold dlook at 1 in E. rewrite IS in E. cbn [bind] in E. step_bind E. apply CS in E0. subst x. cbn [fst snd] in E.
  injection E as <-. cbn [append] in H. clear CB CG CS LB LG LS ES SB SG SS IB IG IS K1 K2 K3.
  set (p2 := dset (dset (dset (dset (dset (dset p1 "xB" _) "zB" _) "xG" _) "zG" _) "xS" _) "zS" _) in H.
  step_bind H. rename x into p3.
  assert (FR3 : forall key, ~ In key ["mH"; "xH"; "zH"] -> dget p3 key = dget p2 key).
  { unfold bm_split_centre in E. do 6 step_bind E. step_bind E. destruct x5 as [mH [|cx [|cy [|cz [|? ?]]]]]; try discriminate. injection E as <-. frame. }
  clear E.
  step_bind H. rename x into p4. apply wheels_yy_inv in E. destruct E as (g & mF & lF & TF & mR & lR & TR & A1 & A2 & A3 & A4 & A5 & A6 & A7 & FR4 & G4 & YF & YR & _).
  assert (HG : g = rb_g T) by congruence. rewrite HG in *. clear HG A1.
  step_bind H. rename x into p5. apply frames_yy_split in E.
  destruct E as (xB & zB & rR & mB & g' & TB & xS & w & zS & rF & mS & TS & l1' & l2' & lam & u1 & u2 & xG & zG & mG & TG
      & B1 & B2 & B3 & B4 & B5 & B6 & B7 & B8 & B9 & B10 & B11 & B12 & HL' & B13 & HU & B14 & B15 & B16 & B17 & FR5 & YB & YS & YG).
  assert (HG : g' = rb_g T) by congruence. rewrite HG in *. clear HG.
  rewrite HL in HL'. injection HL' as <- <-.
  rewrite FR4 in B1, B2, B3, B7, B8, B9, B10, B13, B14, B15 by notin.
  rewrite FR3 in B1, B2, B3, B7, B8, B9, B10, B13, B14, B15 by notin. unfold p2 in B1, B2, B3, B7, B8, B9, B10, B13, B14, B15.
  revert B1 B2 B3 B7 B8 B9 B10 B13 B14 B15. dg. intros B1 B2 B3 B7 B8 B9 B10 B13 B14 B15.
  rewrite R1 in B3. rewrite W1 in B8. rewrite F1 in B10. rewrite L1 in B13.
  injection B1 as <-. injection B2 as <-. injection B3 as <-. injection B7 as <-. injection B8 as <-. injection B9 as <-. injection B10 as <-.
  injection B13 as <-. injection B14 as <-. injection B15 as <-.
  apply handlebar_spec in HU. destruct HU as (_ & _ & U1 & U2).
  rewrite (part_swing mp T k "B" _ _ _ _ _ _ EB B4 eq_refl B6) in YB.
  2:{ unfold hyp, sqdist2, rear_hub. cbn [fst snd]. f_equal. ring. }
  rewrite (part_swing mp T k "S" _ _ _ _ _ _ ESp B11 eq_refl B12) in YS.
  2:{ unfold hyp, sqdist2, front_hub. cbn [fst snd]. f_equal. ring. }
  rewrite (part_swing mp T k "G" _ _ _ _ _ _ EGp B16 eq_refl B17) in YG.
  2:{ unfold hyp, sqdist2, gref. cbn [fst snd]. f_equal. rewrite U1, U2. ring. }
  step_bind H. apply (stiffness_exact _ _ _ ER) in E. subst x.
  step_bind H. rename x into p6. apply wheels_xx_inv in E. destruct E as (TtF & TtR & D1 & D2 & FR6 & XF & XR & _).
  destruct (wheel_facts mp T k "F" _ _ _ _ _ EF A2 A3 A4 D1) as (WF1 & WF2 & WF3). rewrite WF2 in YF. rewrite WF3 in XF.
  destruct (wheel_facts mp T k "R" _ _ _ _ _ ERw A5 A6 A7 D2) as (WR1 & WR2 & WR3). rewrite WR2 in YR. rewrite WR3 in XR.
  step_bind H. destruct x as [p7 pend]. cbn [bm_in_plane] in E.
  unfold dlook at 1 in E. rewrite BB in E. cbn [bind] in E. apply bind_ok in E. destruct E as (penJB & E0 & E). apply bind_ok in E. destruct E as (qJB & E1 & E).
  apply (JB _ _ E0) in E1. subst qJB. clear E0. cbn [vx vy vz] in E.
  unfold dlook at 1 in E. rewrite BG in E. cbn [bind] in E. apply bind_ok in E. destruct E as (penJG & E0 & E). apply bind_ok in E. destruct E as (qJG & E1 & E).
  apply (JG _ _ E0) in E1. subst qJG. clear E0. cbn [vx vy vz] in E.
  unfold dlook at 1 in E. rewrite BS in E. cbn [bind] in E. apply bind_ok in E. destruct E as (penJS & E0 & E). apply bind_ok in E. destruct E as (qJS & E1 & E).
  apply (JS _ _ E0) in E1. subst qJS. clear E0. cbn [vx vy vz] in E.
  injection E as <- _. cbn [append] in H.
  set (p7 := dset (dset (dset (dset (dset (dset (dset (dset (dset p6 _ _) _ _) _ _) _ _) _ _) _ _) _ _) _ _) _ _) in H.
  assert (mBe : dget mp "mB" = Some (b_m (rb_part T "B"))) by apply EB.
  assert (mGe : dget mp "mG" = Some (b_m (rb_part T "G"))) by apply EGp.
  assert (mSe : dget mp "mS" = Some (b_m (rb_part T "S"))) by apply ESp.
  assert (P7 : forall key v, In (key, v) (common_entries T ++ body_entries "S" (rb_part T "S") ++ body_entries "G" (rb_part T "G"))%list -> dget p7 key = Some v).
  { intros key v HI. unfold common_entries, wheel_entries, body_entries in HI. cbn [app append In] in HI. unfold p7.
    repeat (destruct HI as [HI|HI]; [injection HI as <- <-|]); [..|contradiction]; dg; try reflexivity;
    repeat first [assumption | rewrite FR6 by notin | rewrite FR5 by notin | rewrite FR4 by notin | rewrite FR3 by notin
      | progress (unfold p2; dg) | reflexivity | rewrite FR1 by notin | congruence]. }
  clearbody p7. step_bind H. rename x into p8. injection H as <- _.
  assert (PT : forall X, X = "S" \/ X = "G" -> part_inertia_tensor p7 X = Ok (tensor_of (rb_part T X))).
  { intros X HX. unfold part_inertia_tensor, dlook.
    rewrite (P7 "IBxx" (b_xx (rb_part T "B"))) by (unfold common_entries, wheel_entries, body_entries; cbn [append app In]; tauto). cbn [bind].
    destruct HX as [-> | ->]; cbn [in_FRD String.eqb Ascii.eqb Bool.eqb orb append].
    - unfold in_FRD. cbn [String.eqb Ascii.eqb Bool.eqb orb append smem existsb].
      rewrite (P7 "ISxx" (b_xx (rb_part T "S"))), (P7 "ISxz" (b_xz (rb_part T "S"))), (P7 "ISyy" (b_yy (rb_part T "S"))), (P7 "ISzz" (b_zz (rb_part T "S")))
        by (unfold common_entries, wheel_entries, body_entries; cbn [append app In]; tauto). reflexivity.
    - unfold in_FRD. cbn [String.eqb Ascii.eqb Bool.eqb orb append smem existsb].
      rewrite (P7 "IGxx" (b_xx (rb_part T "G"))), (P7 "IGxz" (b_xz (rb_part T "G"))), (P7 "IGyy" (b_yy (rb_part T "G"))), (P7 "IGzz" (b_zz (rb_part T "G")))
        by (unfold common_entries, wheel_entries, body_entries; cbn [append app In]; tauto). reflexivity. }
  unfold bm_split_inertia in E. rewrite (PT "G"), (PT "S") in E by tauto. cbn [bind] in E.
  assert (Q : dlook p7 "xG" = Ok (b_x (rb_part T "G")) /\ dlook p7 "xS" = Ok (b_x (rb_part T "S")) /\ dlook p7 "zG" = Ok (b_z (rb_part T "G")) /\
              dlook p7 "zS" = Ok (b_z (rb_part T "S")) /\ dlook p7 "mG" = Ok (b_m (rb_part T "G")) /\ dlook p7 "mS" = Ok (b_m (rb_part T "S"))).
  { rewrite !dlook_iff. repeat split; apply P7; unfold common_entries, wheel_entries, body_entries; cbn [append app In]; tauto. }
  destruct Q as (Q1 & Q2 & Q3 & Q4 & Q5 & Q6). rewrite Q1, Q2, Q3, Q4, Q5, Q6 in E. cbn [bind] in E. clear Q1 Q2 Q3 Q4 Q5 Q6 PT.
  step_bind E. apply tcom2 in E0. destruct E0 as (NZ & hx & hz & -> & HX & HZ). injection E as <-.
  exists (let J := m3_add (parallel_axis (tensor_of (rb_part T "G")) (b_m (rb_part T "G")) (mk3 (b_x (rb_part T "G") - hx) 0 (b_z (rb_part T "G") - hz)))
                  (parallel_axis (tensor_of (rb_part T "S")) (b_m (rb_part T "S")) (mk3 (b_x (rb_part T "S") - hx) 0 (b_z (rb_part T "S") - hz))) in
      mkrbody (b_m (rb_part T "S") + b_m (rb_part T "G")) hx hz (vx (r1 J)) (vz (r1 J)) (vy (r2 J)) (vz (r3 J))).
  split; [apply union_ok; lra|].
  intros key v HI. rewrite !app_assoc in HI. apply in_app_iff in HI. destruct HI as [HI|HI].
  - rewrite <- !app_assoc in HI. pose proof (P7 key v HI) as P. clear P7.
    rewrite !dget_dset_neq; [exact P|..]; apply String.eqb_neq; intros ->;
    unfold common_entries, wheel_entries, body_entries in HI; cbn [app append In] in HI;
    repeat (destruct HI as [HI|HI]; [discriminate HI|]); exact HI.
  - unfold body_entries in HI. cbn [append In b_m b_x b_z b_xx b_xz b_yy b_zz] in HI.
    repeat (destruct HI as [HI|HI]; [injection HI as <- <-; dg; try reflexivity; f_equal; ring|]). contradiction.
Qed.
End Split.
