(* PRider.v -- lemmas for C51 and C54 *)
From Verif Require Import Base MString MVec MInertia MIo SIo MRider SRider PBase PIo3.
From Coq Require Import Lra Lia.
Local Open Scope string_scope.
Local Open Scope R_scope.

Lemma remove_look d d' k : remove_uncertainties d = Ok d' -> forall v', dget d' k = Some v' <-> exists v, dget d k = Some v /\ remove_one v = Ok v'.
Proof.
  unfold remove_uncertainties. intros H. apply mapM_iff in H. induction H as [|[q v] [q' w] d d' R F IH]; intros v'.
  - split; [discriminate|]. intros [v [K _]]. discriminate.
  - cbn [fst snd] in R. apply bind_ok in R as [x [R E]]. injection E as <- <-. cbn [dget]. destruct (String.eqb k q); [|apply IH].
    split; [intros K; injection K as <-; eauto|]. intros [v0 [K1 K2]]. congruence.
Qed.
Lemma look_holds d d' k x : remove_uncertainties d = Ok d' -> look_num d' k = Ok x <-> holds d k x.
Proof.
  intros H. unfold look_num, dlook, holds. split.
  - intros K. destruct (dget d' k) as [v|] eqn:G; cbn [bind] in K; [|discriminate]. apply (remove_look d d' k H) in G as [v0 [G R]]. rewrite G. destruct v as [[y|n s]|l|t]; try discriminate. injection K as ->.
    destruct v0 as [[y|n s]|l|t]; cbn in R; [injection R as ->; auto|injection R as ->; eauto| |].
    + destruct (mapM nominal l); discriminate.
    + destruct t; discriminate.
  - intros [G|[s G]]; assert (K : dget d' k = Some (MScalar (SFloat x))) by (apply (remove_look d d' k H); rewrite G; eexists; split; reflexivity); rewrite K; reflexivity.
Qed.
Lemma holds_fun d k x y : holds d k x -> holds d k y -> x = y.
Proof. intros [A|[s A]] [B|[t B]]; congruence. Qed.
Lemma numbers_remove d : numbers d -> exists d', remove_uncertainties d = Ok d'.
Proof.
  unfold remove_uncertainties. induction d as [|[k v] d IH]; intros N; [eexists; reflexivity|]. destruct IH as [d' E]; [intros q w I1; apply (N q w); right; exact I1|].
  destruct (N k v (or_introl eq_refl)) as [[x|n s] ->]; cbn [mapM fst snd remove_one bind]; rewrite E; eexists; reflexivity.
Qed.
Lemma npsqrt_ok x y : npsqrt x = Ok y <-> 0 <= x /\ y = sqrt x.
Proof.
  unfold npsqrt. destruct (Rltb x 0) eqn:L.
  - apply Rltb_spec in L. split; [discriminate|lra].
  - apply Rltb_false in L. split; [intros K; injection K as <-; auto|intros [_ ->]; reflexivity].
Qed.

(* the conversion *)
Lemma vec_conv v m b m' b' r : remove_uncertainties m = Ok m' -> remove_uncertainties b = Ok b' ->
  yeadon_vec_to_bicycle_vec v m b = Ok r <-> exists p, bike_lengths p m b /\ chain_stay_ok p /\ r = on_bike p v.
Proof.
  intros Hm Hb. unfold yeadon_vec_to_bicycle_vec. rewrite Hm, Hb. cbn [bind]. split.
  - intros H. apply bind_ok in H as [hbb [H1 H]]. apply bind_ok in H as [lcs [H2 H]]. apply bind_ok in H as [rR [H3 H]]. apply bind_ok in H as [lsp [H4 H]]. apply bind_ok in H as [lst [H5 H]]. apply bind_ok in H as [lam [H6 H]]. apply bind_ok in H as [o [HO H]]. injection H as <-.
    unfold yeadon_origin in HO. apply bind_ok in HO as [s [HS HO]]. injection HO as <-. apply npsqrt_ok in HS as [P ->].
    exists (mkrp 0 0 0 0 0 0 0 0 0 hbb lcs rR 0 lsp lst lam 0 0 0 0). unfold bike_lengths, chain_stay_ok. cbn [h_bb l_cs r_R l_sp l_st lambda_st].
    split; [repeat split; [apply (look_holds m m')|apply (look_holds m m')|apply (look_holds b b')|apply (look_holds m m')|apply (look_holds m m')|apply (look_holds m m')]; assumption|]. split; [nra|].
    unfold on_bike, hips, bottom_bracket, v3_add, m3_app, v3_dot, rot_mat. cbn [vx vy vz r1 r2 r3 h_bb l_cs r_R l_sp l_st lambda_st]. replace ((rR - hbb) ^ 2) with ((- hbb + rR) ^ 2) by ring. f_equal; ring.
  - intros [p [[A1 [A2 [A3 [A4 [A5 A6]]]]] [C ->]]]. apply (look_holds m m' _ _ Hm) in A1, A2, A4, A5, A6. apply (look_holds b b' _ _ Hb) in A3. rewrite A1, A2, A3, A4, A5, A6. cbn [bind]. unfold yeadon_origin.
    rewrite (proj2 (npsqrt_ok _ (sqrt (l_cs p ^ 2 - (- h_bb p + r_R p) ^ 2)))); [|split; [unfold chain_stay_ok in C; replace (- h_bb p + r_R p) with (r_R p - h_bb p) by ring; lra|reflexivity]]. cbn [bind]. f_equal.
    unfold on_bike, hips, bottom_bracket, v3_add, m3_app, v3_dot, rot_mat. cbn [vx vy vz r1 r2 r3]. replace ((r_R p - h_bb p) ^ 2) with ((- h_bb p + r_R p) ^ 2) by ring. f_equal; ring.
Qed.

Ltac kin := unfold on_bike, hips, bottom_bracket, foot, hand, upper_arm, turn_x, turn_y, turn_z, down, v3_add; cbn [vx vy vz].
(* the residuals as distances between points *)
Lemma residual_meaning p u : chain_stay_ok p ->
  let F := on_bike p (foot p 0 (PJ1extension u) (J1J2flexion u)) in
  let H := on_bike p (hand p (L_s4w p / 2) (CA1extension u) (CA1adduction u) (CA1rotation u) (A1A2extension u)) in
  residual p u = Ok [vx F - vx (bottom_bracket p); vz F - vz (bottom_bracket p);
    - L_hbF p + sqrt (alpha_y u ^ 2 + alpha_z u ^ 2 + 25/100 * w_hb p ^ 2); - L_hbR p + sqrt (beta_y u ^ 2 + beta_z u ^ 2 + 25/100 * w_hb p ^ 2);
    alpha_y u - beta_y u - w_b p; alpha_z u - beta_z u + r_F p - r_R p;
    - vy H - w_hb p / 2; - vx H - beta_y u; - vz H - r_R p - beta_z u;
    vz (upper_arm p (CA1extension u) (CA1adduction u) (CA1rotation u) (mk3 1 0 0))].
Proof.
  intros C F H. unfold residual. cbv zeta. rewrite !(fun x => proj2 (npsqrt_ok x (sqrt x))); [|split; [unfold chain_stay_ok in C; replace (- h_bb p + r_R p) with (r_R p - h_bb p) by ring; lra|reflexivity]|split; [nra|reflexivity]|split; [nra|reflexivity]].
  cbn [bind]. f_equal. unfold F, H. repeat apply (f_equal2 (@cons R)); try reflexivity; kin; replace ((r_R p - h_bb p) ^ 2) with ((- h_bb p + r_R p) ^ 2) by ring; field.
Qed.
Lemma residual_nan p u zs : residual p u = Ok zs -> chain_stay_ok p.
Proof.
  unfold residual. cbv zeta. intros H. apply bind_ok in H as [s2 [_ H]]. apply bind_ok in H as [s3 [_ H]]. apply bind_ok in H as [s7 [H7 _]]. apply npsqrt_ok in H7 as [P _]. unfold chain_stay_ok. replace (r_R p - h_bb p) with (- h_bb p + r_R p) by ring. lra.
Qed.

Lemma foot_side p side a b : on_bike p (foot p side a b) = mk3 (vx (on_bike p (foot p 0 a b))) (- side) (vz (on_bike p (foot p 0 a b))).
Proof. kin. f_equal; ring. Qed.
Lemma hand_mirror p side ax ay az ae : let l := on_bike p (hand p side ax ay az ae) in on_bike p (hand p (- side) ax (- ay) (- az) ae) = mk3 (vx l) (- vy l) (vz l).
Proof. intros l. unfold l. kin. rewrite !sin_neg, !cos_neg. f_equal; ring. Qed.
Lemma elbow_neg p ax ay az : vz (upper_arm p ax (- ay) (- az) (mk3 1 0 0)) = - vz (upper_arm p ax ay az (mk3 1 0 0)).
Proof. kin. rewrite !sin_neg, !cos_neg. ring. Qed.

(* what the unknowns of a root say *)
Definition posture (p : rider_par) (u : unknowns) : Prop :=
  let H := on_bike p (hand p (L_s4w p / 2) (CA1extension u) (CA1adduction u) (CA1rotation u) (A1A2extension u)) in
  on_bike p (foot p 0 (PJ1extension u) (J1J2flexion u)) = bottom_bracket p /\
  vy H = - (w_hb p / 2) /\ dist3 H (rear_hub p) = L_hbR p /\ dist3 H (front_hub p) = L_hbF p /\
  vz (upper_arm p (CA1extension u) (CA1adduction u) (CA1rotation u) (mk3 1 0 0)) = 0.
Definition grip_vectors (p : rider_par) (u : unknowns) : Prop :=
  let H := on_bike p (hand p (L_s4w p / 2) (CA1extension u) (CA1adduction u) (CA1rotation u) (A1A2extension u)) in
  alpha_y u = vx (front_hub p) - vx H /\ alpha_z u = vz (front_hub p) - vz H /\ beta_y u = vx (rear_hub p) - vx H /\ beta_z u = vz (rear_hub p) - vz H.
Definition zeros : list R := repeat 0 10.
Lemma zeros_inv a0 a1 a2 a3 a4 a5 a6 a7 a8 a9 : Ok [a0; a1; a2; a3; a4; a5; a6; a7; a8; a9] = Ok zeros -> a0 = 0 /\ a1 = 0 /\ a2 = 0 /\ a3 = 0 /\ a4 = 0 /\ a5 = 0 /\ a6 = 0 /\ a7 = 0 /\ a8 = 0 /\ a9 = 0.
Proof. intros H. injection H as -> -> -> -> -> -> -> -> -> ->. repeat split; reflexivity. Qed.
Lemma root_iff p u : residual p u = Ok zeros <-> chain_stay_ok p /\ posture p u /\ grip_vectors p u.
Proof.
  split.
  - intros R. pose proof (residual_nan p u _ R) as C. split; [exact C|]. rewrite (residual_meaning p u C) in R. unfold posture, grip_vectors.
    set (H := on_bike p (hand p (L_s4w p / 2) (CA1extension u) (CA1adduction u) (CA1rotation u) (A1A2extension u))) in *. pose proof (foot_side p 0 (PJ1extension u) (J1J2flexion u)) as FS. set (F := on_bike p (foot p 0 (PJ1extension u) (J1J2flexion u))) in *.
    assert (BE : bottom_bracket p = mk3 (vx (bottom_bracket p)) 0 (vz (bottom_bracket p))) by reflexivity. set (B := bottom_bracket p) in *. clearbody H F B. apply zeros_inv in R as [E0 [E1 [E2 [E3 [E4 [E5 [E6 [E7 [E8 E9]]]]]]]]]. unfold rear_hub, front_hub, dist3. cbn [vx vy vz].
    assert (B1 : beta_y u = - vx H) by lra. assert (B2 : beta_z u = - r_R p - vz H) by lra. assert (A1 : alpha_y u = w_b p - vx H) by lra. assert (A2 : alpha_z u = - r_F p - vz H) by lra. assert (Y : vy H = - (w_hb p / 2)) by lra.
    split; [split; [|split; [exact Y|split; [|split; [|exact E9]]]]|split; [lra|split; [lra|split; lra]]].
    + rewrite FS, BE. f_equal; lra.
    + rewrite Y. replace ((vx H - 0) ^ 2 + (- (w_hb p / 2) - 0) ^ 2 + (vz H - - r_R p) ^ 2) with (beta_y u ^ 2 + beta_z u ^ 2 + 25/100 * w_hb p ^ 2) by (rewrite B1, B2; field). lra.
    + rewrite Y. replace ((vx H - w_b p) ^ 2 + (- (w_hb p / 2) - 0) ^ 2 + (vz H - - r_F p) ^ 2) with (alpha_y u ^ 2 + alpha_z u ^ 2 + 25/100 * w_hb p ^ 2) by (rewrite A1, A2; field). lra.
  - intros [C [P G]]. rewrite (residual_meaning p u C). unfold posture, grip_vectors in P, G.
    set (H := on_bike p (hand p (L_s4w p / 2) (CA1extension u) (CA1adduction u) (CA1rotation u) (A1A2extension u))) in *. set (F := on_bike p (foot p 0 (PJ1extension u) (J1J2flexion u))) in *. cbv zeta. fold H F.
    destruct P as [P1 [Y [D1 [D2 E]]]]. destruct G as [G1 [G2 [G3 G4]]]. unfold rear_hub, front_hub, dist3 in *. cbn [vx vy vz] in *. rewrite P1, E.
    assert (Q1 : (vx H - 0) ^ 2 + (vy H - 0) ^ 2 + (vz H - - r_R p) ^ 2 = beta_y u ^ 2 + beta_z u ^ 2 + 25/100 * w_hb p ^ 2) by (rewrite Y, G3, G4; field).
    assert (Q2 : (vx H - w_b p) ^ 2 + (vy H - 0) ^ 2 + (vz H - - r_F p) ^ 2 = alpha_y u ^ 2 + alpha_z u ^ 2 + 25/100 * w_hb p ^ 2) by (rewrite Y, G1, G2; field).
    rewrite <- Q1, <- Q2, D1, D2. unfold zeros. cbn [repeat]. apply f_equal. repeat apply (f_equal2 (@cons R)); try reflexivity; lra.
Qed.

Lemma read_iff h b m p m' b' : remove_uncertainties m = Ok m' -> remove_uncertainties b = Ok b' ->
  read_rider_par h b m = Ok p <-> body_lengths p h /\ bike_lengths p m b /\ grip_lengths p m b.
Proof.
  intros Hm Hb. unfold read_rider_par, body_lengths, bike_lengths, grip_lengths. split.
  - intros H. do 9 (apply bind_ok in H as [? [? H]]). rewrite Hm in H. cbn [bind] in H. rewrite Hb in H. cbn [bind] in H. do 11 (apply bind_ok in H as [? [? H]]). injection H as <-.
    repeat match goal with K : dlook ?d ?k = Ok ?x |- _ => assert (dget d k = Some x) by (unfold dlook in K; destruct (dget d k); [injection K as ->; reflexivity|discriminate]); clear K end.
    repeat match goal with K : look_num m' ?k = Ok ?x |- _ => apply (look_holds m m' k x Hm) in K | K : look_num b' ?k = Ok ?x |- _ => apply (look_holds b b' k x Hb) in K end.
    cbn [L_j3L L_j5L L_j6L L_s4L L_s4w L_a2L L_a4L L_a5L somersault h_bb l_cs r_R r_F l_sp l_st lambda_st w_hb L_hbR L_hbF w_b]. repeat split; assumption.
  - intros [[B1 [B2 [B3 [B4 [B5 [B6 [B7 [B8 B9]]]]]]]] [[A1 [A2 [A3 [A4 [A5 A6]]]]] [G1 [G2 [G3 [G4 G5]]]]]]. unfold dlook. rewrite B1, B2, B3, B4, B5, B6, B7, B8, B9. cbn [bind]. rewrite Hm. cbn [bind]. rewrite Hb. cbn [bind].
    apply (look_holds m m' _ _ Hm) in A1, A2, A4, A5, A6, G2, G3, G4. apply (look_holds b b' _ _ Hb) in A3, G1, G5. rewrite A1, A2, A3, A4, A5, A6, G1, G2, G3, G4, G5. cbn [bind]. destruct p. reflexivity.
Qed.
Lemma root_seated p u cfg : residual p u = Ok zeros -> seated p (rider_cfg cfg (somersault p) u).
Proof.
  intros R. apply root_iff in R as [C [[P1 [Y [D1 [D2 E]]]] _]]. unfold seated.
  exists (PJ1extension u), (J1J2flexion u), (PJ1extension u), (J1J2flexion u), (CA1extension u), (CA1adduction u), (CA1rotation u), (A1A2extension u), (CA1extension u), (- CA1adduction u), (- CA1rotation u), (A1A2extension u).
  do 12 (split; [unfold rider_cfg; rewrite !dget_dset; reflexivity|]).
  split; [intros side; rewrite foot_side, P1; reflexivity|]. split; [intros side; rewrite foot_side, P1; reflexivity|].
  pose proof (hand_mirror p (L_s4w p / 2) (CA1extension u) (CA1adduction u) (CA1rotation u) (A1A2extension u)) as M. cbv zeta in M |- *. rewrite M.
  set (H := on_bike p (hand p (L_s4w p / 2) (CA1extension u) (CA1adduction u) (CA1rotation u) (A1A2extension u))) in *. rewrite elbow_neg, E. cbn [vx vy vz].
  split; [|split; [reflexivity|ring]]. split; [exact Y|]. split; [rewrite Y; ring|]. split; [reflexivity|]. split; [reflexivity|]. split; [exact D1|]. split; [exact D2|]. unfold dist3, rear_hub, front_hub in *. cbn [vx vy vz] in *. split.
  - rewrite <- D1. f_equal. ring.
  - rewrite <- D2. f_equal. ring.
Qed.
Lemma turn_x_norm a v : vy (turn_x a v) ^ 2 + vz (turn_x a v) ^ 2 = vy v ^ 2 + vz v ^ 2.
Proof. unfold turn_x. cbn [vy vz]. pose proof (sin2_cos2 a) as P. unfold Rsqr in P. set (s := sin a) in *. set (c := cos a) in *. replace ((c * vy v - s * vz v) ^ 2 + (s * vy v + c * vz v) ^ 2) with ((s * s + c * c) * (vy v ^ 2 + vz v ^ 2)) by ring. rewrite P. ring. Qed.
(* the foot is not farther from the hip than the straight leg is long *)
Lemma foot_reach p a b : let f := foot p 0 a b in vy f ^ 2 + vz f ^ 2 <= (Rabs (L_j3L p) + Rabs (L_j5L p + L_j6L p - L_j3L p)) ^ 2.
Proof.
  intros f. unfold f, foot. set (w := turn_x a (v3_add (down (L_j3L p)) (turn_x b (down (L_j5L p + L_j6L p - L_j3L p))))). unfold v3_add at 1 2. cbn [vy vz]. rewrite !Rplus_0_l. unfold w. rewrite !turn_x_norm.
  unfold down, turn_x, v3_add. cbn [vx vy vz]. set (l := L_j3L p). set (m := L_j5L p + L_j6L p - l). pose proof (sin2_cos2 b) as P. unfold Rsqr in P. pose proof (COS_bound b) as B. set (s := sin b) in *. set (c := cos b) in *.
  replace ((0 + (c * 0 - s * - m)) ^ 2 + (- l + (s * 0 + c * - m)) ^ 2) with ((s * s + c * c) * m ^ 2 + l ^ 2 + 2 * (l * m) * c) by ring. rewrite P.
  replace ((Rabs l + Rabs m) ^ 2) with (Rabs l ^ 2 + Rabs m ^ 2 + 2 * (Rabs l * Rabs m)) by ring. rewrite !RPow_abs, <- Rabs_mult. rewrite !(Rabs_pos_eq (_ ^ 2)) by apply pow2_ge_0.
  assert (l * m * c <= Rabs (l * m)); [|lra]. destruct (Rle_dec 0 (l * m)); [rewrite Rabs_pos_eq by assumption|rewrite Rabs_left by lra]; nra.
Qed.
Lemma seat_too_high p a b : Rabs (L_j3L p) + Rabs (L_j5L p + L_j6L p - L_j3L p) < Rabs (l_sp p + l_st p) -> on_bike p (foot p 0 a b) <> bottom_bracket p.
Proof.
  intros L E. pose proof (foot_reach p a b) as F. cbv zeta in F. set (f := foot p 0 a b) in *. clearbody f. unfold on_bike, hips in E. assert (E1 := f_equal vx E). assert (E3 := f_equal vz E). cbn [vx vz] in E1, E3.
  assert (Fy : vy f = - (l_sp p + l_st p) * cos (lambda_st p)) by lra. assert (Fz : vz f = - (l_sp p + l_st p) * sin (lambda_st p)) by lra.
  assert (Q : vy f ^ 2 + vz f ^ 2 = Rabs (l_sp p + l_st p) ^ 2).
  { rewrite Fy, Fz, RPow_abs, (Rabs_pos_eq (_ ^ 2)) by apply pow2_ge_0. pose proof (sin2_cos2 (lambda_st p)) as P. unfold Rsqr in P. replace ((- (l_sp p + l_st p) * cos (lambda_st p)) ^ 2 + (- (l_sp p + l_st p) * sin (lambda_st p)) ^ 2) with ((l_sp p + l_st p) ^ 2 * (sin (lambda_st p) * sin (lambda_st p) + cos (lambda_st p) * cos (lambda_st p))) by ring. rewrite P. ring. }
  pose proof (Rabs_pos (L_j3L p)). pose proof (Rabs_pos (L_j5L p + L_j6L p - L_j3L p)). set (A := Rabs (L_j3L p) + Rabs (L_j5L p + L_j6L p - L_j3L p)) in *. assert (0 <= A) by (unfold A; lra). clearbody A. set (S := Rabs (l_sp p + l_st p)) in *. clearbody S. rewrite Q in F. nra.
Qed.
