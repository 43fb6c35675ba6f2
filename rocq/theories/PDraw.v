(* PDraw.v -- lemmas about the drawings of parameter sets *)
From Coq Require Import Lra.
From Verif Require Import Base MString MHeap MBicycle MVec MInertia MSets MGeometry MRider MDraw PBase SBicycle PBicycle SInertia PInertia SGeometry PGeometry SModels PModels PSets PSets2 PSets3 SDraw.
Local Open Scope string_scope.
Local Open Scope R_scope.

(* ---------- arctan2 ---------- *)
Lemma cos_atan_sq x : cos (atan x) = / sqrt (1 + x ^ 2).
Proof.
  replace (1 + x ^ 2) with (1 + Rsqr x) by (unfold Rsqr; ring).
  rewrite cos_atan. unfold Rdiv. ring.
Qed.
Lemma sin_atan_sq x : sin (atan x) = x / sqrt (1 + x ^ 2).
Proof.
  replace (1 + x ^ 2) with (1 + Rsqr x) by (unfold Rsqr; ring). apply sin_atan.
Qed.
Lemma atan2_unit x y : x ^ 2 + y ^ 2 = 1 -> cos (npatan2 y x) = x /\ sin (npatan2 y x) = y.
Proof.
  intros U. unfold npatan2.
  assert (Q : x <> 0 -> sqrt (1 + (y / x) ^ 2) = / Rabs x).
  { intros N. apply Rsqr_inj; [apply sqrt_pos|left; apply Rinv_0_lt_compat, Rabs_pos_lt; exact N|].
    rewrite Rsqr_sqrt by (pose proof (pow2_ge_0 (y / x)); lra).
    unfold Rsqr. rewrite <- Rinv_mult. rewrite <- Rabs_mult, Rabs_right by (apply Rle_ge, Rle_0_sqr).
    apply (Rmult_eq_reg_r (x ^ 2)); [|nra]. field_simplify; [lra|exact N|exact N]. }
  destruct (Rltb 0 x) eqn:E1.
  - apply Rltb_spec in E1. rewrite cos_atan_sq, sin_atan_sq, Q by lra. rewrite Rabs_right by lra. split; field; lra.
  - apply Rltb_false in E1. destruct (Rltb x 0) eqn:E2.
    + apply Rltb_spec in E2. rewrite (Rabs_left x) in Q by lra.
      destruct (Rleb 0 y) eqn:E3.
      * rewrite neg_cos, neg_sin, cos_atan_sq, sin_atan_sq, Q by lra. split; field; lra.
      * assert (C : cos (atan (y / x) - PI) = - cos (atan (y / x))) by (rewrite cos_minus, cos_PI, sin_PI; ring).
        assert (S : sin (atan (y / x) - PI) = - sin (atan (y / x))) by (rewrite sin_minus, cos_PI, sin_PI; ring).
        rewrite C, S, cos_atan_sq, sin_atan_sq, Q by lra. split; field; lra.
    + apply Rltb_false in E2. assert (x = 0) by lra. subst x.
      assert (Y : y ^ 2 = 1) by lra.
      destruct (Rltb 0 y) eqn:E3.
      * apply Rltb_spec in E3. assert (y = 1) by nra. subst. rewrite cos_PI2, sin_PI2. auto.
      * apply Rltb_false in E3. assert (y = -1) by nra. subst.
        destruct (Rltb (-1) 0) eqn:E4; [|apply Rltb_false in E4; lra].
        rewrite cos_neg, sin_neg, cos_PI2, sin_PI2. auto.
Qed.
Lemma npsqrt_ok x s : npsqrt x = Ok s <-> 0 <= s /\ s ^ 2 = x.
Proof.
  unfold npsqrt. destruct (Rltb x 0) eqn:E.
  - apply Rltb_spec in E. split; [discriminate|]. intros [_ H]. pose proof (pow2_ge_0 s). lra.
  - apply Rltb_false in E. split.
    + intros H. assert (s = sqrt x) by congruence. subst. split; [apply sqrt_pos|]. apply pow2_sqrt; exact E.
    + intros [P H]. f_equal. subst x. replace (s ^ 2) with (Rsqr s) by (unfold Rsqr; ring). apply sqrt_Rsqr; exact P.
Qed.
Lemma npsqrt_defined x : (exists s, npsqrt x = Ok s) <-> 0 <= x.
Proof.
  split.
  - intros [s H]. apply npsqrt_ok in H. destruct H as [_ <-]. apply pow2_ge_0.
  - intros H. exists (sqrt x). apply npsqrt_ok. split; [apply sqrt_pos|apply pow2_sqrt; exact H].
Qed.

(* ---------- eigenvectors of a symmetric 2x2 array ---------- *)
Lemma eig2_other a b d e0 e1 x0 z0 x1 z1 :
  a * x0 + b * z0 = e0 * x0 -> b * x0 + d * z0 = e0 * z0 -> x0 ^ 2 + z0 ^ 2 = 1 ->
  a * x1 + b * z1 = e1 * x1 -> b * x1 + d * z1 = e1 * z1 -> x1 ^ 2 + z1 ^ 2 = 1 ->
  x0 * z1 - x1 * z0 <> 0 ->
  a = e1 * x1 ^ 2 + e0 * z1 ^ 2 /\ b = (e1 - e0) * x1 * z1 /\ d = e1 * z1 ^ 2 + e0 * x1 ^ 2.
Proof.
  intros A0 B0 U0 A1 B1 U1 D.
  assert (C : b * x1 - a * z1 = - e0 * z1 /\ d * x1 - b * z1 = e0 * x1).
  { set (D0 := x0 * z1 - x1 * z0) in *. set (t := x0 * x1 + z0 * z1).
    assert (T : (e1 - e0) * t = 0).
    { unfold t. transitivity ((e1 * x1) * x0 + (e1 * z1) * z0 - (e0 * x0) * x1 - (e0 * z0) * z1); [ring|].
      rewrite <- A0, <- A1, <- B0, <- B1. ring. }
    (* v0 = t v1 + D0 (z1, -x1) *)
    assert (X0 : x0 = t * x1 + D0 * z1) by (unfold t, D0; transitivity (x0 * (x1 ^ 2 + z1 ^ 2)); [rewrite U1; ring|ring]).
    assert (Z0 : z0 = t * z1 - D0 * x1) by (unfold t, D0; transitivity (z0 * (x1 ^ 2 + z1 ^ 2)); [rewrite U1; ring|ring]).
    split; apply (Rmult_eq_reg_l D0); try exact D.
    - transitivity (- (a * (t * x1 + D0 * z1) + b * (t * z1 - D0 * x1)) + t * (a * x1 + b * z1)); [ring|].
      rewrite <- X0, <- Z0, A0, A1. rewrite X0. transitivity ((e1 - e0) * t * x1 - e0 * D0 * z1); [ring|]. rewrite T. ring.
    - transitivity (- (b * (t * x1 + D0 * z1) + d * (t * z1 - D0 * x1)) + t * (b * x1 + d * z1)); [ring|].
      rewrite <- X0, <- Z0, B0, B1. rewrite Z0. transitivity ((e1 - e0) * t * z1 + e0 * D0 * x1); [ring|]. rewrite T. ring. }
  destruct C as [C1 C2]. repeat split.
  - transitivity (x1 * (a * x1 + b * z1) - z1 * (b * x1 - a * z1)); [|rewrite A1, C1; ring].
    transitivity (a * (x1 ^ 2 + z1 ^ 2)); [rewrite U1; ring|ring].
  - transitivity (z1 * (a * x1 + b * z1) + x1 * (b * x1 - a * z1)); [|rewrite A1, C1; ring].
    transitivity (b * (x1 ^ 2 + z1 ^ 2)); [rewrite U1; ring|ring].
  - transitivity (z1 * (b * x1 + d * z1) + x1 * (d * x1 - b * z1)); [|rewrite B1, C2; ring].
    transitivity (d * (x1 ^ 2 + z1 ^ 2)); [rewrite U1; ring|ring].
Qed.

(* ---------- evaluation on valid sets ---------- *)
Lemma drawable_labels c ls : drawable c ls -> draw_labels c = ls /\ can_draw c = true.
Proof. intros []; auto. Qed.
Definition bext (p : dict R) : dict R :=
  [("IFxz", 0); ("IFzz", pv p "IFxx"); ("IRxz", 0); ("IRzz", pv p "IRxx"); ("xF", pv p "w"); ("xR", 0);
   ("yB", 0); ("yF", 0); ("yH", 0); ("yR", 0); ("zF", - pv p "rF"); ("zR", - pv p "rR")].
Definition pext (p : dict R) : dict R :=
  [("alphaF", 0); ("alphaR", 0); ("yD", 0); ("yP", 0); ("yH", 0); ("yR", 0); ("yF", 0); ("xR", 0); ("xF", pv p "w");
   ("zR", - pv p "rR"); ("zF", - pv p "rF"); ("kRbb", pv p "kRaa"); ("kFbb", pv p "kFaa")].
Lemma bext_eval p : has p (par_strings CMeijaard2007) -> derived_benchmark p = Ok (bext p).
Proof. intros HP. unfold derived_benchmark. rewrite !(has_look p _ _ HP) by (cbn [par_strings In]; tauto). reflexivity. Qed.
Lemma pext_eval p : has p (par_strings CMoore2019) -> derived_principal p = Ok (pext p).
Proof. intros HP. unfold derived_principal. rewrite !(has_look p _ _ HP) by (cbn [par_strings In]; tauto). reflexivity. Qed.

Lemma place_eval c ls p X : drawable c ls -> In X ls -> has p (required c) ->
  exists ext, derived c p = Ok ext /\
    dlook (dupdate p ext) ("x" ++ X) = Ok (fst (centre_of p X)) /\ dlook (dupdate p ext) ("z" ++ X) = Ok (snd (centre_of p X)) /\
    dlook (dupdate p ext) "w" = Ok (pv p "w") /\ (c = CMoore2019 -> dlook (dupdate p ext) "lP" = Ok (pv p "lP")) /\
    dlook (dupdate p ext) ("m" ++ X) = Ok (pv p ("m" ++ X)) /\ body_color c X = Ok X.
Proof.
  intros D HX HP. apply (proj1 (has_required c p)) in HP.
  assert (HC : (has p (par_strings CMeijaard2007) /\ In X ["B"; "F"; "H"; "R"] /\ c <> CMoore2019 /\ derived c p = derived_benchmark p /\ draw_labels c = ["B"; "F"; "H"; "R"]) \/
               (has p (par_strings CMoore2019) /\ In X ["D"; "F"; "H"; "P"; "R"] /\ c = CMoore2019 /\ derived c p = derived_principal p /\ draw_labels c = ["D"; "F"; "H"; "P"; "R"])).
  { destruct D; [left|left|right]; (split; [first [exact HP | apply feedback_has; exact HP]|]); (split; [exact HX|]); repeat split; discriminate. }
  unfold body_color. clear D HX HP.
  destruct HC as [(HQ & HX & NC & -> & ->)|(HQ & HX & NC & -> & ->)];
  [rewrite (bext_eval p HQ) | rewrite (pext_eval p HQ)]; eexists; (split; [reflexivity|]);
  rewrite !dlook_dupdate by nodup; cbn [In] in HX;
  repeat (destruct HX as [<-|HX]; [
    unfold centre_of; cbn - [dlook pv]; repeat split; first [reflexivity | (intros _ || idtac); rewrite !(has_look p _ _ HQ) by (cbn [par_strings In]; tauto); reflexivity | intros; contradiction]|]);
  destruct HX.
Qed.

Definition in_xx (p : dict R) (X : string) := pv p ("I" ++ X ++ "xx").
Definition in_xz (p : dict R) (X : string) := if is_wheel X then 0 else pv p ("I" ++ X ++ "xz").
Definition in_zz (p : dict R) (X : string) := if is_wheel X then in_xx p X else pv p ("I" ++ X ++ "zz").
Lemma planar_eval eig2 p X : eig2_contract eig2 -> has p (required CMeijaard2007) -> In X ["B"; "F"; "H"; "R"] ->
  let m := pv p ("m" ++ X) in let Iyy := pv p ("I" ++ X ++ "yy") in
  exists emin emax x z, emin <= emax /\ x ^ 2 + z ^ 2 = 1 /\
      in_xx p X = emax * x ^ 2 + emin * z ^ 2 /\ in_xz p X = (emax - emin) * x * z /\ in_zz p X = emax * z ^ 2 + emin * x ^ 2 /\
      planar_principal_radii_of_gyration eig2 p X =
      (a <- rdiv emin m;; kmin <- npsqrt a;; b <- rdiv emax m;; kmax <- npsqrt b;; y <- rdiv Iyy m;; kyy <- npsqrt y;; Ok (kmax, kmin, kyy, npatan2 (- z) x)).
Proof.
  intros EC HP HX m Iyy. apply (proj1 (has_required _ p)) in HP.
  unfold planar_principal_radii_of_gyration.
  rewrite (bext_eval p HP). cbn [bind].
  rewrite (inertia_tensor_eval p X HP HX). cbn [bind r1 r2 r3 vx vy vz].
  assert (W : smem X ["F"; "R"] = is_wheel X).
  { unfold is_wheel. cbn [In] in HX. destruct HX as [<-|[<-|[<-|[<-|[]]]]]; reflexivity. }
  rewrite W. unfold in_xz, in_zz, in_xx.
  set (Ixx := pv p ("I" ++ X ++ "xx")) in *. 
  set (Ixz := if is_wheel X then 0 else pv p ("I" ++ X ++ "xz")) in *.
  set (Izz := if is_wheel X then Ixx else pv p ("I" ++ X ++ "zz")) in *.
  destruct (EC Ixx Ixz Izz) as (e0 & e1 & x0 & z0 & x1 & z1 & EE & (A0 & B0 & U0) & (A1 & B1 & U1) & D).
  rewrite EE. cbn [bind].
  assert (LM : dlook (dupdate p (bext p)) ("m" ++ X) = Ok m /\ dlook (dupdate p (bext p)) ("I" ++ X ++ "yy") = Ok Iyy).
  { unfold m, Iyy. rewrite !dlook_dupdate by nodup. cbn [In] in HX. destruct HX as [<-|[<-|[<-|[<-|[]]]]]; cbn - [dlook pv];
      rewrite !(has_look p _ _ HP) by (cbn [par_strings In]; tauto); auto. }
  destruct LM as [LM LY]. rewrite LM, LY. cbn [bind].
  destruct (Rltb e1 e0) eqn:E.
  - apply Rltb_spec in E. exists e1, e0, x0, z0. split; [lra|]. split; [exact U0|].
    destruct (eig2_other Ixx Ixz Izz e1 e0 x1 z1 x0 z0 A1 B1 U1 A0 B0 U0) as (Q1 & Q2 & Q3); [lra|]. auto.
  - apply Rltb_false in E. exists e0, e1, x1, z1. split; [lra|]. split; [exact U1|].
    destruct (eig2_other Ixx Ixz Izz e0 e1 x0 z0 x1 z1 A0 B0 U0 A1 B1 U1 D) as (Q1 & Q2 & Q3). auto.
Qed.
Lemma benchmark_radii_eval eig2 p X kaa kbb kyy al : eig2_contract eig2 -> has p (required CMeijaard2007) -> In X ["B"; "F"; "H"; "R"] ->
  planar_principal_radii_of_gyration eig2 p X = Ok (kaa, kbb, kyy, al) ->
  pv p ("m" ++ X) <> 0 /\ 0 <= kbb /\ 0 <= kaa /\ 0 <= kyy /\ (0 < pv p ("m" ++ X) -> kbb <= kaa) /\
  forall n, benchmark_central p X n = principal_central (pv p ("m" ++ X)) kaa kyy kbb al n.
Proof.
  intros EC HP HX H.
  destruct (planar_eval eig2 p X EC HP HX) as (emin & emax & x & z & LE & U & Q1 & Q2 & Q3 & HE). rewrite HE in H. clear HE.
  set (m := pv p ("m" ++ X)) in *. set (Iyy := pv p ("I" ++ X ++ "yy")) in *.
  repeat step_bind H.
  repeat match goal with X : rdiv _ _ = Ok _ |- _ => apply rdiv_ok in X; destruct X as [? X] end.
  repeat match goal with X : npsqrt _ = Ok _ |- _ => apply npsqrt_ok in X; destruct X as [? X] end.
  injection H as <- <- <- <-.
  assert (U' : x ^ 2 + (- z) ^ 2 = 1) by lra. apply atan2_unit in U'. destruct U' as [CA SA].
  assert (M : m <> 0) by assumption.
  assert (K1 : m * x1 ^ 2 = emin) by (rewrite E0, E; field; exact M).
  assert (K2 : m * x3 ^ 2 = emax) by (rewrite E2, E1; field; exact M).
  assert (K3 : m * x5 ^ 2 = Iyy) by (rewrite E4, E3; field; exact M).
  repeat split; try assumption.
  - intros MP. apply Rsqr_incr_0; [|assumption|assumption]. apply (Rmult_le_reg_l m); [exact MP|]. unfold Rsqr. lra.
  - intros n. unfold benchmark_central, principal_central, v3_dot. cbn [vx vy vz].
    fold (in_xx p X) (in_xz p X) (in_zz p X). fold Iyy. rewrite CA, SA. rewrite Q1, Q2, Q3, <- K1, <- K2, <- K3. ring.
Qed.
Lemma principal_central_nonneg m kaa kyy kbb al n : 0 <= m -> 0 <= principal_central m kaa kyy kbb al n.
Proof.
  intros M. unfold principal_central. apply Rmult_le_pos; [exact M|].
  pose proof (pow2_ge_0 (kaa * v3_dot (mk3 (cos al) 0 (- sin al)) n)). pose proof (pow2_ge_0 (kyy * vy n)). pose proof (pow2_ge_0 (kbb * v3_dot (mk3 (sin al) 0 (cos al)) n)).
  rewrite Rpow_mult_distr in *. lra.
Qed.
Lemma benchmark_radii_defined eig2 p X : eig2_contract eig2 -> has p (required CMeijaard2007) -> In X ["B"; "F"; "H"; "R"] ->
  0 < pv p ("m" ++ X) ->
  ((exists r, planar_principal_radii_of_gyration eig2 p X = Ok r) <-> forall n, 0 <= benchmark_central p X n).
Proof.
  intros EC HP HX M. split.
  - intros [[[[kaa kbb] kyy] al] H] n.
    destruct (benchmark_radii_eval _ _ _ _ _ _ _ EC HP HX H) as (_ & _ & _ & _ & _ & Q). rewrite Q. apply principal_central_nonneg. lra.
  - intros N. destruct (planar_eval eig2 p X EC HP HX) as (emin & emax & x & z & LE & U & Q1 & Q2 & Q3 & HE). rewrite HE. clear HE.
    set (m := pv p ("m" ++ X)) in *. set (Iyy := pv p ("I" ++ X ++ "yy")) in *.
    assert (EM : 0 <= emin).
    { specialize (N (mk3 (- z) 0 x)). unfold benchmark_central in N. fold (in_xx p X) (in_xz p X) (in_zz p X) in N. cbn [vx vy vz] in N. rewrite Q1, Q2, Q3 in N.
      replace emin with (emin * (x ^ 2 + z ^ 2) * (x ^ 2 + z ^ 2)) by (rewrite U; ring). 
      match type of N with 0 <= ?e => replace (emin * (x ^ 2 + z ^ 2) * (x ^ 2 + z ^ 2)) with e by ring end. exact N. }
    assert (YY : 0 <= Iyy).
    { specialize (N (mk3 0 1 0)). unfold benchmark_central in N. cbn [vx vy vz] in N. fold Iyy in N. lra. }
    assert (I : 0 < / m) by (apply Rinv_0_lt_compat; exact M).
    assert (D : forall e, 0 <= e -> 0 <= e / m) by (intros; apply Rmult_le_pos; lra).
    destruct (proj2 (npsqrt_defined (emin / m)) (D _ EM)) as [k1 K1].
    destruct (proj2 (npsqrt_defined (emax / m))) as [k2 K2]; [apply D; lra|].
    destruct (proj2 (npsqrt_defined (Iyy / m)) (D _ YY)) as [k3 K3].
    rewrite !rdiv_eq by lra. cbn [bind]. rewrite K1, K2, K3. cbn [bind]. eauto.
Qed.

(* ---------- all drawable sets ---------- *)
Lemma radii_any eig2 c ls p X kaa kbb kyy al : eig2_contract eig2 -> drawable c ls -> In X ls -> has p (required c) ->
  principal_radii eig2 c p X = Ok (kaa, kbb, kyy, al) ->
  forall n, central_of c p X n = principal_central (pv p ("m" ++ X)) kaa kyy kbb al n.
Proof.
  intros EC D HX HP H.
  assert (HB : c <> CMoore2019 -> has p (required CMeijaard2007) /\ In X ["B"; "F"; "H"; "R"] /\ principal_radii eig2 c p X = planar_principal_radii_of_gyration eig2 p X /\ central_of c p X = benchmark_central p X).
  { intros NC. destruct D; try contradiction; (split; [|auto]); [exact HP|].
    apply (proj2 (has_required _ p)). apply feedback_has. apply (proj1 (has_required _ p)) in HP. exact HP. }
  destruct D.
  - destruct (HB ltac:(discriminate)) as (P1 & P2 & P3 & P4). rewrite P4. rewrite P3 in H. eapply benchmark_radii_eval; eauto.
  - destruct (HB ltac:(discriminate)) as (P1 & P2 & P3 & P4). rewrite P4. rewrite P3 in H. eapply benchmark_radii_eval; eauto.
  - clear HB. apply (proj1 (has_required _ p)) in HP. cbn [principal_radii] in H. rewrite (pext_eval p HP) in H. cbn [bind] in H.
    rewrite !dlook_dupdate in H by nodup. cbn [central_of]. unfold moore_central.
    cbn [In] in HX. destruct HX as [<-|[<-|[<-|[<-|[<-|[]]]]]]; cbn - [dlook pv principal_central] in H;
      repeat rewrite (has_look p _ _ HP) in H by (cbn [par_strings In]; tauto); cbn [bind] in H; injection H as <- <- <- <-;
      cbn - [pv principal_central]; reflexivity.
Qed.
