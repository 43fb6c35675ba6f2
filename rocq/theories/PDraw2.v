(* PDraw2.v -- what the drawing methods add to the axes *)
From Coq Require Import Lra.
From Verif Require Import Base MString MHeap MBicycle MVec MInertia MSets MGeometry MRider MDraw PBase SBicycle PBicycle SInertia PInertia SGeometry PGeometry SModels PModels PSets PSets2 PSets3 SDraw PDraw.
Local Open Scope string_scope.
Local Open Scope R_scope.

Lemma add_add ax l1 l2 : add (add ax l1) l2 = add ax (l1 ++ l2).
Proof. unfold add. cbn. rewrite app_assoc. reflexivity. Qed.
Lemma finalize_eq ax : finalize_plot ax = mkaxes (ax_shapes ax) true true.
Proof. unfold finalize_plot, invert_yaxis. destruct ax as [s [] e]; reflexivity. Qed.
Lemma finalize_add ax l : finalize_plot (add ax l) = mkaxes (ax_shapes ax ++ l) true true.
Proof. rewrite finalize_eq. reflexivity. Qed.
Lemma pt_eq (a b c d : R) : a = c -> b = d -> (a, b) = (c, d).
Proof. congruence. Qed.

Lemma radii_drawn eig2 c ls p X ax ax' : eig2_contract eig2 -> drawable c ls -> In X ls -> has p (required c) ->
  plot_body_principal_radii_of_gyration eig2 c p X ax = Ok ax' ->
  let o := centre_of p X in
  exists a b k1 k2 r, orthonormal a b /\
    ax' = mkaxes (ax_shapes ax ++ [Circle o r X; Poly (centred o (times2 k1 a)) X; Poly (centred o (times2 k2 b)) X]) true true /\
    forall n, central_of c p X n = pv p ("m" ++ X) * (k2 ^ 2 * comp a n ^ 2 + r ^ 2 * vy n ^ 2 + k1 ^ 2 * comp b n ^ 2).
Proof.
  intros EC D HX HP H o. unfold plot_body_principal_radii_of_gyration in H.
  rewrite (proj2 (drawable_labels c ls D)) in H.
  destruct (place_eval c ls p X D HX HP) as (ext & DV & LX & LZ & _ & _ & LM & LC).
  rewrite DV in H. cbn [bind] in H. rewrite LX, LZ in H. cbn [bind] in H. step_bind H. destruct x as [[[kaa kbb] kyy] al].
  pose proof (radii_any eig2 c ls p X kaa kbb kyy al EC D HX HP E) as Q.
  rewrite LC in H. cbn [bind] in H. rewrite !add_add, finalize_add in H. fold o in H. cbn [app] in H.
  exists (cos (- al), sin (- al)), (cos (- al - PI / 2), sin (- al - PI / 2)), kbb, kaa, kyy.
  assert (CB : cos (- al - PI / 2) = - sin al) by (rewrite cos_minus, cos_PI2, sin_PI2, sin_neg; ring).
  assert (SB : sin (- al - PI / 2) = - cos al) by (rewrite sin_minus, cos_PI2, sin_PI2, cos_neg; ring).
  split; [|split].
  - unfold orthonormal, dot2; cbn [fst snd]. rewrite CB, SB, cos_neg, sin_neg. pose proof (sc1 al). repeat split; lra.
  - assert (ax' = mkaxes (ax_shapes ax ++ [Circle (fst o, snd o) kyy X;
       Poly [(fst o - kbb * cos (- al), snd o - kbb * sin (- al)); (fst o + kbb * cos (- al), snd o + kbb * sin (- al))] X;
       Poly [(fst o - kaa * cos (- al - PI / 2), snd o - kaa * sin (- al - PI / 2)); (fst o + kaa * cos (- al - PI / 2), snd o + kaa * sin (- al - PI / 2))] X]) true true) as -> by congruence.
    rewrite <- surjective_pairing. unfold centred, plus2, times2. cbn [fst snd].
    do 2 f_equal. f_equal. f_equal; [|f_equal]; do 2 f_equal; [apply pt_eq; ring|apply pt_eq; ring].
  - intros n. rewrite Q. unfold principal_central, comp, v3_dot. cbn [fst snd vx vy vz]. rewrite CB, SB, cos_neg, sin_neg. ring.
Qed.

Lemma ellipse_drawn eig2 c ls p X ax ax' : eig2_contract eig2 -> drawable c ls -> In X ls -> has p (required c) ->
  plot_body_principal_inertia_ellipsoid eig2 c p X ax = Ok ax' ->
  let m := pv p ("m" ++ X) in
  exists a b A B angle Y2, orthonormal a b /\ 0 <= A /\ 0 <= B /\
    a = (cos (angle * PI / 180), sin (angle * PI / 180)) /\ b = (- sin (angle * PI / 180), cos (angle * PI / 180)) /\
    ax' = mkaxes (ax_shapes ax ++ [Ell (centre_of p X) A B angle X]) true true /\
    forall n, central_of c p X n = m / 5 * ((B ^ 2 + Y2) * comp a n ^ 2 + (A ^ 2 + B ^ 2) * vy n ^ 2 + (A ^ 2 + Y2) * comp b n ^ 2).
Proof.
  intros EC D HX HP H m. unfold plot_body_principal_inertia_ellipsoid in H.
  rewrite (proj2 (drawable_labels c ls D)) in H.
  destruct (place_eval c ls p X D HX HP) as (ext & DV & LX & LZ & _ & _ & LM & LC).
  rewrite DV in H. cbn [bind] in H. step_bind H. destruct x as [[[kaa kbb] kyy] al].
  pose proof (radii_any eig2 c ls p X kaa kbb kyy al EC D HX HP E) as Q. fold m in Q.
  step_bind H. step_bind H. rewrite LX, LZ, LC in H. cbn [bind] in H. rewrite finalize_add in H.
  apply npsqrt_ok in E0, E1. destruct E0 as [P0 E0], E1 as [P1 E1].
  set (ang := - (al * 180 / PI)) in *.
  assert (AN : ang * PI / 180 = - al) by (unfold ang; field; apply PI_neq0).
  exists (cos (ang * PI / 180), sin (ang * PI / 180)), (- sin (ang * PI / 180), cos (ang * PI / 180)), x, x0, ang, (5 / 2 * (kaa ^ 2 + kbb ^ 2 - kyy ^ 2)).
  rewrite AN, cos_neg, sin_neg. split; [|repeat split; try assumption].
  - unfold orthonormal, dot2; cbn [fst snd]. pose proof (sc1 al). repeat split; lra.
  - assert (ax' = mkaxes (ax_shapes ax ++ [Ell (fst (centre_of p X), snd (centre_of p X)) x x0 ang X]) true true) as -> by congruence.
    rewrite <- surjective_pairing. reflexivity.
  - intros n. rewrite Q, E0, E1. unfold principal_central, comp, v3_dot. cbn [fst snd vx vy vz]. field.
Qed.

Lemma ellipse_defined eig2 c ls p X ax kaa kbb kyy al : drawable c ls -> In X ls -> has p (required c) ->
  principal_radii eig2 c p X = Ok (kaa, kbb, kyy, al) ->
  ((exists ax', plot_body_principal_inertia_ellipsoid eig2 c p X ax = Ok ax') <-> kaa ^ 2 <= kyy ^ 2 + kbb ^ 2 /\ kbb ^ 2 <= kyy ^ 2 + kaa ^ 2).
Proof.
  intros D HX HP E. unfold plot_body_principal_inertia_ellipsoid.
  rewrite (proj2 (drawable_labels c ls D)).
  destruct (place_eval c ls p X D HX HP) as (ext & DV & LX & LZ & _ & _ & LM & LC).
  rewrite DV, E. cbn [bind]. split.
  - intros [ax' H]. step_bind H. step_bind H.
    pose proof (proj1 (npsqrt_defined _) (ex_intro _ _ E0)). pose proof (proj1 (npsqrt_defined _) (ex_intro _ _ E1)). lra.
  - intros [H1 H2]. destruct (proj2 (npsqrt_defined (5 / 2 * (- kaa ^ 2 + kyy ^ 2 + kbb ^ 2)))) as [s1 S1]; [lra|].
    destruct (proj2 (npsqrt_defined (5 / 2 * (kaa ^ 2 + kyy ^ 2 - kbb ^ 2)))) as [s2 S2]; [lra|].
    rewrite S1, S2. cbn [bind]. rewrite LX, LZ, LC. cbn [bind]. eauto.
Qed.

Lemma mass_center_drawn c ls p X ax : drawable c ls -> In X ls -> has p (required c) ->
  let o := centre_of p X in
  let r := match c with CMoore2019 => Rmax (pv p "w") (pv p "lP") / 30 | _ => pv p "w" / 10 end in
  plot_body_mass_center c p X ax = Ok (mkaxes (ax_shapes ax ++ [Wedge o r 0 90 X; Wedge o r 180 270 X; Circle o r "black"; Text (fst o + r, snd o + r) X]) true true).
Proof.
  intros D HX HP o r. unfold plot_body_mass_center.
  rewrite (proj2 (drawable_labels c ls D)).
  destruct (place_eval c ls p X D HX HP) as (ext & DV & LX & LZ & LW & LL & LM & LC).
  rewrite DV. cbn [bind]. rewrite LX, LZ, LW. cbn [bind]. fold o.
  assert (RR : (match c with CMoore2019 => lP <- dlook (dupdate p ext) "lP" ;; Ok (Rmax (pv p "w") lP / 30) | _ => Ok (pv p "w" / 10) end) = Ok r).
  { unfold r. destruct c; try reflexivity. rewrite (LL eq_refl). reflexivity. }
  rewrite RR. cbn [bind]. rewrite LC. cbn [bind]. unfold com_symbol. rewrite add_add, finalize_add. cbn [app].
  rewrite <- surjective_pairing. reflexivity.
Qed.

Lemma geometry_drawn c ls p steer ax ax' : drawable c ls -> plot_geometry c p steer ax = Ok ax' ->
  let w := pv p "w" in let tr := pv p "c" in let lam := pv p "lam" in let rR := pv p "rR" in let rF := pv p "rF" in
  exists p1 p2, fundamental_geometry_plot_data p = Ok [(0, - rR); p1; p2; (w, - rF)] /\
    ax' = mkaxes (ax_shapes ax ++ [Hline 0; Circle (0, - rR) rR "black"; Circle (w, - rF) rF "black"; Poly [(0, - rR); p1; p2; (w, - rF)] "black"]
                  ++ (if steer then [Poly [p2; (w + tr, 0)] "black"] else [])) true true.
Proof.
  intros D H w tr lam rR rF. unfold plot_geometry, plot_geometry_from_benchmark in H.
  rewrite (proj2 (drawable_labels c ls D)) in H. step_bind H.
  step_bind E. step_bind E. step_bind E. step_bind E. rename E into H', E3 into FP. pose proof FP as FP'.
  apply plot_data_spec in FP. destruct FP as (p1 & p2 & -> & A1 & A2 & _).
  repeat match goal with X : dlook _ _ = Ok _ |- _ => apply pv_of_dlook in X end. subst x0 x1 x2. fold w rR rF in H', FP'.
  exists p1, p2. split; [exact FP'|].
  destruct steer.
  - cbn [index nth_error] in H'. unfold index in H'. cbn [nth_error bind] in H'. step_bind H'.
    apply rdiv_ok in E. destruct E as [NZ ->].
    assert (CN : cos lam <> 0).
    { assert (X : exists pts, fundamental_geometry_plot_data p = Ok pts) by eauto. apply plot_data_defined in X. exact (proj2 X). }
    assert (DX : fst p2 - snd p2 * (fst p2 - fst p1) / (- snd p1 + snd p2) = w + tr).
    { unfold ahead in A1, A2. fold w tr lam in A1, A2.
      apply (Rmult_eq_reg_r (cos lam * (- snd p1 + snd p2))); [|apply Rmult_integral_contrapositive_currified; assumption].
      transitivity (fst p2 * cos lam * (- snd p1 + snd p2) - snd p2 * (fst p2 * cos lam - fst p1 * cos lam)); [field; exact NZ|].
      assert (Y2 : fst p2 * cos lam = (w + tr) * cos lam + snd p2 * sin lam) by lra.
      assert (Y1 : fst p1 * cos lam = (w + tr) * cos lam + snd p1 * sin lam) by lra.
      rewrite Y1, Y2. ring. }
    rewrite DX in H'. injection H' as <-. rewrite !add_add, finalize_add in H. cbn [app] in *. congruence.
  - injection H' as <-. rewrite !add_add, finalize_add in H. cbn [app] in *. congruence.
Qed.
