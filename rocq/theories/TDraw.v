(* TDraw.v -- property theorems C63-C64 *)
From Coq Require Import Lra.
From Verif Require Import Base MString MHeap MBicycle MVec MInertia MSets MGeometry MRider MDraw PBase SBicycle PBicycle SInertia PInertia PInertia3 SGeometry PGeometry SModels PModels PSets PSets2 PSets3 SDraw PDraw PDraw2 PDraw3 PDraw4.
Local Open Scope string_scope.
Local Open Scope R_scope.

(* an exact eigensolver: the contract can be met *)
Definition eig2_exact (A : pt * pt) : res (pt * (pt * pt)) :=
  let '((a, b), (_, d)) := A in
  if Req_EM_T b 0 then Ok ((a, d), ((1, 0), (0, 1)))
  else
    let r := sqrt (((a - d) / 2) ^ 2 + b ^ 2) in
    let e1 := (a + d) / 2 + r in let e0 := (a + d) / 2 - r in
    let n := sqrt (b ^ 2 + (e1 - a) ^ 2) in
    Ok ((e0, e1), ((- (e1 - a) / n, b / n), (b / n, (e1 - a) / n))).
Example C63_eigensolver_exists : eig2_contract eig2_exact.
Proof.
  intros a b d. unfold eig2_exact. destruct (Req_EM_T b 0) as [->|NB].
  - exists a, d, 1, 0, 0, 1. split; [reflexivity|]. repeat split; try ring; lra.
  - set (r := sqrt (((a - d) / 2) ^ 2 + b ^ 2)). set (e1 := (a + d) / 2 + r). set (e0 := (a + d) / 2 - r).
    set (n := sqrt (b ^ 2 + (e1 - a) ^ 2)).
    assert (B2 : 0 < b ^ 2) by (replace (b ^ 2) with (Rsqr b) by (unfold Rsqr; ring); apply Rsqr_pos_lt; exact NB).
    assert (R2 : r ^ 2 = ((a - d) / 2) ^ 2 + b ^ 2) by (unfold r; apply pow2_sqrt; pose proof (pow2_ge_0 ((a - d) / 2)); lra).
    assert (N2 : n ^ 2 = b ^ 2 + (e1 - a) ^ 2) by (unfold n; apply pow2_sqrt; pose proof (pow2_ge_0 (e1 - a)); lra).
    assert (NN : n <> 0) by (intros Z; rewrite Z in N2; pose proof (pow2_ge_0 (e1 - a)); lra).
    assert (K : (e1 - a) * (e1 - d) = b ^ 2).
    { unfold e1. transitivity (r ^ 2 - ((a - d) / 2) ^ 2); [field|rewrite R2; ring]. }
    assert (S : e0 + e1 = a + d) by (unfold e0, e1; field).
    clearbody r e1 e0 n. assert (e0 = a + d - e1) by lra. subst e0.
    exists (a + d - e1), e1, (- (e1 - a) / n), (b / n), (b / n), ((e1 - a) / n). split; [reflexivity|].
    assert (U : forall x y, x / n = y / n <-> x = y).
    { intros x y. split; [|congruence]. intros E. apply (Rmult_eq_reg_r (/ n)); [exact E|apply Rinv_neq_0_compat; exact NN]. }
    repeat split.
    + transitivity ((a * - (e1 - a) + b * b) / n); [field; exact NN|]. transitivity ((a + d - e1) * - (e1 - a) / n); [|field; exact NN]. apply U. lra.
    + transitivity ((b * - (e1 - a) + d * b) / n); [field; exact NN|]. transitivity ((a + d - e1) * b / n); [|field; exact NN]. apply U. ring.
    + transitivity ((b ^ 2 + (e1 - a) ^ 2) / n ^ 2); [field; exact NN|]. rewrite <- N2. field. exact NN.
    + field. exact NN.
    + transitivity ((b * b + d * (e1 - a)) / n); [field; exact NN|]. transitivity (e1 * (e1 - a) / n); [|field; exact NN]. apply U. lra.
    + transitivity ((b ^ 2 + (e1 - a) ^ 2) / n ^ 2); [field; exact NN|]. rewrite <- N2. field. exact NN.
    + replace (- (e1 - a) / n * ((e1 - a) / n) - b / n * (b / n)) with (- ((b ^ 2 + (e1 - a) ^ 2) / n ^ 2)) by (field; exact NN).
      rewrite <- N2. replace (n ^ 2 / n ^ 2) with 1 by (field; exact NN). lra.
Qed.

(* ---------------- C63: inertia drawings ---------------- *)
(* the radii computed for a benchmark set describe the body's inertia about every axis *)
Theorem C63_radii_describe_the_body : forall eig2 p X kmax kmin kyy alpha, eig2_contract eig2 ->
  has p (required CMeijaard2007) -> In X ["B"; "F"; "H"; "R"] ->
  planar_principal_radii_of_gyration eig2 p X = Ok (kmax, kmin, kyy, alpha) ->
  0 <= kmin /\ 0 <= kmax /\ 0 <= kyy /\ (0 < pv p ("m" ++ X) -> kmin <= kmax) /\
  forall n, benchmark_central p X n = principal_central (pv p ("m" ++ X)) kmax kyy kmin alpha n.
Proof. intros eig2 p X kaa kbb kyy al EC HP HX H. destruct (benchmark_radii_eval eig2 p X kaa kbb kyy al EC HP HX H) as (_ & Q). exact Q. Qed.
Print Assumptions C63_radii_describe_the_body.
(* they exist exactly when no axis has a negative moment of inertia *)
Theorem C63_radii_defined_iff : forall eig2 p X, eig2_contract eig2 ->
  has p (required CMeijaard2007) -> In X ["B"; "F"; "H"; "R"] -> 0 < pv p ("m" ++ X) ->
  ((exists r, planar_principal_radii_of_gyration eig2 p X = Ok r) <-> forall n, 0 <= benchmark_central p X n).
Proof. exact benchmark_radii_defined. Qed.
Print Assumptions C63_radii_defined_iff.
(* plot_body_principal_radii_of_gyration: a circle and two lines centred on the mass
   centre, perpendicular to each other along principal axes a and b; half the mass at
   each end of a line, or spread over the circle, has the body's moment of inertia *)
Theorem C63_radii_drawing : forall eig2 c bodies p X ax ax', eig2_contract eig2 -> drawable c bodies -> In X bodies -> has p (required c) ->
  plot_body_principal_radii_of_gyration eig2 c p X ax = Ok ax' ->
  exists a b k1 k2 r, orthonormal a b /\
    ax_shapes ax' = (ax_shapes ax ++ [Circle (centre_of p X) r X; Poly (centred (centre_of p X) (times2 k1 a)) X; Poly (centred (centre_of p X) (times2 k2 b)) X])%list /\
    forall n, central_of c p X n = pv p ("m" ++ X) * (k2 ^ 2 * comp a n ^ 2 + r ^ 2 * vy n ^ 2 + k1 ^ 2 * comp b n ^ 2).
Proof.
  intros eig2 c ls p X ax ax' EC D HX HP H. destruct (radii_drawn eig2 c ls p X ax ax' EC D HX HP H) as (a & b & k1 & k2 & r & O & -> & Q).
  exists a, b, k1, k2, r. auto.
Qed.
Print Assumptions C63_radii_drawing.
(* two bodies with the same place, mass and moments are drawn the same way, whichever
   parameterization they come from: the same circle and the same pair of lines *)
Theorem C63_drawing_depends_on_the_body_only : forall eig2 c bodies p c' bodies' p' X ax ax' l l', eig2_contract eig2 ->
  drawable c bodies -> drawable c' bodies' -> In X bodies -> In X bodies' -> has p (required c) -> has p' (required c') ->
  centre_of p X = centre_of p' X -> pv p ("m" ++ X) = pv p' ("m" ++ X) -> pv p ("m" ++ X) <> 0 -> (forall n, central_of c p X n = central_of c' p' X n) ->
  (exists n n', vy n = 0 /\ vy n' = 0 /\ sqnorm n = 1 /\ sqnorm n' = 1 /\ central_of c p X n <> central_of c p X n') ->
  plot_body_principal_radii_of_gyration eig2 c p X ax = Ok (mkaxes (ax_shapes ax ++ l) true true) ->
  plot_body_principal_radii_of_gyration eig2 c' p' X ax' = Ok (mkaxes (ax_shapes ax' ++ l') true true) ->
  exists o r r' d1 d2 e1 e2, l = [Circle o r X; Poly (centred o d1) X; Poly (centred o d2) X] /\
    l' = [Circle o r' X; Poly (centred o e1) X; Poly (centred o e2) X] /\ Rabs r = Rabs r' /\
    ((d1 = e1 \/ d1 = times2 (-1) e1) /\ (d2 = e2 \/ d2 = times2 (-1) e2) \/ (d1 = e2 \/ d1 = times2 (-1) e2) /\ (d2 = e1 \/ d2 = times2 (-1) e1)).
Proof.
  intros eig2 c ls p c' ls' p' X ax ax' l l' EC D D' HX HX' HP HP' EO EM M0 EQ (n & n' & N1 & N2 & N3 & N4 & NE) H H'.
  destruct (radii_drawn eig2 c ls p X ax _ EC D HX HP H) as (a & b & k1 & k2 & r & O & SH & Q).
  destruct (radii_drawn eig2 c' ls' p' X ax' _ EC D' HX' HP' H') as (a' & b' & k1' & k2' & r' & O' & SH' & Q').
  assert (L1 : l = [Circle (centre_of p X) r X; Poly (centred (centre_of p X) (times2 k1 a)) X; Poly (centred (centre_of p X) (times2 k2 b)) X]).
  { apply (f_equal ax_shapes) in SH. cbn [ax_shapes] in SH. apply app_inv_head in SH. exact SH. }
  assert (L2 : l' = [Circle (centre_of p X) r' X; Poly (centred (centre_of p X) (times2 k1' a')) X; Poly (centred (centre_of p X) (times2 k2' b')) X]).
  { apply (f_equal ax_shapes) in SH'. cbn [ax_shapes] in SH'. apply app_inv_head in SH'. rewrite EO. exact SH'. }
  assert (E : forall n, k2 ^ 2 * comp a n ^ 2 + r ^ 2 * vy n ^ 2 + k1 ^ 2 * comp b n ^ 2 = k2' ^ 2 * comp a' n ^ 2 + r' ^ 2 * vy n ^ 2 + k1' ^ 2 * comp b' n ^ 2).
  { intros v. apply (Rmult_eq_reg_l (pv p ("m" ++ X))); [|exact M0]. rewrite <- Q, EQ, Q', EM. reflexivity. }
  assert (RR : Rabs r = Rabs r').
  { specialize (E (mk3 0 1 0)). unfold comp in E. cbn [vx vy vz] in E. assert (S : r ^ 2 = r' ^ 2) by lra. apply sq_pm in S. destruct S as [-> | ->]; [reflexivity|apply Rabs_Ropp]. }
  assert (KN : k1 ^ 2 <> k2 ^ 2).
  { intros K. apply NE. rewrite !Q, K, N1, N2. 
    assert (PS : forall v, vy v = 0 -> sqnorm v = 1 -> comp a v ^ 2 + comp b v ^ 2 = 1).
    { intros [x y z] V1 V2. unfold sqnorm in V2. cbn [vx vy vz] in *. subst y. destruct O as (A & B & C). destruct a as [p1 p2], b as [q1 q2]. unfold comp, dot2 in *. cbn [fst snd vx vz] in *.
      assert (D2 : (p1 * q2 - p2 * q1) ^ 2 = 1) by (transitivity ((p1 * p1 + p2 * p2) * (q1 * q1 + q2 * q2) - (p1 * q1 + p2 * q2) ^ 2); [ring|rewrite A, B, C; ring]).
      set (dt := p1 * q2 - p2 * q1) in *.
      assert (Y1 : q2 = dt * p1) by (unfold dt; transitivity (q2 * (p1 * p1 + p2 * p2) - p2 * (p1 * q1 + p2 * q2)); [rewrite A, C; ring|ring]).
      assert (Y2 : q1 = - dt * p2) by (unfold dt; transitivity (q1 * (p1 * p1 + p2 * p2) - p1 * (p1 * q1 + p2 * q2)); [rewrite A, C; ring|ring]).
      clearbody dt. rewrite Y1, Y2. transitivity ((p1 * x + p2 * z) ^ 2 + dt ^ 2 * (- p2 * x + p1 * z) ^ 2); [ring|].
      rewrite D2. transitivity ((p1 * p1 + p2 * p2) * (x ^ 2 + 0 ^ 2 + z ^ 2)); [ring|]. rewrite A, V2. ring. }
    pose proof (PS n N1 N3) as P1. pose proof (PS n' N2 N4) as P2.
    transitivity (pv p ("m" ++ X) * (k2 ^ 2 * (comp a n ^ 2 + comp b n ^ 2))); [ring|]. rewrite P1, <- P2. ring. }
  assert (E2 : forall x z, k2 ^ 2 * dot2 a (x, z) ^ 2 + k1 ^ 2 * dot2 b (x, z) ^ 2 = k2' ^ 2 * dot2 a' (x, z) ^ 2 + k1' ^ 2 * dot2 b' (x, z) ^ 2).
  { intros x z. pose proof (E (mk3 x 0 z)) as E0. unfold comp in E0. cbn [vx vy vz] in E0. unfold dot2. cbn [fst snd]. lra. }
  destruct (cross_unique a b a' b' k1 k2 k1' k2' O O' KN E2) as (d1 & d2 & [[-> ->]|[-> ->]] & V1 & V2);
    exists (centre_of p X), r, r', (times2 k1 a), (times2 k2 b), (times2 k1' a'), (times2 k2' b'); auto 8.
Qed.
Print Assumptions C63_drawing_depends_on_the_body_only.
(* in particular the front frame of a Moore2019 set and of the set it converts to *)
Theorem C63_conversion_keeps_the_front_frame : forall p b, convert_principal_to_benchmark p = Ok b -> pv p "yH" = 0 ->
  centre_of b "H" = centre_of p "H" /\ pv b "mH" = pv p "mH" /\ forall n, central_of CMeijaard2007 b "H" n = central_of CMoore2019 p "H" n.
Proof.
  intros p b H Y. pose proof H as H'. apply convert_ok in H'. destruct H' as (_ & _ & EB). split; [subst b; reflexivity|]. split; [subst b; reflexivity|].
  intros n. pose proof (convert_front p b (mk3 (pv p "xH") 0 (pv p "zH")) n H Y) as F.
  unfold bench_moment, principal_moment_of, rigid_moment in F. cbn [append] in F.
  replace (pv b "xH") with (pv p "xH") in F by (subst b; reflexivity). replace (pv b "zH") with (pv p "zH") in F by (subst b; reflexivity).
  replace (pv b "mH") with (pv p "mH") in F by (subst b; reflexivity). rewrite Y in F.
  cbn [central_of]. unfold benchmark_central, moore_central. cbn [is_wheel String.eqb Ascii.eqb Bool.eqb orb append]. unfold v3_sub in F. cbn [vx vy vz] in F.
  apply (Rplus_eq_reg_r (pv p "mH" * sqnorm (v3_cross n (mk3 (pv p "xH" - pv p "xH") (0 - 0) (pv p "zH" - pv p "zH"))))). exact F.
Qed.
Print Assumptions C63_conversion_keeps_the_front_frame.
(* the ellipse: centred on the mass centre, along the principal axes.  Its full width
   and height A, B are the SEMI-axes of the homogeneous ellipsoid that has the body's
   moments of inertia *)
Theorem C63_ellipse_drawing : forall eig2 c bodies p X ax ax', eig2_contract eig2 -> drawable c bodies -> In X bodies -> has p (required c) ->
  plot_body_principal_inertia_ellipsoid eig2 c p X ax = Ok ax' ->
  exists A B angle, 0 <= A /\ 0 <= B /\ ax_shapes ax' = (ax_shapes ax ++ [Ell (centre_of p X) A B angle X])%list /\
    let th := angle * PI / 180 in let a := (cos th, sin th) in let b := (- sin th, cos th) in
    (0 < pv p ("m" ++ X) -> central_of c p X (mk3 0 1 0) <= central_of c p X (mk3 1 0 0) + central_of c p X (mk3 0 0 1) ->
     exists Y, 0 <= Y /\ forall n, central_of c p X n = ellipsoid_central (pv p ("m" ++ X)) A B Y a b n).
Proof.
  intros eig2 c ls p X ax ax' EC D HX HP H. destruct (ellipse_drawn eig2 c ls p X ax ax' EC D HX HP H) as (a & b & A & B & ang & Y2 & O & PA & PB & EA & EB & -> & Q).
  exists A, B, ang. split; [exact PA|]. split; [exact PB|]. split; [reflexivity|]. cbv zeta. rewrite <- EA, <- EB. intros M T.
  assert (P : 0 <= Y2).
  { rewrite !Q in T. unfold comp in T. cbn [vx vy vz] in T. destruct O as (O1 & O2 & O3). unfold dot2 in *. 
    set (m := pv p ("m" ++ X)) in *. destruct a as [a1 a2], b as [b1 b2]. cbn [fst snd] in *. injection EA as Ea1 Ea2. injection EB as Eb1 Eb2.
    assert (S1 : a1 ^ 2 + b1 ^ 2 = 1) by (subst; pose proof (sc1 (ang * PI / 180)); lra).
    assert (S2 : a2 ^ 2 + b2 ^ 2 = 1) by (subst; pose proof (sc1 (ang * PI / 180)); lra).
    assert (T' : m / 5 * (A ^ 2 + B ^ 2) <= m / 5 * (A ^ 2 + B ^ 2 + 2 * Y2)).
    { match type of T with ?x <= ?y => replace (m / 5 * (A ^ 2 + B ^ 2)) with x by ring; 
        replace (m / 5 * (A ^ 2 + B ^ 2 + 2 * Y2)) with y; [exact T|] end.
      transitivity (m / 5 * ((B ^ 2 + Y2) * (a1 * a1 + a2 * a2) + (A ^ 2 + Y2) * (b1 * b1 + b2 * b2))); [ring|rewrite O1, O2; ring]. }
    apply Rmult_le_reg_l in T'; lra. }
  exists (sqrt Y2). split; [apply sqrt_pos|]. intros n. rewrite Q. unfold ellipsoid_central. rewrite pow2_sqrt by exact P. reflexivity.
Qed.
Print Assumptions C63_ellipse_drawing.
(* the documentation promises that the drawn ellipse is the view of that ellipsoid; but
   the ellipse drawn has semi-axes A/2 and B/2, and no ellipsoid of the body's mass with
   that outline has its moments of inertia *)
Theorem C63_refuted_ellipse_is_the_view_of_the_ellipsoid : forall eig2 c bodies p X ax ax' A B angle, eig2_contract eig2 ->
  drawable c bodies -> In X bodies -> has p (required c) ->
  plot_body_principal_inertia_ellipsoid eig2 c p X ax = Ok ax' ->
  ax_shapes ax' = (ax_shapes ax ++ [Ell (centre_of p X) A B angle X])%list ->
  central_of c p X (mk3 0 1 0) <> 0 -> forall Y a b,
  4 * ellipsoid_central (pv p ("m" ++ X)) (A / 2) (B / 2) Y a b (mk3 0 1 0) = central_of c p X (mk3 0 1 0) /\
  ellipsoid_central (pv p ("m" ++ X)) (A / 2) (B / 2) Y a b (mk3 0 1 0) <> central_of c p X (mk3 0 1 0).
Proof.
  intros eig2 c ls p X ax ax' A B ang EC D HX HP H SH NZ Y a b.
  destruct (ellipse_drawn eig2 c ls p X ax ax' EC D HX HP H) as (a' & b' & A' & B' & ang' & Y2 & O & PA & PB & EA & EB & E & Q).
  rewrite E in SH. cbn [ax_shapes] in SH. apply app_inv_head in SH. injection SH as EA' EB' _. subst A' B'.
  rewrite Q in *. unfold ellipsoid_central, comp in *. cbn [vx vy vz] in *. split; [field|]. intros F. apply NZ. lra.
Qed.
Print Assumptions C63_refuted_ellipse_is_the_view_of_the_ellipsoid.
(* where the radii are defined, the ellipse can be drawn exactly when the moments about
   perpendicular axes in the plane differ by no more than the moment about y *)
Theorem C63_ellipse_defined_iff : forall eig2 c bodies p X ax, eig2_contract eig2 -> drawable c bodies -> In X bodies -> has p (required c) ->
  0 < pv p ("m" ++ X) -> (exists ax', plot_body_principal_radii_of_gyration eig2 c p X ax = Ok ax') ->
  ((exists ax', plot_body_principal_inertia_ellipsoid eig2 c p X ax = Ok ax') <->
   forall u v, vy u = 0 -> vy v = 0 -> sqnorm u = 1 -> sqnorm v = 1 -> v3_dot u v = 0 ->
     central_of c p X u <= central_of c p X (mk3 0 1 0) + central_of c p X v).
Proof. exact ellipse_defined_moments. Qed.
Print Assumptions C63_ellipse_defined_iff.

(* the examples: the benchmark bicycle, and a Moore2019 set with its conversion *)
Definition bike63 : dict R :=
  [("w", 102/100); ("c", 8/100); ("lam", PI/10); ("g", 981/100); ("v", 5);
   ("rR", 3/10); ("mR", 2); ("IRxx", 603/10000); ("IRyy", 12/100);
   ("xB", 3/10); ("zB", -9/10); ("mB", 85); ("IBxx", 92/10); ("IByy", 11); ("IBzz", 28/10); ("IBxz", 24/10);
   ("xH", 9/10); ("zH", -7/10); ("mH", 4); ("IHxx", 5892/100000); ("IHyy", 6/100); ("IHzz", 708/100000);
   ("IHxz", -756/100000); ("rF", 35/100); ("mF", 3); ("IFxx", 1405/10000); ("IFyy", 28/100)].
Definition moore63 : dict R :=
  [("w", 1); ("c", 8/100); ("lam", 31/100); ("g", 981/100); ("v", 5); ("xD", 4/10); ("yD", 0); ("zD", -5/10); ("mD", 14);
   ("kDaa", 1/4); ("kDyy", 4/10); ("kDbb", 3/10); ("alphaD", 1/2); ("xP", 3/10); ("yP", 0); ("zP", -1); ("mP", 70);
   ("kPaa", 4/10); ("kPyy", 3/10); ("kPbb", 3/10); ("alphaP", 1/5); ("mH", 4); ("xH", 9/10); ("yH", 0); ("zH", -7/10);
   ("kHaa", 1/10); ("kHyy", 1/8); ("kHbb", 1/12); ("alphaH", 1/3); ("rR", 3/10); ("mR", 2); ("kRaa", 1/5); ("kRyy", 1/4);
   ("rF", 35/100); ("mF", 3); ("kFaa", 1/5); ("kFyy", 1/4); ("lP", 17/10); ("wP", 4/10)].
Lemma bike63_has : has bike63 (required CMeijaard2007).
Proof. intros k Hk. unfold required in Hk. cbn [In dkeys map bike63 fst app] in *. repeat (destruct Hk as [<-|Hk]; [tauto|]). contradiction. Qed.
Lemma moore63_has : has moore63 (required CMoore2019).
Proof. intros k Hk. unfold required in Hk. cbn [In dkeys map moore63 fst app] in *. repeat (destruct Hk as [<-|Hk]; [tauto|]). contradiction. Qed.
Example C63_example_rear_frame : exists ax1 ax2,
  plot_body_principal_radii_of_gyration eig2_exact CMeijaard2007 bike63 "B" new_axes = Ok ax1 /\
  plot_body_principal_inertia_ellipsoid eig2_exact CMeijaard2007 bike63 "B" ax1 = Ok ax2 /\
  central_of CMeijaard2007 bike63 "B" (mk3 0 1 0) <> 0 /\
  central_of CMeijaard2007 bike63 "B" (mk3 0 1 0) <= central_of CMeijaard2007 bike63 "B" (mk3 1 0 0) + central_of CMeijaard2007 bike63 "B" (mk3 0 0 1).
Proof.
  assert (M : 0 < pv bike63 ("m" ++ "B")) by (cbn; lra).
  assert (CE : forall n, central_of CMeijaard2007 bike63 "B" n = 92/10 * vx n ^ 2 + 11 * vy n ^ 2 + 28/10 * vz n ^ 2 + 2 * (24/10) * vx n * vz n) by (intros; reflexivity).
  assert (R : exists ax', plot_body_principal_radii_of_gyration eig2_exact CMeijaard2007 bike63 "B" new_axes = Ok ax').
  { assert (K : exists r, planar_principal_radii_of_gyration eig2_exact bike63 "B" = Ok r).
    { apply (proj2 (benchmark_radii_defined eig2_exact bike63 "B" C63_eigensolver_exists bike63_has ltac:(cbn; tauto) M)).
      intros n. change (0 <= central_of CMeijaard2007 bike63 "B" n). rewrite CE. pose proof (pow2_ge_0 (vx n + vz n / 2)). pose proof (pow2_ge_0 (vx n)). pose proof (pow2_ge_0 (vy n)). pose proof (pow2_ge_0 (vz n)). nra. }
    destruct K as [[[[k1 k2] k3] k4] K]. apply (proj2 (radii_defined_draw eig2_exact CMeijaard2007 _ bike63 "B" new_axes draw_benchmark ltac:(cbn; tauto) bike63_has)). exists (k1, k2, k3, k4). exact K. }
  pose proof R as R'. destruct R as [ax1 R]. exists ax1.
  assert (EL : exists ax2, plot_body_principal_inertia_ellipsoid eig2_exact CMeijaard2007 bike63 "B" ax1 = Ok ax2).
  { assert (R1 : exists ax', plot_body_principal_radii_of_gyration eig2_exact CMeijaard2007 bike63 "B" ax1 = Ok ax').
    { apply (proj2 (radii_defined_draw eig2_exact CMeijaard2007 _ bike63 "B" ax1 draw_benchmark ltac:(cbn; tauto) bike63_has)).
      apply (proj1 (radii_defined_draw eig2_exact CMeijaard2007 _ bike63 "B" new_axes draw_benchmark ltac:(cbn; tauto) bike63_has)). exact R'. }
    apply (proj2 (C63_ellipse_defined_iff eig2_exact CMeijaard2007 _ bike63 "B" ax1 C63_eigensolver_exists draw_benchmark ltac:(cbn; tauto) bike63_has M R1)).
    intros [ux uy uz] [wx wy wz] U V U1 V1 P. rewrite !CE. unfold sqnorm, v3_dot in *. cbn [vx vy vz] in *. subst uy wy.
    assert (ux ^ 2 + uz ^ 2 = 1) by lra. assert (wx ^ 2 + wz ^ 2 = 1) by lra.
    pose proof (pow2_ge_0 (ux - 3 * uz)). pose proof (pow2_ge_0 (3 * wx + wz)). lra. }
  destruct EL as [ax2 EL]. exists ax2. split; [exact R|]. split; [exact EL|]. rewrite !CE. cbn [vx vy vz]. split; lra.
Qed.
Example C63_example_conversion : exists b, convert_principal_to_benchmark moore63 = Ok b /\ has b (required CMeijaard2007) /\
  pv moore63 "yH" = 0 /\ pv moore63 "mH" <> 0 /\
  (exists n n', vy n = 0 /\ vy n' = 0 /\ sqnorm n = 1 /\ sqnorm n' = 1 /\ central_of CMoore2019 moore63 "H" n <> central_of CMoore2019 moore63 "H" n') /\
  (exists ax, plot_body_principal_radii_of_gyration eig2_exact CMoore2019 moore63 "H" new_axes = Ok ax) /\
  (exists ax, plot_body_principal_radii_of_gyration eig2_exact CMeijaard2007 b "H" new_axes = Ok ax).
Proof.
  assert (CV : exists b, convert_principal_to_benchmark moore63 = Ok b).
  { eexists. apply convert_forward.
    - intros k Hk. cbn [In principal_keys dkeys map moore63 fst] in *. repeat (destruct Hk as [<-|Hk]; [tauto|]). contradiction.
    - cbn. lra. }
  destruct CV as [b CV]. exists b. split; [exact CV|].
  pose proof (C63_conversion_keeps_the_front_frame moore63 b CV eq_refl) as (_ & MH & CH).
  assert (HB : has b (required CMeijaard2007)).
  { apply convert_ok in CV. destruct CV as (_ & _ & ->). intros k Hk. unfold required in Hk. unfold conv_dict. cbn [In dkeys map fst] in *.
    repeat (destruct Hk as [<-|Hk]; [tauto|]). contradiction. }
  split; [exact HB|]. split; [reflexivity|]. split; [cbn; lra|]. split; [|split].
  - exists (mk3 (cos (1/3)) 0 (- sin (1/3))), (mk3 (sin (1/3)) 0 (cos (1/3))). pose proof (sc1 (1/3)) as S. unfold sqnorm. cbn [vx vy vz].
    split; [reflexivity|]. split; [reflexivity|]. split; [lra|]. split; [lra|].
    cbn [central_of]. unfold moore_central, principal_central, v3_dot. cbn - [pv]. cbn [vx vy vz].
    change (pv moore63 "mH") with 4. change (pv moore63 "kHaa") with (1/10). change (pv moore63 "kHbb") with (1/12). change (pv moore63 "kHyy") with (1/8). change (pv moore63 "alphaH") with (1/3).
    set (cc := cos (1/3)) in *. set (ss := sin (1/3)) in *. intros E.
    assert (E1 : 4 * ((1/10) ^ 2 * (ss * ss + cc * cc) ^ 2) = 4 * ((1/12) ^ 2 * (ss * ss + cc * cc) ^ 2)) by lra.
    rewrite S in E1. lra.
  - apply (proj2 (radii_defined_draw eig2_exact CMoore2019 _ moore63 "H" new_axes draw_principal ltac:(cbn; tauto) moore63_has)). eexists. reflexivity.
  - apply (proj2 (radii_defined_draw eig2_exact CMeijaard2007 _ b "H" new_axes draw_benchmark ltac:(cbn; tauto) HB)). cbn [principal_radii].
    apply (proj2 (benchmark_radii_defined eig2_exact b "H" C63_eigensolver_exists HB ltac:(cbn; tauto) ltac:(cbn [append]; rewrite MH; cbn; lra))).
    intros n. change (0 <= central_of CMeijaard2007 b "H" n). rewrite CH. unfold central_of, moore_central. apply principal_central_nonneg. cbn; lra.
Qed.

(* ---------------- C64: geometry, mass centres, person, shared axes ---------------- *)
(* plot_geometry: the ground line, two wheel circles that touch it at x = 0 and x = w,
   and the frame: rear wheel centre, steer axis, steer axis, front wheel centre, with the
   two outer segments perpendicular to the steer axis; the dashed line continues along
   the steer axis down to the ground point w + c *)
Theorem C64_geometry : forall c bodies p steer ax ax', drawable c bodies -> plot_geometry c p steer ax = Ok ax' ->
  let w := pv p "w" in let tr := pv p "c" in let lam := pv p "lam" in let rR := pv p "rR" in let rF := pv p "rF" in
  exists d e, ahead w tr lam (fst d) (snd d) = 0 /\ ahead w tr lam (fst e) (snd e) = 0 /\ ahead w tr lam (w + tr) 0 = 0 /\
    along lam (fst d) (snd d) = along lam 0 (- rR) /\ along lam (fst e) (snd e) = along lam w (- rF) /\
    ax' = mkaxes (ax_shapes ax ++ [Hline 0; Circle (0, - rR) rR "black"; Circle (w, - rF) rF "black"; Poly [(0, - rR); d; e; (w, - rF)] "black"]
                  ++ (if steer then [Poly [e; (w + tr, 0)] "black"] else [])) true true.
Proof.
  intros c ls p steer ax ax' D H w tr lam rR rF. destruct (geometry_drawn c ls p steer ax ax' D H) as (p1 & p2 & FP & ->).
  destruct (plot_data_spec p _ FP) as (q1 & q2 & E & A1 & A2 & B1 & B2). injection E as <- <-.
  exists p1, p2. repeat split; try assumption. unfold ahead. ring.
Qed.
Print Assumptions C64_geometry.
Theorem C64_geometry_defined_iff : forall c bodies p steer ax, drawable c bodies -> has p (required c) ->
  let lam := pv p "lam" in
  ((exists ax', plot_geometry c p steer ax = Ok ax') <->
   cos lam <> 0 /\ (steer = true -> pv p "w" * sin lam + (pv p "rR" - pv p "rF") * cos lam <> 0)).
Proof. exact geometry_defined. Qed.
Print Assumptions C64_geometry_defined_iff.
(* the documentation says the dashed line starts at the front wheel centre; it does so
   only when the steer axis passes through the wheel centre *)
Theorem C64_refuted_starts_at_the_wheel_centre : forall c bodies p ax ax', drawable c bodies -> plot_geometry c p true ax = Ok ax' ->
  let w := pv p "w" in let tr := pv p "c" in let lam := pv p "lam" in let rF := pv p "rF" in
  exists e shapes, ax_shapes ax' = (shapes ++ [Poly [e; (w + tr, 0)] "black"])%list /\ (e = (w, - rF) <-> rF * sin lam = tr * cos lam).
Proof.
  intros c ls p ax ax' D H w tr lam rF.
  assert (CN : cos lam <> 0).
  { destruct (geometry_drawn c ls p true ax ax' D H) as (p1 & p2 & FP & _). apply (proj1 (plot_data_defined p)). eauto. }
  destruct (C64_geometry c ls p true ax ax' D H) as (d & e & _ & A2 & _ & _ & B2 & ->).
  fold w tr lam rF in A2, B2. exists e. eexists. split.
  - cbn [ax_shapes]. rewrite app_assoc. reflexivity.
  - destruct e as [x z]. unfold ahead, along in *. cbn [fst snd] in *. split.
    + intros E. injection E as -> ->. lra.
    + intros E. pose proof (sc1 lam) as S. set (s := sin lam) in *. set (k := cos lam) in *.
      assert (X1 : (x - w) * k = (z + rF) * s) by lra. assert (X2 : (x - w) * s + (z + rF) * k = 0) by lra.
      assert (Z : z + rF = 0).
      { transitivity ((z + rF) * (s * s + k * k)); [rewrite S; ring|]. transitivity ((z + rF) * s * s + (z + rF) * k * k); [ring|]. rewrite <- X1. transitivity (((x - w) * s + (z + rF) * k) * k); [ring|rewrite X2; ring]. }
      rewrite Z in X1. assert (x - w = 0) by (apply (Rmult_eq_reg_r k); [lra|exact CN]). apply pt_eq; lra.
Qed.
Print Assumptions C64_refuted_starts_at_the_wheel_centre.
(* the mass-centre symbols *)
Definition mass_symbol (c : pclass) (p : dict R) (X : string) : list shape :=
  let o := centre_of p X in
  let r := match c with CMoore2019 => Rmax (pv p "w") (pv p "lP") / 30 | _ => pv p "w" / 10 end in
  [Wedge o r 0 90 X; Wedge o r 180 270 X; Circle o r "black"; Text (fst o + r, snd o + r) X].
Theorem C64_mass_centers : forall c bodies p l ax, drawable c bodies -> has p (required c) ->
  (forall b, In b l -> In b bodies) ->
  plot_mass_centers c p (Some l) ax = Ok (mkaxes (ax_shapes ax ++ flat_map (mass_symbol c p) l) true true) /\
  plot_mass_centers c p None ax = Ok (mkaxes (ax_shapes ax ++ flat_map (mass_symbol c p) bodies) true true).
Proof.
  intros c ls p l ax D HP SUB. unfold plot_mass_centers. rewrite (proj2 (drawable_labels c ls D)). unfold default_bodies. rewrite (proj1 (drawable_labels c ls D)).
  assert (G : forall l, (forall b, In b l -> In b ls) -> (ax0 <- each_body (plot_body_mass_center c p) l ax ;; Ok (finalize_plot ax0)) = Ok (mkaxes (ax_shapes ax ++ flat_map (mass_symbol c p) l) true true)).
  { intros l' S. destruct (each_eval (plot_body_mass_center c p) (mass_symbol c p) l' ax) as (a & -> & SH).
    - intros b Hb a. apply (mass_center_drawn c ls p b a D (S b Hb) HP).
    - cbn [bind]. rewrite finalize_eq, SH. reflexivity. }
  split; apply G; auto.
Qed.
Print Assumptions C64_mass_centers.
Theorem C64_unknown_body : forall c bodies p X ax, drawable c bodies -> has p (required c) -> ~ In X bodies ->
  exists k, plot_body_mass_center c p X ax = Err (KeyError k).
Proof. intros c ls p X ax D HP N. exact (unknown_body c ls p X ax D N HP). Qed.
Print Assumptions C64_unknown_body.
(* the person: a rhombus about the person's mass centre with diagonals wP and lP, turned by
   alphaP about y; the cross is the two diagonals *)
Theorem C64_person_diamond : forall p show ax, has p (required CMoore2019) ->
  exists a b, orthonormal a b /\ b = (sin (pv p "alphaP"), cos (pv p "alphaP")) /\
    let o := centre_of p "P" in let A := times2 (pv p "wP" / 2) a in let B := times2 (pv p "lP" / 2) b in
    plot_person_diamond CMoore2019 p show ax =
      Ok (mkaxes (ax_shapes ax ++ [Poly [plus2 o A; plus2 o (times2 (-1) B); plus2 o (times2 (-1) A); plus2 o B; plus2 o A] "P"]
                  ++ (if show then [Poly (centred o A) "black"; Poly (centred o B) "black"] else [])) true true).
Proof.
  intros p show ax HP. exists (cos (pv p "alphaP"), - sin (pv p "alphaP")), (sin (pv p "alphaP"), cos (pv p "alphaP")).
  split; [|split; [reflexivity|exact (diamond_drawn p show ax HP)]].
  pose proof (sc1 (pv p "alphaP")). unfold orthonormal, dot2. cbn [fst snd]. repeat split; lra.
Qed.
Print Assumptions C64_person_diamond.
(* sharing axes: whatever sequence of drawing calls, for whichever sets, is made on one
   axes, it shows what was there followed by the figure each call would draw on its own,
   in order, and z points down; a call fails there exactly when it fails on its own *)
Theorem C64_shared_axes : forall eig2 calls ax ax',
  run_calls eig2 calls ax = Ok ax' <->
  exists figures, Forall2 (fun call l => figure_of eig2 (fst (fst call)) (snd (fst call)) (snd call) l) calls figures /\
    ax' = match calls with [] => ax | _ => mkaxes (ax_shapes ax ++ concat figures) true true end.
Proof. exact calls_on_axes. Qed.
Print Assumptions C64_shared_axes.
Theorem C64_failures_do_not_depend_on_the_axes : forall eig2 c p call ax ax' e,
  run_call eig2 c p call ax = Err e <-> run_call eig2 c p call ax' = Err e.
Proof.
  intros eig2 c p call ax ax' e. rewrite (proj2 (call_on_any_axes eig2 c p call ax) e), (proj2 (call_on_any_axes eig2 c p call ax') e). reflexivity.
Qed.
Print Assumptions C64_failures_do_not_depend_on_the_axes.
(* drawing several bodies is drawing each in turn *)
Theorem C64_bodies_one_by_one : forall eig2 c p l ax, can_draw c = true -> l <> [] ->
  run_call eig2 c p (MassCenters (Some l)) ax = run_calls eig2 (map (fun b => (c, p, MassCenter b)) l) ax /\
  run_call eig2 c p (AllRadii (Some l)) ax = run_calls eig2 (map (fun b => (c, p, Radii b)) l) ax /\
  run_call eig2 c p (Ellipsoids (Some l)) ax = run_calls eig2 (map (fun b => (c, p, Ellipsoid b)) l) ax.
Proof.
  intros eig2 c p l ax CD NE. cbn [run_call]. unfold plot_mass_centers, plot_principal_radii_of_gyration, plot_principal_inertia_ellipsoids. rewrite CD. cbn [default_bodies].
  assert (NM : forall mk : string -> draw_call, map (fun b => (c, p, mk b)) l <> []) by (intros mk E; apply NE; destruct l; [reflexivity|discriminate]).
  repeat split.
  - rewrite (each_is_calls eig2 c p (plot_body_mass_center c p) MassCenter l ax) by reflexivity. apply finalize_after_calls, NM.
  - rewrite (each_is_calls eig2 c p (plot_body_principal_radii_of_gyration eig2 c p) Radii l ax) by reflexivity. apply finalize_after_calls, NM.
  - rewrite (each_is_calls eig2 c p (plot_body_principal_inertia_ellipsoid eig2 c p) Ellipsoid l ax) by reflexivity. apply finalize_after_calls, NM.
Qed.
Print Assumptions C64_bodies_one_by_one.
(* plot_all is every drawing of every body, the person included when there is one *)
Theorem C64_plot_all : forall eig2 c bodies p ax, drawable c bodies ->
  run_call eig2 c p Everything ax =
  run_calls eig2 (map (fun call => (c, p, call))
    ([AllRadii (Some bodies); Ellipsoids (Some bodies)] ++ (if smem "P" bodies then [Diamond false] else []) ++
     [Geometry true; MassCenters (Some bodies)])) ax.
Proof.
  intros eig2 c ls p ax D.
  assert (DB : default_bodies c None = default_bodies c (Some ls)) by (cbn [default_bodies]; exact (proj1 (drawable_labels c ls D))).
  assert (CD : can_draw c = true) by exact (proj2 (drawable_labels c ls D)).
  cbn [run_call]. unfold plot_all. rewrite CD.
  assert (E1 : forall a, plot_principal_radii_of_gyration eig2 c p None a = plot_principal_radii_of_gyration eig2 c p (Some ls) a) by (intros; unfold plot_principal_radii_of_gyration; rewrite DB; reflexivity).
  assert (E2 : forall a, plot_principal_inertia_ellipsoids eig2 c p None a = plot_principal_inertia_ellipsoids eig2 c p (Some ls) a) by (intros; unfold plot_principal_inertia_ellipsoids; rewrite DB; reflexivity).
  assert (E3 : forall a, plot_mass_centers c p None a = plot_mass_centers c p (Some ls) a) by (intros; unfold plot_mass_centers; rewrite DB; reflexivity).
  rewrite E1. destruct (plot_principal_radii_of_gyration eig2 c p (Some ls) ax) as [a1|e] eqn:R1; cbn [bind].
  2:{ destruct D; cbn [app map run_calls smem existsb String.eqb Ascii.eqb Bool.eqb orb]; cbn [run_call]; rewrite R1; reflexivity. }
  rewrite E2. destruct (plot_principal_inertia_ellipsoids eig2 c p (Some ls) a1) as [a2|e] eqn:R2; cbn [bind].
  2:{ destruct D; cbn [app map run_calls smem existsb String.eqb Ascii.eqb Bool.eqb orb]; cbn [run_call]; rewrite R1; cbn [bind]; rewrite R2; reflexivity. }
  destruct D; cbn [app map run_calls smem existsb String.eqb Ascii.eqb Bool.eqb orb]; cbn [run_call]; rewrite R1; cbn [bind]; rewrite R2; cbn [bind].
  1,2: match goal with |- context [plot_geometry ?c ?p true ?a] => destruct (plot_geometry c p true a) as [a3|e]; cbn [bind]; [|reflexivity] end; rewrite E3;
    match goal with |- context [plot_mass_centers ?c ?p ?l ?a] => destruct (plot_mass_centers c p l a); reflexivity end.
  match goal with |- context [plot_person_diamond ?c ?p ?l ?a] => destruct (plot_person_diamond c p l a) as [a3|e]; cbn [bind]; [|reflexivity] end.
  match goal with |- context [plot_geometry ?c ?p true ?a] => destruct (plot_geometry c p true a) as [a4|e]; cbn [bind]; [|reflexivity] end. rewrite E3.
  match goal with |- context [plot_mass_centers ?c ?p ?l ?a] => pose proof (finalize_after_calls eig2 [(c, p, MassCenters l)] a ltac:(discriminate)) as F end.
  cbn [run_calls run_call] in F.
  match goal with |- context [plot_mass_centers ?c ?p ?l ?a] => destruct (plot_mass_centers c p l a) as [a5|e]; cbn [bind] in *; [exact F|reflexivity] end.
Qed.
Print Assumptions C64_plot_all.
Theorem C64_other_sets_cannot_be_drawn : forall eig2 c p call ax, c = CMoore2012 \/ c = CMooreRiderLean2012 ->
  run_call eig2 c p call ax = Err AttributeError.
Proof. intros eig2 c p call ax [-> | ->]; destruct call; reflexivity. Qed.
Print Assumptions C64_other_sets_cannot_be_drawn.
Example C64_example : exists ax,
  run_calls eig2_exact [(CMoore2019, moore63, Everything); (CMeijaard2007, bike63, Geometry true); (CMeijaard2007, bike63, MassCenters None)] new_axes = Ok ax /\ ax_yinverted ax = true.
Proof.
  assert (PI4 : 0 < PI / 10 < PI / 2) by (pose proof PI_RGT_0; lra).
  assert (CP : 0 < cos (PI / 10)) by (apply cos_gt_0; lra). assert (SP : 0 < sin (PI / 10)) by (apply sin_gt_0; lra).
  assert (P3 : 3 < PI) by (pose proof PI_4; pose proof PI2_3_2; lra).
  assert (CQ : 0 < cos (31/100)) by (apply cos_gt_0; lra). assert (SQ : 0 < sin (31/100)) by (apply sin_gt_0; lra).
  assert (G1 : exists a, plot_geometry CMoore2019 moore63 true new_axes = Ok a).
  { apply (geometry_defined CMoore2019 _ moore63 true new_axes draw_principal moore63_has). cbn - [cos sin]. split; [lra|]. intros _.
    assert (T : cos (31/100) / 8 < sin (31/100)).
    { assert (B := SIN (31/100) ltac:(lra) ltac:(lra)). unfold sin_lb, sin_approx, sin_term in B. cbn - [Rdiv] in B. pose proof (COS_bound (31/100)). lra. }
    lra. }
  assert (G2 : exists a, plot_geometry CMeijaard2007 bike63 true new_axes = Ok a).
  { apply (geometry_defined CMeijaard2007 _ bike63 true new_axes draw_benchmark bike63_has). cbn - [cos sin PI]. split; [lra|]. intros _.
    assert (T : cos (PI / 10) / 8 < sin (PI / 10)).
    { assert (A1 : sin (PI / 12) < sin (PI / 10)) by (apply sin_increasing_1; lra).
      pose proof (sin_2a (PI / 12)) as A2. replace (2 * (PI / 12)) with (PI / 6) in A2 by field. rewrite sin_PI6 in A2.
      assert (A3 : 0 < sin (PI / 12)) by (apply sin_gt_0; lra). pose proof (COS_bound (PI / 12)). pose proof (COS_bound (PI / 10)). nra. }
    lra. }
  assert (FB : forall c ls p, drawable c ls -> has p (required c) -> forall call l, (call = MassCenters None \/ exists a, run_call eig2_exact c p call new_axes = Ok a) ->
     call = l -> exists f, figure_of eig2_exact c p call f).
  { intros c ls p D HP call l [-> | [a E]] _; [|exists (ax_shapes a), a; auto].
    eexists. eexists. split; [exact (proj2 (C64_mass_centers c ls p [] new_axes D HP ltac:(intros b []))) |reflexivity]. }
  assert (FA : exists f, figure_of eig2_exact CMoore2019 moore63 Everything f).
  { assert (RR : forall X, In X ["D"; "F"; "H"; "P"; "R"] -> forall a, exists a', plot_body_principal_radii_of_gyration eig2_exact CMoore2019 moore63 X a = Ok a').
    { intros X HX a. apply (proj2 (radii_defined_draw eig2_exact CMoore2019 _ moore63 X a draw_principal HX moore63_has)).
      cbn [In] in HX. repeat (destruct HX as [<-|HX]; [eexists; reflexivity|]). contradiction. }
    assert (EE : forall X, In X ["D"; "F"; "H"; "P"; "R"] -> forall a, exists a', plot_body_principal_inertia_ellipsoid eig2_exact CMoore2019 moore63 X a = Ok a').
    { assert (ED : forall X ka kb ky al a, In X ["D"; "F"; "H"; "P"; "R"] -> principal_radii eig2_exact CMoore2019 moore63 X = Ok (ka, kb, ky, al) ->
        ka ^ 2 <= ky ^ 2 + kb ^ 2 -> kb ^ 2 <= ky ^ 2 + ka ^ 2 -> exists a', plot_body_principal_inertia_ellipsoid eig2_exact CMoore2019 moore63 X a = Ok a').
      { intros X ka kb ky al a HX E K1 K2. apply (ellipse_defined eig2_exact CMoore2019 _ moore63 X a ka kb ky al draw_principal HX moore63_has E). lra. }
      intros X HX a. pose proof HX as HX'. cbn [In] in HX'.
      destruct HX' as [<-|[<-|[<-|[<-|[<-|[]]]]]].
      - apply (ED "D" (1/4) (3/10) (4/10) (1/2)); [exact HX|reflexivity|lra|lra].
      - apply (ED "F" (1/5) (1/5) (1/4) 0); [exact HX|reflexivity|lra|lra].
      - apply (ED "H" (1/10) (1/12) (1/8) (1/3)); [exact HX|reflexivity|lra|lra].
      - apply (ED "P" (4/10) (3/10) (3/10) (1/5)); [exact HX|reflexivity|lra|lra].
      - apply (ED "R" (1/5) (1/5) (1/4) 0); [exact HX|reflexivity|lra|lra]. }
    assert (EB : forall (f : string -> axes -> res axes) l, (forall X, In X l -> forall a, exists a', f X a = Ok a') -> forall a, exists a', each_body f l a = Ok a').
    { intros f l. induction l as [|X l IH]; intros H a; cbn [each_body]; [eauto|]. destruct (H X (or_introl eq_refl) a) as [a1 E]. rewrite E. cbn [bind]. apply IH. intros Y HY. apply H. right. exact HY. }
    assert (Q : exists a, run_call eig2_exact CMoore2019 moore63 Everything new_axes = Ok a).
    { destruct (EB _ _ RR new_axes) as [a1 E1]. destruct (EB _ _ EE new_axes) as [a2 E2]. destruct G1 as [a3 G1].
      rewrite (C64_plot_all eig2_exact CMoore2019 _ moore63 new_axes draw_principal). eexists. apply calls_on_axes.
      cbn [smem existsb String.eqb Ascii.eqb Bool.eqb orb app map].
      eexists. split; [|reflexivity]. repeat (constructor; cbn [fst snd]).
      - eexists. cbn [run_call]. unfold plot_principal_radii_of_gyration. cbn [can_draw default_bodies]. rewrite E1. cbn [bind]. split; reflexivity.
      - eexists. cbn [run_call]. unfold plot_principal_inertia_ellipsoids. cbn [can_draw default_bodies]. rewrite E2. cbn [bind]. split; reflexivity.
      - eexists. cbn [run_call]. rewrite (diamond_drawn moore63 false new_axes moore63_has). split; reflexivity.
      - eexists. cbn [run_call]. rewrite G1. split; reflexivity.
      - eexists. cbn [run_call]. rewrite (proj1 (C64_mass_centers CMoore2019 _ moore63 ["D"; "F"; "H"; "P"; "R"] new_axes draw_principal moore63_has ltac:(auto))). split; reflexivity. }
    destruct Q as [a Q]. exists (ax_shapes a), a. auto. }
  destruct FA as [f1 F1].
  destruct (FB CMeijaard2007 _ bike63 draw_benchmark bike63_has (Geometry true) (Geometry true) (or_intror G2) eq_refl) as [f2 F2].
  destruct (FB CMeijaard2007 _ bike63 draw_benchmark bike63_has (MassCenters None) (MassCenters None) (or_introl eq_refl) eq_refl) as [f3 F3].
  eexists. split; [apply calls_on_axes; exists [f1; f2; f3]; split; [repeat constructor; assumption|reflexivity]|reflexivity].
Qed.
