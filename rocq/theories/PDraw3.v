(* PDraw3.v -- calls on shared axes, the same inertia is drawn the same way *)
From Coq Require Import Lra.
From Verif Require Import Base MString MHeap MBicycle MVec MInertia MSets MGeometry MRider MDraw PBase SBicycle PBicycle SInertia PInertia SGeometry PGeometry SModels PModels PSets PSets2 PSets3 SDraw PDraw PDraw2.
Local Open Scope string_scope.
Local Open Scope R_scope.

Definition fixed (f : axes -> res axes) (r : res (list shape)) : Prop :=
  forall ax, f ax = (l <- r ;; Ok (mkaxes (ax_shapes ax ++ l) true true)).
Definition loose (f : axes -> res axes) (r : res (list shape)) : Prop :=
  forall ax, exists y e, f ax = (l <- r ;; Ok (mkaxes (ax_shapes ax ++ l) y e)).
Lemma fixed_loose f r : fixed f r -> loose f r.
Proof. intros H ax. exists true, true. apply H. Qed.
Lemma loose_ok : loose Ok (Ok []).
Proof. intros [s y e]. exists y, e. cbn. rewrite app_nil_r. reflexivity. Qed.
Lemma loose_bind f g r r' : loose f r -> loose g r' -> loose (fun ax => a <- f ax ;; g a) (l <- r ;; l' <- r' ;; Ok (l ++ l')%list).
Proof.
  intros F G ax. destruct (F ax) as (y & e & F1). destruct r as [l|x]; cbn [bind] in *.
  - rewrite F1. cbn [bind]. destruct (G (mkaxes (ax_shapes ax ++ l) y e)) as (y' & e' & G1). exists y', e'. rewrite G1. cbn [ax_shapes].
    destruct r'; cbn [bind]; [rewrite app_assoc|]; reflexivity.
  - rewrite F1. exists true, true. reflexivity.
Qed.
Lemma loose_ext f g r : (forall ax, f ax = g ax) -> loose f r -> loose g r.
Proof. intros E H ax. rewrite <- E. apply H. Qed.
Lemma fixed_finalize f r : loose f r -> fixed (fun ax => a <- f ax ;; Ok (finalize_plot a)) r.
Proof.
  intros F ax. destruct (F ax) as (y & e & F1). rewrite F1. destruct r; cbn [bind]; [rewrite finalize_eq|]; reflexivity.
Qed.
Lemma fixed_ext f g r : (forall ax, f ax = g ax) -> fixed f r -> fixed g r.
Proof. intros E H ax. rewrite <- E. apply H. Qed.
Lemma fixed_err e : fixed (fun _ => Err e) (Err e).
Proof. intros ax. reflexivity. Qed.

Fixpoint collect (r : string -> res (list shape)) (bs : list string) : res (list shape) :=
  match bs with [] => Ok [] | b :: bs => l <- r b ;; l' <- collect r bs ;; Ok (l ++ l')%list end.
Lemma each_loose f r bs : (forall b, fixed (f b) (r b)) -> loose (each_body f bs) (collect r bs).
Proof.
  intros F. induction bs as [|b bs IH]; cbn [each_body collect]; [apply loose_ok|].
  apply (loose_bind (f b) (each_body f bs)); [apply fixed_loose, F|exact IH].
Qed.

Ltac fix_tac := intros ax; repeat match goal with
  | |- context [bind (bind ?x _) _] => destruct x; cbn [bind]; [|reflexivity]
  | |- context [bind ?x _] => destruct x; cbn [bind]; [|reflexivity]
  end.
Definition shapes_r (r : res axes) : res (list shape) := a <- r ;; Ok (ax_shapes a).

Lemma fix_mass c p b : fixed (plot_body_mass_center c p b) (shapes_r (plot_body_mass_center c p b new_axes)).
Proof.
  intros ax. unfold plot_body_mass_center. destruct (can_draw c); [|reflexivity].
  destruct (derived c p); cbn [bind shapes_r]; [|reflexivity].
  destruct (dlook _ ("x" ++ b)); cbn [bind]; [|reflexivity]. destruct (dlook _ ("z" ++ b)); cbn [bind]; [|reflexivity].
  destruct (dlook _ "w"); cbn [bind]; [|reflexivity].
  match goal with |- context [bind ?x _] => destruct x; cbn [bind]; [|reflexivity] end.
  destruct (body_color c b); cbn [bind]; [|reflexivity].
  unfold com_symbol. rewrite !add_add, !finalize_add. reflexivity.
Qed.
Lemma fix_radii eig2 c p b : fixed (plot_body_principal_radii_of_gyration eig2 c p b) (shapes_r (plot_body_principal_radii_of_gyration eig2 c p b new_axes)).
Proof.
  intros ax. unfold plot_body_principal_radii_of_gyration. destruct (can_draw c); [|reflexivity].
  destruct (derived c p); cbn [bind shapes_r]; [|reflexivity].
  destruct (dlook _ ("x" ++ b)); cbn [bind]; [|reflexivity]. destruct (dlook _ ("z" ++ b)); cbn [bind]; [|reflexivity].
  destruct (principal_radii eig2 c p b) as [[[[? ?] ?] ?]|]; cbn [bind]; [|reflexivity].
  destruct (body_color c b); cbn [bind]; [|reflexivity].
  rewrite !add_add, !finalize_add. reflexivity.
Qed.
Lemma fix_ellipse eig2 c p b : fixed (plot_body_principal_inertia_ellipsoid eig2 c p b) (shapes_r (plot_body_principal_inertia_ellipsoid eig2 c p b new_axes)).
Proof.
  intros ax. unfold plot_body_principal_inertia_ellipsoid. destruct (can_draw c); [|reflexivity].
  destruct (derived c p); cbn [bind shapes_r]; [|reflexivity].
  destruct (principal_radii eig2 c p b) as [[[[? ?] ?] ?]|]; cbn [bind]; [|reflexivity].
  do 2 (match goal with |- context [bind (npsqrt ?x) _] => destruct (npsqrt x); cbn [bind]; [|reflexivity] end).
  destruct (dlook _ ("x" ++ b)); cbn [bind]; [|reflexivity]. destruct (dlook _ ("z" ++ b)); cbn [bind]; [|reflexivity].
  destruct (body_color c b); cbn [bind]; [|reflexivity].
  rewrite !finalize_add. reflexivity.
Qed.
Lemma fix_diamond c p s : fixed (plot_person_diamond c p s) (shapes_r (plot_person_diamond c p s new_axes)).
Proof.
  intros ax. unfold plot_person_diamond. destruct c; try reflexivity.
  repeat match goal with |- context [bind (dlook p ?k) _] => destruct (dlook p k); cbn [bind shapes_r]; [|reflexivity] end.
  destruct (body_color CMoore2019 "P"); cbn [bind]; [|reflexivity].
  destruct s; rewrite ?add_add, !finalize_add; reflexivity.
Qed.
Lemma fix_geometry c p s : fixed (plot_geometry c p s) (shapes_r (plot_geometry c p s new_axes)).
Proof.
  intros ax. unfold plot_geometry, plot_geometry_from_benchmark. destruct (can_draw c); [|reflexivity].
  destruct (dlook p "rR"); cbn [bind shapes_r]; [|reflexivity]. destruct (dlook p "w"); cbn [bind]; [|reflexivity].
  destruct (dlook p "rF"); cbn [bind]; [|reflexivity]. destruct (fundamental_geometry_plot_data p) as [pts|]; cbn [bind]; [|reflexivity].
  destruct s.
  - destruct (index pts 1); cbn [bind]; [|reflexivity]. destruct (index pts 2); cbn [bind]; [|reflexivity].
    destruct (rdiv _ _); cbn [bind]; [|reflexivity]. rewrite !add_add, !finalize_add. reflexivity.
  - cbn [bind]. rewrite !add_add, !finalize_add. reflexivity.
Qed.
Lemma fix_each (g : pclass -> (string -> axes -> res axes)) c bodies :
  (forall b, fixed (g c b) (shapes_r (g c b new_axes))) ->
  exists r, fixed (fun ax => if can_draw c then a <- each_body (g c) (default_bodies c bodies) ax ;; Ok (finalize_plot a) else Err AttributeError) r.
Proof.
  intros F. destruct (can_draw c).
  - eexists. apply fixed_finalize. apply each_loose. exact F.
  - eexists. apply fixed_err.
Qed.
Lemma fix_masses c p l : exists r, fixed (plot_mass_centers c p l) r.
Proof. exact (fix_each (fun c => plot_body_mass_center c p) c l (fix_mass c p)). Qed.
Lemma fix_all_radii eig2 c p l : exists r, fixed (plot_principal_radii_of_gyration eig2 c p l) r.
Proof. exact (fix_each (fun c => plot_body_principal_radii_of_gyration eig2 c p) c l (fix_radii eig2 c p)). Qed.
Lemma fix_ellipses eig2 c p l : exists r, fixed (plot_principal_inertia_ellipsoids eig2 c p l) r.
Proof. exact (fix_each (fun c => plot_body_principal_inertia_ellipsoid eig2 c p) c l (fix_ellipse eig2 c p)). Qed.
Lemma fixed_after f g r r' : loose f r -> fixed g r' -> fixed (fun ax => a <- f ax ;; g a) (l <- r ;; l' <- r' ;; Ok (l ++ l')%list).
Proof.
  intros F G ax. destruct (F ax) as (y & e & F1). rewrite F1. destruct r; cbn [bind]; [|reflexivity].
  rewrite G. cbn [ax_shapes]. destruct r'; cbn [bind]; [rewrite app_assoc|]; reflexivity.
Qed.
Lemma fix_everything eig2 c p : exists r, fixed (plot_all eig2 c p) r.
Proof.
  destruct (fix_all_radii eig2 c p None) as [r1 F1]. destruct (fix_ellipses eig2 c p None) as [r2 F2].
  pose proof (fix_diamond c p false) as F3. pose proof (fix_geometry c p true) as F4. destruct (fix_masses c p None) as [r5 F5].
  destruct (can_draw c) eqn:CD; [|eexists; eapply fixed_ext; [|apply fixed_err]; intros ax; unfold plot_all; rewrite CD; reflexivity].
  set (dm := fun ax => match c with CMoore2019 => plot_person_diamond c p false ax | _ => Ok ax end).
  assert (FD : exists r, loose dm r).
  { unfold dm. destruct c; try (eexists; apply loose_ok). eexists. apply fixed_loose. exact F3. }
  destruct FD as [r3 FD].
  assert (FE : exists r, fixed (fun ax => a <- plot_mass_centers c p None ax ;; Ok (match c with CMoore2019 => finalize_plot a | _ => a end)) r).
  { destruct c; try (exists r5; intros ax; rewrite F5; destruct r5; reflexivity). }
  destruct FE as [r6 FE].
  pose proof (fixed_after _ _ _ _ (fixed_loose _ _ F4) FE) as G1.
  pose proof (fixed_after _ _ _ _ FD G1) as G2.
  pose proof (fixed_after _ _ _ _ (fixed_loose _ _ F2) G2) as G3.
  pose proof (fixed_after _ _ _ _ (fixed_loose _ _ F1) G3) as G4.
  eexists. eapply fixed_ext; [|exact G4]. intros ax. unfold plot_all. rewrite CD. reflexivity.
Qed.
Lemma call_fixed eig2 c p call : exists r, fixed (run_call eig2 c p call) r.
Proof.
  destruct call; cbn [run_call].
  - eexists; apply fix_geometry.
  - eexists; apply fix_mass.
  - apply fix_masses.
  - eexists; apply fix_radii.
  - apply fix_all_radii.
  - eexists; apply fix_ellipse.
  - apply fix_ellipses.
  - eexists; apply fix_diamond.
  - apply fix_everything.
Qed.
Lemma call_on_any_axes eig2 c p call ax :
  (forall ax', run_call eig2 c p call ax = Ok ax' <-> exists l, figure_of eig2 c p call l /\ ax' = mkaxes (ax_shapes ax ++ l) true true) /\
  (forall e, run_call eig2 c p call ax = Err e <-> run_call eig2 c p call new_axes = Err e).
Proof.
  destruct (call_fixed eig2 c p call) as [r F]. unfold figure_of. rewrite !F. split.
  - intros ax'. destruct r as [l|e]; cbn [bind new_axes ax_shapes app].
    + split.
      * intros H. exists l. split; [eexists; split; [reflexivity|reflexivity]|congruence].
      * intros (l' & (a & A & B) & ->). assert (a = mkaxes l true true) by congruence. subst a. cbn [ax_shapes] in B. subst. reflexivity.
    + split; [discriminate|]. intros (l' & (a & A & B) & _). discriminate.
  - intros e. destruct r; cbn [bind]; [split; discriminate|tauto].
Qed.

(* ---------- the same inertia is drawn the same way ---------- *)
Lemma sq_pm x y : x ^ 2 = y ^ 2 -> x = y \/ x = - y.
Proof. intros H. assert (E : (x - y) * (x + y) = 0) by lra. apply Rmult_integral in E. destruct E; [left|right]; lra. Qed.
Lemma plane_pm (a b v : pt) : orthonormal a b -> dot2 v v = 1 -> dot2 v b = 0 -> v = a \/ v = times2 (-1) a.
Proof.
  destruct a as [a1 a2], b as [b1 b2], v as [v1 v2]. unfold orthonormal, dot2, times2. cbn [fst snd]. intros (A & B & C) V N.
  set (t := v1 * a1 + v2 * a2).
  assert (D2 : (a1 * b2 - a2 * b1) ^ 2 = 1).
  { transitivity ((a1 * a1 + a2 * a2) * (b1 * b1 + b2 * b2) - (a1 * b1 + a2 * b2) ^ 2); [ring|]. rewrite A, B, C. ring. }
  set (dt := a1 * b2 - a2 * b1) in *.
  assert (DN : dt <> 0) by nra.
  (* v = t a: solve with the rows a and b *)
  assert (V1 : v1 = t * a1).
  { apply (Rmult_eq_reg_l dt); [|exact DN]. unfold t, dt.
    transitivity (b2 * (v1 * a1 + v2 * a2) - a2 * (v1 * b1 + v2 * b2)); [ring|]. rewrite N.
    assert (Y : b2 = (a1 * b2 - a2 * b1) * a1) by (transitivity (b2 * (a1 * a1 + a2 * a2) - a2 * (a1 * b1 + a2 * b2)); [rewrite A, C; ring|ring]).
    transitivity ((v1 * a1 + v2 * a2) * b2); [ring|]. rewrite Y at 1. ring. }
  assert (V2 : v2 = t * a2).
  { apply (Rmult_eq_reg_l dt); [|exact DN]. unfold t, dt.
    transitivity (a1 * (v1 * b1 + v2 * b2) - b1 * (v1 * a1 + v2 * a2)); [ring|]. rewrite N.
    assert (Y : - b1 = (a1 * b2 - a2 * b1) * a2) by (transitivity (- b1 * (a1 * a1 + a2 * a2) + a1 * (a1 * b1 + a2 * b2)); [rewrite A, C; ring|ring]).
    transitivity ((v1 * a1 + v2 * a2) * (- b1)); [ring|]. rewrite Y at 1. ring. }
  assert (T : t ^ 2 = 1 ^ 2).
  { clearbody t. subst v1 v2. transitivity (t ^ 2 * (a1 * a1 + a2 * a2)); [rewrite A; ring|]. transitivity (t * a1 * (t * a1) + t * a2 * (t * a2)); [ring|]. rewrite V; ring. }
  apply sq_pm in T. clearbody t. destruct T as [-> | ->]; [left|right]; subst; apply pt_eq; ring.
Qed.
Lemma orth_sym a b : orthonormal a b -> orthonormal b a.
Proof. unfold orthonormal, dot2. intros (A & B & C). repeat split; lra. Qed.

(* two crosses, each given by its lines, showing the same points *)
Lemma cross_unique a b a' b' k1 k2 k1' k2' : orthonormal a b -> orthonormal a' b' -> k1 ^ 2 <> k2 ^ 2 ->
  (forall x z, k2 ^ 2 * dot2 a (x, z) ^ 2 + k1 ^ 2 * dot2 b (x, z) ^ 2 = k2' ^ 2 * dot2 a' (x, z) ^ 2 + k1' ^ 2 * dot2 b' (x, z) ^ 2) ->
  exists d1 d2, (d1 = times2 k1' a' /\ d2 = times2 k2' b' \/ d1 = times2 k2' b' /\ d2 = times2 k1' a') /\
    (times2 k1 a = d1 \/ times2 k1 a = times2 (-1) d1) /\ (times2 k2 b = d2 \/ times2 k2 b = times2 (-1) d2).
Proof.
  intros O O' NE Q.
  destruct O as (A & B & C). destruct O' as (A' & B' & C').
  assert (QQ : forall v, k2 ^ 2 * dot2 a v ^ 2 + k1 ^ 2 * dot2 b v ^ 2 = k2' ^ 2 * dot2 a' v ^ 2 + k1' ^ 2 * dot2 b' v ^ 2) by (intros [x z]; apply Q).
  (* bilinear form *)
  assert (QB : forall v u, k2 ^ 2 * dot2 a v * dot2 a u + k1 ^ 2 * dot2 b v * dot2 b u = k2' ^ 2 * dot2 a' v * dot2 a' u + k1' ^ 2 * dot2 b' v * dot2 b' u).
  { intros v u. pose proof (QQ (plus2 v u)) as S1. pose proof (QQ v) as S2. pose proof (QQ u) as S3.
    assert (L : forall w, dot2 w (plus2 v u) = dot2 w v + dot2 w u) by (intros; unfold dot2, plus2; cbn [fst snd]; ring).
    rewrite !L in S1. lra. }
  assert (SY : forall u v, dot2 u v = dot2 v u) by (intros; unfold dot2; ring).
  (* a is an eigenvector of the second form with value k2^2, b with k1^2 *)
  assert (PARS : forall v, dot2 v v = dot2 a' v ^ 2 + dot2 b' v ^ 2).
  { intros [x z]. destruct a' as [p1 p2], b' as [q1 q2]. unfold dot2 in *. cbn [fst snd] in *.
    assert (D2 : (p1 * q2 - p2 * q1) ^ 2 = 1) by (transitivity ((p1 * p1 + p2 * p2) * (q1 * q1 + q2 * q2) - (p1 * q1 + p2 * q2) ^ 2); [ring|rewrite A', B', C'; ring]).
    set (dt := p1 * q2 - p2 * q1) in *.
    assert (Y1 : q2 = dt * p1) by (unfold dt; transitivity (q2 * (p1 * p1 + p2 * p2) - p2 * (p1 * q1 + p2 * q2)); [rewrite A', C'; ring|ring]).
    assert (Y2 : q1 = - dt * p2) by (unfold dt; transitivity (q1 * (p1 * p1 + p2 * p2) - p1 * (p1 * q1 + p2 * q2)); [rewrite A', C'; ring|ring]).
    clearbody dt. rewrite Y1, Y2.
    transitivity ((p1 * p1 + p2 * p2) * (x * x + z * z)); [rewrite A'; ring|].
    transitivity ((p1 * x + p2 * z) ^ 2 + dt ^ 2 * (- p2 * x + p1 * z) ^ 2); [rewrite D2; ring|ring]. }
  set (s := dot2 a' a) in *. set (t := dot2 b' a) in *.
  assert (ST : s ^ 2 + t ^ 2 = 1) by (unfold s, t; rewrite <- PARS; exact A).
  assert (EA : k2 ^ 2 * s = k2' ^ 2 * s).
  { pose proof (QB a a') as X. rewrite A, (SY b a), C, (SY b' a'), C', A', (SY a a') in X. fold s t in X. lra. }
  assert (EB : k2 ^ 2 * t = k1' ^ 2 * t).
  { pose proof (QB a b') as X. rewrite A, (SY b a), C, C', B', (SY a b') in X. fold s t in X. lra. }
  assert (TR : k1 ^ 2 + k2 ^ 2 = k1' ^ 2 + k2' ^ 2).
  { pose proof (QQ (1, 0)) as X. pose proof (QQ (0, 1)) as Y. unfold dot2 in *. cbn [fst snd] in *.
    destruct a as [a1 a2], b as [b1 b2], a' as [c1 c2], b' as [d1 d2]. cbn [fst snd] in *.
    transitivity (k2 ^ 2 * (a1 * a1 + a2 * a2) + k1 ^ 2 * (b1 * b1 + b2 * b2)); [rewrite A, B; ring|].
    transitivity (k2' ^ 2 * (c1 * c1 + c2 * c2) + k1' ^ 2 * (d1 * d1 + d2 * d2)); [lra|rewrite A', B'; ring]. }
  destruct (Req_dec s 0) as [S0|S0].
  - (* a is along b' *)
    assert (T0 : t <> 0) by (intros X; rewrite S0, X in ST; lra).
    assert (K2 : k2 ^ 2 = k1' ^ 2) by (apply (Rmult_eq_reg_r t); assumption).
    assert (K1 : k1 ^ 2 = k2' ^ 2) by lra.
    assert (AP : a = b' \/ a = times2 (-1) b').
    { apply (plane_pm b' a' a); [unfold orthonormal; rewrite (SY b' a'); auto|exact A|rewrite SY; exact S0]. }
    assert (BP : b = a' \/ b = times2 (-1) a').
    { apply (plane_pm a' b' b); [unfold orthonormal; auto|exact B|].
      destruct AP as [E|E]; rewrite E in C; unfold dot2, times2 in *; cbn [fst snd] in *; lra. }
    apply sq_pm in K1, K2. exists (times2 k2' b'), (times2 k1' a'). split; [right; auto|].
    split.
    + destruct AP as [-> | ->], K1 as [-> | ->]; [left|right|right|left]; unfold times2; apply pt_eq; cbn [fst snd]; ring.
    + destruct BP as [-> | ->], K2 as [-> | ->]; [left|right|right|left]; unfold times2; apply pt_eq; cbn [fst snd]; ring.
  - assert (K2 : k2 ^ 2 = k2' ^ 2) by (apply (Rmult_eq_reg_r s); assumption).
    assert (K1 : k1 ^ 2 = k1' ^ 2) by lra.
    assert (T0 : t = 0).
    { destruct (Req_dec t 0) as [|T0]; [assumption|]. exfalso. apply NE. assert (k2 ^ 2 = k1' ^ 2) by (apply (Rmult_eq_reg_r t); assumption). lra. }
    assert (AP : a = a' \/ a = times2 (-1) a').
    { apply (plane_pm a' b' a); [unfold orthonormal; auto|exact A|rewrite SY; exact T0]. }
    assert (BP : b = b' \/ b = times2 (-1) b').
    { apply (plane_pm b' a' b); [unfold orthonormal; rewrite (SY b' a'); auto|exact B|].
      destruct AP as [E|E]; rewrite E in C; unfold dot2, times2 in *; cbn [fst snd] in *; lra. }
    apply sq_pm in K1, K2. exists (times2 k1' a'), (times2 k2' b'). split; [left; auto|].
    split.
    + destruct AP as [-> | ->], K1 as [-> | ->]; [left|right|right|left]; unfold times2; apply pt_eq; cbn [fst snd]; ring.
    + destruct BP as [-> | ->], K2 as [-> | ->]; [left|right|right|left]; unfold times2; apply pt_eq; cbn [fst snd]; ring.
Qed.

Lemma radii_defined_draw eig2 c ls p X ax : drawable c ls -> In X ls -> has p (required c) ->
  ((exists ax', plot_body_principal_radii_of_gyration eig2 c p X ax = Ok ax') <-> exists r, principal_radii eig2 c p X = Ok r).
Proof.
  intros D HX HP. unfold plot_body_principal_radii_of_gyration. rewrite (proj2 (drawable_labels c ls D)).
  destruct (place_eval c ls p X D HX HP) as (ext & DV & LX & LZ & _ & _ & LM & LC). rewrite DV. cbn [bind]. rewrite LX, LZ. cbn [bind].
  split.
  - intros [ax' H]. step_bind H. eauto.
  - intros [[[[? ?] ?] ?] R]. rewrite R. cbn [bind]. rewrite LC. cbn [bind]. eauto.
Qed.
Lemma unit_perp ux uz wx wz c s : c ^ 2 + s ^ 2 = 1 -> ux ^ 2 + uz ^ 2 = 1 -> wx ^ 2 + wz ^ 2 = 1 -> ux * wx + uz * wz = 0 ->
  (c * ux + s * uz) ^ 2 + (- s * ux + c * uz) ^ 2 = 1 /\ (c * wx + s * wz) ^ 2 = (- s * ux + c * uz) ^ 2 /\ (- s * wx + c * wz) ^ 2 = (c * ux + s * uz) ^ 2.
Proof.
  intros S U W P.
  assert (D2 : (ux * wz - uz * wx) ^ 2 = 1) by (transitivity ((ux ^ 2 + uz ^ 2) * (wx ^ 2 + wz ^ 2) - (ux * wx + uz * wz) ^ 2); [ring|rewrite U, W, P; ring]).
  set (d := ux * wz - uz * wx) in *.
  assert (Y1 : wz = d * ux) by (unfold d; transitivity (wz * (ux ^ 2 + uz ^ 2) - uz * (ux * wx + uz * wz)); [rewrite U, P; ring|ring]).
  assert (Y2 : wx = - d * uz) by (unfold d; transitivity (wx * (ux ^ 2 + uz ^ 2) - ux * (ux * wx + uz * wz)); [rewrite U, P; ring|ring]).
  clearbody d. rewrite Y1, Y2. repeat split.
  - transitivity ((c ^ 2 + s ^ 2) * (ux ^ 2 + uz ^ 2)); [ring|rewrite S, U; ring].
  - transitivity (d ^ 2 * (- s * ux + c * uz) ^ 2); [ring|rewrite D2; ring].
  - transitivity (d ^ 2 * (c * ux + s * uz) ^ 2); [ring|rewrite D2; ring].
Qed.
Lemma ellipse_defined_moments eig2 c ls p X ax : eig2_contract eig2 -> drawable c ls -> In X ls -> has p (required c) ->
  0 < pv p ("m" ++ X) -> (exists ax', plot_body_principal_radii_of_gyration eig2 c p X ax = Ok ax') ->
  ((exists ax', plot_body_principal_inertia_ellipsoid eig2 c p X ax = Ok ax') <->
   forall u v, vy u = 0 -> vy v = 0 -> sqnorm u = 1 -> sqnorm v = 1 -> v3_dot u v = 0 ->
     central_of c p X u <= central_of c p X (mk3 0 1 0) + central_of c p X v).
Proof.
  intros EC D HX HP M R. apply (proj1 (radii_defined_draw eig2 c ls p X ax D HX HP)) in R. destruct R as [[[[kaa kbb] kyy] al] R].
  rewrite (ellipse_defined eig2 c ls p X ax kaa kbb kyy al D HX HP R).
  pose proof (radii_any eig2 c ls p X kaa kbb kyy al EC D HX HP R) as Q. set (m := pv p ("m" ++ X)) in *.
  assert (QF : forall x y z, central_of c p X (mk3 x y z) = m * (kaa ^ 2 * (cos al * x - sin al * z) ^ 2 + kyy ^ 2 * y ^ 2 + kbb ^ 2 * (sin al * x + cos al * z) ^ 2)).
  { intros. rewrite Q. unfold principal_central, v3_dot. cbn [vx vy vz]. ring. }
  assert (CS : cos al ^ 2 + (- sin al) ^ 2 = 1) by (pose proof (sc1 al); lra).
  split.
  - intros [K1 K2] [ux uy uz] [wx wy wz] U V U1 V1 P. unfold sqnorm, v3_dot in *. cbn [vx vy vz] in *. subst uy wy. rewrite !QF.
    destruct (unit_perp ux uz wx wz (cos al) (- sin al) CS ltac:(lra) ltac:(lra) ltac:(lra)) as (S1 & S2 & S3).
    set (s := (cos al * ux + - sin al * uz) ^ 2) in *. set (t := (- - sin al * ux + cos al * uz) ^ 2) in *.
    assert (PS : 0 <= s) by apply pow2_ge_0. assert (PT : 0 <= t) by apply pow2_ge_0.
    replace ((cos al * ux - sin al * uz) ^ 2) with s by (unfold s; ring). replace ((sin al * ux + cos al * uz) ^ 2) with t by (unfold t; ring).
    replace ((cos al * wx - sin al * wz) ^ 2) with t by (rewrite <- S2; ring). replace ((sin al * wx + cos al * wz) ^ 2) with s by (rewrite <- S3; ring).
    assert (F : kaa ^ 2 * s + kbb ^ 2 * t <= kyy ^ 2 + (kaa ^ 2 * t + kbb ^ 2 * s)).
    { assert (t = 1 - s) by lra. assert (0 <= s <= 1) by lra. clearbody s t. clear - K1 K2 H H0. subst t. set (A := kaa ^ 2) in *. set (B := kbb ^ 2) in *. set (Y := kyy ^ 2) in *. clearbody A B Y.
      assert (S0 : 0 <= s) by apply H0. assert (S1 : s <= 1) by apply H0. assert (D1 : 0 <= Y + B - A) by lra. assert (D2 : 0 <= Y + A - B) by lra.
      pose proof (Rmult_le_pos _ _ S0 D1) as P1. pose proof (Rmult_le_pos (1 - s) _ ltac:(lra) D2) as P2. lra. }
    apply (Rmult_le_compat_l m) in F; [|lra]. lra.
  - intros H.
    assert (CS2 : sin al ^ 2 + cos al ^ 2 = 1) by lra.
    assert (SC : forall x z, x ^ 2 + z ^ 2 = 1 -> sqnorm (mk3 x 0 z) = 1) by (intros; unfold sqnorm; cbn [vx vy vz]; lra).
    pose proof (H (mk3 (cos al) 0 (- sin al)) (mk3 (sin al) 0 (cos al)) eq_refl eq_refl (SC _ _ CS) (SC _ _ CS2) ltac:(unfold v3_dot; cbn [vx vy vz]; ring)) as H1.
    pose proof (H (mk3 (sin al) 0 (cos al)) (mk3 (cos al) 0 (- sin al)) eq_refl eq_refl (SC _ _ CS2) (SC _ _ CS) ltac:(unfold v3_dot; cbn [vx vy vz]; ring)) as H2.
    rewrite !QF in H1, H2.
    assert (C1 : (cos al * cos al - sin al * - sin al) = 1) by lra. assert (C2 : sin al * cos al + cos al * - sin al = 0) by ring.
    assert (C3 : cos al * sin al - sin al * cos al = 0) by ring. assert (C4 : sin al * sin al + cos al * cos al = 1) by lra.
    rewrite C1, C2, C3, C4 in H1, H2.
    assert (F1 : m * kaa ^ 2 <= m * (kyy ^ 2 + kbb ^ 2)) by lra. assert (F2 : m * kbb ^ 2 <= m * (kyy ^ 2 + kaa ^ 2)) by lra.
    apply Rmult_le_reg_l in F1, F2; try exact M. lra.
Qed.
