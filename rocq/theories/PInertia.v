(* PInertia.v -- lemmas behind C11-C18 *)
From Verif Require Import Base PBase MVec MInertia SBicycle SInertia PBicycle.
From Coq Require Import Lra Permutation.
Local Open Scope R_scope.

Ltac vsimpl :=
  cbv beta iota zeta delta [vx vy vz r1 r2 r3 v3_add v3_sub v3_scale v3_dot v3_cross m3_add m3_scale m3_T m3_app m3_dot m3_diag
       sqnorm moment trace determinant turn_y fst snd coords axis_dir planar m3_minus_scalar] in *.

Ltac dvecs := repeat match goal with
  | J : mat3 |- _ => destruct J
  | v : vec3 |- _ => destruct v end.

(* ---------- parallel axis ---------- *)
Lemma pa_moment Ic m d n :
  moment (parallel_axis Ic m d) n = moment Ic n + m * sqnorm (v3_cross n d).
Proof. unfold parallel_axis. dvecs. vsimpl. ring. Qed.

Lemma pa_symmetric Ic m d : symmetric Ic -> symmetric (parallel_axis Ic m d).
Proof. unfold parallel_axis, symmetric. dvecs. vsimpl. intros (A & B & C). repeat split; congruence || lra. Qed.

Lemma mat3_ext J K :
  vx (r1 J) = vx (r1 K) -> vy (r1 J) = vy (r1 K) -> vz (r1 J) = vz (r1 K) ->
  vx (r2 J) = vx (r2 K) -> vy (r2 J) = vy (r2 K) -> vz (r2 J) = vz (r2 K) ->
  vx (r3 J) = vx (r3 K) -> vy (r3 J) = vy (r3 K) -> vz (r3 J) = vz (r3 K) -> J = K.
Proof. dvecs; cbn; intros; subst; reflexivity. Qed.
Lemma vec3_ext (a b : vec3) : vx a = vx b -> vy a = vy b -> vz a = vz b -> a = b.
Proof. dvecs; cbn; intros; subst; reflexivity. Qed.

Lemma pa_undo Ic m d : parallel_axis (parallel_axis Ic m d) (- m) d = Ic.
Proof. apply mat3_ext; unfold parallel_axis; dvecs; vsimpl; ring. Qed.
Lemma pa_sign Ic m d : parallel_axis Ic m (v3_scale (-1) d) = parallel_axis Ic m d.
Proof. apply mat3_ext; unfold parallel_axis; dvecs; vsimpl; ring. Qed.
Lemma sqnorm_nonneg v : 0 <= sqnorm v.
Proof. unfold sqnorm. assert (T := fun x => pow2_ge_0 x). pose proof (T (vx v)); pose proof (T (vy v)); pose proof (T (vz v)); lra. Qed.
Lemma pa_monotone Ic m d n : 0 <= m -> moment Ic n <= moment (parallel_axis Ic m d) n.
Proof.
  intros Hm. rewrite pa_moment. pose proof (sqnorm_nonneg (v3_cross n d)).
  pose proof (Rmult_le_pos _ _ Hm H). lra.
Qed.

(* a symmetric tensor is determined by its moments *)
Lemma moments_determine J K : symmetric J -> symmetric K ->
  (forall n, moment J n = moment K n) -> J = K.
Proof.
  intros SJ SK H.
  pose proof (H (mk3 1 0 0)) as H1. pose proof (H (mk3 0 1 0)) as H2. pose proof (H (mk3 0 0 1)) as H3.
  pose proof (H (mk3 1 1 0)) as H4. pose proof (H (mk3 1 0 1)) as H5. pose proof (H (mk3 0 1 1)) as H6.
  clear H. unfold symmetric in *. apply mat3_ext; dvecs; vsimpl; lra.
Qed.

Lemma sum_over_app {A} (f : A -> R) l1 l2 : sum_over f (l1 ++ l2) = sum_over f l1 + sum_over f l2.
Proof. unfold sum_over. induction l1 as [|a l IH]; simpl; [ring|]. rewrite IH; ring. Qed.
Lemma sum_over_ext {A} (f g : A -> R) l : (forall a, In a l -> f a = g a) -> sum_over f l = sum_over g l.
Proof. unfold sum_over. induction l as [|a l IH]; simpl; intros H; [reflexivity|]. rewrite H, IH; auto. Qed.
Lemma sum_over_plus {A} (f g : A -> R) l : sum_over (fun a => f a + g a) l = sum_over f l + sum_over g l.
Proof. unfold sum_over. induction l as [|a l IH]; simpl; [ring|]. rewrite IH; ring. Qed.
Lemma sum_over_scale {A} k (f : A -> R) l : sum_over (fun a => k * f a) l = k * sum_over f l.
Proof. unfold sum_over. induction l as [|a l IH]; simpl; [ring|]. rewrite IH; ring. Qed.
Lemma sum_over_perm {A} (f : A -> R) l1 l2 : Permutation l1 l2 -> sum_over f l1 = sum_over f l2.
Proof. unfold sum_over. induction 1; simpl; lra. Qed.
Lemma sum_over_nonneg {A} (f : A -> R) l : (forall a, In a l -> 0 <= f a) -> 0 <= sum_over f l.
Proof.
  unfold sum_over. induction l as [|a l IH]; simpl; intros H; [lra|].
  pose proof (H a (or_introl eq_refl)). pose proof (IH (fun b hb => H b (or_intror hb))). lra.
Qed.
Lemma sum_over_le {A} (f g : A -> R) l : (forall a, In a l -> f a <= g a) -> sum_over f l <= sum_over g l.
Proof.
  unfold sum_over. induction l as [|a l IH]; simpl; intros H; [lra|].
  pose proof (H a (or_introl eq_refl)). pose proof (IH (fun b hb => H b (or_intror hb))). lra.
Qed.
Lemma sum_over_zero {A} (f : A -> R) l :
  (forall a, In a l -> 0 <= f a) -> sum_over f l = 0 -> forall a, In a l -> f a = 0.
Proof.
  intros H E. revert H E. unfold sum_over. induction l as [|b l IH]; simpl; intros H E a Ha; [tauto|].
  pose proof (H b (or_introl eq_refl)) as Hb.
  assert (0 <= sum_over f l) as Hl by (apply sum_over_nonneg; auto). unfold sum_over in Hl.
  destruct Ha as [<-|Ha]; [lra|]. apply IH; auto. lra.
Qed.

Lemma zero3_eq x y z : mk3 x y z = zero3 <-> x = 0 /\ y = 0 /\ z = 0.
Proof. unfold zero3; split; [intros H; inversion H; auto | intros (-> & -> & ->); reflexivity]. Qed.

(* the shift formula for particles about any two points, one of them the mass centre *)
Lemma particle_shift ps c o n : is_com ps c ->
  particle_moment ps o n = particle_moment ps c n + mass_of ps * sqnorm (v3_cross n (v3_sub o c)).
Proof.
  unfold is_com, first_moment. rewrite zero3_eq. intros (X & Y & Z).
  set (e := v3_cross n (v3_sub o c)).
  set (px := fun q : particle => fst q * (vx (snd q) - vx c)).
  set (py := fun q : particle => fst q * (vy (snd q) - vy c)).
  set (pz := fun q : particle => fst q * (vz (snd q) - vz c)).
  change (sum_over px ps = 0) in X. change (sum_over py ps = 0) in Y. change (sum_over pz ps = 0) in Z.
  unfold particle_moment, mass_of.
  rewrite (sum_over_ext _ (fun q : particle => fst q * sqnorm (v3_cross n (v3_sub (snd q) c)) +
     (sqnorm e * fst q +
      ((-2 * (vy e * vz n - vz e * vy n)) * px q +
       ((-2 * (vz e * vx n - vx e * vz n)) * py q + (-2 * (vx e * vy n - vy e * vx n)) * pz q))))).
  2:{ intros [m p] _. unfold e, px, py, pz. dvecs. vsimpl. ring. }
  rewrite !sum_over_plus, !sum_over_scale, X, Y, Z. ring.
Qed.

Lemma pa_particles ps c Ic o :
  is_com ps c -> (forall n, moment Ic n = particle_moment ps c n) ->
  forall n, moment (parallel_axis Ic (mass_of ps) (v3_sub o c)) n = particle_moment ps o n.
Proof. intros H1 H2 n. rewrite pa_moment, H2, (particle_shift ps c o n H1). reflexivity. Qed.

(* ---------- rotations ---------- *)
Lemma cs1 a : cos a * cos a = 1 - sin a * sin a.
Proof. pose proof (sin2_cos2 a) as H. unfold Rsqr in H. lra. Qed.
Lemma rot_both I a : rotate_inertia_about_y I a = rotate_inertia_tensor I a.
Proof. unfold rotate_inertia_about_y, rotate_inertia_tensor. apply mat3_ext; dvecs; vsimpl; ring. Qed.
Lemma rot_symmetric I a : symmetric I -> symmetric (rotate_inertia_tensor I a).
Proof.
  unfold symmetric, rotate_inertia_tensor. dvecs. vsimpl. intros (A & B & C).
  rewrite A, B, C. repeat split; ring.
Qed.
Lemma rot_entries I a : let J := rotate_inertia_tensor I a in
  let c := cos a in let s := sin a in
  vx (r1 J) = c*c*vx (r1 I) - c*s*(vz (r1 I) + vx (r3 I)) + s*s*vz (r3 I) /\
  vy (r1 J) = c*vy (r1 I) - s*vy (r3 I) /\
  vz (r1 J) = c*s*(vx (r1 I) - vz (r3 I)) + c*c*vz (r1 I) - s*s*vx (r3 I) /\
  vx (r2 J) = c*vx (r2 I) - s*vz (r2 I) /\
  vy (r2 J) = vy (r2 I) /\
  vz (r2 J) = s*vx (r2 I) + c*vz (r2 I) /\
  vx (r3 J) = c*s*(vx (r1 I) - vz (r3 I)) + c*c*vx (r3 I) - s*s*vz (r1 I) /\
  vy (r3 J) = s*vy (r1 I) + c*vy (r3 I) /\
  vz (r3 J) = s*s*vx (r1 I) + c*s*(vz (r1 I) + vx (r3 I)) + c*c*vz (r3 I).
Proof. intros J c s. unfold J, rotate_inertia_tensor. fold c s. dvecs; vsimpl. repeat split; ring. Qed.
Lemma rot_trace I a : trace (rotate_inertia_tensor I a) = trace I.
Proof.
  unfold trace. destruct (rot_entries I a) as (E1&_&_&_&E5&_&_&_&E9). rewrite E1, E5, E9.
  rewrite (cs1 a). ring.
Qed.
Lemma rot_yy I a : vy (r2 (rotate_inertia_tensor I a)) = vy (r2 I).
Proof. apply (rot_entries I a). Qed.
Lemma m3_det_mult A B : determinant (m3_dot A B) = determinant A * determinant B.
Proof. dvecs. vsimpl. ring. Qed.
Lemma rot_det I a : determinant (rotate_inertia_tensor I a) = determinant I.
Proof.
  unfold rotate_inertia_tensor. rewrite !m3_det_mult.
  match goal with |- ?x * (?y * ?z) = _ => assert (x = 1 /\ z = 1) as [-> ->]; [|ring] end.
  vsimpl. split; ring_simplify; pose proof (cs1 a); simpl; lra.
Qed.
Lemma rot_moment I a n : moment (rotate_inertia_tensor I a) (turn_y a n) = moment I n.
Proof.
  assert (N : forall w, moment (rotate_inertia_tensor I a) w = moment I (turn_y (- a) w)).
  { intros w. unfold moment, rotate_inertia_tensor, turn_y. rewrite cos_neg, sin_neg. dvecs. vsimpl. ring. }
  rewrite N. f_equal. unfold turn_y. rewrite cos_neg, sin_neg. pose proof (cs1 a) as H.
  destruct n as [x y z]; cbn. apply vec3_ext; cbn; [| reflexivity |].
  - transitivity (x * (cos a * cos a + sin a * sin a)); [ring|]. rewrite H. ring.
  - transitivity (z * (cos a * cos a + sin a * sin a)); [ring|]. rewrite H. ring.
Qed.
Lemma rot_compose I a b :
  rotate_inertia_tensor (rotate_inertia_tensor I a) b = rotate_inertia_tensor I (a + b).
Proof.
  unfold rotate_inertia_tensor at 1 3. rewrite cos_plus, sin_plus.
  unfold rotate_inertia_tensor.
  apply mat3_ext; dvecs; vsimpl; ring.
Qed.
Lemma rot_zero I : rotate_inertia_tensor I 0 = I.
Proof. unfold rotate_inertia_tensor. rewrite cos_0, sin_0. apply mat3_ext; dvecs; vsimpl; ring. Qed.
Lemma rot_inverse I a : rotate_inertia_tensor (rotate_inertia_tensor I a) (- a) = I.
Proof. rewrite rot_compose. replace (a + - a) with 0 by ring. apply rot_zero. Qed.
Lemma rot_charpoly I a s :
  determinant (m3_minus_scalar (rotate_inertia_tensor I a) s) = determinant (m3_minus_scalar I s).
Proof.
  replace (m3_minus_scalar (rotate_inertia_tensor I a) s) with (rotate_inertia_tensor (m3_minus_scalar I s) a);
    [apply rot_det|].
  pose proof (cs1 a) as H.
  assert (K : 1 - (cos a * cos a + sin a * sin a) = 0) by lra.
  unfold m3_minus_scalar, rotate_inertia_tensor.
  apply mat3_ext; dvecs; vsimpl; try ring; apply Rminus_diag_uniq;
    match goal with |- ?e = 0 => replace e with (s * (1 - (cos a * cos a + sin a * sin a))) by ring end;
    rewrite K; ring.
Qed.
