(* PGeometry.v -- lemmas behind C08, C22-C25 *)
From Verif Require Import Base MString PBase MBicycle MVec MInertia MGeometry SBicycle SInertia SGeometry PBicycle PBicycle2 PInertia.
From Coq Require Import Lra Permutation.
Local Open Scope string_scope.
Local Open Scope R_scope.

Lemma sc1 a : sin a * sin a + cos a * cos a = 1.
Proof. pose proof (sin2_cos2 a) as H. unfold Rsqr in H. exact H. Qed.

(* ---------- distances ---------- *)
Lemma norm3_sq v : norm3 v = sqrt (sqnorm v).
Proof. unfold norm3, sqnorm. f_equal. destruct v; vsimpl. ring. Qed.
Lemma sqnorm_zero v : sqnorm v = 0 -> v = mk3 0 0 0.
Proof.
  destruct v as [x y z]. unfold sqnorm; cbn [vx vy vz]. intros H.
  pose proof (pow2_ge_0 x); pose proof (pow2_ge_0 y); pose proof (pow2_ge_0 z).
  assert (A : forall t, t ^ 2 = 0 -> t = 0) by (intros t T; apply Rsqr_0_uniq; unfold Rsqr; lra).
  rewrite (A x), (A y), (A z) by lra. reflexivity.
Qed.
Lemma ptl_defined x0 x1 x2 : x1 <> x2 <-> exists d, point_to_line_distance x0 x1 x2 = Ok d.
Proof.
  unfold point_to_line_distance. split.
  - intros N. rewrite rdiv_eq; [eauto|]. rewrite norm3_sq. intros E. apply sqrt_eq_0 in E; [|apply sqnorm_nonneg].
    apply sqnorm_zero in E. apply N. destruct x1, x2; vsimpl. injection E; intros. f_equal; lra.
  - intros [d H] <-. apply rdiv_ok in H. destruct H as [H _]. apply H. rewrite norm3_sq.
    replace (sqnorm (v3_sub x1 x1)) with 0; [apply sqrt_0|]. destruct x1; vsimpl. ring.
Qed.
(* squared distance to a point of the line, times |u|^2 *)
Lemma line_decomp x0 x1 x2 t :
  let u := v3_sub x2 x1 in
  sqnorm u * sqnorm (v3_sub x0 (on_line x1 x2 t)) =
  sqnorm (v3_cross (v3_sub x0 x1) (v3_sub x0 x2)) + (t * sqnorm u - v3_dot (v3_sub x0 x1) u) ^ 2.
Proof. cbv zeta. unfold on_line. dvecs. vsimpl. ring. Qed.
Lemma ptl_spec x0 x1 x2 d : point_to_line_distance x0 x1 x2 = Ok d -> is_distance_to_line x0 x1 x2 d.
Proof.
  unfold point_to_line_distance. intros H. apply rdiv_ok in H. destruct H as [N ->].
  rewrite !norm3_sq in *. set (u := v3_sub x2 x1) in *.
  set (cr := v3_cross (v3_sub x0 x1) (v3_sub x0 x2)) in *.
  assert (U : 0 < sqnorm u).
  { destruct (sqnorm_nonneg u) as [H|H]; [exact H|]. exfalso; apply N. rewrite <- H. apply sqrt_0. }
  rewrite <- sqrt_div by (try apply sqnorm_nonneg; exact U).
  split.
  - intros t. unfold distance. apply sqrt_le_1_alt.
    apply (Rmult_le_reg_l (sqnorm u)); [exact U|]. pose proof (line_decomp x0 x1 x2 t) as LD. cbv zeta in LD. fold u cr in LD. rewrite LD. pose proof (pow2_ge_0 (t * sqnorm u - v3_dot (v3_sub x0 x1) u)).
    replace (sqnorm u * (sqnorm cr / sqnorm u)) with (sqnorm cr) by (field; lra). lra.
  - exists (v3_dot (v3_sub x0 x1) u / sqnorm u). unfold distance. f_equal.
    apply (Rmult_eq_reg_l (sqnorm u)); [|lra].
    pose proof (line_decomp x0 x1 x2 (v3_dot (v3_sub x0 x1) u / sqnorm u)) as LD. cbv zeta in LD. fold u cr in LD.
    rewrite LD. field. lra.
Qed.
Lemma distance_line_unique x a b d d' : is_distance_to_line x a b d -> is_distance_to_line x a b d' -> d = d'.
Proof. intros [A [t B]] [C [s D]]. specialize (A s). specialize (C t). lra. Qed.

Lemma steer_axis_distance w c lam x z d :
  distance_to_steer_axis w c lam (mk3 x 0 z) = Ok d <-> d = Rabs (ahead w c lam x z).
Proof.
  unfold distance_to_steer_axis, point_to_line_distance. rewrite !norm3_sq.
  pose proof (sc1 lam) as S.
  assert (E2 : sqnorm (v3_sub (v3_add (mk3 (w + c) 0 0) (mk3 (- sin lam) 0 (- cos lam))) (mk3 (w + c) 0 0)) = 1).
  { vsimpl. transitivity (sin lam * sin lam + cos lam * cos lam); [ring | exact S]. }
  assert (E1 : sqnorm (v3_cross (v3_sub (mk3 x 0 z) (mk3 (w + c) 0 0))
       (v3_sub (mk3 x 0 z) (v3_add (mk3 (w + c) 0 0) (mk3 (- sin lam) 0 (- cos lam)))))
     = (ahead w c lam x z) ^ 2).
  { unfold ahead. vsimpl. ring. }
  rewrite E1, E2, sqrt_1. rewrite <- Rsqr_pow2, sqrt_Rsqr_abs. rewrite rdiv_ok. split.
  - intros [_ ->]. field.
  - intros ->. split; [lra | field].
Qed.
Lemma steer_axis_min w c lam p d : distance_to_steer_axis w c lam p = Ok d ->
  (forall s, d <= distance p (steer_axis_point w c lam s)) /\ exists s, d = distance p (steer_axis_point w c lam s).
Proof.
  intros H. apply ptl_spec in H. destruct H as [H1 [t H2]].
  assert (E : forall s, on_line (mk3 (w + c) 0 0) (v3_add (mk3 (w + c) 0 0) (mk3 (- sin lam) 0 (- cos lam))) s
      = steer_axis_point w c lam s).
  { intros s. unfold on_line, steer_axis_point. apply vec3_ext; vsimpl; ring. }
  split; [intros s; rewrite <- E; apply H1 | exists t; rewrite <- E; exact H2].
Qed.
Lemma steer_axis_total w c lam p : exists d, distance_to_steer_axis w c lam p = Ok d.
Proof.
  unfold distance_to_steer_axis. apply ptl_defined. intros E. vsimpl. injection E; intros.
  pose proof (sc1 lam) as S. assert (sin lam = 0) by lra. assert (cos lam = 0) by lra.
  nra.
Qed.

(* ---------- projection on a line of the plane ---------- *)
Lemma m21 m : m ^ 2 + 1 <> 0.
Proof. pose proof (pow2_ge_0 m). lra. Qed.
Lemma project_on m b p : on2 m b (project_point_on_line (m, b) p).
Proof.
  destruct p as [c d]. unfold on2, project_point_on_line; cbn [fst snd]. pose proof (m21 m). field. exact H.
Qed.
Lemma project_nearest m b p q : on2 m b q ->
  sqdist2 p (project_point_on_line (m, b) p) <= sqdist2 p q /\
  (sqdist2 p q = sqdist2 p (project_point_on_line (m, b) p) -> q = project_point_on_line (m, b) p).
Proof.
  destruct p as [c d], q as [x y]. unfold on2; cbn [fst snd]. intros ->.
  set (pr := project_point_on_line (m, b) (c, d)).
  assert (E : sqdist2 (c, d) (x, m * x + b) = sqdist2 (c, d) pr + (m ^ 2 + 1) * (x - fst pr) ^ 2).
  { unfold pr, sqdist2, project_point_on_line; cbn [fst snd]. pose proof (m21 m). field. exact H. }
  pose proof (m21 m) as M. pose proof (pow2_ge_0 m) as Mp. pose proof (pow2_ge_0 (x - fst pr)) as X.
  split.
  - rewrite E. assert (0 <= (m ^ 2 + 1) * (x - fst pr) ^ 2) by (apply Rmult_le_pos; lra). lra.
  - intros Q. rewrite E in Q. assert (Z : (m ^ 2 + 1) * (x - fst pr) ^ 2 = 0) by lra.
    apply Rmult_integral in Z. destruct Z as [Z|Z]; [contradiction|].
    assert (x = fst pr) as ->. { assert (x - fst pr = 0) by (apply Rsqr_0_uniq; unfold Rsqr; lra). lra. }
    pose proof (project_on m b (c, d)) as O. fold pr in O. unfold on2 in O. destruct pr; cbn [fst snd] in *. congruence.
Qed.
Lemma project_idempotent l p : project_point_on_line l (project_point_on_line l p) = project_point_on_line l p.
Proof.
  destruct l as [m b]. pose proof (project_on m b p) as O.
  pose proof (project_nearest m b (project_point_on_line (m, b) p) _ O) as [_ U]. symmetry. apply U.
  assert (Z : sqdist2 (project_point_on_line (m, b) p) (project_point_on_line (m, b) p) = 0) by (unfold sqdist2; ring).
  rewrite Z. pose proof (project_nearest m b (project_point_on_line (m, b) p) _ O) as [L _]. rewrite Z in L.
  apply Rle_antisym; [|exact L]. unfold sqdist2. pose proof (pow2_ge_0). apply Rplus_le_le_0_compat; auto.
Qed.

(* ---------- angle ---------- *)
Lemma cauchy v w : (v3_dot v w) ^ 2 <= sqnorm v * sqnorm w.
Proof.
  assert (E : sqnorm v * sqnorm w = (v3_dot v w) ^ 2 + sqnorm (v3_cross v w)).
  { destruct v, w; vsimpl. ring. }
  rewrite E. pose proof (sqnorm_nonneg (v3_cross v w)). lra.
Qed.
Lemma norm3_mul v w : norm3 v * norm3 w = sqrt (sqnorm v * sqnorm w).
Proof. rewrite !norm3_sq. symmetry. apply sqrt_mult; apply sqnorm_nonneg. Qed.
Lemma cauchy_abs v w : Rabs (v3_dot v w) <= norm3 v * norm3 w.
Proof.
  rewrite norm3_mul. rewrite <- (sqrt_Rsqr_abs (v3_dot v w)). apply sqrt_le_1_alt. rewrite Rsqr_pow2. apply cauchy.
Qed.
Lemma norm3_nonneg v : 0 <= norm3 v.
Proof. apply sqrt_pos. Qed.
Lemma norm3_zero v : norm3 v = 0 <-> v = mk3 0 0 0.
Proof.
  split.
  - rewrite norm3_sq. intros H. apply sqrt_eq_0 in H; [|apply sqnorm_nonneg]. apply sqnorm_zero, H.
  - intros ->. unfold norm3. vsimpl. replace (0 * 0 + 0 * 0 + 0 * 0) with 0 by ring. apply sqrt_0.
Qed.
Lemma vec_angle_spec v w t : vec_angle v w = Ok t <->
  v <> mk3 0 0 0 /\ w <> mk3 0 0 0 /\ 0 <= t <= PI /\ v3_dot v w = norm3 v * norm3 w * cos t.
Proof.
  unfold vec_angle. split.
  - intros H. apply bind_ok in H. destruct H as [q [H1 H2]]. apply rdiv_ok in H1. destruct H1 as [N ->].
    unfold racos in H2. destruct (Rlt_dec 1 (Rabs _)) as [C|C]; [discriminate|]. inversion H2; subst; clear H2.
    assert (Nv : norm3 v <> 0) by (intros E; apply N; rewrite E; ring).
    assert (Nw : norm3 w <> 0) by (intros E; apply N; rewrite E; ring).
    repeat split.
    + intros E; apply Nv, norm3_zero, E.
    + intros E; apply Nw, norm3_zero, E.
    + apply acos_bound.
    + apply acos_bound.
    + rewrite cos_acos; [field; auto|]. apply Rnot_lt_le in C. unfold Rabs in C. destruct (Rcase_abs _); lra.
  - intros (Nv & Nw & T & E).
    assert (N : norm3 v * norm3 w <> 0).
    { apply Rmult_integral_contrapositive. split; intros Z; apply norm3_zero in Z; contradiction. }
    rewrite rdiv_eq by exact N. cbn [bind]. rewrite E.
    replace (norm3 v * norm3 w * cos t / (norm3 v * norm3 w)) with (cos t) by (field; split; intros Z; apply N; rewrite Z; ring).
    unfold racos. destruct (Rlt_dec 1 (Rabs (cos t))) as [C|C].
    + exfalso. pose proof (COS_bound t). unfold Rabs in C. destruct (Rcase_abs _); lra.
    + rewrite acos_cos by exact T. reflexivity.
Qed.
Lemma vec_angle_defined v w : (exists t, vec_angle v w = Ok t) <-> v <> mk3 0 0 0 /\ w <> mk3 0 0 0.
Proof.
  split.
  - intros [t H]. apply vec_angle_spec in H. tauto.
  - intros [A B]. unfold vec_angle.
    assert (Nv : norm3 v <> 0) by (intros E; apply A, norm3_zero, E).
    assert (Nw : norm3 w <> 0) by (intros E; apply B, norm3_zero, E).
    assert (P : 0 < norm3 v * norm3 w).
    { pose proof (norm3_nonneg v); pose proof (norm3_nonneg w). apply Rmult_lt_0_compat; lra. }
    rewrite rdiv_eq by lra. cbn [bind]. unfold racos. destruct (Rlt_dec 1 _) as [C|C]; [|eauto].
    exfalso. pose proof (cauchy_abs v w) as K. unfold Rdiv in C. rewrite Rabs_mult, Rabs_inv in C.
    rewrite (Rabs_right (norm3 v * norm3 w)) in C by lra.
    apply (Rmult_lt_compat_r (norm3 v * norm3 w)) in C; [|exact P].
    rewrite Rmult_assoc, Rinv_l in C by lra. lra.
Qed.

(* ---------- vec_project ---------- *)
Lemma vec_project_array v d : vec_project v (DirVec d) = Err UnboundLocalError.
Proof. reflexivity. Qed.
Lemma vec_project_int v k e : basis3 k = Ok e -> 
  exists p, vec_project v (DirInt k) = Ok p /\ (is_projection v e p <-> v3_dot v e = 0).
Proof.
  intros H. unfold vec_project. rewrite H. cbn [bind]. eexists; split; [reflexivity|].
  assert (C : e = mk3 1 0 0 \/ e = mk3 0 1 0 \/ e = mk3 0 0 1).
  { unfold basis3 in H. destruct k as [|[[]|[]|]|[[]|[]|]]; try discriminate; inversion H; auto. }
  unfold is_projection. destruct v as [x y z].
  destruct C as [-> | [-> | ->]]; vsimpl; split.
  all: try (intros [_ [k0 E]]; injection E; intros; lra).
  all: intros E; split; [lra|]; exists 0; apply vec3_ext; cbn [vx vy vz]; lra.
Qed.

(* ---------- plot data ---------- *)
Lemma rtan_ok x t : rtan x = Ok t <-> cos x <> 0 /\ t = tan x.
Proof. unfold rtan, tan. apply rdiv_ok. Qed.
Lemma plot_data_spec par pts : fundamental_geometry_plot_data par = Ok pts ->
  let w := pv par "w" in let c := pv par "c" in let lam := pv par "lam" in
  let rR := pv par "rR" in let rF := pv par "rF" in
  exists p1 p2, pts = [(0, - rR); p1; p2; (w, - rF)] /\
    ahead w c lam (fst p1) (snd p1) = 0 /\ ahead w c lam (fst p2) (snd p2) = 0 /\
    along lam (fst p1) (snd p1) = along lam 0 (- rR) /\ along lam (fst p2) (snd p2) = along lam w (- rF).
Proof.
  intros H. cbv zeta. unfold fundamental_geometry_plot_data in H. repeat step_bind H.
  repeat match goal with X : dlook _ _ = Ok _ |- _ => apply pv_of_dlook in X end.
  apply rtan_ok in E3. destruct E3 as [N ->]. subst x x0 x1 x2 x4.
  set (w := pv par "w") in *. set (c := pv par "c") in *. set (lam := pv par "lam") in *.
  set (rR := pv par "rR") in *. set (rF := pv par "rF") in *.
  inversion H; subst; clear H. eexists; eexists; split; [reflexivity|].
  assert (T : cos lam * tan lam = sin lam) by (unfold tan; field; exact N).
  set (d1 := cos lam * (c + w - rR * tan lam)). set (d3 := - cos lam * (c - rF * tan lam)).
  assert (D1 : d1 = cos lam * (c + w) - rR * sin lam) by (unfold d1; rewrite <- T; ring).
  assert (D3 : d3 = - cos lam * c + rF * sin lam) by (unfold d3; rewrite <- T; ring).
  clearbody d1 d3.
  pose proof (sc1 lam) as S. unfold ahead, along; cbn [fst snd]. repeat split.
  - transitivity (d1 * (sin lam * sin lam + cos lam * cos lam) - (cos lam * (c + w) - rR * sin lam)); [ring|].
    rewrite S, <- D1. ring.
  - transitivity (- d3 * (sin lam * sin lam + cos lam * cos lam) + (- cos lam * c + rF * sin lam)); [ring|].
    rewrite S, <- D3. ring.
  - ring.
  - ring.
Qed.
Lemma plot_data_defined par : (exists pts, fundamental_geometry_plot_data par = Ok pts) <->
  (forall k, In k ["lam"; "c"; "w"; "rR"; "rF"] -> In k (dkeys par)) /\ cos (pv par "lam") <> 0.
Proof.
  split.
  - intros [pts H]. unfold fundamental_geometry_plot_data in H. repeat step_bind H.
    match goal with X : rtan _ = Ok _ |- _ => apply rtan_ok in X; destruct X as [N _] end.
    match goal with X : dlook _ "lam" = Ok _ |- _ => rewrite <- (pv_of_dlook _ _ _ X) in N end. split; [|exact N].
    repeat match goal with X : dlook _ _ = Ok _ |- _ => apply in_keys_of_dlook in X end.
    intros k Hk. cbn [In] in Hk. intuition (subst; assumption).
  - intros [K N]. unfold fundamental_geometry_plot_data.
    assert (L : forall k, In k ["lam"; "c"; "w"; "rR"; "rF"] -> dlook par k = Ok (pv par k)) by (intros; apply dlook_pv; auto).
    rewrite !L by (simpl; tauto). cbn [bind]. unfold rtan. rewrite rdiv_eq by exact N. cbn [bind]. eauto.
Qed.

(* ---------- raw measurement geometry ---------- *)
Lemma rsqrt_ok x s : rsqrt x = Ok s <-> 0 <= s /\ s ^ 2 = x.
Proof.
  unfold rsqrt. destruct (Rlt_dec x 0) as [H|H]; split.
  - discriminate.
  - intros [_ E]. pose proof (pow2_ge_0 s). lra.
  - intros E. injection E as <-. split; [apply sqrt_pos|]. apply pow2_sqrt. lra.
  - intros [P <-]. rewrite sqrt_pow2 by exact P. reflexivity.
Qed.
Lemma abc_spec h1 h2 h3 h4 h5 d1 d2 d3 d4 d_ a b c :
  calculate_abc_geometry h1 h2 h3 h4 h5 d1 d2 d3 d4 d_ = Ok (a, b, c) <->
  (* heights of the centres above the table, head tube lying horizontally *)
  a = (h1 + h2 + d1 / 2) - (h3 + d2 / 2) /\ b = (h4 - d3 / 2) - (h5 - d4 / 2) /\
  0 <= c /\ (a - b) ^ 2 + c ^ 2 = (d2 / 2 + d_ + d3 / 2) ^ 2.
Proof.
  unfold calculate_abc_geometry. split.
  - intros H. apply bind_ok in H. destruct H as [s [H1 H2]]. apply rsqrt_ok in H1. destruct H1 as [P E].
    injection H2; intros; subst. repeat split; try lra.
  - intros (-> & -> & P & E). 
    assert (S : rsqrt (- (h1 + h2 - h3 + / 2 * d1 - / 2 * d2 - (h4 - / 2 * d3 - h5 + / 2 * d4)) ^ 2 + (d_ + / 2 * (d2 + d3)) ^ 2) = Ok c).
    { apply rsqrt_ok. split; [exact P|]. lra. }
    rewrite S. cbn [bind]. f_equal. f_equal. f_equal; lra.
Qed.
Lemma l12_spec h6 h7 d5 d6 l l1 l2 :
  calculate_l1_l2 h6 h7 d5 d6 l = Ok (l1, l2) <->
  let l0 := l - d5 / 2 - d6 / 2 in
  l0 <> 0 /\ l1 = (h7 - d6 / 2) - (h6 - d5 / 2) /\ 0 <= l0 * l2 /\ l1 ^ 2 + l2 ^ 2 = l0 ^ 2.
Proof.
  cbv zeta. set (l0 := l - d5 / 2 - d6 / 2). unfold calculate_l1_l2. fold l0. split.
  - intros H. apply bind_ok in H. destruct H as [q [Hq H]]. apply rdiv_ok in Hq. destruct Hq as [N Eq].
    apply bind_ok in H. destruct H as [g [Hg H]]. unfold rasin in Hg.
    destruct (Rlt_dec 1 (Rabs q)) as [C|C]; [discriminate|]. inversion Hg; subst g; clear Hg.
    injection H; intros; subst l1 l2; clear H.
    assert (B : -1 <= q <= 1) by (apply Rnot_lt_le in C; unfold Rabs in C; destruct (Rcase_abs q); lra).
    rewrite cos_asin by exact B. assert (Q2 : 0 <= 1 - q²) by (unfold Rsqr; nra).
    repeat split; auto; try lra.
    + rewrite <- Rmult_assoc. apply Rmult_le_pos; [nra | apply sqrt_pos].
    + rewrite Rpow_mult_distr, pow2_sqrt by exact Q2. unfold Rsqr. rewrite Eq. field. exact N.
  - intros (N & -> & P & E).
    set (l1 := h7 - d6 / 2 - (h6 - d5 / 2)) in *.
    replace (h7 - h6 + d5 / 2 - d6 / 2) with l1 by (unfold l1; ring).
    rewrite rdiv_eq by exact N. cbn [bind].
    assert (Q : (l1 / l0) ^ 2 = 1 - (l2 / l0) ^ 2).
    { apply (Rmult_eq_reg_r (l0 ^ 2)); [|apply pow_nonzero; exact N]. field_simplify; auto. lra. }
    assert (B : -1 <= l1 / l0 <= 1) by (pose proof (pow2_ge_0 (l2 / l0)); split; nra).
    unfold rasin. destruct (Rlt_dec 1 (Rabs (l1 / l0))) as [C|C].
    + exfalso. unfold Rabs in C. destruct (Rcase_abs _); lra.
    + cbn [bind]. rewrite cos_asin by exact B. do 2 f_equal.
      replace (1 - (l1 / l0)²) with ((l2 / l0) ^ 2) by (rewrite Rsqr_pow2, Q; ring).
      rewrite sqrt_pow2; [field; exact N|].
      replace (l2 / l0) with (l0 * l2 / (l0 * l0)) by (field; exact N).
      apply Rmult_le_pos; [exact P|]. apply Rlt_le, Rinv_0_lt_compat. nra.
Qed.
Lemma handlebar_spec lam l1 l2 u1 u2 :
  fwheel_to_handlebar_ref lam l1 l2 = Ok (u1, u2) <->
  sin lam <> 0 /\ cos lam <> 0 /\ u1 = l2 * sin lam - l1 * cos lam /\ u2 = l2 * cos lam + l1 * sin lam.
Proof.
  unfold fwheel_to_handlebar_ref. pose proof (sc1 lam) as S.
  assert (V : sin lam <> 0 -> cos lam <> 0 ->
     (l2 * sin lam - l1 * cos lam) / tan lam + l1 / sin lam = l2 * cos lam + l1 * sin lam).
  { intros A B. unfold tan. transitivity (l2 * cos lam + l1 * (1 - cos lam * cos lam) / sin lam); [field; auto|].
    replace (1 - cos lam * cos lam) with (sin lam * sin lam) by lra. field; auto. }
  split.
  - intros H. apply bind_ok in H. destruct H as [t [Ht H]]. apply rtan_ok in Ht. destruct Ht as [C ->].
    apply bind_ok in H. destruct H as [q [Hq H]]. apply rdiv_ok in Hq. destruct Hq as [_ ->].
    apply bind_ok in H. destruct H as [s [Hs H]]. apply rdiv_ok in Hs. destruct Hs as [N ->].
    injection H; intros; subst. repeat split; auto.
  - intros (A & B & -> & ->).
    rewrite (proj2 (rtan_ok lam (tan lam)) (conj B eq_refl)). cbn [bind].
    assert (T : tan lam <> 0).
    { unfold tan. unfold Rdiv. apply Rmult_integral_contrapositive; split; auto. apply Rinv_neq_0_compat; auto. }
    rewrite rdiv_eq by exact T. cbn [bind]. rewrite rdiv_eq by exact A. cbn [bind]. rewrite V by assumption. reflexivity.
Qed.
Lemma handlebar_upright l1 l2 : fwheel_to_handlebar_ref 0 l1 l2 = Err ZeroDivisionError.
Proof.
  unfold fwheel_to_handlebar_ref, rtan. rewrite sin_0, cos_0. rewrite rdiv_eq by lra. cbn [bind].
  unfold rdiv. destruct (Req_EM_T (0 / 1) 0) as [_|C]; [reflexivity|]. exfalso; apply C; field.
Qed.

(* ---------- two link angles ---------- *)
(* tip of the second link: link 1 from the origin at angle t1 above the x axis,
   link 2 turned back by t2 relative to link 1 *)
Lemma two_link L1 L2 D t1 t2 : 0 < L1 -> 0 < L2 -> 0 < D -> calc_two_link_angles L1 L2 D = Ok (t1, t2) ->
  0 <= t1 <= PI /\ t1 <= t2 /\ L1 * sin t1 + L2 * sin (t1 - t2) = 0 /\
  (L1 ^ 2 <= D ^ 2 + L2 ^ 2 <-> L1 * cos t1 + L2 * cos (t1 - t2) = D).
Proof.
  intros P1 P2 PD H. unfold calc_two_link_angles in H.
  apply bind_ok in H. destruct H as [q [Hq H]]. apply rdiv_ok in Hq. destruct Hq as [N Eq].
  apply bind_ok in H. destruct H as [x [Hx H]]. unfold racos in Hx.
  destruct (Rlt_dec 1 (Rabs q)) as [C|C]; [discriminate|]. inversion Hx; subst x; clear Hx.
  apply bind_ok in H. destruct H as [r [Hr H]]. apply rdiv_ok in Hr. destruct Hr as [_ ->].
  apply bind_ok in H. destruct H as [s [Hs H]]. unfold rasin in Hs.
  destruct (Rlt_dec 1 (Rabs (L1 / L2 * sin (acos q)))) as [C2|C2]; [discriminate|]. inversion Hs; subst s; clear Hs.
  injection H; intros Ht2 Ht1; clear H.
  assert (B : -1 <= q <= 1) by (apply Rnot_lt_le in C; unfold Rabs in C; destruct (Rcase_abs q); lra).
  assert (T1 : 0 <= t1 <= PI) by (rewrite <- Ht1; apply acos_bound).
  assert (K1 : cos t1 = q) by (rewrite <- Ht1; apply cos_acos; exact B).
  rewrite Ht1 in *.
  set (y := L1 / L2 * sin t1) in *.
  assert (S0 : 0 <= sin t1) by (apply sin_ge_0; lra).
  assert (Y0 : 0 <= y) by (apply Rmult_le_pos; [apply Rlt_le, Rdiv_lt_0_compat; auto | exact S0]).
  assert (Y1 : y <= 1) by (apply Rnot_lt_le in C2; rewrite Rabs_right in C2 by lra; exact C2).
  assert (A0 : 0 <= asin y).
  { destruct Y0 as [Y0|Y0]; [|rewrite <- Y0, asin_0; lra].
    apply Rlt_le. apply Rnot_le_lt. intros Z. pose proof (asin_bound y) as AB.
    assert (sin (asin y) <= 0).
    { rewrite <- (Ropp_involutive (asin y)), sin_neg. pose proof (sin_ge_0 (- asin y)) as G.
      assert (0 <= sin (- asin y)) by (apply G; pose proof PI_RGT_0; lra). lra. }
    rewrite sin_asin in H by lra. lra. }
  assert (D12 : t1 - t2 = - asin y) by lra. rewrite D12, sin_neg, cos_neg, sin_asin by lra. rewrite cos_asin by lra.
  repeat split; try lra.
  - unfold y. field. lra.
  - intros HL. assert (LC : L1 * cos t1 <= D).
    { rewrite K1, Eq. apply (Rmult_le_reg_r (2 * D)); [lra|].
      replace (L1 * ((L1 ^ 2 + D ^ 2 - L2 ^ 2) / (2 * L1 * D)) * (2 * D)) with (L1 ^ 2 + D ^ 2 - L2 ^ 2) by (field; lra). nra. }
    assert (SS : (L2 * sqrt (1 - y²)) ^ 2 = (D - L1 * cos t1) ^ 2).
    { rewrite Rpow_mult_distr, pow2_sqrt by (unfold Rsqr; nra). unfold y, Rsqr.
      transitivity (L2 ^ 2 - L1 ^ 2 * (sin t1 * sin t1)); [field; lra|].
      replace (sin t1 * sin t1) with (1 - cos t1 * cos t1) by (pose proof (sc1 t1); lra).
      assert (K : 2 * L1 * D * cos t1 = L1 ^ 2 + D ^ 2 - L2 ^ 2) by (rewrite K1, Eq; field; lra).
      transitivity (L2 ^ 2 - L1 ^ 2 + (L1 * cos t1) ^ 2); [ring|]. lra. }
    rewrite <- !Rsqr_pow2 in SS. apply Rsqr_inj in SS; [lra | | lra].
    apply Rmult_le_pos; [lra | apply sqrt_pos].
  - intros HD. assert (LC : L1 * cos t1 <= D).
    { assert (0 <= L2 * sqrt (1 - y²)) by (apply Rmult_le_pos; [lra | apply sqrt_pos]). lra. }
    rewrite K1, Eq in LC. apply (Rmult_le_compat_r (2 * D)) in LC; [|lra].
    replace (L1 * ((L1 ^ 2 + D ^ 2 - L2 ^ 2) / (2 * L1 * D)) * (2 * D)) with (L1 ^ 2 + D ^ 2 - L2 ^ 2) in LC by (field; lra). nra.
Qed.
