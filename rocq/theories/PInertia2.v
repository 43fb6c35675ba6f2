(* PInertia2.v -- pendulums, tube integrals, least squares (C13-C15) *)
From Verif Require Import Base PBase MVec MInertia SBicycle SInertia PInertia.
From Coquelicot Require Import Coquelicot.
From Coq Require Import Lra Permutation.
Local Open Scope R_scope.

(* ---------- pendulums ---------- *)
Lemma cos_deriv_lin A k ph t :
  derivable_pt_lim (fun t => A * cos (k * t + ph)) t (- A * k * sin (k * t + ph)).
Proof. apply is_derive_Reals. auto_derive; [exact I|]. ring. Qed.
Lemma sin_deriv_lin A k ph t :
  derivable_pt_lim (fun t => - A * k * sin (k * t + ph)) t (- A * k * k * cos (k * t + ph)).
Proof. apply is_derive_Reals. auto_derive; [exact I|]. ring. Qed.

Lemma oscillates_iff J k T : T <> 0 ->
  (oscillates_with_period J k T <-> J * (2 * PI / T) ^ 2 = k).
Proof.
  intros HT. set (w := 2 * PI / T).
  assert (E : forall t, 2 * PI * t / T = w * t) by (intros; unfold w; field; auto).
  split.
  - intros H. destruct (H 1 0) as (vel & acc & H1 & H2 & H3). 
    assert (V : forall t, vel t = - 1 * w * sin (w * t + 0)).
    { intros t. eapply uniqueness_limite; [apply H1|].
      apply is_derive_Reals. eapply is_derive_ext; [|apply is_derive_Reals, (cos_deriv_lin 1 w 0 t)].
      intros s; cbn; rewrite E; reflexivity. }
    assert (A0 : acc 0 = - 1 * w * w * cos (w * 0 + 0)).
    { eapply uniqueness_limite; [apply H2|].
      apply is_derive_Reals. eapply is_derive_ext; [|apply is_derive_Reals, (sin_deriv_lin 1 w 0 0)].
      intros s; cbn; rewrite V; reflexivity. }
    specialize (H3 0). rewrite A0 in H3. cbn in H3. rewrite E in H3.
    replace (w * 0 + 0) with 0 in H3 by ring. rewrite cos_0 in H3. simpl. lra.
  - intros H A ph th. exists (fun t => - A * w * sin (w * t + ph)), (fun t => - A * w * w * cos (w * t + ph)).
    repeat split.
    + intros t. apply is_derive_Reals. eapply is_derive_ext; [|apply is_derive_Reals, (cos_deriv_lin A w ph t)].
      intros s; unfold th; cbn. rewrite E. reflexivity.
    + intros t. apply sin_deriv_lin.
    + intros t. unfold th. rewrite E, <- H. simpl. ring.
Qed.

Lemma compound_spec m g l T I : T <> 0 ->
  (oscillates_with_period (I + m * l ^ 2) (m * g * l) T <-> I = compound_pendulum_inertia m g l T).
Proof.
  intros HT. rewrite oscillates_iff by exact HT. unfold compound_pendulum_inertia.
  pose proof PI_neq0 as HP.
  split; intros H.
  - replace ((T / 2 / PI) ^ 2 * m * g * l) with ((T / 2 / PI) ^ 2 * (m * g * l)) by ring.
    rewrite <- H. field; auto.
  - rewrite H. field; auto.
Qed.
Lemma torsional_spec k T I : T <> 0 ->
  (oscillates_with_period I k T <-> I = tor_inertia k T).
Proof.
  intros HT. rewrite oscillates_iff by exact HT. unfold tor_inertia. pose proof PI_neq0 as HP.
  split; intros H; [rewrite <- H | rewrite H]; field; auto.
Qed.
Lemma stiffness_spec I T k :
  torsional_pendulum_stiffness I T = Ok k <-> T <> 0 /\ tor_inertia k T = I.
Proof.
  unfold torsional_pendulum_stiffness, tor_inertia. rewrite rdiv_ok. pose proof PI_neq0 as HP.
  assert (E : T ^ 2 <> 0 <-> T <> 0).
  { split; intros H C; apply H; [subst; ring|]. apply Rmult_integral in C. destruct C; [auto|]. lra. }
  rewrite E. split; intros [HT H]; split; auto.
  - rewrite H. field; auto.
  - rewrite <- H. field; auto.
Qed.
Lemma compound_positive m g l T : 0 < m -> 0 < l -> 0 < g -> 0 < T ->
  (0 <= compound_pendulum_inertia m g l T <-> 2 * PI * sqrt (l / g) <= T).
Proof.
  intros Hm Hl Hg HT. unfold compound_pendulum_inertia. pose proof PI_RGT_0 as HP.
  replace ((T / 2 / PI) ^ 2 * m * g * l - m * l ^ 2)
    with (m * l * g * ((T / 2 / PI) ^ 2 - l / g)) by (field; lra).
  assert (P : 0 < m * l * g) by (repeat apply Rmult_lt_0_compat; auto).
  assert (Q : 0 <= l / g) by (apply Rlt_le, Rdiv_lt_0_compat; auto).
  assert (S : 0 < T / 2 / PI) by (repeat apply Rdiv_lt_0_compat; lra).
  assert (Eq : T = 2 * PI * (T / 2 / PI)) by (field; lra).
  split; intros H.
  - assert (l / g <= (T / 2 / PI) ^ 2).
    { apply Rnot_lt_le; intros C. assert (m * l * g * ((T / 2 / PI) ^ 2 - l / g) < 0); [|lra].
      rewrite <- (Rmult_0_r (m * l * g)). apply Rmult_lt_compat_l; lra. }
    apply sqrt_le_1_alt in H0. rewrite sqrt_pow2 in H0 by lra. rewrite Eq.
    apply Rmult_le_compat_l; lra.
  - assert (sqrt (l / g) <= T / 2 / PI).
    { rewrite Eq in H. apply Rmult_le_reg_l in H; lra. }
    apply Rmult_le_pos; [lra|]. assert (H1 := pow_incr _ _ 2 (conj (sqrt_pos (l / g)) H0)). clear H0. rename H1 into H0.
    rewrite pow2_sqrt in H0 by exact Q. lra.
Qed.

(* ---------- tube ---------- *)
Lemma RInt_antider (f F : R -> R) a b :
  (forall x, is_derive F x (f x)) -> (forall x, continuous f x) -> RInt f a b = F b - F a.
Proof.
  intros HD HC. apply is_RInt_unique. apply (is_RInt_derive F f); intros; auto.
Qed.
Ltac req := cbv beta; match goal with |- ?x = ?y => change (@eq R x y) end.
Ltac cont := intros; apply continuity_pt_filterlim; 
  apply derivable_continuous_pt; apply ex_derive_Reals_0; auto_derive; auto.

Lemma inner1 K ri ro : RInt (fun r => K * r ^ 3) ri ro = K * (ro ^ 4 - ri ^ 4) / 4.
Proof.
  rewrite (RInt_antider _ (fun r => K * r ^ 4 / 4)); [req; field | | cont].
  intros x. auto_derive; [exact I|]. simpl. req. field.
Qed.

Lemma tube_axis rho l ro ri :
  tube_integral rho l ro ri (fun x y z => y ^ 2 + z ^ 2) = rho * l * PI * (ro ^ 4 - ri ^ 4) / 2.
Proof.
  unfold tube_integral.
  transitivity (RInt (fun _ : R => RInt (fun _ : R => rho * (ro ^ 4 - ri ^ 4) / 4) 0 (2 * PI)) (- l / 2) (l / 2)).
  - apply RInt_ext. intros x _. apply RInt_ext. intros phi _. rewrite <- inner1.
    apply RInt_ext. intros r _. pose proof (cs1 phi) as H. req.
    transitivity (rho * r ^ 3 * (cos phi * cos phi + sin phi * sin phi)); [ring|]. rewrite H. ring.
  - rewrite !RInt_const. unfold scal; simpl; unfold mult; simpl. req. field.
Qed.

Lemma tube_normal rho l ro ri :
  tube_integral rho l ro ri (fun x y z => x ^ 2 + z ^ 2)
  = rho * PI * (l ^ 3 * (ro ^ 2 - ri ^ 2) / 12 + l * (ro ^ 4 - ri ^ 4) / 4).
Proof.
  unfold tube_integral.
  set (A := ro ^ 2 - ri ^ 2). set (B := ro ^ 4 - ri ^ 4).
  transitivity (RInt (fun x : R => RInt (fun phi : R => rho * (x ^ 2 * A / 2 + sin phi ^ 2 * B / 4)) 0 (2 * PI)) (- l / 2) (l / 2)).
  - apply RInt_ext. intros x _. apply RInt_ext. intros phi _.
    rewrite (RInt_antider _ (fun r => rho * (x ^ 2 * r ^ 2 / 2 + sin phi ^ 2 * r ^ 4 / 4))); [req; unfold A, B; field | | cont].
    intros r. auto_derive; [exact I|]. simpl. req. field.
  - transitivity (RInt (fun x : R => rho * PI * (x ^ 2 * A + B / 4)) (- l / 2) (l / 2)).
    + apply RInt_ext. intros x _.
      rewrite (RInt_antider _ (fun p => rho * (x ^ 2 * A / 2 * p + (p - sin p * cos p) / 2 * B / 4))); [| | cont].
      * req. rewrite sin_2PI, sin_0. field.
      * intros p. auto_derive; [exact I|]. pose proof (cs1 p) as H. req.
        transitivity (rho * (x ^ 2 * A / 2 + (1 - (cos p * cos p) + sin p * sin p) / 2 * B / 4)); [field|].
        rewrite H. field.
    + rewrite (RInt_antider _ (fun x => rho * PI * (x ^ 3 / 3 * A + B / 4 * x))); [req; field | | cont].
      intros x. auto_derive; [exact I|]. simpl. req. field.
Qed.

Lemma tube_normal2 rho l ro ri :
  tube_integral rho l ro ri (fun x y z => x ^ 2 + y ^ 2)
  = rho * PI * (l ^ 3 * (ro ^ 2 - ri ^ 2) / 12 + l * (ro ^ 4 - ri ^ 4) / 4).
Proof.
  unfold tube_integral.
  set (A := ro ^ 2 - ri ^ 2). set (B := ro ^ 4 - ri ^ 4).
  transitivity (RInt (fun x : R => RInt (fun phi : R => rho * (x ^ 2 * A / 2 + cos phi ^ 2 * B / 4)) 0 (2 * PI)) (- l / 2) (l / 2)).
  - apply RInt_ext. intros x _. apply RInt_ext. intros phi _.
    rewrite (RInt_antider _ (fun r => rho * (x ^ 2 * r ^ 2 / 2 + cos phi ^ 2 * r ^ 4 / 4))); [req; unfold A, B; field | | cont].
    intros r. auto_derive; [exact I|]. simpl. req. field.
  - transitivity (RInt (fun x : R => rho * PI * (x ^ 2 * A + B / 4)) (- l / 2) (l / 2)).
    + apply RInt_ext. intros x _.
      rewrite (RInt_antider _ (fun p => rho * (x ^ 2 * A / 2 * p + (p + sin p * cos p) / 2 * B / 4))); [| | cont].
      * req. rewrite sin_2PI, sin_0. field.
      * intros p. auto_derive; [exact I|]. pose proof (cs1 p) as H. req.
        transitivity (rho * (x ^ 2 * A / 2 + (1 + (cos p * cos p) - sin p * sin p) / 2 * B / 4)); [field|].
        replace (sin p * sin p) with (1 - cos p * cos p) by lra. field.
    + rewrite (RInt_antider _ (fun x => rho * PI * (x ^ 3 / 3 * A + B / 4 * x))); [req; field | | cont].
      intros x. auto_derive; [exact I|]. simpl. req. field.
Qed.

Lemma tube_mass rho l ro ri :
  tube_integral rho l ro ri (fun _ _ _ => 1) = rho * PI * (ro ^ 2 - ri ^ 2) * l.
Proof.
  unfold tube_integral.
  transitivity (RInt (fun _ : R => RInt (fun _ : R => rho * (ro ^ 2 - ri ^ 2) / 2) 0 (2 * PI)) (- l / 2) (l / 2)).
  - apply RInt_ext. intros x _. apply RInt_ext. intros phi _.
    rewrite (RInt_antider _ (fun r => rho * r ^ 2 / 2)); [req; field | | cont].
    intros r. auto_derive; [exact I|]. simpl. req. field.
  - rewrite !RInt_const. unfold scal; simpl; unfold mult; simpl. req. field.
Qed.

Lemma tube_spec l m ro ri rho Ix Iy Iz :
  tube_integral rho l ro ri (fun _ _ _ => 1) = m -> tube_inertia l m ro ri = (Ix, Iy, Iz) ->
  Ix = tube_integral rho l ro ri (fun x y z => y ^ 2 + z ^ 2) /\
  Iy = tube_integral rho l ro ri (fun x y z => x ^ 2 + z ^ 2) /\
  Iz = tube_integral rho l ro ri (fun x y z => x ^ 2 + y ^ 2).
Proof.
  rewrite tube_mass, tube_axis, tube_normal, tube_normal2. intros <- H.
  unfold tube_inertia in H. inversion H; subst. repeat split; field.
Qed.
Lemma tube_exists l m ro ri : 0 < l -> 0 <= ri < ro ->
  exists rho, tube_integral rho l ro ri (fun _ _ _ => 1) = m.
Proof.
  intros Hl [H1 H2]. exists (m / (PI * (ro ^ 2 - ri ^ 2) * l)). rewrite tube_mass.
  pose proof PI_RGT_0. assert (0 < ro ^ 2 - ri ^ 2) by (simpl; nra). field. lra.
Qed.
Lemma tube_nonneg l m ro ri Ix Iy Iz : 0 <= m -> tube_inertia l m ro ri = (Ix, Iy, Iz) ->
  0 <= Ix /\ 0 <= Iy /\ Iz = Iy /\ Ix <= Iy + Iz.
Proof.
  intros Hm H. unfold tube_inertia in H. inversion H; subst; clear H.
  pose proof (pow2_ge_0 ro) as A. pose proof (pow2_ge_0 ri) as B. pose proof (pow2_ge_0 l) as C.
  assert (0 <= m * (ro ^ 2 + ri ^ 2)) by (apply Rmult_le_pos; lra).
  assert (0 <= m * l ^ 2) by (apply Rmult_le_pos; lra). repeat split; lra.
Qed.

(* ---------- least squares ---------- *)
Lemma solve3_ok a h x : solve3 a h = Ok x -> det3 a <> 0 /\ m3_app a x = h.
Proof.
  unfold solve3. intros H. do 3 (apply bind_ok in H; destruct H as [? [? H]]).
  repeat match goal with X : rdiv _ _ = Ok _ |- _ => apply rdiv_ok in X; destruct X as [? ->] end.
  inversion H; subst; clear H. split; [assumption|].
  destruct a as [[a1 a2 a3] [b1 b2 b3] [c1 c2 c3]]. destruct h as [h1 h2 h3].
  unfold det3 in *. vsimpl. apply vec3_ext; cbn [vx vy vz]; field; assumption.
Qed.
Lemma solve3_defined a h : det3 a <> 0 -> exists x, solve3 a h = Ok x.
Proof. intros H. unfold solve3. rewrite !rdiv_eq by exact H. cbn. eauto. Qed.
Lemma det3_inj a x y : det3 a <> 0 -> m3_app a x = m3_app a y -> x = y.
Proof.
  intros D E. destruct a as [[a1 a2 a3] [b1 b2 b3] [c1 c2 c3]]. destruct x as [x1 x2 x3], y as [y1 y2 y3].
  unfold det3 in D. vsimpl. inversion E as [[E1 E2 E3]]; clear E.
  set (d := a1 * (b2 * c3 - b3 * c2) + a2 * (b3 * c1 - b1 * c3) + a3 * (b1 * c2 - b2 * c1)) in *.
  assert (X : d * (x1 - y1) = 0).
  { transitivity ((b2 * c3 - b3 * c2) * ((a1 * x1 + a2 * x2 + a3 * x3) - (a1 * y1 + a2 * y2 + a3 * y3))
      + (a3 * c2 - a2 * c3) * ((b1 * x1 + b2 * x2 + b3 * x3) - (b1 * y1 + b2 * y2 + b3 * y3))
      + (a2 * b3 - a3 * b2) * ((c1 * x1 + c2 * x2 + c3 * x3) - (c1 * y1 + c2 * y2 + c3 * y3))).
    - unfold d. ring. - rewrite E1, E2, E3. ring. }
  assert (Y : d * (x2 - y2) = 0).
  { transitivity ((b3 * c1 - b1 * c3) * ((a1 * x1 + a2 * x2 + a3 * x3) - (a1 * y1 + a2 * y2 + a3 * y3))
      + (a1 * c3 - a3 * c1) * ((b1 * x1 + b2 * x2 + b3 * x3) - (b1 * y1 + b2 * y2 + b3 * y3))
      + (a3 * b1 - a1 * b3) * ((c1 * x1 + c2 * x2 + c3 * x3) - (c1 * y1 + c2 * y2 + c3 * y3))).
    - unfold d. ring. - rewrite E1, E2, E3. ring. }
  assert (Z : d * (x3 - y3) = 0).
  { transitivity ((b1 * c2 - b2 * c1) * ((a1 * x1 + a2 * x2 + a3 * x3) - (a1 * y1 + a2 * y2 + a3 * y3))
      + (a2 * c1 - a1 * c2) * ((b1 * x1 + b2 * x2 + b3 * x3) - (b1 * y1 + b2 * y2 + b3 * y3))
      + (a1 * b2 - a2 * b1) * ((c1 * x1 + c2 * x2 + c3 * x3) - (c1 * y1 + c2 * y2 + c3 * y3))).
    - unfold d. ring. - rewrite E1, E2, E3. ring. }
  apply Rmult_integral in X, Y, Z. f_equal; lra.
Qed.

Definition gram (beta : list R) : mat3 := m3_sum (map outer (map beta_row beta)).
Definition rhs (jay beta : list R) : vec3 :=
  v3_sum (map (fun p => v3_scale (fst p) (snd p)) (combine jay (map beta_row beta))).

Lemma row_moment I b : moment (planar I) (axis_dir b) = v3_dot (beta_row b) I.
Proof. destruct I. unfold beta_row. vsimpl. ring. Qed.

Lemma gram_app beta x : m3_app (gram beta) x =
  v3_sum (map (fun b => v3_scale (v3_dot (beta_row b) x) (beta_row b)) beta).
Proof.
  unfold gram. induction beta as [|b l IH].
  - destruct x; cbn [map m3_sum v3_sum fold_right]; apply vec3_ext; vsimpl; ring.
  - cbn [map m3_sum v3_sum fold_right]. fold (m3_sum (map outer (map beta_row l))). 
    fold (v3_sum (map (fun b => v3_scale (v3_dot (beta_row b) x) (beta_row b)) l)). rewrite <- IH.
    generalize (m3_sum (map outer (map beta_row l))); intros G. generalize (beta_row b); intros r.
    unfold outer. apply vec3_ext; dvecs; vsimpl; ring.
Qed.
Lemma gram_form beta x : v3_dot x (m3_app (gram beta) x) = sum_over (fun b => v3_dot (beta_row b) x ^ 2) beta.
Proof.
  rewrite gram_app. induction beta as [|b l IH].
  - destruct x; cbn [map m3_sum v3_sum fold_right sum_over]; vsimpl; ring.
  - cbn [map v3_sum fold_right sum_over]. unfold sum_over in IH. rewrite <- IH.
    fold (v3_sum (map (fun b => v3_scale (v3_dot (beta_row b) x) (beta_row b)) l)).
    generalize (v3_sum (map (fun b => v3_scale (v3_dot (beta_row b) x) (beta_row b)) l)); intros s.
    generalize (beta_row b); intros r. dvecs; vsimpl. ring.
Qed.

(* first-order expansion of the residual *)
Lemma residual_expand jay beta I d : length jay = length beta ->
  sq_residual jay beta (v3_add I d) =
  sq_residual jay beta I - 2 * v3_dot d (v3_sub (rhs jay beta) (m3_app (gram beta) I))
  + sum_over (fun b => v3_dot (beta_row b) d ^ 2) beta.
Proof.
  intros L. rewrite gram_app. unfold sq_residual, rhs.
  revert jay L; induction beta as [|b l IH]; intros [|j jay] L; try discriminate.
  - cbn [combine map sum_over v3_sum fold_right]. destruct d; vsimpl. ring.
  - injection L as L. specialize (IH jay L).
    cbn [combine map sum_over fold_right v3_sum fst snd]. unfold sum_over in IH. rewrite IH.
    fold (v3_sum (map (fun b => v3_scale (v3_dot (beta_row b) I) (beta_row b)) l)).
    fold (v3_sum (map (fun p => v3_scale (fst p) (snd p)) (combine jay (map beta_row l)))).
    rewrite !row_moment.
    generalize (v3_sum (map (fun p => v3_scale (fst p) (snd p)) (combine jay (map beta_row l)))); intros s1.
    generalize (v3_sum (map (fun b => v3_scale (v3_dot (beta_row b) I) (beta_row b)) l)); intros s2.
    generalize (beta_row b); intros r. clear IH.
    match goal with |- context [fold_right ?f 0 (combine jay l)] => generalize (fold_right f 0 (combine jay l)) end; intros q1.
    match goal with |- context [fold_right ?f 0 l] => generalize (fold_right f 0 l) end; intros q2.
    dvecs; vsimpl. ring.
Qed.

Lemma components_ok jay beta I : inertia_components jay beta = Ok I ->
  length jay = length beta /\ det3 (gram beta) <> 0 /\ m3_app (gram beta) I = rhs jay beta.
Proof.
  unfold inertia_components. destruct (Nat.eqb _ _) eqn:E; [|discriminate].
  apply Nat.eqb_eq in E. intros H. split; [exact E|]. apply solve3_ok. exact H.
Qed.

Lemma components_optimal jay beta I I' : inertia_components jay beta = Ok I ->
  sq_residual jay beta I <= sq_residual jay beta I' /\
  (sq_residual jay beta I' = sq_residual jay beta I -> I' = I).
Proof.
  intros H. apply components_ok in H. destruct H as (L & D & G).
  set (d := v3_sub I' I). assert (E : I' = v3_add I d) by (unfold d; apply vec3_ext; dvecs; vsimpl; ring).
  assert (X : sq_residual jay beta I' = sq_residual jay beta I + sum_over (fun b => v3_dot (beta_row b) d ^ 2) beta).
  { rewrite E, residual_expand by exact L. rewrite G. generalize (rhs jay beta); intros r.
    clear. dvecs; vsimpl. ring. }
  assert (P : forall b, In b beta -> 0 <= v3_dot (beta_row b) d ^ 2) by (intros; apply pow2_ge_0).
  split.
  - rewrite X. pose proof (sum_over_nonneg _ _ P). lra.
  - intros Q. rewrite X in Q.
    assert (Z : sum_over (fun b => v3_dot (beta_row b) d ^ 2) beta = 0) by lra.
    assert (Zd : forall b, In b beta -> v3_dot (beta_row b) d = 0).
    { intros b Hb. pose proof (sum_over_zero _ _ P Z b Hb) as T. cbn in T.
      apply Rmult_integral in T. destruct T; [assumption|]. lra. }
    assert (A : m3_app (gram beta) d = m3_app (gram beta) (mk3 0 0 0)).
    { rewrite !gram_app. f_equal. apply map_ext_in. intros b Hb. rewrite (Zd b Hb).
      generalize (beta_row b); intros r. apply vec3_ext; dvecs; vsimpl; ring. }
    apply det3_inj in A; [|exact D]. rewrite E, A. apply vec3_ext; dvecs; vsimpl; ring.
Qed.

Lemma components_exact beta I J :
  inertia_components (map (fun b => moment (planar I) (axis_dir b)) beta) beta = Ok J -> J = I.
Proof.
  intros H. symmetry. apply (components_optimal _ _ _ I) in H as K. apply K.
  assert (Z : sq_residual (map (fun b => moment (planar I) (axis_dir b)) beta) beta I = 0).
  { unfold sq_residual. clear. induction beta as [|b l IH]; cbn [map combine sum_over fold_right fst snd]; [reflexivity|].
    unfold sum_over in IH. rewrite IH. ring. }
  destruct K as [K _]. rewrite Z in *. apply Rle_antisym; [|exact K].
  unfold sq_residual. apply sum_over_nonneg. intros; apply pow2_ge_0.
Qed.

(* Gram determinants grow when rows are added *)
Definition adjform (a : mat3) (v : vec3) : R := det3 (m3_add a (outer v)) - det3 a.
Lemma gram_sym beta : symmetric (gram beta).
Proof.
  unfold gram. induction beta as [|b l IH]; cbn [map m3_sum fold_right]; [unfold symmetric; cbn; auto|].
  fold (m3_sum (map outer (map beta_row l))). revert IH.
  generalize (m3_sum (map outer (map beta_row l))), (beta_row b). intros G r (A & B & C).
  unfold symmetric, outer in *. dvecs; vsimpl. repeat split; lra.
Qed.
Lemma adjform_step a s v : symmetric a ->
  adjform (m3_add a (outer s)) v = adjform a v + v3_dot (v3_cross s v) (m3_app a (v3_cross s v)).
Proof.
  intros (A & B & C). unfold adjform, det3, outer. destruct a as [[a1 a2 a3] [b1 b2 b3] [c1 c2 c3]].
  cbn in A, B, C. subst b1 c1 c2. dvecs; vsimpl. ring.
Qed.
Lemma gram_cons b l : gram (b :: l) = m3_add (outer (beta_row b)) (gram l).
Proof. reflexivity. Qed.
Lemma m3_add_comm a b : m3_add a b = m3_add b a.
Proof. apply mat3_ext; dvecs; vsimpl; ring. Qed.
Lemma adjform_nonneg beta v : 0 <= adjform (gram beta) v.
Proof.
  induction beta as [|b l IH].
  - unfold gram; cbn. unfold adjform, det3, outer. destruct v; vsimpl. right; ring.
  - rewrite gram_cons, m3_add_comm, adjform_step by apply gram_sym.
    rewrite gram_form. pose proof (sum_over_nonneg (fun b0 => v3_dot (beta_row b0) (v3_cross (beta_row b) v) ^ 2) l
      (fun _ _ => pow2_ge_0 _)). lra.
Qed.
Lemma gram_det_mono b l : det3 (gram l) <= det3 (gram (b :: l)).
Proof.
  rewrite gram_cons, m3_add_comm. pose proof (adjform_nonneg l (beta_row b)) as H. unfold adjform in H. lra.
Qed.
Lemma gram_det_three b1 b2 b3 :
  det3 (gram [b1; b2; b3]) = (2 * sin (b1 - b2) * sin (b2 - b3) * sin (b1 - b3)) ^ 2.
Proof.
  rewrite !sin_minus. unfold gram, det3, outer, beta_row. cbn [map m3_sum fold_right]. vsimpl. ring.
Qed.
Lemma gram_perm l1 l2 : Permutation l1 l2 -> gram l1 = gram l2.
Proof.
  induction 1; auto.
  - rewrite !gram_cons. congruence.
  - rewrite !gram_cons. generalize (outer (beta_row x)), (outer (beta_row y)), (gram l). intros.
    apply mat3_ext; dvecs; vsimpl; ring.
  - congruence.
Qed.
Lemma gram_det_pos beta b1 b2 b3 rest : Permutation beta (b1 :: b2 :: b3 :: rest) ->
  sin (b1 - b2) <> 0 -> sin (b2 - b3) <> 0 -> sin (b1 - b3) <> 0 -> det3 (gram beta) <> 0.
Proof.
  intros P S1 S2 S3.
  assert (P' : Permutation beta (rest ++ [b1; b2; b3])).
  { rewrite P. change (b1 :: b2 :: b3 :: rest) with ([b1; b2; b3] ++ rest). apply Permutation_app_comm. }
  rewrite (gram_perm _ _ P'). clear P P'.
  assert (0 < det3 (gram [b1; b2; b3])).
  { rewrite gram_det_three. apply pow2_gt_0. repeat apply Rmult_integral_contrapositive_currified; auto; lra. }
  enough (det3 (gram [b1; b2; b3]) <= det3 (gram (rest ++ [b1; b2; b3]))) by lra.
  induction rest as [|r rest IH]; [cbn; lra|].
  rewrite <- app_comm_cons. pose proof (gram_det_mono r (rest ++ [b1; b2; b3])). lra.
Qed.
Lemma components_defined jay beta b1 b2 b3 rest : length jay = length beta ->
  Permutation beta (b1 :: b2 :: b3 :: rest) ->
  sin (b1 - b2) <> 0 -> sin (b2 - b3) <> 0 -> sin (b1 - b3) <> 0 ->
  exists I, inertia_components jay beta = Ok I.
Proof.
  intros L P S1 S2 S3. unfold inertia_components. rewrite (proj2 (Nat.eqb_eq _ _) L).
  apply solve3_defined. exact (gram_det_pos _ _ _ _ _ P S1 S2 S3).
Qed.
