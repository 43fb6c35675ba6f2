(* TInertia2.v -- C15 about inertia_components with numpy's inverse as it is called *)
From Coq Require Import Lra Permutation Lia.
From Verif Require Import Base PBase MVec MInertia MInertia2 SBicycle SInertia SInertia2 PInertia PInertia2 TInertia.
Local Open Scope R_scope.

Lemma misfit_residual jay beta x : misfit jay (map beta_row beta) x = sq_residual jay beta x.
Proof.
  unfold misfit, sq_residual, sum_over. revert jay. induction beta as [|b beta IH]; intros [|j jay]; cbn [map combine fold_right]; [reflexivity..|]. rewrite IH. cbn [fst snd]. rewrite row_moment. reflexivity.
Qed.
Lemma axis_rows_model beta : axis_rows beta = map beta_row beta.
Proof. apply map_ext. intros b. unfold beta_row. f_equal; ring. Qed.
(* all in two directions, or three of different directions *)
Lemma direction_dec (b1 : R) l : (forall b, In b l -> sin (b - b1) = 0) \/ exists b2, In b2 l /\ sin (b2 - b1) <> 0.
Proof.
  induction l as [|a l [IH|(b2 & I & N)]]; [left; intros b []| |right; exists b2; split; [right|]; assumption].
  destruct (Req_EM_T (sin (a - b1)) 0) as [Z|Z]; [left; intros b [<-|B]; auto|right; exists a; split; [left; reflexivity|exact Z]].
Qed.
Lemma sin_swap a b : sin (a - b) = 0 -> sin (b - a) = 0.
Proof. intros H. replace (b - a) with (- (a - b)) by ring. rewrite sin_neg, H. ring. Qed.
Lemma three_directions beta : ~ two_directions beta -> exists b1 b2 b3 rest, Permutation beta (b1 :: b2 :: b3 :: rest) /\ sin (b1 - b2) <> 0 /\ sin (b2 - b3) <> 0 /\ sin (b1 - b3) <> 0.
Proof.
  intros N. destruct beta as [|b1 l]; [exfalso; apply N; exists 0, 0; intros b []|].
  destruct (direction_dec b1 l) as [A|(b2 & I2 & N2)]; [exfalso; apply N; exists b1, b1; intros b [<-|B]; left; [replace (b1 - b1) with 0 by ring; apply sin_0|auto]|].
  apply in_split in I2. destruct I2 as (u & w & ->).
  assert (X : exists b3, In b3 (u ++ w) /\ sin (b3 - b1) <> 0 /\ sin (b3 - b2) <> 0).
  { assert (D : (forall b, In b (u ++ w) -> sin (b - b1) = 0 \/ sin (b - b2) = 0) \/ exists b3, In b3 (u ++ w) /\ sin (b3 - b1) <> 0 /\ sin (b3 - b2) <> 0).
    { induction (u ++ w) as [|a k [IH|(b3 & I & X)]]; [left; intros b []| |right; exists b3; split; [right|]; assumption].
      destruct (Req_EM_T (sin (a - b1)) 0) as [Z|Z]; [left; intros b [<-|B]; auto|]. destruct (Req_EM_T (sin (a - b2)) 0) as [Z2|Z2]; [left; intros b [<-|B]; auto|]. right. exists a. split; [left; reflexivity|auto]. }
    destruct D as [D|D]; [|exact D]. exfalso. apply N. exists b1, b2. intros b [<-|B]; [left; replace (b1 - b1) with 0 by ring; apply sin_0|]. apply in_app_iff in B. destruct B as [B|[<-|B]]; [apply D, in_app_iff; auto|right; replace (b2 - b2) with 0 by ring; apply sin_0|apply D, in_app_iff; auto]. }
  destruct X as (b3 & I3 & N31 & N32). apply in_split in I3. destruct I3 as (u' & w' & E). exists b1, b2, b3, (u' ++ w'). split; [|split; [|split]; intros Z; apply sin_swap in Z; contradiction].
  apply perm_skip. etransitivity; [symmetry; apply Permutation_middle|]. apply perm_skip. rewrite E. symmetry. apply Permutation_middle.
Qed.
(* a planar tensor without moment about two given axes *)
Definition unseen (b1 b2 : R) : vec3 := mk3 (sin b1 * sin b2) ((sin b1 * cos b2 + cos b1 * sin b2) / 2) (cos b1 * cos b2).
Lemma unseen_dot b1 b2 b : v3_dot (beta_row b) (unseen b1 b2) = sin (b - b1) * sin (b - b2).
Proof. unfold beta_row, unseen, v3_dot. cbn [vx vy vz]. rewrite !sin_minus. field. Qed.
Lemma unseen_not_zero b1 b2 : unseen b1 b2 <> mk3 0 0 0.
Proof.
  unfold unseen. intros H. injection H as H1 H2 H3. pose proof (sin2_cos2 b1) as S1. pose proof (sin2_cos2 b2) as S2. unfold Rsqr in *. apply Rmult_integral in H1, H3. destruct H1 as [X|X]; destruct H3 as [Y|Y]; rewrite X, Y in *; nra.
Qed.
Lemma dot_add r x y : v3_dot r (v3_add x y) = v3_dot r x + v3_dot r y.
Proof. destruct r as [r1 r2 r3], x as [x1 x2 x3], y as [y1 y2 y3]. unfold v3_dot, v3_add. cbn [vx vy vz]. ring. Qed.
Lemma moments_unseen b1 b2 I beta : (forall b, In b beta -> sin (b - b1) = 0 \/ sin (b - b2) = 0) -> moments_of (v3_add I (unseen b1 b2)) beta = moments_of I beta.
Proof.
  intros H. apply map_ext_in. intros b B. rewrite !row_moment. rewrite dot_add.
  rewrite unseen_dot. destruct (H b B) as [-> | ->]; ring.
Qed.
Lemma inv3 a b c x y z d : det3 (mk33 a b c) <> 0 -> d = 1 / det3 (mk33 a b c) -> let s := columns [x; y; z] [v3_scale d (v3_cross b c); v3_scale d (v3_cross c a); v3_scale d (v3_cross a b)] in v3_dot a s = x /\ v3_dot b s = y /\ v3_dot c s = z.
Proof.
  intros D -> s. unfold s, columns, v3_sum. cbn [combine map fold_right fst snd]. destruct a as [a1 a2 a3], b as [b1 b2 b3], c as [c1 c2 c3]. unfold det3, v3_dot, v3_cross, v3_scale, v3_add in *. cbn [r1 r2 r3 vx vy vz] in *. repeat split; field; exact D.
Qed.

(* with axes in three directions or more numpy's inverse and pseudo-inverse both give the
   solution of the normal equations: everything proved of it holds of the code *)
Theorem C15_numpy_inverse : forall pinv jay beta, pseudo_inverse (axis_rows beta) (pinv (axis_rows beta)) -> length jay = length beta -> ~ two_directions beta ->
  exists I, np_inertia_components pinv jay beta = Ok I /\ inertia_components jay beta = Ok I.
Proof.
  intros pinv jay beta. rewrite axis_rows_model. intros (LC & PI) L N. destruct (three_directions beta N) as (b1 & b2 & b3 & rest & P & S1 & S2 & S3). destruct (components_defined jay beta b1 b2 b3 rest L P S1 S2 S3) as (I & E). exists I. split; [|exact E].
  assert (U : forall x, sq_residual jay beta x <= sq_residual jay beta I -> x = I).
  { intros x Lx. destruct (components_optimal jay beta I x E) as (O1 & O2). apply O2. lra. }
  unfold np_inertia_components.
  assert (K : (exists a b c, beta = [a; b; c]) \/ matrix_I pinv (map beta_row beta) = Ok (pinv (map beta_row beta))).
  { destruct beta as [|a [|b [|c [|d k]]]]; [right; reflexivity..| |right; reflexivity]. left. eauto. }
  destruct K as [(a & b & c & Eb) | K].
  - rewrite Eb in *. clear Eb. cbn [map matrix_I]. destruct jay as [|x [|y [|z [|? ?]]]]; try discriminate.
    assert (D : det3 (mk33 (beta_row a) (beta_row b) (beta_row c)) <> 0).
    { intros Z. pose proof (gram_det_pos _ _ _ _ _ P S1 S2 S3) as G. apply G. revert Z. unfold gram. cbn [map m3_sum fold_right]. generalize (beta_row a) (beta_row b) (beta_row c). intros r s t Z.
      transitivity (det3 (mk33 r s t) ^ 2); [|rewrite Z; ring]. clear. unfold det3, outer. destruct r as [x1 x2 x3], s as [y1 y2 y3], t as [z1 z2 z3]. vsimpl. ring. }
    unfold inv_columns. rewrite rdiv_eq by exact D. cbn [bind length Nat.eqb]. f_equal. apply U. destruct (inv3 _ _ _ x y z _ D eq_refl) as (Q1 & Q2 & Q3). set (s := columns _ _) in *. clearbody s.
    replace (sq_residual [x; y; z] [a; b; c] s) with 0; [apply sum_over_nonneg; intros; apply pow2_ge_0|]. unfold sq_residual, sum_over. cbn [combine fold_right fst snd]. rewrite !row_moment, Q1, Q2, Q3. ring.
  - rewrite K. cbn [bind]. rewrite LC, map_length, L, Nat.eqb_refl. f_equal. apply U. rewrite <- !misfit_residual. apply (PI jay). rewrite map_length. exact L.
Qed.
Print Assumptions C15_numpy_inverse.
Lemma inverse_columns G f : (forall r, m3_app G (f r) = r) -> forall l jay, m3_app G (columns jay (map f l)) = columns jay l.
Proof.
  intros F. assert (A : forall u w, m3_app G (v3_add u w) = v3_add (m3_app G u) (m3_app G w)) by (intros [u1 u2 u3] [w1 w2 w3]; destruct G as [[g1 g2 g3] [h1 h2 h3] [k1 k2 k3]]; vsimpl; f_equal; ring).
  assert (B : forall t u, m3_app G (v3_scale t u) = v3_scale t (m3_app G u)) by (intros t [u1 u2 u3]; destruct G as [[g1 g2 g3] [h1 h2 h3] [k1 k2 k3]]; vsimpl; f_equal; ring).
  assert (Z : m3_app G (mk3 0 0 0) = mk3 0 0 0) by (clear; destruct G as [[g1 g2 g3] [h1 h2 h3] [k1 k2 k3]]; vsimpl; f_equal; ring).
  unfold columns, v3_sum. induction l as [|b l IH]; intros [|j jay]; cbn [map combine fold_right]; try exact Z. cbn [fst snd]. rewrite A, B, F, IH. reflexivity.
Qed.
(* the pseudo-inverse exists for all such axes (and for any others: PPinv.pseudo_inverse_exists) *)
Example C15_pseudo_inverse_exists : forall beta, ~ two_directions beta -> exists cols, pseudo_inverse (axis_rows beta) cols.
Proof.
  intros beta. rewrite axis_rows_model. intros N. destruct (three_directions beta N) as (b1 & b2 & b3 & rest & P & S1 & S2 & S3). pose proof (gram_det_pos _ _ _ _ _ P S1 S2 S3) as D.
  assert (F : exists f, forall r, m3_app (gram beta) (f r) = r).
  { exists (fun r => match solve3 (gram beta) r with Ok x => x | Err _ => r end). intros r. destruct (solve3_defined _ r D) as (x & E). rewrite E. exact (proj2 (solve3_ok _ _ _ E)). }
  destruct F as (f & F). exists (map f (map beta_row beta)). split; [apply map_length|]. intros jay L x y. rewrite map_length in L.
  assert (E : m3_app (gram beta) x = rhs jay beta).
  { unfold x, rhs. apply inverse_columns. exact F. }
  destruct (components_defined jay beta b1 b2 b3 rest L P S1 S2 S3) as (I & EI). destruct (components_ok _ _ _ EI) as (_ & _ & EG). assert (x = I) as -> by (apply (det3_inj (gram beta)); [exact D|congruence]).
  rewrite !misfit_residual. destruct (components_optimal jay beta I y EI) as (O1 & O2). split; [exact O1|]. intros Q. rewrite (O2 Q). lra.
Qed.

(* with axes in one or two directions only three measurements are refused; any other number
   is accepted although a different body with the same moments gets the same answer *)
Theorem C15_two_directions : forall pinv beta, pseudo_inverse (axis_rows beta) (pinv (axis_rows beta)) -> two_directions beta ->
  (length beta = 3%nat -> forall jay J, np_inertia_components pinv jay beta <> Ok J) /\
  (length beta <> 3%nat -> forall I, exists I' J, I' <> I /\ np_inertia_components pinv (moments_of I beta) beta = Ok J /\ np_inertia_components pinv (moments_of I' beta) beta = Ok J).
Proof.
  intros pinv beta. rewrite axis_rows_model. intros (LC & PI) (b1 & b2 & T). split.
  - intros L jay J H. destruct beta as [|a [|b [|c [|? ?]]]]; try discriminate. unfold np_inertia_components in H. cbn [map matrix_I] in H. apply bind_ok in H. destruct H as (cols & H & _). unfold inv_columns in H. apply bind_ok in H. destruct H as (d & H & _). apply rdiv_ok in H. destruct H as (D & _). apply D.
    assert (Z : forall x, In x [a; b; c] -> v3_dot (beta_row x) (unseen b1 b2) = 0) by (intros x X; rewrite unseen_dot; destruct (T x X) as [-> | ->]; ring).
    pose proof (Z a (or_introl eq_refl)) as Za. pose proof (Z b (or_intror (or_introl eq_refl))) as Zb. pose proof (Z c (or_intror (or_intror (or_introl eq_refl)))) as Zc. pose proof (unseen_not_zero b1 b2) as NZ.
    destruct (Req_EM_T (det3 (mk33 (beta_row a) (beta_row b) (beta_row c))) 0) as [E|E]; [exact E|]. exfalso. apply NZ. apply (det3_inj _ _ _ E). unfold m3_app. cbn [r1 r2 r3]. rewrite Za, Zb, Zc. unfold v3_dot. cbn [vx vy vz]. f_equal; ring.
  - intros L I. exists (v3_add I (unseen b1 b2)), (columns (moments_of I beta) (pinv (map beta_row beta))). rewrite (moments_unseen b1 b2 I beta T).
    assert (E : np_inertia_components pinv (moments_of I beta) beta = Ok (columns (moments_of I beta) (pinv (map beta_row beta)))).
    { unfold np_inertia_components. assert (K : matrix_I pinv (map beta_row beta) = Ok (pinv (map beta_row beta))) by (destruct beta as [|a [|b [|c [|d k]]]]; cbn [length] in L; try reflexivity; lia).
      rewrite K. cbn [bind]. rewrite LC, map_length. unfold moments_of. rewrite map_length, Nat.eqb_refl. reflexivity. }
    split; [|auto]. intros X. apply (unseen_not_zero b1 b2). revert X. generalize (unseen b1 b2). intros [k1 k2 k3] X. destruct I as [i1 i2 i3]. cbn in X. injection X as X1 X2 X3. f_equal; lra.
Qed.
Print Assumptions C15_two_directions.
(* two axes at right angles: the pseudo-inverse, and a body of which the product is lost *)
Example C15_two_axes : let rows := axis_rows [0; PI / 2] in pseudo_inverse rows rows /\ two_directions [0; PI / 2] /\ np_inertia_components (fun r => r) (moments_of (mk3 3 1 2) [0; PI / 2]) [0; PI / 2] = Ok (mk3 3 0 2).
Proof.
  assert (R1 : beta_row 0 = mk3 1 0 0) by (unfold beta_row; rewrite cos_0, sin_0; f_equal; ring). assert (R2 : beta_row (PI / 2) = mk3 0 0 1) by (unfold beta_row; rewrite cos_PI2, sin_PI2; f_equal; ring).
  cbv zeta. rewrite axis_rows_model. cbn [map]. rewrite R1, R2. split; [|split].
  - split; [reflexivity|]. intros [|j [|k [|? ?]]] L; try discriminate. intros x [y1 y2 y3].
    assert (X : x = mk3 j 0 k) by (unfold x; cbn [combine map fold_right fst snd]; vsimpl; f_equal; ring). rewrite X. clear x X. unfold misfit, sum_over. cbn [combine fold_right fst snd]. vsimpl.
    replace ((j - (1 * j + 0 * 0 + 0 * k)) ^ 2 + ((k - (0 * j + 0 * 0 + 1 * k)) ^ 2 + 0)) with 0 by ring. replace ((j - (1 * y1 + 0 * y2 + 0 * y3)) ^ 2 + ((k - (0 * y1 + 0 * y2 + 1 * y3)) ^ 2 + 0)) with ((j - y1) ^ 2 + (k - y3) ^ 2) by ring.
    pose proof (pow2_ge_0 (j - y1)). pose proof (pow2_ge_0 (k - y3)). pose proof (pow2_ge_0 y2). split; [lra|]. intros Q. assert (A : (j - y1) ^ 2 = 0) by lra. assert (B : (k - y3) ^ 2 = 0) by lra. rewrite <- Rsqr_pow2 in A, B. apply Rsqr_0_uniq in A, B. replace j with y1 by lra. replace k with y3 by lra. lra.
  - exists 0, (PI / 2). intros b [<-|[<-|[]]]; [left|right]; replace (_ - _) with 0 by ring; apply sin_0.
  - unfold np_inertia_components, moments_of. cbn [map]. rewrite !row_moment, R1, R2. cbn [matrix_I bind length Nat.eqb]. unfold columns, v3_sum. cbn [combine map fold_right]. vsimpl. apply f_equal. apply vec3_ext; vsimpl; ring.
Qed.
(* every planar body is recovered exactly if and only if the axes have three directions *)
Theorem C15_recovers_iff : forall pinv beta, pseudo_inverse (axis_rows beta) (pinv (axis_rows beta)) ->
  ((forall I, np_inertia_components pinv (moments_of I beta) beta = Ok I) <-> ~ two_directions beta).
Proof.
  intros pinv beta PI. split.
  - intros A T. destruct (C15_two_directions pinv beta PI T) as (T1 & T2). destruct (Nat.eq_dec (length beta) 3) as [L|L]; [exact (T1 L _ _ (A (mk3 0 0 0)))|].
    destruct (T2 L (mk3 0 0 0)) as (I' & J & N & E1 & E2). rewrite A in E1, E2. congruence.
  - intros N I. destruct (C15_numpy_inverse pinv (moments_of I beta) beta PI (map_length _ _) N) as (J & E1 & E2). rewrite E1. f_equal. exact (C15_exact_recovery beta I J E2).
Qed.
Print Assumptions C15_recovers_iff.
