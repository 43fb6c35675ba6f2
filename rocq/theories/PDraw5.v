(* PDraw5.v -- the inertia ellipse of Bicycle.plot_bicycle_geometry *)
From Coq Require Import Lra Permutation Sorted.
From Verif Require Import Base MString MBicycle MVec MInertia MGeometry MIo MRider MMain MPlot MSets MDraw PBase SBicycle PBicycle SInertia PInertia PInertia3 SGeometry PGeometry SDraw PDraw PDraw2 PDraw3 MDraw2 SDraw2.
Local Open Scope string_scope.
Local Open Scope R_scope.

Lemma perm3 {A} (s : list A) a b c : Permutation s [a; b; c] ->
  s = [a; b; c] \/ s = [a; c; b] \/ s = [b; a; c] \/ s = [b; c; a] \/ s = [c; a; b] \/ s = [c; b; a].
Proof.
  intros P. destruct s as [|x s]; [apply Permutation_nil in P; discriminate|].
  assert (I : In x [a; b; c]) by (eapply Permutation_in; [exact P|left; reflexivity]).
  destruct I as [<-|[<-|[<-|[]]]].
  - apply Permutation_cons_inv, Permutation_sym, Permutation_length_2_inv in P. destruct P as [-> | ->]; auto.
  - assert (Q : Permutation (b :: s) (b :: [a; c])) by (eapply perm_trans; [exact P|apply perm_swap]).
    apply Permutation_cons_inv, Permutation_sym, Permutation_length_2_inv in Q. destruct Q as [-> | ->]; auto.
  - assert (Q : Permutation (c :: s) (c :: [a; b])).
    { eapply perm_trans; [exact P|]. eapply perm_trans; [apply perm_skip, perm_swap|apply perm_swap]. }
    apply Permutation_cons_inv, Permutation_sym, Permutation_length_2_inv in Q. destruct Q as [-> | ->]; auto 6.
Qed.
Definition row_match (r : vec3) : bool := Rltb (Rabs ((vx r - 0) + (vy r - 1) + (vz r - 0))) (1 / 10 ^ 10).
Lemma find3 a b c y : find_yrow [a; b; c] y = if row_match c then Some 2%nat else if row_match b then Some 1%nat else if row_match a then Some 0%nat else y.
Proof. unfold find_yrow, row_match. cbn [length seq combine fold_left]. repeat match goal with |- context [Rltb ?x ?y] => destruct (Rltb x y) end; reflexivity. Qed.
Lemma match_y : row_match (mk3 0 1 0) = true.
Proof. unfold row_match, Rltb. cbn [vx vy vz]. destruct (Rlt_dec _ _) as [|N]; [reflexivity|]. exfalso. apply N. replace (0 - 0 + (1 - 1) + (0 - 0)) with 0 by ring. rewrite Rabs_R0. lra. Qed.
Lemma match_plane u : vy u = 0 -> 1 / 10 ^ 10 <= Rabs (vx u + vz u - 1) -> row_match u = false.
Proof.
  intros Y H. unfold row_match, Rltb. destruct (Rlt_dec _ _) as [L|]; [|reflexivity]. exfalso. rewrite Y in L.
  replace (vx u - 0 + (0 - 1) + (vz u - 0)) with (vx u + vz u - 1) in L by ring. lra.
Qed.
Lemma axes_sorted eig I l axes : eig_returns eig I l -> principal_axes eig I = Ok axes -> axes = sort_by l.
Proof.
  unfold eig_returns, principal_axes. destruct l as [|[e1 v1] [|[e2 v2] [|[e3 v3] [|]]]]; try contradiction. intros E. rewrite E. cbn [bind fst snd vx vy vz].
  intros H. assert (axes = sort_by [(e1, r1 (m3_T (m3_T (mk33 v1 v2 v3)))); (e2, r2 (m3_T (m3_T (mk33 v1 v2 v3)))); (e3, r3 (m3_T (m3_T (mk33 v1 v2 v3))))]) by congruence.
  subst axes. f_equal. destruct v1, v2, v3; reflexivity.
Qed.
Lemma axes_eval eig I l : eig_returns eig I l -> principal_axes eig I = Ok (sort_by l).
Proof.
  intros H. destruct (principal_axes eig I) as [a|e] eqn:E; [f_equal; eapply axes_sorted; eassumption|].
  exfalso. unfold eig_returns in H. unfold principal_axes in E. destruct l as [|? [|? [|? [|]]]]; try contradiction. rewrite H in E. discriminate.
Qed.
(* sorting and removing the y row leaves the two plane axes in order *)
Lemma split_rows eig I l y e0 e1 u v yrow : eig_returns eig I l -> Permutation l [(y, mk3 0 1 0); (e0, u); (e1, v)] -> e0 < e1 ->
  row_match u = false -> row_match v = false ->
  exists axes k, principal_axes eig I = Ok axes /\ find_yrow (map snd axes) yrow = Some k /\ delete_nth k axes = [(e0, u); (e1, v)].
Proof.
  intros ER P LT MU MV. rewrite (axes_eval eig I l ER). exists (sort_by l).
  assert (Q : Permutation (sort_by l) [(y, mk3 0 1 0); (e0, u); (e1, v)]) by (eapply perm_trans; [apply sort_by_perm|exact P]).
  pose proof (sort_by_sorted l) as S. apply perm3 in Q.
  assert (NS : forall a b c : R * vec3, StronglySorted (fun a b => fst a <= fst b) [a; b; c] -> fst a <= fst b /\ fst a <= fst c /\ fst b <= fst c).
  { intros a b c H. inversion H as [|? ? H1 H2]; subst. inversion H1 as [|? ? H3 H4]; subst. inversion H2 as [|? ? H5 H6]; subst. inversion H6; subst. inversion H4; subst. auto. }
  destruct Q as [E|[E|[E|[E|[E|E]]]]]; rewrite E in *; apply NS in S; cbn [fst] in S; try lra;
    eexists; (split; [reflexivity|]); cbn [map snd]; rewrite find3, MU, MV, match_y; (split; [reflexivity|]); reflexivity.
Qed.

Lemma unit_angle c s : c ^ 2 + s ^ 2 = 1 -> exists t, c = cos t /\ s = sin t.
Proof. intros H. exists (npatan2 s c). destruct (atan2_unit c s H) as [-> ->]. auto. Qed.

(* the ellipse with the given semi-axes along u and its normal is a level curve *)
Lemma ellipse_level a b d e0 e1 ux uz wd ht (c q : pt) : 0 < e0 -> 0 < e1 -> ux ^ 2 + uz ^ 2 = 1 ->
  (forall x z, a * x ^ 2 + 2 * b * x * z + d * z ^ 2 = e0 * (ux * x + uz * z) ^ 2 + e1 * (- uz * x + ux * z) ^ 2) ->
  0 < wd -> 0 < ht -> e0 * wd ^ 2 = e1 * ht ^ 2 ->
  ((exists t, q = plus2 c (plus2 (times2 (wd / 2 * cos t) (ux, - uz)) (times2 (ht / 2 * sin t) (uz, ux)))) <->
   let x := fst q - fst c in let z := - (snd q - snd c) in a * x ^ 2 + 2 * b * x * z + d * z ^ 2 = e0 * (wd / 2) ^ 2).
Proof.
  intros P0 P1 U F W H E. split.
  - intros [t ->]. cbv zeta. rewrite F. unfold plus2, times2. cbn [fst snd].
    replace (ux * (fst c + (wd / 2 * cos t * ux + ht / 2 * sin t * uz) - fst c) + uz * - (snd c + (wd / 2 * cos t * - uz + ht / 2 * sin t * ux) - snd c))
      with (wd / 2 * cos t * (ux ^ 2 + uz ^ 2)) by ring.
    replace (- uz * (fst c + (wd / 2 * cos t * ux + ht / 2 * sin t * uz) - fst c) + ux * - (snd c + (wd / 2 * cos t * - uz + ht / 2 * sin t * ux) - snd c))
      with (- (ht / 2 * sin t) * (ux ^ 2 + uz ^ 2)) by ring.
    rewrite U. transitivity ((e0 * wd ^ 2) / 4 * cos t ^ 2 + (e1 * ht ^ 2) / 4 * sin t ^ 2); [field|]. rewrite <- E.
    pose proof (sc1 t) as S. transitivity (e0 * wd ^ 2 / 4 * (sin t * sin t + cos t * cos t)); [field|rewrite S; field].
  - cbv zeta. set (x := fst q - fst c). set (z := - (snd q - snd c)). rewrite F. intros K.
    set (al := ux * x + uz * z) in *. set (be := - uz * x + ux * z) in *.
    destruct (unit_angle (al / (wd / 2)) (- be / (ht / 2))) as (t & C & S).
    { apply (Rmult_eq_reg_l (e0 * (wd / 2) ^ 2)); [|apply Rmult_integral_contrapositive_currified; [lra|apply pow_nonzero; lra]].
      transitivity (e0 * al ^ 2 + (e0 * wd ^ 2) / ht ^ 2 * be ^ 2); [field; lra|]. rewrite E.
      transitivity (e0 * al ^ 2 + e1 * be ^ 2); [field; lra|]. rewrite K. ring. }
    exists t. rewrite <- C, <- S. unfold plus2, times2. cbn [fst snd]. rewrite (surjective_pairing q). apply pt_eq.
    + replace (wd / 2 * (al / (wd / 2)) * ux + ht / 2 * (- be / (ht / 2)) * uz) with (al * ux - be * uz) by (field; lra).
      unfold al, be. transitivity (fst c + (ux ^ 2 + uz ^ 2) * x); [rewrite U; unfold x; ring|ring].
    + replace (wd / 2 * (al / (wd / 2)) * - uz + ht / 2 * (- be / (ht / 2)) * ux) with (- (al * uz + be * ux)) by (field; lra).
      unfold al, be. transitivity (snd c - (ux ^ 2 + uz ^ 2) * z); [rewrite U; unfold z; ring|ring].
Qed.
(* level curves of a form and of its mirror image differ unless the form is diagonal *)
Lemma mirror_differs a b d k k' : (forall x z, (x, z) <> (0, 0) -> 0 < a * x ^ 2 + 2 * b * x * z + d * z ^ 2) -> 0 < k -> b <> 0 ->
  ~ (forall x z, a * x ^ 2 + 2 * b * x * - z + d * z ^ 2 = k <-> a * x ^ 2 + 2 * b * x * z + d * z ^ 2 = k').
Proof.
  intros PD K NB H.
  assert (SC : forall x z, (x, z) <> (0, 0) -> exists s, 0 < s /\ s ^ 2 * (a * x ^ 2 + 2 * b * x * - z + d * z ^ 2) = k).
  { intros x z N. assert (P : 0 < a * x ^ 2 + 2 * b * x * - z + d * z ^ 2).
    { replace (a * x ^ 2 + 2 * b * x * - z + d * z ^ 2) with (a * x ^ 2 + 2 * b * x * (- z) + d * (- z) ^ 2) by ring. apply PD. intros E. apply N. injection E as E1 E2. apply pt_eq; lra. }
    set (f := a * x ^ 2 + 2 * b * x * - z + d * z ^ 2) in *. exists (sqrt (k / f)). split; [apply sqrt_lt_R0, Rdiv_lt_0_compat; assumption|].
    rewrite pow2_sqrt; [field; lra|]. left. apply Rdiv_lt_0_compat; assumption. }
  assert (A : k' = k).
  { destruct (SC 1 0) as (s & PS & E); [intros Q; injection Q; lra|]. pose proof (proj1 (H (s * 1) (s * 0)) ltac:(rewrite <- E; ring)) as Q. rewrite <- Q, <- E. ring. }
  destruct (SC 1 1) as (s & PS & E); [intros Q; injection Q; lra|]. pose proof (proj1 (H (s * 1) (s * 1)) ltac:(rewrite <- E; ring)) as Q.
  rewrite A in Q. rewrite <- Q in E. assert (E2 : s ^ 2 * (4 * b) = 0) by lra.
  apply Rmult_integral in E2. destruct E2 as [E2|E2]; [|lra]. assert (0 < s ^ 2) by (apply pow_lt; exact PS). lra.
Qed.

Lemma centre_eval par X c :
  (if String.eqb X "R" then rR <- dlook par "rR" ;; Ok (0, rR)
   else if is_front_wheel X then w <- dlook par "w" ;; rF <- dlook par "rF" ;; Ok (w, rF)
   else x <- dlook par ("x" ++ X) ;; z <- dlook par ("z" ++ X) ;; Ok (x, - z)) = Ok c -> c = plot_centre par X.
Proof.
  unfold plot_centre, is_front_wheel. cbn [smem existsb]. rewrite orb_false_r. destruct (String.eqb X "R").
  - intros H. step_bind H. apply pv_of_dlook in E. congruence.
  - destruct (String.eqb X "F" || String.eqb X "D"); intros H; step_bind H; step_bind H; apply pv_of_dlook in E, E0; congruence.
Qed.
Lemma racos_ok x a : racos x = Ok a <-> Rabs x <= 1 /\ a = acos x.
Proof. unfold racos. destruct (Rlt_dec 1 (Rabs x)); split; intros H; try discriminate; [destruct H; lra| |destruct H as [_ ->]; reflexivity]. injection H as <-. split; [lra|reflexivity]. Qed.

(* what the two remaining rows give *)
Lemma ellipse_rows eig par X yrow y' c wd ht ang axes k e0 e1 u v :
  inertia_ellipse eig par X yrow = Ok (y', (c, wd, ht, ang)) ->
  (forall I, part_inertia_tensor par X = Ok I -> principal_axes eig I = Ok axes) ->
  find_yrow (map snd axes) yrow = Some k -> delete_nth k axes = [(e0, u); (e1, v)] ->
  c = plot_centre par X /\ 0 < e0 /\ 0 < e1 /\ wd = e1 / 2 /\ 0 < ht /\ e0 * wd ^ 2 = e1 * ht ^ 2 /\
  Rabs (vx u) <= 1 /\ ang = - (acos (vx u) * 180 / PI).
Proof.
  intros H AX FY DN. unfold inertia_ellipse in H. step_bind H. step_bind H. step_bind H.
  rewrite (AX _ E) in E0. assert (x0 = axes) by congruence. subst x0. clear E0. apply centre_eval in E1. subst x1.
  cbv zeta in H. rewrite FY, DN in H. unfold index in H. cbn [nth_error bind fst snd] in H.
  step_bind H. step_bind H. step_bind H. step_bind H. step_bind H.
  assert (EQ : (Some k, (plot_centre par X, e1 * (x2 * x0), e1 * (x3 * x0), - (x4 * 180 / PI))) = (y', (c, wd, ht, ang))) by congruence. clear H.
  apply npsqrt_ok in E0, E1. destruct E0 as [P0 S0], E1 as [P1 S1]. apply rdiv_ok in E2, E3. destruct E2 as [N0 ->], E3 as [N1 ->]. apply racos_ok in E4. destruct E4 as [A ->].
  assert (0 < x0) by lra. assert (0 < x1) by lra. assert (E0P : 0 < e0) by (rewrite <- S0; apply pow_lt; assumption). assert (E1P : 0 < e1) by (rewrite <- S1; apply pow_lt; assumption).
  injection EQ as _ <- <- <- <-. repeat split; try assumption; try reflexivity.
  - field. exact N0.
  - repeat apply Rmult_lt_0_compat; try assumption; try lra. apply Rinv_0_lt_compat. assumption.
  - rewrite <- S0, <- S1. field. auto.
Qed.

Lemma ellipse_shape par X c wd ht ang e0 e1 u v : plane_axis par X e0 u -> plane_axis par X e1 v -> vx u * vz v - vx v * vz u <> 0 ->
  c = plot_centre par X -> 0 < e0 -> 0 < e1 -> wd = e1 / 2 -> 0 < ht -> e0 * wd ^ 2 = e1 * ht ^ 2 -> Rabs (vx u) <= 1 -> ang = - (acos (vx u) * 180 / PI) ->
  let k := e0 * (e1 / 4) ^ 2 in 0 < k /\
  (0 <= vz u -> forall q, on_ellipse c wd ht ang q <-> momental par X k q) /\
  (vz u <= 0 -> forall q, on_ellipse c wd ht ang q <-> momental par X k (mirrored par X q)).
Proof.
  intros (Y0 & U0 & A0 & B0) (Y1 & U1 & A1 & B1) ID -> P0 P1 EW H EQ AB EA k.
  unfold sqnorm in U0, U1. rewrite Y0 in U0. rewrite Y1 in U1.
  destruct (eig2_other (Ixx_of par X) (Ixz_of par X) (Izz_of par X) e1 e0 (vx v) (vz v) (vx u) (vz u)) as (EAA & EBB & EDD); try assumption; try lra.
  set (ux := vx u) in *. set (uz := vz u) in *.
  assert (UU : ux ^ 2 + uz ^ 2 = 1) by lra.
  assert (TH : ang * PI / 180 = - acos ux) by (rewrite EA; field; apply PI_neq0).
  assert (BND : -1 <= ux <= 1) by (split; pose proof (Rle_abs ux); pose proof (Rle_abs (- ux)); rewrite Rabs_Ropp in *; lra).
  assert (CC : cos (- acos ux) = ux) by (rewrite cos_neg; apply cos_acos; exact BND).
  assert (SS : sin (- acos ux) = - Rabs uz).
  { rewrite sin_neg, sin_acos by exact BND. f_equal. replace (1 - ux²) with (uz²) by (unfold Rsqr; lra). apply sqrt_Rsqr_abs. }
  assert (WP : 0 < wd) by lra.
  assert (KK : e0 * (wd / 2) ^ 2 = k) by (unfold k; rewrite EW; field).
  assert (OE : forall q, on_ellipse (plot_centre par X) wd ht ang q <->
     exists t, q = plus2 (plot_centre par X) (plus2 (times2 (wd / 2 * cos t) (ux, - Rabs uz)) (times2 (ht / 2 * sin t) (Rabs uz, ux)))).
  { intros q. unfold on_ellipse. cbv zeta. rewrite TH, CC, SS, Ropp_involutive. reflexivity. }
  split; [unfold k; apply Rmult_lt_0_compat; [assumption|apply pow_lt; lra]|]. split.
  - intros S q. rewrite OE. rewrite (Rabs_right uz) by lra.
    rewrite (ellipse_level (Ixx_of par X) (Ixz_of par X) (Izz_of par X) e0 e1 ux uz wd ht (plot_centre par X) q P0 P1 UU); try assumption.
    + rewrite KK. unfold momental, inplane. reflexivity.
    + intros x z. rewrite EAA, EBB, EDD. ring.
  - intros S q. rewrite OE. rewrite (Rabs_left1 uz) by lra.
    rewrite (ellipse_level (Ixx_of par X) (- Ixz_of par X) (Izz_of par X) e0 e1 ux (- uz) wd ht (plot_centre par X) q P0 P1); try assumption.
    + rewrite KK. unfold momental, inplane, mirrored. cbv zeta. cbn [fst snd].
      match goal with |- ?l = k <-> ?r = k => replace r with l; [reflexivity|ring] end.
    + lra.
    + intros x z. rewrite EAA, EBB, EDD. ring.
Qed.
