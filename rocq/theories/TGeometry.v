(* TGeometry.v -- property theorems C08, C19-C25 about geometry.py and com.py *)
From Verif Require Import Base MString PBase MBicycle MVec MInertia MGeometry SBicycle SInertia SGeometry PBicycle PInertia PString PGeometry PGeometry2 PGeometry3 TBicycle TInertia.
From Coq Require Import Lra Permutation Sorted ZArith.
Local Open Scope string_scope.
Local Open Scope R_scope.

(* ---------------- C08 ---------------- *)
(* offsets (a, b, c) from the table measurements of mp *)
Notation measured_abc mp := (calculate_abc_geometry (pv mp "h1") (pv mp "h2") (pv mp "h3") (pv mp "h4") (pv mp "h5")
  (pv mp "d1") (pv mp "d2") (pv mp "d3") (pv mp "d4") (pv mp "d")).
(* For every root finder, with the residual e it stops at: the front wheel centre is
   exactly b ahead of the steer axis; the rear wheel centre is a behind it and the
   centres are c apart along it up to the residual. *)
Theorem C08_closure_up_to_residual : forall newton mp par p a b c,
  ~ In "w" (dkeys mp) -> measured_abc mp = Ok (a, b, c) -> calculate_benchmark_geometry newton mp par = Ok p ->
  (exists e, lam_equality (pv p "lam") (pv p "rF") (pv p "rR") a b c = Ok e) ->
  exists e, lam_equality (pv p "lam") (pv p "rF") (pv p "rR") a b c = Ok e /\
    ahead (pv p "w") (pv p "c") (pv p "lam") (pv p "w") (- pv p "rF") = b /\
    ahead (pv p "w") (pv p "c") (pv p "lam") 0 (- pv p "rR") = - a + (a + b) * e * sin (pv p "lam") /\
    along (pv p "lam") (pv p "w") (- pv p "rF") - along (pv p "lam") 0 (- pv p "rR") = c + (a + b) * e * cos (pv p "lam").
Proof.
  intros newton mp par p a b c NW HA H [e He]. exists e. split; [exact He|].
  apply geom_inv in H. destruct H as (rF & rR & lam & w & fo & ct & cm & _ & _ & _ & _ & T & P1 & P2 & P3 & P4 & P5 & _ & D).
  unfold pv in *. rewrite P1, P2, P3, P4, P5 in *.
  destruct D as [(M & _)|(_ & a' & b' & c' & HA' & HL & -> & ->)].
  - exfalso. apply NW. apply dget_some_in. unfold dmem in M. destruct (dget mp "w"); [eauto | discriminate].
  - rewrite HA in HA'. injection HA' as <- <- <-. exact (closure _ _ _ _ _ _ _ _ _ He T).
Qed.
Print Assumptions C08_closure_up_to_residual.
Theorem C08_closure : forall newton mp par p a b c,
  (forall f x0 x, newton f x0 = Ok x -> f x = Ok 0) ->
  ~ In "w" (dkeys mp) -> measured_abc mp = Ok (a, b, c) -> calculate_benchmark_geometry newton mp par = Ok p ->
  ahead (pv p "w") (pv p "c") (pv p "lam") (pv p "w") (- pv p "rF") = b /\
  ahead (pv p "w") (pv p "c") (pv p "lam") 0 (- pv p "rR") = - a /\
  along (pv p "lam") (pv p "w") (- pv p "rF") - along (pv p "lam") 0 (- pv p "rR") = c.
Proof.
  intros newton mp par p a b c NR NW HA H.
  assert (He : lam_equality (pv p "lam") (pv p "rF") (pv p "rR") a b c = Ok 0).
  { pose proof H as H'. apply geom_inv in H'. destruct H' as (rF & rR & lam & w & fo & ct & cm & _ & _ & _ & _ & T & P1 & P2 & P3 & P4 & P5 & _ & D).
    unfold pv in *. rewrite P1, P2, P3. destruct D as [(M & _)|(_ & a' & b' & c' & HA' & HL & _)].
    - exfalso. apply NW. apply dget_some_in. unfold dmem in M. destruct (dget mp "w"); [eauto | discriminate].
    - rewrite HA in HA'. injection HA' as <- <- <-. unfold lambda_from_abc in HL. apply bind_ok in HL. destruct HL as (t & _ & HL). apply NR in HL. exact HL. }
  destruct (C08_closure_up_to_residual newton mp par p a b c NW HA H (ex_intro _ 0 He)) as (e & E & A1 & A2 & A3).
  rewrite He in E. injection E as <-. repeat split; lra.
Qed.
Print Assumptions C08_closure.
(* radii from rolled distances, and nothing else of par is touched *)
Theorem C08_radii_and_frame : forall newton mp par p, calculate_benchmark_geometry newton mp par = Ok p ->
  pv mp "nF" * (2 * PI * pv p "rF") = pv mp "dF" /\ pv mp "nR" * (2 * PI * pv p "rR") = pv mp "dR" /\
  (forall k, ~ In k ["rF"; "rR"; "lam"; "w"; "c"; "xcl"; "zcl"] -> dget p k = dget par k).
Proof.
  intros newton mp par p H. apply geom_inv in H.
  destruct H as (rF & rR & lam & w & fo & ct & cm & N1 & N2 & Q1 & Q2 & T & P1 & P2 & P3 & P4 & P5 & F & _).
  unfold pv in *. rewrite P1, P2. split; [|split; [|exact F]]; [rewrite Q1 | rewrite Q2]; field; split; auto using PI_neq0.
Qed.
Print Assumptions C08_radii_and_frame.
(* the other way of measuring: wheelbase, head angle gamma in degrees and fork offset *)
Theorem C08_direct_measurement : forall newton mp par p, In "w" (dkeys mp) -> calculate_benchmark_geometry newton mp par = Ok p ->
  pv p "w" = pv mp "w" /\ pv p "lam" = PI / 2 - pv mp "gamma" * PI / 180 /\
  ahead (pv p "w") (pv p "c") (pv p "lam") (pv p "w") (- pv p "rF") = pv mp "f".
Proof.
  intros newton mp par p W H. apply geom_inv in H.
  destruct H as (rF & rR & lam & w & fo & ct & cm & N1 & N2 & Q1 & Q2 & T & P1 & P2 & P3 & P4 & P5 & F & D).
  destruct D as [(_ & L & W' & FO)|(M & _)].
  - unfold pv in *. rewrite P1, P3, P4, P5. apply trail_ok in T. destruct T as (C & T & _). split; [exact W'|]. split; [rewrite L; field|].
    unfold ahead. rewrite <- FO. transitivity (- (ct * cos lam) + rF * sin lam); [ring|]. rewrite T. ring.
  - apply dget_some_in in W. destruct W as [v W]. unfold dmem in M. rewrite W in M. discriminate.
Qed.
Print Assumptions C08_direct_measurement.
(* where the root is: exactly one within a quarter turn of the starting point, none
   when the wheels cannot fit *)
Theorem C08_root_location : forall rF rR a b c, 0 < a + b ->
  let reach := sqrt ((a + b) ^ 2 + c ^ 2) in let guess := atan (c / (a + b)) in
  (Rabs (rF - rR) <= reach ->
     exists lam, lam_equality lam rF rR a b c = Ok 0 /\ Rabs (lam - guess) <= PI / 2 /\
       forall lam', lam_equality lam' rF rR a b c = Ok 0 -> Rabs (lam' - guess) <= PI / 2 -> lam' = lam) /\
  (reach < Rabs (rF - rR) -> forall lam, lam_equality lam rF rR a b c <> Ok 0).
Proof. exact lam_root_unique. Qed.
Print Assumptions C08_root_location.
Theorem C08_solver_failure_propagates : forall newton rF rR a b c,
  (a + b = 0 -> lambda_from_abc newton rF rR a b c = Err ZeroDivisionError) /\
  (forall e, a + b <> 0 -> newton (fun lam => lam_equality lam rF rR a b c) (atan (c / (a + b))) = Err e ->
     lambda_from_abc newton rF rR a b c = Err e) /\
  (forall lam, lambda_from_abc newton rF rR a b c = Ok lam ->
     newton (fun lam => lam_equality lam rF rR a b c) (atan (c / (a + b))) = Ok lam).
Proof.
  intros. unfold lambda_from_abc. repeat split.
  - intros Z. unfold rdiv. destruct (Req_EM_T (a + b) 0); [reflexivity | contradiction].
  - intros e N H. rewrite rdiv_eq by exact N. exact H.
  - intros lam H. apply bind_ok in H. destruct H as (t & Ht & H). apply rdiv_ok in Ht. destruct Ht as [_ ->]. exact H.
Qed.
Print Assumptions C08_solver_failure_propagates.
(* a 1 m long bicycle with equal wheels: the starting point is the root *)
Definition meas08 : dict R :=
  [("dF", 2 * PI); ("nF", 3); ("dR", 2 * PI); ("nR", 3); ("h1", 9/10); ("h2", 0); ("h3", 0); ("h4", 1/10); ("h5", 0);
   ("d1", 0); ("d2", 0); ("d3", 0); ("d4", 0); ("d", 1)].
Example C08_hypotheses_met : exists newton p, (forall f x0 x, newton f x0 = Ok x -> f x = Ok 0) /\
  ~ In "w" (dkeys meas08) /\ measured_abc meas08 = Ok (9/10, 1/10, 6/10) /\ calculate_benchmark_geometry newton meas08 [] = Ok p.
Proof.
  exists (fun f x0 => match f x0 with Ok y => if Req_EM_T y 0 then Ok x0 else Err RuntimeError | Err e => Err e end).
  assert (A : measured_abc meas08 = Ok (9/10, 1/10, 6/10)) by (apply abc_spec; unfold meas08, pv; cbn [dget String.eqb Ascii.eqb Bool.eqb]; repeat split; lra).
  assert (R0 : forall r, lam_equality (atan (6/10)) r r (9/10) (1/10) (6/10) = Ok 0).
  { intros r. assert (P : 0 < 9/10 + 1/10) by lra. apply (lam_roots r r (9/10) (1/10) (6/10) P).
    replace (atan (6 / 10 / (9/10 + 1/10))) with (atan (6/10)) by (f_equal; field). rewrite Rminus_diag_eq by reflexivity. rewrite sin_0. ring. }
  eexists. split; [|split; [|split; [exact A|]]].
  - intros f x0 x H. destruct (f x0) as [y|] eqn:E; [|discriminate]. destruct (Req_EM_T y 0); [|discriminate]. injection H as <-. congruence.
  - cbn [dkeys meas08 map fst In]. intuition discriminate.
  - unfold calculate_benchmark_geometry. change (dmem meas08 "w") with false. cbv iota.
    assert (L : forall k, In k (dkeys meas08) -> dlook meas08 k = Ok (pv meas08 k)) by apply dlook_pv.
    rewrite !L by (cbn [dkeys meas08 map fst In]; tauto). cbn [bind].
    rewrite !rdiv_eq by (unfold meas08, pv; cbn [dget String.eqb Ascii.eqb Bool.eqb]; lra). cbn [bind].
    rewrite A. cbn [bind].
    assert (Q : pv meas08 "dF" / 2 / PI / pv meas08 "nF" = pv meas08 "dR" / 2 / PI / pv meas08 "nR") by reflexivity.
    rewrite <- Q. set (r := pv meas08 "dF" / 2 / PI / pv meas08 "nF"). unfold lambda_from_abc.
    rewrite rdiv_eq by lra. cbn [bind].
    replace (atan (6 / 10 / (9/10 + 1/10))) with (atan (6/10)) by (f_equal; field). rewrite R0.
    destruct (Req_EM_T 0 0); [|contradiction]. cbn [bind]. unfold trail. rewrite rdiv_eq; [cbn [bind]; reflexivity|].
    rewrite cos_atan. intros Z. assert (0 < 1 / sqrt (1 + (6 / 10)²)); [|lra]. apply Rdiv_lt_0_compat; [lra|]. apply sqrt_lt_R0. unfold Rsqr. lra.
Qed.

(* ---------------- C19 ---------------- *)
Theorem C19_lexicographic_enumeration : forall A (zero : A) arrays,
  arrays <> [] -> Forall (fun a => a <> []) arrays -> cartesian zero arrays = Ok (lex arrays).
Proof. exact @cartesian_into_lex. Qed.
Print Assumptions C19_lexicographic_enumeration.
(* [lex] said differently: exactly the choices, prod(sizes) rows, each once, and row
   i * (rows of the rest) + j is the i-th choice of the first array followed by row j *)
Theorem C19_rows_are_choices : forall A (zero : A) arrays rows,
  arrays <> [] -> Forall (fun a => a <> []) arrays -> cartesian zero arrays = Ok rows ->
  length rows = fold_right (fun a n => length a * n)%nat 1%nat arrays /\
  (forall t, In t rows <-> Forall2 (fun x a => In x a) t arrays) /\
  (Forall (@NoDup A) arrays -> NoDup rows).
Proof.
  intros A zero arrays rows N F H. rewrite C19_lexicographic_enumeration in H by assumption. injection H as <-.
  split; [apply lex_length|]. split; [apply lex_in | apply lex_nodup].
Qed.
Print Assumptions C19_rows_are_choices.
Theorem C19_row_order : forall A (zero : A) a rest block rows i j,
  rest <> [] -> Forall (fun a => a <> []) (a :: rest) -> cartesian zero rest = Ok block -> cartesian zero (a :: rest) = Ok rows ->
  (i < length a)%nat -> (j < length block)%nat ->
  nth (i * length block + j) rows [] = nth i a zero :: nth j block [].
Proof.
  intros A zero a rest block rows i j N F HB HR Hi Hj. inversion F; subst.
  rewrite C19_lexicographic_enumeration in HB, HR by (assumption || discriminate). injection HB as <-. injection HR as <-.
  rewrite lex_length in *. apply lex_positions; assumption.
Qed.
Print Assumptions C19_row_order.
Theorem C19_no_arrays : forall A (zero : A), cartesian zero [] = Err IndexError.
Proof. reflexivity. Qed.
Print Assumptions C19_no_arrays.
Example C19_docstring : cartesian 0%nat [[1;2;3]; [4;5]; [6;7]]%nat =
  Ok [[1;4;6];[1;4;7];[1;5;6];[1;5;7];[2;4;6];[2;4;7];[2;5;6];[2;5;7];[3;4;6];[3;4;7];[3;5;6];[3;5;7]]%nat.
Proof. reflexivity. Qed.

(* ---------------- C20 ---------------- *)
Theorem C20_exact_for_concurrent_lines : forall slopes intercepts p,
  length slopes = length intercepts -> (2 <= length slopes)%nat -> NoDup slopes ->
  (forall s b, In (s, b) (combine slopes intercepts) -> on2 s b p) ->
  center_of_mass slopes intercepts = Ok p.
Proof. exact com_exact. Qed.
Print Assumptions C20_exact_for_concurrent_lines.
Theorem C20_mean_of_pairwise_intersections : forall slopes intercepts x z, length slopes = length intercepts ->
  (center_of_mass slopes intercepts = Ok (x, z) <->
   exists pts, Forall2 meet_at (ordered_pairs (combine slopes intercepts)) pts /\ pts <> [] /\
     x = mean (map fst pts) /\ z = mean (map snd pts)).
Proof. exact com_mean. Qed.
Print Assumptions C20_mean_of_pairwise_intersections.
Theorem C20_intersections_unique : forall pr q q', meet_at pr q -> meet_at pr q' -> q = q'.
Proof. exact com_unique_point. Qed.
Print Assumptions C20_intersections_unique.
Theorem C20_order_of_lines_irrelevant : forall sl ic sl' ic' q, length sl = length ic -> length sl' = length ic' ->
  Permutation (combine sl ic) (combine sl' ic') -> center_of_mass sl ic = Ok q -> center_of_mass sl' ic' = Ok q.
Proof. exact com_perm. Qed.
Print Assumptions C20_order_of_lines_irrelevant.
Theorem C20_defined_iff : forall sl ic, length sl = length ic ->
  ((exists q, center_of_mass sl ic = Ok q) <-> (2 <= length sl)%nat /\ NoDup sl).
Proof. exact com_defined. Qed.
Print Assumptions C20_defined_iff.
Example C20_three_lines : center_of_mass [0; 1; -2] [1; 0; 3] = Ok (1, 1).
Proof.
  apply C20_exact_for_concurrent_lines; [reflexivity | cbn [length]; lia | |].
  - repeat constructor; cbn [In]; intros H; repeat destruct H as [H|H]; try lra; exact H.
  - intros s b H. cbn [combine In] in H. unfold on2; cbn [fst snd]. repeat destruct H as [H|H]; try (injection H as <- <-; lra). destruct H.
Qed.

(* ---------------- C21 ---------------- *)
(* the line consists of the points lying the measured distance a to the right of the
   reference point in the hanging attitude, so a > 0 means the point is to the left *)
Theorem C21_line_is_the_plumb_line : forall alpha a par part l1 l2 m b beta,
  com_line alpha a par part l1 l2 = Ok (m, b, beta) ->
  let r := reference_point (pv par "w") (pv par "rR") (pv par "rF") (pv par "lam") part l1 l2 in
  exists right up : R * R,
    hanging_directions (pv par "lam") (alpha * PI / 180) right up /\
    (forall q, on2 m b q <-> dot2 (fst q - fst r, snd q - snd r) right = a).
Proof. exact com_line_hanging. Qed.
Print Assumptions C21_line_is_the_plumb_line.
Theorem C21_distance_is_measured : forall alpha a par part l1 l2 m b beta,
  com_line alpha a par part l1 l2 = Ok (m, b, beta) ->
  let r := reference_point (pv par "w") (pv par "rR") (pv par "rF") (pv par "lam") part l1 l2 in
  (forall q, on2 m b q -> Rabs a <= sqrt (sqdist2 q r)) /\ exists q, on2 m b q /\ sqrt (sqdist2 q r) = Rabs a.
Proof.
  intros alpha a par part l1 l2 m b beta H r. apply com_line_spec in H. cbv zeta in H. destruct H as (_ & _ & _ & _ & L). fold r in L.
  destruct (implicit_line_distance r a beta (on2 m b) L) as (A & B & _). split; assumption.
Qed.
Print Assumptions C21_distance_is_measured.
Theorem C21_angle_and_slope : forall alpha a par part l1 l2 m b beta,
  com_line alpha a par part l1 l2 = Ok (m, b, beta) ->
  beta = pv par "lam" - alpha * PI / 180 /\ m * cos beta = - sin beta.
Proof.
  intros alpha a par part l1 l2 m b beta H. apply com_line_spec in H. cbv zeta in H. destruct H as (_ & B & C & -> & _).
  split; [exact B|]. unfold tan. field. exact C.
Qed.
Print Assumptions C21_angle_and_slope.
Theorem C21_defined_iff : forall alpha a par part l1 l2,
  let beta := pv par "lam" - alpha * PI / 180 in
  (exists r, com_line alpha a par part l1 l2 = Ok r) <->
  In "lam" (dkeys par) /\ cos beta <> 0 /\
  ((part = "B" /\ In "rR" (dkeys par)) \/
   (In part ["S"; "H"] /\ In "rF" (dkeys par) /\ In "w" (dkeys par)) \/
   (part = "G" /\ In "rF" (dkeys par) /\ In "w" (dkeys par) /\ sin (pv par "lam") <> 0 /\ cos (pv par "lam") <> 0)).
Proof. exact com_line_defined. Qed.
Print Assumptions C21_defined_iff.
Theorem C21_unknown_part : forall alpha a par part l1 l2, ~ In part ["B"; "S"; "H"; "G"] ->
  (forall r, com_line alpha a par part l1 l2 <> Ok r) /\
  (In "lam" (dkeys par) -> cos (pv par "lam" - alpha * PI / 180) <> 0 -> com_line alpha a par part l1 l2 = Err (KeyError "")).
Proof. exact com_line_unknown. Qed.
Print Assumptions C21_unknown_part.
(* every alpha measurement contributes exactly one line to its part, in key order *)
Theorem C21_all_lines_collected : forall mp par split sl ic be, part_com_lines mp par split = Ok (sl, ic, be) ->
  let parts := if split then ["B"; "G"; "S"] else ["B"; "H"] in
  exists l1 l2 keys es,
    (if split then calculate_l1_l2 (pv mp "h6") (pv mp "h7") (pv mp "d5") (pv mp "d6") (pv mp "l") = Ok (l1, l2) else l1 = 0 /\ l2 = 0) /\
    Permutation keys (filter (starts_with "alpha") (dkeys mp)) /\ StronglySorted sle keys /\
    Forall2 (com_entry mp par l1 l2) keys es /\
    (forall e, In e es -> In (fst e) parts) /\
    (forall part, In part parts ->
       dget sl part = Some (map (fun t => fst (fst t)) (of_part part es)) /\
       dget ic part = Some (map (fun t => snd (fst t)) (of_part part es)) /\
       dget be part = Some (map snd (of_part part es))).
Proof.
  intros mp par split sl ic be H. apply part_com_lines_ok in H. cbv zeta in *. destruct H as (l1 & l2 & es & A & F & K & G).
  exists l1, l2, (ssort (filter (starts_with "alpha") (dkeys mp))), es. repeat split; auto using ssort_perm, ssort_sorted; apply G; assumption.
Qed.
Print Assumptions C21_all_lines_collected.
Definition par21 : dict R := [("lam", 0); ("rR", 1/3); ("rF", 1/3); ("w", 1)].
Example C21_frame_line : exists r, com_line 180 (1/5) par21 "B" 0 0 = Ok r.
Proof.
  apply C21_defined_iff. change (pv par21 "lam") with 0. split; [simpl; tauto|]. split.
  - replace (0 - 180 * PI / 180) with (- PI) by field. rewrite cos_neg, cos_PI. lra.
  - left. split; [reflexivity | simpl; tauto].
Qed.

(* ---------------- C22 ---------------- *)
Theorem C22_point_to_line_distance : forall x0 x1 x2 d,
  point_to_line_distance x0 x1 x2 = Ok d -> is_distance_to_line x0 x1 x2 d.
Proof. exact ptl_spec. Qed.
Print Assumptions C22_point_to_line_distance.
Theorem C22_point_to_line_defined : forall x0 x1 x2,
  x1 <> x2 <-> exists d, point_to_line_distance x0 x1 x2 = Ok d.
Proof. exact ptl_defined. Qed.
Print Assumptions C22_point_to_line_defined.
Theorem C22_steer_axis_distance : forall w c lam p d, distance_to_steer_axis w c lam p = Ok d ->
  (forall s, d <= distance p (steer_axis_point w c lam s)) /\ exists s, d = distance p (steer_axis_point w c lam s).
Proof. exact steer_axis_min. Qed.
Print Assumptions C22_steer_axis_distance.
Theorem C22_steer_axis_in_plane : forall w c lam x z d,
  distance_to_steer_axis w c lam (mk3 x 0 z) = Ok d <-> d = Rabs (ahead w c lam x z).
Proof. exact steer_axis_distance. Qed.
Print Assumptions C22_steer_axis_in_plane.
Theorem C22_steer_axis_total : forall w c lam p, exists d, distance_to_steer_axis w c lam p = Ok d.
Proof. exact steer_axis_total. Qed.
Print Assumptions C22_steer_axis_total.
Theorem C22_projection_on_line : forall m b p, on2 m b (project_point_on_line (m, b) p).
Proof. exact project_on. Qed.
Print Assumptions C22_projection_on_line.
Theorem C22_projection_nearest : forall m b p q, on2 m b q ->
  sqdist2 p (project_point_on_line (m, b) p) <= sqdist2 p q /\
  (sqdist2 p q = sqdist2 p (project_point_on_line (m, b) p) -> q = project_point_on_line (m, b) p).
Proof. exact project_nearest. Qed.
Print Assumptions C22_projection_nearest.
Theorem C22_projection_idempotent : forall l p,
  project_point_on_line l (project_point_on_line l p) = project_point_on_line l p.
Proof. exact project_idempotent. Qed.
Print Assumptions C22_projection_idempotent.
Theorem C22_angle : forall v w t, vec_angle v w = Ok t <->
  v <> mk3 0 0 0 /\ w <> mk3 0 0 0 /\ 0 <= t <= PI /\ v3_dot v w = sqrt (sqnorm v) * sqrt (sqnorm w) * cos t.
Proof. intros. rewrite <- !norm3_sq. apply vec_angle_spec. Qed.
Print Assumptions C22_angle.
Theorem C22_angle_defined : forall v w, (exists t, vec_angle v w = Ok t) <-> v <> mk3 0 0 0 /\ w <> mk3 0 0 0.
Proof. exact vec_angle_defined. Qed.
Print Assumptions C22_angle_defined.
Example C22_distance_example : point_to_line_distance (mk3 0 0 2) (mk3 0 0 0) (mk3 1 0 0) = Ok 2.
Proof.
  destruct (proj1 (C22_point_to_line_defined (mk3 0 0 2) (mk3 0 0 0) (mk3 1 0 0))) as [d H].
  - intros E. injection E; intros; lra.
  - rewrite H. f_equal. apply (distance_line_unique _ _ _ _ _ (ptl_spec _ _ _ _ H)).
    assert (E : forall t, distance (mk3 0 0 2) (on_line (mk3 0 0 0) (mk3 1 0 0) t) = sqrt (t ^ 2 + 4)).
    { intros t. unfold distance, on_line. f_equal. vsimpl. ring. }
    assert (S4 : sqrt 4 = 2) by (replace 4 with (2 ^ 2) by ring; apply sqrt_pow2; lra).
    split.
    + intros t. rewrite E, <- S4. apply sqrt_le_1_alt. pose proof (pow2_ge_0 t). lra.
    + exists 0. rewrite E. replace (0 ^ 2 + 4) with 4 by ring. symmetry. exact S4.
Qed.

(* ---------------- C23 ---------------- *)
(* Refuted: a direction array always raises, and for an axis index the result is the
   projection only when there was nothing to remove. *)
Theorem C23_direction_array_always_fails : forall v d, vec_project v (DirVec d) = Err UnboundLocalError.
Proof. exact vec_project_array. Qed.
Print Assumptions C23_direction_array_always_fails.
Theorem C23_axis_index_partial : forall v k e, basis3 k = Ok e ->
  exists p, vec_project v (DirInt k) = Ok p /\ (is_projection v e p <-> v3_dot v e = 0).
Proof. exact vec_project_int. Qed.
Print Assumptions C23_axis_index_partial.
Theorem C23_refuted : exists v k e p, basis3 k = Ok e /\ vec_project v (DirInt k) = Ok p /\ ~ is_projection v e p.
Proof.
  exists (mk3 1 2 3), 2%Z, (mk3 0 0 1). destruct (vec_project_int (mk3 1 2 3) 2 (mk3 0 0 1) eq_refl) as (p & H1 & H2).
  exists p. split; [reflexivity|]. split; [exact H1|]. intros K. apply H2 in K. vsimpl. lra.
Qed.
Print Assumptions C23_refuted.

(* ---------------- C24 ---------------- *)
Theorem C24_plot_points : forall par pts, fundamental_geometry_plot_data par = Ok pts ->
  let w := pv par "w" in let c := pv par "c" in let lam := pv par "lam" in
  let rR := pv par "rR" in let rF := pv par "rF" in
  exists p1 p2, pts = [(0, - rR); p1; p2; (w, - rF)] /\
    ahead w c lam (fst p1) (snd p1) = 0 /\ ahead w c lam (fst p2) (snd p2) = 0 /\
    along lam (fst p1) (snd p1) = along lam 0 (- rR) /\ along lam (fst p2) (snd p2) = along lam w (- rF).
Proof. exact plot_data_spec. Qed.
Print Assumptions C24_plot_points.
Theorem C24_defined_iff : forall par, (exists pts, fundamental_geometry_plot_data par = Ok pts) <->
  (forall k, In k ["lam"; "c"; "w"; "rR"; "rF"] -> In k (dkeys par)) /\ cos (pv par "lam") <> 0.
Proof. exact plot_data_defined. Qed.
Print Assumptions C24_defined_iff.
(* [ahead] and [along] are the coordinates across and along the steer axis *)
Theorem C24_coordinates_faithful : forall w c lam x z,
  (ahead w c lam x z = 0 <-> exists s, mk3 x 0 z = steer_axis_point w c lam s) /\
  (forall x' z', ahead w c lam x z = ahead w c lam x' z' -> along lam x z = along lam x' z' -> x = x' /\ z = z').
Proof.
  intros. pose proof (sc1 lam) as S. unfold ahead, along, steer_axis_point. split; [split|].
  - intros H. exists (- ((x - w - c) * sin lam + z * cos lam)). f_equal.
    + transitivity (w + c + (x - w - c) * (sin lam * sin lam + cos lam * cos lam)); [rewrite S; ring|].
      transitivity (w + c + sin lam * ((x - w - c) * sin lam + z * cos lam) + cos lam * ((x - w - c) * cos lam - z * sin lam)); [ring|]. rewrite H. ring.
    + transitivity (z * (sin lam * sin lam + cos lam * cos lam)); [rewrite S; ring|].
      transitivity (((x - w - c) * sin lam + z * cos lam) * cos lam - sin lam * ((x - w - c) * cos lam - z * sin lam)); [ring|]. rewrite H. ring.
  - intros [s E]. injection E as -> ->. ring.
  - intros x' z' A B. 
    assert (X : (x - x') * cos lam - (z - z') * sin lam = 0) by lra. assert (Z : (x - x') * sin lam + (z - z') * cos lam = 0) by lra. split.
    + assert (x - x' = 0); [|lra]. transitivity ((x - x') * (sin lam * sin lam + cos lam * cos lam)); [rewrite S; ring|].
      transitivity (cos lam * ((x - x') * cos lam - (z - z') * sin lam) + sin lam * ((x - x') * sin lam + (z - z') * cos lam)); [ring|]. rewrite X, Z. ring.
    + assert (z - z' = 0); [|lra]. transitivity ((z - z') * (sin lam * sin lam + cos lam * cos lam)); [rewrite S; ring|].
      transitivity (- sin lam * ((x - x') * cos lam - (z - z') * sin lam) + cos lam * ((x - x') * sin lam + (z - z') * cos lam)); [ring|]. rewrite X, Z. ring.
Qed.
Print Assumptions C24_coordinates_faithful.
Example C24_bench_bike : exists pts, fundamental_geometry_plot_data (dset par21 "c" (1/20)) = Ok pts.
Proof.
  apply C24_defined_iff. split.
  - intros k H. cbn [par21 dset dkeys map fst String.eqb Ascii.eqb Bool.eqb In] in *. tauto.
  - change (pv (dset par21 "c" (1/20)) "lam") with 0. rewrite cos_0. lra.
Qed.

(* ---------------- C25 ---------------- *)
Theorem C25_abc : forall h1 h2 h3 h4 h5 d1 d2 d3 d4 d_ a b c,
  calculate_abc_geometry h1 h2 h3 h4 h5 d1 d2 d3 d4 d_ = Ok (a, b, c) <->
  a = (h1 + h2 + d1 / 2) - (h3 + d2 / 2) /\ b = (h4 - d3 / 2) - (h5 - d4 / 2) /\
  0 <= c /\ (a - b) ^ 2 + c ^ 2 = (d2 / 2 + d_ + d3 / 2) ^ 2.
Proof. exact abc_spec. Qed.
Print Assumptions C25_abc.
Theorem C25_l1_l2 : forall h6 h7 d5 d6 l l1 l2,
  calculate_l1_l2 h6 h7 d5 d6 l = Ok (l1, l2) <->
  let l0 := l - d5 / 2 - d6 / 2 in
  l0 <> 0 /\ l1 = (h7 - d6 / 2) - (h6 - d5 / 2) /\ 0 <= l0 * l2 /\ l1 ^ 2 + l2 ^ 2 = l0 ^ 2.
Proof. exact l12_spec. Qed.
Print Assumptions C25_l1_l2.
Theorem C25_handlebar_reference : forall lam l1 l2 u1 u2,
  fwheel_to_handlebar_ref lam l1 l2 = Ok (u1, u2) <->
  sin lam <> 0 /\ cos lam <> 0 /\ u1 = l2 * sin lam - l1 * cos lam /\ u2 = l2 * cos lam + l1 * sin lam.
Proof. exact handlebar_spec. Qed.
Print Assumptions C25_handlebar_reference.
(* refutes totality of the rotation: a vertical steer axis cannot be handled *)
Theorem C25_handlebar_upright_fails : forall l1 l2, fwheel_to_handlebar_ref 0 l1 l2 = Err ZeroDivisionError.
Proof. exact handlebar_upright. Qed.
Print Assumptions C25_handlebar_upright_fails.
(* The two links span D exactly when L1^2 <= D^2 + L2^2 (the docstring's case D the
   longest side included); otherwise the elbow angle comes from the wrong arcsine branch. *)
Theorem C25_two_links_partial : forall L1 L2 D t1 t2, 0 < L1 -> 0 < L2 -> 0 < D -> calc_two_link_angles L1 L2 D = Ok (t1, t2) ->
  0 <= t1 <= PI /\ t1 <= t2 /\ L1 * sin t1 + L2 * sin (t1 - t2) = 0 /\
  (L1 ^ 2 <= D ^ 2 + L2 ^ 2 <-> L1 * cos t1 + L2 * cos (t1 - t2) = D).
Proof. exact two_link. Qed.
Print Assumptions C25_two_links_partial.
Theorem C25_two_links_refuted : exists L1 L2 D t1 t2, 0 < L1 /\ 0 < L2 /\ 0 < D /\ D < L1 + L2 /\
  calc_two_link_angles L1 L2 D = Ok (t1, t2) /\ L1 * cos t1 + L2 * cos (t1 - t2) <> D.
Proof.
  assert (B1 : -1 <= 5/6 <= 1) by lra.
  set (y := 5 / 3 * sin (acos (5/6))).
  assert (S : sin (acos (5/6)) = sqrt (1 - (5/6)²)) by (apply sin_acos; lra).
  assert (Y : 0 <= y <= 1).
  { unfold y. rewrite S. unfold Rsqr. pose proof (sqrt_pos (1 - 5/6 * (5/6))) as P.
    split; [lra|]. assert (sqrt (1 - 5/6 * (5/6)) <= 3/5); [|lra].
    rewrite <- (sqrt_pow2 (3/5)) by lra. apply sqrt_le_1_alt. lra. }
  assert (H : calc_two_link_angles 5 3 3 = Ok (acos (5/6), acos (5/6) + asin y)).
  { unfold calc_two_link_angles. rewrite rdiv_eq by lra. cbn [bind].
    replace ((5 ^ 2 + 3 ^ 2 - 3 ^ 2) / (2 * 5 * 3)) with (5/6) by field.
    unfold racos. destruct (Rlt_dec 1 (Rabs (5/6))) as [C|_]; [rewrite Rabs_right in C; lra|]. cbn [bind].
    rewrite rdiv_eq by lra. cbn [bind]. fold y. unfold rasin.
    destruct (Rlt_dec 1 (Rabs y)) as [C|_]; [rewrite Rabs_right in C; lra|]. reflexivity. }
  exists 5, 3, 3, (acos (5/6)), (acos (5/6) + asin y). repeat split; try lra; [exact H|].
  intros K. apply (two_link 5 3 3 _ _) in K; [lra|lra|lra|lra|exact H].
Qed.
Print Assumptions C25_two_links_refuted.
Example C25_abc_example : calculate_abc_geometry (9/10) 0 0 (1/10) 0 0 0 0 0 1 = Ok (9/10, 1/10, 6/10).
Proof. apply C25_abc. repeat split; lra. Qed.
Example C25_l12_example : calculate_l1_l2 (1/2) (4/5) 0 0 (1/2) = Ok (3/10, 4/10).
Proof. apply C25_l1_l2. cbv zeta. repeat split; lra. Qed.
