(* TRider.v -- theorems for C51 and C54 (bicycleparameters/rider.py) *)
From Verif Require Import Base MString MVec MInertia MIo MRider SRider PBase PRider.
From Coq Require Import Lra Lia.
Local Open Scope string_scope.
Local Open Scope R_scope.

(* ================= C51 ================= *)
(* The conversion is defined exactly when the six numbers are there and the
   chain stay is long enough, and then is the placement [on_bike] of the rider
   at the hips. *)
Theorem C51_value : forall v measured benchmark r, numbers measured -> numbers benchmark ->
  yeadon_vec_to_bicycle_vec v measured benchmark = Ok r <-> exists p, bike_lengths p measured benchmark /\ chain_stay_ok p /\ r = on_bike p v.
Proof. intros v m b r Nm Nb. destruct (numbers_remove m Nm) as [m' Hm]. destruct (numbers_remove b Nb) as [b' Hb]. exact (vec_conv v m b m' b' r Hm Hb). Qed.
Print Assumptions C51_value.
(* The yeadon origin goes to the hips: up the seat tube from the bottom bracket,
   which lies at its height and a chain stay's length from the rear hub. *)
Theorem C51_hips : forall measured benchmark r, numbers measured -> numbers benchmark ->
  yeadon_vec_to_bicycle_vec (mk3 0 0 0) measured benchmark = Ok r ->
  exists p, bike_lengths p measured benchmark /\ r = hips p /\
    vy r = 0 /\ vz (bottom_bracket p) = - h_bb p /\ 0 <= vx (bottom_bracket p) /\ dist3 (bottom_bracket p) (rear_hub p) = Rabs (l_cs p) /\ dist3 r (bottom_bracket p) = Rabs (l_sp p + l_st p).
Proof.
  intros m b r Nm Nb H. apply (C51_value _ m b r Nm Nb) in H as [p [L [C ->]]]. exists p. split; [exact L|]. assert (E : on_bike p (mk3 0 0 0) = hips p) by (unfold on_bike, hips; cbn [vx vy vz]; f_equal; ring). rewrite E.
  split; [reflexivity|]. split; [reflexivity|]. split; [reflexivity|]. split; [apply sqrt_pos|]. split.
  - unfold dist3, bottom_bracket, rear_hub. cbn [vx vy vz]. unfold chain_stay_ok in C. rewrite Rminus_0_r, <- (Rsqr_pow2 (sqrt _)), Rsqr_sqrt by lra. rewrite <- sqrt_Rsqr_abs. f_equal. unfold Rsqr. ring.
  - unfold dist3, hips. cbn [vx vy vz]. rewrite <- sqrt_Rsqr_abs. f_equal. pose proof (sin2_cos2 (lambda_st p)) as P. unfold Rsqr in *. 
    replace ((l_sp p + l_st p) * (l_sp p + l_st p)) with ((l_sp p + l_st p) * (l_sp p + l_st p) * (sin (lambda_st p) * sin (lambda_st p) + cos (lambda_st p) * cos (lambda_st p))) by (rewrite P; ring). unfold bottom_bracket. cbn [vx vy vz]. ring.
Qed.
Print Assumptions C51_hips.
(* Distances and handedness are kept, *)
Theorem C51_isometry : forall measured benchmark a b c d a' b' c' d', numbers measured -> numbers benchmark ->
  yeadon_vec_to_bicycle_vec a measured benchmark = Ok a' -> yeadon_vec_to_bicycle_vec b measured benchmark = Ok b' ->
  yeadon_vec_to_bicycle_vec c measured benchmark = Ok c' -> yeadon_vec_to_bicycle_vec d measured benchmark = Ok d' ->
  dist3 a' b' = dist3 a b /\ volume (v3_sub b' a') (v3_sub c' a') (v3_sub d' a') = volume (v3_sub b a) (v3_sub c a) (v3_sub d a).
Proof.
  intros m bm a b c d a' b' c' d' Nm Nb Ha Hb Hc Hd. apply (C51_value _ m bm _ Nm Nb) in Ha as [p [Lp [Cp ->]]].
  assert (G : forall v v', yeadon_vec_to_bicycle_vec v m bm = Ok v' -> v' = on_bike p v).
  { intros v v' H. assert (K : yeadon_vec_to_bicycle_vec v m bm = Ok (on_bike p v)) by (apply (C51_value _ m bm _ Nm Nb); exists p; auto). congruence. }
  rewrite (G _ _ Hb), (G _ _ Hc), (G _ _ Hd). split.
  - unfold dist3, on_bike. cbn [vx vy vz]. f_equal. ring.
  - unfold volume, v3_sub, on_bike. cbn [vx vy vz]. ring.
Qed.
Print Assumptions C51_isometry.
(* and directions become: backward is -x, left is -y, up is -z. *)
Theorem C51_directions : forall measured benchmark v e v' w', numbers measured -> numbers benchmark ->
  yeadon_vec_to_bicycle_vec v measured benchmark = Ok v' -> yeadon_vec_to_bicycle_vec (v3_add v e) measured benchmark = Ok w' ->
  w' = v3_add v' (mk3 (- vy e) (- vx e) (- vz e)).
Proof.
  intros m bm v e v' w' Nm Nb Hv Hw. apply (C51_value _ m bm _ Nm Nb) in Hv as [p [Lp [Cp ->]]].
  assert (K : yeadon_vec_to_bicycle_vec (v3_add v e) m bm = Ok (on_bike p (v3_add v e))) by (apply (C51_value _ m bm _ Nm Nb); exists p; auto).
  rewrite K in Hw. injection Hw as <-. unfold on_bike, v3_add. cbn [vx vy vz]. f_equal; ring.
Qed.
Print Assumptions C51_directions.

Definition ex_measured : dict mval :=
  [("hbb", MScalar (SFloat 1)); ("lcs", MScalar (SUfloat 1 (1/100))); ("lsp", MScalar (SFloat (1/4))); ("lst", MScalar (SFloat (3/4))); ("lamst", MScalar (SFloat (PI / 2)));
   ("whb", MScalar (SFloat 2)); ("LhbR", MScalar (SFloat (sqrt 3))); ("LhbF", MScalar (SFloat (sqrt 2)))].
Definition ex_benchmark : dict mval := [("rR", MScalar (SFloat 1)); ("rF", MScalar (SUfloat 1 (1/50))); ("w", MScalar (SFloat 1))].
Definition ex_human : human :=
  mkhuman [("Lj3L", 1/2); ("Lj5L", 3/4); ("Lj6L", 1/4); ("Ls4L", 1/2); ("Ls4w", 2); ("La2L", 1/4); ("La4L", 1/4); ("La5L", 1/4)] [("somersault", 0); ("twist", 1)].
Definition ex_par : rider_par := mkrp (1/2) (3/4) (1/4) (1/2) 2 (1/4) (1/4) (1/4) 0 1 1 1 1 (1/4) (3/4) (PI / 2) 2 (sqrt 3) (sqrt 2) 1.
Lemma ex_numbers : numbers ex_measured /\ numbers ex_benchmark.
Proof. split; intros k v H; cbn in H; repeat (destruct H as [H|H]; [injection H as <- <-; eexists; reflexivity|]); destruct H. Qed.
Lemma ex_lengths : bike_lengths ex_par ex_measured ex_benchmark /\ grip_lengths ex_par ex_measured ex_benchmark /\ chain_stay_ok ex_par /\ body_lengths ex_par ex_human.
Proof.
  unfold bike_lengths, grip_lengths, body_lengths, chain_stay_ok, holds. cbn. repeat split; try reflexivity; try (left; reflexivity); try (right; eexists; reflexivity); lra.
Qed.
Example C51_example : exists r, yeadon_vec_to_bicycle_vec (mk3 1 2 3) ex_measured ex_benchmark = Ok r.
Proof. destruct ex_numbers as [A B]. destruct ex_lengths as [L [_ [C _]]]. eexists. apply (C51_value _ _ _ _ A B). exists ex_par. auto. Qed.

(* ================= C54 ================= *)
(* rider_on_bike reads the lengths p, hands the equations to the solver and
   stores the solution, mirrored for the other side; the other entries of the
   configuration and the measurements stay. *)
Theorem C54_configuration : forall fsolve measured benchmark h h', numbers measured -> numbers benchmark ->
  rider_on_bike fsolve benchmark measured h = Ok h' ->
  exists p u, body_lengths p h /\ bike_lengths p measured benchmark /\ grip_lengths p measured benchmark /\ fsolve (residual p) (guess p) = Ok u /\
    h_meas h' = h_meas h /\
    (forall k, ~ In k ["PJ1extension"; "J1J2flexion"; "CA1extension"; "CA1adduction"; "CA1rotation"; "A1A2extension";
                       "PK1extension"; "K1K2flexion"; "CB1extension"; "CB1abduction"; "CB1rotation"; "B1B2extension"] -> dget (h_CFG h') k = dget (h_CFG h) k) /\
    dget (h_CFG h') "PJ1extension" = Some (PJ1extension u) /\ dget (h_CFG h') "PK1extension" = Some (PJ1extension u) /\
    dget (h_CFG h') "J1J2flexion" = Some (J1J2flexion u) /\ dget (h_CFG h') "K1K2flexion" = Some (J1J2flexion u) /\
    dget (h_CFG h') "CA1extension" = Some (CA1extension u) /\ dget (h_CFG h') "CB1extension" = Some (CA1extension u) /\
    dget (h_CFG h') "CA1adduction" = Some (CA1adduction u) /\ dget (h_CFG h') "CB1abduction" = Some (- CA1adduction u) /\
    dget (h_CFG h') "CA1rotation" = Some (CA1rotation u) /\ dget (h_CFG h') "CB1rotation" = Some (- CA1rotation u) /\
    dget (h_CFG h') "A1A2extension" = Some (A1A2extension u) /\ dget (h_CFG h') "B1B2extension" = Some (A1A2extension u).
Proof.
  intros fsolve m b h h' Nm Nb H. destruct (numbers_remove m Nm) as [m' Hm]. destruct (numbers_remove b Nb) as [b' Hb]. unfold rider_on_bike in H. apply bind_ok in H as [p [HP H]]. apply bind_ok in H as [u [HU H]]. injection H as <-.
  apply (read_iff h b m p m' b' Hm Hb) in HP as [B1 [B2 B3]]. exists p, u. split; [exact B1|]. split; [exact B2|]. split; [exact B3|]. split; [exact HU|]. split; [reflexivity|]. cbn [h_CFG]. split.
  - intros k NI. unfold rider_cfg. rewrite !dget_dset. repeat match goal with |- (if String.eqb k ?q then _ else _) = _ => destruct (String.eqb_spec k q) as [E|_]; [first [exfalso; apply NI; rewrite E; cbn; tauto|rewrite E; symmetry; apply B1]|] end. reflexivity.
  - repeat split; unfold rider_cfg; rewrite !dget_dset; reflexivity.
Qed.
Print Assumptions C54_configuration.
(* If the solver's answer is a root of the equations, the rider sits on the
   bicycle: both feet over the bottom bracket, both hands on the grips. *)
Theorem C54_seated : forall fsolve measured benchmark h h' p, numbers measured -> numbers benchmark ->
  (forall u, fsolve (residual p) (guess p) = Ok u -> residual p u = Ok [0; 0; 0; 0; 0; 0; 0; 0; 0; 0]) ->
  body_lengths p h -> bike_lengths p measured benchmark -> grip_lengths p measured benchmark ->
  rider_on_bike fsolve benchmark measured h = Ok h' -> seated p (h_CFG h').
Proof.
  intros fsolve m b h h' p Nm Nb FS B1 B2 B3 H. destruct (numbers_remove m Nm) as [m' Hm]. destruct (numbers_remove b Nb) as [b' Hb]. unfold rider_on_bike in H. rewrite (proj2 (read_iff h b m p m' b' Hm Hb)) in H by auto. cbn [bind] in H.
  apply bind_ok in H as [u [HU H]]. injection H as <-. cbn [h_CFG]. apply root_seated. exact (FS _ HU).
Qed.
Print Assumptions C54_seated.
(* The equations say neither more nor less: a root exists exactly when a leg
   and an arm can be placed that way. *)
Theorem C54_roots : forall p, (exists u, residual p u = Ok [0; 0; 0; 0; 0; 0; 0; 0; 0; 0]) <->
  chain_stay_ok p /\ exists jh jk ax ay az ae,
    on_bike p (foot p 0 jh jk) = bottom_bracket p /\
    (let left := on_bike p (hand p (L_s4w p / 2) ax ay az ae) in
     vy left = - (w_hb p / 2) /\ dist3 left (rear_hub p) = L_hbR p /\ dist3 left (front_hub p) = L_hbF p) /\
    vz (upper_arm p ax ay az (mk3 1 0 0)) = 0.
Proof.
  intros p. split.
  - intros [u H]. apply (proj1 (root_iff p u)) in H. destruct H as [C [[P1 [P2 [P3 [P4 P5]]]] _]]. split; [exact C|]. exists (PJ1extension u), (J1J2flexion u), (CA1extension u), (CA1adduction u), (CA1rotation u), (A1A2extension u). auto.
  - intros [C [jh [jk [ax [ay [az [ae [P1 [[P2 [P3 P4]] P5]]]]]]]]]. set (H := on_bike p (hand p (L_s4w p / 2) ax ay az ae)) in *.
    exists (mku jh jk ax ay az ae (vx (front_hub p) - vx H) (vz (front_hub p) - vz H) (vx (rear_hub p) - vx H) (vz (rear_hub p) - vz H)). apply (proj2 (root_iff p _)). split; [exact C|]. split; [unfold posture; cbn [PJ1extension J1J2flexion CA1extension CA1adduction CA1rotation A1A2extension]; fold H; auto|].
    unfold grip_vectors. cbn [CA1extension CA1adduction CA1rotation A1A2extension alpha_y alpha_z beta_y beta_z]. fold H. auto.
Qed.
Print Assumptions C54_roots.
(* If the seat is higher than the leg is long there is no root; rider_on_bike
   returns a rider all the same, whose feet are elsewhere (only a warning of the
   solver tells). *)
Theorem C54_seat_too_high_refuted : forall fsolve measured benchmark h h' p, numbers measured -> numbers benchmark ->
  body_lengths p h -> bike_lengths p measured benchmark -> grip_lengths p measured benchmark ->
  Rabs (L_j3L p) + Rabs (L_j5L p + L_j6L p - L_j3L p) < Rabs (l_sp p + l_st p) ->
  (forall u, residual p u <> Ok [0; 0; 0; 0; 0; 0; 0; 0; 0; 0]) /\
  ((exists u, fsolve (residual p) (guess p) = Ok u) -> exists h'', rider_on_bike fsolve benchmark measured h = Ok h'') /\
  (rider_on_bike fsolve benchmark measured h = Ok h' -> ~ seated p (h_CFG h')).
Proof.
  intros fsolve m b h h' p Nm Nb B1 B2 B3 L. destruct (numbers_remove m Nm) as [m' Hm]. destruct (numbers_remove b Nb) as [b' Hb]. split; [|split].
  - intros u R. apply (proj1 (root_iff p u)) in R. destruct R as [_ [[P _] _]]. exact (seat_too_high p _ _ L P).
  - intros [u HU]. unfold rider_on_bike. rewrite (proj2 (read_iff h b m p m' b' Hm Hb)) by auto. cbn [bind]. rewrite HU. cbn [bind]. eexists. reflexivity.
  - intros _ [jh [jk [kh [kk [ax [ay [az [ae [bx [b_y [bz [be [_ [_ [_ [_ [_ [_ [_ [_ [_ [_ [_ [_ [F _]]]]]]]]]]]]]]]]]]]]]]]]].
    apply (seat_too_high p jh jk L). rewrite (F 0). unfold bottom_bracket. cbn [vx vz]. f_equal. ring.
Qed.
Print Assumptions C54_seat_too_high_refuted.
(* The rider's parameters in the bicycle frame: the mass, the mass centre as a
   point of the seated rider, and the moments of inertia about the same axes:
   forward is the yeadon y axis, sideways the x axis. *)
Theorem C54_rider_parameters : forall mass com inertia fsolve h measured benchmark par h', numbers measured -> numbers benchmark ->
  rider_parameters mass com inertia fsolve h benchmark measured = Ok (par, h') ->
  rider_on_bike fsolve benchmark measured h = Ok h' /\
  (exists p, bike_lengths p measured benchmark /\
     dget par "xB" = Some (vx (on_bike p (com h'))) /\ dget par "yB" = Some (vy (on_bike p (com h'))) /\ dget par "zB" = Some (vz (on_bike p (com h')))) /\
  dget par "mB" = Some (mass h') /\
  dget par "IBxx" = Some (vy (r2 (inertia h'))) /\ dget par "IByy" = Some (vx (r1 (inertia h'))) /\
  dget par "IBzz" = Some (vz (r3 (inertia h'))) /\ dget par "IBxz" = Some (vy (r3 (inertia h'))).
Proof.
  intros mass com inertia fsolve h m b par h' Nm Nb H. unfold rider_parameters in H. apply bind_ok in H as [h2 [HR H]]. apply bind_ok in H as [c [HC H]]. injection H as <- <-. split; [exact HR|].
  apply (C51_value _ m b c Nm Nb) in HC as [p [L [_ ->]]]. split; [exists p; split; [exact L|]; repeat split; reflexivity|]. split; [reflexivity|].
  unfold inertia_transformed, m3_dot, m3_T, rot_mat, v3_dot. cbn [vx vy vz r1 r2 r3 dget String.eqb Ascii.eqb Bool.eqb]. repeat split; f_equal; ring.
Qed.
Print Assumptions C54_rider_parameters.

(* the hypotheses are met: a rider with straight limbs on a small bicycle *)
Lemma turn_0 v : turn_x 0 v = v /\ turn_y 0 v = v /\ turn_z 0 v = v.
Proof. destruct v as [x y z]. unfold turn_x, turn_y, turn_z. cbn [vx vy vz]. rewrite sin_0, cos_0. repeat split; f_equal; ring. Qed.
Lemma vec_ext a b c a' b' c' : a = a' -> b = b' -> c = c' -> mk3 a b c = mk3 a' b' c'. Proof. congruence. Qed.
Example C54_example_root : residual ex_par (mku 0 0 0 0 0 0 0 1 (-1) 1) = Ok [0; 0; 0; 0; 0; 0; 0; 0; 0; 0].
Proof.
  assert (B : bottom_bracket ex_par = mk3 1 0 (-1)).
  { unfold bottom_bracket, ex_par. cbn [l_cs r_R h_bb]. apply vec_ext; [|reflexivity|lra]. replace (1 ^ 2 - (1 - 1) ^ 2) with (1 * 1) by ring. apply sqrt_square. lra. }
  assert (Hi : hips ex_par = mk3 1 0 (-2)). { unfold hips. rewrite B. cbn [vx vz]. unfold ex_par. cbn [l_sp l_st lambda_st]. rewrite sin_PI2, cos_PI2. apply vec_ext; lra. }
  assert (F : foot ex_par 0 0 0 = mk3 0 0 (-1)). { unfold foot. change (somersault ex_par) with 0. rewrite !(proj1 (turn_0 _)). unfold v3_add, down, ex_par. cbn [vx vy vz L_j3L L_j5L L_j6L]. apply vec_ext; lra. }
  assert (U : forall v, upper_arm ex_par 0 0 0 v = v). { intros v. unfold upper_arm. change (somersault ex_par) with 0. rewrite !(proj1 (turn_0 _)). destruct (turn_0 v) as [_ [_ E]]. rewrite E. apply turn_0. }
  assert (Ha : hand ex_par (2 / 2) 0 0 0 0 = mk3 1 0 0). { unfold hand. rewrite U. change (somersault ex_par) with 0. rewrite !(proj1 (turn_0 _)). unfold v3_add, down, ex_par. cbn [vx vy vz L_s4L L_a2L L_a4L L_a5L]. apply vec_ext; lra. }
  apply (proj2 (root_iff _ _)). split; [apply ex_lengths|]. unfold posture, grip_vectors. cbn [PJ1extension J1J2flexion CA1extension CA1adduction CA1rotation A1A2extension alpha_y alpha_z beta_y beta_z]. change (L_s4w ex_par) with 2. rewrite F, Ha, U, B.
  unfold on_bike. rewrite Hi. unfold dist3, rear_hub, front_hub. cbn [vx vy vz]. unfold ex_par. cbn [r_R r_F w_b w_hb L_hbR L_hbF].
  split; [split; [apply vec_ext; lra|]; split; [lra|]; split; [f_equal; lra|]; split; [f_equal; lra|reflexivity]|]. repeat split; lra.
Qed.
Example C54_example : exists h', rider_on_bike (fun _ _ => Ok (mku 0 0 0 0 0 0 0 1 (-1) 1)) ex_benchmark ex_measured ex_human = Ok h' /\ seated ex_par (h_CFG h').
Proof.
  destruct ex_numbers as [Nm Nb]. destruct ex_lengths as [L [G [_ B]]]. destruct (numbers_remove _ Nm) as [m' Hm]. destruct (numbers_remove _ Nb) as [b' Hb]. unfold rider_on_bike. rewrite (proj2 (read_iff ex_human ex_benchmark ex_measured ex_par m' b' Hm Hb)) by auto. cbn [bind].
  eexists. split; [reflexivity|]. cbn [h_CFG]. apply root_seated. exact C54_example_root.
Qed.
