(* TMain.v -- properties C46-C48 *)
From Verif Require Import Base PBase MString MVec MBicycle MInertia MGeometry MPeriod MMain SBicycle SInertia SGeometry SMain
  PBicycle PInertia PInertia2 PString PGeometry PGeometry2 PIo PMain PMain3 PMain4 PMain5 PMain6 PMain7.
From Coq Require Import Lra Lia Permutation Sorted.
Local Open Scope string_scope.
Local Open Scope R_scope.

(* ================= C46 ================= *)
(* The fork counts as measured separately iff some name of the measurements has
   the letter S in the first or in the second place; there is always an answer. *)
Theorem C46_fork_split : forall (mp : dict R), is_fork_split mp = true <->
  exists key rest, In key (dkeys mp) /\ (key = "S" ++ rest \/ exists c, key = String c ("S" ++ rest)).
Proof. intros mp. exact (fork_split_spec mp). Qed.
Print Assumptions C46_fork_split.
(* the order of the measurements plays no role *)
Theorem C46_order_irrelevant : forall (mp mp' : dict R), (forall k, In k (dkeys mp) <-> In k (dkeys mp')) -> is_fork_split mp = is_fork_split mp'.
Proof.
  intros mp mp' H. destruct (is_fork_split mp') eqn:E.
  - apply fork_split_iff in E. destruct E as (k & K & S). apply fork_split_iff. exists k. split; [apply H; exact K | exact S].
  - destruct (is_fork_split mp) eqn:E2; [|reflexivity]. apply fork_split_iff in E2. destruct E2 as (k & K & S).
    rewrite <- E. symmetry. apply fork_split_iff. exists k. split; [apply H; exact K | exact S].
Qed.
Print Assumptions C46_order_irrelevant.
Example C46_examples : is_fork_split [("mS", 1); ("mG", 2)] = true /\ is_fork_split [("mH", 1); ("TtS1", 2)] = false
  /\ is_fork_split [("TcS1", 1); ("aS1", 3)] = true /\ is_fork_split ([] : dict R) = false.
Proof. repeat split. Qed.
(* Parts: the second letter of every name that begins with m, in the order of the
   names; a parameter called just "m" makes it raise IndexError. *)
Theorem C46_parts : forall (par : dict R) parts, get_parts_in_parameters par = Ok parts <->
  exists rows, filter (starts_with "m") (dkeys par) = map (fun r => String "m" (String (fst r) (snd r))) rows
             /\ parts = map (fun r => String (fst r) "") rows.
Proof.
  intros par parts. unfold get_parts_in_parameters.
  assert (F : forall k, In k (filter (starts_with "m") (dkeys par)) -> exists t, k = String "m" t).
  { intros k K. apply filter_In in K. destruct K as [_ K]. apply PIo.starts_with_iff in K. destruct K as [t ->]. exists t. reflexivity. }
  revert parts F. generalize (filter (starts_with "m") (dkeys par)). induction l as [|k l IH]; intros parts F.
  - cbn [mapM]. split.
    + intros H. injection H as <-. exists []. auto.
    + intros ([|r rows] & E & ->); [reflexivity | discriminate].
  - destruct (F k) as [t ->]; [left; reflexivity|]. cbn [mapM]. destruct t as [|c t].
    + split; [intros H; discriminate|]. intros ([|r rows] & E & _); discriminate.
    + change (schar 1 (String "m" (String c t))) with (Ok (String c "")). cbn [bind]. split.
      * intros H. apply bind_ok in H. destruct H as [ps [E H]]. injection H as <-. apply IH in E; [|intros; apply F; right; assumption].
        destruct E as (rows & E & ->). exists ((c, t) :: rows). rewrite E. auto.
      * intros ([|[c' t'] rows] & E & ->); [discriminate|]. cbn [map fst snd] in E. injection E as -> -> E.
        rewrite (proj2 (IH (map (fun r => String (fst r) "") rows) (fun k K => F k (or_intror K)))); [reflexivity | eauto].
Qed.
Print Assumptions C46_parts.
Example C46_parts_example : get_parts_in_parameters [("mB", 1); ("w", 2); ("mH", 3)] = Ok ["B"; "H"].
Proof. reflexivity. Qed.

(* ================= C47 ================= *)
(* Exact pendulum measurements of a bicycle give back that bicycle. *)
Theorem C47_whole_fork : forall newton mp T k n par ex, exact_measurements_whole newton mp T k n ->
  calculate_benchmark_from_measured newton mp = Ok (par, ex) ->
  forall key v, In (key, v) (common_entries T ++ body_entries "H" (rb_part T "H"))%list -> dget par key = Some v.
Proof. intros newton mp T k n par ex EX. exact (whole_exact newton mp T k n EX par ex). Qed.
Print Assumptions C47_whole_fork.
Theorem C47_whole_fork_defined : forall newton mp T k n, exact_measurements_whole newton mp T k n ->
  (exists p, calculate_benchmark_geometry newton mp [] = Ok p) ->
  well_hung mp (rb_lam T) "B" (n "B") -> well_hung mp (rb_lam T) "H" (n "H") ->
  exists r, calculate_benchmark_from_measured newton mp = Ok r.
Proof. exact whole_defined. Qed.
Print Assumptions C47_whole_fork_defined.
(* fork and handlebar measured separately: also their rigid union H *)
Theorem C47_split_fork : forall newton mp T k n par ex, exact_measurements_split newton mp T k n ->
  calculate_benchmark_from_measured newton mp = Ok (par, ex) ->
  exists H, is_union (rb_part T "S") (rb_part T "G") H /\
  forall key v, In (key, v) (common_entries T ++ body_entries "S" (rb_part T "S") ++ body_entries "G" (rb_part T "G") ++ body_entries "H" H)%list ->
    dget par key = Some v.
Proof. intros newton mp T k n par ex EX. exact (split_exact newton mp T k n EX par ex). Qed.
Print Assumptions C47_split_fork.
Theorem C47_split_fork_defined : forall newton mp T k n, exact_measurements_split newton mp T k n ->
  (exists p, calculate_benchmark_geometry newton mp [] = Ok p) ->
  well_hung mp (rb_lam T) "B" (n "B") -> well_hung mp (rb_lam T) "G" (n "G") -> well_hung mp (rb_lam T) "S" (n "S") ->
  (forall key, In key ["h6"; "h7"; "d5"; "d6"; "l"] -> In key (dkeys mp)) -> pv mp "l" - pv mp "d5" / 2 - pv mp "d6" / 2 <> 0 ->
  sin (rb_lam T) <> 0 -> b_m (rb_part T "S") + b_m (rb_part T "G") <> 0 ->
  exists r, calculate_benchmark_from_measured newton mp = Ok r.
Proof. exact split_defined. Qed.
Print Assumptions C47_split_fork_defined.
(* a flywheel weighed and swung together with the front wheel *)
Theorem C47_flywheel : forall newton mp par ex T k D, calculate_benchmark_from_measured newton mp = Ok (par, ex) ->
  dget mp "g" = Some (rb_g T) -> exact_rod mp k -> exact_wheel mp T k "F" (rb_F T) -> exact_flywheel mp (rb_g T) k (rb_F T) D ->
  dget par "mD" = Some (w_m D) /\ dget par "IDyy" = Some (w_yy D) /\ dget par "IDxx" = Some (w_xx D).
Proof. exact flywheel. Qed.
Print Assumptions C47_flywheel.
Theorem C47_flywheel_iff : forall newton mp par ex, calculate_benchmark_from_measured newton mp = Ok (par, ex) ->
  (In "mD" (dkeys mp) <-> In "mD" (dkeys par)) /\
  (In "mD" (dkeys mp) /\ In "TcD1" (dkeys mp) <-> In "IDyy" (dkeys par)) /\ (In "TtD1" (dkeys mp) <-> In "IDxx" (dkeys par)).
Proof. exact no_flywheel. Qed.
Print Assumptions C47_flywheel_iff.

(* a bicycle with 45 degrees steer axis tilt, each part hung in three orientations *)
Definition ex_s : R := / sqrt 2.
Definition ex_common : dict R :=
  [("nF", 1); ("dF", 2 * PI); ("nR", 1); ("dR", 2 * PI); ("w", 1); ("gamma", 45); ("f", ex_s); ("g", 13);
   ("lP", 3); ("mP", 1); ("dP", 2); ("TtP1", 2 * PI);
   ("mF", 1); ("lF", 1); ("TcF1", 2 * PI); ("TtF1", 6 * PI);
   ("mR", 1); ("lR", 1); ("TcR1", 2 * PI); ("TtR1", 6 * PI)].
Definition ex_part (X : string) : dict R :=
  [("m" ++ X, 1); ("Tc" ++ X ++ "1", 2 * PI);
   ("alpha" ++ X ++ "1", 45); ("a" ++ X ++ "1", 4 / 5); ("Tt" ++ X ++ "1", 2 * PI);
   ("alpha" ++ X ++ "2", 90); ("a" ++ X ++ "2", 7 / 5 * ex_s); ("Tt" ++ X ++ "2", 6 * PI);
   ("alpha" ++ X ++ "3", 0); ("a" ++ X ++ "3", 1 / 5 * ex_s); ("Tt" ++ X ++ "3", 4 * PI)].
Definition ex_whole : dict R := (ex_common ++ ex_part "B" ++ ex_part "H")%list.
Definition ex_split : dict R := (ex_common ++ [("h6", 0); ("h7", 0); ("d5", 0); ("d6", 0); ("l", 1)] ++ ex_part "B" ++ ex_part "G" ++ ex_part "S")%list.
Definition ex_body (ref : R * R) : rbody := mkrbody 1 (fst ref + 3 / 5) (snd ref - 4 / 5) 1 (5 / 2) 12 12.
Definition ex_bike : rbike := mkrbike 1 0 (PI / 4) 13 (mkrwheel 1 1 9 12) (mkrwheel 1 1 9 12)
  (fun X => if String.eqb X "B" then ex_body (0, -1) else if String.eqb X "G" then ex_body (1 - ex_s, -1 - ex_s) else ex_body (1, -1)).
Definition ex_newton : (R -> res R) -> R -> res R := fun _ _ => Err RuntimeError.

Lemma ex_s2 : ex_s * ex_s = / 2.
Proof. unfold ex_s. rewrite <- Rinv_mult. rewrite sqrt_sqrt by lra. reflexivity. Qed.
Lemma ex_pi : PI <> 0. Proof. exact PI_neq0. Qed.
Lemma osc J k a : a <> 0 -> 4 * J = k * (a * a) -> oscillates_with_period J k (a * PI).
Proof.
  intros HA H. pose proof ex_pi as P. apply oscillates_iff; [apply Rmult_integral_contrapositive; auto|].
  replace (J * (2 * PI / (a * PI)) ^ 2) with (4 * J / (a * a)) by (field; auto). rewrite H. field. exact HA.
Qed.
Lemma ex_geometry mp : (forall k v, In (k, v) ex_common -> dget mp k = Some v) -> exact_geometry ex_newton mp ex_bike.
Proof.
  intros H. assert (V : forall k v, In (k, v) ex_common -> pv mp k = v) by (intros k v K; unfold pv; rewrite (H k v K); reflexivity).
  unfold exact_geometry. cbn [ex_bike rb_F rb_R w_r rb_w rb_lam rb_c].
  rewrite (V "nF" 1), (V "dF" (2 * PI)), (V "nR" 1), (V "dR" (2 * PI)), (V "w" 1), (V "gamma" 45), (V "f" ex_s) by (cbn; tauto).
  repeat split; try lra. left. repeat split.
  - apply dget_some_in. exists 1. apply H. cbn; tauto.
  - pose proof ex_pi. field. assumption.
  - unfold ahead. replace (PI / 4) with (PI / 4) by reflexivity. rewrite cos_PI4, sin_PI4. unfold ex_s. field. apply Rgt_not_eq, sqrt_lt_R0. lra.
Qed.
Lemma ex_rod mp : (forall k v, In (k, v) ex_common -> dget mp k = Some v) -> exact_rod mp 1.
Proof.
  intros H. exists 3, 1, 2, (2 * PI), (/ (3 * PI)). pose proof ex_pi as P.
  assert (M : tube_integral (/ (3 * PI)) 3 (2 / 2) 0 (fun _ _ _ => 1) = 1) by (rewrite tube_mass; field; exact P).
  repeat split; try (apply H; cbn; tauto); [lra | exact M |].
  destruct (tube_inertia 3 1 (2 / 2) 0) as [[Ix Iy] Iz] eqn:E. pose proof (tube_spec _ _ _ _ _ _ _ _ M E) as (_ & <- & _).
  unfold tube_inertia in E. injection E as _ <- _. apply osc; lra.
Qed.
Lemma ex_wheel mp X : X = "F" \/ X = "R" -> (forall k v, In (k, v) ex_common -> dget mp k = Some v) -> exact_wheel mp ex_bike 1 X (mkrwheel 1 1 9 12).
Proof.
  intros HX H. pose proof ex_pi as P. split; [apply H; destruct HX as [-> | ->]; cbn; tauto|]. exists 1, (2 * PI), (6 * PI). cbn [w_yy w_m w_xx rb_g ex_bike].
  repeat split; try (apply H; destruct HX as [-> | ->]; cbn; tauto); try lra; apply osc; lra.
Qed.
Lemma ex_dir d : hanging_directions (PI / 4) (PI / 4 + d) (sin d, - cos d) (- cos d, - sin d).
Proof.
  pose proof (sc1 d) as S. pose proof (sc1 (PI / 4)) as Q. unfold hanging_directions, dot2. cbn [fst snd]. repeat split; try lra.
  f_equal; rewrite cos_plus, sin_plus.
  - transitivity (- sin (PI / 4) * (sin d * sin d + cos d * cos d)); [rewrite S; ring | ring].
  - transitivity (- cos (PI / 4) * (sin d * sin d + cos d * cos d)); [rewrite S; ring | ring].
Qed.
Lemma ex_pi4 : cos (PI / 4) = ex_s /\ sin (PI / 4) = ex_s /\ cos (- (PI / 4)) = ex_s /\ sin (- (PI / 4)) = - ex_s.
Proof.
  assert (1 / sqrt 2 = ex_s) by (unfold ex_s; field; apply Rgt_not_eq, sqrt_lt_R0; lra).
  rewrite cos_neg, sin_neg, cos_PI4, sin_PI4, H. auto.
Qed.
Lemma ex_exact mp X ref : (forall k v, In (k, v) (ex_part X) -> dget mp k = Some v) -> rb_part ex_bike X = ex_body ref ->
  exact_part mp ex_bike 1 X ref 3.
Proof.
  intros H B. destruct ex_pi4 as (C1 & S1 & C2 & S2). pose proof ex_s2 as SS. unfold exact_part. rewrite B.
  unfold ex_body. cbn [b_m b_x b_z b_xx b_xz b_yy b_zz].
  repeat split.
  - apply H. cbn; tauto.
  - intros i Hi. assert (i = 1 \/ i = 2 \/ i = 3)%nat as [-> | [-> | ->]] by lia.
    + exists 45, (4 / 5), (2 * PI), (sin 0, - cos 0), (- cos 0, - sin 0). cbn [rb_lam ex_bike].
      split; [apply H; cbn; tauto|]. split; [apply H; cbn; tauto|]. split; [apply H; cbn; tauto|]. split; [|split; [|split]].
      * replace (45 * PI / 180) with (PI / 4 + 0) by lra. apply ex_dir.
      * rewrite sin_0, cos_0. unfold dot2. cbn [fst snd]. lra.
      * pose proof ex_pi. lra.
      * rewrite sin_0, cos_0. unfold moment, tensor_of. cbn [b_m b_x b_z b_xx b_xz b_yy b_zz fst snd]. unfold m3_app, v3_dot. cbn [r1 r2 r3 vx vy vz]. apply osc; lra.
    + exists 90, (7 / 5 * ex_s), (6 * PI), (sin (PI / 4), - cos (PI / 4)), (- cos (PI / 4), - sin (PI / 4)). cbn [rb_lam ex_bike].
      split; [apply H; cbn; tauto|]. split; [apply H; cbn; tauto|]. split; [apply H; cbn; tauto|]. split; [|split; [|split]].
      * replace (90 * PI / 180) with (PI / 4 + PI / 4) by lra. apply ex_dir.
      * rewrite S1, C1. unfold dot2. cbn [fst snd]. lra.
      * pose proof ex_pi. lra.
      * rewrite S1, C1. unfold moment, tensor_of. cbn [b_m b_x b_z b_xx b_xz b_yy b_zz fst snd]. unfold m3_app, v3_dot. cbn [r1 r2 r3 vx vy vz]. apply osc; nra.
    + exists 0, (1 / 5 * ex_s), (4 * PI), (sin (- (PI / 4)), - cos (- (PI / 4))), (- cos (- (PI / 4)), - sin (- (PI / 4))). cbn [rb_lam ex_bike].
      split; [apply H; cbn; tauto|]. split; [apply H; cbn; tauto|]. split; [apply H; cbn; tauto|]. split; [|split; [|split]].
      * replace (0 * PI / 180) with (PI / 4 + - (PI / 4)) by lra. apply ex_dir.
      * rewrite S2, C2. unfold dot2. cbn [fst snd]. lra.
      * pose proof ex_pi. lra.
      * rewrite S2, C2. unfold moment, tensor_of. cbn [b_m b_x b_z b_xx b_xz b_yy b_zz fst snd]. unfold m3_app, v3_dot. cbn [r1 r2 r3 vx vy vz]. apply osc; nra.
  - exists (2 * PI). split; [apply H; cbn; tauto|]. split; [pose proof ex_pi; lra|]. cbv zeta. cbn [rb_g ex_bike].
    replace (sqrt (sqdist2 (fst ref + 3 / 5, snd ref - 4 / 5) ref)) with 1; [apply osc; lra|].
    symmetry. transitivity (sqrt 1); [f_equal | apply sqrt_1]. unfold sqdist2. cbn [fst snd]. lra.
Qed.
Lemma ex_hung mp X : (forall k v, In (k, v) (ex_part X) -> dget mp k = Some v) -> well_hung mp (PI / 4) X 3.
Proof.
  intros H. destruct ex_pi4 as (C1 & S1 & C2 & S2). pose proof ex_s2 as SS. assert (NZ : ex_s <> 0) by (intros E; rewrite E in SS; lra).
  assert (A1 : pv mp ("alpha" ++ X ++ nat_str 1) = 45) by (unfold pv; erewrite H; [reflexivity | cbn; tauto]).
  assert (A2 : pv mp ("alpha" ++ X ++ nat_str 2) = 90) by (unfold pv; erewrite H; [reflexivity | cbn; tauto]).
  assert (A3 : pv mp ("alpha" ++ X ++ nat_str 3) = 0) by (unfold pv; erewrite H; [reflexivity | cbn; tauto]).
  repeat split; [lia | |].
  - intros i Hi. assert (i = 1 \/ i = 2 \/ i = 3)%nat as [-> | [-> | ->]] by lia; rewrite ?A1, ?A2, ?A3.
    + replace (PI / 4 - 45 * PI / 180) with 0 by lra. rewrite cos_0. lra.
    + replace (PI / 4 - 90 * PI / 180) with (- (PI / 4)) by lra. rewrite C2. exact NZ.
    + replace (PI / 4 - 0 * PI / 180) with (PI / 4) by lra. rewrite C1. exact NZ.
  - intros i j [Hi Hj] Hn. assert ((i = 1 /\ j = 2) \/ (i = 1 /\ j = 3) \/ (i = 2 /\ j = 3))%nat as [[-> ->] | [[-> ->] | [-> ->]]] by lia; rewrite ?A1, ?A2, ?A3.
    + replace (45 * PI / 180 - 90 * PI / 180) with (- (PI / 4)) by lra. rewrite S2. lra.
    + replace (45 * PI / 180 - 0 * PI / 180) with (PI / 4) by lra. rewrite S1. exact NZ.
    + replace (90 * PI / 180 - 0 * PI / 180) with (PI / 2) by lra. rewrite sin_PI2. lra.
Qed.
Ltac names := intros k v K; cbn [ex_common ex_part In append app] in K; repeat (destruct K as [K|K]; [injection K as <- <-; reflexivity|]); contradiction.
Lemma ex_orientations mp parts : mp = ex_whole /\ parts = ["B"; "H"] \/ mp = ex_split /\ parts = ["B"; "G"; "S"] -> orientation_names mp parts (fun _ => 3%nat).
Proof.
  intros [[-> ->] | [-> ->]]; (split; [|split; [intros; lia|]]).
  1, 3: cbn [dkeys map fst ex_whole ex_split ex_common ex_part app append]; repeat constructor; cbn [In]; intuition discriminate.
  all: intros key K S; cbn [dkeys map fst ex_whole ex_split ex_common ex_part app append In] in K;
    repeat (destruct K as [<-|K]; [cbn in S; first [discriminate S |
      match goal with |- context [String _ (String _ (String _ (String _ (String _ (String ?c (String ?d EmptyString))))))] =>
        exists (String c ""); first [exists 1%nat; split; [cbn; tauto | split; [lia | reflexivity]] | exists 2%nat; split; [cbn; tauto | split; [lia | reflexivity]] | exists 3%nat; split; [cbn; tauto | split; [lia | reflexivity]]] end]|]);
    contradiction.
Qed.
Example C47_whole_met : exact_measurements_whole ex_newton ex_whole ex_bike 1 (fun _ => 3%nat) /\
  (exists p, calculate_benchmark_geometry ex_newton ex_whole [] = Ok p) /\ well_hung ex_whole (rb_lam ex_bike) "B" 3 /\ well_hung ex_whole (rb_lam ex_bike) "H" 3 /\
  exists par ex, calculate_benchmark_from_measured ex_newton ex_whole = Ok (par, ex) /\ dget par "IHxz" = Some (5 / 2) /\ dget par "xB" = Some (3 / 5).
Proof.
  assert (HC : forall k v, In (k, v) ex_common -> dget ex_whole k = Some v) by names.
  assert (HB : forall k v, In (k, v) (ex_part "B") -> dget ex_whole k = Some v) by names.
  assert (HH : forall k v, In (k, v) (ex_part "H") -> dget ex_whole k = Some v) by names.
  assert (EX : exact_measurements_whole ex_newton ex_whole ex_bike 1 (fun _ => 3%nat)).
  { split; [|split; [|split; [|split; [|split; [|split; [|split; [|split]]]]]]].
    - intros key K. cbn [dkeys map fst ex_whole ex_common ex_part app append In] in K. repeat (destruct K as [<-|K]; [cbn; split; discriminate|]). contradiction.
    - apply ex_geometry, HC.
    - apply ex_orientations. auto.
    - apply HC. cbn; tauto.
    - apply ex_rod, HC.
    - apply ex_wheel; auto.
    - apply ex_wheel; auto.
    - apply ex_exact; [exact HB | reflexivity].
    - apply ex_exact; [exact HH | reflexivity]. }
  assert (GE : exists p, calculate_benchmark_geometry ex_newton ex_whole [] = Ok p).
  { unfold calculate_benchmark_geometry, dlook. rewrite (HC "dF" (2 * PI)), (HC "nF" 1), (HC "dR" (2 * PI)), (HC "nR" 1), (HC "gamma" 45), (HC "w" 1), (HC "f" ex_s) by (cbn; tauto).
    cbn [bind]. rewrite !rdiv_eq by lra. cbn [bind]. change (dmem ex_whole "w") with true. cbn [bind].
    replace (PI / 180 * (90 - 45)) with (PI / 4) by lra. unfold trail. destruct ex_pi4 as (C1 & _). rewrite C1. rewrite rdiv_eq; [cbn [bind]; eexists; reflexivity|].
    pose proof ex_s2 as SS. intros E. rewrite E in SS. lra. }
  assert (WB : well_hung ex_whole (rb_lam ex_bike) "B" 3) by (apply ex_hung, HB).
  assert (WH : well_hung ex_whole (rb_lam ex_bike) "H" 3) by (apply ex_hung, HH).
  do 4 (split; [assumption|]). destruct (C47_whole_fork_defined _ _ _ _ _ EX GE WB WH) as [[par ex] E]. exists par, ex. split; [exact E|].
  pose proof (C47_whole_fork _ _ _ _ _ _ _ EX E) as F. split; [apply F; cbn; tauto|].
  rewrite (F "xB" (0 + 3 / 5)) by (cbn; tauto). f_equal. lra.
Qed.
Example C47_split_met : exact_measurements_split ex_newton ex_split ex_bike 1 (fun _ => 3%nat) /\
  exists par ex, calculate_benchmark_from_measured ex_newton ex_split = Ok (par, ex) /\ dget par "mH" = Some 2.
Proof.
  assert (HC : forall k v, In (k, v) ex_common -> dget ex_split k = Some v) by names.
  assert (HB : forall k v, In (k, v) (ex_part "B") -> dget ex_split k = Some v) by names.
  assert (HG : forall k v, In (k, v) (ex_part "G") -> dget ex_split k = Some v) by names.
  assert (HS : forall k v, In (k, v) (ex_part "S") -> dget ex_split k = Some v) by names.
  destruct ex_pi4 as (C1 & S1 & _). pose proof ex_s2 as SS.
  assert (EX : exact_measurements_split ex_newton ex_split ex_bike 1 (fun _ => 3%nat)).
  { split; [|split; [|split; [|split; [|split; [|split; [|split; [|split]]]]]]].
    - apply ex_geometry, HC.
    - apply ex_orientations. auto.
    - apply HC. cbn; tauto.
    - apply ex_rod, HC.
    - apply ex_wheel; auto.
    - apply ex_wheel; auto.
    - apply ex_exact; [exact HB | reflexivity].
    - apply ex_exact; [exact HS | reflexivity].
    - exists 0, 1. change (pv ex_split "l") with 1. change (pv ex_split "d5") with 0. change (pv ex_split "d6") with 0. change (pv ex_split "h6") with 0. change (pv ex_split "h7") with 0.
      cbv zeta. repeat (split; [lra|]). apply ex_exact; [exact HG|]. cbn [rb_part ex_bike String.eqb Ascii.eqb Bool.eqb rb_lam rb_F w_r rb_w]. rewrite C1, S1. f_equal. f_equal; ring. }
  split; [exact EX|].
  assert (GE : exists p, calculate_benchmark_geometry ex_newton ex_split [] = Ok p).
  { unfold calculate_benchmark_geometry, dlook. rewrite (HC "dF" (2 * PI)), (HC "nF" 1), (HC "dR" (2 * PI)), (HC "nR" 1), (HC "gamma" 45), (HC "w" 1), (HC "f" ex_s) by (cbn; tauto).
    cbn [bind]. rewrite !rdiv_eq by lra. cbn [bind]. change (dmem ex_split "w") with true. cbn [bind].
    replace (PI / 180 * (90 - 45)) with (PI / 4) by lra. unfold trail. rewrite C1. rewrite rdiv_eq; [cbn [bind]; eexists; reflexivity|].
    intros E. rewrite E in SS. lra. }
  destruct (C47_split_fork_defined _ _ _ _ _ EX GE) as [[par ex] E].
  - apply ex_hung, HB.
  - apply ex_hung, HG.
  - apply ex_hung, HS.
  - intros key K. cbn [In] in K. repeat (destruct K as [<-|K]; [cbn; tauto|]). contradiction.
  - change (pv ex_split "l") with 1. change (pv ex_split "d5") with 0. change (pv ex_split "d6") with 0. lra.
  - cbn [rb_lam ex_bike]. rewrite S1. intros Z. rewrite Z in SS. lra.
  - cbn. lra.
  - exists par, ex. split; [exact E|]. destruct (C47_split_fork _ _ _ _ _ _ _ EX E) as (Hb & U & F). rewrite (F "mH" (b_m Hb)).
    + destruct U as [-> _]. apply f_equal. change (1 + 1 = 2). lra.
    + apply in_or_app. right. apply in_or_app. right. apply in_or_app. right. left. reflexivity.
Qed.

(* Why at most nine orientations: the angles are taken in the alphabetical order of
   their names, the torsional periods in the order of their numbers. *)
Lemma rod_stiffness mp k : bm_stiffness mp = Ok k -> pv mp "TtP1" <> 0 /\ k * pv mp "TtP1" ^ 2 = 4 * PI ^ 2 * (pv mp "mP" / 12 * (3 * (pv mp "dP" / 2) ^ 2 + pv mp "lP" ^ 2)).
Proof.
  intros H. unfold bm_stiffness in H. apply bind_ok in H as (lP & E1 & H). apply bind_ok in H as (mP & E2 & H). apply bind_ok in H as (dP & E3 & H). unfold tube_inertia in H. apply bind_ok in H as (T & E4 & H).
  assert (L : forall key x, dlook mp key = Ok x -> pv mp key = x) by (intros key x; unfold dlook, pv; destruct (dget mp key); congruence).
  rewrite (L _ _ E1), (L _ _ E2), (L _ _ E3), (L _ _ E4). unfold torsional_pendulum_stiffness in H. apply rdiv_ok in H as (N & ->). assert (NT : T <> 0) by (intros ->; apply N; ring). split; [exact NT|]. field. exact NT.
Qed.
Theorem C47_orientation_order : forall newton mp par ex, calculate_benchmark_from_measured newton mp = Ok (par, ex) ->
  exists k lam, pv mp "TtP1" <> 0 /\ k * pv mp "TtP1" ^ 2 = 4 * PI ^ 2 * (pv mp "mP" / 12 * (3 * (pv mp "dP" / 2) ^ 2 + pv mp "lP" ^ 2)) /\ dget par "lam" = Some lam /\
  forall X, In X (if is_fork_split mp then ["B"; "G"; "S"] else ["B"; "H"]) ->
    let keys := filter (starts_with ("alpha" ++ X)) (ssort (dkeys mp)) in
    dget (ex_betas ex) X = Some (map (fun key => lam - pv mp key * PI / 180) keys) /\
    dget (ex_pendulum ex) X = Some (map (fun i => tor_inertia k (pv mp ("Tt" ++ X ++ nat_str i))) (seq 1 (length keys))).
Proof.
  intros newton mp par ex H. apply extras_order in H. destruct H as (k & lam & HK & HL & H). destruct (rod_stiffness mp k HK) as (N & E). exists k, lam. auto.
Qed.
Print Assumptions C47_orientation_order.
(* With ten orientations of the frame the second inertia, calculated from TtB2, is
   paired with the tenth angle. *)
Theorem C47_ten_orientations_mixed_up : forall newton mp par ex, calculate_benchmark_from_measured newton mp = Ok (par, ex) ->
  NoDup (dkeys mp) -> (forall key, In key (dkeys mp) /\ starts_with "alphaB" key = true <-> In key (map (fun i => "alphaB" ++ nat_str i) (seq 1 10))) ->
  exists k lam betas inertias, pv mp "TtP1" <> 0 /\ k * pv mp "TtP1" ^ 2 = 4 * PI ^ 2 * (pv mp "mP" / 12 * (3 * (pv mp "dP" / 2) ^ 2 + pv mp "lP" ^ 2)) /\ dget par "lam" = Some lam /\
    dget (ex_betas ex) "B" = Some betas /\ dget (ex_pendulum ex) "B" = Some inertias /\ length betas = 10%nat /\
    nth_error betas 1 = Some (lam - pv mp "alphaB10" * PI / 180) /\ nth_error inertias 1 = Some (tor_inertia k (pv mp "TtB2")).
Proof.
  intros newton mp par ex H ND K. apply extras_order in H. destruct H as (k & lam & HK & HL & H).
  assert (HB : In "B" (if is_fork_split mp then ["B"; "G"; "S"] else ["B"; "H"])) by (destruct (is_fork_split mp); left; reflexivity).
  destruct (H "B" HB) as [A B]. clear H.
  assert (E : filter (starts_with ("alpha" ++ "B")) (ssort (dkeys mp)) =
    ["alphaB1"; "alphaB10"; "alphaB2"; "alphaB3"; "alphaB4"; "alphaB5"; "alphaB6"; "alphaB7"; "alphaB8"; "alphaB9"]).
  { apply sorted_unique.
    - apply SSorted_filter, ssort_sorted.
    - repeat (apply SSorted_cons; [|repeat (apply Forall_cons; [reflexivity|]); apply Forall_nil]); apply SSorted_nil.
    - apply NoDup_Permutation.
      + apply NoDup_filter, ssort_nodup, ND.
      + repeat constructor; cbn [In]; intuition discriminate.
      + intros key. rewrite filter_In, ssort_in, (K key). cbn. tauto. }
  rewrite E in A, B. destruct (rod_stiffness mp k HK) as (N & EK). exists k, lam. do 2 eexists. split; [exact N|]. split; [exact EK|]. split; [exact HL|]. split; [exact A|]. split; [exact B|]. repeat split.
Qed.
Print Assumptions C47_ten_orientations_mixed_up.

(* ================= C48 ================= *)
(* In axes turned with the steer axis, the tensor about the mass centre of the chosen parts. *)
Theorem C48_about_mass_centre : forall par handlebar fork wheel J, steer_assembly par handlebar fork wheel false = Ok J ->
  exists c, is_com (assembly_particles par (chosen handlebar fork wheel)) c /\
  forall n, moment J (turn_y (pv par "lam") n) = assembly_moment par (chosen handlebar fork wheel) c n.
Proof. exact steer_about_com. Qed.
Print Assumptions C48_about_mass_centre.
(* ... and about the foot of the perpendicular from the mass centre on the steer axis. *)
Theorem C48_about_steer_axis : forall par handlebar fork wheel J, steer_assembly par handlebar fork wheel true = Ok J ->
  exists c s, let o := steer_axis_point (pv par "w") (pv par "c") (pv par "lam") s in
  is_com (assembly_particles par (chosen handlebar fork wheel)) c /\ v3_dot (v3_sub c o) (steer_dir (pv par "lam")) = 0 /\
  forall n, moment J (turn_y (pv par "lam") n) = assembly_moment par (chosen handlebar fork wheel) o n.
Proof. exact steer_about_axis. Qed.
Print Assumptions C48_about_steer_axis.
(* its 3,3 entry is the moment of inertia of the chosen parts about the steer axis *)
Theorem C48_moment_about_steer_axis : forall par handlebar fork wheel J s, steer_assembly par handlebar fork wheel true = Ok J ->
  vz (r3 J) = assembly_moment par (chosen handlebar fork wheel) (steer_axis_point (pv par "w") (pv par "c") (pv par "lam") s) (steer_dir (pv par "lam")).
Proof. exact steer_33. Qed.
Print Assumptions C48_moment_about_steer_axis.
(* it agrees with the steer-steer entry of the mass matrix when the trail is zero *)
Theorem C48_agrees_with_mass_matrix : forall par par' can J, steer_assembly par true true true true = Ok J -> benchmark_par_to_canonical par = (par', Ok can) ->
  pv par "c" = 0 -> vz (r3 J) = m22 (cM can).
Proof. exact steer_canonical. Qed.
Print Assumptions C48_agrees_with_mass_matrix.
Theorem C48_defined : forall par handlebar fork wheel about,
  (forall X k, In X (chosen handlebar fork wheel) -> X <> "F" -> In k (part_keys X) -> In k (dkeys par)) ->
  In "lam" (dkeys par) -> (wheel = true -> forall k, In k wheel_keys -> In k (dkeys par)) ->
  (wheel = true -> mass_of (assembly_particles par (chosen handlebar fork wheel)) <> 0) ->
  (about = true -> In "w" (dkeys par) /\ In "c" (dkeys par)) ->
  exists J, steer_assembly par handlebar fork wheel about = Ok J.
Proof. exact steer_defined. Qed.
Print Assumptions C48_defined.
Theorem C48_not_measured_separately : forall par handlebar fork wheel about X k,
  handlebar <> fork -> In X (chosen handlebar fork wheel) -> X <> "F" -> In k (part_keys X) -> ~ In k (dkeys par) ->
  exists msg, steer_assembly par handlebar fork wheel about = Err (ValueError msg).
Proof. exact steer_not_split. Qed.
Print Assumptions C48_not_measured_separately.
Definition ex48 : dict R := [("IBxx", 1); ("IHxx", 2); ("IHxz", 1/2); ("IHyy", 3); ("IHzz", 2); ("mH", 4); ("xH", 9/10); ("zH", -(7/10));
  ("mF", 2); ("w", 1); ("rF", 3/10); ("IFxx", 1/10); ("IFyy", 2/10); ("lam", 1/3); ("c", 1/10)].
Example C48_defined_example : exists J, steer_assembly ex48 true true true true = Ok J.
Proof.
  apply C48_defined.
  - intros X k HX NF K. cbn in HX. destruct HX as [<-|[<-|[]]]; [|congruence]. cbn in K. cbn. tauto.
  - cbn; tauto.
  - intros _ k K. cbn in K. cbn. tauto.
  - intros _. cbn. unfold mass_of, sum_over. cbn. unfold pv; cbn. lra.
  - intros _. cbn. tauto.
Qed.
Example C48_separate_example : exists msg, steer_assembly ex48 false true true true = Err (ValueError msg).
Proof. apply C48_not_measured_separately with (X := "S") (k := "mS"); cbn; try tauto; try discriminate; intuition discriminate. Qed.
(* with zero trail: the hypotheses of the agreement theorem are met *)
Definition ex48c : dict R := ([("c", 0); ("g", 9); ("mB", 80); ("xB", 3/10); ("zB", -(9/10)); ("IByy", 11); ("IBzz", 3); ("IBxz", 2); ("IBxx", 9);
  ("mR", 2); ("rR", 3/10); ("IRxx", 1/10); ("IRyy", 2/10)] ++ ex48)%list.
Example C48_agreement_met : exists J par' can, steer_assembly ex48c true true true true = Ok J /\ benchmark_par_to_canonical ex48c = (par', Ok can) /\ pv ex48c "c" = 0.
Proof.
  destruct (C48_defined ex48c true true true true) as [J E].
  - intros X k HX NF K. cbn in HX. destruct HX as [<-|[<-|[]]]; [|congruence]. cbn in K. cbn. tauto.
  - cbn; tauto.
  - intros _ k K. cbn in K. cbn. tauto.
  - intros _. cbn. unfold mass_of, sum_over. cbn. unfold pv; cbn. lra.
  - intros _. cbn. tauto.
  - exists J, (canon_dict ex48c), (F_canon (pv ex48c)). split; [exact E|]. split; [|reflexivity]. apply canon_forward.
    + intros k K. cbn in K. cbn. tauto.
    + unfold canon_nonzero, pv. cbn. repeat split; lra.
Qed.
