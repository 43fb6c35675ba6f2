(* TEnd2.v -- C47: every physical bicycle can be measured (so the theorems on exact
   measurements speak about all of them), and an example for C73 *)
From Coq Require Import Lra Lia.
From Verif Require Import Base MString MIo MPeriod MMain MState MHeap MBicycle MVec MInertia MGeometry MModels MModels2 MEig PBase SBicycle SInertia SGeometry SModels SModels2 SEig PBicycle PBicycle2 PModels TEig PGeometry PGeometry2 PInertia PInertia2 PEig SStab TStab SMain
  PMain PMain3 TMain TInertia SIo SState TState PIo SEnd TEnd.
Local Open Scope string_scope.
Local Open Scope R_scope.

(* the period of a pendulum of inertia J and stiffness k *)
Definition period (J k : R) : R := 2 * PI * sqrt (J / k).
Lemma period_pos J k : 0 < J -> 0 < k -> 0 < period J k.
Proof. intros HJ HK. unfold period. pose proof PI_RGT_0. assert (0 < sqrt (J / k)) by (apply sqrt_lt_R0, Rdiv_lt_0_compat; assumption). nra. Qed.
Lemma period_ok J k : 0 < J -> 0 < k -> period J k <> 0 /\ oscillates_with_period J k (period J k).
Proof.
  intros HJ HK. pose proof (period_pos J k HJ HK) as P. split; [lra|]. apply oscillates_iff; [lra|]. unfold period in *.
  assert (S : sqrt (J / k) * sqrt (J / k) = J / k) by (apply sqrt_sqrt, Rlt_le, Rdiv_lt_0_compat; assumption).
  assert (Q : 0 < sqrt (J / k)) by (apply sqrt_lt_R0, Rdiv_lt_0_compat; assumption). pose proof PI_RGT_0.
  replace (2 * PI / (2 * PI * sqrt (J / k))) with (/ sqrt (J / k)) by (field; lra). replace ((/ sqrt (J / k)) ^ 2) with (/ (sqrt (J / k) * sqrt (J / k))) by (field; lra). rewrite S. field. lra.
Qed.

Lemma sq_pos x : x <> 0 -> 0 < x ^ 2.
Proof. intros N. destruct (Rtotal_order x 0) as [L|[E|G]]; [nra|contradiction|nra]. Qed.
(* what a measured part and a wheel must be like *)
Definition solid_part (b : rbody) : Prop := 0 < b_m b /\ 0 < b_xx b /\ 0 < b_yy b /\ 0 < b_xx b * b_zz b - b_xz b ^ 2.
Definition solid_wheel (w : rwheel) : Prop := 0 < w_m w /\ 0 < w_xx w /\ 0 < w_yy w.
Definition solid_bike (T : rbike) : Prop :=
  0 < rb_g T /\ cos (rb_lam T) <> 0 /\ solid_wheel (rb_F T) /\ solid_wheel (rb_R T) /\
  solid_part (rb_part T "B") /\ solid_part (rb_part T "H") /\
  (b_x (rb_part T "B"), b_z (rb_part T "B")) <> rear_hub T /\ (b_x (rb_part T "H"), b_z (rb_part T "H")) <> front_hub T.

(* a part is hung with the steer axis horizontal, and 45 degrees to either side of that *)
Definition turn (i : nat) : R := match i with 1%nat => 0 | 2%nat => PI / 4 | _ => - (PI / 4) end.
Definition mp_common (T : rbike) : dict R :=
  [("nF", 1); ("dF", 2 * PI * w_r (rb_F T)); ("nR", 1); ("dR", 2 * PI * w_r (rb_R T)); ("w", rb_w T); ("gamma", 90 - rb_lam T * 180 / PI);
   ("f", ahead (rb_w T) (rb_c T) (rb_lam T) (rb_w T) (- w_r (rb_F T))); ("g", rb_g T);
   ("lP", 3); ("mP", 1); ("dP", 2); ("TtP1", 2 * PI);
   ("mF", w_m (rb_F T)); ("lF", 1); ("TcF1", period (w_yy (rb_F T) + w_m (rb_F T) * 1 ^ 2) (w_m (rb_F T) * rb_g T * 1)); ("TtF1", period (w_xx (rb_F T)) 1);
   ("mR", w_m (rb_R T)); ("lR", 1); ("TcR1", period (w_yy (rb_R T) + w_m (rb_R T) * 1 ^ 2) (w_m (rb_R T) * rb_g T * 1)); ("TtR1", period (w_xx (rb_R T)) 1)].
Definition mp_part (T : rbike) (X : string) (ref : R * R) : dict R :=
  let b := rb_part T X in
  let l := sqrt (sqdist2 (b_x b, b_z b) ref) in
  let angle d := (rb_lam T + d) * 180 / PI in
  let away d := dot2 (b_x b - fst ref, b_z b - snd ref) (sin d, - cos d) in
  let turning d := period (moment (tensor_of b) (mk3 (- cos d) 0 (- sin d))) 1 in
  [("m" ++ X, b_m b); ("Tc" ++ X ++ "1", period (b_yy b + b_m b * l ^ 2) (b_m b * rb_g T * l));
   ("alpha" ++ X ++ "1", angle 0); ("a" ++ X ++ "1", away 0); ("Tt" ++ X ++ "1", turning 0);
   ("alpha" ++ X ++ "2", angle (PI / 4)); ("a" ++ X ++ "2", away (PI / 4)); ("Tt" ++ X ++ "2", turning (PI / 4));
   ("alpha" ++ X ++ "3", angle (- (PI / 4))); ("a" ++ X ++ "3", away (- (PI / 4))); ("Tt" ++ X ++ "3", turning (- (PI / 4)))].
Definition mp_of (T : rbike) : dict R := (mp_common T ++ mp_part T "B" (rear_hub T) ++ mp_part T "H" (front_hub T))%list.

Lemma hangs lam d : hanging_directions lam (lam + d) (sin d, - cos d) (- cos d, - sin d).
Proof.
  pose proof (sc1 d) as S. unfold hanging_directions, dot2. cbn [fst snd]. repeat split; try lra.
  f_equal; rewrite cos_plus, sin_plus.
  - transitivity (- sin lam * (sin d * sin d + cos d * cos d)); [rewrite S; ring | ring].
  - transitivity (- cos lam * (sin d * sin d + cos d * cos d)); [rewrite S; ring | ring].
Qed.
Lemma mp_rod mp T : (forall k v, In (k, v) (mp_common T) -> dget mp k = Some v) -> exact_rod mp 1.
Proof.
  intros H. exists 3, 1, 2, (2 * PI), (/ (3 * PI)). pose proof ex_pi as P.
  assert (M : tube_integral (/ (3 * PI)) 3 (2 / 2) 0 (fun _ _ _ => 1) = 1) by (rewrite tube_mass; field; exact P).
  repeat split; try (apply H; cbn; tauto); [lra | exact M |].
  destruct (tube_inertia 3 1 (2 / 2) 0) as [[Ix Iy] Iz] eqn:E. pose proof (tube_spec _ _ _ _ _ _ _ _ M E) as (_ & <- & _).
  unfold tube_inertia in E. injection E as _ <- _. apply osc; lra.
Qed.
Lemma mp_wheel mp T X w : X = "F" /\ w = rb_F T \/ X = "R" /\ w = rb_R T -> 0 < rb_g T -> solid_wheel w -> (forall k v, In (k, v) (mp_common T) -> dget mp k = Some v) -> exact_wheel mp T 1 X w.
Proof.
  intros HX G (M & XX & YY) H. split; [apply H; destruct HX as [(-> & ->) | (-> & ->)]; cbn; tauto|].
  destruct (period_ok (w_yy w + w_m w * 1 ^ 2) (w_m w * rb_g T * 1)) as (P1 & P2); [nra|nra|]. destruct (period_ok (w_xx w) 1 XX Rlt_0_1) as (P3 & P4).
  eexists 1, _, _. split; [|split; [|split; [|split; [exact P1|split; [exact P3|split; [exact P2|exact P4]]]]]]; (apply H; destruct HX as [(-> & ->) | (-> & ->)]; cbn [mp_common In append]; tauto).
Qed.
Lemma turning_pos b d : solid_part b -> 0 < moment (tensor_of b) (mk3 (- cos d) 0 (- sin d)).
Proof.
  intros (M & XX & YY & DT). unfold moment, tensor_of, m3_app, v3_dot. cbn [r1 r2 r3 vx vy vz]. pose proof (sc1 d) as S.
  set (c := cos d) in *. set (s := sin d) in *. clearbody c s.
  replace (- c * (b_xx b * - c + 0 * 0 + b_xz b * - s) + 0 * (0 * - c + b_yy b * 0 + 0 * - s) + - s * (b_xz b * - c + 0 * 0 + b_zz b * - s)) with (b_xx b * c * c + 2 * b_xz b * c * s + b_zz b * s * s) by ring.
  apply (Rmult_lt_reg_l (b_xx b)); [exact XX|]. rewrite Rmult_0_r.
  replace (b_xx b * (b_xx b * c * c + 2 * b_xz b * c * s + b_zz b * s * s)) with ((b_xx b * c + b_xz b * s) ^ 2 + (b_xx b * b_zz b - b_xz b ^ 2) * (s * s)) by ring.
  destruct (Req_dec s 0) as [Z|NZ].
  - subst s. assert (c * c = 1) by lra. assert (0 < b_xx b * b_xx b) by nra. nra.
  - assert (0 < s * s) by nra. pose proof (pow2_ge_0 (b_xx b * c + b_xz b * s)). nra.
Qed.
Lemma mp_exact mp T X ref : (forall k v, In (k, v) (mp_part T X ref) -> dget mp k = Some v) -> 0 < rb_g T -> solid_part (rb_part T X) ->
  (b_x (rb_part T X), b_z (rb_part T X)) <> ref -> exact_part mp T 1 X ref 3.
Proof.
  intros H G SP NE. pose proof SP as (M & XX & YY & DT). unfold exact_part. split; [apply H; cbn; tauto|]. split.
  - intros i Hi. assert (D : exists d, (i = 1%nat /\ d = 0) \/ (i = 2%nat /\ d = PI / 4) \/ (i = 3%nat /\ d = - (PI / 4))).
    { assert (i = 1 \/ i = 2 \/ i = 3)%nat as [-> | [-> | ->]] by lia; eexists; [left|right; left|right; right]; split; reflexivity. }
    destruct D as (d & D). pose proof (turning_pos (rb_part T X) d SP) as TP. destruct (period_ok _ 1 TP Rlt_0_1) as (P1 & P2).
    exists ((rb_lam T + d) * 180 / PI), (dot2 (b_x (rb_part T X) - fst ref, b_z (rb_part T X) - snd ref) (sin d, - cos d)), (period (moment (tensor_of (rb_part T X)) (mk3 (- cos d) 0 (- sin d))) 1), (sin d, - cos d), (- cos d, - sin d).
    split; [apply H; destruct D as [(-> & ->)|[(-> & ->)|(-> & ->)]]; cbn; tauto|]. split; [apply H; destruct D as [(-> & ->)|[(-> & ->)|(-> & ->)]]; cbn; tauto|]. split; [apply H; destruct D as [(-> & ->)|[(-> & ->)|(-> & ->)]]; cbn; tauto|].
    split; [|split; [reflexivity|split; [exact P1|cbn [fst snd]; exact P2]]].
    replace ((rb_lam T + d) * 180 / PI * PI / 180) with (rb_lam T + d) by (field; exact ex_pi). apply hangs.
  - set (l := sqrt (sqdist2 (b_x (rb_part T X), b_z (rb_part T X)) ref)) in *.
    assert (L : 0 < l).
    { apply sqrt_lt_R0. unfold sqdist2. cbn [fst snd]. destruct (Req_dec (b_x (rb_part T X)) (fst ref)) as [E1|N1]; [destruct (Req_dec (b_z (rb_part T X)) (snd ref)) as [E2|N2]|].
      - exfalso. apply NE. destruct ref as [u v]. cbn [fst snd] in *. congruence.
      - assert (0 < (b_z (rb_part T X) - snd ref) ^ 2) by (apply sq_pos; lra). pose proof (pow2_ge_0 (b_x (rb_part T X) - fst ref)). lra.
      - assert (0 < (b_x (rb_part T X) - fst ref) ^ 2) by (apply sq_pos; lra). pose proof (pow2_ge_0 (b_z (rb_part T X) - snd ref)). lra. }
    destruct (period_ok (b_yy (rb_part T X) + b_m (rb_part T X) * l ^ 2) (b_m (rb_part T X) * rb_g T * l)) as (P1 & P2).
    + pose proof (pow2_ge_0 l). nra.
    + apply Rmult_lt_0_compat; [nra|exact L].
    + eexists. split; [|split; [exact P1|exact P2]]. apply H. cbn [mp_part In]. right. left. reflexivity.
Qed.
Lemma mp_hung mp T X ref : (forall k v, In (k, v) (mp_part T X ref) -> dget mp k = Some v) -> well_hung mp (rb_lam T) X 3.
Proof.
  intros H. destruct ex_pi4 as (C1 & S1 & C2 & S2). pose proof ex_s2 as SS. assert (NZ : ex_s <> 0) by (intros E; rewrite E in SS; lra). pose proof ex_pi as P.
  assert (A1 : pv mp ("alpha" ++ X ++ nat_str 1) * PI / 180 = rb_lam T + 0) by (unfold pv; erewrite H; [|cbn; right; right; left; reflexivity]; field; exact P).
  assert (A2 : pv mp ("alpha" ++ X ++ nat_str 2) * PI / 180 = rb_lam T + PI / 4) by (unfold pv; erewrite H; [|cbn; do 5 right; left; reflexivity]; field; exact P).
  assert (A3 : pv mp ("alpha" ++ X ++ nat_str 3) * PI / 180 = rb_lam T + - (PI / 4)) by (unfold pv; erewrite H; [|cbn; do 8 right; left; reflexivity]; field; exact P).
  repeat split; [lia | |].
  - intros i Hi. assert (i = 1 \/ i = 2 \/ i = 3)%nat as [-> | [-> | ->]] by lia; rewrite ?A1, ?A2, ?A3.
    + replace (rb_lam T - (rb_lam T + 0)) with 0 by ring. rewrite cos_0. lra.
    + replace (rb_lam T - (rb_lam T + PI / 4)) with (- (PI / 4)) by ring. rewrite C2. exact NZ.
    + replace (rb_lam T - (rb_lam T + - (PI / 4))) with (PI / 4) by ring. rewrite C1. exact NZ.
  - intros i j [Hi Hj] Hn. assert ((i = 1 /\ j = 2) \/ (i = 1 /\ j = 3) \/ (i = 2 /\ j = 3))%nat as [[-> ->] | [[-> ->] | [-> ->]]] by lia; rewrite ?A1, ?A2, ?A3.
    + replace (rb_lam T + 0 - (rb_lam T + PI / 4)) with (- (PI / 4)) by ring. rewrite S2. lra.
    + replace (rb_lam T + 0 - (rb_lam T + - (PI / 4))) with (PI / 4) by ring. rewrite S1. exact NZ.
    + replace (rb_lam T + PI / 4 - (rb_lam T + - (PI / 4))) with (PI / 2) by field. rewrite sin_PI2. lra.
Qed.
Ltac mnames := intros k v K; cbn [mp_common mp_part In append app] in K; repeat (destruct K as [K|K]; [injection K as <- <-; reflexivity|]); contradiction.

Lemma mp_of_exact newton T : solid_bike T -> exact_measurements_whole newton (mp_of T) T 1 (fun _ => 3%nat) /\ exists r, calculate_benchmark_from_measured newton (mp_of T) = Ok r.
Proof.
  intros (G & CL & WF & WR & SB & SH & NB & NH).
  assert (HC : forall k v, In (k, v) (mp_common T) -> dget (mp_of T) k = Some v) by mnames.
  assert (HB : forall k v, In (k, v) (mp_part T "B" (rear_hub T)) -> dget (mp_of T) k = Some v) by mnames.
  assert (HH : forall k v, In (k, v) (mp_part T "H" (front_hub T)) -> dget (mp_of T) k = Some v) by mnames.
  assert (V : forall k v, In (k, v) (mp_common T) -> pv (mp_of T) k = v) by (intros k v K; unfold pv; rewrite (HC k v K); reflexivity).
  assert (EX : exact_measurements_whole newton (mp_of T) T 1 (fun _ => 3%nat)).
  { split; [|split; [|split; [|split; [|split; [|split; [|split; [|split]]]]]]].
    - intros key K. cbn [dkeys map fst mp_of mp_common mp_part app append In] in K. repeat (destruct K as [<-|K]; [cbn; split; discriminate|]). contradiction.
    - unfold exact_geometry. rewrite (V "nF" 1), (V "dF" (2 * PI * w_r (rb_F T))), (V "nR" 1), (V "dR" (2 * PI * w_r (rb_R T))), (V "w" (rb_w T)), (V "gamma" (90 - rb_lam T * 180 / PI)), (V "f" (ahead (rb_w T) (rb_c T) (rb_lam T) (rb_w T) (- w_r (rb_F T)))) by (cbn; tauto).
      repeat split; try lra. left. repeat split. cbn; tauto.
    - split; [|split; [intros; lia|]].
      + cbn [dkeys map fst mp_of mp_common mp_part app append]. repeat constructor; cbn [In]; intuition discriminate.
      + intros key K S. cbn [dkeys map fst mp_of mp_common mp_part app append In] in K.
        repeat (destruct K as [<-|K]; [cbn in S; first [discriminate S |
          match goal with |- context [String _ (String _ (String _ (String _ (String _ (String ?c (String ?d EmptyString))))))] =>
            exists (String c ""); first [exists 1%nat; split; [cbn; tauto | split; [lia | reflexivity]] | exists 2%nat; split; [cbn; tauto | split; [lia | reflexivity]] | exists 3%nat; split; [cbn; tauto | split; [lia | reflexivity]]] end]|]).
        contradiction.
    - apply HC. cbn; tauto.
    - apply (mp_rod _ T), HC.
    - apply mp_wheel; auto.
    - apply mp_wheel; auto.
    - apply mp_exact; auto.
    - apply mp_exact; auto. }
  split; [exact EX|].
  assert (GE : exists p, calculate_benchmark_geometry newton (mp_of T) [] = Ok p).
  { unfold calculate_benchmark_geometry, dlook.
    rewrite (HC "dF" (2 * PI * w_r (rb_F T))), (HC "nF" 1), (HC "dR" (2 * PI * w_r (rb_R T))), (HC "nR" 1), (HC "gamma" (90 - rb_lam T * 180 / PI)), (HC "w" (rb_w T)), (HC "f" (ahead (rb_w T) (rb_c T) (rb_lam T) (rb_w T) (- w_r (rb_F T)))) by (cbn; tauto).
    pose proof ex_pi. cbn [bind]. rewrite !rdiv_eq by lra. cbn [bind]. change (dmem (mp_of T) "w") with true. cbn [bind].
    replace (PI / 180 * (90 - (90 - rb_lam T * 180 / PI))) with (rb_lam T) by (field; assumption). unfold trail. rewrite rdiv_eq by exact CL. cbn [bind]. eexists; reflexivity. }
  destruct (C47_whole_fork_defined newton (mp_of T) T 1 (fun _ => 3%nat) EX GE (mp_hung _ _ _ _ HB) (mp_hung _ _ _ _ HH)) as [r E].
  eauto.
Qed.

(* every solid bicycle has exact measurements, from which its parameters are found *)
Theorem C47_every_bicycle_can_be_measured : forall newton T, solid_bike T ->
  exists mp k n, exact_measurements_whole newton mp T k n /\
  exists par ex, calculate_benchmark_from_measured newton mp = Ok (par, ex) /\
    forall key v, In (key, v) (common_entries T ++ body_entries "H" (rb_part T "H"))%list -> dget par key = Some v.
Proof.
  intros newton T ST. destruct (mp_of_exact newton T ST) as (EX & [par ex] & E). exists (mp_of T), 1, (fun _ => 3%nat). split; [exact EX|]. exists par, ex. split; [exact E|]. exact (C47_whole_fork _ _ _ _ _ _ _ EX E).
Qed.
Print Assumptions C47_every_bicycle_can_be_measured.

(* ---- an example for C73: the bicycle of C71 that balances itself at 4 m/s, measured ---- *)
Definition self_T : rbike :=
  mkrbike 1 0 0 10 (mkrwheel 2 (1 / 10) (1 / 16) (1 / 8)) (mkrwheel 4 (1 / 4) (1 / 8) (349 / 1600))
    (fun X => if String.eqb X "B" then mkrbody 16 1 (-19 / 50) (6521 / 10000) (31 / 100) 2 1 else mkrbody 8 (21 / 16) (-1 / 10) (1 / 2) (-1 / 4) (1 / 2) (5 / 32)).
Lemma self_solid : solid_bike self_T.
Proof.
  unfold solid_bike, solid_wheel, solid_part, self_T, rear_hub, front_hub. cbn [rb_g rb_lam rb_F rb_R rb_w rb_part w_m w_r w_xx w_yy String.eqb Ascii.eqb Bool.eqb b_m b_x b_z b_xx b_xz b_yy b_zz].
  rewrite cos_0. repeat split; try lra; intros E; injection E; lra.
Qed.
Definition no_newton (f : R -> res R) (x : R) : res R := Err RuntimeError.
(* the file of measurements: every number is written as name+/-0(0), and read by a table *)
Definition meas_keys : list string := Eval compute in dkeys (mp_of self_T).
Definition meas_text : string := Eval compute in fold_right append "" (map (fun k => k ++ " = " ++ k ++ "+/-0(0)" ++ String NL "") meas_keys).
Definition meas_other (f : string -> R) (s : string) : res (R * R) :=
  match dget (map (fun k => (k ++ "+/-0(0)", f k)) meas_keys) s with Some v => Ok (v, 0) | None => Err (ValueError "") end.
Definition meas_files : fsys :=
  {| fs_dirs := ["d"; "d/bicycles"; "d/bicycles/Selfie"; "d/bicycles/Selfie/RawData"]; fs_files := [("d/bicycles/Selfie/RawData/SelfieMeasured.txt", meas_text)] |}.
Definition meas_calc (m : dict pval) : res (dict pval * unit) :=
  r <- calculate_benchmark_from_measured no_newton (noms m) ;; Ok (map (fun kv => (fst kv, PF (snd kv))) (fst r), tt).
Lemma noms_pf d : noms (map (fun kv : string * R => (fst kv, PF (snd kv))) d) = d.
Proof. induction d as [|[k v] d IH]; [reflexivity|]. cbn [map noms fst snd nom]. f_equal. exact IH. Qed.
Lemma meas_nominal : nominal_calc (calculate_benchmark_from_measured no_newton) meas_calc.
Proof.
  intros m par ex E. unfold meas_calc in E. apply bind_ok in E. destruct E as ((p & x) & E & E2). cbn [fst] in E2. injection E2 as <- <-. exists x. rewrite noms_pf. exact E.
Qed.
Lemma meas_read f : load_text (meas_other f) meas_text = Ok (map (fun k => (k, umean [(f k, 0)])) meas_keys).
Proof. vm_compute. reflexivity. Qed.

Lemma meas_noms f : noms (map (fun k => (k, umean [(f k, 0)])) meas_keys) = map (fun k => (k, f k)) meas_keys.
Proof.
  unfold noms. rewrite map_map. apply map_ext. intros k. unfold umean, MIo.mean, rsum. cbn. f_equal. field.
Qed.
Lemma meas_all : map (fun k => (k, pv (mp_of self_T) k)) meas_keys = mp_of self_T.
Proof. reflexivity. Qed.

(* the parameters found are those of the bicycle of C71, so the eigenvalues at 4 m/s are found *)
Lemma values_canon p p' : (forall k, In k canon_keys -> pv p k = pv p' k) -> F_canon (pv p) = F_canon (pv p').
Proof.
  intros H. unfold F_canon, F_mu, F_IAll, F_IAlx, F_IAlz, F_SA, F_uA, F_mu, F_ITxx, F_ITxz, F_ITzz, F_ST, F_SR, F_SF, F_xT, F_zT, F_mT, F_IAxx, F_IAxz, F_IAzz, F_xA, F_zA, F_mA.
  repeat match goal with |- context [pv p ?k] => rewrite (H k) by (cbn; tauto) end. reflexivity.
Qed.
Lemma self_values p : describes p self_T (rb_part self_T "H") -> forall k, In k ("g" :: canon_keys) -> dget p k = dget self_bike k.
Proof.
  intros D k K. assert (E : exists v, In (k, v) (common_entries self_T ++ body_entries "H" (rb_part self_T "H"))%list /\ dget self_bike k = Some v).
  { unfold canon_keys in K. cbn [In] in K. repeat (destruct K as [<-|K]; [eexists; split; [find_in|reflexivity]|]). contradiction. }
  destruct E as (v & I & ->). exact (D _ _ I).
Qed.

Lemma meas_new f (calc : dict pval -> res (dict pval * unit)) : new_bicycle unit (meas_other f) calc demo_decode demo_str meas_files "Selfie" "d" false false =
  let m := map (fun k => (k, umean [(f k, 0)])) meas_keys in
  match calc m with
  | Ok (par, ex) => (Ok (MState.mkbike "Selfie" "d/bicycles/Selfie" false None [] None [("Measured", m); ("Benchmark", par)] (Some ex)), meas_files)
  | Err e => (Err e, meas_files)
  end.
Proof. vm_compute. reflexivity. Qed.
Example C73_example : exists b f, let rawDir := "d/bicycles/Selfie/RawData" in
  no_io (meas_other f) /\ nominal_calc (calculate_benchmark_from_measured no_newton) meas_calc /\ eig_contract self_eig /\ eig_complete self_eig /\
  new_bicycle unit (meas_other f) meas_calc demo_decode demo_str meas_files "Selfie" "d" false false = (Ok b, meas_files) /\ from_measurements (meas_other f) meas_files "Selfie" "d" false /\
  bicycle_eig self_eig (nominal_sets b) (SpSeq [4]) = Ok [(self_w, self_V)] /\
  exists m, measurements (meas_other f) demo_decode demo_str meas_files rawDir (os_join rawDir "SelfieMeasured.txt") false m meas_files /\
    exact_measurements no_newton (noms m) self_T /\ balances_itself (real_bike self_T (rb_part self_T "H")) 4 10.
Proof.
  set (f := pv (mp_of self_T)). set (m := map (fun k => (k, umean [(f k, 0)])) meas_keys).
  assert (NM : noms m = mp_of self_T) by (unfold m; rewrite meas_noms; exact meas_all).
  destruct (mp_of_exact no_newton self_T self_solid) as (EX & [par ex] & E).
  assert (D : describes par self_T (rb_part self_T "H")) by exact (C47_whole_fork _ _ _ _ _ _ _ EX E).
  assert (CM : meas_calc m = Ok (map (fun kv => (fst kv, PF (snd kv))) par, tt)) by (unfold meas_calc; rewrite NM, E; reflexivity).
  assert (SV : forall k, In k ("g" :: canon_keys) -> pv par k = pv self_bike k) by (intros k K; unfold pv; rewrite (self_values par D k K); reflexivity).
  assert (BO : bike_of par = bike_of self_bike).
  { unfold bike_of, rear_wheel, rear_frame, front_frame, front_wheel. rewrite !SV by (cbn; tauto). reflexivity. }
  assert (CN : exists p' c, benchmark_par_to_canonical par = (p', Ok c)).
  { apply canonical_success. split.
    - intros k Hk. assert (K : dget par k = dget self_bike k) by (apply (self_values par D); right; exact Hk). destruct (dget par k) as [v|] eqn:EV; [apply dget_some_in; eauto|].
      exfalso. unfold canon_keys in Hk. cbn [In] in Hk. repeat (destruct Hk as [<-|Hk]; [discriminate K|]). contradiction.
    - unfold canon_nonzero. rewrite !SV by (cbn; tauto). unfold pv, self_bike. cbn [map fst snd dget String.eqb Ascii.eqb Bool.eqb]. repeat split; lra. }
  eexists _, f. cbv zeta. split; [intros s; unfold meas_other; destruct (dget _ s); discriminate|].
  split; [exact meas_nominal|]. split; [exact self_contract|]. split; [exact self_complete|]. split; [rewrite meas_new; cbv zeta; fold m; rewrite CM; reflexivity|].
  split; [right; split; [reflexivity|]|].
  { intros ps [((_ & _ & [K|K]) & _)|(_ & ->)]; [| |intros []]; cbn in K; intuition discriminate. }
  split.
  - unfold nominal_sets. cbn [bo_par map fst snd]. rewrite noms_pf, NM. set (ps := [("Measured", mp_of self_T); ("Benchmark", par)]). destruct CN as (p' & c & H).
    assert (EC : c = F_canon (pv self_bike)) by (pose proof (canon_inversion _ _ _ H) as (_ & _ & _ & EC); rewrite EC; apply values_canon; intros k K; apply SV; right; exact K).
    destruct self_state_space as (p2 & c2 & B & H2 & HA). pose proof (canon_inversion _ _ _ H2) as (_ & _ & _ & EC2). rewrite <- EC in EC2. subst c2.
    apply (eig_iff self_eig ps [4] [(self_w, self_V)] par eq_refl); [exists c; unfold PModels.canonical; rewrite H; reflexivity|].
    constructor; [|constructor]. exists self_A, B. split.
    + apply (C60_state_space_is_the_standalone_function ps par FTrue 4 self_A B eq_refl (or_introl eq_refl)). exists c, 10. rewrite H. split; [reflexivity|]. split; [|exact HA]. rewrite (self_values par D "g"); [reflexivity|left; reflexivity].
    + unfold self_eig. destruct (list_eq_dec _ self_A self_A) as [_|N]; [reflexivity|contradiction N; reflexivity].
  - exists m. split; [|split].
    + exists m. split; [exists meas_text; split; [reflexivity|apply meas_read]|]. left. split; [reflexivity|]. split; [vm_compute; reflexivity|]. split; reflexivity.
    + rewrite NM. exists 1, (fun _ => 3%nat). left. exact EX.
    + rewrite <- (proj1 (describes_values _ _ _ D)), BO. destruct C71_bicycle as (_ & _ & _ & _ & BI & _). exact BI.
Qed.
