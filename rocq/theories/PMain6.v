(* PMain6.v -- the steer assembly (C48) *)
From Verif Require Import Base PBase MString MVec MBicycle MInertia MGeometry MPeriod MMain SBicycle SInertia SGeometry SMain
  PBicycle PInertia PInertia2 PInertia3 PString PGeometry PGeometry2 PGeometry3 PPeriod PPeriod2 PPeriod3 PMain PMain2 PMain3 PMain5.
From Coq Require Import Lra.
Local Open Scope string_scope.
Local Open Scope R_scope.

Definition main_part (handlebar fork : bool) : option string :=
  if fork && handlebar then Some "H" else if fork then Some "S" else if handlebar then Some "G" else None.
Lemma chosen_main hb fk wh : chosen hb fk wh = (match main_part hb fk with Some X => [X] | None => [] end ++ (if wh then ["F"] else []))%list.
Proof. destruct hb, fk, wh; reflexivity. Qed.
Lemma main_part_letter hb fk X : main_part hb fk = Some X -> X = "H" \/ X = "S" \/ X = "G".
Proof. destruct hb, fk; cbn; intros H; inversion H; auto. Qed.
Lemma steer_part_ok par X q : In X ["H"; "S"; "G"] -> steer_part par X = Ok q ->
  (forall k, In k (part_keys X) -> In k (dkeys par)) /\
  q = (tensor_of (front_body par X), b_m (front_body par X), b_x (front_body par X), b_z (front_body par X)).
Proof.
  intros HX H. unfold steer_part, part_inertia_tensor in H. step_bind H. step_bind E.
  assert (FRD : in_FRD X = false) by (cbn [In] in HX; destruct HX as [<-|[<-|[<-|[]]]]; reflexivity). rewrite FRD in E.
  do 5 step_bind E. injection E as <-. do 3 step_bind H. injection H as <-.
  assert (FB : front_body par X = mkrbody (pv par ("m" ++ X)) (pv par ("x" ++ X)) (pv par ("z" ++ X)) (pv par ("I" ++ X ++ "xx")) (pv par ("I" ++ X ++ "xz"))
         (pv par ("I" ++ X ++ "yy")) (pv par ("I" ++ X ++ "zz"))).
  { unfold front_body. cbn [In] in HX. destruct HX as [<-|[<-|[<-|[]]]]; reflexivity. }
  rewrite FB. unfold tensor_of; cbn [b_m b_x b_z b_xx b_xz b_yy b_zz]. split.
  - unfold part_keys. intros k K. cbn [In] in K. 
    repeat (destruct K as [<-|K]; [eapply in_keys_of_dlook; eassumption|]). contradiction.
  - repeat match goal with X : dlook _ _ = Ok _ |- _ => apply pv_of_dlook in X end. subst. reflexivity.
Qed.
Lemma steer_part_def par X : In X ["H"; "S"; "G"] -> (forall k, In k (part_keys X) -> In k (dkeys par)) ->
  steer_part par X = Ok (tensor_of (front_body par X), b_m (front_body par X), b_x (front_body par X), b_z (front_body par X)).
Proof.
  intros HX K. assert (Q : exists q, steer_part par X = Ok q).
  { unfold steer_part, part_inertia_tensor.
    assert (FRD : in_FRD X = false) by (cbn [In] in HX; destruct HX as [<-|[<-|[<-|[]]]]; reflexivity). rewrite FRD.
    unfold part_keys in K.
    rewrite (dlook_pv par "IBxx"), (dlook_pv par ("I" ++ X ++ "xx")), (dlook_pv par ("I" ++ X ++ "xz")), (dlook_pv par ("I" ++ X ++ "yy")),
      (dlook_pv par ("I" ++ X ++ "zz")), (dlook_pv par ("m" ++ X)), (dlook_pv par ("x" ++ X)), (dlook_pv par ("z" ++ X)) by (apply K; cbn [In]; tauto).
    cbn [bind]. eauto. }
  destruct Q as [q Q]. rewrite Q. f_equal. exact (proj2 (steer_part_ok _ _ _ HX Q)).
Qed.
Lemma steer_part_err par X e : In X ["H"; "S"; "G"] -> steer_part par X = Err e -> exists k, e = KeyError k.
Proof.
  intros HX H. unfold steer_part, part_inertia_tensor, dlook in H.
  assert (FRD : in_FRD X = false) by (cbn [In] in HX; destruct HX as [<-|[<-|[<-|[]]]]; reflexivity). rewrite FRD in H.
  repeat match type of H with context [dget par ?k] => destruct (dget par k); cbn [bind] in H end; try discriminate; injection H as <-; eauto.
Qed.

(* moments about shifted points: two bodies about their common mass centre *)
Lemma body_moment_shift b o n : body_moment b o n = moment (parallel_axis (tensor_of b) (b_m b) (v3_sub (mk3 (b_x b) 0 (b_z b)) o)) n.
Proof. unfold body_moment, rigid_moment. rewrite pa_moment. reflexivity. Qed.
Lemma moment_add J K n : moment (m3_add J K) n = moment J n + moment K n.
Proof. unfold moment. dvecs. vsimpl. ring. Qed.
Lemma zero_moment n : moment (m3_diag 0 0 0) n = 0.
Proof. unfold moment. dvecs. vsimpl. ring. Qed.

(* the inertia about the mass centre, in axes turned with the steer axis *)
Definition central (par : dict R) (hb fk wh : bool) : res (R * vec3 * mat3) :=
  '(J, m, x, z) <-
     match (if fk && hb then steer_part par "H" else if fk then steer_part par "S" else if hb then steer_part par "G" else Ok (m3_diag 0 0 0, 0, 0, 0)) with
     | Err (KeyError _) => Err (ValueError "The fork and handlebar were not measured separately for this bicycle.")
     | r => r
     end ;;
  if wh then
    mF <- dlook par "mF" ;; w <- dlook par "w" ;; rF <- dlook par "rF" ;;
    tc <- total_com [[x; w]; [0; 0]; [z; - rF]] [m; mF] ;;
    match tc with
    | (mA, [cx; cy; cz]) =>
        JF <- part_inertia_tensor par "F" ;;
        let d := mk3 (x - cx) 0 (z - cz) in
        let dF := mk3 (w - cx) 0 (- rF - cz) in
        let iAss := m3_add (parallel_axis J m d) (parallel_axis JF mF dF) in
        lam <- dlook par "lam" ;;
        Ok (mA, mk3 cx cy cz, rotate_inertia_tensor iAss lam)
    | _ => Err (OtherError "unreachable: three rows in, three sums out")
    end
  else
    lam <- dlook par "lam" ;; Ok (m, mk3 x 0 z, rotate_inertia_tensor J lam).
Lemma steer_central par hb fk wh ab : steer_assembly par hb fk wh ab =
  ('(mAss, cAss, iRot) <- central par hb fk wh ;;
   if ab then
    w <- dlook par "w" ;; c <- dlook par "c" ;; lam <- dlook par "lam" ;;
    distance <- distance_to_steer_axis w c lam cAss ;;
    Ok (parallel_axis iRot mAss (mk3 distance 0 0))
   else Ok iRot).
Proof.
  unfold steer_assembly, central. destruct (match (if fk && hb then steer_part par "H" else _) with Ok _ => _ | Err _ => _ end) as [[[[J m] x] z]|e]; reflexivity.
Qed.
Lemma first_of par hb fk J m x z :
  match (if fk && hb then steer_part par "H" else if fk then steer_part par "S" else if hb then steer_part par "G" else Ok (m3_diag 0 0 0, 0, 0, 0)) with
     | Err (KeyError _) => Err (ValueError "The fork and handlebar were not measured separately for this bicycle.")
     | r => r end = Ok (J, m, x, z) ->
  match main_part hb fk with
  | Some X => In X ["H"; "S"; "G"] /\ (forall k, In k (part_keys X) -> In k (dkeys par)) /\ J = tensor_of (front_body par X) /\ m = b_m (front_body par X) /\ x = b_x (front_body par X) /\ z = b_z (front_body par X)
  | None => J = m3_diag 0 0 0 /\ m = 0 /\ x = 0 /\ z = 0 end.
Proof.
  assert (G : forall X, In X ["H"; "S"; "G"] -> match steer_part par X with | Err (KeyError _) => Err (ValueError "The fork and handlebar were not measured separately for this bicycle.")
     | r => r end = Ok (J, m, x, z) -> In X ["H"; "S"; "G"] /\ (forall k, In k (part_keys X) -> In k (dkeys par)) /\ J = tensor_of (front_body par X) /\ m = b_m (front_body par X) /\ x = b_x (front_body par X) /\ z = b_z (front_body par X)).
  { intros X HX H. split; [exact HX|]. destruct (steer_part par X) as [q|[]] eqn:E; try discriminate. injection H as ->. apply steer_part_ok in E; [|exact HX].
    destruct E as [K E]. injection E as -> -> -> ->. auto. }
  unfold main_part. destruct fk, hb; cbn [andb]; intros H.
  1-3: apply G in H; [exact H | cbn; tauto].
  injection H as <- <- <- <-. auto.
Qed.
Lemma central_ok par hb fk wh m c J : central par hb fk wh = Ok (m, c, J) ->
  let parts := chosen hb fk wh in
  vy c = 0 /\ is_com (assembly_particles par parts) c /\ m = mass_of (assembly_particles par parts) /\ In "lam" (dkeys par) /\
  forall n, moment J (turn_y (pv par "lam") n) = assembly_moment par parts c n.
Proof.
  intros H. cbv zeta. unfold central in H. step_bind H. destruct x as [[[J0 m0] x0] z0]. apply first_of in E. rewrite chosen_main. destruct wh.
  - do 3 step_bind H. step_bind H. apply tcom2 in E3. destruct E3 as (NZ & cx & cz & -> & CX & CZ). cbn [bind] in H. step_bind H. step_bind H. injection H as <- <- <-.
    apply pv_of_dlook in E0, E1, E2. subst x x1 x2. pose proof (in_keys_of_dlook _ _ _ E4) as KL. apply pv_of_dlook in E4. subst x4.
    assert (TF : x3 = tensor_of (front_body par "F")).
    { unfold part_inertia_tensor in E3. cbn [in_FRD] in E3. unfold in_FRD in E3. cbn [String.eqb Ascii.eqb Bool.eqb orb append] in E3. do 4 step_bind E3. injection E3 as <-.
      repeat match goal with X : dlook _ _ = Ok _ |- _ => apply pv_of_dlook in X end. subst. reflexivity. }
    cbn [vy]. split; [reflexivity|].
    destruct (main_part hb fk) as [X|] eqn:MP; cbn [app].
    + destruct E as (HX & _ & -> & -> & -> & ->). unfold assembly_particles, assembly_moment, is_com, first_moment, mass_of, sum_over. cbn [map fold_right fst snd vx vy vz].
      unfold zero3. split; [|split; [|split; [exact KL|]]].
      * replace (b_m (front_body par "F")) with (pv par "mF") by reflexivity. replace (b_x (front_body par "F")) with (pv par "w") by reflexivity.
        replace (b_z (front_body par "F")) with (- pv par "rF") by reflexivity. f_equal; lra.
      * replace (b_m (front_body par "F")) with (pv par "mF") by reflexivity. lra.
      * intros n. rewrite rot_moment, moment_add, TF, !body_moment_shift. unfold v3_sub. cbn [vx vy vz]. rewrite Rminus_0_r.
        change (pv par "mF") with (b_m (front_body par "F")). change (pv par "w") with (b_x (front_body par "F")). change (- pv par "rF") with (b_z (front_body par "F")). ring.
    + destruct E as (-> & -> & -> & ->). unfold assembly_particles, assembly_moment, is_com, first_moment, mass_of, sum_over. cbn [map fold_right fst snd vx vy vz].
      unfold zero3. split; [|split; [|split; [exact KL|]]].
      * unfold front_body. cbn [String.eqb Ascii.eqb Bool.eqb b_m b_x b_z]. f_equal; lra.
      * unfold front_body. cbn [String.eqb Ascii.eqb Bool.eqb b_m b_x b_z]. lra.
      * intros n. rewrite rot_moment, moment_add, TF, !body_moment_shift. unfold v3_sub. cbn [vx vy vz]. rewrite Rminus_0_r. rewrite (pa_moment (m3_diag 0 0 0)), zero_moment.
        change (pv par "mF") with (b_m (front_body par "F")). change (pv par "w") with (b_x (front_body par "F")). change (- pv par "rF") with (b_z (front_body par "F")). ring.
  - step_bind H. injection H as <- <- <-. pose proof (in_keys_of_dlook _ _ _ E0) as KL. apply pv_of_dlook in E0. subst x. rewrite app_nil_r.
    cbn [vy]. split; [reflexivity|].
    destruct (main_part hb fk) as [X|] eqn:MP.
    + destruct E as (HX & _ & -> & -> & -> & ->). unfold assembly_particles, assembly_moment, is_com, first_moment, mass_of, sum_over. cbn [map fold_right fst snd vx vy vz].
      unfold zero3. split; [f_equal; ring|]. split; [ring|]. split; [exact KL|].
      intros n. rewrite rot_moment. unfold body_moment, rigid_moment, v3_sub. cbn [vx vy vz].
      unfold v3_cross, sqnorm. cbn [vx vy vz]. ring.
    + destruct E as (-> & -> & -> & ->). unfold assembly_particles, assembly_moment, is_com, first_moment, mass_of, sum_over. cbn [map fold_right fst snd vx vy vz].
      split; [reflexivity|]. split; [reflexivity|]. split; [exact KL|]. intros n. rewrite rot_moment. apply zero_moment.
Qed.

(* the whole assembly moved from its mass centre to another point *)
Lemma assembly_shift_gen par parts c o n :
  assembly_moment par parts o n = assembly_moment par parts c n
    + 2 * v3_dot (v3_cross n (first_moment (assembly_particles par parts) c)) (v3_cross n (v3_sub c o))
    + mass_of (assembly_particles par parts) * sqnorm (v3_cross n (v3_sub c o)).
Proof.
  induction parts as [|X parts IH].
  - unfold assembly_moment, assembly_particles, first_moment, mass_of, sum_over, zero3. cbn [map fold_right]. dvecs. vsimpl. ring.
  - unfold assembly_moment, assembly_particles, first_moment, mass_of, sum_over in *. cbn [map fold_right fst snd vx vy vz] in *.
    rewrite IH. unfold body_moment, rigid_moment. destruct c as [c1 c2 c3], o as [o1 o2 o3], n as [n1 n2 n3]. cbn [vx vy vz].
    generalize (fold_right (fun (a : string) (s : R) => moment (tensor_of (front_body par a)) (mk3 n1 n2 n3) + b_m (front_body par a) * sqnorm (v3_cross (mk3 n1 n2 n3) (v3_sub (mk3 (b_x (front_body par a)) 0 (b_z (front_body par a))) (mk3 c1 c2 c3))) + s) 0 parts).
    generalize (fold_right (fun (a : R * vec3) (s : R) => fst a * (vx (snd a) - c1) + s) 0 (map (fun X0 : string => (b_m (front_body par X0), mk3 (b_x (front_body par X0)) 0 (b_z (front_body par X0)))) parts)).
    generalize (fold_right (fun (a : R * vec3) (s : R) => fst a * (vy (snd a) - c2) + s) 0 (map (fun X0 : string => (b_m (front_body par X0), mk3 (b_x (front_body par X0)) 0 (b_z (front_body par X0)))) parts)).
    generalize (fold_right (fun (a : R * vec3) (s : R) => fst a * (vz (snd a) - c3) + s) 0 (map (fun X0 : string => (b_m (front_body par X0), mk3 (b_x (front_body par X0)) 0 (b_z (front_body par X0)))) parts)).
    generalize (fold_right (fun (a : R * vec3) (s : R) => fst a + s) 0 (map (fun X0 : string => (b_m (front_body par X0), mk3 (b_x (front_body par X0)) 0 (b_z (front_body par X0)))) parts)).
    intros M Sz Sy Sx A. generalize (moment (tensor_of (front_body par X)) (mk3 n1 n2 n3)). intros Mo. unfold v3_cross, v3_sub, v3_dot, sqnorm. cbn [vx vy vz]. ring.
Qed.
Lemma assembly_shift par parts c o n : is_com (assembly_particles par parts) c ->
  assembly_moment par parts o n = assembly_moment par parts c n + mass_of (assembly_particles par parts) * sqnorm (v3_cross n (v3_sub c o)).
Proof.
  intros C. rewrite (assembly_shift_gen par parts c o n). unfold is_com in C. rewrite C. unfold zero3. dvecs. vsimpl. ring.
Qed.
Lemma steer_about_com par hb fk wh J : steer_assembly par hb fk wh false = Ok J ->
  exists c, is_com (assembly_particles par (chosen hb fk wh)) c /\
  forall n, moment J (turn_y (pv par "lam") n) = assembly_moment par (chosen hb fk wh) c n.
Proof.
  rewrite steer_central. intros H. step_bind H. destruct x as [[m c] K]. injection H as <-. apply central_ok in E. exists c. tauto.
Qed.
Lemma steer_about_axis par hb fk wh J : steer_assembly par hb fk wh true = Ok J ->
  exists c s, let o := steer_axis_point (pv par "w") (pv par "c") (pv par "lam") s in
  is_com (assembly_particles par (chosen hb fk wh)) c /\ v3_dot (v3_sub c o) (steer_dir (pv par "lam")) = 0 /\
  forall n, moment J (turn_y (pv par "lam") n) = assembly_moment par (chosen hb fk wh) o n.
Proof.
  rewrite steer_central. intros H. step_bind H. destruct x as [[m c] K]. apply central_ok in E. cbv zeta in E. destruct E as (Y & C & M & _ & N).
  do 4 step_bind H. injection H as <-. apply pv_of_dlook in E, E0, E1. subst x x0 x1.
  destruct c as [cx cy cz]. cbn [vy] in Y. subst cy. apply steer_axis_distance in E2. subst x2.
  set (lam := pv par "lam") in *. set (w := pv par "w") in *. set (tr := pv par "c") in *.
  pose proof (sc1 lam) as S.
  exists (mk3 cx 0 cz), (- ((cx - w - tr) * sin lam + cz * cos lam)). cbv zeta. split; [exact C|].
  assert (O : v3_sub (mk3 cx 0 cz) (steer_axis_point w tr lam (- ((cx - w - tr) * sin lam + cz * cos lam))) = mk3 (ahead w tr lam cx cz * cos lam) 0 (- (ahead w tr lam cx cz * sin lam))).
  { unfold v3_sub, steer_axis_point, ahead. cbn [vx vy vz]. f_equal; [|ring|].
    - replace (cx - _) with ((cx - w - tr) - ((cx - w - tr) * (sin lam * sin lam) + cz * (cos lam * sin lam))) by ring.
      replace (sin lam * sin lam) with (1 - cos lam * cos lam) by lra. ring.
    - replace (cz - _) with (cz - ((cx - w - tr) * (sin lam * cos lam) + cz * (cos lam * cos lam))) by ring.
      replace (cos lam * cos lam) with (1 - sin lam * sin lam) by lra. ring. }
  split.
  - rewrite O. unfold v3_dot, steer_dir. cbn [vx vy vz]. ring.
  - intros n. rewrite (assembly_shift _ _ _ _ n C), O, pa_moment, N, <- M. f_equal. f_equal.
    set (a := ahead w tr lam cx cz). clearbody a. assert (Q : Rabs a * Rabs a = a * a) by (rewrite <- Rabs_mult; apply Rabs_pos_eq; nra).
    unfold v3_cross, turn_y, sqnorm. cbn [vx vy vz].
    transitivity (Rabs a * Rabs a * (vy n * vy n + (sin lam * vx n + cos lam * vz n) * (sin lam * vx n + cos lam * vz n))); [ring|].
    rewrite Q. transitivity (a * a * (vy n * vy n * (sin lam * sin lam + cos lam * cos lam) + (sin lam * vx n + cos lam * vz n) * (sin lam * vx n + cos lam * vz n))); [rewrite S; ring | ring].
Qed.
Lemma moment_33 J : moment J (mk3 0 0 1) = vz (r3 J).
Proof. unfold moment. dvecs. vsimpl. ring. Qed.
Lemma turn_steer lam : turn_y lam (steer_dir lam) = mk3 0 0 1.
Proof. pose proof (sc1 lam). unfold turn_y, steer_dir. cbn [vx vy vz]. f_equal; [ring | lra]. Qed.
Lemma body_moment_axis b o d s : body_moment b (v3_add o (v3_scale s d)) d = body_moment b o d.
Proof. unfold body_moment, rigid_moment. f_equal. f_equal. dvecs. vsimpl. ring. Qed.
Lemma assembly_moment_axis par parts w c lam s t :
  assembly_moment par parts (steer_axis_point w c lam s) (steer_dir lam) = assembly_moment par parts (steer_axis_point w c lam t) (steer_dir lam).
Proof.
  assert (O : steer_axis_point w c lam s = v3_add (steer_axis_point w c lam t) (v3_scale (t - s) (steer_dir lam))).
  { unfold steer_axis_point, v3_add, v3_scale, steer_dir. cbn [vx vy vz]. f_equal; ring. }
  rewrite O. unfold assembly_moment, sum_over. induction parts as [|X parts IH]; cbn [fold_right]; [reflexivity|]. rewrite IH, body_moment_axis. reflexivity.
Qed.
Lemma steer_33 par hb fk wh J s : steer_assembly par hb fk wh true = Ok J ->
  vz (r3 J) = assembly_moment par (chosen hb fk wh) (steer_axis_point (pv par "w") (pv par "c") (pv par "lam") s) (steer_dir (pv par "lam")).
Proof.
  intros H. apply steer_about_axis in H. destruct H as (c & t & _ & _ & N). rewrite <- moment_33, <- (turn_steer (pv par "lam")), N. apply assembly_moment_axis.
Qed.
Lemma steer_canonical par par' can J : steer_assembly par true true true true = Ok J -> benchmark_par_to_canonical par = (par', Ok can) ->
  pv par "c" = 0 -> vz (r3 J) = m22 (cM can).
Proof.
  intros H B C0. rewrite (steer_33 _ _ _ _ _ 0 H). apply canon_inversion in B. destruct B as (_ & (N1 & N2 & N3 & N4 & N5) & _ & ->).
  pose proof (F_front (pv par) N2) as (_ & A2 & _). cbv zeta in A2. unfold F_canon. cbn [cM m22].
  assert (MU : F_mu (pv par) = 0) by (unfold F_mu; rewrite C0; field; assumption). rewrite MU, A2.
  pose proof (sc1 (pv par "lam")) as S.
  unfold assembly_moment, chosen, sum_over, body_moment, rigid_moment. cbn [andb app fold_right].
  unfold front_body. cbn [String.eqb Ascii.eqb Bool.eqb b_m b_x b_z]. unfold tensor_of, moment, steer_axis_point, steer_dir. cbn [b_m b_x b_z b_xx b_xz b_yy b_zz append].
  set (s := sin (pv par "lam")) in *. set (k := cos (pv par "lam")) in *. clearbody s k. unfold m3_app, v3_dot, v3_cross, v3_sub, sqnorm. cbn [r1 r2 r3 vx vy vz]. ring.
Qed.
Lemma steer_defined par hb fk wh ab :
  (forall X k, In X (chosen hb fk wh) -> X <> "F" -> In k (part_keys X) -> In k (dkeys par)) ->
  In "lam" (dkeys par) -> (wh = true -> forall k, In k wheel_keys -> In k (dkeys par)) ->
  (wh = true -> mass_of (assembly_particles par (chosen hb fk wh)) <> 0) ->
  (ab = true -> In "w" (dkeys par) /\ In "c" (dkeys par)) ->
  exists J, steer_assembly par hb fk wh ab = Ok J.
Proof.
  intros HP HL HW HM HA. rewrite steer_central. assert (Q : exists m c J, central par hb fk wh = Ok (m, c, J)).
  { unfold central.
    assert (F : exists q, match (if fk && hb then steer_part par "H" else if fk then steer_part par "S" else if hb then steer_part par "G" else Ok (m3_diag 0 0 0, 0, 0, 0)) with
     | Err (KeyError _) => Err (ValueError "The fork and handlebar were not measured separately for this bicycle.")
     | r => r end = Ok q).
    { assert (G : forall X, In X ["H"; "S"; "G"] -> In X (chosen hb fk wh) -> exists q, steer_part par X = Ok q).
      { intros X HX HC. eexists. apply steer_part_def; [exact HX|]. intros k K. apply (HP X); auto. intros ->. cbn in HX. intuition discriminate. }
      unfold chosen in G. destruct fk, hb; cbn [andb] in *; [destruct (G "H") as [q ->] | destruct (G "S") as [q ->] | destruct (G "G") as [q ->] | ]; cbn; eauto. }
    destruct F as [[[[J m] x] z] F]. pose proof (first_of _ _ _ _ _ _ _ F) as FO. rewrite F. cbn [bind]. destruct wh.
    - specialize (HW eq_refl). specialize (HM eq_refl). unfold wheel_keys in HW.
      rewrite (dlook_pv par "mF"), (dlook_pv par "w"), (dlook_pv par "rF") by (apply HW; cbn; tauto). cbn [bind].
      assert (NZ : m + pv par "mF" <> 0).
      { rewrite chosen_main in HM. destruct (main_part hb fk); [destruct FO as (_ & _ & _ & -> & _) | destruct FO as (_ & -> & _)];
          unfold mass_of, sum_over, assembly_particles in HM; cbn [map app fold_right fst] in HM; replace (b_m (front_body par "F")) with (pv par "mF") in HM by reflexivity; lra. }
      destruct (tcom2_def m x z (pv par "mF") (pv par "w") (- pv par "rF") NZ) as (mA & cx & cy & cz & TC). rewrite TC. cbn [bind].
      unfold part_inertia_tensor, in_FRD. cbn [String.eqb Ascii.eqb Bool.eqb orb append].
      rewrite !(dlook_pv par "IBxx"), !(dlook_pv par "IFxx"), !(dlook_pv par "IFyy"), (dlook_pv par "lam") by (try (apply HW; cbn; tauto); exact HL). cbn [bind]. do 3 eexists. reflexivity.
    - rewrite (dlook_pv par "lam") by exact HL. cbn [bind]. do 3 eexists. reflexivity. }
  destruct Q as (m & c & J & Q). rewrite Q. cbn [bind]. destruct ab; [|eauto]. destruct (HA eq_refl) as [Kw Kc].
  rewrite (dlook_pv par "w"), (dlook_pv par "c"), (dlook_pv par "lam") by assumption. cbn [bind].
  destruct (steer_axis_total (pv par "w") (pv par "c") (pv par "lam") c) as [d ->]. cbn [bind]. eauto.
Qed.
(* asking for the fork or the handlebar alone when only the pair was measured *)
Lemma steer_not_split par hb fk wh ab X k : hb <> fk -> In X (chosen hb fk wh) -> X <> "F" -> In k (part_keys X) -> ~ In k (dkeys par) ->
  exists msg, steer_assembly par hb fk wh ab = Err (ValueError msg).
Proof.
  intros HF HX NF HK NK. rewrite steer_central. unfold central.
  assert (G : In X ["H"; "S"; "G"] -> exists k', steer_part par X = Err (KeyError k')).
  { intros HX'. destruct (steer_part par X) as [q|e] eqn:E.
    - apply steer_part_ok in E; [|exact HX']. destruct E as [E _]. exfalso. apply NK. auto.
    - destruct (steer_part_err _ _ _ HX' E) as [k' ->]. eauto. }
  unfold chosen in HX. destruct fk, hb; try congruence; cbn [andb] in *;
    (assert (X = "S" \/ X = "G") as HX' by (destruct wh; cbn in HX; intuition congruence)); destruct wh; cbn in HX;
    (destruct G as [k' G]; [destruct HX' as [->| ->]; cbn; tauto|]);
    repeat match goal with H : _ \/ _ |- _ => destruct H end; subst; try discriminate; try contradiction; try congruence; rewrite G; cbn [bind]; eauto.
Qed.
