(* TLean2.v -- C70: the rider lean model is the linearised motion of its five rigid bodies *)
From Coq Require Import Lra Lia ZArith QArith Qreals.
From Verif Require Import Base MString MHeap MBicycle MVec MInertia MSets MModels MModels2 SModels SModels2 PBase PModels6 MLean MLeanProg MLean2 SLean PLean PLean2 PLean3 PLean4 PLean5 PLean8 TModels2 TLean SBicycle SLean2.
Local Open Scope string_scope.
Local Open Scope R_scope.

(* x' = A x + B T if and only if the wheels roll without slip and the bicycle, its front
   assembly and the rider obey Newton's and Euler's laws *)
Theorem C70_rider_lean_model_is_newton_euler : forall pitch mem s ov h d p A B,
  rl_fit s ov h d -> parameters (with_scalars d ov) p -> pitch_levels pitch p -> rl_matrices pitch mem s ov h = Ok (Single (A, B)) ->
  exists lam, pitch 0 0 (p "rf") (p "rr") (p "d1") (p "d2") (p "d3") = Ok lam /\ forall x dx T,
    map dx lean_states = addv (mulv A (map x lean_states)) (mulv B (map T lean_inputs)) <-> rides (lean_bike p lam) (p "rr") (p "rf") (p "v") (p "g") x dx T.
Proof.
  intros pitch mem s ov h d p A B F PA PL E. destruct (matrices_ride _ _ _ _ _ _ _ _ _ F PA PL E) as (lam & HP & _ & _ & _ & H). exists lam. split; assumption.
Qed.
Print Assumptions C70_rider_lean_model_is_newton_euler.

(* ---- sums over the bodies ---- *)
Section Totals.
  Variable k : rider_bike.
  Lemma total_ext f g : (forall l b, f l b = g l b) -> total k f = total k g.
  Proof. intros H. unfold total. induction (everyone k) as [|[l b] r IH]; cbn [fold_right fst snd]; [reflexivity|rewrite H, IH; reflexivity]. Qed.
  Lemma total_plus f g : total k (fun l b => f l b + g l b) = total k f + total k g.
  Proof. unfold total. induction (everyone k) as [|[l b] r IH]; cbn [fold_right fst snd]; [ring|rewrite IH; ring]. Qed.
  Lemma total_scale a f : total k (fun l b => a * f l b) = a * total k f.
  Proof. unfold total. induction (everyone k) as [|[l b] r IH]; cbn [fold_right fst snd]; [ring|rewrite IH; ring]. Qed.
  Lemma total_rigid f : total k (fun _ b => f b) = sumb (rigid_rider k) f.
  Proof.
    unfold total, sumb, everyone, rigid_rider. cbn [k_bodies]. rewrite !fold_right_app. cbn [fold_right fst snd]. generalize (f (rb_rider k) + 0). intros r.
    induction (rb_bodies k) as [|b l IH]; cbn [map fold_right fst snd]; [reflexivity|rewrite IH; reflexivity].
  Qed.
End Totals.

(* ---- the rider sits still ---- *)
Section Still.
  Variable k : rider_bike.
  Hypothesis CL : cos (rb_lam k) <> 0.
  Let r := rigid_rider k.
  Lemma trail : k_c r * cos (rb_lam k) = rb_t k.
  Proof. unfold r, rigid_rider. cbn [k_c]. field. exact CL. Qed.
  Lemma ahead_arm b : ahead k b = arm r b.
  Proof. unfold ahead, arm. change (k_w r) with (rb_w k). change (k_lam r) with (rb_lam k). rewrite <- trail. ring. Qed.
  Lemma still_lat l b y roll yaw steer : sideways k l b y roll yaw steer 0 = lat r b y roll yaw steer.
  Proof. unfold sideways, lat. rewrite ahead_arm. ring. Qed.
  Lemma still_hx v l b ra ya sa yr sr : turning_x k v l b ra ya sa 0 yr sr = hx' r v b ra ya sa yr sr.
  Proof. unfold turning_x, hx', turn_x, turn_z, rot_x, rot_z. change (k_lam r) with (rb_lam k). ring. Qed.
  Lemma still_hz v l b ra ya sa rr sr : turning_z k v l b ra ya sa 0 rr sr 0 = hz' r v b ra ya sa rr sr.
  Proof. unfold turning_z, hz', turn_x, turn_z, rot_x, rot_z. change (k_lam r) with (rb_lam k). ring. Qed.
  Lemma still_load g : load k g = front_load r g.
  Proof. unfold load, front_load. change (k_w r) with (rb_w k). rewrite (total_rigid k (fun b => b_m b * b_x b)). reflexivity. Qed.
  (* the balances of a rider who does not move are those of the bicycle and of the torque
     that keeps the rider from moving *)
  Lemma still_balances v g phi phi1 phi2 del del1 del2 psi1 psi2 y2 Tphi Tdel Tth F :
    balances k v g phi phi1 phi2 del del1 del2 0 0 0 psi1 psi2 y2 Tphi Tdel Tth F <->
    (sumb r (fun b => hx' r v b phi2 psi2 del2 psi1 del1 - b_z b * (b_m b * lat r b y2 phi2 psi2 del2))
      = Tphi + sumb r (fun b => b_m b * g * (- b_z b * phi + fr b * arm r b * del)) + front_load r g * (k_c r * cos (rb_lam k) * del) /\
     sumb r (fun b => hz' r v b phi2 psi2 del2 phi1 del1 + b_x b * (b_m b * lat r b y2 phi2 psi2 del2)) = k_w r * F /\
     sumb r (fun b => fr b * (sin (rb_lam k) * hx' r v b phi2 psi2 del2 psi1 del1 + cos (rb_lam k) * hz' r v b phi2 psi2 del2 phi1 del1 + arm r b * (b_m b * lat r b y2 phi2 psi2 del2)))
      = Tdel - k_c r * cos (rb_lam k) * F + (phi + sin (rb_lam k) * del) * (g * sumb r (fun b => fr b * (b_m b * arm r b)) + front_load r g * (k_c r * cos (rb_lam k)))) /\
    Tth = total k (fun l b => l * (hx' r v b phi2 psi2 del2 psi1 del1 - below k b * (b_m b * lat r b y2 phi2 psi2 del2) + b_m b * g * (below k b * phi))).
  Proof.
    unfold balances. assert (TR : forall f, sumb r f = total k (fun _ b => f b)) by (intros; symmetry; apply total_rigid). rewrite trail, <- still_load, !TR. change (k_w r) with (rb_w k).
    rewrite (total_ext k _ (fun _ b => hx' r v b phi2 psi2 del2 psi1 del1 - b_z b * (b_m b * lat r b y2 phi2 psi2 del2))) by (intros; rewrite still_lat, still_hx; reflexivity).
    rewrite (total_ext k (fun l b => b_m b * g * sideways k l b 0 phi 0 del 0) (fun _ b => b_m b * g * (- b_z b * phi + fr b * arm r b * del))) by (intros; rewrite still_lat; unfold lat; ring).
    rewrite (total_ext k (fun l b => turning_z k v l b phi2 psi2 del2 0 phi1 del1 0 + b_x b * (b_m b * sideways k l b y2 phi2 psi2 del2 0)) (fun _ b => hz' r v b phi2 psi2 del2 phi1 del1 + b_x b * (b_m b * lat r b y2 phi2 psi2 del2)))
      by (intros; rewrite still_lat, still_hz; reflexivity).
    rewrite (total_ext k (fun l b => fr b * (sin (rb_lam k) * turning_x k v l b phi2 psi2 del2 0 psi1 del1 + cos (rb_lam k) * turning_z k v l b phi2 psi2 del2 0 phi1 del1 0 + ahead k b * (b_m b * sideways k l b y2 phi2 psi2 del2 0)))
      (fun _ b => fr b * (sin (rb_lam k) * hx' r v b phi2 psi2 del2 psi1 del1 + cos (rb_lam k) * hz' r v b phi2 psi2 del2 phi1 del1 + arm r b * (b_m b * lat r b y2 phi2 psi2 del2))))
      by (intros; rewrite still_lat, still_hx, still_hz, ahead_arm; reflexivity).
    rewrite (total_ext k (fun _ b => fr b * (b_m b * ahead k b)) (fun _ b => fr b * (b_m b * arm r b))) by (intros; rewrite ahead_arm; reflexivity).
    rewrite (total_ext k (fun l b => l * (turning_x k v l b phi2 psi2 del2 0 psi1 del1 - below k b * (b_m b * sideways k l b y2 phi2 psi2 del2 0)))
      (fun l b => l * (hx' r v b phi2 psi2 del2 psi1 del1 - below k b * (b_m b * lat r b y2 phi2 psi2 del2)))) by (intros; rewrite still_lat, still_hx; reflexivity).
    assert (TT : total k (fun l b => l * (hx' r v b phi2 psi2 del2 psi1 del1 - below k b * (b_m b * lat r b y2 phi2 psi2 del2) + b_m b * g * (below k b * phi)))
      = total k (fun l b => l * (hx' r v b phi2 psi2 del2 psi1 del1 - below k b * (b_m b * lat r b y2 phi2 psi2 del2))) + (-1) * total k (fun l b => l * (b_m b * g * (- below k b * (phi + 0))))).
    { rewrite <- total_scale, <- total_plus. apply total_ext. intros. ring. }
    rewrite TT. split.
    - intros (B1 & B2 & B3 & B4). repeat split; try assumption. rewrite B4. ring.
    - intros ((B1 & B2 & B3) & B4). repeat split; try assumption. rewrite B4. ring.
  Qed.
End Still.

(* while a torque holds the rider still, roll and steer obey the equations of the
   bicycle of C02 with the rider as one more rigid body of the rear frame *)
Theorem C70_rider_held_still : forall pitch mem s ov h d p A B,
  rl_fit s ov h d -> parameters (with_scalars d ov) p -> pitch_levels pitch p -> rl_matrices pitch mem s ov h = Ok (Single (A, B)) ->
  exists lam, pitch 0 0 (p "rf") (p "rr") (p "d1") (p "d2") (p "d3") = Ok lam /\ (cos lam <> 0 ->
    (forall x dx T, map dx lean_states = addv (mulv A (map x lean_states)) (mulv B (map T lean_inputs)) -> x "q9" = 0 -> x "u9" = 0 -> dx "u9" = 0 ->
       newton_euler (rigid_rider (lean_bike p lam)) (p "v") (p "g") (x "q4") (x "u4") (dx "u4") (x "q7") (x "u7") (dx "u7") (T "T4") (T "T7")) /\
    (forall phi phi1 phi2 del del1 del2 Tphi Tdel, newton_euler (rigid_rider (lean_bike p lam)) (p "v") (p "g") phi phi1 phi2 del del1 del2 Tphi Tdel ->
       exists x dx T, map dx lean_states = addv (mulv A (map x lean_states)) (mulv B (map T lean_inputs)) /\ x "q9" = 0 /\ x "u9" = 0 /\ dx "u9" = 0 /\
         x "q4" = phi /\ x "u4" = phi1 /\ dx "u4" = phi2 /\ x "q7" = del /\ x "u7" = del1 /\ dx "u7" = del2 /\ T "T4" = Tphi /\ T "T7" = Tdel)).
Proof.
  intros pitch mem s ov h d p A B F PA PL E. destruct (matrices_ride _ _ _ _ _ _ _ _ _ F PA PL E) as (lam & HP & W & RF & RR & H). exists lam. split; [exact HP|]. intros CL. set (k := lean_bike p lam) in *.
  assert (CL' : cos (rb_lam k) <> 0) by exact CL. split.
  - intros x dx T EQ X9 U9 A9. apply H in EQ. destruct EQ as (_ & _ & _ & _ & _ & _ & _ & D2 & D3 & y2 & psi2 & FF & HY & HQ & HB).
    rewrite X9, U9, A9 in HB. apply (still_balances k CL') in HB. destruct HB as ((B1 & B2 & B3) & _).
    exists (p "v" * x "q3"), y2, (x "q3"), (dx "q3"), psi2, FF. change (k_lam (rigid_rider k)) with (rb_lam k) in *. change (k_w (rigid_rider k)) with (rb_w k) in *. rewrite trail in * by exact CL'.
    split; [reflexivity|]. split; [exact HY|]. split; [rewrite <- D2; exact D3|]. split; [exact HQ|]. split; [exact B1|]. split; [exact B2|exact B3].
  - intros phi phi1 phi2 del del1 del2 Tphi Tdel (y1 & y2 & psi & psi1 & psi2 & FF & K1 & K2 & K3 & K4 & B1 & B2 & B3).
    set (Tth := total k (fun l b => l * (hx' (rigid_rider k) (p "v") b phi2 psi2 del2 psi1 del1 - below k b * (b_m b * lat (rigid_rider k) b y2 phi2 psi2 del2) + b_m b * p "g" * (below k b * phi)))).
    exists (fun n => if String.eqb n "q4" then phi else if String.eqb n "u4" then phi1 else if String.eqb n "q7" then del else if String.eqb n "u7" then del1 else if String.eqb n "q3" then psi else 0).
    exists (fun n => if String.eqb n "q4" then phi1 else if String.eqb n "u4" then phi2 else if String.eqb n "q7" then del1 else if String.eqb n "u7" then del2 else if String.eqb n "q3" then psi1 else if String.eqb n "q2" then y1 else 0).
    exists (fun n => if String.eqb n "T4" then Tphi else if String.eqb n "T7" then Tdel else Tth).
    split; [|cbn; repeat split; reflexivity]. apply H. change (k_lam (rigid_rider k)) with (rb_lam k) in *. change (k_w (rigid_rider k)) with (rb_w k) in *. unfold rides. cbn [String.eqb Ascii.eqb Bool.eqb].
    repeat (split; [first [reflexivity|ring]|]). split; [exact K1|]. split; [rewrite trail in K3 by exact CL'; exact K3|].
    exists y2, psi2, FF. split; [exact K2|]. split; [rewrite trail in K4 by exact CL'; exact K4|]. apply (still_balances k CL'). split; [|reflexivity]. split; [exact B1|]. split; [exact B2|exact B3].
Qed.
Print Assumptions C70_rider_held_still.

(* the three torques can give roll, steer and lean any accelerations *)
Theorem C70_torques_give_any_accelerations : forall pitch mem s ov h d p A B,
  rl_fit s ov h d -> parameters (with_scalars d ov) p -> pitch_levels pitch p -> rl_matrices pitch mem s ov h = Ok (Single (A, B)) ->
  forall x a4 a7 a9, exists dx T, map dx lean_states = addv (mulv A (map x lean_states)) (mulv B (map T lean_inputs)) /\ dx "u4" = a4 /\ dx "u7" = a7 /\ dx "u9" = a9.
Proof.
  intros pitch mem s ov h d p A B F PA PL E x a4 a7 a9. destruct (matrices_ride _ _ _ _ _ _ _ _ _ F PA PL E) as (lam & HP & W & RF & RR & H). set (k := lean_bike p lam) in *.
  set (psi1 := (p "v" * cos (rb_lam k) * x "q7" + rb_t k * x "u7") / rb_w k). set (psi2 := (p "v" * cos (rb_lam k) * x "u7" + rb_t k * a7) / rb_w k).
  assert (HB : exists FF T4 T7 T9, balances k (p "v") (p "g") (x "q4") (x "u4") a4 (x "q7") (x "u7") a7 (x "q9") (x "u9") a9 psi1 psi2 (p "v" * psi1) T4 T7 T9 FF).
  { unfold balances.
    match goal with |- exists FF T4 T7 T9, ?L1 = T4 + ?G1 + ?G2 /\ ?L2 = ?w * FF /\ ?L3 = T7 - ?t * FF + ?G3 /\ ?L4 = T9 - ?K1 - ?K2 + ?G4 =>
      exists (L2 / w), (L1 - G1 - G2), (L3 + t * (L2 / w) - G3), (L4 + K1 + K2 - G4); repeat split; [ring|field; exact W|ring|ring] end. }
  destruct HB as (FF & T4 & T7 & T9 & HB).
  exists (fun n => if String.eqb n "q4" then x "u4" else if String.eqb n "q6" then x "u6" else if String.eqb n "q7" then x "u7" else if String.eqb n "q9" then x "u9" else if String.eqb n "q1" then - p "rr" * x "u6"
    else if String.eqb n "q8" then p "rr" / p "rf" * x "u6" else if String.eqb n "u6" then 0 else if String.eqb n "q2" then p "v" * x "q3" else if String.eqb n "q3" then psi1
    else if String.eqb n "u4" then a4 else if String.eqb n "u7" then a7 else a9).
  exists (fun n => if String.eqb n "T4" then T4 else if String.eqb n "T7" then T7 else T9).
  split; [|repeat split; reflexivity]. apply H. unfold rides. cbn [String.eqb Ascii.eqb Bool.eqb].
  do 5 (split; [reflexivity|]). split; [field; exact RF|]. split; [reflexivity|]. split; [reflexivity|]. split; [unfold psi1; field; exact W|].
  exists (p "v" * psi1), psi2, FF. split; [reflexivity|]. split; [unfold psi2; field; exact W|exact HB].
Qed.
Print Assumptions C70_torques_give_any_accelerations.

(* ---- energy ---- *)
Section EnergyRate.
  Variable k : rider_bike.
  Variables (g : R).
  Hypothesis W : rb_w k <> 0.
  (* twice the mixed term of the kinetic energy *)
  Definition mixed (r1 s1 l1 r2 s2 l2 : R) : R :=
    let p1 := rb_t k * s1 / rb_w k in let p2 := rb_t k * s2 / rb_w k in
    total k (fun l b => b_m b * (sideways k l b 0 r1 p1 s1 l1 * sideways k l b 0 r2 p2 s2 l2)
      + b_Ixx b * (turn_x k l b r1 s1 l1 * turn_x k l b r2 s2 l2) + b_Ixz b * (turn_x k l b r1 s1 l1 * turn_z k b p2 s2 + turn_x k l b r2 s2 l2 * turn_z k b p1 s1)
      + b_Izz b * (turn_z k b p1 s1 * turn_z k b p2 s2)).
  Lemma kinetic_step e r s l dr ds dl : kinetic k (r + e * dr) (s + e * ds) (l + e * dl) = kinetic k r s l + e * mixed r s l dr ds dl + e ^ 2 * kinetic k dr ds dl.
  Proof.
    unfold kinetic, mixed. cbn zeta.
    replace (rb_t k * (s + e * ds) / rb_w k) with (rb_t k * s / rb_w k + e * (rb_t k * ds / rb_w k)) by (field; exact W).
    set (p1 := rb_t k * s / rb_w k). set (p2 := rb_t k * ds / rb_w k). unfold Rdiv. rewrite !(Rmult_comm _ (/ 2)), <- !total_scale, <- !total_plus.
    apply total_ext. intros j b. unfold sideways, turn_x, turn_z. field.
  Qed.
  Lemma potential_step e r s l dr ds dl : potential k g (r + e * dr) (s + e * ds) (l + e * dl) = potential k g r s l
    + e * (rb_stiff k * l * dl + g * total k (fun _ b => b_m b * b_z b) * r * dr
           - (g * total k (fun _ b => fr b * (b_m b * ahead k b)) + load k g * rb_t k) * (r * ds + s * dr + sin (rb_lam k) * s * ds)
           + g * total k (fun l b => l * (b_m b * below k b)) * (r * dl + l * dr + l * dl)) + e ^ 2 * potential k g dr ds dl.
  Proof. unfold potential. field. Qed.
  Lemma power phi del th phi1 phi2 del1 del2 th1 th2 psi1 psi2 Tphi Tdel Tth F :
    balances k 0 g phi phi1 phi2 del del1 del2 th th1 th2 psi1 psi2 0 Tphi Tdel Tth F -> psi1 = rb_t k * del1 / rb_w k -> psi2 = rb_t k * del2 / rb_w k ->
    mixed phi1 del1 th1 phi2 del2 th2
    + (rb_stiff k * th * th1 + g * total k (fun _ b => b_m b * b_z b) * phi * phi1
           - (g * total k (fun _ b => fr b * (b_m b * ahead k b)) + load k g * rb_t k) * (phi * del1 + del * phi1 + sin (rb_lam k) * del * del1)
           + g * total k (fun l b => l * (b_m b * below k b)) * (phi * th1 + th * phi1 + th * th1))
    = Tphi * phi1 + Tdel * del1 + Tth * th1 - rb_damp k * th1 ^ 2.
  Proof.
    intros (B1 & B2 & B3 & B4) P1 P2.
    assert (MX : mixed phi1 del1 th1 phi2 del2 th2 =
      phi1 * total k (fun l b => turning_x k 0 l b phi2 psi2 del2 th2 psi1 del1 - b_z b * (b_m b * sideways k l b 0 phi2 psi2 del2 th2))
      + psi1 * total k (fun l b => turning_z k 0 l b phi2 psi2 del2 th2 phi1 del1 th1 + b_x b * (b_m b * sideways k l b 0 phi2 psi2 del2 th2))
      + del1 * total k (fun l b => fr b * (sin (rb_lam k) * turning_x k 0 l b phi2 psi2 del2 th2 psi1 del1 + cos (rb_lam k) * turning_z k 0 l b phi2 psi2 del2 th2 phi1 del1 th1
                              + ahead k b * (b_m b * sideways k l b 0 phi2 psi2 del2 th2)))
      + th1 * total k (fun l b => l * (turning_x k 0 l b phi2 psi2 del2 th2 psi1 del1 - below k b * (b_m b * sideways k l b 0 phi2 psi2 del2 th2)))).
    { unfold mixed. cbn zeta. rewrite <- P1, <- P2, <- !total_scale, <- !total_plus. apply total_ext. intros l b. unfold turning_x, turning_z, turn_x, turn_z, sideways, spin. ring. }
    rewrite MX, B1, B2, B3, B4.
    assert (G1 : total k (fun l b => b_m b * g * sideways k l b 0 phi 0 del th) = - g * phi * total k (fun _ b => b_m b * b_z b) + g * del * total k (fun _ b => fr b * (b_m b * ahead k b)) + - g * th * total k (fun l b => l * (b_m b * below k b))).
    { rewrite <- !total_scale, <- !total_plus. apply total_ext. intros l b. unfold sideways. ring. }
    assert (G2 : total k (fun l b => l * (b_m b * g * (- below k b * (phi + th)))) = - g * (phi + th) * total k (fun l b => l * (b_m b * below k b))).
    { rewrite <- !total_scale. apply total_ext. intros l b. ring. }
    rewrite G1, G2. assert (PW : psi1 * (rb_w k * F) = rb_t k * del1 * F) by (rewrite P1; field; exact W). rewrite PW. ring.
  Qed.
End EnergyRate.

(* on a standing bicycle the torques and the rider's damper alone change the energy: along
   x' = A x + B T it changes at the rate T4 u4 + T7 u7 + T9 u9 - c9 u9^2 *)
Theorem C70_energy_of_a_standing_bicycle : forall pitch mem s ov h d p A B,
  rl_fit s ov h d -> parameters (with_scalars d ov) p -> pitch_levels pitch p -> rl_matrices pitch mem s ov h = Ok (Single (A, B)) -> p "v" = 0 ->
  exists lam, pitch 0 0 (p "rf") (p "rr") (p "d1") (p "d2") (p "d3") = Ok lam /\ let E := energy (lean_bike p lam) (p "g") in
  forall x dx T, map dx lean_states = addv (mulv A (map x lean_states)) (mulv B (map T lean_inputs)) ->
  forall t, E (fun k => x k + t * dx k) = E x + t * (T "T4" * x "u4" + T "T7" * x "u7" + T "T9" * x "u9" - p "c9" * x "u9" ^ 2) + t ^ 2 * E dx.
Proof.
  intros pitch mem s ov h d p A B F PA PL E V0. destruct (matrices_ride _ _ _ _ _ _ _ _ _ F PA PL E) as (lam & HP & W & _ & _ & H). exists lam. split; [exact HP|]. cbn zeta. set (k := lean_bike p lam) in *.
  intros x dx T EQ t. apply H in EQ. rewrite V0 in EQ. destruct EQ as (D4 & _ & D7 & D9 & _ & _ & _ & D2 & D3 & y2 & psi2 & FF & HY & HQ & HB).
  rewrite Rmult_0_l in HY, D2. rewrite HY in HB, HQ. rewrite D2 in D3.
  assert (P1 : dx "q3" = rb_t k * x "u7" / rb_w k).
  { apply Rmult_eq_reg_l with (rb_w k); [|exact W]. transitivity (rb_t k * x "u7"); [lra|field; exact W]. }
  assert (P2 : psi2 = rb_t k * dx "u7" / rb_w k).
  { apply Rmult_eq_reg_l with (rb_w k); [|exact W]. transitivity (rb_t k * dx "u7"); [lra|field; exact W]. }
  pose proof (power k (p "g") W _ _ _ _ _ _ _ _ _ _ _ _ _ _ _ HB P1 P2) as PW. change (rb_damp k) with (p "c9") in PW.
  unfold energy. rewrite (kinetic_step k W), (potential_step k (p "g")), <- PW, D4, D7, D9. ring.
Qed.
Print Assumptions C70_energy_of_a_standing_bicycle.

(* ---- from rest ---- *)
Section Rest.
  Variables (k : rider_bike) (rr rf v g : R).
  Hypothesis W : rb_w k <> 0.
  Lemma from_rest dx T : rides k rr rf v g (fun _ => 0) dx T -> forall b4 b7 b9, T "T4" * b4 + T "T7" * b7 + T "T9" * b9 = mixed k b4 b7 b9 (dx "u4") (dx "u7") (dx "u9").
  Proof.
    intros (D4 & _ & D7 & D9 & _ & _ & _ & D2 & D3 & y2 & psi2 & FF & HY & HQ & HB) b4 b7 b9.
    assert (P1 : dx "q3" = 0). { apply Rmult_eq_reg_l with (rb_w k); [|exact W]. lra. }
    rewrite P1 in HY, HQ, HB. rewrite Rmult_0_r in HY. subst y2.
    assert (P2 : psi2 = rb_t k * dx "u7" / rb_w k).
    { apply Rmult_eq_reg_l with (rb_w k); [|exact W]. transitivity (rb_t k * dx "u7"); [lra|field; exact W]. }
    destruct HB as (B1 & B2 & B3 & B4). set (a4 := dx "u4") in *. set (a7 := dx "u7") in *. set (a9 := dx "u9") in *.
    assert (Z1 : total k (fun l b => b_m b * g * sideways k l b 0 0 0 0 0) = 0).
    { rewrite (total_ext k _ (fun l b => 0 * b_m b)) by (intros; unfold sideways; ring). rewrite total_scale. ring. }
    assert (Z2 : total k (fun l b => l * (b_m b * g * (- below k b * (0 + 0)))) = 0).
    { rewrite (total_ext k _ (fun l b => 0 * b_m b)) by (intros; ring). rewrite total_scale. ring. }
    rewrite Z1 in B1. rewrite Z2 in B4. set (ps := rb_t k * b7 / rb_w k).
    assert (FP : rb_t k * FF * b7 = rb_w k * FF * ps) by (unfold ps; field; exact W).
    assert (K : mixed k b4 b7 b9 a4 a7 a9 =
      b4 * total k (fun l b => turning_x k v l b a4 psi2 a7 a9 0 0 - b_z b * (b_m b * sideways k l b 0 a4 psi2 a7 a9))
      + ps * total k (fun l b => turning_z k v l b a4 psi2 a7 a9 0 0 0 + b_x b * (b_m b * sideways k l b 0 a4 psi2 a7 a9))
      + b7 * total k (fun l b => fr b * (sin (rb_lam k) * turning_x k v l b a4 psi2 a7 a9 0 0 + cos (rb_lam k) * turning_z k v l b a4 psi2 a7 a9 0 0 0
                              + ahead k b * (b_m b * sideways k l b 0 a4 psi2 a7 a9)))
      + b9 * total k (fun l b => l * (turning_x k v l b a4 psi2 a7 a9 0 0 - below k b * (b_m b * sideways k l b 0 a4 psi2 a7 a9)))).
    { unfold mixed. cbn zeta. fold ps. rewrite <- P2. rewrite <- !total_scale, <- !total_plus. apply total_ext. intros l b. unfold turning_x, turning_z, turn_x, turn_z, sideways, spin. ring. }
    rewrite K, B1, B2, B3, B4. transitivity (T "T4" * b4 + T "T7" * b7 + T "T9" * b9 + (rb_w k * FF * ps - rb_t k * FF * b7)); [rewrite FP; ring|ring].
  Qed.
  Lemma mixed_sym a b c x y z : mixed k a b c x y z = mixed k x y z a b c.
  Proof. unfold mixed. cbn zeta. apply total_ext. intros. ring. Qed.
  Lemma mixed_kinetic a b c : mixed k a b c a b c = 2 * kinetic k a b c.
  Proof. unfold mixed, kinetic. cbn zeta. set (q := rb_t k * b / rb_w k). unfold Rdiv. rewrite (Rmult_comm _ (/ 2)), <- !total_scale. apply total_ext. intros. field. Qed.
End Rest.
Lemma rest_rides pitch mem s ov h d p A B : rl_fit s ov h d -> parameters (with_scalars d ov) p -> pitch_levels pitch p -> rl_matrices pitch mem s ov h = Ok (Single (A, B)) ->
  exists lam, pitch 0 0 (p "rf") (p "rr") (p "d1") (p "d2") (p "d3") = Ok lam /\ rb_w (lean_bike p lam) <> 0 /\
  forall dx T, map dx lean_states = mulv B (map T lean_inputs) -> rides (lean_bike p lam) (p "rr") (p "rf") (p "v") (p "g") (fun _ => 0) dx T.
Proof.
  intros F PA PL E. destruct (matrices_ride _ _ _ _ _ _ _ _ _ F PA PL E) as (lam & HP & W & _ & _ & H).
  destruct (matrices_rows _ _ _ _ _ _ _ _ _ F PA PL E) as (e & lam' & sf & _ & _ & _ & _ & _ & EA & EB).
  exists lam. split; [exact HP|]. split; [exact W|]. intros dx T EQ. apply H.
  rewrite EQ. rewrite EA, EB. unfold mulv. rewrite !map_map, addv_map. apply map_ext. intros i. rewrite <- (Rplus_0_l (dotl (map _ b_idxs) _)) at 1. f_equal.
  rewrite dotl_map. generalize (combine a_idxs lean_states). intros c. induction c as [|a c IH]; cbn [map fold_right]; [reflexivity|rewrite <- IH; ring].
Qed.
(* bodies that can exist have no negative kinetic energy: from rest the torques never
   accelerate against themselves *)
Theorem C70_torques_from_rest : forall pitch mem s ov h d p A B,
  rl_fit s ov h d -> parameters (with_scalars d ov) p -> pitch_levels pitch p -> rl_matrices pitch mem s ov h = Ok (Single (A, B)) ->
  exists lam, pitch 0 0 (p "rf") (p "rr") (p "d1") (p "d2") (p "d3") = Ok lam /\
  forall dx T, map dx lean_states = mulv B (map T lean_inputs) ->
    T "T4" * dx "u4" + T "T7" * dx "u7" + T "T9" * dx "u9" = 2 * kinetic (lean_bike p lam) (dx "u4") (dx "u7") (dx "u9") /\
    (Forall physical (rb_rider (lean_bike p lam) :: rb_bodies (lean_bike p lam)) -> 0 <= T "T4" * dx "u4" + T "T7" * dx "u7" + T "T9" * dx "u9").
Proof.
  intros pitch mem s ov h d p A B F PA PL E. destruct (rest_rides _ _ _ _ _ _ _ _ _ F PA PL E) as (lam & HP & W & H).
  exists lam. split; [exact HP|]. set (k := lean_bike p lam) in *. intros dx T EQ.
  assert (KE : T "T4" * dx "u4" + T "T7" * dx "u7" + T "T9" * dx "u9" = 2 * kinetic k (dx "u4") (dx "u7") (dx "u9")).
  { rewrite <- mixed_kinetic. eapply from_rest; [exact W|apply H, EQ]. }
  split; [exact KE|]. intros PH. rewrite KE. apply Rmult_le_pos; [lra|]. unfold kinetic. cbn zeta. apply Rmult_le_pos; [|lra].
  set (ps := rb_t k * dx "u7" / rb_w k). unfold total, everyone.
  assert (PH' : Forall (fun lb => physical (snd lb)) (map (fun b => (0, b)) (rb_bodies k) ++ [(1, rb_rider k)])).
  { inversion PH as [|? ? HR HBs]; subst. apply Forall_app. split; [|constructor; [exact HR|constructor]]. apply Forall_map. exact HBs. }
  clear -PH'. induction PH' as [|[l b] r HB _ IH]; cbn [fold_right fst snd]; [lra|]. apply Rplus_le_le_0_compat; [|exact IH].
  cbn [snd] in HB. destruct HB as (M & I1 & I3 & I2). generalize (turn_x k l b (dx "u4") (dx "u7") (dx "u9")) (turn_z k b ps (dx "u7")) (sideways k l b 0 (dx "u4") ps (dx "u7") (dx "u9")). intros a c y.
  assert (0 <= b_m b * y ^ 2) by (apply Rmult_le_pos; [exact M|apply pow2_ge_0]).
  assert (Q : 0 <= b_Ixx b * a ^ 2 + 2 * b_Ixz b * a * c + b_Izz b * c ^ 2); [|lra].
  destruct (Req_dec (b_Ixx b) 0) as [Z|NZ].
  - assert (b_Ixz b = 0). { rewrite Z in I2. pose proof (pow2_ge_0 (b_Ixz b)). apply Rsqr_0_uniq. unfold Rsqr. lra. }
    rewrite Z, H0. pose proof (Rmult_le_pos _ _ I3 (pow2_ge_0 c)). lra.
  - apply Rmult_le_reg_l with (b_Ixx b); [lra|]. rewrite Rmult_0_r.
    replace (b_Ixx b * (b_Ixx b * a ^ 2 + 2 * b_Ixz b * a * c + b_Izz b * c ^ 2)) with ((b_Ixx b * a + b_Ixz b * c) ^ 2 + (b_Ixx b * b_Izz b - b_Ixz b ^ 2) * c ^ 2) by ring.
    apply Rplus_le_le_0_compat; [apply pow2_ge_0|apply Rmult_le_pos; [lra|apply pow2_ge_0]].
Qed.
Print Assumptions C70_torques_from_rest.

(* from rest, the rate of one angle under the torque of another is that of the other under the torque of the one *)
Theorem C70_reciprocity : forall pitch mem s ov h d p A B,
  rl_fit s ov h d -> parameters (with_scalars d ov) p -> pitch_levels pitch p -> rl_matrices pitch mem s ov h = Ok (Single (A, B)) ->
  forall dx T dx' T', map dx lean_states = mulv B (map T lean_inputs) -> map dx' lean_states = mulv B (map T' lean_inputs) ->
    T "T4" * dx' "u4" + T "T7" * dx' "u7" + T "T9" * dx' "u9" = T' "T4" * dx "u4" + T' "T7" * dx "u7" + T' "T9" * dx "u9".
Proof.
  intros pitch mem s ov h d p A B F PA PL E dx T dx' T' E1 E2. destruct (rest_rides _ _ _ _ _ _ _ _ _ F PA PL E) as (lam & HP & W & H).
  rewrite (from_rest _ _ _ _ _ W _ _ (H _ _ E1)), (from_rest _ _ _ _ _ W _ _ (H _ _ E2)). apply mixed_sym.
Qed.
Print Assumptions C70_reciprocity.

(* ---- a concrete case: all parameters one but the rear wheel radius, which is two ---- *)
Definition two_point (v : Q) (k : string) : Q := if String.eqb k "rr" then 2 else if smem k lean_parameters then 1 else if String.eqb k "u6" then (- v / 2)%Q else 0.
Definition two (v : R) (k : string) : R := if String.eqb k "v" then v else if String.eqb k "rr" then 2 else 1.
Definition two_over (v : R) : dict oval := [("rr", OScalar 2); ("v", OScalar v)].
Definition q_is (o : option Q) (n : Z) (m : positive) : bool := match o with Some x => (Z.eqb (Qnum x) n && Pos.eqb (Qden x) m)%bool | None => false end.
Lemma q_is_spec o n m : q_is o n m = true -> o = Some (n # m)%Q.
Proof. destruct o as [[a b]|]; [|discriminate]. cbn [q_is Qnum Qden]. intros H. apply andb_prop in H. destruct H as [A B]. apply Z.eqb_eq in A. apply Pos.eqb_eq in B. subst. reflexivity. Qed.
Lemma two_fit v : rl_fit lean_set (two_over v) [lean_dict] lean_dict.
Proof.
  split; [reflexivity|]. split; [repeat constructor; cbn; intuition discriminate|]. split; [|exact lean_complete].
  intros k x [H|[H|[]]]; injection H as _ <-; eexists; reflexivity.
Qed.
Lemma two_values v k : In k rider_lean_parameters -> dget (with_scalars lean_dict (two_over v)) k = Some (VNum (two v k)).
Proof. revert k. apply Forall_forall. repeat (constructor; [reflexivity|]). constructor. Qed.
Lemma two_parameters v : parameters (with_scalars lean_dict (two_over v)) (two v).
Proof. intros k x Hk E. rewrite (two_values v k Hk) in E. congruence. Qed.
Lemma two_levels v : pitch_levels level (two v).
Proof. intros lam H. unfold level in H. injection H as <-. unfold wheels_level. rewrite sin_0, cos_0. cbn. ring. Qed.
Lemma two_operating v : operating_point level (with_scalars lean_dict (two_over (Q2R v))) (fun k => Q2R (two_point v k)).
Proof.
  assert (Q1 : Q2R 1 = 1) by apply RMicromega.Q2R_1. assert (Q2 : Q2R 2 = 2) by (unfold Q2R; cbn; field). split; [|split; [|split]].
  - intros k Hk. destruct (rlp_v k Hk) as (Hr & NV). rewrite (two_values _ k Hr). unfold two, two_point. destruct (String.eqb_spec k "v"); [contradiction|].
    destruct (String.eqb k "rr"); [rewrite Q2; reflexivity|]. apply smem_spec in Hk. rewrite Hk, Q1. reflexivity.
  - exists (Q2R v). split; [reflexivity|]. change (two_point v "rr") with 2%Q. change (two_point v "u6") with (- v / 2)%Q. rewrite Q2. split; [lra|]. rewrite Q2R_div by discriminate. rewrite Q2R_opp, Q2. field.
  - unfold level. change (two_point v "q5") with 0%Q. rewrite RMicromega.Q2R_0. reflexivity.
  - intros k Hk N1 N2. assert (two_point v k = 0%Q) as ->; [|apply RMicromega.Q2R_0].
    assert (H : Forall (fun k => k <> "u6" -> two_point v k = 0%Q) motion_symbols) by (repeat (constructor; [intros; reflexivity || congruence|]); constructor).
    rewrite Forall_forall in H. exact (H k Hk N1).
Qed.
Lemma run_moving : exists st, qrun (qstart (two_point 1) 0%Q) lean_program = Some st /\ qfind (qs_mat st) MA 9 6 = Some (-27 # 80)%Q.
Proof.
  assert (H : match qrun (qstart (two_point 1) 0%Q) lean_program with Some st => q_is (qfind (qs_mat st) MA 9 6) (-27) 80 | None => false end = true) by vm_cast_no_check (eq_refl true).
  destruct (qrun (qstart (two_point 1) 0%Q) lean_program) as [st|]; [|discriminate]. exists st. split; [reflexivity|apply q_is_spec, H].
Qed.
Lemma run_standing : exists st, qrun (qstart (two_point 0) 0%Q) lean_program = Some st /\ qfind (qs_mat st) MA 9 6 = Some (-1 # 20)%Q.
Proof.
  assert (H : match qrun (qstart (two_point 0) 0%Q) lean_program with Some st => q_is (qfind (qs_mat st) MA 9 6) (-1) 20 | None => false end = true) by vm_cast_no_check (eq_refl true).
  destruct (qrun (qstart (two_point 0) 0%Q) lean_program) as [st|]; [|discriminate]. exists st. split; [reflexivity|apply q_is_spec, H].
Qed.
Lemma two_matrices v st n m : qrun (qstart (two_point v) 0%Q) lean_program = Some st -> qfind (qs_mat st) MA 9 6 = Some (n # m)%Q ->
  exists A B, rl_matrices level sevens lean_set (two_over (Q2R v)) [lean_dict] = Ok (Single (A, B)) /\ entry lean_states lean_states A "u4" "q7" (IZR n / IZR (Zpos m)).
Proof.
  intros E1 E2. pose proof (two_fit (Q2R v)) as (F1 & F2 & F3 & F4).
  assert (LV : level (Q2R (two_point v "q4")) (Q2R (two_point v "q7")) (Q2R (two_point v "rf")) (Q2R (two_point v "rr")) (Q2R (two_point v "d1")) (Q2R (two_point v "d2")) (Q2R (two_point v "d3")) = Ok (Q2R 0%Q)) by (unfold level; rewrite RMicromega.Q2R_0; reflexivity).
  destruct (qequations (two_point v) 0%Q st level sevens E1 LV) as (M & N & EB & HA & HB).
  destruct (rl_named level (lean_body level sevens) lean_set (two_over (Q2R v)) [lean_dict] lean_dict _ (lean_body_linear _ _) F1 F2 F3 F4 (two_operating v)) as (A1 & _).
  destruct (A1 _ _ EB) as (A & B & ER & (SA & RA) & _). exists A, B. split; [exact ER|]. destruct (body_shape _ _ _ _ _ EB) as (S1 & S2).
  apply RA; [apply smem_spec; reflexivity..|]. replace (IZR n / IZR (Zpos m)) with (ent M 9 6); [apply (entry_ent full_states full_states M 9 6 S1); cbn; lia|].
  unfold ent. rewrite (HA 9%nat 6%nat _ ltac:(lia) ltac:(lia) E2). reflexivity.
Qed.
(* the premises hold at speed one and at standstill, the coupling of roll to steer differs *)
Example C70_case : exists A B A' B',
  rl_fit lean_set (two_over (Q2R 1)) [lean_dict] lean_dict /\ parameters (with_scalars lean_dict (two_over (Q2R 1))) (two (Q2R 1)) /\ pitch_levels level (two (Q2R 1)) /\
  rl_matrices level sevens lean_set (two_over (Q2R 1)) [lean_dict] = Ok (Single (A, B)) /\ entry lean_states lean_states A "u4" "q7" (-27 / 80) /\
  rl_fit lean_set (two_over (Q2R 0)) [lean_dict] lean_dict /\ parameters (with_scalars lean_dict (two_over (Q2R 0))) (two (Q2R 0)) /\ pitch_levels level (two (Q2R 0)) /\ two (Q2R 0) "v" = 0 /\
  rl_matrices level sevens lean_set (two_over (Q2R 0)) [lean_dict] = Ok (Single (A', B')) /\ entry lean_states lean_states A' "u4" "q7" (-1 / 20) /\
  cos 0 <> 0 /\ Forall physical (rb_rider (lean_bike (two 1) 0) :: rb_bodies (lean_bike (two 1) 0)).
Proof.
  assert (M1 : exists A B, rl_matrices level sevens lean_set (two_over (Q2R 1)) [lean_dict] = Ok (Single (A, B)) /\ entry lean_states lean_states A "u4" "q7" (-27 / 80)).
  { destruct run_moving as (st & R & V). exact (two_matrices 1 st _ _ R V). }
  assert (M2 : exists A B, rl_matrices level sevens lean_set (two_over (Q2R 0)) [lean_dict] = Ok (Single (A, B)) /\ entry lean_states lean_states A "u4" "q7" (-1 / 20)).
  { destruct run_standing as (st & R & V). exact (two_matrices 0 st _ _ R V). }
  destruct M1 as (A & B & E1 & N1). destruct M2 as (A' & B' & E2 & N2).
  exists A, B, A', B'. split; [apply two_fit|]. split; [apply two_parameters|]. split; [apply two_levels|]. split; [exact E1|]. split; [exact N1|].
  split; [apply two_fit|]. split; [apply two_parameters|]. split; [apply two_levels|]. split; [exact RMicromega.Q2R_0|]. split; [exact E2|]. split; [exact N2|].
  split; [rewrite cos_0; lra|]. unfold lean_bike, lean_bodies, body_of, upright. cbn [rb_rider rb_bodies]. rewrite sin_0, cos_0. unfold two. cbn [String.eqb Ascii.eqb Bool.eqb].
  repeat (constructor; [unfold physical; cbn [b_m b_Ixx b_Izz b_Ixz]; lra|]). constructor.
Qed.
