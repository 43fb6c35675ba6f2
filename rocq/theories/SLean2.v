(* SLean2.v -- the linearised motion of a bicycle whose rider leans: rigid bodies,
   rolling without slip, Newton-Euler balances.  Frame: x forward, y right, z down,
   origin at the rear contact point, as in SBicycle.v, whose bodies are used. *)
From Verif Require Import Base MString MHeap MBicycle MVec MInertia MSets MModels MModels2 SBicycle SModels SModels2.
Local Open Scope string_scope.
Local Open Scope R_scope.

Record rider_bike := mkrb {
  rb_w : R; rb_t : R; rb_lam : R;       (* wheelbase, mechanical trail (distance of the front contact point behind the steer axis), steer axis tilt *)
  rb_bodies : list body;                (* the bodies of the bicycle *)
  rb_rider : body;                      (* the rider, who leans about a fore-and-aft axis of the rear frame ... *)
  rb_hinge : R;                         (* ... this high (z of the axis) ... *)
  rb_stiff : R; rb_damp : R }.          (* ... against a spring and a damper *)

Section Lean.
  Variable k : rider_bike.
  Let cl := cos (rb_lam k).
  Let sl := sin (rb_lam k).
  (* every body, with 1 for the one that leans *)
  Definition everyone : list (R * body) := (map (fun b => (0, b)) (rb_bodies k) ++ [(1, rb_rider k)])%list.
  Definition total (f : R -> body -> R) : R := fold_right (fun b s => f (fst b) (snd b) + s) 0 everyone.
  (* signed distance of a mass centre ahead of the steer axis *)
  Definition ahead (b : body) : R := (b_x b - rb_w k) * cl - rb_t k - b_z b * sl.
  (* how far a mass centre is below the axis of the rider's lean *)
  Definition below (b : body) : R := b_z b - rb_hinge k.
  (* angular rates (accelerations) about x and z *)
  Definition turn_x (l : R) (b : body) (roll steer lean : R) : R := roll + fr b * sl * steer + l * lean.
  Definition turn_z (b : body) (yaw steer : R) : R := yaw + fr b * cl * steer.
  (* lateral velocity (acceleration), or displacement, of a mass centre *)
  Definition sideways (l : R) (b : body) (yP roll yaw steer lean : R) : R :=
    yP + b_x b * yaw - b_z b * roll + fr b * ahead b * steer - l * below b * lean.
  (* rates of change of central angular momentum; the spin momentum of a wheel is -v Iyy/r *)
  Definition turning_x (v l : R) (b : body) (rolla yawa steera leana yawr steerr : R) : R :=
    b_Ixx b * turn_x l b rolla steera leana + b_Ixz b * turn_z b yawa steera - turn_z b yawr steerr * spin v b.
  Definition turning_z (v l : R) (b : body) (rolla yawa steera leana rollr steerr leanr : R) : R :=
    b_Ixz b * turn_x l b rolla steera leana + b_Izz b * turn_z b yawa steera + turn_x l b rollr steerr leanr * spin v b.
  (* vertical load carried by the front wheel *)
  Definition load (g : R) : R := g * total (fun _ b => b_m b * b_x b) / rb_w k.

  (* The equations at forward speed v: roll phi, steer del and lean th with their first (1)
     and second (2) time derivatives, yaw rate psi1 and acceleration psi2, lateral
     acceleration y2 of the rear contact point, applied torques, side force F of the
     ground on the front wheel. *)
  Definition balances (v g phi phi1 phi2 del del1 del2 th th1 th2 psi1 psi2 y2 Tphi Tdel Tth F : R) : Prop :=
    (* roll balance of everything about the x axis *)
    total (fun l b => turning_x v l b phi2 psi2 del2 th2 psi1 del1 - b_z b * (b_m b * sideways l b y2 phi2 psi2 del2 th2))
    = Tphi + total (fun l b => b_m b * g * (sideways l b 0 phi 0 del th)) + load g * (rb_t k * del) /\
    (* yaw balance of everything about the z axis *)
    total (fun l b => turning_z v l b phi2 psi2 del2 th2 phi1 del1 th1 + b_x b * (b_m b * sideways l b y2 phi2 psi2 del2 th2))
    = rb_w k * F /\
    (* balance of the front assembly about the steer axis *)
    total (fun l b => fr b * (sl * turning_x v l b phi2 psi2 del2 th2 psi1 del1 + cl * turning_z v l b phi2 psi2 del2 th2 phi1 del1 th1
                              + ahead b * (b_m b * sideways l b y2 phi2 psi2 del2 th2)))
    = Tdel - rb_t k * F + (phi + sl * del) * (g * total (fun _ b => fr b * (b_m b * ahead b)) + load g * rb_t k) /\
    (* balance of the rider about the axis of the lean *)
    total (fun l b => l * (turning_x v l b phi2 psi2 del2 th2 psi1 del1 - below b * (b_m b * sideways l b y2 phi2 psi2 del2 th2)))
    = Tth - rb_stiff k * th - rb_damp k * th1 + total (fun l b => l * (b_m b * g * (- below b * (phi + th)))).

  (* x: the states (deviations from straight running at speed v), dx their time
     derivatives, T the torques; rr, rf the wheel radii *)
  Definition rides (rr rf v g : R) (x dx T : string -> R) : Prop :=
    (* the rates of the angles *)
    dx "q4" = x "u4" /\ dx "q6" = x "u6" /\ dx "q7" = x "u7" /\ dx "q9" = x "u9" /\
    (* the wheels roll (a forward turning wheel turns in the negative sense) *)
    dx "q1" = - rr * x "u6" /\ rf * dx "q8" = rr * x "u6" /\
    (* no lengthwise force: the speed stays *)
    dx "u6" = 0 /\
    (* the wheels do not slip sideways; q3 is the yaw angle, q2 the lateral position *)
    dx "q2" = v * x "q3" /\
    dx "q2" + rb_w k * dx "q3" - rb_t k * x "u7" = v * (x "q3" + cl * x "q7") /\
    exists y2 psi2 F,
      y2 = v * dx "q3" /\
      y2 + rb_w k * psi2 - rb_t k * dx "u7" = v * (dx "q3" + cl * x "u7") /\
      balances v g (x "q4") (x "u4") (dx "u4") (x "q7") (x "u7") (dx "u7") (x "q9") (x "u9") (dx "u9")
        (dx "q3") psi2 y2 (T "T4") (T "T7") (T "T9") F.
End Lean.

(* ---- the bicycle of a set of rider lean parameters, at pitch angle lam ---- *)
Section Parameters.
  Variable p : string -> R.
  Variable lam : R.
  Let c := cos lam.
  Let s := sin lam.
  (* a tensor (11, 31, 33) given in the axes of the steer axis, in the upright axes *)
  Definition upright (i11 i31 i33 : R) : R * R * R :=
    (i11 * c ^ 2 + 2 * i31 * c * s + i33 * s ^ 2, i31 * (c ^ 2 - s ^ 2) + (i33 - i11) * s * c, i33 * c ^ 2 - 2 * i31 * c * s + i11 * s ^ 2).
  Definition body_of (m x z : R) (i : R * R * R) (spin : R) (front : bool) : body :=
    match i with (ixx, ixz, izz) => mkbody m x z ixx ixz izz spin front end.
  (* a point a along and b down the axes of the steer axis, from the rear wheel centre *)
  Definition px (a b : R) : R := a * c + b * s.
  Definition pz (a b : R) : R := - p "rr" - a * s + b * c.
  Definition lean_bodies : list body :=
    [body_of (p "md") 0 (- p "rr") (p "id11", 0, p "id11") (p "id22" / p "rr") false;
     body_of (p "mc") (px (p "l1") (p "l2")) (pz (p "l1") (p "l2")) (upright (p "ic11") (p "ic31") (p "ic33")) 0 false;
     body_of (p "me") (px (p "d1" + p "d3" + p "l3") (p "d2" + p "l4")) (pz (p "d1" + p "d3" + p "l3") (p "d2" + p "l4"))
             (upright (p "ie11") (p "ie31") (p "ie33")) 0 true;
     body_of (p "mf") (px (p "d1" + p "d3") (p "d2")) (- p "rf") (p "if11", 0, p "if11") (p "if22" / p "rf") true].
  Definition lean_bike : rider_bike :=
    mkrb (px (p "d1" + p "d3") (p "d2")) (p "rf" * s - p "d3") lam lean_bodies
         (body_of (p "mg") (p "l5") (- p "rr" + p "d4" + p "l6") (p "ig11", p "ig31", p "ig33") 0 false)
         (- p "rr" + p "d4") (p "k9") (p "c9").
  (* the front wheel stands on the ground that the rear wheel stands on *)
  Definition wheels_level : Prop := p "rr" + (p "d1" + p "d3") * s - p "d2" * c = p "rf".
End Parameters.
(* the contract of the pitch angle: both wheels of the upright bicycle are on the ground *)
Definition pitch_levels (pitch : R -> R -> R -> R -> R -> R -> R -> res R) (p : string -> R) : Prop :=
  forall lam, pitch 0 0 (p "rf") (p "rr") (p "d1") (p "d2") (p "d3") = Ok lam -> wheels_level p lam.
(* p are the values of the parameters d *)
Definition parameters (d : pdict) (p : string -> R) : Prop := forall k x, In k rider_lean_parameters -> dget d k = Some (VNum x) -> p k = x.

(* the bicycle whose rider sits still: five rigid bodies of which two turn with the
   handlebars; SBicycle.v measures the trail along the ground *)
Definition rigid_rider (k : rider_bike) : bike := mkbike (rb_w k) (rb_t k / cos (rb_lam k)) (rb_lam k) (rb_bodies k ++ [rb_rider k]).

Section Energy.
  Variable k : rider_bike.
  Variable g : R.
  (* kinetic energy of rolling, steering and leaning rates of a standing bicycle, which yaws at psi1 *)
  Definition kinetic (roll steer lean : R) : R :=
    let psi1 := rb_t k * steer / rb_w k in
    total k (fun l b => b_m b * sideways k l b 0 roll psi1 steer lean ^ 2
                        + b_Ixx b * turn_x k l b roll steer lean ^ 2 + 2 * b_Ixz b * turn_x k l b roll steer lean * turn_z k b psi1 steer + b_Izz b * turn_z k b psi1 steer ^ 2) / 2.
  (* potential energy of roll phi, steer del and lean th: gravity and the spring *)
  Definition potential (phi del th : R) : R :=
    rb_stiff k * th ^ 2 / 2
    + g * total k (fun _ b => b_m b * b_z b) * phi ^ 2 / 2
    - (g * total k (fun _ b => fr b * (b_m b * ahead k b)) + load k g * rb_t k) * (phi * del + sin (rb_lam k) * del ^ 2 / 2)
    + g * total k (fun l b => l * (b_m b * below k b)) * (phi * th + th ^ 2 / 2).
  Definition energy (x : string -> R) : R := kinetic (x "u4") (x "u7") (x "u9") + potential (x "q4") (x "q7") (x "q9").
End Energy.
