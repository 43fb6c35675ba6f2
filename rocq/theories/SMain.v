(* SMain.v -- specification vocabulary for C46-C48: a real bicycle, its exact
   pendulum measurements, and the moment of inertia of a rigid assembly *)
From Verif Require Import Base MString MVec MGeometry MPeriod MMain SBicycle SInertia SGeometry.
Local Open Scope string_scope.
Local Open Scope R_scope.

(* a rigid part, symmetric about the xz plane: mass, mass centre, central inertia *)
Record rbody := mkrbody { b_m : R; b_x : R; b_z : R; b_xx : R; b_xz : R; b_yy : R; b_zz : R }.
Definition tensor_of (b : rbody) : mat3 :=
  mk33 (mk3 (b_xx b) 0 (b_xz b)) (mk3 0 (b_yy b) 0) (mk3 (b_xz b) 0 (b_zz b)).
(* moment of inertia of the part about the axis through o with direction n *)
Definition body_moment (b : rbody) (o n : vec3) : R :=
  rigid_moment (b_m b) (mk3 (b_x b) 0 (b_z b)) (moment (tensor_of b)) o n.
(* a wheel: mass, radius, moments about a diameter and about its axle *)
Record rwheel := mkrwheel { w_m : R; w_r : R; w_xx : R; w_yy : R }.
Record rbike := mkrbike { rb_w : R; rb_c : R; rb_lam : R; rb_g : R; rb_F : rwheel; rb_R : rwheel; rb_part : string -> rbody }.

(* the measurements of the wheels and the frame are exact *)
Definition exact_geometry (newton : (R -> res R) -> R -> res R) (mp : dict R) (T : rbike) : Prop :=
  let rF := w_r (rb_F T) in let rR := w_r (rb_R T) in
  pv mp "nF" <> 0 /\ pv mp "dF" = pv mp "nF" * (2 * PI * rF) /\
  pv mp "nR" <> 0 /\ pv mp "dR" = pv mp "nR" * (2 * PI * rR) /\
  ((In "w" (dkeys mp) /\ pv mp "w" = rb_w T /\ pv mp "gamma" = 90 - rb_lam T * 180 / PI
    /\ pv mp "f" = ahead (rb_w T) (rb_c T) (rb_lam T) (rb_w T) (- rF))
   \/ (~ In "w" (dkeys mp) /\ exists a b c,
       calculate_abc_geometry (pv mp "h1") (pv mp "h2") (pv mp "h3") (pv mp "h4") (pv mp "h5")
          (pv mp "d1") (pv mp "d2") (pv mp "d3") (pv mp "d4") (pv mp "d") = Ok (a, b, c) /\
       0 < a + b /\
       ahead (rb_w T) (rb_c T) (rb_lam T) (rb_w T) (- rF) = b /\
       ahead (rb_w T) (rb_c T) (rb_lam T) 0 (- rR) = - a /\
       along (rb_lam T) (rb_w T) (- rF) - along (rb_lam T) 0 (- rR) = c /\
       (* the root finder stays within a quarter turn of its starting point, and so is the real tilt *)
       (forall f x0 x, newton f x0 = Ok x -> f x = Ok 0 /\ Rabs (x - x0) <= PI / 2) /\
       Rabs (rb_lam T - atan (c / (a + b))) <= PI / 2)).

(* pendulum measurements of the part X with reference point ref, hung in n
   orientations on a torsion pendulum of stiffness k *)
Definition exact_part (mp : dict R) (T : rbike) (k : R) (X : string) (ref : R * R) (n : nat) : Prop :=
  let b := rb_part T X in
  dget mp ("m" ++ X) = Some (b_m b) /\
  (forall i, (1 <= i <= n)%nat -> exists alpha a Tt right up,
     dget mp ("alpha" ++ X ++ nat_str i) = Some alpha /\ dget mp ("a" ++ X ++ nat_str i) = Some a /\
     dget mp ("Tt" ++ X ++ nat_str i) = Some Tt /\
     hanging_directions (rb_lam T) (alpha * PI / 180) right up /\
     (* the plumb line through the mass centre is the distance a to the right of the reference point *)
     dot2 (b_x b - fst ref, b_z b - snd ref) right = a /\
     (* the part turns about the vertical through its mass centre *)
     Tt <> 0 /\ oscillates_with_period (moment (tensor_of b) (mk3 (fst up) 0 (snd up))) k Tt) /\
  (* the part swings about the reference point *)
  (exists Tc, dget mp ("Tc" ++ X ++ "1") = Some Tc /\ Tc <> 0 /\
     let l := sqrt (sqdist2 (b_x b, b_z b) ref) in
     oscillates_with_period (b_yy b + b_m b * l ^ 2) (b_m b * rb_g T * l) Tc).
(* pendulum measurements of a wheel *)
Definition exact_wheel (mp : dict R) (T : rbike) (k : R) (X : string) (wh : rwheel) : Prop :=
  dget mp ("m" ++ X) = Some (w_m wh) /\
  exists l Tc Tt, dget mp ("l" ++ X) = Some l /\ dget mp ("Tc" ++ X ++ "1") = Some Tc /\ dget mp ("Tt" ++ X ++ "1") = Some Tt /\
    Tc <> 0 /\ Tt <> 0 /\
    oscillates_with_period (w_yy wh + w_m wh * l ^ 2) (w_m wh * rb_g T * l) Tc /\ oscillates_with_period (w_xx wh) k Tt.
(* the calibration rod, a homogeneous cylinder of length lP, diameter dP and mass mP *)
Definition exact_rod (mp : dict R) (k : R) : Prop :=
  exists lP mP dP TtP rho, dget mp "lP" = Some lP /\ dget mp "mP" = Some mP /\ dget mp "dP" = Some dP /\ dget mp "TtP1" = Some TtP /\
    TtP <> 0 /\ tube_integral rho lP (dP / 2) 0 (fun _ _ _ => 1) = mP /\
    oscillates_with_period (tube_integral rho lP (dP / 2) 0 (fun x y z => x ^ 2 + z ^ 2)) k TtP.
(* the names of the orientation angles: alphaX1 .. alphaXn for every part X, at most nine each *)
Definition orientation_names (mp : dict R) (parts : list string) (n : string -> nat) : Prop :=
  NoDup (dkeys mp) /\ (forall X, In X parts -> (n X <= 9)%nat) /\
  (forall key, In key (dkeys mp) -> starts_with "alpha" key = true ->
     exists X i, In X parts /\ (1 <= i <= n X)%nat /\ key = "alpha" ++ X ++ nat_str i).

(* all measurements of a bicycle measured with fork and handlebar in one piece / in two *)
Definition front_hub (T : rbike) : R * R := (rb_w T, - w_r (rb_F T)).
Definition rear_hub (T : rbike) : R * R := (0, - w_r (rb_R T)).
Definition exact_measurements_whole (newton : (R -> res R) -> R -> res R) (mp : dict R) (T : rbike) (k : R) (n : string -> nat) : Prop :=
  (forall key, In key (dkeys mp) -> stake 1 key <> "S" /\ stake 1 (sdrop 1 key) <> "S") /\
  exact_geometry newton mp T /\ orientation_names mp ["B"; "H"] n /\ dget mp "g" = Some (rb_g T) /\
  exact_rod mp k /\ exact_wheel mp T k "F" (rb_F T) /\ exact_wheel mp T k "R" (rb_R T) /\
  exact_part mp T k "B" (rear_hub T) (n "B") /\ exact_part mp T k "H" (front_hub T) (n "H").
Definition exact_measurements_split (newton : (R -> res R) -> R -> res R) (mp : dict R) (T : rbike) (k : R) (n : string -> nat) : Prop :=
  exact_geometry newton mp T /\ orientation_names mp ["B"; "G"; "S"] n /\ dget mp "g" = Some (rb_g T) /\
  exact_rod mp k /\ exact_wheel mp T k "F" (rb_F T) /\ exact_wheel mp T k "R" (rb_R T) /\
  exact_part mp T k "B" (rear_hub T) (n "B") /\ exact_part mp T k "S" (front_hub T) (n "S") /\
  (* the handlebar reference point is l1 ahead of and l2 along the steer axis from the front hub *)
  (exists l1 l2, let l0 := pv mp "l" - pv mp "d5" / 2 - pv mp "d6" / 2 in
     l1 = (pv mp "h7" - pv mp "d6" / 2) - (pv mp "h6" - pv mp "d5" / 2) /\ 0 <= l0 * l2 /\ l1 ^ 2 + l2 ^ 2 = l0 ^ 2 /\
     exact_part mp T k "G" (rb_w T + l1 * cos (rb_lam T) - l2 * sin (rb_lam T),
                            - w_r (rb_F T) - l1 * sin (rb_lam T) - l2 * cos (rb_lam T)) (n "G")).

(* the parameters that have to come out *)
Definition wheel_entries (X : string) (wh : rwheel) : list (string * R) :=
  [("r" ++ X, w_r wh); ("m" ++ X, w_m wh); ("I" ++ X ++ "xx", w_xx wh); ("I" ++ X ++ "yy", w_yy wh)].
Definition body_entries (X : string) (b : rbody) : list (string * R) :=
  [("m" ++ X, b_m b); ("x" ++ X, b_x b); ("z" ++ X, b_z b); ("I" ++ X ++ "xx", b_xx b); ("I" ++ X ++ "xz", b_xz b);
   ("I" ++ X ++ "yy", b_yy b); ("I" ++ X ++ "zz", b_zz b)].
Definition common_entries (T : rbike) : list (string * R) :=
  ([("w", rb_w T); ("c", rb_c T); ("lam", rb_lam T); ("g", rb_g T)]
   ++ wheel_entries "F" (rb_F T) ++ wheel_entries "R" (rb_R T) ++ body_entries "B" (rb_part T "B"))%list.
(* the rigid union of two parts *)
Definition is_union (a b u : rbody) : Prop :=
  b_m u = b_m a + b_m b /\
  b_m u * b_x u = b_m a * b_x a + b_m b * b_x b /\ b_m u * b_z u = b_m a * b_z a + b_m b * b_z b /\
  forall o n, body_moment u o n = body_moment a o n + body_moment b o n.
(* the part X hangs in at least three orientations, no two of them parallel, none
   with the plumb line vertical in the frame of the bicycle *)
Definition well_hung (mp : dict R) (lam : R) (X : string) (n : nat) : Prop :=
  let angle i := pv mp ("alpha" ++ X ++ nat_str i) * PI / 180 in
  (3 <= n)%nat /\ (forall i, (1 <= i <= n)%nat -> cos (lam - angle i) <> 0) /\
  (forall i j, (1 <= i < j)%nat -> (j <= n)%nat -> sin (angle i - angle j) <> 0).
(* a flywheel D spinning with the front wheel F: the pair is weighed and swung together *)
Definition exact_flywheel (mp : dict R) (g k : R) (F D : rwheel) : Prop :=
  exists l Tc Tt, dget mp "mD" = Some (w_m F + w_m D) /\ dget mp "lF" = Some l /\ dget mp "TcD1" = Some Tc /\ dget mp "TtD1" = Some Tt /\
    Tc <> 0 /\ Tt <> 0 /\
    oscillates_with_period ((w_yy F + w_yy D) + (w_m F + w_m D) * l ^ 2) ((w_m F + w_m D) * g * l) Tc /\
    oscillates_with_period (w_xx F + w_xx D) k Tt.

(* ---- steer assembly (C48) ---- *)
(* the front parts as rigid bodies; the wheel F sits on the front hub and is round *)
Definition front_body (par : dict R) (X : string) : rbody :=
  if String.eqb X "F" then mkrbody (pv par "mF") (pv par "w") (- pv par "rF") (pv par "IFxx") 0 (pv par "IFyy") (pv par "IFxx")
  else mkrbody (pv par ("m" ++ X)) (pv par ("x" ++ X)) (pv par ("z" ++ X)) (pv par ("I" ++ X ++ "xx")) (pv par ("I" ++ X ++ "xz"))
         (pv par ("I" ++ X ++ "yy")) (pv par ("I" ++ X ++ "zz")).
(* the parts asked for: handlebar and fork together are H, the fork alone S, the handlebar alone G *)
Definition chosen (handlebar fork wheel : bool) : list string :=
  ((if fork && handlebar then ["H"] else if fork then ["S"] else if handlebar then ["G"] else [])
   ++ (if wheel then ["F"] else []))%list.
Definition assembly_moment (par : dict R) (parts : list string) (o n : vec3) : R :=
  sum_over (fun X => body_moment (front_body par X) o n) parts.
Definition assembly_particles (par : dict R) (parts : list string) : list particle :=
  map (fun X => let b := front_body par X in (b_m b, mk3 (b_x b) 0 (b_z b))) parts.
(* the steer axis points down along this direction *)
Definition steer_dir (lam : R) : vec3 := mk3 (sin lam) 0 (cos lam).
Definition part_keys (X : string) : list string :=
  ["IBxx"; "I" ++ X ++ "xx"; "I" ++ X ++ "xz"; "I" ++ X ++ "yy"; "I" ++ X ++ "zz"; "m" ++ X; "x" ++ X; "z" ++ X].
Definition wheel_keys : list string := ["mF"; "w"; "rF"; "IBxx"; "IFxx"; "IFyy"].
