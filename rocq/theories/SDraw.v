(* SDraw.v -- specification vocabulary for the drawings of parameter sets: where
   the bodies are, what their moments of inertia are, what matplotlib's shapes
   look like, and the moments of a homogeneous ellipsoid. *)
From Verif Require Import Base MVec SBicycle SInertia MSets MDraw.
Local Open Scope string_scope.
Local Open Scope R_scope.

(* the sets that can be drawn and their bodies *)
Inductive drawable : pclass -> list string -> Prop :=
| draw_benchmark : drawable CMeijaard2007 ["B"; "F"; "H"; "R"]
| draw_feedback : drawable CMeijaard2007WithFeedback ["B"; "F"; "H"; "R"]
| draw_principal : drawable CMoore2019 ["D"; "F"; "H"; "P"; "R"].

(* mass centre (x, z) of body X: wheels stand on the ground at x = 0 and x = w *)
Definition centre_of (p : dict R) (X : string) : pt :=
  if String.eqb X "R" then (0, - pv p "rR")
  else if String.eqb X "F" then (pv p "w", - pv p "rF")
  else (pv p ("x" ++ X), pv p ("z" ++ X)).
Definition is_wheel (X : string) : bool := String.eqb X "R" || String.eqb X "F".
(* moment of inertia of body X about the axis through its mass centre with
   direction n, from the benchmark parameters (wheels are axisymmetric) *)
Definition benchmark_central (p : dict R) (X : string) (n : vec3) : R :=
  let Ixx := pv p ("I" ++ X ++ "xx") in
  let Iyy := pv p ("I" ++ X ++ "yy") in
  let Izz := if is_wheel X then Ixx else pv p ("I" ++ X ++ "zz") in
  let Ixz := if is_wheel X then 0 else pv p ("I" ++ X ++ "xz") in
  Ixx * vx n ^ 2 + Iyy * vy n ^ 2 + Izz * vz n ^ 2 + 2 * Ixz * vx n * vz n.
(* the same from the Moore2019 parameters *)
Definition moore_central (p : dict R) (X : string) (n : vec3) : R :=
  let kaa := pv p ("k" ++ X ++ "aa") in
  principal_central (pv p ("m" ++ X)) kaa (pv p ("k" ++ X ++ "yy"))
    (if is_wheel X then kaa else pv p ("k" ++ X ++ "bb")) (if is_wheel X then 0 else pv p ("alpha" ++ X)) n.
Definition central_of (c : pclass) (p : dict R) (X : string) : vec3 -> R :=
  match c with CMoore2019 => moore_central p X | _ => benchmark_central p X end.

(* plane vectors: (x, z) components *)
Definition plus2 (p q : pt) : pt := (fst p + fst q, snd p + snd q).
Definition times2 (k : R) (p : pt) : pt := (k * fst p, k * snd p).
Definition dot2 (p q : pt) : R := fst p * fst q + snd p * snd q.
(* component of the direction n along the plane vector a *)
Definition comp (a : pt) (n : vec3) : R := fst a * vx n + snd a * vz n.
Definition orthonormal (a b : pt) : Prop := dot2 a a = 1 /\ dot2 b b = 1 /\ dot2 a b = 0.
(* the line drawn from o - d to o + d *)
Definition centred (o d : pt) : list pt := [plus2 o (times2 (-1) d); plus2 o d].

(* the points of matplotlib's Ellipse: full width and height, turned by angle degrees *)
Definition on_ellipse (center : pt) (width height angle : R) (q : pt) : Prop :=
  let th := angle * PI / 180 in
  exists t, q = plus2 center (plus2 (times2 (width / 2 * cos t) (cos th, sin th))
                                    (times2 (height / 2 * sin t) (- sin th, cos th))).
(* central moment about n of a homogeneous ellipsoid of mass m with semi-axes A, B
   along the plane directions a, b and Y along y *)
Definition ellipsoid_central (m A B Y : R) (a b : pt) (n : vec3) : R :=
  m / 5 * ((B ^ 2 + Y ^ 2) * comp a n ^ 2 + (A ^ 2 + B ^ 2) * vy n ^ 2 + (A ^ 2 + Y ^ 2) * comp b n ^ 2).

(* what numpy.linalg.eig promises for a symmetric 2x2 array *)
Definition eig2_contract (eig2 : eig2_fun) : Prop := forall a b d,
  exists e0 e1 x0 z0 x1 z1, eig2 ((a, b), (b, d)) = Ok ((e0, e1), ((x0, x1), (z0, z1))) /\
    (a * x0 + b * z0 = e0 * x0 /\ b * x0 + d * z0 = e0 * z0 /\ x0 ^ 2 + z0 ^ 2 = 1) /\
    (a * x1 + b * z1 = e1 * x1 /\ b * x1 + d * z1 = e1 * z1 /\ x1 ^ 2 + z1 ^ 2 = 1) /\
    x0 * z1 - x1 * z0 <> 0.

(* the drawing methods a user can call on a parameter set *)
Inductive draw_call :=
| Geometry (show_steer_axis : bool) | MassCenter (body : string) | MassCenters (bodies : option (list string))
| Radii (body : string) | AllRadii (bodies : option (list string))
| Ellipsoid (body : string) | Ellipsoids (bodies : option (list string))
| Diamond (show_cross : bool) | Everything.
Definition run_call (eig2 : eig2_fun) (c : pclass) (p : dict R) (call : draw_call) (ax : axes) : res axes :=
  match call with
  | Geometry s => plot_geometry c p s ax
  | MassCenter b => plot_body_mass_center c p b ax
  | MassCenters l => plot_mass_centers c p l ax
  | Radii b => plot_body_principal_radii_of_gyration eig2 c p b ax
  | AllRadii l => plot_principal_radii_of_gyration eig2 c p l ax
  | Ellipsoid b => plot_body_principal_inertia_ellipsoid eig2 c p b ax
  | Ellipsoids l => plot_principal_inertia_ellipsoids eig2 c p l ax
  | Diamond s => plot_person_diamond c p s ax
  | Everything => plot_all eig2 c p ax
  end.
(* any sequence of calls, on any sets, on one axes *)
Fixpoint run_calls (eig2 : eig2_fun) (calls : list (pclass * dict R * draw_call)) (ax : axes) : res axes :=
  match calls with
  | [] => Ok ax
  | (c, p, call) :: rest => ax <- run_call eig2 c p call ax ;; run_calls eig2 rest ax
  end.
(* what a call draws on empty axes *)
Definition figure_of (eig2 : eig2_fun) (c : pclass) (p : dict R) (call : draw_call) (l : list shape) : Prop :=
  exists ax, run_call eig2 c p call new_axes = Ok ax /\ ax_shapes ax = l.
