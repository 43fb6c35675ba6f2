(* SInertia.v -- specification vocabulary for rigid bodies: particles, moments of
   inertia, mass centres, pendulums.  Independent of the formulas in the code. *)
From Verif Require Import Base MVec SBicycle.
From Coquelicot Require Import Coquelicot.
Local Open Scope string_scope.
Local Open Scope R_scope.

(* the moment of inertia n.J n of a tensor about the direction n *)
Definition moment (J : mat3) (n : vec3) : R := v3_dot n (m3_app J n).
Definition symmetric (J : mat3) : Prop :=
  vy (r1 J) = vx (r2 J) /\ vz (r1 J) = vx (r3 J) /\ vz (r2 J) = vy (r3 J).

(* bodies or particles: mass and position *)
Notation particle := (R * vec3)%type (only parsing).
Definition sum_over {A} (f : A -> R) (l : list A) : R := fold_right (fun a s => f a + s) 0 l.
Definition sqnorm (v : vec3) : R := vx v ^ 2 + vy v ^ 2 + vz v ^ 2.
(* moment of inertia of particles about the axis through o with direction n
   (|n| = 1): mass times squared distance from the axis, |n x r|^2 *)
Definition particle_moment (ps : list particle) (o n : vec3) : R :=
  sum_over (fun q => fst q * sqnorm (v3_cross n (v3_sub (snd q) o))) ps.
Definition mass_of (ps : list particle) : R := sum_over fst ps.
(* mass moments about the point o *)
Definition first_moment (ps : list particle) (o : vec3) : vec3 :=
  mk3 (sum_over (fun q => fst q * (vx (snd q) - vx o)) ps)
      (sum_over (fun q => fst q * (vy (snd q) - vy o)) ps)
      (sum_over (fun q => fst q * (vz (snd q) - vz o)) ps).
Definition zero3 : vec3 := mk3 0 0 0.
Definition is_com (ps : list particle) (o : vec3) : Prop := first_moment ps o = zero3.

(* how a list of bodies is passed to total_com *)
Definition coord_rows (ps : list particle) : list (list R) :=
  [map (fun q => vx (snd q)) ps; map (fun q => vy (snd q)) ps; map (fun q => vz (snd q)) ps].
Definition mass_list (ps : list particle) : list R := map fst ps.
Definition coords (v : vec3) : list R := [vx v; vy v; vz v].

(* the coordinate change that turns axes about y by a *)
Definition turn_y (a : R) (n : vec3) : vec3 :=
  mk3 (cos a * vx n - sin a * vz n) (vy n) (sin a * vx n + cos a * vz n).
Definition trace (J : mat3) : R := vx (r1 J) + vy (r2 J) + vz (r3 J).
Definition determinant (J : mat3) : R :=
  vx (r1 J) * (vy (r2 J) * vz (r3 J) - vz (r2 J) * vy (r3 J))
  - vy (r1 J) * (vx (r2 J) * vz (r3 J) - vz (r2 J) * vx (r3 J))
  + vz (r1 J) * (vx (r2 J) * vy (r3 J) - vy (r2 J) * vx (r3 J)).
Definition m3_minus_scalar (J : mat3) (s : R) : mat3 := m3_add J (m3_diag (- s) (- s) (- s)).

(* every free oscillation  J th'' = - k th  is sinusoidal with period T *)
Definition oscillates_with_period (J k T : R) : Prop :=
  forall A ph : R, let th := fun t => A * cos (2 * PI * t / T + ph) in
  exists vel acc : R -> R,
    (forall t, derivable_pt_lim th t (vel t)) /\
    (forall t, derivable_pt_lim vel t (acc t)) /\
    forall t, J * acc t = - k * th t.

(* moments of inertia of a homogeneous tube of density rho along x, radii ri..ro,
   length l, as iterated integrals in cylinder coordinates (volume element r dr dphi dx);
   f is the squared distance from the axis at (x, r cos phi, r sin phi) *)
Definition tube_integral (rho l ro ri : R) (f : R -> R -> R -> R) : R :=
  RInt (fun x => RInt (fun phi => RInt (fun r => rho * f x (r * cos phi) (r * sin phi) * r) ri ro)
                      0 (2 * PI)) (- l / 2) (l / 2).

(* a planar inertia tensor (Ixx, Ixz, Izz), its moment about the axis at angle b
   in the xz plane, direction (cos b, 0, - sin b), and the squared residual *)
Definition planar (I : vec3) : mat3 :=
  mk33 (mk3 (vx I) 0 (vy I)) (mk3 0 0 0) (mk3 (vy I) 0 (vz I)).
Definition axis_dir (b : R) : vec3 := mk3 (cos b) 0 (- sin b).
Definition sq_residual (jay beta : list R) (I : vec3) : R :=
  sum_over (fun q => (fst q - moment (planar I) (axis_dir (snd q))) ^ 2) (combine jay beta).

(* rigidly attached bodies in the symmetry plane as one entry of a bike *)
Definition with_rider (p rd : dict R) : bike :=
  mkbike (pv p "w") (pv p "c") (pv p "lam")
         [rear_wheel p; rear_frame p;
          mkbody (pv rd "mB") (pv rd "xB") (pv rd "zB") (pv rd "IBxx") (pv rd "IBxz") (pv rd "IBzz") 0 false;
          front_frame p; front_wheel p].

(* moment of inertia of a rigid body of mass m, mass centre c and central moments
   [central], about the axis through o with direction n *)
Definition rigid_moment (m : R) (c : vec3) (central : vec3 -> R) (o n : vec3) : R :=
  central n + m * sqnorm (v3_cross n (v3_sub c o)).
(* benchmark body X of a parameter dictionary, symmetric about the xz plane *)
Definition bench_moment (p : dict R) (X : string) (o n : vec3) : R :=
  rigid_moment (pv p ("m" ++ X)) (mk3 (pv p ("x" ++ X)) 0 (pv p ("z" ++ X)))
    (fun n => pv p ("I" ++ X ++ "xx") * vx n ^ 2 + pv p ("I" ++ X ++ "yy") * vy n ^ 2 + pv p ("I" ++ X ++ "zz") * vz n ^ 2
              + 2 * pv p ("I" ++ X ++ "xz") * vx n * vz n) o n.
(* a body given by principal radii of gyration kaa, kbb in the xz plane (axis a at
   angle alpha: direction (cos alpha, 0, - sin alpha)) and kyy *)
Definition principal_central (m kaa kyy kbb alpha : R) (n : vec3) : R :=
  m * (kaa ^ 2 * v3_dot (mk3 (cos alpha) 0 (- sin alpha)) n ^ 2 + kyy ^ 2 * vy n ^ 2
       + kbb ^ 2 * v3_dot (mk3 (sin alpha) 0 (cos alpha)) n ^ 2).
Definition principal_moment_of (p : dict R) (X : string) (o n : vec3) : R :=
  rigid_moment (pv p ("m" ++ X)) (mk3 (pv p ("x" ++ X)) (pv p ("y" ++ X)) (pv p ("z" ++ X)))
    (principal_central (pv p ("m" ++ X)) (pv p ("k" ++ X ++ "aa")) (pv p ("k" ++ X ++ "yy"))
       (pv p ("k" ++ X ++ "bb")) (pv p ("alpha" ++ X))) o n.
(* the same bodies as entries of a bike: planar inertia of a principal body *)
Definition principal_body (p : dict R) (X : string) (front : bool) : body :=
  let m := pv p ("m" ++ X) in let ka := pv p ("k" ++ X ++ "aa") in let kb := pv p ("k" ++ X ++ "bb") in
  let al := pv p ("alpha" ++ X) in
  mkbody m (pv p ("x" ++ X)) (pv p ("z" ++ X))
    (m * (ka ^ 2 * cos al ^ 2 + kb ^ 2 * sin al ^ 2))
    (m * (kb ^ 2 - ka ^ 2) * sin al * cos al)
    (m * (ka ^ 2 * sin al ^ 2 + kb ^ 2 * cos al ^ 2)) 0 front.
Definition principal_bike (p : dict R) : bike :=
  mkbike (pv p "w") (pv p "c") (pv p "lam")
    [ mkbody (pv p "mR") 0 (- pv p "rR") (pv p "mR" * pv p "kRaa" ^ 2) 0 (pv p "mR" * pv p "kRaa" ^ 2)
        (pv p "mR" * pv p "kRyy" ^ 2 / pv p "rR") false;
      principal_body p "D" false; principal_body p "P" false; principal_body p "H" true;
      mkbody (pv p "mF") (pv p "w") (- pv p "rF") (pv p "mF" * pv p "kFaa" ^ 2) 0 (pv p "mF" * pv p "kFaa" ^ 2)
        (pv p "mF" * pv p "kFyy" ^ 2 / pv p "rF") true ].
(* keys of the Moore2019 parameterization read by the conversion; of the produced set *)
Definition principal_keys : list string :=
  ["w"; "c"; "lam"; "g"; "v"; "xD"; "xP"; "yD"; "yP"; "zD"; "zP"; "mD"; "mP"; "kDaa"; "kDyy"; "kDbb"; "alphaD";
   "kPaa"; "kPyy"; "kPbb"; "alphaP"; "mH"; "xH"; "yH"; "zH"; "kHaa"; "kHyy"; "kHbb"; "alphaH";
   "rR"; "mR"; "kRaa"; "kRyy"; "rF"; "mF"; "kFaa"; "kFyy"].
Definition benchmark_keys : list string :=
  ["w"; "c"; "lam"; "g"; "v"; "mB"; "xB"; "yB"; "zB"; "IBxx"; "IByy"; "IBzz"; "IBxz"; "mH"; "xH"; "yH"; "zH";
   "IHxx"; "IHyy"; "IHzz"; "IHxz"; "rR"; "mR"; "IRxx"; "IRyy"; "IRzz"; "rF"; "mF"; "IFxx"; "IFyy"; "IFzz"].

Definition is_wheel_part (part : string) : Prop := part = "F" \/ part = "R" \/ part = "D".
Definition bike_keys := ["mB"; "xB"; "zB"; "IBxx"; "IBxz"; "IByy"; "IBzz"].
Definition rider_keys := ["mB"; "xB"; "yB"; "zB"; "IBxx"; "IBxz"; "IByy"; "IBzz"].

(* what numpy.linalg.eig promises: columns of C are eigenvectors *)
Definition eig_contract (I : mat3) (Ip : vec3) (C : mat3) : Prop :=
  let cols := m3_T C in
  m3_app I (r1 cols) = v3_scale (vx Ip) (r1 cols) /\
  m3_app I (r2 cols) = v3_scale (vy Ip) (r2 cols) /\
  m3_app I (r3 cols) = v3_scale (vz Ip) (r3 cols).
