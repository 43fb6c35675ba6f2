(* SDraw2.v -- specification vocabulary for the figure of a Bicycle: plot coordinates
   are (x, -z) *)
From Coq Require Import Permutation.
From Verif Require Import Base MVec MInertia MIo MRider SRider SBicycle SInertia SGeometry MDraw SDraw MDraw2.
Local Open Scope string_scope.
Local Open Scope R_scope.

(* the nominal values of the benchmark parameters *)
Definition nominal_values (bench : dict mval) (par : dict R) : Prop :=
  Forall2 (fun a b => fst a = fst b /\ (snd a = MScalar (SFloat (snd b)) \/ exists s, snd a = MScalar (SUfloat (snd b) s))) bench par.
Definition up (p : pt) : pt := (fst p, - snd p).

(* centre and in-plane moments of inertia of a part; the flywheel D is at the front wheel *)
Definition plot_centre (par : dict R) (X : string) : pt :=
  if String.eqb X "R" then (0, pv par "rR")
  else if String.eqb X "F" || String.eqb X "D" then (pv par "w", pv par "rF")
  else (pv par ("x" ++ X), - pv par ("z" ++ X)).
Definition wheel_like (X : string) : bool := String.eqb X "F" || String.eqb X "R" || String.eqb X "D".
Definition Ixx_of (par : dict R) (X : string) : R := pv par ("I" ++ X ++ "xx").
Definition Iyy_of (par : dict R) (X : string) : R := pv par ("I" ++ X ++ "yy").
Definition Ixz_of (par : dict R) (X : string) : R := if wheel_like X then 0 else pv par ("I" ++ X ++ "xz").
Definition Izz_of (par : dict R) (X : string) : R := if wheel_like X then Ixx_of par X else pv par ("I" ++ X ++ "zz").
(* moment of inertia times squared length of the in-plane vector (x, z) *)
Definition inplane (par : dict R) (X : string) (x z : R) : R :=
  Ixx_of par X * x ^ 2 + 2 * Ixz_of par X * x * z + Izz_of par X * z ^ 2.
(* the momental ellipse of size k about the mass centre, in plot coordinates *)
Definition momental (par : dict R) (X : string) (k : R) (q : pt) : Prop :=
  inplane par X (fst q - fst (plot_centre par X)) (- (snd q - snd (plot_centre par X))) = k.
(* the point mirrored about the horizontal through the mass centre *)
Definition mirrored (par : dict R) (X : string) (q : pt) : pt := (fst q, 2 * snd (plot_centre par X) - snd q).

(* numpy.linalg.eig returned these eigenvalues with these unit vectors, in this order *)
Definition eig_returns (eig : mat3 -> res (vec3 * mat3)) (I : mat3) (l : list (R * vec3)) : Prop :=
  match l with
  | [p1; p2; p3] => eig I = Ok (mk3 (fst p1) (fst p2) (fst p3), m3_T (mk33 (snd p1) (snd p2) (snd p3)))
  | _ => False
  end.
(* a unit eigenvector u of the x-z block with eigenvalue e *)
Definition plane_axis (par : dict R) (X : string) (e : R) (u : vec3) : Prop :=
  vy u = 0 /\ sqnorm u = 1 /\
  Ixx_of par X * vx u + Ixz_of par X * vz u = e * vx u /\ Ixz_of par X * vx u + Izz_of par X * vz u = e * vz u.
(* eig found the y axis and the two axes of the plane *)
Definition eig_splits (eig : mat3 -> res (vec3 * mat3)) (par : dict R) (X : string) (e0 e1 : R) (u v : vec3) : Prop :=
  exists I l, part_inertia_tensor par X = Ok I /\ eig_returns eig I l /\
    Permutation l [(Iyy_of par X, mk3 0 1 0); (e0, u); (e1, v)] /\
    plane_axis par X e0 u /\ plane_axis par X e1 v /\ vx u * vz v - vx v * vz u <> 0.

Definition mid (p q : pt) : pt := ((fst p + fst q) / 2, (snd p + snd q) / 2).
(* the drawn segment lies on the measured line z = m x + b, has the given length, and its
   middle is the point of that line nearest to the mass centre com (x, z) *)
Definition pendulum_drawn (com : pt) (m b len : R) (p q : pt) : Prop :=
  on2 m b (up p) /\ on2 m b (up q) /\ sqdist2 p q = len ^ 2 /\ forall r, on2 m b r -> sqdist2 com (up (mid p q)) <= sqdist2 com r.
(* a measured list: numbers with uncertainties, of which the nominal values xs are used *)
Definition nominal_list (v : list scalar) (xs : list R) : Prop :=
  exists us, v = map (fun u => SUfloat (fst u) (snd u)) us /\ xs = map fst us.
Definition nominal_entry (d : dict (list scalar)) (X : string) (i : nat) (x : R) : Prop :=
  exists v xs, dget d X = Some v /\ nominal_list v xs /\ nth_error xs i = Some x.
(* the pendulum lines of a part X with measured slopes ms, numbered from 1 *)
Definition pendulum_group (par : dict R) (intercepts inertias : dict (list scalar)) (X : string) (ms : list R) (shapes : list shape) : Prop :=
  exists lines, length lines = length ms /\
    shapes = concat (map (fun il => [Poly [fst (snd il); snd (snd il)] X; Text (fst (snd il)) (MMain.nat_str (fst il + 1))]) (combine (seq 0 (length lines)) lines)) /\
    forall i m l, nth_error ms i = Some m -> nth_error lines i = Some l ->
      exists b len, nominal_entry intercepts X i b /\ nominal_entry inertias X i len /\
        pendulum_drawn (pv par ("x" ++ X), pv par ("z" ++ X)) m b len (fst l) (snd l).

(* one group of pendulum lines per measured part *)
Definition pendulum_groups (par : dict R) (slopes intercepts inertias : dict (list scalar)) (shapes : list shape) : Prop :=
  exists groups, shapes = concat groups /\
    Forall2 (fun kv g => exists ms, nominal_list (snd kv) ms /\ pendulum_group par intercepts inertias (fst kv) ms g) slopes groups.
(* some measured list holds a plain number instead of one with uncertainty *)
Definition plain_number (d : dict (list scalar)) : Prop := exists X v f, In (X, v) d /\ In (SFloat f) v.

(* ground under both wheels, the two wheels standing on it, the frame from the rear hub
   square to the steer axis, along it and square to it to the front hub, and the steer
   axis down to the ground *)
Definition bike_drawn (par : dict R) (shapes : list shape) : Prop :=
  let w := pv par "w" in let c := pv par "c" in let lam := pv par "lam" in let rR := pv par "rR" in let rF := pv par "rF" in
  exists d e, shapes = [Poly [(- rR, 0); (w + rF, 0)] "black"; Circle (0, rR) rR "black"; Circle (w, rF) rF "black";
                        Poly [(0, rR); up d; up e; (w, rF)] "black"; Poly [up e; (w + c, 0)] "black"] /\
    ahead w c lam (fst d) (snd d) = 0 /\ ahead w c lam (fst e) (snd e) = 0 /\
    along lam (fst d) (snd d) = along lam 0 (- rR) /\ along lam (fst e) (snd e) = along lam w (- rF).
(* the mark of the mass centre of a part: two quarters of a disc of radius 3 cm and its
   name beside it *)
Definition centre_mark (par : dict R) (X col : string) : list shape :=
  let o := plot_centre par X in
  [Wedge o (3/100) 0 90 col; Wedge o (3/100) 180 270 col; Circle o (3/100) "black"; Text (fst o + 3/100, snd o + 3/100) X].
Definition centre_marks (par : dict R) (parts : list string) : list shape :=
  (centre_mark par "F" "F" ++ centre_mark par "R" "R" ++
   concat (map (fun X => centre_mark par X X) (filter (fun X => negb (wheel_like X)) parts)) ++
   if existsb (String.eqb "H") parts then [] else centre_mark par "H" "b")%list.
(* the rider: leg, torso, arm and head *)
Definition seg (p : rider_par) (a b : vec3) : list pt := let a' := on_bike p a in let b' := on_bike p b in [(vx a', - vz a'); (vx b', - vz b')].
Definition rider_segments (p : rider_par) (h : human_pos) : list (list pt) :=
  [seg p (K2_end h) (K2_pos h); seg p (K2_pos h) (K1_pos h); seg p (K1_pos h) (B1_pos h);
   seg p (B1_pos h) (B2_pos h); seg p (B2_pos h) (B2_end h); seg p (B1_pos h) (C_end h)].
Definition rider_drawn (b : drawn_bike) (shapes : list shape) : Prop :=
  match db_human b with
  | None => shapes = []
  | Some h => exists p, bike_lengths p (db_meas b) (db_bench b) /\ chain_stay_ok p /\ shapes = map (fun l => Poly l "black") (rider_segments p h)
  end.
(* n points of the circle of radius r about c at equal steps from angle t0 to angle t1 *)
Definition round_line (n : nat) (r : R) (c : pt) (t0 t1 : R) (pts : list pt) : Prop :=
  length pts = n /\ forall i q, nth_error pts i = Some q ->
    let t := t0 + (t1 - t0) * INR i / (INR n - 1) in q = (fst c + r * cos t, snd c + r * sin t).
(* the same mark in the plotly figure: a filled quarter to the upper right (two radii and
   an arc), an open quarter to the upper left, a filled one to the lower left (an arc and
   two radii), an open one to the lower right, the centre, and the name beside it *)
Definition traced_mark (par : dict R) (X : string) (l : list trace) : Prop :=
  let o := plot_centre par X in let r := 3/100 in
  exists a1 a2 a3 a4, round_line 100 r o 0 (PI / 2) a1 /\ round_line 100 r o (PI / 2) PI a2 /\ round_line 100 r o PI (3 * PI / 2) a3 /\ round_line 100 r o (3 * PI / 2) (2 * PI) a4 /\
    l = [Trace "" [o; (fst o + r, snd o)] X; Trace "" [o; (fst o, snd o + r)] X; Trace "" a1 X; Trace "" a2 X;
         Trace "" a3 X; Trace "" [(fst o - r, snd o); o] X; Trace "" [(fst o, snd o - r); o] X; Trace "" a4 X; Trace "COM" [o; o] X;
         Note X (fst o + 55/1000, snd o + 55/1000)].
(* one mark for each wheel and each other part; no part but those has a colour *)
Definition traced_marks (par : dict R) (parts : list string) (l : list trace) : Prop :=
  In "F" parts /\ In "R" parts /\ In "H" parts /\
  exists marks, Forall2 (traced_mark par) ("F" :: "R" :: filter (fun X => negb (wheel_like X)) parts) marks /\ l = concat marks.
