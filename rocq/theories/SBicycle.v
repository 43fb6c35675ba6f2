(* SBicycle.v -- independent specification of the linearised bicycle:
   rigid bodies, kinematics of the upright straight-running bicycle, Newton-Euler
   balances, kinetic energy.  Frame: x forward, y right, z down, origin at the
   rear contact point.  Nothing here refers to lumped quantities of the code. *)
From Verif Require Import Base MBicycle.   (* MBicycle: only the matrix types *)

(* the value of a parameter in a dictionary (0 when absent; theorems only use
   it for dictionaries on which the code succeeded) *)
Definition pv (p : dict R) (k : string) : R :=
  match dget p k with Some x => x | None => 0 end.

(* a rigid body laterally symmetric about the xz plane *)
Record body := mkbody {
  b_m : R; b_x : R; b_z : R;            (* mass and mass centre *)
  b_Ixx : R; b_Ixz : R; b_Izz : R;      (* central inertia tensor entries *)
  b_Iyy_over_r : R;                     (* spinning wheel: Iyy / radius, else 0 *)
  b_front : bool }.                     (* turns with the handlebars *)

Record bike := mkbike {
  k_w : R; k_c : R; k_lam : R;          (* wheelbase, trail, steer axis tilt *)
  k_bodies : list body }.

(* the Meijaard 2007 benchmark bicycle described by a parameter dictionary *)
Definition rear_wheel (p : dict R) :=
  mkbody (pv p "mR") 0 (- pv p "rR") (pv p "IRxx") 0 (pv p "IRxx") (pv p "IRyy" / pv p "rR") false.
Definition rear_frame (p : dict R) :=
  mkbody (pv p "mB") (pv p "xB") (pv p "zB") (pv p "IBxx") (pv p "IBxz") (pv p "IBzz") 0 false.
Definition front_frame (p : dict R) :=
  mkbody (pv p "mH") (pv p "xH") (pv p "zH") (pv p "IHxx") (pv p "IHxz") (pv p "IHzz") 0 true.
Definition front_wheel (p : dict R) :=
  mkbody (pv p "mF") (pv p "w") (- pv p "rF") (pv p "IFxx") 0 (pv p "IFxx") (pv p "IFyy" / pv p "rF") true.
Definition bike_of (p : dict R) : bike :=
  mkbike (pv p "w") (pv p "c") (pv p "lam")
         [rear_wheel p; rear_frame p; front_frame p; front_wheel p].

Section Balance.
  Variable k : bike.
  Let cl := cos (k_lam k).
  Let sl := sin (k_lam k).

  (* signed distance of a body's mass centre ahead of the steer axis, which
     meets the ground at x = w + c and points along (sin lam, 0, cos lam) *)
  Definition arm (b : body) : R := (b_x b - k_w k - k_c k) * cl - b_z b * sl.
  Definition fr (b : body) : R := if b_front b then 1 else 0.
  Definition sumb (f : body -> R) : R := fold_right (fun b s => f b + s) 0 (k_bodies k).

  (* angular rates (accelerations) about x and z of a body, from those of the
     rear frame (roll, yaw) and the steering rate (acceleration) *)
  Definition rot_x (b : body) (roll steer : R) : R := roll + fr b * sl * steer.
  Definition rot_z (b : body) (yaw steer : R) : R := yaw + fr b * cl * steer.
  (* lateral velocity (acceleration) of a mass centre *)
  Definition lat (b : body) (yP roll yaw steer : R) : R :=
    yP + b_x b * yaw - b_z b * roll + fr b * arm b * steer.

  (* rate of change of a body's central angular momentum; the wheels spin at
     -v/r about y, so their spin momentum is -v Iyy/r *)
  Definition spin (v : R) (b : body) : R := - v * b_Iyy_over_r b.
  Definition hx' (v : R) (b : body) (rolla yawa steera yawr steerr : R) : R :=
    b_Ixx b * rot_x b rolla steera + b_Ixz b * rot_z b yawa steera
    - rot_z b yawr steerr * spin v b.
  Definition hz' (v : R) (b : body) (rolla yawa steera rollr steerr : R) : R :=
    b_Ixz b * rot_x b rolla steera + b_Izz b * rot_z b yawa steera
    + rot_x b rollr steerr * spin v b.

  (* vertical load carried by the front wheel *)
  Definition front_load (g : R) : R := g * sumb (fun b => b_m b * b_x b) / k_w k.

  (* The linearised equations of motion at forward speed v: q = (phi, delta) are
     roll and steer angle, 1 and 2 their first and second time derivatives;
     Tphi and Tdelta the applied torques.  F is the side force of the ground on
     the front wheel, whose contact point is displaced by -c cos(lam) delta. *)
  Definition newton_euler (v g phi phi1 phi2 del del1 del2 Tphi Tdel : R) : Prop :=
    exists y1 y2 psi psi1 psi2 F : R,
      (* no side slip of the rear wheel: velocity and acceleration level *)
      y1 = v * psi /\ y2 = v * psi1 /\
      (* no side slip of the front wheel: the contact point moves along its heading *)
      y1 + k_w k * psi1 - k_c k * cl * del1 = v * (psi + cl * del) /\
      y2 + k_w k * psi2 - k_c k * cl * del2 = v * (psi1 + cl * del1) /\
      (* roll balance of the whole bicycle about the x axis *)
      sumb (fun b => hx' v b phi2 psi2 del2 psi1 del1 - b_z b * (b_m b * lat b y2 phi2 psi2 del2))
      = Tphi + sumb (fun b => b_m b * g * (- b_z b * phi + fr b * arm b * del))
             + front_load g * (k_c k * cl * del) /\
      (* yaw balance of the whole bicycle about the z axis *)
      sumb (fun b => hz' v b phi2 psi2 del2 phi1 del1 + b_x b * (b_m b * lat b y2 phi2 psi2 del2))
      = k_w k * F /\
      (* balance of the front assembly about the steer axis *)
      sumb (fun b => fr b * (sl * hx' v b phi2 psi2 del2 psi1 del1
                             + cl * hz' v b phi2 psi2 del2 phi1 del1
                             + arm b * (b_m b * lat b y2 phi2 psi2 del2)))
      = Tdel - k_c k * cl * F
        + (phi + sl * del) * (g * sumb (fun b => fr b * (b_m b * arm b)) + front_load g * (k_c k * cl)).

  (* kinetic energy of lateral/rolling/steering motion at zero forward speed,
     where the rolling constraints give y1 = 0 and w psi1 = c cos(lam) del1 *)
  Definition kinetic_energy (y1 phi1 psi1 del1 : R) : R :=
    sumb (fun b =>
      (b_m b * lat b y1 phi1 psi1 del1 ^ 2
       + b_Ixx b * rot_x b phi1 del1 ^ 2
       + 2 * b_Ixz b * rot_x b phi1 del1 * rot_z b psi1 del1
       + b_Izz b * rot_z b psi1 del1 ^ 2) / 2).
End Balance.

(* a body that can exist: non-negative mass, positive semidefinite inertia *)
Definition physical (b : body) : Prop :=
  0 <= b_m b /\ 0 <= b_Ixx b /\ 0 <= b_Izz b /\ b_Ixz b ^ 2 <= b_Ixx b * b_Izz b.

(* the canonical second order equation M q'' + v C1 q' + (g K0 + v^2 K2) q = u *)
Definition eom (M C1 K0 K2 : mat2) (v g qa qb qa1 qb1 qa2 qb2 ua ub : R) : Prop :=
  (m11 M * qa2 + m12 M * qb2) + v * (m11 C1 * qa1 + m12 C1 * qb1)
   + (g * (m11 K0 * qa + m12 K0 * qb) + v ^ 2 * (m11 K2 * qa + m12 K2 * qb)) = ua /\
  (m21 M * qa2 + m22 M * qb2) + v * (m21 C1 * qa1 + m22 C1 * qb1)
   + (g * (m21 K0 * qa + m22 K0 * qb) + v ^ 2 * (m21 K2 * qa + m22 K2 * qb)) = ub.

(* matrix-vector product and vector sum on lists *)
Definition dotl (a b : list R) : R := fold_right Rplus 0 (map (fun p => fst p * snd p) (combine a b)).
Definition mulv (A : marr) (x : list R) : list R := map (fun r => dotl r x) A.
Definition addv (a b : list R) : list R := map (fun p => fst p + snd p) (combine a b).

(* determinant of an n x n list matrix by expansion along the first row *)
Fixpoint remove_at {A} (j : nat) (l : list A) : list A :=
  match l, j with [], _ => [] | _ :: l', O => l' | x :: l', S j' => x :: remove_at j' l' end.
Fixpoint altsum (f : nat -> R) (n : nat) : R :=
  match n with O => 0 | S n' => altsum f n' + (-1) ^ n' * f n' end.
Fixpoint det (n : nat) (m : marr) : R :=
  match n with
  | O => 1
  | S n' => altsum (fun j => nth j (hd [] m) 0 * det n' (map (remove_at j) (tl m))) n
  end.
(* s I - A for a 4x4 list matrix *)
Definition sI_minus (s : R) (A : marr) : marr :=
  map (fun i => map (fun j => (if Nat.eqb i j then s else 0) - nth j (nth i A []) 0) (seq 0 4)) (seq 0 4).

(* (re + i im) is an eigenvalue of A with eigenvector xr + i xi *)
Definition eigenpair (A : marr) (re im : R) (xr xi : list R) : Prop :=
  mulv A xr = addv (map (Rmult re) xr) (map (Rmult (- im)) xi) /\
  mulv A xi = addv (map (Rmult im) xr) (map (Rmult re) xi).
Definition flip_rates (x : list R) : list R :=
  match x with [a; b; c; d] => [a; b; - c; - d] | _ => x end.

(* scale all masses and moments of inertia (keys beginning with m or I) by k *)
Definition is_inertial (key : string) : bool :=
  match key with String c _ => Ascii.eqb c "m" || Ascii.eqb c "I" | EmptyString => false end.
Definition scale_inertial (k : R) (p : dict R) : dict R :=
  map (fun e => (fst e, if is_inertial (fst e) then k * snd e else snd e)) p.

(* the keys the function reads, in the order of their first lookup *)
Definition canon_keys : list string :=
  ["mR"; "mB"; "mH"; "mF"; "xB"; "xH"; "w"; "rR"; "zB"; "zH"; "rF"; "IRxx"; "IBxx"; "IHxx";
   "IFxx"; "IBxz"; "IHxz"; "IBzz"; "IHzz"; "c"; "lam"; "IRyy"; "IFyy"]%string.

Definition canon_nonzero (f : string -> R) : Prop :=
  f "mR"%string + f "mB"%string + f "mH"%string + f "mF"%string <> 0 /\ f "mH"%string + f "mF"%string <> 0 /\
  f "w"%string <> 0 /\ f "rR"%string <> 0 /\ f "rF"%string <> 0.

(* first missing key, in the order given *)
Fixpoint first_missing (p : dict R) (ks : list string) : option string :=
  match ks with [] => None | k :: ks' => if dmem p k then first_missing p ks' else Some k end.

