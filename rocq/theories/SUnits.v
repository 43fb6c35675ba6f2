(* SUnits.v -- specification vocabulary for C74: the same bicycle described in other units *)
From Verif Require Import Base MString MBicycle MVec MModels MModels2 SBicycle SModels SModels2 SLean.
Local Open Scope string_scope.
Local Open Scope R_scope.

(* exponents of mass, length and time of a benchmark parameter *)
Definition lengths : list string := ["w"; "c"; "rR"; "rF"; "xB"; "yB"; "zB"; "xH"; "zH"].
Definition masses : list string := ["mR"; "mB"; "mH"; "mF"].
Definition inertias : list string := ["IRxx"; "IRyy"; "IBxx"; "IByy"; "IBzz"; "IBxz"; "IHxx"; "IHyy"; "IHzz"; "IHxz"; "IFxx"; "IFyy"].
Definition bench_dimension (k : string) : Z * Z * Z :=
  if smem k lengths then (0, 1, 0)%Z
  else if smem k masses then (1, 0, 0)%Z
  else if smem k inertias then (1, 2, 0)%Z
  else if smem k ["g"] then (0, 1, -2)%Z
  else (0, 0, 0)%Z. (* an angle: lam *)
Definition bench_names : list string := (["lam"; "g"] ++ lengths ++ masses ++ inertias)%list.
Definition bench_unit (u : units) (k : string) : R :=
  match bench_dimension k with (m, l, t) => powerRZ (u_mass u) m * powerRZ (u_length u) l * powerRZ (u_time u) t end.
(* p' holds the numbers of p in the new units, and lacks what p lacks *)
Definition in_units (u : units) (p p' : dict R) : Prop :=
  forall k, In k bench_names -> dget p' k = option_map (fun x => bench_unit u k * x) (dget p k).
(* units of speed, gravity and torque, and of the states roll, steer, roll rate, steer rate *)
Definition speed_unit (u : units) : R := u_length u / u_time u.
Definition gravity_unit (u : units) : R := u_length u / u_time u ^ 2.
Definition torque_unit (u : units) : R := u_mass u * u_length u ^ 2 / u_time u ^ 2.
Definition state_unit (u : units) (i : nat) : R := if Nat.ltb i 2 then 1 else / u_time u.
