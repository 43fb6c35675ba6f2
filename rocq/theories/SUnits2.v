(* SUnits2.v -- specification vocabulary for C74: measurements in other units *)
From Verif Require Import Base MString SLean SUnits.
Local Open Scope string_scope.
Local Open Scope R_scope.

(* the unit of a measurement, by its name: angles (in degrees), numbers of turns, gravity,
   periods, masses, and lengths *)
Definition measured_unit (u : units) (k : string) : R :=
  if starts_with "alpha" k then 1 else if String.eqb k "gamma" then 1 else if starts_with "n" k then 1
  else if String.eqb k "g" then gravity_unit u
  else if starts_with "T" k then u_time u else if starts_with "m" k then u_mass u else u_length u.
(* the unit of a parameter: the tilt, gravity, masses, moments of inertia, and lengths *)
Definition parameter_unit (u : units) (k : string) : R :=
  if String.eqb k "lam" then 1 else if String.eqb k "g" then gravity_unit u
  else if starts_with "m" k then u_mass u else if starts_with "I" k then u_mass u * u_length u ^ 2 else u_length u.
(* every number of d given in the new units *)
Definition converted (unit_of : string -> R) (d : dict R) : dict R := map (fun kv => (fst kv, unit_of (fst kv) * snd kv)) d.
(* the extra results: slopes and angles of the pendulum lines have no unit, intercepts are lengths,
   and the pendulum inertias are moments of inertia *)
Definition all_times (k : R) (d : dict (list R)) : dict (list R) := map (fun kv => (fst kv, map (Rmult k) (snd kv))) d.
