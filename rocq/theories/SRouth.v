(* SRouth.v -- specification vocabulary for C77: the characteristic determinant of the
   equations of motion M q'' + v C1 q' + (g K0 + v^2 K2) q = 0 *)
From Verif Require Import Base MVec MInertia MBicycle.
Local Open Scope R_scope.

(* det (s^2 M + s v C1 + g K0 + v^2 K2) *)
Definition dynamic_det (c : canon) (v g s : R) : R :=
  let e (f : mat2 -> R) := s ^ 2 * f (cM c) + s * v * f (cC1 c) + g * f (cK0 c) + v ^ 2 * f (cK2 c) in
  e m11 * e m22 - e m12 * e m21.
(* its coefficients: a4 s^4 + a3 s^3 + a2 s^2 + a1 s + a0 *)
Definition has_coefficients (f : R -> R) (a4 a3 a2 a1 a0 : R) : Prop :=
  forall s, f s = a4 * s ^ 4 + a3 * s ^ 3 + a2 * s ^ 2 + a1 * s + a0.
(* the speed, squared, at which the stiffness g K0 + v^2 K2 of a bicycle is singular *)
Definition stiffening (c : canon) : R := m11 (cK0 c) * m22 (cK2 c) - m12 (cK0 c) * m12 (cK2 c).
Definition capsize_speed_squared (c : canon) (g : R) : R :=
  - g * (m11 (cK0 c) * m22 (cK0 c) - m12 (cK0 c) * m21 (cK0 c)) / stiffening c.
