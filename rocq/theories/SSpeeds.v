(* SSpeeds.v -- specification vocabulary for C79: the speeds at which a bicycle balances itself.
   det (s^2 M + s v C1 + g K0 + v^2 K2) expanded: its coefficients as functions of the speed. *)
From Verif Require Import Base MVec MInertia MBicycle SRouth.
Local Open Scope R_scope.

Definition mixed (X Y : mat2) : R := m11 X * m22 Y + m22 X * m11 Y - m12 X * m21 Y - m21 X * m12 Y.
Definition determinant (X : mat2) : R := m11 X * m22 X - m12 X * m21 X.
(* a4, a3 / v, a2, a1 / v and a0 *)
Definition inertia_c (c : canon) : R := determinant (cM c).
Definition damping_c (c : canon) : R := mixed (cM c) (cC1 c).
Definition second_c (c : canon) (g V : R) : R := g * mixed (cM c) (cK0 c) + V * (mixed (cM c) (cK2 c) + determinant (cC1 c)).
Definition first_c (c : canon) (g V : R) : R := g * mixed (cC1 c) (cK0 c) + V * mixed (cC1 c) (cK2 c).
Definition constant_c (c : canon) (g V : R) : R := g * (g * determinant (cK0 c) + V * mixed (cK0 c) (cK2 c)).
(* the weave condition, a quadratic polynomial in the square V of the speed *)
Definition weave_c (c : canon) (g V : R) : R :=
  first_c c g V * second_c c g V * damping_c c - inertia_c c * first_c c g V ^ 2 - constant_c c g V * damping_c c ^ 2.
(* the conditions for balance at the speed v, and one of them violated *)
Definition stable_conditions (c : canon) (g v : R) : Prop :=
  0 < v * damping_c c /\ 0 < second_c c g (v ^ 2) /\ 0 < v * first_c c g (v ^ 2) /\ 0 < constant_c c g (v ^ 2) /\ 0 < v ^ 2 * weave_c c g (v ^ 2).
Definition violated (c : canon) (g v : R) : Prop :=
  v * damping_c c < 0 \/ second_c c g (v ^ 2) < 0 \/ v * first_c c g (v ^ 2) < 0 \/ constant_c c g (v ^ 2) < 0 \/ v ^ 2 * weave_c c g (v ^ 2) < 0.
