(* SDicts.v -- specification vocabulary for C80: bicycles that are nearly the same *)
From Verif Require Import Base MString MBicycle SBicycle SLean2.
Local Open Scope string_scope.
Local Open Scope R_scope.

Definition close (e x y : R) : Prop := Rabs (x - y) <= e.
Definition body_close (e : R) (a b : body) : Prop :=
  close e (b_m a) (b_m b) /\ close e (b_x a) (b_x b) /\ close e (b_z a) (b_z b) /\ close e (b_Ixx a) (b_Ixx b) /\ close e (b_Ixz a) (b_Ixz b) /\ close e (b_Izz a) (b_Izz b) /\
  close e (b_Iyy_over_r a) (b_Iyy_over_r b) /\ b_front a = b_front b.
(* two bodies of the rear frame joined: mass, mass centre and tensor about it (parallel axes) *)
Definition joined (a b : body) : body :=
  let m := b_m a + b_m b in
  let x := (b_m a * b_x a + b_m b * b_x b) / m in
  let z := (b_m a * b_z a + b_m b * b_z b) / m in
  mkbody m x z
    (b_Ixx a + b_m a * (b_z a - z) ^ 2 + (b_Ixx b + b_m b * (b_z b - z) ^ 2))
    (b_Ixz a - b_m a * (b_x a - x) * (b_z a - z) + (b_Ixz b - b_m b * (b_x b - x) * (b_z b - z)))
    (b_Izz a + b_m a * (b_x a - x) ^ 2 + (b_Izz b + b_m b * (b_x b - x) ^ 2)) 0 false.
