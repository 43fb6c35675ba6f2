(* SFloat2.v -- specification vocabulary for C78: adding up a list of machine numbers *)
From Coq Require Import Permutation.
From Verif Require Import Base MVec MFloat SFloat.
Local Open Scope R_scope.

(* s is the sum of the numbers of l, added two by two in some order, each sum rounded *)
Inductive added (a : arith) : list R -> R -> Prop :=
| added_one x : added a [x] x
| added_two l l1 l2 s1 s2 : Permutation l (l1 ++ l2) -> added a l1 s1 -> added a l2 s2 -> added a l (fl a (s1 + s2)).
(* a function that adds up lists *)
Definition adds_up (a : arith) (sum : list R -> R) : Prop := forall l, l <> [] -> added a l (sum l).
(* one such function: from left to right *)
Definition left_sum (a : arith) (l : list R) : R := match l with [] => 0 | x :: l' => fold_left (fun s y => fl a (s + y)) l' x end.

(* a row times a column, accurate to the roundings of three products and two sums *)
Definition dot_accurate (dot3 : vec3 -> vec3 -> R) : Prop :=
  forall v w, Rabs (dot3 v w - v3_dot v w) <= 4 * roundoff * (Rabs (vx v * vx w) + Rabs (vy v * vy w) + Rabs (vz v * vz w)).
(* one such product *)
Definition plain_dot3 (v w : vec3) : R := rnd53 (rnd53 (rnd53 (vx v * vx w) + rnd53 (vy v * vy w)) + rnd53 (vz v * vz w)).
(* sizes: every entry and every term with its absolute value *)
Definition v3_abs (v : vec3) : vec3 := mk3 (Rabs (vx v)) (Rabs (vy v)) (Rabs (vz v)).
Definition m3_abs (m : mat3) : mat3 := mk33 (v3_abs (r1 m)) (v3_abs (r2 m)) (v3_abs (r3 m)).
Definition turned_sizes (I : mat3) (angle : R) : mat3 :=
  let C := mk33 (mk3 (Rabs (cos angle)) 0 (Rabs (sin angle))) (mk3 0 1 0) (mk3 (Rabs (sin angle)) 0 (Rabs (cos angle))) in
  m3_dot C (m3_dot (m3_abs I) (m3_T C)).
(* the nine entries *)
Definition entries3 : list (mat3 -> R) :=
  [fun m => vx (r1 m); fun m => vy (r1 m); fun m => vz (r1 m); fun m => vx (r2 m); fun m => vy (r2 m); fun m => vz (r2 m); fun m => vx (r3 m); fun m => vy (r3 m); fun m => vz (r3 m)].
