(* SSort2.v -- when does sorting keep every eigenvalue *)
From Verif Require Import Base SSort.
Local Open Scope R_scope.

(* no two eigenvalues of the row are equally far from an eigenvalue of the row before *)
Definition no_ties (prev row : list (R * R)) : Prop :=
  forall e j k x y, In e prev -> nth_error row j = Some x -> nth_error row k = Some y -> edist e x = edist e y -> j = k.
(* x is the nearest or the second nearest to e in the row *)
Definition among_two_nearest (e : R * R) (row : list (R * R)) (x : R * R) : Prop :=
  In x row /\ forall y z, In y row -> In z row -> edist e y < edist e x -> edist e z < edist e x -> y = z.
