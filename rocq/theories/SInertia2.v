(* SInertia2.v -- specification vocabulary for C15: the pseudo-inverse and the directions of axes *)
From Verif Require Import Base MVec SInertia.
Local Open Scope R_scope.

(* the sum of the squared misfits of the moments jay *)
Definition misfit (jay : list R) (rows : list vec3) (x : vec3) : R := sum_over (fun q => (fst q - v3_dot (snd q) x) ^ 2) (combine jay rows).
(* numpy.linalg.pinv: multiplied by any right-hand side the columns give the least-squares
   solution, of several the shortest *)
Definition pseudo_inverse (rows cols : list vec3) : Prop :=
  length cols = length rows /\ forall jay, length jay = length rows ->
    let x := fold_right v3_add (mk3 0 0 0) (map (fun p => v3_scale (fst p) (snd p)) (combine jay cols)) in
    forall y, misfit jay rows x <= misfit jay rows y /\ (misfit jay rows y = misfit jay rows x -> sqnorm x <= sqnorm y).
(* one row for each axis: the coefficients of Ixx, Ixz and Izz in the moment about it *)
Definition axis_rows (beta : list R) : list vec3 := map (fun b => mk3 (cos b ^ 2) (- 2 * sin b * cos b) (sin b ^ 2)) beta.
(* the axes point in no more than two directions (a half turn is the same direction) *)
Definition two_directions (beta : list R) : Prop := exists b1 b2, forall b, In b beta -> sin (b - b1) = 0 \/ sin (b - b2) = 0.
(* the moments a planar body has about these axes *)
Definition moments_of (I : vec3) (beta : list R) : list R := map (fun b => moment (planar I) (axis_dir b)) beta.
