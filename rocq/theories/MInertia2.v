(* MInertia2.v -- inertia_components with numpy's inverse as it is called *)
From Verif Require Import Base MVec MInertia.
Local Open Scope R_scope.

(* [inertia.py:94-119] inertia_components.  betaMat.I is numpy.linalg.inv for a square matrix,
   here three orientations, and numpy.linalg.pinv (a parameter, see SInertia2.v) for every
   other number; the columns of the (pseudo) inverse are listed.  A singular matrix is
   reported as a division by zero (numpy: LinAlgError).  np.dot then needs one moment for
   every orientation. *)
Definition columns (l : list R) (cols : list vec3) : vec3 := v3_sum (map (fun p => v3_scale (fst p) (snd p)) (combine l cols)).
Definition inv_columns (a b c : vec3) : res (list vec3) :=
  d <- rdiv 1 (det3 (mk33 a b c)) ;; Ok [v3_scale d (v3_cross b c); v3_scale d (v3_cross c a); v3_scale d (v3_cross a b)].
Definition matrix_I (pinv : list vec3 -> list vec3) (rows : list vec3) : res (list vec3) :=
  match rows with [a; b; c] => inv_columns a b c | _ => Ok (pinv rows) end.
Definition np_inertia_components (pinv : list vec3 -> list vec3) (jay beta : list R) : res vec3 :=
  cols <- matrix_I pinv (map beta_row beta) ;;
  if Nat.eqb (length jay) (length cols) then Ok (columns jay cols) else Err (ValueError "shapes not aligned").
