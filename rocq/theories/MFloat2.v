(* MFloat2.v -- more of the package in machine arithmetic (see MFloat.v): mass centres and trail *)
From Verif Require Import Base MVec MBicycle MFloat.
Local Open Scope string_scope.
Local Open Scope R_scope.

Section Float2.
Variable a : arith.
(* np.sum of a 1-D array and of a row of a 2-D array (axis=1): numpy chooses the order in
   which the numbers are added (pairwise, in blocks), so both are parameters *)
Variables npsum npsum1 : list R -> R.

(* [com.py:215-237] total_com; shapes and division by zero as in MInertia.total_com *)
Definition ftotal_com (coordinates : list (list R)) (masses : list R) : res (R * list R) :=
  if forallb (fun row => Nat.eqb (length row) (length masses)) coordinates then
    let products := map (fun row => map (fun p => fmul a (fst p) (snd p)) (combine masses row)) coordinates in
    let mT := npsum masses in
    cT <- mapM (fun row => fdiv a (npsum1 row) mT) products ;;
    Ok (mT, cT)
  else Err (ValueError "operands could not be broadcast together").

(* [bicycle.py:337-363] trail *)
Definition ftrail (rF lam fo : R) : res (R * R) :=
  c <- fdiv a (fsub a (fmul a rF (fsin a lam)) fo) (fcos a lam) ;;
  Ok (c, fmul a c (fcos a lam)).

(* np.dot / @ on 3 x 3 arrays (BLAS): a row times a column is a parameter as well *)
Variable dot3 : vec3 -> vec3 -> R.
Definition fm3_dot (m n : mat3) : mat3 :=
  let nt := m3_T n in
  let row v := mk3 (dot3 v (r1 nt)) (dot3 v (r2 nt)) (dot3 v (r3 nt)) in
  mk33 (row (r1 m)) (row (r2 m)) (row (r3 m)).
Definition frot (angle : R) : mat3 := let ca := fcos a angle in let sa := fsin a angle in mk33 (mk3 ca 0 (- sa)) (mk3 0 1 0) (mk3 sa 0 ca).
(* [inertia.py:220-228] rotate_inertia_tensor *)
Definition frotate_inertia_tensor (I : mat3) (angle : R) : mat3 := fm3_dot (frot angle) (fm3_dot I (m3_T (frot angle))).
(* [conversions.py:7-31] _rotate_inertia_about_y *)
Definition frotate_inertia_about_y (I : mat3) (angle : R) : mat3 := fm3_dot (fm3_dot (frot angle) I) (m3_T (frot angle)).
End Float2.
