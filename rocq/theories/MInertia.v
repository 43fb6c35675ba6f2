(* MInertia.v -- model of /repo/bicycleparameters/inertia.py and the parts of
   com.py and conversions.py it is entangled with (total_com, conversion to the
   benchmark parameters) *)
From Verif Require Import Base MVec.
Local Open Scope string_scope.
Local Open Scope R_scope.

(* [com.py:215-237] total_com.  coordinates: list of rows (normally three);
   masses: one per column.  numpy raises ValueError when the shapes do not
   broadcast (the single-column broadcast of numpy is not modelled). Division by
   a zero total mass is a failure (see Base.rdiv). *)
Definition total_com (coordinates : list (list R)) (masses : list R) : res (R * list R) :=
  if forallb (fun row => Nat.eqb (length row) (length masses)) coordinates then
    let products := map (fun row => map (fun p => fst p * snd p) (combine masses row)) coordinates in
    let mT := rsum masses in
    cT <- mapM (fun row => rdiv (rsum row) mT) products ;;
    Ok (mT, cT)
  else Err (ValueError "operands could not be broadcast together").

(* [inertia.py:122-149] parallel_axis *)
Definition parallel_axis (Ic : mat3) (m : R) (d : vec3) : mat3 :=
  let a := vx d in let b := vy d in let c := vz d in
  let dMat := mk33 (mk3 (b^2 + c^2) (- a * b) (- a * c))
                   (mk3 (- a * b) (c^2 + a^2) (- b * c))
                   (mk3 (- a * c) (- b * c) (a^2 + b^2)) in
  m3_add Ic (m3_scale m dMat).

(* [inertia.py:181] part in 'FRD' is a substring test *)
Definition in_FRD (part : string) : bool :=
  smem part [""; "F"; "R"; "D"; "FR"; "RD"; "FRD"].

(* [inertia.py:152-194] part_inertia_tensor: par['IBxx'] is read first to choose
   the dtype, then the entries row by row *)
Definition part_inertia_tensor (par : dict R) (part : string) : res mat3 :=
  _x <- dlook par "IBxx" ;;
  let I col := dlook par ("I" ++ part ++ col) in
  if in_FRD part then
    a <- I "xx" ;; b <- I "yy" ;; c <- I "xx" ;;
    Ok (mk33 (mk3 a 0 0) (mk3 0 b 0) (mk3 0 0 c))
  else
    a <- I "xx" ;; b <- I "xz" ;; c <- I "yy" ;; d <- I "xz" ;; e <- I "zz" ;;
    Ok (mk33 (mk3 a 0 b) (mk3 0 c 0) (mk3 d 0 e)).

(* [inertia.py:11-64] combine_bike_rider: the returned dictionary is the mutated
   bicyclePar itself *)
Definition combine_bike_rider (bicyclePar riderPar : dict R) : res (dict R) :=
  mRd <- dlook riderPar "mB" ;; mBi <- dlook bicyclePar "mB" ;;
  xRd <- dlook riderPar "xB" ;; xBi <- dlook bicyclePar "xB" ;;
  yRd <- dlook riderPar "yB" ;;
  zRd <- dlook riderPar "zB" ;; zBi <- dlook bicyclePar "zB" ;;
  tc <- total_com [[xRd; xBi]; [yRd; 0]; [zRd; zBi]] [mRd; mBi] ;;
  match tc with
  | (mT, [cx; cy; cz]) =>
      IRider <- part_inertia_tensor riderPar "B" ;;
      IBicycle <- part_inertia_tensor bicyclePar "B" ;;
      let dRider := mk3 (xRd - cx) (yRd - cy) (zRd - cz) in
      let dBicycle := mk3 (xBi - cx) 0 (zBi - cz) in
      let I := m3_add (parallel_axis IRider mRd dRider) (parallel_axis IBicycle mBi dBicycle) in
      let p1 := dset bicyclePar "xB" cx in
      let p2 := dset p1 "zB" cz in
      let p3 := dset p2 "yB" 0 in
      let p4 := dset p3 "mB" mT in
      let p5 := dset p4 "IBxx" (vx (r1 I)) in
      let p6 := dset p5 "IBxz" (vz (r1 I)) in
      let p7 := dset p6 "IByy" (vy (r2 I)) in
      let p8 := dset p7 "IBzz" (vz (r3 I)) in
      Ok p8
  | _ => Err (OtherError "unreachable: three rows in, three sums out")
  end.

(* [inertia.py:67-91] *)
Definition compound_pendulum_inertia (m g l T : R) : R :=
  (T / 2 / PI)^2 * m * g * l - m * l^2.

(* [inertia.py:94-119] inertia_components.  betaMat.I is the inverse for three
   orientations and the Moore-Penrose pseudo-inverse otherwise; with full column
   rank both equal (B^T B)^-1 B^T, which is modelled through the normal equations
   solved by Cramer's rule.  Rank deficiency is reported as a failure (numpy:
   LinAlgError for three rows; for other numbers pinv's minimum-norm solution,
   modelled in MInertia2.v and related to this in TInertia2.v).  Rows of B: cos^2, -2 sin cos, sin^2. *)
Definition beta_row (beta : R) : vec3 :=
  mk3 (cos beta ^ 2) (-2 * sin beta * cos beta) (sin beta ^ 2).
Definition v3_sum (l : list vec3) : vec3 := fold_right v3_add (mk3 0 0 0) l.
Definition outer (v : vec3) : mat3 := mk33 (v3_scale (vx v) v) (v3_scale (vy v) v) (v3_scale (vz v) v).
Definition m3_sum (l : list mat3) : mat3 := fold_right m3_add (m3_diag 0 0 0) l.
Definition det3 (a : mat3) : R := v3_dot (r1 a) (v3_cross (r2 a) (r3 a)).
(* solution of a x = h by Cramer's rule (columns replaced) *)
Definition solve3 (a : mat3) (h : vec3) : res vec3 :=
  let t := m3_T a in
  x <- rdiv (v3_dot h (v3_cross (r2 t) (r3 t))) (det3 a) ;;
  y <- rdiv (v3_dot (r1 t) (v3_cross h (r3 t))) (det3 a) ;;
  z <- rdiv (v3_dot (r1 t) (v3_cross (r2 t) h)) (det3 a) ;;
  Ok (mk3 x y z).
Definition inertia_components (jay beta : list R) : res vec3 :=
  if Nat.eqb (length jay) (length beta) then
    let rows := map beta_row beta in
    solve3 (m3_sum (map outer rows))
           (v3_sum (map (fun p => v3_scale (fst p) (snd p)) (combine jay rows)))
  else Err (ValueError "shapes not aligned").

(* [inertia.py:220-228] rotate_inertia_tensor (and [conversions.py:7-31]
   _rotate_inertia_about_y, the same expression) *)
Definition rotate_inertia_tensor (I : mat3) (angle : R) : mat3 :=
  let ca := cos angle in let sa := sin angle in
  let C := mk33 (mk3 ca 0 (- sa)) (mk3 0 1 0) (mk3 sa 0 ca) in
  m3_dot C (m3_dot I (m3_T C)).
Definition rotate_inertia_about_y (I : mat3) (angle : R) : mat3 :=
  let ca := cos angle in let sa := sin angle in
  let C := mk33 (mk3 ca 0 (- sa)) (mk3 0 1 0) (mk3 sa 0 ca) in
  m3_dot (m3_dot C I) (m3_T C).

(* [inertia.py:231-247] *)
Definition tor_inertia (k T : R) : R := k * T^2 / 4 / PI^2.
(* [inertia.py:250-265] *)
Definition torsional_pendulum_stiffness (I T : R) : res R := rdiv (4 * I * PI^2) (T^2).
(* [inertia.py:268-295] *)
Definition tube_inertia (l m ro ri : R) : R * R * R :=
  let Ix := m / 2 * (ro^2 + ri^2) in
  let Iy := m / 12 * (3 * ro^2 + 3 * ri^2 + l^2) in
  let Iz := Iy in
  (Ix, Iy, Iz).

(* [inertia.py:197-217] principal_axes.  np.linalg.eig is an oracle giving the
   eigenvalues and the matrix whose columns are eigenvectors; argsort is modelled
   by a stable insertion sort of the (eigenvalue, column) pairs (numpy's order of
   equal eigenvalues is unspecified). *)
Fixpoint insert_by (x : R * vec3) (l : list (R * vec3)) : list (R * vec3) :=
  match l with
  | [] => [x]
  | y :: l' => if Rltb (fst y) (fst x) then y :: insert_by x l' else x :: l
  end.
Definition sort_by (l : list (R * vec3)) : list (R * vec3) := fold_right insert_by [] l.
Definition principal_axes (eig : mat3 -> res (vec3 * mat3)) (I : mat3) : res (list (R * vec3)) :=
  e <- eig I ;;
  let '(Ip, C) := e in
  let cols := m3_T C in
  Ok (sort_by [(vx Ip, r1 cols); (vy Ip, r2 cols); (vz Ip, r3 cols)]).

(* [conversions.py:34-49] _sum_central_inertias: com from the two bodies, each
   inertia moved to it (np.vstack([com1, com2]).T has the two bodies as columns) *)
Definition sum_central_inertias (m1 : R) (com1 : vec3) (I1 : mat3) (m2 : R) (com2 : vec3) (I2 : mat3)
  : res mat3 :=
  tc <- total_com [[vx com1; vx com2]; [vy com1; vy com2]; [vz com1; vz com2]] [m1; m2] ;;
  match tc with
  | (_, [cx; cy; cz]) =>
      let com := mk3 cx cy cz in
      Ok (m3_add (parallel_axis I1 m1 (v3_sub com com1)) (parallel_axis I2 m2 (v3_sub com com2)))
  | _ => Err (OtherError "unreachable")
  end.

(* [conversions.py:52-142] _convert_principal_to_benchmark *)
Definition convert_principal_to_benchmark (p : dict R) : res (dict R) :=
  w <- dlook p "w" ;; c <- dlook p "c" ;; lam <- dlook p "lam" ;;
  g <- dlook p "g" ;; v <- dlook p "v" ;;
  xD <- dlook p "xD" ;; xP <- dlook p "xP" ;; yD <- dlook p "yD" ;; yP <- dlook p "yP" ;;
  zD <- dlook p "zD" ;; zP <- dlook p "zP" ;; mD <- dlook p "mD" ;; mP <- dlook p "mP" ;;
  tc <- total_com [[xD; xP]; [yD; yP]; [zD; zP]] [mD; mP] ;;
  match tc with
  | (mB, [xB; yB; zB]) =>
    kDaa <- dlook p "kDaa" ;; kDyy <- dlook p "kDyy" ;; kDbb <- dlook p "kDbb" ;;
    let ID_principal := m3_scale mD (m3_diag (kDaa^2) (kDyy^2) (kDbb^2)) in
    alphaD <- dlook p "alphaD" ;;
    let IDxyz := rotate_inertia_about_y ID_principal (- alphaD) in
    kPaa <- dlook p "kPaa" ;; kPyy <- dlook p "kPyy" ;; kPbb <- dlook p "kPbb" ;;
    let IP_principal := m3_scale mP (m3_diag (kPaa^2) (kPyy^2) (kPbb^2)) in
    alphaP <- dlook p "alphaP" ;;
    let IPxyz := rotate_inertia_about_y IP_principal (- alphaP) in
    IB <- sum_central_inertias mD (mk3 xD yD zD) IDxyz mP (mk3 xP yP zP) IPxyz ;;
    mH <- dlook p "mH" ;; xH <- dlook p "xH" ;; yH <- dlook p "yH" ;; zH <- dlook p "zH" ;;
    kHaa <- dlook p "kHaa" ;; kHyy <- dlook p "kHyy" ;; kHbb <- dlook p "kHbb" ;;
    let IH123 := m3_scale mH (m3_diag (kHaa^2) (kHyy^2) (kHbb^2)) in
    alphaH <- dlook p "alphaH" ;;
    let IH := rotate_inertia_about_y IH123 (- alphaH) in
    rR <- dlook p "rR" ;; mR <- dlook p "mR" ;; kRaa <- dlook p "kRaa" ;; kRyy <- dlook p "kRyy" ;;
    rF <- dlook p "rF" ;; mF <- dlook p "mF" ;; kFaa <- dlook p "kFaa" ;; kFyy <- dlook p "kFyy" ;;
    Ok [("w", w); ("c", c); ("lam", lam); ("g", g); ("v", v);
        ("mB", mB); ("xB", xB); ("yB", yB); ("zB", zB);
        ("IBxx", vx (r1 IB)); ("IByy", vy (r2 IB)); ("IBzz", vz (r3 IB)); ("IBxz", vz (r1 IB));
        ("mH", mH); ("xH", xH); ("yH", yH); ("zH", zH);
        ("IHxx", vx (r1 IH)); ("IHyy", vy (r2 IH)); ("IHzz", vz (r3 IH)); ("IHxz", vz (r1 IH));
        ("rR", rR); ("mR", mR); ("IRxx", mR * kRaa^2); ("IRyy", mR * kRyy^2); ("IRzz", mR * kRaa^2);
        ("rF", rF); ("mF", mF); ("IFxx", mF * kFaa^2); ("IFyy", mF * kFyy^2); ("IFzz", mF * kFaa^2)]
  | _ => Err (OtherError "unreachable")
  end.
