(* MUnc.v -- the same calculations on numbers with standard deviations.

   Values read from a parameter file are `uncertainties` numbers.  The library keeps for
   each result its nominal value and its derivatives with respect to the independent
   numbers it was computed from (AffineScalarFunc); the standard deviation is the square
   root of the sum of the squares of derivative times standard deviation.  The operations
   below are that library's; the functions are the ones of bicycle.py, geometry.py, com.py,
   inertia.py and main.py again, on such numbers.  A derivative that is nan (sqrt at 0,
   asin at 1) counts as a failure.  Inverses of matrices of uncertain numbers are those of
   MGeometry.v and MInertia.v (closed formulas), differentiated by the rules. *)
From Verif Require Import Base MString MVec MBicycle MInertia MGeometry MMain.
Local Open Scope string_scope.
Local Open Scope R_scope.

(* an independent number: a measurement by its name, or the steer axis tilt, which
   bicycle.py 209 makes a new number, of unit standard deviation *)
Definition source := option string.
Record unum := mkU { nom : R; der : source -> R }.
Definition ucst (r : R) : unum := mkU r (fun _ => 0).
(* ufloat(x, s) read from the file under the name k *)
Definition veqb (v w : source) : bool :=
  match v, w with Some a, Some b => String.eqb a b | None, None => true | _, _ => false end.
Definition uvar (v : source) (x : R) : unum := mkU x (fun w => if veqb w v then 1 else 0).
(* the contents of a file: every value is an independent number under its name *)
Definition uvars (m : dict (R * R)) : dict unum := map (fun kv => (fst kv, uvar (Some (fst kv)) (fst (snd kv)))) m.
(* std_dev, with the independent numbers and their standard deviations *)
Definition ustd (sds : dict R) (u : unum) : R :=
  sqrt (rsum (map (fun ks => (der u (Some (fst ks)) * snd ks) ^ 2) sds) + der u None ^ 2).

(* the operators of the library *)
Definition uadd (x y : unum) : unum := mkU (nom x + nom y) (fun v => der x v + der y v).
Definition usub (x y : unum) : unum := mkU (nom x - nom y) (fun v => der x v - der y v).
Definition umul (x y : unum) : unum := mkU (nom x * nom y) (fun v => der x v * nom y + nom x * der y v).
Definition uneg (x : unum) : unum := mkU (- nom x) (fun v => - der x v).
Definition upow (x : unum) (n : nat) : unum := mkU (nom x ^ n) (fun v => INR n * der x v * nom x ^ pred n).
(* division by a float other than zero *)
Definition udivc (x : unum) (r : R) : unum := mkU (nom x / r) (fun v => der x v / r).
Definition udiv (x y : unum) : res unum :=
  if Req_EM_T (nom y) 0 then Err ZeroDivisionError
  else Ok (mkU (nom x / nom y) (fun v => 1 / nom y * der x v + - nom x / nom y ^ 2 * der y v)).
(* umath *)
Definition usin (x : unum) : unum := mkU (sin (nom x)) (fun v => cos (nom x) * der x v).
Definition ucos (x : unum) : unum := mkU (cos (nom x)) (fun v => - sin (nom x) * der x v).
Definition uatan (x : unum) : unum := mkU (atan (nom x)) (fun v => 1 / (1 + nom x ^ 2) * der x v).
Definition utan (x : unum) : res unum :=
  t <- rtan (nom x) ;; Ok (mkU t (fun v => (1 + t ^ 2) * der x v)).
Definition nan_deviation : exn := OtherError "nan".
Definition usqrt (x : unum) : res unum :=
  s <- rsqrt (nom x) ;;
  if Req_EM_T (nom x) 0 then Err nan_deviation else Ok (mkU s (fun v => 1 / (2 * s) * der x v)).
Definition uasin (x : unum) : res unum :=
  s <- rasin (nom x) ;;
  if Req_EM_T (Rabs (nom x)) 1 then Err nan_deviation else Ok (mkU s (fun v => 1 / sqrt (1 - nom x ^ 2) * der x v)).

Declare Scope u_scope.
Delimit Scope u_scope with U.
Bind Scope u_scope with unum.
Notation "x + y" := (uadd x y) : u_scope.
Notation "x - y" := (usub x y) : u_scope.
Notation "x * y" := (umul x y) : u_scope.
Notation "- x" := (uneg x) : u_scope.
Notation "x ^ n" := (upow x n%nat) : u_scope.
Notation "x '//' r" := (udivc x r%R) (at level 40, left associativity) : u_scope.
Definition usum (l : list unum) : unum := fold_right uadd (ucst 0) l.
Notation "0" := (ucst 0) : u_scope.
Notation "1" := (ucst 1) : u_scope.
Notation "2" := (ucst 2) : u_scope.
Notation "3" := (ucst 3) : u_scope.
Notation "4" := (ucst 4) : u_scope.
Notation "90" := (ucst 90) : u_scope.
Local Open Scope u_scope.

(* numpy arrays of such numbers *)
Record uvec3 := umk3 { uvx : unum; uvy : unum; uvz : unum }.
Definition uv3_sub (a b : uvec3) := umk3 (uvx a - uvx b) (uvy a - uvy b) (uvz a - uvz b).
Definition uv3_add (a b : uvec3) := umk3 (uvx a + uvx b) (uvy a + uvy b) (uvz a + uvz b).
Definition uv3_scale (k : unum) (a : uvec3) := umk3 (k * uvx a) (k * uvy a) (k * uvz a).
Definition uv3_dot (a b : uvec3) : unum := uvx a * uvx b + uvy a * uvy b + uvz a * uvz b.
Definition uv3_cross (a b : uvec3) : uvec3 :=
  umk3 (uvy a * uvz b - uvz a * uvy b) (uvz a * uvx b - uvx a * uvz b) (uvx a * uvy b - uvy a * uvx b).
Record umat3 := umk33 { ur1 : uvec3; ur2 : uvec3; ur3 : uvec3 }.
Definition um3_add (a b : umat3) := umk33 (uv3_add (ur1 a) (ur1 b)) (uv3_add (ur2 a) (ur2 b)) (uv3_add (ur3 a) (ur3 b)).
Definition um3_scale (k : unum) (a : umat3) := umk33 (uv3_scale k (ur1 a)) (uv3_scale k (ur2 a)) (uv3_scale k (ur3 a)).
Definition um3_T (a : umat3) : umat3 :=
  umk33 (umk3 (uvx (ur1 a)) (uvx (ur2 a)) (uvx (ur3 a)))
        (umk3 (uvy (ur1 a)) (uvy (ur2 a)) (uvy (ur3 a)))
        (umk3 (uvz (ur1 a)) (uvz (ur2 a)) (uvz (ur3 a))).
Definition um3_dot (a b : umat3) : umat3 :=
  let bt := um3_T b in
  let row v := umk3 (uv3_dot v (ur1 bt)) (uv3_dot v (ur2 bt)) (uv3_dot v (ur3 bt)) in
  umk33 (row (ur1 a)) (row (ur2 a)) (row (ur3 a)).
Definition um3_diag (a b c : unum) : umat3 := umk33 (umk3 a (ucst 0) (ucst 0)) (umk3 (ucst 0) b (ucst 0)) (umk3 (ucst 0) (ucst 0) c).
Record umat2 := umk2 { um11 : unum; um12 : unum; um21 : unum; um22 : unum }.
Definition um2_scale (k : unum) (a : umat2) : umat2 := umk2 (k * um11 a) (k * um12 a) (k * um21 a) (k * um22 a).
Definition um2_add (a b : umat2) : umat2 := umk2 (um11 a + um11 b) (um12 a + um12 b) (um21 a + um21 b) (um22 a + um22 b).
Definition um2_neg (a : umat2) : umat2 := umk2 (- um11 a) (- um12 a) (- um21 a) (- um22 a).
Definition um2_dot (a b : umat2) : umat2 :=
  umk2 (um11 a * um11 b + um12 a * um21 b) (um11 a * um12 b + um12 a * um22 b)
       (um21 a * um11 b + um22 a * um21 b) (um21 a * um12 b + um22 a * um22 b).
Definition um2_rows (a : umat2) : list (list unum) := [[um11 a; um12 a]; [um21 a; um22 a]].
Definition uvstack (a b : list (list unum)) : list (list unum) := (a ++ b)%list.
Definition uhstack (a b : list (list unum)) : list (list unum) := map (fun p => fst p ++ snd p)%list (combine a b).
Definition um2_zero : umat2 := umk2 (ucst 0) (ucst 0) (ucst 0) (ucst 0).
Definition um2_eye : umat2 := umk2 (ucst 1) (ucst 0) (ucst 0) (ucst 1).

(* [bicycle.py:61-63] inverse of the mass matrix.  For a ufloat (object) array a
   zero determinant raises ZeroDivisionError; for a float array numpy warns and
   returns inf/nan, which the model identifies with that failure. *)
Definition uinv2 (M : umat2) : res umat2 :=
  k <- udiv 1 (um11 M * um22 M - um12 M * um21 M) ;;
  Ok (um2_scale k (umk2 (um22 M) (- um12 M) (- um21 M) (um11 M))).

(* [bicycle.py:8-75] ab_matrix *)
Definition uab_matrix (M C1 K0 K2 : umat2) (v g : unum) : res (list (list unum) * list (list unum)) :=
  invM <- uinv2 M ;;
  let a11 := um2_zero in
  let a12 := um2_eye in
  let a21 := um2_neg (um2_dot invM (um2_add (um2_scale g K0) (um2_scale (v ^ 2) K2))) in
  let a22 := um2_neg (um2_dot invM (um2_scale v C1)) in
  Ok (uvstack (uhstack (um2_rows a11) (um2_rows a12)) (uhstack (um2_rows a21) (um2_rows a22)),
      uvstack (um2_rows um2_zero) (um2_rows invM)).


(* [bicycle.py:78-170] benchmark_par_to_canonical.
   The result is the caller's dictionary after the call (the function assigns
   p['IRzz'] and p['IFzz'] at lines 115-116) together with the returned
   matrices or the exception raised.  Keys are looked up in the order the Python
   expressions evaluate them (repeated lookups of a key already seen are not
   repeated); divisions are checked where they occur. *)
Record ucanon := umkcanon { ucM : umat2; ucC1 : umat2; ucK0 : umat2; ucK2 : umat2 }.

Record ucanon1 := umkcanon1 {
  uk_mT : unum; uk_xT : unum; uk_zT : unum; uk_ITxx : unum; uk_ITxz : unum; uk_IRxx : unum; uk_IFxx : unum }.

(* lines 105-114 *)
Definition ucanon_phase1 (p : dict unum) : res ucanon1 :=
  mR <- dlook p "mR" ;; mB <- dlook p "mB" ;; mH <- dlook p "mH" ;; mF <- dlook p "mF" ;;
  let mT := mR + mB + mH + mF in
  xB <- dlook p "xB" ;; xH <- dlook p "xH" ;; w <- dlook p "w" ;;
  xT <- udiv (xB*mB + xH*mH + w*mF) mT ;;
  rR <- dlook p "rR" ;; zB <- dlook p "zB" ;; zH <- dlook p "zH" ;; rF <- dlook p "rF" ;;
  zT <- udiv (- rR*mR + zB*mB + zH*mH - rF*mF) mT ;;
  IRxx <- dlook p "IRxx" ;; IBxx <- dlook p "IBxx" ;;
  IHxx <- dlook p "IHxx" ;; IFxx <- dlook p "IFxx" ;;
  let ITxx := IRxx + IBxx + IHxx + IFxx + mR * rR^2 + mB*zB^2 + mH*zH^2 + mF*rF^2 in
  IBxz <- dlook p "IBxz" ;; IHxz <- dlook p "IHxz" ;;
  let ITxz := IBxz + IHxz - mB*xB*zB - mH*xH*zH + mF*w*rF in
  Ok (umkcanon1 mT xT zT ITxx ITxz IRxx IFxx).

(* lines 117-170 *)
Definition ucanon_phase2 (p : dict unum) (k : ucanon1) : res ucanon :=
  let mT := uk_mT k in let xT := uk_xT k in let zT := uk_zT k in
  let ITxx := uk_ITxx k in let ITxz := uk_ITxz k in
  IRzz <- dlook p "IRzz" ;; IBzz <- dlook p "IBzz" ;; IHzz <- dlook p "IHzz" ;;
  IFzz <- dlook p "IFzz" ;;
  mB <- dlook p "mB" ;; xB <- dlook p "xB" ;; mH <- dlook p "mH" ;; xH <- dlook p "xH" ;;
  mF <- dlook p "mF" ;; w <- dlook p "w" ;;
  let ITzz := IRzz + IBzz + IHzz + IFzz + mB*xB^2 + mH*xH^2 + mF*w^2 in
  let mA := mH + mF in
  xA <- udiv (xH*mH + w*mF) mA ;;
  zH <- dlook p "zH" ;; rF <- dlook p "rF" ;;
  zA <- udiv (zH*mH - rF*mF) mA ;;
  IHxx <- dlook p "IHxx" ;; IFxx <- dlook p "IFxx" ;;
  let IAxx := IHxx + IFxx + mH*(zH - zA)^2 + mF*(rF + zA)^2 in
  IHxz <- dlook p "IHxz" ;;
  let IAxz := IHxz - mH*(xH - xA)*(zH - zA) + mF*(w - xA)*(rF + zA) in
  let IAzz := IHzz + IFzz + mH*(xH - xA)^2 + mF*(w - xA)^2 in
  c <- dlook p "c" ;; lam <- dlook p "lam" ;;
  let uA := (xA - w - c)*ucos lam - zA*usin lam in
  let IAll := mA*uA^2 + IAxx*usin lam^2 + 2*IAxz*usin lam*ucos lam + IAzz*ucos lam^2 in
  let IAlx := - mA*uA*zA + IAxx*usin lam + IAxz*ucos lam in
  let IAlz := mA*uA*xA + IAxz*usin lam + IAzz*ucos lam in
  c_w <- udiv c w ;;
  let mu := c_w*ucos lam in
  IRyy <- dlook p "IRyy" ;; rR <- dlook p "rR" ;; SR <- udiv IRyy rR ;;
  IFyy <- dlook p "IFyy" ;; SF <- udiv IFyy rF ;;
  let ST := SR + SF in
  let SA := mA*uA + mu*mT*xT in
  let Mpp := ITxx in
  let Mpd := IAlx + mu*ITxz in
  let Mdp := Mpd in
  let Mdd := IAll + 2*mu*IAlz + mu^2*ITzz in
  let M := umk2 Mpp Mpd Mdp Mdd in
  let K0pp := mT*zT in
  let K0pd := - SA in
  let K0dp := K0pd in
  let K0dd := - SA*usin lam in
  let K0 := umk2 K0pp K0pd K0dp K0dd in
  let K2pp := 0 in
  t1 <- udiv (ST - mT*zT) w ;;
  let K2pd := t1*ucos lam in
  let K2dp := 0 in
  t2 <- udiv (SA + SF*usin lam) w ;;
  let K2dd := t2*ucos lam in
  let K2 := umk2 K2pp K2pd K2dp K2dd in
  let C1pp := 0 in
  t3 <- udiv ITxz w ;;
  let C1pd := mu*ST + SF*ucos lam + t3*ucos lam - mu*mT*zT in
  let C1dp := - (mu*ST + SF*ucos lam) in
  t4 <- udiv IAlz w ;;
  t5 <- udiv ITzz w ;;
  let C1dd := t4*ucos lam + mu*(SA + t5*ucos lam) in
  let C1 := umk2 C1pp C1pd C1dp C1dd in
  Ok (umkcanon M C1 K0 K2).

Definition ubenchmark_par_to_canonical (p : dict unum) : dict unum * res ucanon :=
  match ucanon_phase1 p with
  | Err e => (p, Err e)
  | Ok k =>
      let p1 := dset p "IRzz" (uk_IRxx k) in
      let p2 := dset p1 "IFzz" (uk_IFxx k) in
      (p2, ucanon_phase2 p2 k)
  end.


(* [bicycle.py:173-209] lambda_from_abc: the root is sought with nominal values and
   returned as a new independent number with the standard deviation of the guess *)
Definition ulambda_from_abc (sds : dict R) (newton : (R -> res R) -> R -> res R) (rF rR a b c : unum) : res unum :=
  t <- udiv c (a + b) ;;
  let guess := uatan t in
  lam <- newton (fun lam => lam_equality lam (nom rF) (nom rR) (nom a) (nom b) (nom c)) (nom guess) ;;
  Ok (mkU lam (fun v => match v with None => ustd sds guess | Some _ => 0%R end)).

(* [bicycle.py:337-363] trail *)
Definition utrail (rF lam fo : unum) : res (unum * unum) :=
  c <- udiv (rF * usin lam - fo) (ucos lam) ;;
  Ok (c, c * ucos lam).


(* [com.py:215-237] total_com.  coordinates: list of rows (normally three);
   masses: one per column.  numpy raises ValueError when the shapes do not
   broadcast (the single-column broadcast of numpy is not modelled). Division by
   a zero total mass is a failure (see Base.rdiv). *)
Definition utotal_com (coordinates : list (list unum)) (masses : list unum) : res (unum * list unum) :=
  if forallb (fun row => Nat.eqb (length row) (length masses)) coordinates then
    let products := map (fun row => map (fun p => fst p * snd p) (combine masses row)) coordinates in
    let mT := usum masses in
    cT <- mapM (fun row => udiv (usum row) mT) products ;;
    Ok (mT, cT)
  else Err (ValueError "operands could not be broadcast together").

(* [inertia.py:122-149] parallel_axis *)
Definition uparallel_axis (Ic : umat3) (m : unum) (d : uvec3) : umat3 :=
  let a := uvx d in let b := uvy d in let c := uvz d in
  let dMat := umk33 (umk3 (b^2 + c^2) (- a * b) (- a * c))
                   (umk3 (- a * b) (c^2 + a^2) (- b * c))
                   (umk3 (- a * c) (- b * c) (a^2 + b^2)) in
  um3_add Ic (um3_scale m dMat).

(* [inertia.py:152-194] part_inertia_tensor: par['IBxx'] is read first to choose
   the dtype, then the entries row by row *)
Definition upart_inertia_tensor (par : dict unum) (part : string) : res umat3 :=
  _x <- dlook par "IBxx" ;;
  let I col := dlook par ("I" ++ part ++ col) in
  if in_FRD part then
    a <- I "xx" ;; b <- I "yy" ;; c <- I "xx" ;;
    Ok (umk33 (umk3 a 0 0) (umk3 0 b 0) (umk3 0 0 c))
  else
    a <- I "xx" ;; b <- I "xz" ;; c <- I "yy" ;; d <- I "xz" ;; e <- I "zz" ;;
    Ok (umk33 (umk3 a 0 b) (umk3 0 c 0) (umk3 d 0 e)).

(* [inertia.py:11-64] combine_bike_rider: the returned dictionary is the mutated
   bicyclePar itself *)
Definition ucombine_bike_rider (bicyclePar riderPar : dict unum) : res (dict unum) :=
  mRd <- dlook riderPar "mB" ;; mBi <- dlook bicyclePar "mB" ;;
  xRd <- dlook riderPar "xB" ;; xBi <- dlook bicyclePar "xB" ;;
  yRd <- dlook riderPar "yB" ;;
  zRd <- dlook riderPar "zB" ;; zBi <- dlook bicyclePar "zB" ;;
  tc <- utotal_com [[xRd; xBi]; [yRd; 0]; [zRd; zBi]] [mRd; mBi] ;;
  match tc with
  | (mT, [cx; cy; cz]) =>
      IRider <- upart_inertia_tensor riderPar "B" ;;
      IBicycle <- upart_inertia_tensor bicyclePar "B" ;;
      let dRider := umk3 (xRd - cx) (yRd - cy) (zRd - cz) in
      let dBicycle := umk3 (xBi - cx) 0 (zBi - cz) in
      let I := um3_add (uparallel_axis IRider mRd dRider) (uparallel_axis IBicycle mBi dBicycle) in
      let p1 := dset bicyclePar "xB" cx in
      let p2 := dset p1 "zB" cz in
      let p3 := dset p2 "yB" 0 in
      let p4 := dset p3 "mB" mT in
      let p5 := dset p4 "IBxx" (uvx (ur1 I)) in
      let p6 := dset p5 "IBxz" (uvz (ur1 I)) in
      let p7 := dset p6 "IByy" (uvy (ur2 I)) in
      let p8 := dset p7 "IBzz" (uvz (ur3 I)) in
      Ok p8
  | _ => Err (OtherError "unreachable: three rows in, three sums out")
  end.

(* [inertia.py:67-91] *)
Definition ucompound_pendulum_inertia (m g l T : unum) : unum :=
  (T // 2 // PI)^2 * m * g * l - m * l^2.

(* [inertia.py:94-119] inertia_components.  betaMat.I is the inverse for three
   orientations and the Moore-Penrose pseudo-inverse otherwise; with full column
   rank both equal (B^T B)^-1 B^T, which is modelled through the normal equations
   solved by Cramer's rule.  Rank deficiency is reported as a failure (numpy:
   LinAlgError for three rows; for more rows pinv's minimum-norm solution is not
   modelled).  Rows of B: cos^2, -2 sin cos, sin^2. *)
Definition ubeta_row (beta : unum) : uvec3 :=
  umk3 (ucos beta ^ 2) (ucst (-2) * usin beta * ucos beta) (usin beta ^ 2).
Definition uv3_sum (l : list uvec3) : uvec3 := fold_right uv3_add (umk3 0 0 0) l.
Definition uouter (v : uvec3) : umat3 := umk33 (uv3_scale (uvx v) v) (uv3_scale (uvy v) v) (uv3_scale (uvz v) v).
Definition um3_sum (l : list umat3) : umat3 := fold_right um3_add (um3_diag 0 0 0) l.
Definition udet3 (a : umat3) : unum := uv3_dot (ur1 a) (uv3_cross (ur2 a) (ur3 a)).
(* solution of a x = h by Cramer's rule (columns replaced) *)
Definition usolve3 (a : umat3) (h : uvec3) : res uvec3 :=
  let t := um3_T a in
  x <- udiv (uv3_dot h (uv3_cross (ur2 t) (ur3 t))) (udet3 a) ;;
  y <- udiv (uv3_dot (ur1 t) (uv3_cross h (ur3 t))) (udet3 a) ;;
  z <- udiv (uv3_dot (ur1 t) (uv3_cross (ur2 t) h)) (udet3 a) ;;
  Ok (umk3 x y z).
Definition uinertia_components (jay beta : list unum) : res uvec3 :=
  if Nat.eqb (length jay) (length beta) then
    let rows := map ubeta_row beta in
    usolve3 (um3_sum (map uouter rows))
           (uv3_sum (map (fun p => uv3_scale (fst p) (snd p)) (combine jay rows)))
  else Err (ValueError "shapes not aligned").

(* [inertia.py:220-228] rotate_inertia_tensor (and [conversions.py:7-31]
   _rotate_inertia_about_y, the same expression) *)
Definition urotate_inertia_tensor (I : umat3) (angle : unum) : umat3 :=
  let ca := ucos angle in let sa := usin angle in
  let C := umk33 (umk3 ca 0 (- sa)) (umk3 0 1 0) (umk3 sa 0 ca) in
  um3_dot C (um3_dot I (um3_T C)).

(* [inertia.py:231-247] *)
Definition utor_inertia (k T : unum) : unum := k * T^2 // 4 // (PI^2).
(* [inertia.py:250-265] *)
Definition utorsional_pendulum_stiffness (I T : unum) : res unum := udiv (4 * I * ucst (PI^2)) (T^2).
(* [inertia.py:268-295] *)
Definition utube_inertia (l m ro ri : unum) : unum * unum * unum :=
  let Ix := m // 2 * (ro^2 + ri^2) in
  let Iy := m // 12 * (3 * ro^2 + 3 * ri^2 + l^2) in
  let Iz := Iy in
  (Ix, Iy, Iz).


(* [geometry.py:60-90] calculate_abc_geometry *)
Definition ucalculate_abc_geometry (h1 h2 h3 h4 h5 d1 d2 d3 d4 d_ : unum) : res (unum * unum * unum) :=
  let a := h1 + h2 - h3 + ucst (/2) * d1 - ucst (/2) * d2 in
  let b := h4 - ucst (/2) * d3 - h5 + ucst (/2) * d4 in
  c <- usqrt (- (a - b)^2 + (d_ + ucst (/2) * (d2 + d3))^2) ;;
  Ok (a, b, c).

(* [geometry.py:93-130] calculate_l1_l2 *)
Definition ucalculate_l1_l2 (h6 h7 d5 d6 l : unum) : res (unum * unum) :=
  let r5 := d5 // 2 in
  let r6 := d6 // 2 in
  let l1 := h7 - h6 + r5 - r6 in
  let l0 := l - r5 - r6 in
  q <- udiv l1 l0 ;;
  gamma <- uasin q ;;
  let l2 := l0 * ucos gamma in
  Ok (l1, l2).


(* [geometry.py:162-182] fwheel_to_handlebar_ref *)
Definition ufwheel_to_handlebar_ref (lam l1 l2 : unum) : res (unum * unum) :=
  let u1 := l2 * usin lam - l1 * ucos lam in
  t <- utan lam ;;
  q <- udiv u1 t ;;
  s <- udiv l1 (usin lam) ;;
  Ok (u1, q + s).

(* [geometry.py:10-57] calculate_benchmark_geometry.  The dictionary par is
   updated in place and returned; on an exception the partial updates are not
   modelled.  [newton] is the root finder used by lambda_from_abc. *)
Definition ucalculate_benchmark_geometry (sds : dict R) (newton : (R -> res R) -> R -> res R) (mp par : dict unum) : res (dict unum) :=
  dF <- dlook mp "dF" ;; nF <- dlook mp "nF" ;; rF <- udiv (dF // 2 // PI) nF ;;
  dR <- dlook mp "dR" ;; nR <- dlook mp "nR" ;; rR <- udiv (dR // 2 // PI) nR ;;
  let p1 := dset par "rF" rF in
  let p2 := dset p1 "rR" rR in
  g <- (if dmem mp "w" then
          gamma <- dlook mp "gamma" ;; w <- dlook mp "w" ;; f <- dlook mp "f" ;;
          Ok (ucst (PI / 180) * (90 - gamma), w, f)
        else
          h1 <- dlook mp "h1" ;; h2 <- dlook mp "h2" ;; h3 <- dlook mp "h3" ;; h4 <- dlook mp "h4" ;; h5 <- dlook mp "h5" ;;
          d1 <- dlook mp "d1" ;; d2 <- dlook mp "d2" ;; d3 <- dlook mp "d3" ;; d4 <- dlook mp "d4" ;; d_ <- dlook mp "d" ;;
          abc <- ucalculate_abc_geometry h1 h2 h3 h4 h5 d1 d2 d3 d4 d_ ;;
          match abc with (a, b, c) =>
            lam <- ulambda_from_abc sds newton rF rR a b c ;;
            Ok (lam, (a + b) * ucos lam + c * usin lam, b)
          end) ;;
  match g with (lam, w, forkOffset) =>
    let p3 := dset p2 "lam" lam in
    let p4 := dset p3 "w" w in
    t <- utrail rF lam forkOffset ;;
    let p5 := dset p4 "c" (fst t) in
    (* try: par['xcl'] = mp['xcl']; par['zcl'] = mp['zcl'] except KeyError: pass *)
    Ok (match dget mp "xcl" with
        | None => p5
        | Some xcl => let p6 := dset p5 "xcl" xcl in
                      match dget mp "zcl" with None => p6 | Some zcl => dset p6 "zcl" zcl end
        end)
  end.


(* [geometry.py:271-272] norm; [geometry.py:249-276] point_to_line_distance *)
Definition unorm3 (v : uvec3) : res unum := usqrt (uv3_dot v v).
Definition upoint_to_line_distance (x0 x1 x2 : uvec3) : res unum :=
  n <- unorm3 (uv3_cross (uv3_sub x0 x1) (uv3_sub x0 x2)) ;; d <- unorm3 (uv3_sub x2 x1) ;; udiv n d.

(* [geometry.py:217-246] distance_to_steer_axis *)
Definition udistance_to_steer_axis (w c lam : unum) (point : uvec3) : res unum :=
  let p1 := umk3 (w + c) 0 0 in
  let p2 := uv3_add p1 (umk3 (- usin lam) 0 (- ucos lam)) in
  upoint_to_line_distance point p1 p2.


(* [com.py:86-97] intersection of two lines: the 2x2 system [[-s0, 1], [-s1, 1]]
   inverted (a.I), singular for equal slopes (LinAlgError) *)
Definition uline_intersection (s0 s1 b0 b1 : unum) : res (unum * unum) :=
  let det := (- s0) * 1 - 1 * (- s1) in
  i11 <- udiv 1 det ;; i12 <- udiv (ucst (-1)) det ;; i21 <- udiv s1 det ;; i22 <- udiv (- s0) det ;;
  Ok (i11 * b0 + i12 * b1, i21 * b0 + i22 * b1).

(* [com.py:61-99] center_of_mass.  np.mean of an empty object array divides by
   zero; intercepts shorter than slopes give IndexError. *)
Definition ucenter_of_mass (slopes intercepts : list unum) : res (unum * unum) :=
  let num := seq 0 (length slopes) in
  allComb <- cartesian 0%nat [num; num] ;;
  let comb := filter (fun row => negb (Nat.eqb (nth 0 row 0%nat) (nth 1 row 0%nat))) allComb in
  lineX <- mapM (fun row =>
      s0 <- index slopes (nth 0 row 0%nat) ;; s1 <- index slopes (nth 1 row 0%nat) ;;
      b0 <- index intercepts (nth 0 row 0%nat) ;; b1 <- index intercepts (nth 1 row 0%nat) ;;
      uline_intersection s0 s1 b0 b1) comb ;;
  x <- udiv (usum (map fst lineX)) (ucst (INR (length lineX))) ;;
  z <- udiv (usum (map snd lineX)) (ucst (INR (length lineX))) ;;
  Ok (x, z).

(* [com.py:102-161] com_line; raise KeyError without a key *)
Definition ucom_line (alpha a : unum) (par : dict unum) (part : string) (l1 l2 : unum) : res (unum * unum * unum) :=
  lam <- dlook par "lam" ;;
  let beta := lam - alpha * ucst PI // 180 in
  t <- utan beta ;;
  let m := - t in
  if String.eqb part "B" then
    q <- udiv (- a) (ucos beta) ;; rR <- dlook par "rR" ;; Ok (m, q - rR, beta)
  else if String.eqb part "S" || String.eqb part "H" then
    q <- udiv (- a) (ucos beta) ;; rF <- dlook par "rF" ;; w <- dlook par "w" ;; Ok (m, q - rF + w * t, beta)
  else if String.eqb part "G" then
    u <- ufwheel_to_handlebar_ref lam l1 l2 ;;
    q <- udiv (- a) (ucos beta) ;; rF <- dlook par "rF" ;; w <- dlook par "w" ;;
    Ok (m, q - (rF + snd u) + (w - fst u) * t, beta)
  else Err (KeyError "").

(* slopes, intercepts and betas per part *)
Definition ulines3 : Type := dict (list unum) * dict (list unum) * dict (list unum).
Definition uappend_to (d : dict (list unum)) (k : string) (x : unum) : res (dict (list unum)) :=
  l <- dlook d k ;; Ok (dset d k (l ++ [x])%list).

(* [com.py:198-210] the loop over the alpha keys *)
Fixpoint ucom_lines_loop (mp par : dict unum) (l1 l2 : unum) (keys : list string) (acc : ulines3) : res ulines3 :=
  match keys with
  | [] => Ok acc
  | key :: keys' =>
      alpha <- dlook mp key ;;
      a <- dlook mp ("a" ++ sdrop 5 key) ;;
      part <- schar 5 key ;;
      mbb <- ucom_line alpha a par part l1 l2 ;;
      match mbb, acc with (m, b, beta), (sl, ic, be) =>
        sl' <- uappend_to sl part m ;;
        ic' <- uappend_to ic part b ;;
        be' <- uappend_to be part beta ;;
        ucom_lines_loop mp par l1 l2 keys' (sl', ic', be')
      end
  end.
(* [com.py:164-212] part_com_lines *)
Definition upart_com_lines (mp par : dict unum) (forkIsSplit : bool) : res ulines3 :=
  l12 <- (if forkIsSplit then
            h6 <- dlook mp "h6" ;; h7 <- dlook mp "h7" ;; d5 <- dlook mp "d5" ;; d6 <- dlook mp "d6" ;; l <- dlook mp "l" ;;
            ucalculate_l1_l2 h6 h7 d5 d6 l
          else Ok (0, 0)) ;;
  let init := if forkIsSplit then [("B", []); ("G", []); ("S", [])] else [("B", []); ("H", [])] in
  ucom_lines_loop mp par (fst l12) (snd l12)
    (ssort (filter (starts_with "alpha") (dkeys mp))) (init, init, init).

(* main.py 1573-1589: masses *)
Definition ubm_masses (mp par : dict unum) (split : bool) : res (dict unum) :=
  mB <- dlook mp "mB" ;; let par := dset par "mB" mB in
  mF <- dlook mp "mF" ;; let par := dset par "mF" mF in
  mR <- dlook mp "mR" ;; let par := dset par "mR" mR in
  par <- pass_keyerror par (mD <- dlook mp "mD" ;; mF <- dlook mp "mF" ;; Ok (dset par "mD" (mD - mF))) ;;
  if split then
    mS <- dlook mp "mS" ;; let par := dset par "mS" mS in
    mG <- dlook mp "mG" ;; Ok (dset par "mG" mG)
  else mH <- dlook mp "mH" ;; Ok (dset par "mH" mH).

(* main.py 1594-1597: centres of mass; slopes is iterated with its keys *)
Fixpoint ubm_centres (slopes : list (string * list unum)) (intercepts : dict (list unum)) (par : dict unum) : res (dict unum) :=
  match slopes with
  | [] => Ok par
  | (part, sl) :: rest =>
      ic <- dlook intercepts part ;;
      q <- ucenter_of_mass sl ic ;;
      ubm_centres rest intercepts (dset (dset par ("x" ++ part) (fst q)) ("z" ++ part) (snd q))
  end.

(* main.py 1601-1610: mass centre of fork and handlebar *)
Definition ubm_split_centre (par : dict unum) (split : bool) : res (dict unum) :=
  if split then
    xS <- dlook par "xS" ;; xG <- dlook par "xG" ;; zS <- dlook par "zS" ;; zG <- dlook par "zG" ;;
    mS <- dlook par "mS" ;; mG <- dlook par "mG" ;;
    tc <- utotal_com [[xS; xG]; [0; 0]; [zS; zG]] [mS; mG] ;;
    match tc with
    | (mH, [cx; _; cz]) => Ok (dset (dset (dset par "mH" mH) "xH" cx) "zH" cz)
    | _ => Err (OtherError "unreachable: three rows in, three sums out")
    end
  else Ok par.

(* main.py 1612-1626: gravity and wheel y inertias *)
Definition ubm_wheels_yy (mp par : dict unum) : res (dict unum) :=
  g <- dlook mp "g" ;; let par := dset par "g" g in
  mF <- dlook mp "mF" ;; lF <- dlook mp "lF" ;; TcF1 <- dlook mp "TcF1" ;;
  let IFyy := ucompound_pendulum_inertia mF g lF TcF1 in
  let par := dset par "IFyy" IFyy in
  mR <- dlook mp "mR" ;; lR <- dlook mp "lR" ;; TcR1 <- dlook mp "TcR1" ;;
  let par := dset par "IRyy" (ucompound_pendulum_inertia mR g lR TcR1) in
  pass_keyerror par
    (mD <- dlook mp "mD" ;; g <- dlook mp "g" ;; lF <- dlook mp "lF" ;; TcD1 <- dlook mp "TcD1" ;;
     IFyy <- dlook par "IFyy" ;;
     Ok (dset par "IDyy" (ucompound_pendulum_inertia mD g lF TcD1 - IFyy))).

(* main.py 1628-1651: y inertias of frame, fork, handlebar; hyp is (a^2+b^2)^0.5 *)
Definition uhyp (a b : unum) : res unum := usqrt (a ^ 2 + b ^ 2).
Definition ubm_frames_yy (mp par : dict unum) (split : bool) : res (dict unum) :=
  xB <- dlook par "xB" ;; zB <- dlook par "zB" ;; rR <- dlook par "rR" ;;
  mB <- dlook mp "mB" ;; g <- dlook mp "g" ;; TcB1 <- dlook mp "TcB1" ;;
  l <- uhyp xB (zB + rR) ;; let par := dset par "IByy" (ucompound_pendulum_inertia mB g l TcB1) in
  if split then
    xS <- dlook par "xS" ;; w <- dlook par "w" ;; zS <- dlook par "zS" ;; rF <- dlook par "rF" ;;
    mS <- dlook mp "mS" ;; TcS1 <- dlook mp "TcS1" ;;
    l <- uhyp (xS - w) (zS + rF) ;; let par := dset par "ISyy" (ucompound_pendulum_inertia mS g l TcS1) in
    h6 <- dlook mp "h6" ;; h7 <- dlook mp "h7" ;; d5 <- dlook mp "d5" ;; d6 <- dlook mp "d6" ;; l <- dlook mp "l" ;;
    l12 <- ucalculate_l1_l2 h6 h7 d5 d6 l ;;
    lam <- dlook par "lam" ;;
    u <- ufwheel_to_handlebar_ref lam (fst l12) (snd l12) ;;
    xG <- dlook par "xG" ;; zG <- dlook par "zG" ;; mG <- dlook mp "mG" ;; TcG1 <- dlook mp "TcG1" ;;
    l <- uhyp (xG - w + fst u) (zG + rF + snd u) ;; Ok (dset par "IGyy" (ucompound_pendulum_inertia mG g l TcG1))
  else
    hx <- dlook par "xH" ;; w <- dlook par "w" ;; hz <- dlook par "zH" ;; rF <- dlook par "rF" ;;
    mH <- dlook mp "mH" ;; TcH1 <- dlook mp "TcH1" ;;
    l <- uhyp (hx - w) (hz + rF) ;; Ok (dset par "IHyy" (ucompound_pendulum_inertia mH g l TcH1)).

(* main.py 1653-1656: stiffness of the torsional pendulum *)
Definition ubm_stiffness (mp : dict unum) : res unum :=
  lP <- dlook mp "lP" ;; mP <- dlook mp "mP" ;; dP <- dlook mp "dP" ;;
  match utube_inertia lP mP (dP // 2) 0 with
  | (_, IPyy, _) => TtP1 <- dlook mp "TtP1" ;; utorsional_pendulum_stiffness IPyy TtP1
  end.

(* main.py 1658-1664: wheel x inertias *)
Definition ubm_wheels_xx (mp par : dict unum) (k : unum) : res (dict unum) :=
  TtF1 <- dlook mp "TtF1" ;; let par := dset par "IFxx" (utor_inertia k TtF1) in
  TtR1 <- dlook mp "TtR1" ;; let par := dset par "IRxx" (utor_inertia k TtR1) in
  pass_keyerror par
    (TtD1 <- dlook mp "TtD1" ;; IFxx <- dlook par "IFxx" ;; Ok (dset par "IDxx" (utor_inertia k TtD1 - IFxx))).

(* main.py 1676-1679: the pendulum inertias of a part, one per orientation *)
Definition ubm_part_inertias (mp : dict unum) (k : unum) (part : string) (n : nat) : res (list unum) :=
  mapM (fun i => T <- dlook mp ("Tt" ++ part ++ nat_str (i + 1)) ;; Ok (utor_inertia k T)) (seq 0 n).
(* main.py 1666-1685: in plane moments of inertia of every part *)
Fixpoint ubm_in_plane (mp : dict unum) (k : unum) (slopes : list (string * list unum)) (betas : dict (list unum))
    (par : dict unum) (pend : dict (list unum)) : res (dict unum * dict (list unum)) :=
  match slopes with
  | [] => Ok (par, pend)
  | (part, sl) :: rest =>
      beta <- dlook betas part ;;
      pen <- ubm_part_inertias mp k part (length sl) ;;
      let pend := dset pend part pen in
      J <- uinertia_components pen beta ;;
      let par := dset par ("I" ++ part ++ "xx") (uvx J) in
      let par := dset par ("I" ++ part ++ "xz") (uvy J) in
      let par := dset par ("I" ++ part ++ "zz") (uvz J) in
      ubm_in_plane mp k rest betas par pend
  end.

(* main.py 1687-1706: fork and handlebar together *)
Definition ubm_split_inertia (par : dict unum) (split : bool) : res (dict unum) :=
  if split then
    IG <- upart_inertia_tensor par "G" ;; IS <- upart_inertia_tensor par "S" ;;
    xG <- dlook par "xG" ;; xS <- dlook par "xS" ;; zG <- dlook par "zG" ;; zS <- dlook par "zS" ;;
    mG <- dlook par "mG" ;; mS <- dlook par "mS" ;;
    tc <- utotal_com [[xG; xS]; [0; 0]; [zG; zS]] [mG; mS] ;;
    match tc with
    | (mH, [hx; _; hz]) =>
        let par := dset (dset (dset par "mH" mH) "xH" hx) "zH" hz in
        let dG := umk3 (xG - hx) 0 (zG - hz) in
        let dS := umk3 (xS - hx) 0 (zS - hz) in
        let IH := um3_add (uparallel_axis IG mG dG) (uparallel_axis IS mS dS) in
        Ok (dset (dset (dset (dset par "IHxx" (uvx (ur1 IH))) "IHxz" (uvz (ur1 IH))) "IHyy" (uvy (ur2 IH))) "IHzz" (uvz (ur3 IH)))
    | _ => Err (OtherError "unreachable: three rows in, three sums out")
    end
  else Ok par.

Record uextras := umkextras { uex_slopes : dict (list unum); uex_intercepts : dict (list unum);
                            uex_betas : dict (list unum); uex_pendulum : dict (list unum) }.
(* main.py 1551-1711 calculate_benchmark_from_measured; [newton] is the root
   finder of scipy *)
Definition ucalculate_benchmark_from_measured (sds : dict R) (newton : (R -> res R) -> R -> res R) (mp : dict unum) : res (dict unum * uextras) :=
  let split := is_fork_split mp in
  par <- ucalculate_benchmark_geometry sds newton mp [] ;;
  par <- ubm_masses mp par split ;;
  '(sl, ic, be) <- upart_com_lines mp par split ;;
  par <- ubm_centres sl ic par ;;
  par <- ubm_split_centre par split ;;
  par <- ubm_wheels_yy mp par ;;
  par <- ubm_frames_yy mp par split ;;
  k <- ubm_stiffness mp ;;
  par <- ubm_wheels_xx mp par k ;;
  '(par, pend) <- ubm_in_plane mp k sl be par [] ;;
  par <- ubm_split_inertia par split ;;
  Ok (par, umkextras sl ic be pend).

(* ------------------------------------------------------------------ *)
(* main.py 239-375 steer_assembly_moment_of_inertia (the Benchmark parameters as
   argument; printing left out; the try block around the four cases turns a
   KeyError into a ValueError) *)
Definition usteer_part (par : dict unum) (X : string) : res (umat3 * unum * unum * unum) :=
  I <- upart_inertia_tensor par X ;; m <- dlook par ("m" ++ X) ;; x <- dlook par ("x" ++ X) ;; z <- dlook par ("z" ++ X) ;;
  Ok (I, m, x, z).
Definition usteer_assembly (par : dict unum) (handlebar fork wheel about : bool) : res umat3 :=
  '(J, m, x, z) <-
     match (if fork && handlebar then usteer_part par "H"
            else if fork then usteer_part par "S"
            else if handlebar then usteer_part par "G"
            else Ok (um3_diag 0 0 0, 0, 0, 0)) with
     | Err (KeyError _) => Err (ValueError "The fork and handlebar were not measured separately for this bicycle.")
     | r => r
     end ;;
  '(mAss, cAss, iRot) <-
     (if wheel then
        mF <- dlook par "mF" ;; w <- dlook par "w" ;; rF <- dlook par "rF" ;;
        tc <- utotal_com [[x; w]; [0; 0]; [z; - rF]] [m; mF] ;;
        match tc with
        | (mA, [cx; cy; cz]) =>
            JF <- upart_inertia_tensor par "F" ;;
            let d := umk3 (x - cx) 0 (z - cz) in
            let dF := umk3 (w - cx) 0 (- rF - cz) in
            let iAss := um3_add (uparallel_axis J m d) (uparallel_axis JF mF dF) in
            lam <- dlook par "lam" ;;
            Ok (mA, umk3 cx cy cz, urotate_inertia_tensor iAss lam)
        | _ => Err (OtherError "unreachable: three rows in, three sums out")
        end
      else
        lam <- dlook par "lam" ;; Ok (m, umk3 x 0 z, urotate_inertia_tensor J lam)) ;;
  if about then
    w <- dlook par "w" ;; c <- dlook par "c" ;; lam <- dlook par "lam" ;;
    distance <- udistance_to_steer_axis w c lam cAss ;;
    Ok (uparallel_axis iRot mAss (umk3 distance 0 0))
  else Ok iRot.

(* main.py 1034-1099 canonical(nominal=False), 1101-1156 state_space(speed, nominal=False):
   the matrices of the parameters, with their deviations *)
Definition ubicycle_canonical (par : dict unum) : res ucanon := snd (ubenchmark_par_to_canonical par).
Definition ubicycle_state_space (par : dict unum) (speed : R) : res (list (list unum) * list (list unum)) :=
  c <- ubicycle_canonical par ;; g <- dlook par "g" ;;
  uab_matrix (ucM c) (ucC1 c) (ucK0 c) (ucK2 c) (ucst speed) g.
(* main.py 1091-1095, 1151-1152: nominal=True, unumpy.nominal_values of each array *)
Definition nominal2 (a : umat2) : mat2 := mk2 (nom (um11 a)) (nom (um12 a)) (nom (um21 a)) (nom (um22 a)).
Definition nominal_rows (a : list (list unum)) : list (list R) := map (map nom) a.
