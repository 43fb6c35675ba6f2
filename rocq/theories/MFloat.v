(* MFloat.v -- calculations of bicycle.py and inertia.py again, in machine arithmetic: every
   operation rounds its result.  The rounding, the library's sine, cosine and square
   (CPython's x**2 calls the C pow) and numpy's product of 2 x 2 arrays (BLAS, which may fuse
   a multiplication and an addition) are a parameter.  Overflow to inf is not modelled; a
   division by zero is a failure as in Base.rdiv.  Operations are in the order in which
   Python evaluates them. *)
From Verif Require Import Base MVec MBicycle.
Local Open Scope string_scope.
Local Open Scope R_scope.

Record arith := mkarith {
  fl : R -> R;                    (* rounding of the result of + - * / *)
  fsin : R -> R; fcos : R -> R;   (* of the C library *)
  fsq : R -> R;                   (* x**2 *)
  fdot : R -> R -> R -> R -> R;   (* np.dot: [x1, x2] . [y1, y2] *)
  fpi : R                         (* numpy.pi *)
}.

Section Float.
Variable a : arith.
Definition fadd (x y : R) : R := fl a (x + y).
Definition fsub (x y : R) : R := fl a (x - y).
Definition fmul (x y : R) : R := fl a (x * y).
Definition fdivc (x y : R) : R := fl a (x / y). (* y is a literal *)
Definition fdiv (x y : R) : res R := if Req_EM_T y 0 then Err ZeroDivisionError else Ok (fl a (x / y)).

Declare Scope f_scope.
Delimit Scope f_scope with F.
(* their arguments are expressions on floats again *)
Local Arguments fadd (_ _)%F.
Local Arguments fsub (_ _)%F.
Local Arguments fmul (_ _)%F.
Local Arguments fdiv (_ _)%F.
Local Arguments fdivc (_ _)%F.
Local Arguments fsq _ _%F.
Local Arguments mk2 (_ _ _ _)%F.
Local Arguments mk3 (_ _ _)%F.
Local Arguments mkcanon1 (_ _ _ _ _ _ _)%F.
Notation "x + y" := (fadd x y) : f_scope.
Notation "x - y" := (fsub x y) : f_scope.
Notation "x * y" := (fmul x y) : f_scope.
Definition fneg (x : R) : R := (- x)%R.
Local Arguments fneg _%F.
Notation "- x" := (fneg x) : f_scope.
Notation "x ^ 2" := (fsq a x) (at level 30) : f_scope.
Notation "x '//' r" := (fdivc x r) (at level 40, left associativity) : f_scope.

Definition fm2_scale (k : R) (m : mat2) : mat2 := mk2 (fmul k (m11 m)) (fmul k (m12 m)) (fmul k (m21 m)) (fmul k (m22 m)).
Definition fm2_add (m n : mat2) : mat2 := mk2 (fadd (m11 m) (m11 n)) (fadd (m12 m) (m12 n)) (fadd (m21 m) (m21 n)) (fadd (m22 m) (m22 n)).
Definition fm2_dot (m n : mat2) : mat2 :=
  mk2 (fdot a (m11 m) (m12 m) (m11 n) (m21 n)) (fdot a (m11 m) (m12 m) (m12 n) (m22 n))
      (fdot a (m21 m) (m22 m) (m11 n) (m21 n)) (fdot a (m21 m) (m22 m) (m12 n) (m22 n)).

Local Open Scope f_scope.
Local Arguments fm2_scale _%F.
(* [bicycle.py:61-63] *)
Definition finv2 (M : mat2) : res mat2 :=
  k <- fdiv 1%R (m11 M * m22 M - m12 M * m21 M) ;;
  Ok (fm2_scale k (mk2 (m22 M) (- m12 M) (- m21 M) (m11 M))).

(* [bicycle.py:8-75] ab_matrix *)
Definition fab_matrix (M C1 K0 K2 : mat2) (v g : R) : res (marr * marr) :=
  invM <- finv2 M ;;
  let a11 := m2_zero in
  let a12 := m2_eye in
  let a21 := m2_neg (fm2_dot invM (fm2_add (fm2_scale g K0) (fm2_scale (v ^ 2) K2))) in
  let a22 := m2_neg (fm2_dot invM (fm2_scale v C1)) in
  Ok (vstack (hstack (m2_rows a11) (m2_rows a12)) (hstack (m2_rows a21) (m2_rows a22)),
      vstack (m2_rows m2_zero) (m2_rows invM)).

(* [bicycle.py:78-170] benchmark_par_to_canonical *)
(* lines 105-114 *)
Definition fcanon_phase1 (p : dict R) : res canon1 :=
  mR <- dlook p "mR" ;; mB <- dlook p "mB" ;; mH <- dlook p "mH" ;; mF <- dlook p "mF" ;;
  let mT := mR + mB + mH + mF in
  xB <- dlook p "xB" ;; xH <- dlook p "xH" ;; w <- dlook p "w" ;;
  xT <- fdiv (xB*mB + xH*mH + w*mF) mT ;;
  rR <- dlook p "rR" ;; zB <- dlook p "zB" ;; zH <- dlook p "zH" ;; rF <- dlook p "rF" ;;
  zT <- fdiv (- rR*mR + zB*mB + zH*mH - rF*mF) mT ;;
  IRxx <- dlook p "IRxx" ;; IBxx <- dlook p "IBxx" ;;
  IHxx <- dlook p "IHxx" ;; IFxx <- dlook p "IFxx" ;;
  let ITxx := IRxx + IBxx + IHxx + IFxx + mR * rR^2 + mB*zB^2 + mH*zH^2 + mF*rF^2 in
  IBxz <- dlook p "IBxz" ;; IHxz <- dlook p "IHxz" ;;
  let ITxz := IBxz + IHxz - mB*xB*zB - mH*xH*zH + mF*w*rF in
  Ok (mkcanon1 mT xT zT ITxx ITxz IRxx IFxx).

(* lines 117-170 *)
Definition fcanon_phase2 (p : dict R) (k : canon1) : res canon :=
  let mT := k_mT k in let xT := k_xT k in let zT := k_zT k in
  let ITxx := k_ITxx k in let ITxz := k_ITxz k in
  IRzz <- dlook p "IRzz" ;; IBzz <- dlook p "IBzz" ;; IHzz <- dlook p "IHzz" ;;
  IFzz <- dlook p "IFzz" ;;
  mB <- dlook p "mB" ;; xB <- dlook p "xB" ;; mH <- dlook p "mH" ;; xH <- dlook p "xH" ;;
  mF <- dlook p "mF" ;; w <- dlook p "w" ;;
  let ITzz := IRzz + IBzz + IHzz + IFzz + mB*xB^2 + mH*xH^2 + mF*w^2 in
  let mA := mH + mF in
  xA <- fdiv (xH*mH + w*mF) mA ;;
  zH <- dlook p "zH" ;; rF <- dlook p "rF" ;;
  zA <- fdiv (zH*mH - rF*mF) mA ;;
  IHxx <- dlook p "IHxx" ;; IFxx <- dlook p "IFxx" ;;
  let IAxx := IHxx + IFxx + mH*(zH - zA)^2 + mF*(rF + zA)^2 in
  IHxz <- dlook p "IHxz" ;;
  let IAxz := IHxz - mH*(xH - xA)*(zH - zA) + mF*(w - xA)*(rF + zA) in
  let IAzz := IHzz + IFzz + mH*(xH - xA)^2 + mF*(w - xA)^2 in
  c <- dlook p "c" ;; lam <- dlook p "lam" ;;
  let uA := (xA - w - c)*fcos a lam - zA*fsin a lam in
  let IAll := mA*uA^2 + IAxx*(fsin a lam)^2 + 2%R*IAxz*fsin a lam*fcos a lam + IAzz*(fcos a lam)^2 in
  let IAlx := - mA*uA*zA + IAxx*fsin a lam + IAxz*fcos a lam in
  let IAlz := mA*uA*xA + IAxz*fsin a lam + IAzz*fcos a lam in
  c_w <- fdiv c w ;;
  let mu := c_w*fcos a lam in
  IRyy <- dlook p "IRyy" ;; rR <- dlook p "rR" ;; SR <- fdiv IRyy rR ;;
  IFyy <- dlook p "IFyy" ;; SF <- fdiv IFyy rF ;;
  let ST := SR + SF in
  let SA := mA*uA + mu*mT*xT in
  let Mpp := ITxx in
  let Mpd := IAlx + mu*ITxz in
  let Mdp := Mpd in
  let Mdd := IAll + 2%R*mu*IAlz + mu^2*ITzz in
  let M := mk2 Mpp Mpd Mdp Mdd in
  let K0pp := mT*zT in
  let K0pd := - SA in
  let K0dp := K0pd in
  let K0dd := - SA*fsin a lam in
  let K0 := mk2 K0pp K0pd K0dp K0dd in
  let K2pp := 0%R in
  t1 <- fdiv (ST - mT*zT) w ;;
  let K2pd := t1*fcos a lam in
  let K2dp := 0%R in
  t2 <- fdiv (SA + SF*fsin a lam) w ;;
  let K2dd := t2*fcos a lam in
  let K2 := mk2 K2pp K2pd K2dp K2dd in
  let C1pp := 0%R in
  t3 <- fdiv ITxz w ;;
  let C1pd := mu*ST + SF*fcos a lam + t3*fcos a lam - mu*mT*zT in
  let C1dp := - (mu*ST + SF*fcos a lam) in
  t4 <- fdiv IAlz w ;;
  t5 <- fdiv ITzz w ;;
  let C1dd := t4*fcos a lam + mu*(SA + t5*fcos a lam) in
  let C1 := mk2 C1pp C1pd C1dp C1dd in
  Ok (mkcanon M C1 K0 K2).

Definition fbenchmark_par_to_canonical (p : dict R) : dict R * res canon :=
  match fcanon_phase1 p with
  | Err e => (p, Err e)
  | Ok k =>
      let p1 := dset p "IRzz" (k_IRxx k) in
      let p2 := dset p1 "IFzz" (k_IFxx k) in
      (p2, fcanon_phase2 p2 k)
  end.

(* [main.py:1145-1149] Bicycle.state_space on the stored parameters without their uncertainties *)
Definition fstate_space (p : dict R) (v : R) : res (marr * marr) :=
  c <- snd (fbenchmark_par_to_canonical p) ;; g <- dlook p "g" ;; fab_matrix (cM c) (cC1 c) (cK0 c) (cK2 c) v g.

(* [inertia.py:89] compound_pendulum_inertia *)
Definition fcompound_pendulum_inertia (m g l T : R) : R :=
  ((T // 2%R // fpi a) ^ 2 * m * g * l - m * l ^ 2)%F.
(* [inertia.py:143-149] parallel_axis *)
Definition fm3_add (x y : mat3) : mat3 :=
  let f p q := mk3 (vx p + vx q) (vy p + vy q) (vz p + vz q) in mk33 (f (r1 x) (r1 y)) (f (r2 x) (r2 y)) (f (r3 x) (r3 y)).
Definition fm3_scale (k : R) (x : mat3) : mat3 :=
  let f p := mk3 (k * vx p) (k * vy p) (k * vz p) in mk33 (f (r1 x)) (f (r2 x)) (f (r3 x)).
Definition fparallel_axis (Ic : mat3) (m : R) (d : vec3) : mat3 :=
  let x := vx d in let y := vy d in let z := vz d in
  let dMat := mk33 (mk3 (y ^ 2 + z ^ 2) (- x * y) (- x * z))
                   (mk3 (- x * y) (z ^ 2 + x ^ 2) (- y * z))
                   (mk3 (- x * z) (- y * z) (x ^ 2 + y ^ 2)) in
  fm3_add Ic (fm3_scale m dMat).
(* [inertia.py:245] tor_inertia *)
Definition ftor_inertia (k T : R) : R := (k * T ^ 2 // 4%R // ((fpi a) ^ 2))%F.
(* [inertia.py:264] torsional_pendulum_stiffness *)
Definition ftorsional_pendulum_stiffness (I T : R) : res R := fdiv (4%R * I * (fpi a) ^ 2) (T ^ 2).
(* [inertia.py:292-294] tube_inertia *)
Definition ftube_inertia (l m ro ri : R) : R * R * R :=
  let Ix := m // 2%R * (ro ^ 2 + ri ^ 2) in
  let Iy := m // 12%R * (3%R * ro ^ 2 + 3%R * ri ^ 2 + l ^ 2) in
  (Ix, Iy, Iy).
End Float.
