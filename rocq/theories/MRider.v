(* MRider.v -- model of /repo/bicycleparameters/rider.py.  A yeadon.Human is
   its measurements and configuration (the segment geometry itself belongs to
   the yeadon package); scipy's fsolve is a parameter.  np.sqrt of a negative
   number (nan with a warning) is an error value. *)
From Verif Require Import Base MString MVec MInertia MIo.
Local Open Scope string_scope.
Local Open Scope R_scope.

(* a number after remove_uncertainties; lists cannot be used in the formulas *)
Definition num_of (v : mval) : res R := match v with MScalar (SFloat x) => Ok x | _ => Err TypeError end.
Definition look_num (d : dict mval) (k : string) : res R := v <- dlook d k ;; num_of v.
Definition npsqrt (x : R) : res R := if Rltb x 0 then Err (OtherError "nan") else Ok (sqrt x).

(* rider.py 36-38, 111-113 *)
Definition rot_mat : mat3 := mk33 (mk3 0 (-1) 0) (mk3 (-1) 0 0) (mk3 0 0 (-1)).

(* rider.py 57-61: bicycle origin to yeadon origin *)
Definition yeadon_origin (hbb lcs rR lsp lst lambdast : R) : res vec3 :=
  s <- npsqrt (lcs ^ 2 - (- hbb + rR) ^ 2) ;;
  Ok (mk3 (s + (- lsp - lst) * cos lambdast) 0 (- hbb + (- lsp - lst) * sin lambdast)).
(* rider.py 13-66 yeadon_vec_to_bicycle_vec *)
Definition yeadon_vec_to_bicycle_vec (vector : vec3) (measured benchmark : dict mval) : res vec3 :=
  m <- remove_uncertainties measured ;;
  b <- remove_uncertainties benchmark ;;
  hbb <- look_num m "hbb" ;; lcs <- look_num m "lcs" ;; rR <- look_num b "rR" ;;
  lsp <- look_num m "lsp" ;; lst <- look_num m "lst" ;; lamst <- look_num m "lamst" ;;
  o <- yeadon_origin hbb lcs rR lsp lst lamst ;;
  Ok (v3_add o (m3_app rot_mat vector)).

(* the lengths rider_on_bike reads, rider.py 203-238 *)
Record rider_par := mkrp {
  L_j3L : R; L_j5L : R; L_j6L : R; L_s4L : R; L_s4w : R; L_a2L : R; L_a4L : R; L_a5L : R; somersault : R;
  h_bb : R; l_cs : R; r_R : R; r_F : R; l_sp : R; l_st : R; lambda_st : R; w_hb : R; L_hbR : R; L_hbF : R; w_b : R }.
Record human := mkhuman { h_meas : dict R; h_CFG : dict R }.
Definition read_rider_par (h : human) (benchmark measured : dict mval) : res rider_par :=
  j3 <- dlook (h_meas h) "Lj3L" ;; j5 <- dlook (h_meas h) "Lj5L" ;; j6 <- dlook (h_meas h) "Lj6L" ;;
  s4 <- dlook (h_meas h) "Ls4L" ;; s4w <- dlook (h_meas h) "Ls4w" ;;
  a2 <- dlook (h_meas h) "La2L" ;; a4 <- dlook (h_meas h) "La4L" ;; a5 <- dlook (h_meas h) "La5L" ;;
  som <- dlook (h_CFG h) "somersault" ;;
  m <- remove_uncertainties measured ;; b <- remove_uncertainties benchmark ;;
  hbb <- look_num m "hbb" ;; lcs <- look_num m "lcs" ;; rR <- look_num b "rR" ;; rF <- look_num b "rF" ;;
  lsp <- look_num m "lsp" ;; lst <- look_num m "lst" ;; lamst <- look_num m "lamst" ;; whb <- look_num m "whb" ;;
  lhbR <- look_num m "LhbR" ;; lhbF <- look_num m "LhbF" ;; w <- look_num b "w" ;;
  Ok (mkrp j3 j5 j6 s4 s4w a2 a4 a5 som hbb lcs rR rF lsp lst lamst whb lhbR lhbF w).

(* rider.py 245-251: the unknowns *)
Record unknowns := mku {
  PJ1extension : R; J1J2flexion : R; CA1extension : R; CA1adduction : R; CA1rotation : R; A1A2extension : R;
  alpha_y : R; alpha_z : R; beta_y : R; beta_z : R }.
(* rider.py 240-316: the ten residuals *)
Definition residual (p : rider_par) (u : unknowns) : res (list R) :=
  let phi_J1 := PJ1extension u in let phi_J2 := J1J2flexion u in
  let phi_A1 := CA1extension u in let theta_A1 := CA1adduction u in let psi_A := CA1rotation u in let phi_A2 := A1A2extension u in
  let phi_P := somersault p in
  s2 <- npsqrt (alpha_y u ^ 2 + alpha_z u ^ 2 + 25/100 * w_hb p ^ 2) ;;
  s3 <- npsqrt (beta_y u ^ 2 + beta_z u ^ 2 + 25/100 * w_hb p ^ 2) ;;
  s7 <- npsqrt (l_cs p ^ 2 - (- h_bb p + r_R p) ^ 2) ;;
  Ok [
    L_j3L p * (- sin phi_J1 * cos phi_P - sin phi_P * cos phi_J1) + (- l_sp p - l_st p) * cos (lambda_st p)
    + (- (- sin phi_J1 * sin phi_P + cos phi_J1 * cos phi_P) * sin phi_J2
       + (- sin phi_J1 * cos phi_P - sin phi_P * cos phi_J1) * cos phi_J2) * (- L_j3L p + L_j5L p + L_j6L p);
    L_j3L p * (- sin phi_J1 * sin phi_P + cos phi_J1 * cos phi_P) + (- l_sp p - l_st p) * sin (lambda_st p)
    + ((- sin phi_J1 * sin phi_P + cos phi_J1 * cos phi_P) * cos phi_J2
       - (sin phi_J1 * cos phi_P + sin phi_P * cos phi_J1) * sin phi_J2) * (- L_j3L p + L_j5L p + L_j6L p);
    - L_hbF p + s2;
    - L_hbR p + s3;
    alpha_y u - beta_y u - w_b p;
    alpha_z u - beta_z u + r_F p - r_R p;
    - L_a2L p * sin theta_A1 + L_s4w p / 2 - 5/10 * w_hb p
    + (sin phi_A2 * sin psi_A * cos theta_A1 + sin theta_A1 * cos phi_A2) * (L_a2L p - L_a4L p - L_a5L p);
    - L_a2L p * (- sin phi_A1 * cos phi_P * cos theta_A1 - sin phi_P * cos phi_A1 * cos theta_A1) - L_s4L p * sin phi_P
    - beta_y u - s7 - (- l_sp p - l_st p) * cos (lambda_st p)
    + (- (- (sin phi_A1 * cos psi_A + sin psi_A * sin theta_A1 * cos phi_A1) * sin phi_P
          + (- sin phi_A1 * sin psi_A * sin theta_A1 + cos phi_A1 * cos psi_A) * cos phi_P) * sin phi_A2
       + (- sin phi_A1 * cos phi_P * cos theta_A1 - sin phi_P * cos phi_A1 * cos theta_A1) * cos phi_A2)
      * (L_a2L p - L_a4L p - L_a5L p);
    - L_a2L p * (- sin phi_A1 * sin phi_P * cos theta_A1 + cos phi_A1 * cos phi_P * cos theta_A1) + L_s4L p * cos phi_P
    - beta_z u + h_bb p - r_R p - (- l_sp p - l_st p) * sin (lambda_st p)
    + (- ((sin phi_A1 * cos psi_A + sin psi_A * sin theta_A1 * cos phi_A1) * cos phi_P
          + (- sin phi_A1 * sin psi_A * sin theta_A1 + cos phi_A1 * cos psi_A) * sin phi_P) * sin phi_A2
       + (- sin phi_A1 * sin phi_P * cos theta_A1 + cos phi_A1 * cos phi_P * cos theta_A1) * cos phi_A2)
      * (L_a2L p - L_a4L p - L_a5L p);
    (sin phi_A1 * sin psi_A - sin theta_A1 * cos phi_A1 * cos psi_A) * cos phi_P
    + (sin phi_A1 * sin theta_A1 * cos psi_A + sin psi_A * cos phi_A1) * sin phi_P ].

Definition deg2rad (x : R) : R := x * (PI / 180).
(* rider.py 318-331: the starting point *)
Definition guess (p : rider_par) : unknowns :=
  mku (- deg2rad 90) (deg2rad 75) (- deg2rad 15) (deg2rad 2) (deg2rad 2) (- deg2rad 40)
      (L_hbF p * cos (deg2rad 45)) (L_hbF p * sin (deg2rad 45)) (- L_hbR p * cos (deg2rad 30)) (L_hbR p * sin (deg2rad 30)).
(* rider.py 335-348: the configuration *)
Definition rider_cfg (cfg : dict R) (som : R) (u : unknowns) : dict R :=
  let d := dset cfg "PJ1extension" (PJ1extension u) in
  let d := dset d "J1J2flexion" (J1J2flexion u) in
  let d := dset d "CA1extension" (CA1extension u) in
  let d := dset d "CA1adduction" (CA1adduction u) in
  let d := dset d "CA1rotation" (CA1rotation u) in
  let d := dset d "A1A2extension" (A1A2extension u) in
  let d := dset d "somersault" som in
  let d := dset d "PK1extension" (PJ1extension u) in
  let d := dset d "K1K2flexion" (J1J2flexion u) in
  let d := dset d "CB1extension" (CA1extension u) in
  let d := dset d "CB1abduction" (- CA1adduction u) in
  let d := dset d "CB1rotation" (- CA1rotation u) in
  dset d "B1B2extension" (A1A2extension u).
(* rider.py 149-362 rider_on_bike.  [fsolve f guess] is scipy's solver: it
   returns a vector which need not be a root; an exception of f reaches the
   caller. *)
Definition rider_on_bike (fsolve : (unknowns -> res (list R)) -> unknowns -> res unknowns) (benchmark measured : dict mval) (h : human) : res human :=
  p <- read_rider_par h benchmark measured ;;
  u <- fsolve (residual p) (guess p) ;;
  Ok (mkhuman (h_meas h) (rider_cfg (h_CFG h) (somersault p) u)).

(* rider.py 69-146 configure_rider: [mass], [com] and [inertia] are the yeadon
   package's results for a configured human, the inertia about the mass centre;
   inertia_transformed(rotmat) is R I R^T *)
Section Configure.
  Variable mass : human -> R.
  Variable com : human -> vec3.
  Variable inertia : human -> mat3.
  Variable fsolve : (unknowns -> res (list R)) -> unknowns -> res unknowns.
  Definition inertia_transformed (rot : mat3) (J : mat3) : mat3 := m3_dot (m3_dot rot J) (m3_T rot).
  Definition rider_parameters (h : human) (bicyclePar measuredPar : dict mval) : res (dict R * human) :=
    h' <- rider_on_bike fsolve bicyclePar measuredPar h ;;
    c <- yeadon_vec_to_bicycle_vec (com h') measuredPar bicyclePar ;;
    let J := inertia_transformed rot_mat (inertia h') in
    Ok ([("IBxx", vx (r1 J)); ("IByy", vy (r2 J)); ("IBzz", vz (r3 J)); ("IBxz", vx (r3 J)); ("mB", mass h');
         ("xB", vx c); ("yB", vy c); ("zB", vz c)], h').
End Configure.
