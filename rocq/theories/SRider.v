(* SRider.v -- specification vocabulary for C51 and C54: where points of the
   rider and of the bicycle are.  Bicycle frame: origin at the rear wheel's
   contact point, x forward, y right, z down.  Yeadon frame: origin between the
   hips, x left, y backward, z up. *)
From Verif Require Import Base MVec MIo MRider.
Local Open Scope string_scope.
Local Open Scope R_scope.

(* the dictionary holds the number x under k, with or without uncertainty *)
Definition holds (d : dict mval) (k : string) (x : R) : Prop :=
  dget d k = Some (MScalar (SFloat x)) \/ exists s, dget d k = Some (MScalar (SUfloat x s)).
(* every value is a number *)
Definition numbers (d : dict mval) : Prop := forall k v, In (k, v) d -> exists s, v = MScalar s.
Definition dist3 (a b : vec3) : R := sqrt ((vx a - vx b) ^ 2 + (vy a - vy b) ^ 2 + (vz a - vz b) ^ 2).
(* signed volume spanned by three vectors *)
Definition volume (a b c : vec3) : R :=
  vx a * (vy b * vz c - vz b * vy c) - vy a * (vx b * vz c - vz b * vx c) + vz a * (vx b * vy c - vy b * vx c).

(* right-handed rotations about the axes *)
Definition turn_x (a : R) (v : vec3) : vec3 := mk3 (vx v) (cos a * vy v - sin a * vz v) (sin a * vy v + cos a * vz v).
Definition turn_y (a : R) (v : vec3) : vec3 := mk3 (cos a * vx v + sin a * vz v) (vy v) (- sin a * vx v + cos a * vz v).
Definition turn_z (a : R) (v : vec3) : vec3 := mk3 (cos a * vx v - sin a * vy v) (sin a * vx v + cos a * vy v) (vz v).
Definition down (l : R) : vec3 := mk3 0 0 (- l).

(* Yeadon's figure.  Leg: hip, knee at L_j3L, point of the foot at
   L_j5L + L_j6L along the straight leg; hip extension and knee flexion about x,
   the pelvis turned by the somersault angle.  [side] is the hip's position. *)
Definition foot (p : rider_par) (side hip knee : R) : vec3 :=
  v3_add (mk3 side 0 0) (turn_x (somersault p) (turn_x hip (v3_add (down (L_j3L p)) (turn_x knee (down (L_j5L p + L_j6L p - L_j3L p)))))).
(* Arm: shoulder at the given side, height L_s4L; extension, adduction and
   rotation of the upper arm about its own x, y and z; elbow at L_a2L, hand at
   L_a4L + L_a5L along the straight arm. *)
Definition upper_arm (p : rider_par) (ext add rot : R) (v : vec3) : vec3 := turn_x (somersault p) (turn_x ext (turn_y add (turn_z rot v))).
Definition hand (p : rider_par) (side ext add rot elbow : R) : vec3 :=
  v3_add (turn_x (somersault p) (mk3 side 0 (L_s4L p)))
         (upper_arm p ext add rot (v3_add (down (L_a2L p)) (turn_x elbow (down (L_a4L p + L_a5L p - L_a2L p))))).

(* points of the bicycle *)
Definition bottom_bracket (p : rider_par) : vec3 := mk3 (sqrt (l_cs p ^ 2 - (r_R p - h_bb p) ^ 2)) 0 (- h_bb p).
Definition rear_hub (p : rider_par) : vec3 := mk3 0 0 (- r_R p).
Definition front_hub (p : rider_par) : vec3 := mk3 (w_b p) 0 (- r_F p).
(* the rider's hips: up the seat tube and post from the bottom bracket *)
Definition hips (p : rider_par) : vec3 :=
  mk3 (vx (bottom_bracket p) - (l_sp p + l_st p) * cos (lambda_st p)) 0 (vz (bottom_bracket p) - (l_sp p + l_st p) * sin (lambda_st p)).
(* the Yeadon frame's axes seen from the bicycle *)
Definition on_bike (p : rider_par) (v : vec3) : vec3 := mk3 (vx (hips p) - vy v) (vy (hips p) - vx v) (vz (hips p) - vz v).
(* the chain stay is long enough for the bottom bracket's height *)
Definition chain_stay_ok (p : rider_par) : Prop := (r_R p - h_bb p) ^ 2 <= l_cs p ^ 2.

(* the lengths of the figure and the bicycle agree with the dictionaries *)
Definition bike_lengths (p : rider_par) (measured benchmark : dict mval) : Prop :=
  holds measured "hbb" (h_bb p) /\ holds measured "lcs" (l_cs p) /\ holds benchmark "rR" (r_R p) /\
  holds measured "lsp" (l_sp p) /\ holds measured "lst" (l_st p) /\ holds measured "lamst" (lambda_st p).
Definition grip_lengths (p : rider_par) (measured benchmark : dict mval) : Prop :=
  holds benchmark "rF" (r_F p) /\ holds measured "whb" (w_hb p) /\ holds measured "LhbR" (L_hbR p) /\ holds measured "LhbF" (L_hbF p) /\ holds benchmark "w" (w_b p).
Definition body_lengths (p : rider_par) (h : human) : Prop :=
  dget (h_meas h) "Lj3L" = Some (L_j3L p) /\ dget (h_meas h) "Lj5L" = Some (L_j5L p) /\ dget (h_meas h) "Lj6L" = Some (L_j6L p) /\
  dget (h_meas h) "Ls4L" = Some (L_s4L p) /\ dget (h_meas h) "Ls4w" = Some (L_s4w p) /\ dget (h_meas h) "La2L" = Some (L_a2L p) /\
  dget (h_meas h) "La4L" = Some (L_a4L p) /\ dget (h_meas h) "La5L" = Some (L_a5L p) /\ dget (h_CFG h) "somersault" = Some (somersault p).

(* the posture: both feet over the bottom bracket's axis, both hands at the
   grips, a hand's hinge (elbow) axis horizontal.  The angles are read from the
   configuration. *)
Definition seated (p : rider_par) (cfg : dict R) : Prop :=
  exists jh jk kh kk ax ay az ae bx b_y bz be,
    dget cfg "PJ1extension" = Some jh /\ dget cfg "J1J2flexion" = Some jk /\ dget cfg "PK1extension" = Some kh /\ dget cfg "K1K2flexion" = Some kk /\
    dget cfg "CA1extension" = Some ax /\ dget cfg "CA1adduction" = Some ay /\ dget cfg "CA1rotation" = Some az /\ dget cfg "A1A2extension" = Some ae /\
    dget cfg "CB1extension" = Some bx /\ dget cfg "CB1abduction" = Some b_y /\ dget cfg "CB1rotation" = Some bz /\ dget cfg "B1B2extension" = Some be /\
    (forall side, on_bike p (foot p side jh jk) = mk3 (vx (bottom_bracket p)) (- side) (vz (bottom_bracket p))) /\
    (forall side, on_bike p (foot p side kh kk) = mk3 (vx (bottom_bracket p)) (- side) (vz (bottom_bracket p))) /\
    (let left := on_bike p (hand p (L_s4w p / 2) ax ay az ae) in
     let right := on_bike p (hand p (- (L_s4w p / 2)) bx b_y bz be) in
     vy left = - (w_hb p / 2) /\ vy right = w_hb p / 2 /\ vx right = vx left /\ vz right = vz left /\
     dist3 left (rear_hub p) = L_hbR p /\ dist3 left (front_hub p) = L_hbF p /\
     dist3 right (rear_hub p) = L_hbR p /\ dist3 right (front_hub p) = L_hbF p) /\
    vz (upper_arm p ax ay az (mk3 1 0 0)) = 0 /\ vz (upper_arm p bx b_y bz (mk3 1 0 0)) = 0.
