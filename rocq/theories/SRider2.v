(* SRider2.v -- specification vocabulary for C54: the configured rider as a body of the bicycle *)
From Verif Require Import Base MString MVec MBicycle MRider SBicycle SInertia SRider.
Local Open Scope R_scope.

(* the direction of the bicycle frame in yeadon's axes: x is yeadon's -y, y its -x, z its -z *)
Definition in_yeadon (n : vec3) : vec3 := mk3 (- vy n) (- vx n) (- vz n).
(* central moment of inertia of the figure about a direction of the bicycle frame *)
Definition figure_moment (I : mat3) (n : vec3) : R := v3_dot (in_yeadon n) (m3_app I (in_yeadon n)).
(* a figure that is its own mirror image (yeadon's x axis points sideways) *)
Definition mirror_symmetric (c : vec3) (I : mat3) : Prop :=
  vx c = 0 /\ vy (r1 I) = 0 /\ vz (r1 I) = 0 /\ vx (r2 I) = 0 /\ vx (r3 I) = 0 /\ vz (r2 I) = vy (r3 I).
(* the seated figure as a rigid body of the rear frame *)
Definition figure_body (p : rider_par) (m : R) (c : vec3) (I : mat3) : body :=
  mkbody m (vx (on_bike p c)) (vz (on_bike p c)) (figure_moment I (mk3 1 0 0))
    ((figure_moment I (mk3 1 0 1) - figure_moment I (mk3 1 0 0) - figure_moment I (mk3 0 0 1)) / 2) (figure_moment I (mk3 0 0 1)) 0 false.

