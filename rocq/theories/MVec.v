(* MVec.v -- numpy shape (3,), (3,3) arrays as records (helpers for the models) *)
From Verif Require Import Base.

Record vec3 := mk3 { vx : R; vy : R; vz : R }.
Definition v3_sub (a b : vec3) := mk3 (vx a - vx b) (vy a - vy b) (vz a - vz b).
Definition v3_add (a b : vec3) := mk3 (vx a + vx b) (vy a + vy b) (vz a + vz b).
Definition v3_scale (k : R) (a : vec3) := mk3 (k * vx a) (k * vy a) (k * vz a).
Definition v3_dot (a b : vec3) : R := vx a * vx b + vy a * vy b + vz a * vz b.
(* np.cross *)
Definition v3_cross (a b : vec3) : vec3 :=
  mk3 (vy a * vz b - vz a * vy b) (vz a * vx b - vx a * vz b) (vx a * vy b - vy a * vx b).

(* row-major 3x3 array *)
Record mat3 := mk33 { r1 : vec3; r2 : vec3; r3 : vec3 }.
Definition m3_add (a b : mat3) := mk33 (v3_add (r1 a) (r1 b)) (v3_add (r2 a) (r2 b)) (v3_add (r3 a) (r3 b)).
Definition m3_scale (k : R) (a : mat3) := mk33 (v3_scale k (r1 a)) (v3_scale k (r2 a)) (v3_scale k (r3 a)).
Definition m3_T (a : mat3) : mat3 :=
  mk33 (mk3 (vx (r1 a)) (vx (r2 a)) (vx (r3 a)))
       (mk3 (vy (r1 a)) (vy (r2 a)) (vy (r3 a)))
       (mk3 (vz (r1 a)) (vz (r2 a)) (vz (r3 a))).
Definition m3_app (a : mat3) (v : vec3) : vec3 :=
  mk3 (v3_dot (r1 a) v) (v3_dot (r2 a) v) (v3_dot (r3 a) v).
(* np.dot / @ on (3,3) arrays *)
Definition m3_dot (a b : mat3) : mat3 :=
  let bt := m3_T b in
  let row v := mk3 (v3_dot v (r1 bt)) (v3_dot v (r2 bt)) (v3_dot v (r3 bt)) in
  mk33 (row (r1 a)) (row (r2 a)) (row (r3 a)).
Definition m3_diag (a b c : R) : mat3 := mk33 (mk3 a 0 0) (mk3 0 b 0) (mk3 0 0 c).
