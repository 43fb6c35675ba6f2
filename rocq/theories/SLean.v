(* SLean.v -- specification vocabulary for the generated equations of the rider lean model *)
From Verif Require Import Base MString MHeap MBicycle MVec MInertia MSets MModels MModels2 SModels SModels2 MLean MLean2.
From Coq Require Import ZArith.
Local Open Scope string_scope.
Local Open Scope R_scope.

(* every symbol the equations may read *)
Definition equation_symbols : list string := (motion_symbols ++ lean_parameters)%list.
(* N has the entries of M, each times its factor *)
Definition entries_times (k : string -> string -> R) (rs cs : list string) (M N : marr) : Prop :=
  shape (length rs) (length cs) M /\ shape (length rs) (length cs) N /\
  forall r c x, entry rs cs M r c x -> entry rs cs N r c (k r c * x).

(* ---- units ---- *)
(* how many new units make one old unit of mass, length, time *)
Record units := mkunits { u_mass : R; u_length : R; u_time : R }.
Definition positive_units (u : units) : Prop := 0 < u_mass u /\ 0 < u_length u /\ 0 < u_time u.
(* exponents of mass, length and time *)
Definition dimension (k : string) : Z * Z * Z :=
  if smem k ["q1"; "q2"; "d1"; "d2"; "d3"; "d4"; "l1"; "l2"; "l3"; "l4"; "l5"; "l6"; "rf"; "rr"] then (0, 1, 0)%Z        (* a length *)
  else if smem k ["mc"; "md"; "me"; "mf"; "mg"] then (1, 0, 0)%Z                                                       (* a mass *)
  else if smem k ["ic11"; "ic22"; "ic31"; "ic33"; "id11"; "id22"; "ie11"; "ie22"; "ie31"; "ie33"; "if11"; "if22"; "ig11"; "ig22"; "ig31"; "ig33"] then (1, 2, 0)%Z  (* a moment of inertia *)
  else if smem k ["T4"; "T6"; "T7"; "T9"; "k9"] then (1, 2, -2)%Z                                                      (* a torque, or a torque per angle *)
  else if smem k ["c9"] then (1, 2, -1)%Z                                                                              (* a torque per angular speed *)
  else if smem k ["g"] then (0, 1, -2)%Z                                                                               (* an acceleration *)
  else if smem k ["v"] then (0, 1, -1)%Z                                                                               (* a speed *)
  else if smem k ["u4"; "u6"; "u7"; "u9"] then (0, 0, -1)%Z                                                            (* an angular speed *)
  else (0, 0, 0)%Z.                                                                                                  (* an angle *)
Definition unit_of (u : units) (k : string) : R :=
  match dimension k with (m, l, t) => powerRZ (u_mass u) m * powerRZ (u_length u) l * powerRZ (u_time u) t end.
(* d' holds the parameters of d in the new units *)
Definition converted (u : units) (d d' : pdict) : Prop :=
  forall k x, In k rider_lean_parameters -> dget d k = Some (VNum x) -> dget d' k = Some (VNum (unit_of u k * x)).
(* the pitch angle does not depend on the unit of length *)
Definition same_shape_same_pitch (pitch : R -> R -> R -> R -> R -> R -> R -> res R) : Prop :=
  forall s a b rf rr d1 d2 d3, 0 < s -> pitch a b (s * rf) (s * rr) (s * d1) (s * d2) (s * d3) = pitch a b rf rr d1 d2 d3.

(* ---- mirror image in the vertical plane of the bicycle ---- *)
(* the states and torques a reflection reverses *)
Definition lateral : list string := ["q2"; "q3"; "q4"; "q7"; "q9"; "u4"; "u7"; "u9"; "T4"; "T7"; "T9"].
Definition mirror (k : string) : R := if smem k lateral then -1 else 1.
Definition mirrored_pitch (pitch : R -> R -> R -> R -> R -> R -> R -> res R) : Prop :=
  forall a b rf rr d1 d2 d3, pitch (- a) (- b) rf rr d1 d2 d3 = pitch a b rf rr d1 d2 d3.

(* ---- reversal of time ---- *)
(* the speeds, and the damping that would have to feed energy back *)
Definition reversed : list string := ["u4"; "u6"; "u7"; "u9"; "c9"; "v"].
Definition reversal (k : string) : R := if smem k reversed then -1 else 1.
Definition backwards (d d' : pdict) : Prop :=
  forall k x, In k rider_lean_parameters -> dget d k = Some (VNum x) -> dget d' k = Some (VNum (reversal k * x)).

(* V' has the rows of V, each times its factor *)
Definition rows_times (f : string -> R) (rs : list string) (V V' : list (list cplx)) : Prop :=
  forall i j, (i < length rs)%nat -> cent V' i j = cscale (f (nth i rs "")) (cent V i j).

(* ---- the matrices of a set ---- *)
(* s is a set of the rider lean model with the parameters d, ov are scalar keyword arguments *)
Definition rl_fit (s : pset) (ov : dict oval) (h : heap) (d : pdict) : Prop :=
  nth_error h (ps_ref s) = Some d /\ NoDup (dkeys ov) /\ all_scalar ov /\ complete (required CMooreRiderLean2012) d.
(* form_state_space_matrices of the rider lean model with the generated equations *)
Definition rl_matrices pitch mem s ov h : res (shaped (marr * marr)) := snd (form_state_space_matrices_rl pitch (lean_body pitch mem) s ov h).

