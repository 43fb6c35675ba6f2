(* SUnc.v -- specification vocabulary for C76: first-order propagation of standard deviations *)
From Verif Require Import Base MVec MBicycle MInertia MEig MUnc SBicycle.   (* the M files: only the types *)
Local Open Scope string_scope.
Local Open Scope R_scope.

(* measurements: name, value and standard deviation; independent of each other *)
Definition values (m : dict (R * R)) : dict R := map (fun kv => (fst kv, fst (snd kv))) m.
Definition deviations (m : dict (R * R)) : dict R := map (fun kv => (fst kv, snd (snd kv))) m.
(* the values, that of k changed by h *)
Definition changed (m : dict (R * R)) (k : string) (h : R) : dict R :=
  map (fun kv => (fst kv, if String.eqb (fst kv) k then fst (snd kv) + h else fst (snd kv))) m.
(* d is the derivative of the quantity f with respect to the measurement k; f can be
   calculated for all small changes of it *)
Definition sensitivity (f : dict R -> res R) (m : dict (R * R)) (k : string) (d : R) : Prop :=
  exists F : R -> R, (exists eps, 0 < eps /\ forall h, Rabs h < eps -> f (changed m k h) = Ok (F h)) /\ derivable_pt_lim F 0 d.
(* x with standard deviation s is the quantity f of the measurements, to first order *)
Definition propagated (f : dict R -> res R) (m : dict (R * R)) (x s : R) : Prop :=
  f (values m) = Ok x
  /\ exists d : string -> R, (forall k, In k (map fst m) -> sensitivity f m k (d k))
       /\ s = sqrt (rsum (map (fun kv => (d (fst kv) * snd (snd kv)) ^ 2) m)).
(* the same for a quantity that also depends on a number t of value t0 and standard
   deviation st, independent of the measurements: dt is the change of the quantity when t
   changes by its standard deviation, to first order *)
Definition propagated_with (f : R -> dict R -> res R) (m : dict (R * R)) (t0 st x s : R) : Prop :=
  f t0 (values m) = Ok x
  /\ exists (d : string -> R) (dt : R), (forall k, In k (map fst m) -> sensitivity (f t0) m k (d k))
       /\ (exists F, (exists eps, 0 < eps /\ forall h, Rabs h < eps -> f (t0 + st * h) (values m) = Ok (F h)) /\ derivable_pt_lim F 0 dt)
       /\ s = sqrt (rsum (map (fun kv => (d (fst kv) * snd (snd kv)) ^ 2) m) + dt ^ 2).

(* the tilt of the steer axis of a bicycle with wheels of equal size, from the frame's measurements *)
Definition frame_a (m : dict R) : R := pv m "h1" + pv m "h2" - pv m "h3" + pv m "d1" / 2 - pv m "d2" / 2.
Definition frame_b (m : dict R) : R := pv m "h4" - pv m "d3" / 2 - pv m "h5" + pv m "d4" / 2.
Definition frame_c (m : dict R) : R := sqrt ((pv m "d" + (pv m "d2" + pv m "d3") / 2) ^ 2 - (frame_a m - frame_b m) ^ 2).
Definition equal_wheel_tilt (m : dict R) : R := atan (frame_c m / (frame_a m + frame_b m)).

(* the entries of a 2x2 and of a 3x3 matrix, with numbers and with uncertain numbers, side by side *)
Definition entries2 : list ((mat2 -> R) * (umat2 -> unum)) := [(m11, um11); (m12, um12); (m21, um21); (m22, um22)].
Definition matrices4 : list ((canon -> mat2) * (ucanon -> umat2)) := [(cM, ucM); (cC1, ucC1); (cK0, ucK0); (cK2, ucK2)].
Definition rows3 : list ((mat3 -> vec3) * (umat3 -> uvec3)) := [(r1, ur1); (r2, ur2); (r3, ur3)].
Definition columns3 : list ((vec3 -> R) * (uvec3 -> unum)) := [(vx, uvx); (vy, uvy); (vz, uvz)].
(* an entry of a matrix *)
Definition entry {A} (M : list (list A)) (i j : nat) : res A :=
  match nth_error M i with Some row => match nth_error row j with Some x => Ok x | None => Err IndexError end | None => Err IndexError end.
(* the first or the second of two matrices *)
Definition A_or_B {X} (which : bool) (ab : X * X) : X := if which then fst ab else snd ab.
(* the parameters of a Bicycle *)
Definition bench (p : dict R) : par_sets := [("Benchmark", p)].
(* the nominal values *)
Definition nominal_par (p : dict unum) : dict R := map (fun kv => (fst kv, nom (snd kv))) p.
Definition nominal3 (J : umat3) : mat3 :=
  mk33 (mk3 (nom (uvx (ur1 J))) (nom (uvy (ur1 J))) (nom (uvz (ur1 J))))
       (mk3 (nom (uvx (ur2 J))) (nom (uvy (ur2 J))) (nom (uvz (ur2 J))))
       (mk3 (nom (uvx (ur3 J))) (nom (uvy (ur3 J))) (nom (uvz (ur3 J)))).

(* where a deviation is not defined: the handlebar's two reference points in line with the
   steer axis' normal (the arcsine of 1), or a part hung at its own mass centre (the root of 0) *)
Definition bar_in_line (m : dict R) : Prop :=
  Rabs ((pv m "h7" - pv m "h6" + pv m "d5" / 2 - pv m "d6" / 2) / (pv m "l" - pv m "d5" / 2 - pv m "d6" / 2)) = 1.
(* the handlebar's reference point, ahead of and above the front wheel centre *)
Definition bar_point (m : dict R) (lam : R) : R * R :=
  let l1 := pv m "h7" - pv m "h6" + pv m "d5" / 2 - pv m "d6" / 2 in
  let l0 := pv m "l" - pv m "d5" / 2 - pv m "d6" / 2 in
  let l2 := l0 * cos (asin (l1 / l0)) in
  (l2 * sin lam - l1 * cos lam, l2 * cos lam + l1 * sin lam).
Definition hung_at_centre (split : bool) (m par : dict R) : Prop :=
  (pv par "xB" = 0 /\ pv par "zB" = - pv par "rR")
  \/ (split = false /\ pv par "xH" = pv par "w" /\ pv par "zH" = - pv par "rF")
  \/ (split = true /\ pv par "xS" = pv par "w" /\ pv par "zS" = - pv par "rF")
  \/ (split = true /\ pv par "xG" = pv par "w" - fst (bar_point m (pv par "lam")) /\ pv par "zG" = - pv par "rF" - snd (bar_point m (pv par "lam"))).

(* a rider's parameters are plain numbers; a bicycle with or without a rider *)
Definition exact (r : dict R) : dict unum := map (fun kv => (fst kv, ucst (snd kv))) r.
Definition urider (par : dict unum) (rider : option (dict R)) : res (dict unum) := match rider with None => Ok par | Some r => ucombine_bike_rider par (exact r) end.
Definition with_rider (par : dict R) (rider : option (dict R)) : res (dict R) := match rider with None => Ok par | Some r => combine_bike_rider par r end.
(* the matrices' nominal values *)
Definition nominal_canon (c : ucanon) : canon := mkcanon (nominal2 (ucM c)) (nominal2 (ucC1 c)) (nominal2 (ucK0 c)) (nominal2 (ucK2 c)).
