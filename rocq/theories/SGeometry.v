(* SGeometry.v -- specification vocabulary for lines, distances and the steer axis *)
From Verif Require Import Base MString MBicycle MVec MInertia MGeometry SInertia.
From Coq Require Import Permutation.
Local Open Scope string_scope.
Local Open Scope R_scope.

(* point at parameter t on the line through a and b *)
Definition on_line (a b : vec3) (t : R) : vec3 := v3_add a (v3_scale t (v3_sub b a)).
Definition distance (a b : vec3) : R := sqrt (sqnorm (v3_sub a b)).
(* d is the minimum over the whole line of the distance to x *)
Definition is_distance_to_line (x a b : vec3) (d : R) : Prop :=
  (forall t, d <= distance x (on_line a b t)) /\ exists t, d = distance x (on_line a b t).

(* the steer axis of a bicycle with wheelbase w, trail c, tilt lam: all points
   (w + c - s sin lam, 0, - s cos lam) *)
Definition steer_axis_point (w c lam s : R) : vec3 := mk3 (w + c - s * sin lam) 0 (- s * cos lam).
(* signed distance ahead of the axis and height along it, for points (x, z) of the plane *)
Definition ahead (w c lam x z : R) : R := (x - w - c) * cos lam - z * sin lam.
Definition along (lam x z : R) : R := x * sin lam + z * cos lam.

(* planar lines z = s x + b and distances *)
Definition on2 (s b : R) (q : R * R) : Prop := snd q = s * fst q + b.
Definition sqdist2 (p q : R * R) : R := (fst p - fst q) ^ 2 + (snd p - snd q) ^ 2.

(* orthogonal projection of v on the plane normal to d *)
Definition is_projection (v d p : vec3) : Prop :=
  v3_dot p d = 0 /\ exists k, v3_sub v p = v3_scale k d.

(* all choices of one element per array, first array varying slowest *)
Fixpoint lex {A} (arrays : list (list A)) : list (list A) :=
  match arrays with [] => [[]] | a :: rest => flat_map (fun x => map (cons x) (lex rest)) a end.

(* all ordered pairs of different positions of a list *)
Fixpoint ordered_pairs {A} (l : list A) : list (A * A) :=
  match l with
  | [] => []
  | x :: l' => map (fun y => (x, y)) l' ++ map (fun y => (y, x)) l' ++ ordered_pairs l'
  end.
(* q is the common point of two lines (slope, intercept) *)
Definition meets (l1 l2 : R * R) (q : R * R) : Prop := on2 (fst l1) (snd l1) q /\ on2 (fst l2) (snd l2) q.
Definition mean (l : list R) : R := rsum l / INR (length l).

(* reference point (x, z) of a measured part: rear wheel centre for the frame, front
   wheel centre for the fork (with or without handlebar), the handlebar reference
   point l1 ahead of (perpendicular) and l2 along the steer axis for the handlebar *)
Definition reference_point (par_w par_rR par_rF lam : R) (part : string) (l1 l2 : R) : R * R :=
  if String.eqb part "B" then (0, - par_rR)
  else if String.eqb part "G" then
    (par_w + l1 * cos lam - l2 * sin lam, - par_rF - l1 * sin lam - l2 * cos lam)
  else (par_w, - par_rF).

(* the two lines of a pair have different slopes and q is their common point *)
Definition meet_at (pr : (R * R) * (R * R)) (q : R * R) : Prop :=
  fst (fst pr) <> fst (snd pr) /\ meets (fst pr) (snd pr) q.

(* what one alpha key contributes *)
Definition com_entry (mp par : dict R) (l1 l2 : R) (key : string) (e : string * (R * R * R)) : Prop :=
  exists alpha a, dlook mp key = Ok alpha /\ dlook mp ("a" ++ sdrop 5 key) = Ok a /\ schar 5 key = Ok (fst e) /\
    com_line alpha a par (fst e) l1 l2 = Ok (snd e).
Definition of_part (part : string) (es : list (string * (R * R * R))) : list (R * R * R) :=
  map snd (filter (fun e => String.eqb part (fst e)) es).

Definition dot2 (p q : R * R) : R := fst p * fst q + snd p * snd q.
(* A part hung on the pendulum and seen from the right side: [right] and [up] are the
   horizontal and vertical directions of that view written in the bicycle's x (forward)
   and z (down) axes.  The view is not mirrored, and the upward steer axis makes the
   angle alpha with [right], counted towards [up]. *)
Definition hanging_directions (lam alpha : R) (right up : R * R) : Prop :=
  dot2 right right = 1 /\ dot2 up up = 1 /\ dot2 right up = 0 /\
  fst right * - snd up - - snd right * fst up = 1 /\
  (- sin lam, - cos lam) = (cos alpha * fst right + sin alpha * fst up, cos alpha * snd right + sin alpha * snd up).
