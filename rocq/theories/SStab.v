(* SStab.v -- stability of a riderless bicycle: what its motions do in the long run *)
From Verif Require Import Base MString MHeap MBicycle MVec MInertia MSets MModels MModels2 SBicycle SModels SModels2 MEig SEig.
Local Open Scope string_scope.
Local Open Scope R_scope.

(* w are all the eigenvalues of the 4x4 array A, each as often as it is a root:
   det(s I - A) is the product of the s - w_j *)
Definition cprod (l : list cplx) : cplx := fold_right cmul (1, 0) l.
Definition all_eigenvalues (A : marr) (w : list cplx) : Prop :=
  forall s : R, cprod (map (fun z : cplx => (s - fst z, - snd z)) w) = (det 4 (sI_minus s A), 0).
(* numpy.linalg.eig returns all the eigenvalues *)
Definition eig_complete (eig : marr -> res (list cplx * list (list cplx))) : Prop :=
  forall A w V, shape 4 4 A -> eig A = Ok (w, V) -> all_eigenvalues A w.

(* roll phi and steer del of a bicycle on which no torques act, from time 0 on *)
Definition coasts (k : bike) (v g : R) (phi phi1 del del1 : R -> R) : Prop :=
  exists phi2 del2, forall t, 0 <= t ->
    derivable_pt_lim phi t (phi1 t) /\ derivable_pt_lim phi1 t (phi2 t) /\ derivable_pt_lim del t (del1 t) /\ derivable_pt_lim del1 t (del2 t) /\
    newton_euler k v g (phi t) (phi1 t) (phi2 t) (del t) (del1 t) (del2 t) 0 0.
(* f exceeds every bound *)
Definition unbounded (f : R -> R) : Prop := forall b, exists t, 0 <= t /\ b < Rabs (f t).
(* the size of a state (roll, roll rate, steer, steer rate) *)
Definition size (phi phi1 del del1 : R) : R := Rabs phi + Rabs phi1 + Rabs del + Rabs del1.
(* every disturbance dies out at an exponential rate, and on the way never
   exceeds a fixed multiple of its size *)
Definition balances_itself (k : bike) (v g : R) : Prop :=
  exists C mu, 0 < mu /\ forall phi phi1 del del1, coasts k v g phi phi1 del del1 -> forall t, 0 <= t ->
    size (phi t) (phi1 t) (del t) (del1 t) <= C * size (phi 0) (phi1 0) (del 0) (del1 0) * exp (- mu * t).
(* however small the disturbance, some motion leaves every bound *)
Definition falls_over (k : bike) (v g : R) : Prop :=
  forall eps, 0 < eps -> exists phi phi1 del del1, coasts k v g phi phi1 del del1 /\
    size (phi 0) (phi1 0) (del 0) (del1 0) < eps /\ (unbounded phi \/ unbounded del).
