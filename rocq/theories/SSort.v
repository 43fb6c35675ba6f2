(* SSort.v -- specification vocabulary for eigenmode sorting *)
From Verif Require Import Base.
From Coq Require Import Permutation.

(* Euclidean distance of two complex numbers given as (re, im) *)
Definition edist (a b : R * R) : R := sqrt ((fst a - fst b)^2 + (snd a - snd b)^2).

(* k is the first index, among those satisfying P, of an element of [next]
   nearest to e *)
Definition nearest_among (P : nat -> Prop) (e : R * R) (next : list (R * R)) (k : nat) : Prop :=
  P k /\ exists x, nth_error next k = Some x /\
  forall j y, P j -> nth_error next j = Some y ->
    edist e x <= edist e y /\ ((j < k)%nat -> edist e x < edist e y).

(* the indices ks chosen for the elements of cur, in order, given the indices
   already taken: the nearest one, or if that is taken the nearest of the others *)
Inductive greedy (next : list (R * R)) : list (R * R) -> list nat -> list nat -> Prop :=
| greedy_nil taken : greedy next [] taken []
| greedy_free e cur taken k ks :
    nearest_among (fun _ => True) e next k -> ~ In k taken ->
    greedy next cur (taken ++ [k]) ks -> greedy next (e :: cur) taken (k :: ks)
| greedy_taken e cur taken k0 k ks :
    nearest_among (fun _ => True) e next k0 -> In k0 taken ->
    nearest_among (fun j => j <> k0) e next k ->
    greedy next cur (taken ++ [k]) ks -> greedy next (e :: cur) taken (k :: ks).

(* every row is an m-vector of eigenvalues with m eigenvector columns *)
Definition rect {V} (m : nat) (rows : list (list (R * R) * list V)) : Prop :=
  Forall (fun r => length (fst r) = m /\ length (snd r) = m) rows.

(* [out] is the row [inp] rearranged by the index list ks: entry j of out is the
   eigenvalue and the eigenvector column ks_j of inp *)
Definition rearranged {V} (ks : list nat) (inp out : list (R * R) * list V) : Prop :=
  Forall2 (fun k e => nth_error (fst inp) k = Some e) ks (fst out) /\
  Forall2 (fun k x => nth_error (snd inp) k = Some x) ks (snd out).

(* consecutive rows of the output relate by the greedy choice *)
Fixpoint chained {V} (prev : list (R * R)) (inp out : list (list (R * R) * list V)) : Prop :=
  match inp, out with
  | [], [] => True
  | i :: inp', o :: out' =>
      (exists ks, greedy (fst i) prev [] ks /\ rearranged ks i o) /\ chained (fst o) inp' out'
  | _, _ => False
  end.

(* the input eigenvalue curves are smooth at resolution eps: between consecutive
   speeds every eigenvalue moves by at most eps along a bijection, and the
   eigenvalues at the new speed are more than 2 eps apart *)
Fixpoint smooth {V} (eps : R) (m : nat) (prev : list (R * R)) (rows : list (list (R * R) * list V)) : Prop :=
  match rows with
  | [] => True
  | r :: rows' =>
      (exists nb, Permutation nb (seq 0 m) /\
         Forall2 (fun e k => exists x, nth_error (fst r) k = Some x /\ edist e x <= eps) prev nb) /\
      (forall j k x y, nth_error (fst r) j = Some x -> nth_error (fst r) k = Some y -> j <> k ->
         2 * eps < edist x y) /\
      smooth eps m (fst r) rows'
  end.

(* every column of the output moves by at most eps from row to row *)
Fixpoint tracks {V} (eps : R) (prev : list (R * R)) (out : list (list (R * R) * list V)) : Prop :=
  match out with
  | [] => True
  | o :: out' => Forall2 (fun a b => edist a b <= eps) prev (fst o) /\ tracks eps (fst o) out'
  end.

(* same eigenvalue/eigenvector pairs, possibly in another order *)
Definition same_pairs {V} (i o : list (R * R) * list V) : Prop :=
  Permutation (combine (fst i) (snd i)) (combine (fst o) (snd o)).
