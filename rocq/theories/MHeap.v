(* MHeap.v -- Python dictionaries as mutable objects shared by reference.  Like
   Base.v this fixes the meaning of Python constructs and models no particular line:
   a reference is a position in the heap, dict.copy() allocates, d[k] = v and
   functions that assign to their argument change the object itself. *)
From Verif Require Import Base.
Local Open Scope R_scope.

(* values held by a parameter dictionary: floats, arrays of floats, anything else
   (shown as its str()) *)
Inductive pyval := VNum (x : R) | VArr (l : list R) | VObj (s : string).
Notation pdict := (dict pyval).
Notation heap := (list pdict).

(* computation on the heap that can raise *)
Definition H (A : Type) := heap -> heap * res A.
Definition hret {A} (a : A) : H A := fun h => (h, Ok a).
Definition lift {A} (x : res A) : H A := fun h => (h, x).
Definition hbind {A B} (m : H A) (f : A -> H B) : H B :=
  fun h => match m h with (h', Ok a) => f a h' | (h', Err e) => (h', Err e) end.
Notation "x <-- e1 ;;; e2" := (hbind e1 (fun x => e2)) (at level 61, e1 at next level, right associativity).

Definition hload (r : nat) : H pdict := fun h =>
  match nth_error h r with Some d => (h, Ok d) | None => (h, Err (OtherError "dangling reference")) end.
Definition hnew (d : pdict) : H nat := fun h => ((h ++ [d])%list, Ok (length h)).
Definition hstore (r : nat) (d : pdict) : H unit := fun h => (upd h r d, Ok tt).
(* d.copy() *)
Definition hcopy (r : nat) : H nat := d <-- hload r ;;; hnew d.
(* d[k] = v *)
Definition hset (r : nat) (k : string) (v : pyval) : H unit := d <-- hload r ;;; hstore r (dset d k v).
Fixpoint hiter {A} (f : A -> H unit) (l : list A) : H unit :=
  match l with [] => hret tt | x :: l' => _ <-- f x ;;; hiter f l' end.
Fixpoint hmapM {A B} (f : A -> H B) (l : list A) : H (list B) :=
  match l with [] => hret [] | x :: l' => y <-- f x ;;; ys <-- hmapM f l' ;;; hret (y :: ys) end.

(* the float-valued entries of a dictionary, as read by numeric code *)
Fixpoint floats (d : pdict) : dict R :=
  match d with
  | [] => []
  | (k, VNum x) :: d' => (k, x) :: floats d'
  | (k, _) :: d' => filter (fun e => negb (String.eqb (fst e) k)) (floats d')
  end.
Definition nums (d : dict R) : pdict := map (fun e => (fst e, VNum (snd e))) d.
