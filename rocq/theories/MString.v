(* MString.v -- meaning of the Python str operations used in /repo.  Strings are
   sequences of 8-bit characters (ASCII text); like Base.v this models no
   particular line. *)
From Verif Require Import Base.
Local Open Scope string_scope.

(* str.startswith, s[5:], s[5], list.sort on strings *)
Fixpoint starts_with (pre s : string) : bool :=
  match pre, s with
  | "", _ => true
  | String c pre', String d s' => Ascii.eqb c d && starts_with pre' s'
  | String _ _, "" => false
  end.
Fixpoint sdrop (n : nat) (s : string) : string :=
  match n, s with O, _ => s | _, "" => "" | S n', String _ s' => sdrop n' s' end.
Definition schar (n : nat) (s : string) : res string :=
  match sdrop n s with "" => Err IndexError | String c _ => Ok (String c "") end.
Fixpoint sinsert (x : string) (l : list string) : list string :=
  match l with
  | [] => [x]
  | y :: l' => if String.ltb y x then y :: sinsert x l' else x :: l
  end.
Definition ssort (l : list string) : list string := fold_right sinsert [] l.

(* s.split(sep)[0] for a non-empty sep *)
Fixpoint split_first (sep s : string) : string :=
  if starts_with sep s then "" else match s with "" => "" | String c s' => String c (split_first sep s') end.
(* l.index(k) *)
Fixpoint find_index (k : string) (l : list string) : option nat :=
  match l with
  | [] => None
  | x :: l' => if String.eqb k x then Some O else match find_index k l' with Some i => Some (S i) | None => None end
  end.
