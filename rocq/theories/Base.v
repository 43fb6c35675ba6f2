(* Base.v -- Python-level vocabulary shared by all model files: exceptions as
   values, insertion-ordered dictionaries with string keys, real division that
   can fail, and small list helpers.  Nothing here models a particular line of
   /repo; it fixes the meaning of the Python constructs the models use. *)
From Coq Require Export Reals String Ascii List Bool Arith Lia.
Export ListNotations.
Open Scope R_scope.

(* Python exceptions that occur in the modelled code. *)
Inductive exn :=
| KeyError (k : string)
| ValueError (msg : string)
| IndexError
| ZeroDivisionError
| TypeError
| AttributeError
| UnboundLocalError
| IOError
| RuntimeError
| OtherError (msg : string).

(* Result of running a Python expression or function body. *)
Inductive res (A : Type) : Type :=
| Ok (a : A)
| Err (e : exn).
Arguments Ok {A} a.
Arguments Err {A} e.

Definition bind {A B} (x : res A) (f : A -> res B) : res B :=
  match x with Ok a => f a | Err e => Err e end.

Notation "x <- e1 ;; e2" := (bind e1 (fun x => e2))
  (at level 61, e1 at next level, right associativity).
Notation "' pat <- e1 ;; e2" := (bind e1 (fun x => match x with pat => e2 end))
  (at level 61, pat pattern, e1 at next level, right associativity).

Fixpoint mapM {A B} (f : A -> res B) (l : list A) : res (list B) :=
  match l with
  | [] => Ok []
  | x :: l' => y <- f x ;; ys <- mapM f l' ;; Ok (y :: ys)
  end.

(* Python dict with str keys: insertion ordered, keys unique by construction
   through [dset]. *)
Definition dict (V : Type) := list (string * V).

Fixpoint dget {V} (d : dict V) (k : string) : option V :=
  match d with
  | [] => None
  | (k', v) :: d' => if String.eqb k k' then Some v else dget d' k
  end.

(* d[k] as an expression: KeyError when absent *)
Definition dlook {V} (d : dict V) (k : string) : res V :=
  match dget d k with Some v => Ok v | None => Err (KeyError k) end.

(* d[k] = v as a statement: keep the position of an existing key, append a new one *)
Fixpoint dset {V} (d : dict V) (k : string) (v : V) : dict V :=
  match d with
  | [] => [(k, v)]
  | (k', v') :: d' => if String.eqb k k' then (k', v) :: d' else (k', v') :: dset d' k v
  end.

(* del d[k] (no effect when absent; callers guard) *)
Fixpoint ddel {V} (d : dict V) (k : string) : dict V :=
  match d with
  | [] => []
  | (k', v') :: d' => if String.eqb k k' then d' else (k', v') :: ddel d' k
  end.

Definition dkeys {V} (d : dict V) : list string := map fst d.
Definition dmem {V} (d : dict V) (k : string) : bool :=
  match dget d k with Some _ => true | None => false end.

(* x / y on Python floats *)
Definition rdiv (x y : R) : res R :=
  if Req_EM_T y 0 then Err ZeroDivisionError else Ok (x / y).

(* decidable comparisons on idealised floats, as booleans *)
Definition Rltb (x y : R) : bool := if Rlt_dec x y then true else false.
Definition Rleb (x y : R) : bool := if Rle_dec x y then true else false.
Definition Reqb (x y : R) : bool := if Req_EM_T x y then true else false.

Definition rsum (l : list R) : R := fold_right Rplus 0 l.
Definition smem (x : string) (l : list string) : bool := existsb (String.eqb x) l.

(* l[i] = x for an index within bounds *)
Fixpoint upd {A} (l : list A) (i : nat) (x : A) : list A :=
  match l, i with
  | [], _ => []
  | _ :: l', O => x :: l'
  | y :: l', S i' => y :: upd l' i' x
  end.
