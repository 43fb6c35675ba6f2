(* SIo2.v -- specification vocabulary for C34: which directory a path names *)
From Verif Require Import Base MString MIo SIo SState.
Local Open Scope string_scope.

Fixpoint slashes (n : nat) : string := match n with O => "" | Datatypes.S n' => String slash (slashes n') end.
(* the file [name] of the directory [dir]: one or more slashes between them, or a directory
   that consists of slashes only (the root) followed by the name *)
Definition located (path dir name : string) : Prop :=
  free slash name /\ ((plain dir /\ exists n, path = dir ++ slashes (Datatypes.S n) ++ name) \/ (exists n, dir = slashes (Datatypes.S n) /\ path = dir ++ name)).
(* [q] is a directory above [dir] *)
Definition above (q dir : string) : Prop := exists r, dir = q ++ "/" ++ r.
