(* SIo3.v -- specification vocabulary for C45: the text of a saved dictionary *)
From Coq Require Import Permutation Sorting.Sorted.
From Verif Require Import Base SIo.
Local Open Scope string_scope.

(* one line per entry, in the alphabetical order of the names *)
Definition saved_text {V} (str : V -> string) (d : dict V) (t : string) : Prop :=
  exists es, Permutation es d /\ StronglySorted (fun a b => String.ltb (fst a) (fst b) = true) es /\
    t = fold_right append "" (map (fun kv => entry_line (fst kv) (str (snd kv))) es).
