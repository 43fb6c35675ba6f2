(* PIo7.v -- the saved text is determined by the dictionary *)
From Coq Require Import Permutation Sorting.Sorted Lia.
From Verif Require Import Base PBase MString MIo SIo SIo3 PString PIo PIo4 PIo5.
Local Open Scope string_scope.

Lemma sorted_unique {A} (lt : A -> A -> Prop) : (forall x, ~ lt x x) -> (forall x y, lt x y -> lt y x -> False) ->
  forall l l', StronglySorted lt l -> StronglySorted lt l' -> Permutation l l' -> l = l'.
Proof.
  intros IR AS. induction l as [|x l IH]; intros l' S S' P; [apply Permutation_nil in P; subst; reflexivity|].
  destruct l' as [|y l']; [apply Permutation_sym, Permutation_nil in P; discriminate|]. inversion S as [|? ? S1 F1]; subst. inversion S' as [|? ? S2 F2]; subst.
  assert (E : x = y).
  { pose proof (Permutation_in x P (or_introl eq_refl)) as [E|K1]; [symmetry; exact E|]. pose proof (Permutation_in y (Permutation_sym P) (or_introl eq_refl)) as [E|K2]; [exact E|].
    rewrite Forall_forall in F1, F2. exfalso. exact (AS _ _ (F1 y K2) (F2 x K1)). }
  subst y. apply Permutation_cons_inv in P. f_equal. apply IH; assumption.
Qed.
Lemma saved_text_iff {V} (str : V -> string) (d : dict V) t : NoDup (dkeys d) -> (saved_text str d t <-> t = par_text str d).
Proof.
  intros N. split.
  - intros (es & P & S & ->). assert (E : es = sorted_items d).
    { apply (sorted_unique (fun a b => String.ltb (fst a) (fst b) = true)); [intros x H; rewrite sltb_irrefl in H; discriminate|intros x y H1 H2; apply sltb_asym in H1; congruence|exact S|apply sorted_items_sorted, N|].
      rewrite P. symmetry. apply sorted_items_perm, N. }
    subst es. reflexivity.
  - intros ->. exists (sorted_items d). split; [apply sorted_items_perm, N|]. split; [apply sorted_items_sorted, N|reflexivity].
Qed.
