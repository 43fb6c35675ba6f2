(* PString.v -- order and sorting of strings *)
From Verif Require Import Base MString PBase.
From Coq Require Import Permutation Sorted OrderedType OrdersEx.
Local Open Scope string_scope.

Lemma ascii_compare_eq a b : Ascii.compare a b = Eq <-> a = b.
Proof.
  unfold Ascii.compare. rewrite BinNat.N.compare_eq_iff. split; [|congruence].
  intros H. rewrite <- (ascii_N_embedding a), <- (ascii_N_embedding b), H. reflexivity.
Qed.
Lemma scmp_refl s : String.compare s s = Eq.
Proof. induction s as [|c s IH]; [reflexivity|]. cbn [String.compare]. rewrite (proj2 (ascii_compare_eq c c) eq_refl). exact IH. Qed.
Lemma scmp_eq s t : String.compare s t = Eq -> s = t.
Proof.
  revert t; induction s as [|c s IH]; intros [|d t]; cbn [String.compare]; try discriminate; [reflexivity|].
  destruct (Ascii.compare c d) eqn:E; try discriminate. intros H. apply ascii_compare_eq in E. f_equal; auto.
Qed.
Lemma scmp_trans s t u : String.compare s t = Lt -> String.compare t u = Lt -> String.compare s u = Lt.
Proof.
  revert t u; induction s as [|c s IH]; intros [|d t] [|e u]; cbn [String.compare]; try discriminate; auto.
  destruct (Ascii.compare c d) eqn:E1; try discriminate; destruct (Ascii.compare d e) eqn:E2; try discriminate; intros H1 H2.
  - apply ascii_compare_eq in E1, E2. subst. rewrite (proj2 (ascii_compare_eq e e) eq_refl). eauto.
  - apply ascii_compare_eq in E1. subst. rewrite E2. reflexivity.
  - apply ascii_compare_eq in E2. subst. rewrite E1. reflexivity.
  - unfold Ascii.compare in *. rewrite BinNat.N.compare_lt_iff in *.
    assert (L : BinNat.N.lt (N_of_ascii c) (N_of_ascii e)) by (eapply BinNat.N.lt_trans; eassumption).
    apply BinNat.N.compare_lt_iff in L. rewrite L. reflexivity.
Qed.
Lemma sltb_lt s t : String.ltb s t = true <-> String.compare s t = Lt.
Proof. unfold String.ltb. destruct (String.compare s t); split; congruence. Qed.
Lemma sltb_trans s t u : String.ltb s t = true -> String.ltb t u = true -> String.ltb s u = true.
Proof. rewrite !sltb_lt. apply scmp_trans. Qed.
Lemma sltb_irrefl s : String.ltb s s = false.
Proof. unfold String.ltb. rewrite scmp_refl. reflexivity. Qed.
Lemma sltb_total s t : String.ltb s t = true \/ s = t \/ String.ltb t s = true.
Proof.
  unfold String.ltb. pose proof (String.compare_antisym s t) as A. destruct (String.compare s t) eqn:E; auto.
  - apply scmp_eq in E. auto.
  - destruct (String.compare t s); try discriminate. auto.
Qed.
Lemma sltb_asym s t : String.ltb s t = true -> String.ltb t s = false.
Proof. intros H. destruct (String.ltb t s) eqn:E; [|reflexivity]. pose proof (sltb_trans _ _ _ H E) as K. rewrite sltb_irrefl in K. discriminate. Qed.

(* not after *)
Definition sle (s t : string) : Prop := String.ltb t s = false.
Lemma sle_refl s : sle s s. Proof. apply sltb_irrefl. Qed.
Lemma sle_trans s t u : sle s t -> sle t u -> sle s u.
Proof.
  unfold sle. intros H1 H2. destruct (String.ltb u s) eqn:E; [|reflexivity]. exfalso.
  destruct (sltb_total t u) as [H|[->|H]]; [|congruence|congruence].
  pose proof (sltb_trans _ _ _ H E). congruence.
Qed.
Lemma sle_antisym s t : sle s t -> sle t s -> s = t.
Proof. unfold sle. intros. destruct (sltb_total s t) as [K|[K|K]]; congruence. Qed.

Lemma sinsert_perm x l : Permutation (sinsert x l) (x :: l).
Proof.
  induction l as [|y l IH]; cbn [sinsert]; [reflexivity|]. destruct (String.ltb y x); [|reflexivity].
  rewrite IH. apply perm_swap.
Qed.
Lemma ssort_perm l : Permutation (ssort l) l.
Proof. induction l as [|x l IH]; [reflexivity|]. cbn [ssort fold_right]. rewrite sinsert_perm. constructor. exact IH. Qed.
Lemma sinsert_sorted x l : StronglySorted sle l -> StronglySorted sle (sinsert x l).
Proof.
  induction 1 as [|y l H IH F]; cbn [sinsert]; [repeat constructor|].
  destruct (String.ltb y x) eqn:E.
  - constructor; [exact IH|]. apply Forall_forall. intros z Hz. apply (Permutation_in _ (sinsert_perm x l)) in Hz.
    destruct Hz as [<-|Hz]; [apply sltb_asym, E|]. rewrite Forall_forall in F. auto.
  - constructor; [constructor; assumption|]. constructor; [exact E|]. rewrite Forall_forall in *. intros z Hz.
    eapply sle_trans; [exact E|]. auto.
Qed.
Lemma ssort_sorted l : StronglySorted sle (ssort l).
Proof. induction l as [|x l IH]; [constructor|]. apply sinsert_sorted. exact IH. Qed.
Lemma ssort_in x l : In x (ssort l) <-> In x l.
Proof. split; apply Permutation_in; [|symmetry]; apply ssort_perm. Qed.
Lemma ssort_nodup l : NoDup l -> NoDup (ssort l).
Proof. apply Permutation_NoDup. symmetry. apply ssort_perm. Qed.
(* two sorted permutations of each other are equal *)
Lemma sorted_unique l l' : StronglySorted sle l -> StronglySorted sle l' -> Permutation l l' -> l = l'.
Proof.
  revert l'. induction l as [|x l IH]; intros l' S1 S2 P; [apply Permutation_nil in P; auto|].
  destruct l' as [|y l']; [apply Permutation_sym, Permutation_nil in P; discriminate|].
  inversion S1 as [|? ? S1' F1]; subst. inversion S2 as [|? ? S2' F2]; subst. rewrite Forall_forall in F1, F2.
  assert (x = y).
  { assert (Hx : In x (y :: l')) by (apply (Permutation_in _ P); left; reflexivity).
    assert (Hy : In y (x :: l)) by (apply (Permutation_in _ (Permutation_sym P)); left; reflexivity).
    destruct Hx as [Hx|Hx]; [auto|]. destruct Hy as [Hy|Hy]; [auto|]. apply sle_antisym; auto. }
  subst y. f_equal. apply IH; auto. apply Permutation_cons_inv in P. exact P.
Qed.
Lemma ssort_unique l l' : Permutation l l' -> ssort l = ssort l'.
Proof. intros P. apply sorted_unique; try apply ssort_sorted. rewrite !ssort_perm. exact P. Qed.
Lemma ssort_idem l : StronglySorted sle l -> ssort l = l.
Proof. intros S. apply sorted_unique; auto using ssort_sorted, ssort_perm. Qed.
