(* PSets3.v -- the classes' name tables are the specified parameters, in alphabetical order *)
From Coq Require Import Lra.
From Verif Require Import Base MString MHeap MSets PBase PHeap MModels SModels PSets.
Local Open Scope string_scope.

Definition sub (a b : list string) : bool := forallb (fun k => smem k b) a.
Lemma sub_spec a b : sub a b = true -> forall k, In k a -> In k b.
Proof. intros E k Hk. unfold sub in E. rewrite forallb_forall in E. apply smem_spec, E, Hk. Qed.
Lemma required_iff c k : In k (par_strings c) <-> In k (required c).
Proof. split; revert k; apply sub_spec; destruct c; vm_compute; reflexivity. Qed.
Lemma complete_required c d : complete (required c) d <-> complete (par_strings c) d.
Proof. split; intros C k Hk; apply C, required_iff, Hk. Qed.
Lemma has_required c p : has p (required c) <-> has p (par_strings c).
Proof. split; intros C k Hk; apply C, required_iff, Hk. Qed.
Lemma gain_names_iff k : In k gain_names <-> In k feedback_gain_names.
Proof. split; revert k; apply sub_spec; vm_compute; reflexivity. Qed.

(* alphabetical order of the tables *)
Fixpoint ordered (l : list string) : bool :=
  match l with [] => true | a :: l' => forallb (fun b => String.ltb a b) l' && ordered l' end.
Lemma par_strings_ordered c : ordered (par_strings c) = true.
Proof. destruct c; vm_compute; reflexivity. Qed.
Lemma ltb_irrefl a : String.ltb a a = false.
Proof. unfold String.ltb. destruct (String.compare a a) eqn:E; auto. pose proof (String.compare_antisym a a) as A. rewrite E in A. discriminate. Qed.
Lemma ltb_asym a b : String.ltb a b = true -> String.ltb b a = false.
Proof. unfold String.ltb. rewrite (String.compare_antisym b a). destruct (String.compare a b); cbn; congruence. Qed.
Lemma ordered_split l pre k post : l = (pre ++ k :: post)%list -> ordered l = true ->
  forall k', In k' l -> (String.ltb k' k = true <-> In k' pre).
Proof.
  revert l. induction pre as [|a pre IH]; intros l E O k' Hk; subst l; cbn in O; apply andb_prop in O; destruct O as (O1 & O2); rewrite forallb_forall in O1.
  - split; [|intros []]. intros L. exfalso. destruct Hk as [<-|Hk]; [rewrite ltb_irrefl in L; discriminate|].
    apply O1 in Hk. apply ltb_asym in Hk. congruence.
  - destruct Hk as [<-|Hk].
    + split; [left; reflexivity|]. intros _. apply O1, in_or_app. right. left. reflexivity.
    + specialize (IH _ eq_refl O2 k' Hk). rewrite IH. split; [right; assumption|]. intros [->|H]; [|exact H].
      specialize (O1 k' Hk). rewrite ltb_irrefl in O1. discriminate.
Qed.
Lemma first_offender c r rider h d e : nth_error h r = Some d ->
  (make_set c r rider h = (h, Err e) <->
   exists k msg, In k (required c) /\ offends d k msg /\ e = ValueError msg /\
     forall k', In k' (required c) -> String.ltb k' k = true -> exists x, dget d k' = Some (VNum x)).
Proof.
  intros E. rewrite (make_set_err c r rider h d e E). split.
  - intros (pre & k & post & msg & EP & C & O & EE). exists k, msg.
    split; [apply required_iff; rewrite EP; apply in_or_app; right; left; reflexivity|]. split; [exact O|]. split; [exact EE|].
    intros k' Hk L. apply C. apply (ordered_split _ _ _ _ EP (par_strings_ordered c)); [apply required_iff, Hk | exact L].
  - intros (k & msg & Hk & O & EE & L). apply required_iff in Hk. apply in_split in Hk. destruct Hk as (pre & post & EP).
    exists pre, k, post, msg. split; [exact EP|]. split; [|auto]. intros k' Hk'.
    assert (I' : In k' (par_strings c)) by (rewrite EP; apply in_or_app; auto).
    apply L; [apply required_iff, I'|]. apply (ordered_split _ _ _ _ EP (par_strings_ordered c)); auto.
Qed.
Lemma deps_iff k : In k canon_deps <-> In k structural_parameters.
Proof. split; revert k; apply sub_spec; vm_compute; reflexivity. Qed.
Lemma vg_deps_iff k : In k ("v" :: "g" :: canon_deps) <-> In k benchmark_parameters.
Proof. split; revert k; apply sub_spec; vm_compute; reflexivity. Qed.
Lemma ex_deps (P : string -> Prop) : (exists k, In k structural_parameters /\ P k) <-> (exists k, In k canon_deps /\ P k).
Proof. split; intros (k & A & B); exists k; (split; [apply deps_iff, A | exact B]). Qed.
Lemma ex_vg_deps (P : string -> Prop) : (exists k, In k benchmark_parameters /\ P k) <-> (exists k, In k ("v" :: "g" :: canon_deps) /\ P k).
Proof. split; intros (k & A & B); exists k; (split; [apply vg_deps_iff, A | exact B]). Qed.
