(* PBase.v -- lemmas about the Python vocabulary of Base.v *)
From Verif Require Import Base.
From Coq Require Import Permutation Lra.

Lemma bind_ok {A B} (x : res A) (f : A -> res B) b :
  bind x f = Ok b -> exists a, x = Ok a /\ f a = Ok b.
Proof. destruct x as [a|e]; simpl; intros H; [exists a; auto | discriminate]. Qed.

Lemma dget_dset_eq {V} (d : dict V) k v : dget (dset d k v) k = Some v.
Proof.
  induction d as [|[k' v'] d IH]; simpl.
  - rewrite String.eqb_refl; reflexivity.
  - destruct (String.eqb k k') eqn:E; simpl; rewrite E; auto.
Qed.

Lemma dget_dset_neq {V} (d : dict V) k k' v :
  String.eqb k' k = false -> dget (dset d k v) k' = dget d k'.
Proof.
  intros N. induction d as [|[k2 v2] d IH]; simpl.
  - rewrite N; reflexivity.
  - destruct (String.eqb k k2) eqn:E; simpl.
    + apply String.eqb_eq in E; subst k2. rewrite N. reflexivity.
    + destruct (String.eqb k' k2); auto.
Qed.

Lemma dget_dset {V} (d : dict V) k k' v :
  dget (dset d k v) k' = if String.eqb k' k then Some v else dget d k'.
Proof.
  destruct (String.eqb k' k) eqn:E.
  - apply String.eqb_eq in E; subst. apply dget_dset_eq.
  - apply dget_dset_neq; exact E.
Qed.

Lemma dget_ddel_neq {V} (d : dict V) k k' :
  String.eqb k' k = false -> dget (ddel d k) k' = dget d k'.
Proof.
  intros N. induction d as [|[k2 v2] d IH]; simpl; auto.
  destruct (String.eqb k k2) eqn:E.
  - apply String.eqb_eq in E; subst k2. rewrite N. reflexivity.
  - simpl. destruct (String.eqb k' k2); auto.
Qed.

Lemma dget_in {V} (d : dict V) k v : dget d k = Some v -> In (k, v) d.
Proof.
  induction d as [|[k' v'] d IH]; simpl; [discriminate|].
  destruct (String.eqb k k') eqn:E.
  - intros H; inversion H; subst. apply String.eqb_eq in E; subst; auto.
  - auto.
Qed.

Lemma dget_none {V} (d : dict V) k : dget d k = None <-> ~ In k (dkeys d).
Proof.
  induction d as [|[k' v'] d IH]; simpl; [tauto|].
  destruct (String.eqb k k') eqn:E.
  - apply String.eqb_eq in E; subst. split; [discriminate | intros H; exfalso; apply H; auto].
  - apply String.eqb_neq in E. rewrite IH. split; intros H; [intros [H1|H1]; auto | auto].
Qed.

Lemma dget_some_in {V} (d : dict V) k : In k (dkeys d) <-> exists v, dget d k = Some v.
Proof.
  destruct (dget d k) eqn:E.
  - split; [eauto|]. intros _. apply dget_in in E. apply in_map with (f := fst) in E. exact E.
  - split.
    + intros H. apply dget_none in E. contradiction.
    + intros [v H]; discriminate.
Qed.

Lemma in_dget {V} (d : dict V) k v : NoDup (dkeys d) -> In (k, v) d -> dget d k = Some v.
Proof.
  induction d as [|[k' v'] d IH]; simpl; [tauto|].
  intros N H. inversion N; subst. destruct H as [H|H].
  - inversion H; subst. rewrite String.eqb_refl. reflexivity.
  - destruct (String.eqb k k') eqn:E; [|auto].
    apply String.eqb_eq in E; subst. apply in_map with (f := fst) in H. contradiction.
Qed.

Lemma dkeys_dset {V} (d : dict V) k v :
  dkeys (dset d k v) = if dmem d k then dkeys d else dkeys d ++ [k].
Proof.
  unfold dmem. induction d as [|[k' v'] d IH]; simpl; auto.
  destruct (String.eqb k k') eqn:E; simpl; auto.
  rewrite IH. destruct (dget d k); reflexivity.
Qed.

Lemma nodup_dset {V} (d : dict V) k v : NoDup (dkeys d) -> NoDup (dkeys (dset d k v)).
Proof.
  intros N. rewrite dkeys_dset. unfold dmem. destruct (dget d k) eqn:E; auto.
  apply dget_none in E. apply Permutation_NoDup with (k :: dkeys d).
  - apply Permutation_cons_append.
  - constructor; auto.
Qed.

Lemma rdiv_ok x y z : rdiv x y = Ok z <-> y <> 0 /\ z = x / y.
Proof.
  unfold rdiv. destruct (Req_EM_T y 0); split; intros H.
  - discriminate.
  - destruct H; contradiction.
  - inversion H; auto.
  - destruct H; subst; auto.
Qed.

Lemma rdiv_eq x y : y <> 0 -> rdiv x y = Ok (x / y).
Proof. intros H; apply rdiv_ok; auto. Qed.

Lemma mapM_ok {A B} (f : A -> res B) l ys :
  mapM f l = Ok ys -> Forall2 (fun x y => f x = Ok y) l ys.
Proof.
  revert ys; induction l as [|x l IH]; simpl; intros ys H.
  - inversion H; constructor.
  - apply bind_ok in H; destruct H as [y [H1 H]].
    apply bind_ok in H; destruct H as [ys' [H2 H]]. inversion H; subst.
    constructor; auto.
Qed.

Lemma mapM_intro {A B} (f : A -> res B) l ys :
  Forall2 (fun x y => f x = Ok y) l ys -> mapM f l = Ok ys.
Proof. induction 1 as [|x y l ys H H2 IH]; simpl; [reflexivity|]. rewrite H; simpl. rewrite IH. reflexivity. Qed.

Lemma smem_spec x l : smem x l = true <-> In x l.
Proof.
  unfold smem. rewrite existsb_exists. split.
  - intros [y [H1 H2]]. apply String.eqb_eq in H2; subst; auto.
  - intros H; exists x; split; auto. apply String.eqb_refl.
Qed.

Lemma Rltb_spec x y : Rltb x y = true <-> x < y.
Proof. unfold Rltb; destruct (Rlt_dec x y); split; intros; auto; discriminate. Qed.
Lemma Rleb_spec x y : Rleb x y = true <-> x <= y.
Proof. unfold Rleb; destruct (Rle_dec x y); split; intros; auto; discriminate. Qed.
Lemma Rltb_false x y : Rltb x y = false <-> y <= x.
Proof. unfold Rltb; destruct (Rlt_dec x y); split; intros; try lra; auto; discriminate. Qed.
Lemma Rleb_false x y : Rleb x y = false <-> y < x.
Proof. unfold Rleb; destruct (Rle_dec x y); split; intros; try lra; auto; discriminate. Qed.

Lemma upd_length {A} (l : list A) i x : length (upd l i x) = length l.
Proof. revert i; induction l as [|y l IH]; intros [|i]; simpl; auto. Qed.
Lemma upd_nth_eq {A} (l : list A) i x d : (i < length l)%nat -> nth i (upd l i x) d = x.
Proof. revert i; induction l as [|y l IH]; intros [|i]; simpl; intros H; try lia; auto. apply IH; lia. Qed.
Lemma upd_nth_neq {A} (l : list A) i j x d : i <> j -> nth j (upd l i x) d = nth j l d.
Proof. revert i j; induction l as [|y l IH]; intros [|i] [|j]; simpl; intros H; auto; try lia. Qed.
