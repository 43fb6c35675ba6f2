(* PHeap.v -- lemmas about dictionaries as heap objects *)
From Verif Require Import Base MString MHeap MBicycle PBase SModels.
Local Open Scope string_scope.
Local Open Scope R_scope.

Lemma nth_error_upd_eq {A} (l : list A) r x : (r < length l)%nat -> nth_error (upd l r x) r = Some x.
Proof. revert r; induction l as [|y l IH]; intros [|r]; simpl; intros Hr; try lia; auto. apply IH; lia. Qed.
Lemma nth_error_upd_neq {A} (l : list A) r j x : r <> j -> nth_error (upd l r x) j = nth_error l j.
Proof. revert r j; induction l as [|y l IH]; intros [|r] [|j]; simpl; intros Hr; auto; try lia. Qed.
Lemma upd_upd {A} (l : list A) r x y : upd (upd l r x) r y = upd l r y.
Proof. revert r; induction l as [|z l IH]; intros [|r]; simpl; auto. f_equal; auto. Qed.
Lemma upd_same {A} (l : list A) r x : nth_error l r = Some x -> upd l r x = l.
Proof. revert r; induction l as [|z l IH]; intros [|r]; simpl; intros E; try discriminate; auto.
  - injection E as <-; reflexivity.
  - f_equal; auto. Qed.
Lemma upd_app_last {A} (l t : list A) y x : upd (l ++ y :: t) (length l) x = (l ++ x :: t)%list.
Proof. induction l as [|z l IH]; simpl; auto. f_equal; auto. Qed.
Lemma nth_error_app_last {A} (l t : list A) y : nth_error (l ++ y :: t) (length l) = Some y.
Proof. induction l as [|z l IH]; simpl; auto. Qed.
Lemma nth_error_app_l {A} (l t : list A) r y : nth_error l r = Some y -> nth_error (l ++ t) r = Some y.
Proof. intros E. rewrite nth_error_app1; auto. apply nth_error_Some. congruence. Qed.

Lemma hload_eq h r d : nth_error h r = Some d -> hload r h = (h, Ok d).
Proof. unfold hload; intros ->; reflexivity. Qed.
Lemma hset_eq h r d k v : nth_error h r = Some d -> hset r k v h = (upd h r (dset d k v), Ok tt).
Proof. intros E. unfold hset, hbind. rewrite (hload_eq _ _ _ E). reflexivity. Qed.
Lemma hcopy_eq h r d : nth_error h r = Some d -> hcopy r h = ((h ++ [d])%list, Ok (length h)).
Proof. intros E. unfold hcopy, hbind. rewrite (hload_eq _ _ _ E). reflexivity. Qed.

Lemma dget_filter_neq {V} (d : dict V) k0 k :
  dget (filter (fun e => negb (String.eqb (fst e) k0)) d) k = if String.eqb k k0 then None else dget d k.
Proof.
  induction d as [|[k1 v1] d IH]; simpl.
  - destruct (String.eqb k k0); reflexivity.
  - destruct (String.eqb k1 k0) eqn:E1; simpl.
    + rewrite IH. apply String.eqb_eq in E1; subst. destruct (String.eqb k k0); reflexivity.
    + rewrite IH. destruct (String.eqb k k1) eqn:E; auto.
      apply String.eqb_eq in E; subst. rewrite E1. reflexivity.
Qed.

Lemma dget_floats d k : dget (floats d) k = match dget d k with Some (VNum x) => Some x | _ => None end.
Proof.
  induction d as [|[k1 v1] d IH]; simpl; auto.
  destruct v1; simpl.
  - destruct (String.eqb k k1); auto.
  - rewrite dget_filter_neq, IH. destruct (String.eqb k k1); auto.
  - rewrite dget_filter_neq, IH. destruct (String.eqb k k1); auto.
Qed.
Lemma dget_nums d k : dget (nums d) k = match dget d k with Some x => Some (VNum x) | None => None end.
Proof. induction d as [|[k1 v1] d IH]; simpl; auto. destruct (String.eqb k k1); auto. Qed.

Lemma preserved_refl h : preserved h h.
Proof. exists []. rewrite app_nil_r; reflexivity. Qed.
Lemma preserved_trans a b c : preserved a b -> preserved b c -> preserved a c.
Proof. intros [x ->] [y ->]. exists (x ++ y)%list. rewrite app_assoc; reflexivity. Qed.
Lemma preserved_app h t : preserved h (h ++ t).
Proof. exists t; reflexivity. Qed.
Lemma preserved_nth h h' r d : preserved h h' -> nth_error h r = Some d -> nth_error h' r = Some d.
Proof. intros [t ->] E. apply nth_error_app_l; exact E. Qed.
