(* PPeriod4.v -- lemmas for C67 (guess, times) *)
From Verif Require Import Base MString MIo SIo MPeriod SPeriod MPeriod2 SPeriod2 PBase PString PIo PIo3 PPeriod PPeriod2 PPeriod3.
From Coq Require Import ZArith Lra Sorted.
Local Open Scope string_scope.
Local Open Scope R_scope.

(* ---- crossings ---- *)
Lemma outside_iff x : outside x = true <-> x < - (1 / 10) \/ 1 / 10 < x.
Proof. unfold outside. rewrite orb_true_iff, !Rltb_t. tauto. Qed.
Lemma sgn_pos x : 0 < x -> sgn x = 1%Z. Proof. intros H. unfold sgn. destruct (Rlt_dec 0 x); [reflexivity|lra]. Qed.
Lemma sgn_neg x : x < 0 -> sgn x = (-1)%Z. Proof. intros H. unfold sgn. destruct (Rlt_dec 0 x); [lra|]. destruct (Rlt_dec x 0); [reflexivity|lra]. Qed.
Lemma sgn_zero : sgn 0 = 0%Z. Proof. unfold sgn. destruct (Rlt_dec 0 0); [lra|]. destruct (Rlt_dec 0 0); [lra|reflexivity]. Qed.
Lemma sgn_neq x y : sgn x <> sgn y <-> ~ (0 < x /\ 0 < y) /\ ~ (x < 0 /\ y < 0) /\ ~ (x = 0 /\ y = 0).
Proof.
  destruct (Rtotal_order x 0) as [X|[->|X]], (Rtotal_order y 0) as [Y|[->|Y]];
    rewrite ?sgn_zero; rewrite ?(sgn_pos x) by lra; rewrite ?(sgn_pos y) by lra; rewrite ?(sgn_neg x) by lra; rewrite ?(sgn_neg y) by lra;
    (split; [intros H; repeat split; intros [? ?]; try lra; try (apply H; reflexivity)|intros [A [B C]] E; try discriminate E; first [apply A; split; lra|apply B; split; lra|apply C; split; lra]]).
Qed.
Definition sep (h : bool) (x y : R) : Prop :=
  if h then (x < - (1 / 10) /\ 1 / 10 < y) \/ (1 / 10 < x /\ y < - (1 / 10)) else ~ (0 < x /\ 0 < y) /\ ~ (x < 0 /\ y < 0) /\ ~ (x = 0 /\ y = 0).
Lemma sep_iff (h : bool) x y : (if h then outside x && outside y else true) && negb (Z.eqb (sgn x) (sgn y)) = true <-> sep h x y.
Proof.
  rewrite andb_true_iff, negb_true_iff, Z.eqb_neq, sgn_neq. unfold sep. destruct h; [|tauto]. rewrite andb_true_iff, !outside_iff. split.
  - intros [[A B] [C [D E]]]. destruct A, B; try (exfalso; first [apply C; split; lra|apply D; split; lra]); [left|right]; split; assumption.
  - intros [[A B]|[A B]]; (split; [tauto|]); (split; [intros [? ?]; lra|]); (split; intros [? ?]; lra).
Qed.
Lemma masked_in h i l q : In q (masked_crossings h i l) <-> (i <= q)%nat /\ crossing h l (q - i).
Proof.
  revert i. induction l as [|x l IH]; intros i; [cbn; split; [tauto|intros [_ [a [b [H _]]]]; destruct (q - i)%nat; discriminate]|]. destruct l as [|y l].
  - cbn. split; [tauto|]. intros [_ [a [b [_ [H _]]]]]. destruct (q - i)%nat; discriminate.
  - assert (E : In q (masked_crossings h i (x :: y :: l)) <-> (q = i /\ sep h x y) \/ In q (masked_crossings h (S i) (y :: l))).
    { cbn [masked_crossings]. rewrite <- sep_iff. match goal with |- context [if ?b then i :: _ else _] => destruct b eqn:B end; cbn [In]; intuition congruence. }
    rewrite E, IH. split.
    + intros [[-> S]|[L [a [b [H1 [H2 H3]]]]]].
      * split; [lia|]. exists x, y. rewrite Nat.sub_diag. repeat split. exact S.
      * split; [lia|]. exists a, b. replace (q - i)%nat with (S (q - S i)) by lia. repeat split; assumption.
    + intros [L [a [b [H1 [H2 H3]]]]]. destruct (Nat.eq_dec q i) as [->|N].
      * left. split; [reflexivity|]. rewrite Nat.sub_diag in *. injection H1 as <-. injection H2 as <-. exact H3.
      * right. split; [lia|]. exists a, b. replace (q - i)%nat with (S (q - S i)) in * by lia. repeat split; assumption.
Qed.
Lemma masked_sorted h i l : StronglySorted lt (masked_crossings h i l) /\ Forall (fun q => (i <= q)%nat) (masked_crossings h i l).
Proof.
  assert (B : forall i l, Forall (fun q => (i <= q)%nat) (masked_crossings h i l)).
  { intros j m. apply Forall_forall. intros q Hq. apply masked_in in Hq. tauto. }
  split; [|apply B]. revert i. induction l as [|x l IH]; intros i; [constructor|]. destruct l as [|y l]; [constructor|].
  cbn [masked_crossings]. match goal with |- context [if ?b then i :: _ else _] => destruct b end; [|apply IH]. constructor; [apply IH|]. exact (B (S i) (y :: l)).
Qed.
Lemma masked_all h l : all_crossings h l (masked_crossings h 0 l).
Proof. split; [apply masked_sorted|]. intros i. rewrite masked_in, Nat.sub_0_r. split; [tauto|]. intros H. split; [lia|exact H]. Qed.

(* ---- spacing ---- *)
Lemma filter_sorted {A} (f : A -> bool) (Q : A -> A -> Prop) l : StronglySorted Q l -> StronglySorted Q (filter f l).
Proof.
  induction 1 as [|x l S IH F]; [constructor|]. cbn. destruct (f x); [|exact IH]. constructor; [exact IH|]. apply Forall_forall. intros y Hy. apply filter_In in Hy. rewrite Forall_forall in F. apply F, Hy.
Qed.
Lemma nth_error_removelast {A} (l : list A) j : (S j < length l)%nat -> nth_error (removelast l) j = nth_error l j.
Proof.
  revert j. induction l as [|x l IH]; intros j H; [cbn in H; lia|]. destruct l as [|y l]; [cbn in H; lia|]. cbn [removelast]. destruct j; [reflexivity|]. cbn [nth_error]. apply IH. cbn in *. lia.
Qed.
Lemma removelast_len {A} (l : list A) : length (removelast l) = (length l - 1)%nat.
Proof. induction l as [|x l IH]; [reflexivity|]. destruct l as [|y l]; [reflexivity|]. cbn [removelast length] in *. lia. Qed.
Lemma previous_nth zc j v : nth_error zc j = Some v -> nth_error (last zc 0%nat :: removelast zc) j = Some (previous zc j).
Proof.
  intros H. assert (L : (j < length zc)%nat) by (apply nth_error_Some; congruence). destruct j as [|j]; [reflexivity|]. cbn [nth_error previous].
  rewrite nth_error_removelast by exact L. apply nth_error_nth'. lia.
Qed.
Lemma nth_error_combine' {A B} (l : list A) (m : list B) j x y : nth_error l j = Some x -> nth_error m j = Some y -> nth_error (combine l m) j = Some (x, y).
Proof. revert l m. induction j as [|j IH]; intros [|a l] [|b m] H K; try discriminate; cbn in *; [congruence|]. apply IH; assumption. Qed.
Lemma nth_error_combine_inv {A B} (l : list A) (m : list B) j x y : nth_error (combine l m) j = Some (x, y) -> nth_error l j = Some x /\ nth_error m j = Some y.
Proof. revert l m. induction j as [|j IH]; intros [|a l] [|b m] H; try discriminate; cbn in *; [split; congruence|]. apply IH, H. Qed.
Lemma distance_gt a b : (20 <? distance a b)%nat = true <-> (a > b + 20 \/ b > a + 20)%nat.
Proof. unfold distance. rewrite Nat.ltb_lt. lia. Qed.
Lemma combine_sorted (l m : list nat) : StronglySorted lt l -> StronglySorted (fun a b => (fst a < fst b)%nat) (combine l m).
Proof.
  intros S. revert m. induction S as [|x l S IH F]; intros [|y m]; cbn; try constructor; [apply IH|]. apply Forall_forall. intros [a b] H. cbn. apply in_combine_l in H. rewrite Forall_forall in F. apply F, H.
Qed.
Lemma map_fst_sorted (l : list (nat * nat)) : StronglySorted (fun a b => (fst a < fst b)%nat) l -> StronglySorted lt (map fst l).
Proof. induction 1 as [|x l S IH F]; cbn; constructor; [exact IH|]. rewrite Forall_forall in *. intros y Hy. apply in_map_iff in Hy as [z [<- Hz]]. apply F, Hz. Qed.
Lemma distant_spaced zc : StronglySorted lt zc -> spaced zc (distant zc).
Proof.
  intros S. split.
  - unfold distant. apply map_fst_sorted, filter_sorted, combine_sorted, S.
  - intros v. unfold distant. split.
    + intros H. apply in_map_iff in H as [[a b] [E H]]. cbn in E. subst a. apply filter_In in H as [H D]. apply distance_gt in D. cbn [fst snd] in D.
      apply In_nth_error in H as [j H]. apply nth_error_combine_inv in H as [H1 H2]. exists j. split; [exact H1|]. rewrite (previous_nth _ _ _ H1) in H2. injection H2 as ->. exact D.
    + intros [j [H D]]. apply in_map_iff. exists (v, previous zc j). split; [reflexivity|]. apply filter_In. split; [|apply distance_gt, D].
      apply (nth_error_In _ j). apply nth_error_combine'; [exact H|apply (previous_nth _ _ v H)].
Qed.

(* ---- means of differences ---- *)
Lemma diff_len {A B} (f : A * A -> B) (l : list A) : length (map f (combine l (tl l))) = (length l - 1)%nat.
Proof. rewrite map_length, combine_length. destruct l; cbn [length tl]; lia. Qed.
Lemma diff_sum {A} (f : A -> R) (l : list A) d : (1 <= length l)%nat -> rsum (map (fun ab => f (snd ab) - f (fst ab)) (combine l (tl l))) = f (last l d) - f (hd d l).
Proof.
  destruct l as [|x l]; [cbn; lia|]. intros _. revert x. induction l as [|y l IH]; intros x; [cbn; lra|].
  change (combine (x :: y :: l) (tl (x :: y :: l))) with ((x, y) :: combine (y :: l) (tl (y :: l))). cbn [map]. rewrite rsum_cons, IH. cbn [fst snd hd].
  change (last (x :: y :: l) d) with (last (y :: l) d). lra.
Qed.
Lemma last_nth_error {A} (l : list A) d : l <> [] -> nth_error l (length l - 1) = Some (last l d).
Proof.
  induction l as [|x l IH]; intros N; [congruence|]. destruct l as [|y l]; [reflexivity|]. specialize (IH ltac:(discriminate)). cbn [length last] in *. rewrite <- IH.
  replace (S (S (length l)) - 1)%nat with (S (S (length l) - 1)) by lia. reflexivity.
Qed.
Lemma gaps_mean l : (2 <= length l)%nat -> mean (gaps l) = (INR (last l 0%nat) - INR (hd 0%nat l)) / (INR (length l) - 1).
Proof.
  intros L. unfold mean, gaps. rewrite diff_len, (diff_sum INR l 0%nat) by lia. rewrite minus_INR by lia. reflexivity.
Qed.
Lemma np_diff_mean l : (2 <= length l)%nat -> mean (np_diff l) = (last l 0 - hd 0 l) / (INR (length l) - 1).
Proof. intros L. unfold mean, np_diff. rewrite diff_len, (diff_sum (fun x => x) l 0) by lia. rewrite minus_INR by lia. reflexivity. Qed.
Lemma INR_gt1 n : (2 <= n)%nat -> 0 < INR n - 1.
Proof. intros H. apply le_INR in H. cbn in H. lra. Qed.

(* ---- int() ---- *)
Lemma floor_spec x : IZR (up x - 1) <= x < IZR (up x - 1) + 1.
Proof. destruct (archimed x) as [A B]. rewrite minus_IZR. lra. Qed.
Lemma trunc_spec x : Rabs (x - IZR (trunc x)) < 1 /\ Rabs (IZR (trunc x)) <= Rabs x /\ 0 <= IZR (trunc x) * x.
Proof.
  unfold trunc. destruct (Rltb x 0) eqn:E.
  - apply Rltb_t in E. pose proof (floor_spec (- x)) as [A B]. rewrite opp_IZR. set (f := IZR (up (- x) - 1)) in *.
    assert (F0 : 0 <= f) by (unfold f; apply IZR_le; assert (0 < up (- x))%Z; [apply lt_IZR; destruct (archimed (- x)); lra|lia]). clearbody f.
    rewrite (Rabs_left x) by lra. rewrite Rabs_Ropp, (Rabs_pos_eq f) by lra. split; [apply Rabs_def1; lra|]. split; [lra|]. replace (- f * x) with (f * - x) by ring. apply Rmult_le_pos; lra.
  - apply Rltb_f in E. pose proof (floor_spec x) as [A B]. set (f := IZR (up x - 1)) in *.
    assert (F0 : 0 <= f) by (unfold f; apply IZR_le; assert (0 < up x)%Z; [apply lt_IZR; destruct (archimed x); lra|lia]). clearbody f.
    rewrite (Rabs_pos_eq x) by lra. rewrite (Rabs_pos_eq f) by lra. split; [apply Rabs_def1; lra|]. split; [lra|]. apply Rmult_le_pos; lra.
Qed.
Lemma trunc_unique x z : Rabs (x - IZR z) < 1 -> Rabs (IZR z) <= Rabs x -> 0 <= IZR z * x -> z = trunc x.
Proof.
  intros A B C. destruct (trunc_spec x) as [A' [B' C']]. set (t := trunc x) in *. clearbody t.
  apply Rabs_def2 in A. apply Rabs_def2 in A'.
  assert (K : (-1 <= z - t <= 1)%Z). { assert (-2 < z - t < 2)%Z; [|lia]. split; apply lt_IZR; rewrite minus_IZR; lra. }
  destruct (Z.eq_dec z t) as [E|N]; [exact E|]. exfalso.
  destruct (Rtotal_order x 0) as [X|[X|X]].
  - rewrite (Rabs_left x) in B, B' by lra. assert (Z0 : IZR z <= 0) by (apply Rnot_lt_le; intros P; assert (IZR z * x < 0) by (assert (0 < IZR z * - x) by (apply Rmult_lt_0_compat; lra); lra); lra).
    assert (T0 : IZR t <= 0) by (apply Rnot_lt_le; intros P; assert (0 < IZR t * - x) by (apply Rmult_lt_0_compat; lra); lra).
    rewrite (Rabs_left1 (IZR z)) in B by lra. rewrite (Rabs_left1 (IZR t)) in B' by lra.
    assert (D : (z - t = 1 \/ z - t = -1)%Z) by lia. destruct D as [D|D]; apply (f_equal IZR) in D; rewrite minus_IZR in D; lra.
  - subst x. rewrite Rabs_R0 in B, B'. pose proof (Rabs_pos (IZR z)). pose proof (Rabs_pos (IZR t)).
    assert (Hz : IZR z = 0) by (destruct (Req_dec (IZR z) 0) as [Q|Q]; [exact Q|apply Rabs_pos_lt in Q; lra]). assert (Ht : IZR t = 0) by (destruct (Req_dec (IZR t) 0) as [Q|Q]; [exact Q|apply Rabs_pos_lt in Q; lra]). apply N, eq_IZR. congruence.
  - rewrite (Rabs_pos_eq x) in B, B' by lra. assert (Z0 : 0 <= IZR z) by (apply Rnot_lt_le; intros P; assert (0 < - IZR z * x) by (apply Rmult_lt_0_compat; lra); lra).
    assert (T0 : 0 <= IZR t) by (apply Rnot_lt_le; intros P; assert (0 < - IZR t * x) by (apply Rmult_lt_0_compat; lra); lra).
    rewrite (Rabs_pos_eq (IZR z)) in B by lra. rewrite (Rabs_pos_eq (IZR t)) in B' by lra.
    assert (D : (z - t = 1 \/ z - t = -1)%Z) by lia. destruct D as [D|D]; apply (f_equal IZR) in D; rewrite minus_IZR in D; lra.
Qed.
