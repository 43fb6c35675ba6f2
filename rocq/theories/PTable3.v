(* PTable3.v -- lemmas for C49: variable lists and the layout of the table *)
From Verif Require Import Base MString MIo SIo MPeriod MTable STable PBase PString PIo PIo2 PIo3 PIo5 PTable PTable2.
From Coq Require Import ZArith Lra Lia Sorted Permutation.
Local Open Scope string_scope.

(* ---- sorting ---- *)
Lemma insert_by_perm x l : Permutation (insert_by x l) (x :: l).
Proof.
  induction l as [|y l IH]; cbn [insert_by]; [reflexivity|]. destruct (String.ltb _ _); [|reflexivity]. rewrite IH. apply perm_swap.
Qed.
Lemma sort_by_perm l : Permutation (sort_by_lower l) l.
Proof. induction l as [|x l IH]; [reflexivity|]. cbn. rewrite insert_by_perm, IH. reflexivity. Qed.
Lemma insert_by_sorted x l : ci_sorted l -> ci_sorted (insert_by x l).
Proof.
  unfold ci_sorted. induction l as [|y l IH]; intros S; cbn [insert_by].
  - constructor; [constructor|constructor].
  - inversion S as [|y' l' S' F E1]. subst. destruct (String.ltb (slower y) (slower x)) eqn:L.
    + constructor; [apply IH, S'|]. rewrite Forall_forall in *. intros z Hz. apply (Permutation_in _ (insert_by_perm x l)) in Hz. destruct Hz as [<-|Hz]; [|apply F, Hz]. apply sltb_asym. exact L.
    + constructor; [exact S|]. rewrite Forall_forall in *. intros z [<-|Hz]; [exact L|]. specialize (F z Hz).
      exact (sle_trans _ _ _ L F).
Qed.
Lemma sort_by_sorted l : ci_sorted (sort_by_lower l).
Proof. induction l as [|x l IH]; [constructor|]. cbn. apply insert_by_sorted, IH. Qed.
Lemma ci_sorted_unique l l' : ci_sorted l -> ci_sorted l' -> Permutation l l' -> (forall x y, In x l -> In y l -> slower x = slower y -> x = y) -> l = l'.
Proof.
  unfold ci_sorted. intros S. revert l'. induction S as [|x l S IH F]; intros l' S' P D.
  - apply Permutation_nil in P. subst. reflexivity.
  - destruct l' as [|y l']; [apply Permutation_sym, Permutation_nil in P; discriminate|]. inversion S' as [|y' l2 S2 F2 E1]. subst.
    assert (x = y) as ->.
    { assert (Iy : In y (x :: l)) by (apply (Permutation_in _ (Permutation_sym P)); left; reflexivity). assert (Ix : In x (y :: l')) by (apply (Permutation_in _ P); left; reflexivity).
      destruct Iy as [->|Iy]; [reflexivity|]. destruct Ix as [->|Ix]; [reflexivity|]. rewrite Forall_forall in F, F2. specialize (F y Iy). specialize (F2 x Ix).
      apply D; [left; reflexivity|right; exact Iy|]. apply sle_antisym; assumption. }
    f_equal. apply IH; [exact S2|eapply Permutation_cons_inv; exact P|]. intros a b Ha Hb. apply D; right; assumption.
Qed.
Section V.
  Variable set_list : list string -> list string.
  Lemma variable_list_iff source bikes vars : generate_variable_list set_list source bikes = Ok vars <->
    exists ds, Forall2 (fun b ks => exists d, dget (tb_par b) source = Some d /\ ks = dkeys d) bikes ds /\ vars = sort_by_lower (set_list (concat ds)).
  Proof.
    unfold generate_variable_list. assert (EQ : forall b ks, (d <- dlook (tb_par b) source ;; Ok (dkeys d)) = Ok ks <-> exists d, dget (tb_par b) source = Some d /\ ks = dkeys d).
    { intros b ks. unfold dlook. destruct (dget (tb_par b) source) as [d|]; cbn [bind]; split; [intros K; injection K as <-; eauto|intros [d' [A ->]]; congruence|discriminate|intros [d' [A _]]; discriminate]. }
    split.
    - intros K. apply bind_ok in K as [ds [K1 K]]. injection K as <-. exists ds. split; [|reflexivity]. apply mapM_iff in K1. exact (proj1 (Forall2_iff _ _ _ _ EQ) K1).
    - intros [ds [F ->]]. rewrite (proj2 (mapM_iff _ _ ds) (proj2 (Forall2_iff _ _ _ _ EQ) F)). reflexivity.
  Qed.
  Lemma concat_occurs source bikes ds x : Forall2 (fun b ks => exists d, dget (tb_par b) source = Some d /\ ks = dkeys d) bikes ds -> In x (concat ds) <-> occurs_in source bikes x.
  Proof.
    unfold occurs_in. induction 1 as [|b ks bikes ds [d [G ->]] F IH]; cbn [concat].
    - split; [intros []|]. intros [b [d [[] _]]].
    - rewrite in_app_iff, IH. split.
      + intros [K|[b' [d' [A B]]]]; [exists b, d; split; [left; reflexivity|auto]|exists b', d'; split; [right; exact A|exact B]].
      + intros [b' [d' [[<-|A] [B C]]]]; [left; congruence|right; eauto].
  Qed.
End V.

(* ---- lengths ---- *)
Lemma srep_len n s : String.length (srep n s) = (n * String.length s)%nat.
Proof. induction n as [|n IH]; [reflexivity|]. cbn [srep]. rewrite slen_app, IH. cbn. lia. Qed.
Lemma srep1 n c : String.length (srep n (String c "")) = n. Proof. rewrite srep_len. cbn. lia. Qed.
Lemma sconcat_len l : String.length (sconcat l) = list_sum (map String.length l).
Proof. induction l as [|x l IH]; [reflexivity|]. cbn. unfold sconcat in *. rewrite slen_app, IH. reflexivity. Qed.
Lemma srep_free c n d : c <> d -> free c (srep n (String d "")).
Proof. intros N. induction n as [|n IH]; [apply free_nil|]. cbn [srep]. apply free_app. split; [|exact IH]. apply free_cons. split; [congruence|apply free_nil]. Qed.
Lemma sconcat_free c l : (forall x, In x l -> free c x) -> free c (sconcat l).
Proof. induction l as [|x l IH]; intros H; [apply free_nil|]. cbn. apply free_app. split; [apply H; left; reflexivity|]. apply IH. intros; apply H; right; assumption. Qed.

Lemma widen_len s l : length (widen s l) = length l.
Proof. revert s. induction l as [|x l IH]; intros [|y s]; cbn; try reflexivity. rewrite IH. reflexivity. Qed.
Lemma Forall2_le_refl l : Forall2 le l l.
Proof. induction l; constructor; [apply le_n|assumption]. Qed.
Lemma widen_ge s l : Forall2 le l (widen s l).
Proof.
  revert s. induction l as [|x l IH]; intros [|y s]; cbn [widen]; try apply Forall2_le_refl. constructor; [|apply IH].
  destruct (Nat.ltb_spec x y) as [L|L]; lia.
Qed.
Lemma widen_row s l : length s = length l -> Forall2 le s (widen s l).
Proof.
  revert s. induction l as [|x l IH]; intros [|y s] L; cbn [widen length] in *; try discriminate; constructor.
  - destruct (Nat.ltb_spec x y); lia.
  - apply IH. lia.
Qed.
Lemma Forall2_le_trans a b c : Forall2 le a b -> Forall2 le b c -> Forall2 le a c.
Proof. intros H. revert c. induction H; intros c K; inversion K; subst; constructor; [lia|auto]. Qed.
Definition start_widths (bikes : list tbike) : list nat := 0%nat :: flat_map (fun b => let l := Nat.div2 (S (String.length (tb_name b))) in [l; l]) bikes.
Lemma widths_gen data : forall W0, (forall row, In row data -> length row = length W0) ->
  let W := fold_left (fun largest row => widen (map String.length row) largest) data W0 in
  length W = length W0 /\ Forall2 le W0 W /\ forall row, In row data -> Forall2 le (map String.length row) W.
Proof.
  induction data as [|row data IH]; intros W0 H; cbn [fold_left].
  - split; [reflexivity|]. split; [apply Forall2_le_refl|intros ? []].
  - destruct (IH (widen (map String.length row) W0)) as [A [B C]]; [intros r Hr; rewrite widen_len; apply H; right; exact Hr|].
    rewrite widen_len in A. split; [exact A|]. split; [eapply Forall2_le_trans; [apply widen_ge|exact B]|]. intros r [<-|Hr]; [|apply C, Hr].
    eapply Forall2_le_trans; [apply widen_row; rewrite map_length; apply H; left; reflexivity|exact B].
Qed.
Lemma start_len bikes : length (start_widths bikes) = (1 + 2 * length bikes)%nat.
Proof. unfold start_widths. cbn [length]. f_equal. induction bikes as [|b l IH]; [reflexivity|]. cbn. cbn in IH. lia. Qed.

Lemma sep_len c W : String.length (sep_line (String c "") W) = (list_sum (map (fun w => (w + 3)%nat) W) + 1)%nat.
Proof.
  unfold sep_line. rewrite slen_app, sconcat_len, map_map. cbn [String.length]. f_equal. induction W as [|w W IH]; [reflexivity|]. cbn [map list_sum fold_right]. unfold list_sum in IH. rewrite IH, slen_app, srep1. cbn. lia.
Qed.
Lemma cell_len row W : length row = length W -> Forall2 le (map String.length row) W -> String.length (cell_line row W) = (list_sum (map (fun w => (w + 3)%nat) W) + 1)%nat.
Proof.
  intros L F. unfold cell_line. rewrite slen_app, sconcat_len, map_map. cbn [String.length]. rewrite Nat.add_comm. f_equal.
  revert row L F. induction W as [|w W IH]; intros [|x row] L F; try discriminate; [reflexivity|]. inversion F as [|a b c d F1 F2]. subst. cbn [combine map list_sum fold_right fst snd].
  unfold list_sum in IH. rewrite IH by (cbn in L; congruence || assumption). rewrite !slen_app. unfold spaces. rewrite srep1. cbn [String.length]. lia.
Qed.
Lemma pairs_sum W n : length W = (2 * n)%nat -> list_sum (map (fun p : nat * nat => fst p + snd p + 6)%nat (pairs W)) = list_sum (map (fun w => w + 3)%nat W) /\ length (pairs W) = n.
Proof.
  revert W. induction n as [|n IH]; intros W L; [destruct W; [split; reflexivity|discriminate]|]. destruct W as [|a [|b W]]; cbn in L; try lia. destruct (IH W ltac:(lia)) as [A B].
  cbn [pairs map list_sum fold_right length fst snd]. unfold list_sum in A. rewrite A, B. split; [lia|reflexivity].
Qed.
