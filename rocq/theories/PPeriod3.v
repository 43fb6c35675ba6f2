(* PPeriod3.v -- data selection *)
From Verif Require Import Base MIo SIo MPeriod SPeriod PBase PIo3.
From Coq Require Import Lra Lia ZArith.
Local Open Scope R_scope.

(* ---- argmax, argmin ---- *)
Definition first_best (better : R -> R -> bool) (l : list R) (i : nat) (v : R) : Prop :=
  nth_error l i = Some v /\ forall j x, nth_error l j = Some x -> better x v = false /\ ((j < i)%nat -> better v x = true).
Lemma argbest_spec better : (forall a b c, better a b = true -> better b c = true -> better a c = true) ->
  (forall a, better a a = false) -> (forall a b c, better a b = true -> better c b = false -> better a c = true) ->
  forall l pre best v, first_best better pre best v -> (best < length pre)%nat ->
  let '(i, w) := argbest better (length pre) best v l in first_best better (pre ++ l) i w.
Proof.
  intros Tr Ir Mid. induction l as [|x l IH]; intros pre best v [H1 H2] Hb; cbn [argbest].
  - rewrite app_nil_r. split; assumption.
  - assert (Len : length (pre ++ [x]) = S (length pre)) by (rewrite app_length; cbn; lia).
    assert (Nx : nth_error (pre ++ [x]) (length pre) = Some x) by (rewrite nth_error_app2, Nat.sub_diag by lia; reflexivity).
    destruct (better x v) eqn:E.
    + specialize (IH (pre ++ [x])%list (length pre) x). rewrite Len in IH. rewrite <- app_assoc in IH. apply IH; [|lia]. split; [exact Nx|].
      intros j y Hj. destruct (Nat.lt_ge_cases j (length pre)) as [L|L].
      * rewrite nth_error_app1 in Hj by exact L. destruct (H2 j y Hj) as [A B]. pose proof (Mid x v y E A) as K. split; [|intros _; exact K].
        destruct (better y x) eqn:F; [|reflexivity]. pose proof (Tr _ _ _ F K) as C. rewrite Ir in C. discriminate.
      * assert (j = length pre) as -> by (assert (j < length (pre ++ [x]))%nat by (apply nth_error_Some; congruence); lia).
        rewrite Nx in Hj. injection Hj as <-. split; [apply Ir|lia].
    + specialize (IH (pre ++ [x])%list best v). rewrite Len in IH. rewrite <- app_assoc in IH. apply IH; [|lia]. split; [rewrite nth_error_app1 by exact Hb; exact H1|].
      intros j y Hj. destruct (Nat.lt_ge_cases j (length pre)) as [L|L].
      * rewrite nth_error_app1 in Hj by exact L. apply H2, Hj.
      * assert (j = length pre) as -> by (assert (j < length (pre ++ [x]))%nat by (apply nth_error_Some; congruence); lia).
        rewrite Nx in Hj. injection Hj as <-. split; [exact E|lia].
Qed.
Lemma Rltb_t a b : Rltb a b = true <-> a < b. Proof. apply Rltb_spec. Qed.
Lemma Rltb_f a b : Rltb a b = false <-> b <= a. Proof. apply Rltb_false. Qed.
Lemma argmax_spec l i v : argmax l = Ok (i, v) -> nth_error l i = Some v /\ first_largest l i.
Proof.
  destruct l as [|x l]; [discriminate|]. cbn [argmax]. intros H.
  pose proof (argbest_spec (fun a b => Rltb b a)) as S.
  assert (K : first_best (fun a b => Rltb b a) (x :: l) i v).
  { specialize (S ltac:(intros a b c; rewrite !Rltb_t; lra) ltac:(intros a; apply Rltb_f; lra) ltac:(intros a b c; rewrite !Rltb_t, Rltb_f; lra) l [x] 0%nat x).
    injection H as H. cbn [length] in S. rewrite H in S. apply S; [|cbn; lia]. split; [reflexivity|]. intros [|j] y Hj; [|destruct j; discriminate].
    injection Hj as <-. split; [apply Rltb_f; lra|lia]. }
  destruct K as [K1 K2]. split; [exact K1|]. exists v. split; [exact K1|]. intros j y Hj. destruct (K2 j y Hj) as [A B]. rewrite Rltb_f in A. split; [exact A|].
  intros ->. destruct (Nat.le_gt_cases i j) as [L|L]; [exact L|]. specialize (B L). apply Rltb_t in B. lra.
Qed.
Lemma argmin_spec l i v : argmin l = Ok (i, v) -> nth_error l i = Some v /\ forall j x, nth_error l j = Some x -> v <= x.
Proof.
  destruct l as [|x l]; [discriminate|]. cbn [argmin]. intros H. pose proof (argbest_spec Rltb) as S.
  assert (K : first_best Rltb (x :: l) i v).
  { specialize (S ltac:(intros a b c; rewrite !Rltb_t; lra) ltac:(intros a; apply Rltb_f; lra) ltac:(intros a b c; rewrite !Rltb_t, Rltb_f; lra) l [x] 0%nat x).
    injection H as H. cbn [length] in S. rewrite H in S. apply S; [|cbn; lia]. split; [reflexivity|]. intros [|j] y Hj; [|destruct j; discriminate].
    injection Hj as <-. split; [apply Rltb_f; lra|lia]. }
  destruct K as [K1 K2]. split; [exact K1|]. intros j y Hj. destruct (K2 j y Hj) as [A _]. apply Rltb_f in A. exact A.
Qed.
Lemma argmax_ok l : l <> [] -> exists iv, argmax l = Ok iv.
Proof. destruct l; [congruence|]. intros _. eexists. reflexivity. Qed.
Lemma argmin_ok l : l <> [] -> exists iv, argmin l = Ok iv.
Proof. destruct l; [congruence|]. intros _. eexists. reflexivity. Qed.

(* ---- slices ---- *)
Lemma nth_error_firstn {A} (l : list A) n i : (i < n)%nat -> nth_error (firstn n l) i = nth_error l i.
Proof. revert n i. induction l as [|x l IH]; intros [|n] [|i] H; try lia; cbn; try reflexivity. apply IH. lia. Qed.
Lemma nth_error_skipn {A} (l : list A) a i : nth_error (skipn a l) i = nth_error l (a + i).
Proof. revert a. induction l as [|x l IH]; intros [|a]; cbn; try reflexivity; [destruct i; reflexivity|apply IH]. Qed.
Lemma slice_part {A} (l : list A) a b : part_of l a b (slice l a b).
Proof.
  unfold slice. split; [|split].
  - intros H. rewrite firstn_length, skipn_length. lia.
  - intros H. replace (b - a)%nat with 0%nat by lia. reflexivity.
  - intros i H. rewrite nth_error_firstn by lia. apply nth_error_skipn.
Qed.
Lemma last_index_some f l i : last_index f l = Some i <->
  exists v, nth_error l i = Some v /\ f v = true /\ forall j x, nth_error l j = Some x -> f x = true -> (j <= i)%nat.
Proof.
  revert i. induction l as [|x l IH]; intros i; cbn [last_index].
  - split; [discriminate|]. intros [v [H _]]. destruct i; discriminate.
  - destruct (last_index f l) as [k|] eqn:E.
    + destruct (proj1 (IH k) eq_refl) as [v [H1 [H2 H3]]]. split.
      * intros H. injection H as <-. exists v. split; [exact H1|]. split; [exact H2|]. intros [|j] y Hj Fy; [lia|]. specialize (H3 j y Hj Fy). lia.
      * intros [w [G1 [G2 G3]]]. specialize (G3 (S k) v H1 H2). destruct i as [|i]; [lia|]. specialize (H3 i w G1 G2). f_equal. lia.
    + assert (N : forall j y, nth_error l j = Some y -> f y = false).
      { clear -E. induction l as [|z l IH]; intros j y Hj; [destruct j; discriminate|]. cbn in E. destruct (last_index f l); [discriminate|].
        destruct (f z) eqn:Fz; [discriminate|]. destruct j as [|j]; [injection Hj as <-; exact Fz|apply (IH eq_refl j y Hj)]. }
      destruct (f x) eqn:Fx; split.
      * intros H. injection H as <-. exists x. split; [reflexivity|]. split; [exact Fx|]. intros [|j] y Hj Fy; [lia|]. rewrite (N j y Hj) in Fy. discriminate.
      * intros [w [G1 [G2 G3]]]. destruct i as [|i]; [reflexivity|]. cbn in G1. rewrite (N i w G1) in G2. discriminate.
      * discriminate.
      * intros [w [G1 [G2 G3]]]. destruct i as [|i]; [injection G1 as <-; congruence|]. cbn in G1. rewrite (N i w G1) in G2. discriminate.
Qed.
Lemma last_index_none f l : last_index f l = None <-> forall x, In x l -> f x = false.
Proof.
  induction l as [|x l IH]; cbn [last_index]; [split; [intros _ ? []|reflexivity]|]. destruct (last_index f l) as [k|].
  - split; [discriminate|]. intros H. destruct IH as [_ IH]. discriminate IH. intros; apply H; right; assumption.
  - destruct IH as [IH _]. specialize (IH eq_refl). destruct (f x) eqn:E.
    + split; [discriminate|]. intros H. rewrite (H x (or_introl eq_refl)) in E. discriminate.
    + split; [|reflexivity]. intros _ y [<-|Hy]; auto.
Qed.

Lemma deviations_eq data : map (fun x => x - mean data) data = deviations data. Proof. reflexivity. Qed.
Lemma nth_error_map_some {A B} (f : A -> B) l i y : nth_error (map f l) i = Some y -> exists x, nth_error l i = Some x /\ y = f x.
Proof. rewrite nth_error_map. destruct (nth_error l i); [|discriminate]. intros H. injection H as <-. eauto. Qed.
Lemma select_good_data_ok data pct out : select_good_data data pct = Ok out ->
  exists i j peak v,
    first_largest (map Rabs (deviations data)) i /\ nth_error (deviations data) i = Some peak
    /\ nth_error (deviations data) j = Some v /\ pct * Rabs peak < v
    /\ (forall k w, nth_error (deviations data) k = Some w -> pct * Rabs peak < w -> (k <= j)%nat)
    /\ part_of data i j out.
Proof.
  unfold select_good_data. rewrite deviations_eq. intros H. apply bind_ok in H as [[i v] [H1 H]]. apply argmax_spec in H1 as [N F].
  apply nth_error_map_some in N as [peak [N ->]]. destruct (last_index _ (deviations data)) as [j|] eqn:E; [|discriminate]. injection H as <-.
  apply last_index_some in E as [w [E1 [E2 E3]]]. apply Rltb_t in E2. exists i, j, peak, w.
  split; [exact F|]. split; [exact N|]. split; [exact E1|]. split; [exact E2|]. split; [|apply slice_part].
  intros k x Hk Hx. apply (E3 k x Hk). apply Rltb_t, Hx.
Qed.
Lemma deviations_ne data : data <> [] -> map Rabs (deviations data) <> [].
Proof. destruct data; [congruence|]. discriminate. Qed.
Lemma select_good_data_err data pct e : select_good_data data pct = Err e ->
  (data = [] /\ exists m, e = ValueError m)
  \/ (e = UnboundLocalError /\ exists i peak, first_largest (map Rabs (deviations data)) i /\ nth_error (deviations data) i = Some peak
        /\ forall w, In w (deviations data) -> w <= pct * Rabs peak).
Proof.
  unfold select_good_data. rewrite deviations_eq. destruct (argmax (map Rabs (deviations data))) as [[i v]|e'] eqn:E; cbn [bind].
  - destruct (last_index _ (deviations data)) as [j|] eqn:L; [discriminate|]. intros H. injection H as <-. right. split; [reflexivity|].
    apply argmax_spec in E as [N F]. apply nth_error_map_some in N as [peak [N ->]]. exists i, peak. split; [exact F|]. split; [exact N|].
    intros w Hw. apply (proj1 (last_index_none _ _) L) in Hw. apply Rltb_f in Hw. exact Hw.
  - intros H. injection H as <-. left. destruct data as [|x data]; [cbn in E; injection E as <-; split; [reflexivity|eauto]|]. discriminate.
Qed.
Lemma first_largest_unique l i j : first_largest l i -> first_largest l j -> i = j.
Proof.
  intros [v [H1 H2]] [w [K1 K2]]. destruct (H2 j w K1) as [A A']. destruct (K2 i v H1) as [B B'].
  assert (v = w) by lra. specialize (A' (eq_sym H)). specialize (B' H). lia.
Qed.
Lemma select_positive_peak data pct i peak : first_largest (map Rabs (deviations data)) i -> nth_error (deviations data) i = Some peak ->
  0 < peak -> pct < 1 -> exists out, select_good_data data pct = Ok out.
Proof.
  intros F N P L. destruct (select_good_data data pct) as [out|e] eqn:E; [eauto|]. exfalso.
  apply select_good_data_err in E as [[-> _]|[_ [i' [peak' [F' [N' H]]]]]]; [destruct i; discriminate|].
  assert (i' = i) by (eapply first_largest_unique; eassumption). subst i'. rewrite N in N'. injection N' as <-.
  specialize (H peak (nth_error_In _ _ N)). rewrite Rabs_right in H by lra. nra.
Qed.

(* ---- sections ---- *)
Lemma crossings_range i l q : In q (crossings_from i l) -> (i <= q /\ q + 1 < i + length l)%nat.
Proof.
  revert i. induction l as [|x l IH]; intros i H; [destruct H|]. destruct l as [|y l]; [destruct H|].
  cbn [crossings_from] in H. change (crossings_from (S i) (y :: l)) with (crossings_from (S i) (y :: l)) in H. fold crossings_from in H.
  assert (G : In q (crossings_from (S i) (y :: l)) -> (i <= q /\ q + 1 < i + length (x :: y :: l))%nat).
  { intros K. apply IH in K. cbn [length] in *. lia. }
  destruct (Z.eqb (sgn x) (sgn y)); [apply G, H|]. destruct H as [<-|H]; [cbn [length]; lia|apply G, H].
Qed.
Lemma crossings_iff i l q : In q (crossings_from i l) <->
  exists x y, (i <= q)%nat /\ nth_error l (q - i) = Some x /\ nth_error l (S (q - i)) = Some y /\ sgn x <> sgn y.
Proof.
  revert i. induction l as [|a l IH]; intros i; [split; [intros []|intros [x [y [_ [H _]]]]; destruct (q - i)%nat; discriminate]|].
  destruct l as [|b l]; [split; [intros []|intros [x [y [_ [_ [H _]]]]]; destruct (q - i)%nat; discriminate]|].
  assert (E : In q (crossings_from i (a :: b :: l)) <-> (q = i /\ sgn a <> sgn b) \/ In q (crossings_from (S i) (b :: l))).
  { cbn [crossings_from]. destruct (Z.eqb_spec (sgn a) (sgn b)) as [K|K]; [tauto|]. split; [intros [<-|H]; auto|]. intros [[-> _]|H]; [left; reflexivity|right; exact H]. }
  rewrite E, IH. split.
  - intros [[-> K]|[x [y [L [H1 [H2 H3]]]]]].
    + exists a, b. rewrite Nat.sub_diag. repeat split; auto.
    + exists x, y. replace (q - i)%nat with (S (q - S i))%nat by lia. cbn. repeat split; auto; lia.
  - intros [x [y [L [H1 [H2 H3]]]]]. destruct (Nat.eq_dec q i) as [->|N].
    + left. rewrite Nat.sub_diag in H1, H2. cbn in H1, H2. injection H1 as <-. injection H2 as <-. auto.
    + right. exists x, y. replace (q - i)%nat with (S (q - S i))%nat in H1, H2 by lia. cbn in H1, H2. repeat split; auto; lia.
Qed.
Fixpoint sorted_from (a : nat) (l : list nat) : Prop := match l with [] => True | z :: l' => (a <= z)%nat /\ sorted_from z l' end.
Lemma crossings_sorted i a l : (a <= i)%nat -> sorted_from a (crossings_from i l).
Proof.
  revert i a. induction l as [|x l IH]; intros i a H; [exact I|]. destruct l as [|y l]; [exact I|]. cbn [crossings_from].
  destruct (Z.eqb (sgn x) (sgn y)).
  - apply (IH (S i) a). lia.
  - split; [exact H|]. apply (IH (S i) i). lia.
Qed.
Lemma split_at_length {A} (l : list A) from idx : length (split_at l from idx) = S (length idx).
Proof. revert from. induction idx as [|z idx IH]; intros from; [reflexivity|]. cbn. rewrite IH. reflexivity. Qed.
Lemma skipn_twice {A} (l : list A) x y : skipn x (skipn y l) = skipn (y + x) l.
Proof. revert y. induction l as [|a l IH]; intros [|y]; cbn; try reflexivity; [destruct x; reflexivity|apply IH]. Qed.
Lemma slice_app {A} (l : list A) a b : (a <= b)%nat -> (slice l a b ++ skipn b l)%list = skipn a l.
Proof.
  intros H. unfold slice. rewrite <- (firstn_skipn (b - a) (skipn a l)) at 2. f_equal. rewrite skipn_twice. f_equal. lia.
Qed.
Lemma split_at_concat {A} (l : list A) from idx : sorted_from from idx -> concat (split_at l from idx) = skipn from l.
Proof.
  revert from. induction idx as [|z idx IH]; intros from H; [cbn; apply app_nil_r|]. destruct H as [H1 H2]. cbn. rewrite IH by exact H2. apply slice_app, H1.
Qed.
Lemma split_at_starts {A} (l : list A) idx : forall from k st, sorted_from from idx -> Forall (fun z => z <= length l)%nat idx ->
  nth_error (from :: idx) k = Some st -> st = (from + length (concat (firstn k (split_at l from idx))))%nat.
Proof.
  induction idx as [|z idx IH]; intros from k st H F N.
  - destruct k as [|[|k]]; try discriminate. injection N as <-. cbn. lia.
  - destruct k as [|k]; [injection N as <-; cbn; lia|]. cbn [nth_error] in N. destruct H as [H1 H2]. inversion F as [|? ? Hz F']; subst.
    specialize (IH z k st H2 F' N). cbn [split_at firstn concat]. rewrite app_length.
    assert (Ls : length (slice l from z) = (z - from)%nat) by (unfold slice; rewrite firstn_length, skipn_length; lia). lia.
Qed.

Definition sections_ok (devs : list R) (starts : list nat) (secs : list (list R)) : Prop :=
  length starts = length secs /\ concat secs = map Rabs devs
  /\ (forall k st, nth_error starts k = Some st -> st = length (concat (firstn k secs)))
  /\ (forall q, In q (tl starts) <-> exists x y, nth_error devs q = Some x /\ nth_error devs (S q) = Some y /\ sgn x <> sgn y).
Lemma sections_built devs : sections_ok devs (0%nat :: crossings_from 0 devs) (split_at (map Rabs devs) 0 (crossings_from 0 devs)).
Proof.
  assert (S : sorted_from 0 (crossings_from 0 devs)) by (apply crossings_sorted; lia).
  split; [rewrite split_at_length; reflexivity|]. split; [rewrite split_at_concat by exact S; reflexivity|]. split.
  - intros k st H. apply (split_at_starts (map Rabs devs) _ 0%nat k st S) in H; [exact H|].
    apply Forall_forall. intros z Hz. apply crossings_range in Hz. rewrite map_length. lia.
  - intros q. cbn [tl]. rewrite crossings_iff. split.
    + intros [x [y [_ [H1 [H2 H3]]]]]. rewrite Nat.sub_0_r in H1, H2. eauto.
    + intros [x [y [H1 [H2 H3]]]]. exists x, y. rewrite Nat.sub_0_r. repeat split; auto. lia.
Qed.
Lemma nth_filter_in {A} (f : A -> bool) l i x : nth_error (filter f l) i = Some x -> In x l /\ f x = true.
Proof. intros H. apply nth_error_In in H. apply filter_In in H. exact H. Qed.
Lemma in_combine_nth {A B} (l : list A) (l' : list B) a b : In (a, b) (combine l l') -> exists k, nth_error l k = Some a /\ nth_error l' k = Some b.
Proof.
  revert l'. induction l as [|x l IH]; intros [|y l'] H; try destruct H as [].
  - injection H as -> ->. exists 0%nat. auto.
  - destruct (IH l' H) as [k K]. exists (S k). exact K.
Qed.
Lemma nth_combine_in {A B} (l : list A) (l' : list B) k a b : nth_error l k = Some a -> nth_error l' k = Some b -> In (a, b) (combine l l').
Proof.
  revert l' k. induction l as [|x l IH]; intros l' k H1 H2; [destruct k; discriminate|]. destruct l' as [|y l']; [destruct k; discriminate|].
  destruct k as [|k]; [injection H1 as ->; injection H2 as ->; left; reflexivity|right; eapply IH; eassumption].
Qed.
Lemma Forall2_nth {A B} (P : A -> B -> Prop) l l' k b : Forall2 P l l' -> nth_error l' k = Some b -> exists a, nth_error l k = Some a /\ P a b.
Proof.
  intros H. revert k. induction H as [|x y l l' Hxy H IH]; intros [|k] K; try discriminate; [injection K as <-; exists x; auto|]. apply (IH k K).
Qed.
Lemma Forall2_nth' {A B} (P : A -> B -> Prop) l l' k a : Forall2 P l l' -> nth_error l k = Some a -> exists b, nth_error l' k = Some b /\ P a b.
Proof.
  intros H. revert k. induction H as [|x y l l' Hxy H IH]; intros [|k] K; try discriminate; [injection K as <-; exists y; auto|]. apply (IH k K).
Qed.
Lemma Forall2_len {A B} (P : A -> B -> Prop) l l' : Forall2 P l l' -> length l = length l'.
Proof. induction 1; cbn; congruence. Qed.
Lemma nth_of_error {A} (l : list A) i x d : nth_error l i = Some x -> nth i l d = x.
Proof. revert i. induction l as [|y l IH]; intros [|i] H; try discriminate; cbn in *; [congruence|auto]. Qed.

Lemma rectified_ok data out : average_rectified_sections data = Ok out ->
  exists starts secs, sections_ok (deviations data) starts secs /\ Forall (fun s => s <> []) secs /\
    let thr := average (map average secs) in
    exists i si xi li j sj xj lj,
      nth_error starts i = Some si /\ nth_error secs i = Some xi /\ first_largest xi li
      /\ thr < average xi /\ (forall x, In x secs -> average x <= average xi)
      /\ nth_error starts j = Some sj /\ nth_error secs j = Some xj /\ first_largest xj lj
      /\ thr < average xj /\ (forall x, In x secs -> thr < average x -> average xj <= average x)
      /\ part_of data (si + li) (sj + lj) out.
Proof.
  unfold average_rectified_sections. rewrite deviations_eq. set (devs := deviations data). set (zc := crossings_from 0 devs).
  set (secs := split_at (map Rabs devs) 0 zc). intros H. apply bind_ok in H as [loc [HL H]].
  apply mapM_iff in HL. set (starts := (0%nat :: zc)) in *. exists starts, secs. split; [apply sections_built|].
  assert (P : Forall2 (fun sec il => snd il = mean sec /\ exists v, argmax sec = Ok (fst il, v)) secs loc).
  { revert HL. apply (fun H => proj1 (Forall2_iff _ _ secs loc H)). intros sec il. split.
    - intros K. apply bind_ok in K as [[a v] [K1 K2]]. injection K2 as <-. cbn. eauto.
    - intros [E [v K]]. rewrite K. cbn. destruct il; cbn in *; subst; reflexivity. }
  clear HL. split.
  { clear -P. induction P as [|x y l l' [_ [v Hv]] H IH]; constructor; [|exact IH]. intros ->. discriminate. }
  assert (SM : map snd loc = map average secs).
  { clear -P. induction P as [|x y l l' [E _] H IH]; [reflexivity|]. cbn. rewrite E, IH. reflexivity. }
  assert (LEN : length starts = length loc) by (rewrite <- (Forall2_len _ _ _ P); unfold secs, starts; rewrite split_at_length; reflexivity).
  set (meanInd := map (fun cl => (fst cl + fst (snd cl))%nat) (combine starts loc)) in *.
  rewrite SM in H. change (mean (map average secs)) with (average (map average secs)) in H. set (thr := average (map average secs)) in *.
  set (over := filter (fun vi => Rltb thr (fst vi)) (combine (map average secs) meanInd)) in *.
  apply bind_ok in H as [[imax vmax] [H1 H]]. apply bind_ok in H as [[imin vmin] [H2 H]]. injection H as <-.
  apply argmax_spec in H1 as [N1 F1]. apply argmin_spec in H2 as [N2 F2].
  (* any entry of [over] comes from a section *)
  assert (FROM : forall v q, In (v, q) over -> exists k st sec l, nth_error starts k = Some st /\ nth_error secs k = Some sec /\ first_largest sec l
            /\ v = average sec /\ thr < v /\ q = (st + l)%nat).
  { intros v q Hin. unfold over in Hin. apply filter_In in Hin as [Hin T]. cbn in T. apply Rltb_t in T.
    apply in_combine_nth in Hin as [k [K1 K2]]. apply nth_error_map_some in K1 as [sec [K1 ->]].
    destruct (Forall2_nth' _ _ _ k sec P K1) as [il [K3 [_ [w Hw]]]]. apply argmax_spec in Hw as [_ Hw].
    unfold meanInd in K2. apply nth_error_map_some in K2 as [[st il'] [K2 ->]].
    assert (K4 : nth_error starts k = Some st /\ nth_error loc k = Some il').
    { clear -K2 LEN. revert k K2. revert LEN. generalize starts, loc. intros a. induction a as [|x a IH]; intros [|y b] L [|k] H; try discriminate; cbn in *.
      - injection H as -> ->. auto.
      - apply IH; [lia|exact H]. }
    destruct K4 as [K4 K5]. rewrite K3 in K5. injection K5 as <-. cbn. exists k, st, sec, (fst il). repeat split; auto. }
  assert (INTO : forall sec, In sec secs -> thr < average sec -> exists q, In (average sec, q) over).
  { intros sec Hs T. apply In_nth_error in Hs as [k Hk]. destruct (Forall2_nth' _ _ _ k sec P Hk) as [il [K3 _]].
    assert (Hst : exists st, nth_error starts k = Some st).
    { destruct (nth_error starts k) eqn:E; [eauto|]. apply nth_error_None in E. assert (k < length loc)%nat by (apply nth_error_Some; congruence). lia. }
    destruct Hst as [st Hst]. exists (st + fst il)%nat. unfold over. apply filter_In. split; [|apply Rltb_t, T].
    apply (nth_combine_in _ _ k); [rewrite nth_error_map, Hk; reflexivity|]. unfold meanInd. rewrite nth_error_map.
    assert (K6 : nth_error (combine starts loc) k = Some (st, il)).
    { clear -Hst K3. revert k Hst K3. generalize starts, loc. intros a. induction a as [|x a IH]; intros [|y b] [|k] H1 H2; try discriminate; cbn in *; [congruence|auto]. }
    rewrite K6. reflexivity. }
  apply nth_error_map_some in N1 as [[v1 q1] [N1 E1]]. apply nth_error_map_some in N2 as [[v2 q2] [N2 E2]]. cbn in E1, E2. subst vmax vmin.
  destruct (FROM v1 q1 (nth_error_In _ _ N1)) as [i [si [xi [li [A1 [A2 [A3 [A4 [A5 A6]]]]]]]]].
  destruct (FROM v2 q2 (nth_error_In _ _ N2)) as [j [sj [xj [lj [B1 [B2 [B3 [B4 [B5 B6]]]]]]]]].
  subst v1 q1 v2 q2. exists i, si, xi, li, j, sj, xj, lj.
  split; [exact A1|]. split; [exact A2|]. split; [exact A3|]. split; [exact A5|]. split.
  { intros x Hx. destruct (Rle_lt_dec (average x) thr) as [L|L]; [lra|]. destruct (INTO x Hx L) as [q Hq].
    apply In_nth_error in Hq as [k Hk]. destruct F1 as [v [G1 G2]].
    assert (G1' : nth_error (map fst over) imax = Some (average xi)) by (rewrite nth_error_map, N1; reflexivity). rewrite G1' in G1. injection G1 as <-.
    assert (Hk' : nth_error (map fst over) k = Some (average x)) by (rewrite nth_error_map, Hk; reflexivity). apply (G2 k _ Hk'). }
  split; [exact B1|]. split; [exact B2|]. split; [exact B3|]. split; [exact B5|]. split.
  { intros x Hx L. destruct (INTO x Hx L) as [q Hq]. apply In_nth_error in Hq as [k Hk].
    assert (Hk' : nth_error (map fst over) k = Some (average x)) by (rewrite nth_error_map, Hk; reflexivity). apply (F2 k _ Hk'). }
  assert (Q1 : nth imax (map snd over) 0%nat = (si + li)%nat) by (apply nth_of_error; rewrite nth_error_map, N1; reflexivity).
  assert (Q2 : nth imin (map snd over) 0%nat = (sj + lj)%nat) by (apply nth_of_error; rewrite nth_error_map, N2; reflexivity).
  rewrite Q1, Q2. apply slice_part.
Qed.
