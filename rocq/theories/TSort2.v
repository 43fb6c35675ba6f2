(* TSort2.v -- C10: exactly when sorting keeps every eigenvalue *)
From Coq Require Import Lra Lia Permutation.
From Verif Require Import Base MBicycle SSort PSort SSort2.
Local Open Scope R_scope.

Definition index_free (next : list (R * R)) (e : R * R) (taken : list nat) : Prop :=
  exists j y, nth_error next j = Some y /\ ~ In j taken /\
     forall a b x z, nth_error next a = Some x -> nth_error next b = Some z -> edist e x < edist e y -> edist e z < edist e y -> a = b.
Lemma step_free (next : list (R * R)) e taken k k0 : (forall j l x y, nth_error next j = Some x -> nth_error next l = Some y -> edist e x = edist e y -> j = l) ->
  nearest_among (fun _ => True) e next k0 -> (k = k0 /\ ~ In k0 taken \/ In k0 taken /\ nearest_among (fun j => j <> k0) e next k) ->
  (~ In k taken <-> index_free next e taken).
Proof.
  intros NT N0 C. split.
  - intros NI. destruct C as [[-> NI0]|[I0 N1]].
    + destruct N0 as (_ & y & Hy & M). exists k0, y. split; [exact Hy|]. split; [exact NI|]. intros a b x z A B X Z. destruct (M a x Logic.I A). lra.
    + destruct N1 as (_ & y & Hy & M). exists k, y. split; [exact Hy|]. split; [exact NI|]. intros a b x z A B X Z.
      destruct (Nat.eq_dec a k0) as [->|Na]; [|destruct (M a x Na A); lra]. destruct (Nat.eq_dec b k0) as [->|Nb]; [reflexivity|destruct (M b z Nb B); lra].
  - intros (j & y & Hy & NI & U) I. destruct C as [[-> NI0]|[I0 N1]]; [exact (NI0 I)|].
    destruct N0 as (_ & x0 & H0 & M0). destruct N1 as (K & x1 & H1 & M1).
    assert (J0 : j <> k0) by (intros ->; contradiction). assert (J1 : j <> k) by (intros ->; contradiction).
    assert (L0 : edist e x0 < edist e y). { destruct (M0 j y Logic.I Hy) as [A _]. destruct (Req_dec (edist e x0) (edist e y)) as [Q|Q]; [|lra]. elim J0. symmetry. exact (NT _ _ _ _ H0 Hy Q). }
    assert (L1 : edist e x1 < edist e y). { destruct (M1 j y J0 Hy) as [A _]. destruct (Req_dec (edist e x1) (edist e y)) as [Q|Q]; [|lra]. elim J1. symmetry. exact (NT _ _ _ _ H1 Hy Q). }
    apply K. symmetry. exact (U _ _ _ _ H0 H1 L0 L1).
Qed.
Lemma greedy_iff next cur taken ks : greedy next cur taken ks -> no_ties cur next -> NoDup taken ->
  (NoDup (taken ++ ks)%list <-> forall j e, nth_error cur j = Some e -> index_free next e (taken ++ firstn j ks)%list).
Proof.
  intros G. assert (SW : forall (t : list nat) k l, (t ++ k :: l = (t ++ [k]) ++ l)%list) by (intros; rewrite <- app_assoc; reflexivity).
  assert (ST : forall e (cur : list (R * R)) t k ks, NoDup t -> (~ In k t <-> index_free next e t) ->
     (NoDup (t ++ [k])%list -> (NoDup ((t ++ [k]) ++ ks)%list <-> forall j e, nth_error cur j = Some e -> index_free next e ((t ++ [k]) ++ firstn j ks)%list)) ->
     (NoDup (t ++ k :: ks)%list <-> forall j e', nth_error (e :: cur) j = Some e' -> index_free next e' (t ++ firstn j (k :: ks))%list)).
  { intros e c t k l ND F IH. assert (NK : ~ In k t -> NoDup (t ++ [k])%list).
    { intros N. eapply Permutation_NoDup; [apply Permutation_cons_append|]. constructor; assumption. }
    split.
    - intros H. assert (N : ~ In k t) by (intros I; apply NoDup_remove_2 in H; apply H, in_or_app; left; exact I).
      rewrite SW in H. intros [|j] e' E; cbn [nth_error firstn] in *.
      + assert (e' = e) as -> by congruence. rewrite app_nil_r. apply F. exact N.
      + rewrite SW. apply (proj1 (IH (NK N)) H j e' E).
    - intros H. assert (N : ~ In k t) by (apply F; specialize (H 0%nat e eq_refl); cbn [firstn] in H; rewrite app_nil_r in H; exact H).
      rewrite SW. apply (IH (NK N)). intros j e' E. specialize (H (S j) e' E). cbn [firstn] in H. rewrite SW in H. exact H. }
  induction G as [t|e cur t k ks N0 NI G IH|e cur t k0 k ks N0 I0 N1 G IH]; intros NT ND.
  - rewrite app_nil_r. split; [intros _ [|j] e E; discriminate|intros _; exact ND].
  - apply ST; [exact ND| |intros H; apply IH; [|exact H]; intros x a b u v I; apply (NT x a b u v); right; exact I].
    apply (step_free next e t k k); [intros a b x y; apply (NT e a b x y); left; reflexivity|exact N0|left; split; [reflexivity|exact NI]].
  - apply ST; [exact ND| |intros H; apply IH; [|exact H]; intros x a b u v I; apply (NT x a b u v); right; exact I].
    apply (step_free next e t k k0); [intros a b x y; apply (NT e a b x y); left; reflexivity|exact N0|right; split; assumption].
Qed.
Lemma ks_length (next cur : list (R * R)) t ks : greedy next cur t ks -> length ks = length cur.
Proof. induction 1; cbn [length]; congruence. Qed.

(* Sorting keeps every eigenvalue of a row if and only if, for each eigenvalue of the row
   before in turn, one of its two nearest neighbours has not been given to an earlier one. *)
Theorem C10_permutation_iff : forall V m (r0 : list (R * R) * list V) rows out i p r o,
  rect m (r0 :: rows) -> sort_eigenmodes (r0 :: rows) = Ok (r0 :: out) ->
  nth_error (r0 :: out) i = Some p -> nth_error rows i = Some r -> nth_error out i = Some o -> no_ties (fst p) (fst r) ->
  (Permutation (fst r) (fst o) <->
   forall j e, nth_error (fst p) j = Some e -> exists x, among_two_nearest e (fst r) x /\ ~ In x (firstn j (fst o))).
Proof.
  intros V m r0 rows out i p r o RC E NP NR NO NT. destruct (sort_eigenmodes_spec m r0 rows RC) as (out' & E' & RO & LO & CH).
  assert (out' = out) by congruence. subst out'. clear E E'.
  assert (ST : (exists ks, greedy (fst r) (fst p) [] ks /\ rearranged ks r o) /\ length (fst p) = m /\ length (fst r) = m).
  { inversion RC as [|? ? R0 RC']; subst. clear RC. revert r0 rows out CH R0 RC' RO NP NR NO LO. induction i as [|i IH]; intros r0 [|r1 rows] [|o1 out] CH R0 RC' RO NP NR NO LO; try discriminate.
    - cbn [nth_error] in *. assert (p = r0) by congruence. assert (r1 = r) by congruence. assert (o1 = o) by congruence. subst. cbn [chained] in CH. destruct CH as [CH _]. inversion RC' as [|? ? R1 _]; subst.
      split; [exact CH|split; [apply R0|apply R1]].
    - cbn [chained] in CH. destruct CH as [_ CH]. inversion RC'; subst. inversion RO; subst. eapply (IH o1 rows out); try eassumption; try exact NP; try exact NR; try exact NO. cbn [length] in LO. lia. }
  destruct ST as ((ks & G & RA & _) & LP & LR).
  pose proof (greedy_iff _ _ _ _ G NT (NoDup_nil _)) as GI. cbn [app] in GI.
  assert (FL : Forall (fun k => (k < length (fst r))%nat) ks) by (clear - RA; induction RA; constructor; [apply nth_error_Some; congruence|assumption]).
  assert (LK : length ks = m) by (rewrite (ks_length _ _ _ _ G); exact LP).
  destruct m as [|m].
  { destruct (fst p) as [|e cur]; [|discriminate]. destruct (fst r) as [|? ?]; [|discriminate]. destruct ks; [|discriminate]. inversion RA. split; [intros _ [|j] e N; discriminate|intros _; constructor]. }
  assert (DI : forall j k x, nth_error (fst r) j = Some x -> nth_error (fst r) k = Some x -> j = k).
  { intros j k x J K. destruct (fst p) as [|e cur]; [discriminate|]. apply (NT e j k x x (or_introl eq_refl) J K eq_refl). }
  assert (PE : Permutation (fst r) (fst o) <-> NoDup ks).
  { split.
    - intros P. assert (NR' : NoDup (fst o)).
      { eapply Permutation_NoDup; [exact P|]. apply NoDup_nth_error. intros a b A B. destruct (nth_error (fst r) a) as [x|] eqn:X; [|apply nth_error_None in X; lia]. apply (DI a b x X). congruence. }
      apply NoDup_nth_error. intros a b A B. destruct (nth_error ks a) as [k|] eqn:X; [|apply nth_error_None in X; lia].
      assert (AB : nth_error (fst o) a = nth_error (fst o) b).
      { clear - RA X B. assert (forall a, nth_error ks a = Some k -> nth_error (fst o) a = nth_error (fst r) k) as H.
        { clear - RA. induction RA as [|k' y ks l H F IH]; intros [|a] E; cbn [nth_error] in *; try discriminate; [congruence|]. apply IH, E. }
        rewrite (H a X), (H b (eq_sym B)). reflexivity. }
      assert (LO' : length (fst o) = length ks) by (symmetry; clear - RA; induction RA; cbn [length]; congruence).
      revert AB. apply (proj1 (NoDup_nth_error _) NR'). lia.
    - intros ND. assert (PS : Permutation ks (seq 0 (S m))) by (apply nodup_perm_seq; [exact ND|exact LK|rewrite LR in FL; exact FL]).
      destruct (rearranged_perm (S m) ks (fst r, fst r) (fst o, fst o)) as [_ PP]; [exact LR|exact LR|exact PS|split; exact RA|exact PP]. }
  rewrite PE, GI. clear PE GI G FL RO CH RC NP NR NO LO.
  assert (TF : forall j y, nth_error (fst r) j = Some y -> forall n, In j (firstn n ks) <-> In y (firstn n (fst o))).
  { intros j y Hy. clear - RA Hy DI. induction RA as [|k z ks l H F IH]; intros [|n]; cbn [firstn In]; try tauto. rewrite (IH n). split.
    - intros [->|I]; [left; congruence|right; exact I].
    - intros [->|I]; [left; exact (DI _ _ _ H Hy)|right; exact I]. }
  split; intros H j e Hj.
  - destruct (H j e Hj) as (a & y & Ha & NI & U). exists y. split; [|rewrite <- (TF a y Ha j); exact NI]. split; [apply nth_error_In in Ha; exact Ha|].
    intros u v Iu Iv Du Dv. apply In_nth_error in Iu, Iv. destruct Iu as [b Hb], Iv as [c Hc]. specialize (U _ _ _ _ Hb Hc Du Dv). congruence.
  - destruct (H j e Hj) as (y & [I U] & NI). apply In_nth_error in I. destruct I as [a Ha]. exists a, y. split; [exact Ha|]. split; [rewrite (TF a y Ha j); exact NI|].
    intros b c u v Hb Hc Du Dv. assert (u = v) by (apply U; [apply nth_error_In in Hb; exact Hb|apply nth_error_In in Hc; exact Hc|exact Du|exact Dv]). subst v. exact (DI _ _ _ Hb Hc).
Qed.
Print Assumptions C10_permutation_iff.

(* rows without ties: the eigenvalue 1 is nearest to 0 and 10, which go to 0 and 9, if 0
   and 9 come first; otherwise nothing is lost *)
Definition next_row : list (R * R) * list nat := ([(0, 0); (10, 0); (20, 0)], [0; 1; 2]%nat).
Definition first_row (a b c : R) : list (R * R) * list nat := ([(a, 0); (b, 0); (c, 0)], [0; 1; 2]%nat).
Lemma real_edist a b : edist (a, 0) (b, 0) = Rabs (b - a).
Proof. rewrite <- cdist_edist. apply cdist_real. Qed.
Ltac abs_lra := unfold Rabs in *; repeat match goal with |- context [Rcase_abs ?x] => destruct (Rcase_abs x) | H : context [Rcase_abs ?x] |- _ => destruct (Rcase_abs x) end; lra.
Example C10_iff_case : rect 3 [first_row 0 9 1; next_row] /\ no_ties (fst (first_row 0 9 1)) (fst next_row) /\
  exists o, sort_eigenmodes [first_row 0 9 1; next_row] = Ok [first_row 0 9 1; o] /\ ~ Permutation (fst next_row) (fst o).
Proof.
  assert (RC : rect 3 [first_row 0 9 1; next_row]) by (repeat constructor).
  assert (NT : no_ties (fst (first_row 0 9 1)) (fst next_row)).
  { intros e j k x y I J K D. cbn [first_row next_row fst In] in *.
    destruct I as [<-|[<-|[<-|[]]]]; destruct j as [|[|[|[|j]]]]; destruct k as [|[|[|[|k]]]]; cbn [nth_error] in *; try reflexivity; try discriminate; exfalso;
      injection J as <-; injection K as <-; rewrite !real_edist in D; abs_lra. }
  split; [exact RC|]. split; [exact NT|].
  destruct (sort_eigenmodes_spec 3 _ _ RC) as (out & E & RO & LO & CH). destruct out as [|o [|? ?]]; try discriminate. exists o. split; [exact E|].
  rewrite (C10_permutation_iff _ _ _ _ _ 0 _ next_row o RC E eq_refl eq_refl eq_refl NT). intros H.
  cbn [chained] in CH. destruct CH as ((ks & G & RA & _) & _).
  assert (NA : forall e k P, nearest_among P (e, 0) (fst next_row) k -> forall j y, P j -> nth_error (fst next_row) j = Some y -> (k < 3)%nat /\ edist (e, 0) (nth k (fst next_row) (0, 0)) <= edist (e, 0) y).
  { intros e k P (_ & x & X & M) j y PJ Y. destruct (M j y PJ Y) as [A _]. split; [change 3%nat with (length (fst next_row)); apply nth_error_Some; intros Q; rewrite Q in X; discriminate|]. rewrite (nth_error_nth _ _ _ X). exact A. }
  assert (K : exists ks', ks = 0%nat :: 1%nat :: ks').
  { inversion G as [|? ? ? k1 ks1 N1 F1 G1|? ? ? k0 k1 ks1 N1 F1 N1' G1]; subst; [|destruct F1].
    destruct (NA _ _ _ N1 0%nat (0, 0) Logic.I eq_refl) as [L1 D1].
    assert (k1 = 0%nat) as -> by (destruct k1 as [|[|[|k1]]]; [reflexivity| | |lia]; exfalso; cbn [next_row fst nth] in D1; rewrite !real_edist in D1; abs_lra).
    cbn [app] in G1. inversion G1 as [|? ? ? k2 ks2 N2 F2 G2|? ? ? k0 k2 ks2 N2 F2 N2' G2]; subst.
    - destruct (NA _ _ _ N2 1%nat (10, 0) Logic.I eq_refl) as [L2 D2].
      assert (k2 = 1%nat) as -> by (destruct k2 as [|[|[|k2]]]; [|reflexivity| |lia]; exfalso; cbn [next_row fst nth] in D2; rewrite !real_edist in D2; abs_lra). eauto.
    - exfalso. destruct F2 as [<-|[]]. destruct (NA _ _ _ N2 1%nat (10, 0) Logic.I eq_refl) as [_ D2]. cbn [next_row fst nth] in D2. rewrite !real_edist in D2. abs_lra. }
  destruct K as [ks' ->]. inversion RA as [|? ? ? ? A0 RA1]; subst. inversion RA1 as [|? ? ? ? A1 _]; subst. cbn in A0, A1. injection A0 as <-. injection A1 as <-.
  destruct (H 2%nat (1, 0) eq_refl) as (x & [I U] & NI). cbn [next_row fst In] in I.
  destruct I as [<-|[<-|[<-|[]]]].
  - apply NI. match goal with Q : _ = fst o |- _ => rewrite <- Q end. left. reflexivity.
  - apply NI. match goal with Q : _ = fst o |- _ => rewrite <- Q end. right. left. reflexivity.
  - assert (Q : (0, 0) = (10, 0)); [|injection Q; lra]. apply U; cbn [next_row fst In]; auto; rewrite !real_edist; abs_lra.
Qed.
