(* PTable6.v -- LaTeX labels *)
From Verif Require Import Base MString MIo SIo MPeriod MTable STable PBase PString PIo.
From Coq Require Import Lia.
Local Open Scope string_scope.

Lemma sdrop_len n s : String.length (sdrop n s) = (String.length s - n)%nat.
Proof. revert s. induction n as [|n IH]; intros [|c s]; cbn; auto. Qed.
Lemma sdrop_split n s : exists p, s = p ++ sdrop n s.
Proof. revert s. induction n as [|n IH]; intros [|c s]; cbn; [exists ""; reflexivity|exists ""; reflexivity|exists ""; reflexivity|]. destruct (IH s) as [p E]. exists (String c p). cbn. f_equal. exact E. Qed.
Lemma last2_iff s t : (2 <= String.length s)%nat -> last2 s = t <-> ends_with2 s t.
Proof.
  intros L. unfold last2, ends_with2. split.
  - intros <-. split; [rewrite sdrop_len; lia|apply sdrop_split].
  - intros [E [p ->]]. rewrite slen_app, E. replace (String.length p + 2 - 2)%nat with (String.length p) by lia. apply sdrop_app.
Qed.
Ltac known H := repeat (destruct H as [<-|H]; [reflexivity|]); try destruct H.
(* names that are not in the fixed list *)
Lemma dget_latexMap_none v : ~ In v (dkeys latexMap) -> dget latexMap v = None.
Proof. intros N. destruct (dget latexMap v) eqn:E; [|reflexivity]. exfalso. apply N, dget_some_in. eauto. Qed.
Lemma latexMap_len v : In v (dkeys latexMap) -> String.length v <> 2%nat.
Proof. intros H. cbn in H. repeat (destruct H as [<-|H]; [cbn; lia|]). destruct H. Qed.
Lemma latexMap_first v : In v (dkeys latexMap) -> match v with String c _ => In c ["f"; "w"; "g"; "l"; "h"; "L"; "d"; "c"; "x"; "z"]%char | "" => False end.
Proof. intros H. cbn in H. repeat (destruct H as [<-|H]; [cbn; tauto|]). destruct H. Qed.
Ltac notknown := apply dget_latexMap_none; intros K; apply latexMap_first in K; cbn in K; intuition discriminate.

Theorem to_latex_iff var l : to_latex var = Ok l <-> latex_label var l.
Proof.
  split.
  - unfold to_latex. destruct (dget latexMap var) as [l'|] eqn:E.
    + intros H. injection H as ->. apply dget_in in E. unfold latexMap in E. cbn [In] in E.
      repeat (destruct E as [E|E]; [injection E as <- <-; first [apply ll_gamma|apply ll_lam|apply ll_lamst|apply ll_letter; cbn; tauto
        |match goal with |- latex_label (String ?a ?s) _ => refine (ll_length a s _); cbn; tauto end
        |match goal with |- latex_label (String _ ?s) _ => refine (ll_handlebar s _); auto end]|]). destruct E.
    + destruct (starts_with "alpha" var) eqn:A.
      { apply starts_with_iff in A as [r ->]. intros H. injection H as <-. apply ll_alpha. apply last2_iff; [rewrite slen_app; cbn; lia|reflexivity]. }
      destruct (starts_with "a" var && (String.length var =? 3)%nat) eqn:B.
      { apply andb_true_iff in B as [B1 B2]. apply starts_with_iff in B1 as [r ->]. apply Nat.eqb_eq in B2. intros H. injection H as <-. cbn in B2.
        assert (L : String.length r = 2%nat) by lia. assert (Q : last2 ("a" ++ r) = r) by (apply last2_iff; [cbn; lia|split; [exact L|exists "a"; reflexivity]]).
        cbn [append] in Q |- *. rewrite Q. apply (ll_angle r L). }
      destruct (starts_with "T" var) eqn:C.
      { apply starts_with_iff in C as [r ->]. destruct r as [|c r]; [discriminate|]. intros H. injection H as <-. apply (ll_period c _ r). apply last2_iff; [cbn; lia|reflexivity]. }
      destruct (String.length var =? 2)%nat eqn:D.
      { apply Nat.eqb_eq in D. destruct var as [|a [|b [|x v]]]; try discriminate. intros H. injection H as <-. apply (ll_pair a b). intros ->. cbn in C. discriminate. }
      destruct (starts_with "I" var) eqn:F; [|discriminate]. apply starts_with_iff in F as [r ->]. intros H. injection H as <-. apply Nat.eqb_neq in D.
      apply (ll_inertia r). intros K. apply D. cbn. rewrite K. reflexivity.
  - intros H. destruct H as [a H| | | |a s H|s H|s var H|s H|c s var H|a b H|s H].
    + cbn in H. known H.
    + reflexivity.
    + reflexivity.
    + reflexivity.
    + cbn [In] in H. repeat (destruct H as [H|H]; [injection H as <- <-; reflexivity|]). destruct H.
    + destruct H as [-> | ->]; reflexivity.
    + unfold to_latex. rewrite dget_latexMap_none by (intros K; apply latexMap_first in K; cbn in K; intuition discriminate).
      assert (S : starts_with "alpha" ("alpha" ++ var) = true) by (apply starts_with_iff; eauto). rewrite S. f_equal. f_equal. f_equal.
      apply last2_iff; [rewrite slen_app; cbn; lia|exact H].
    + unfold to_latex. rewrite dget_latexMap_none by (intros K; apply latexMap_first in K; cbn in K; intuition discriminate).
      destruct s as [|x [|y [|z s]]]; try discriminate. cbn [append starts_with String.length Nat.eqb andb]. rewrite ?andb_false_r. cbn.
      rewrite ?andb_false_r. reflexivity.
    + unfold to_latex. rewrite dget_latexMap_none by (intros K; apply latexMap_first in K; cbn in K; intuition discriminate). cbn [append starts_with Ascii.eqb Bool.eqb andb schar sdrop bind].
      f_equal. change (String "T" (String c var)) with ("T" ++ String c var). rewrite (proj2 (last2_iff ("T" ++ String c var) s ltac:(cbn; lia)) H). reflexivity.
    + unfold to_latex. rewrite dget_latexMap_none by (intros K; apply latexMap_len in K; cbn in K; lia).
      assert (S1 : starts_with "alpha" (String a (String b "")) = false).
      { destruct (starts_with "alpha" (String a (String b ""))) eqn:S; [|reflexivity]. apply starts_with_iff in S as [r S]. discriminate. }
      assert (S2 : starts_with "T" (String a (String b "")) = false).
      { destruct (starts_with "T" (String a (String b ""))) eqn:S; [|reflexivity]. apply starts_with_iff in S as [r S]. injection S as -> _. congruence. }
      rewrite S1, S2. cbn [String.length Nat.eqb]. rewrite andb_false_r. reflexivity.
    + unfold to_latex. rewrite dget_latexMap_none by (intros K; apply latexMap_first in K; cbn in K; intuition discriminate).
      change ("I" ++ s) with (String "I" s). cbn [starts_with Ascii.eqb Bool.eqb andb String.length].
      destruct (S (String.length s) =? 2)%nat eqn:D; [apply Nat.eqb_eq in D; lia|]. reflexivity.
Qed.
