(* PIo3.v -- loading parameter files *)
From Verif Require Import Base MString MIo SIo PBase PString PIo PIo2.
From Coq Require Import ZArith Lra.
Local Open Scope string_scope.

(* the relation of the parameter [other] *)
Definition orel (other : string -> res (R * R)) (s : string) (u : R * R) : Prop := other s = Ok u.

Definition litchar (c : ascii) : Prop := blank c \/ digit c \/ In c ["+"; "-"; "."; "e"; "E"]%char.
Lemma lit_sign s c : sign_ok s -> In c (chars s) -> litchar c.
Proof. intros [->|[->| ->]] H; cbn in H; unfold litchar; cbn; intuition. Qed.
Lemma decimal_chars d c : decimal_ok d -> In c (chars (decimal_text d)) -> litchar c.
Proof.
  intros [H1 [H2 [H3 [H4 [H5 H6]]]]]. unfold decimal_text. rewrite !chars_app, !in_app_iff. intros [H|[H|[H|[H|H]]]].
  - eapply lit_sign; eassumption.
  - right; left. auto.
  - destruct (d_dot d); cbn in H; [|tauto]. unfold litchar; cbn; intuition.
  - right; left. auto.
  - destruct (d_exp d) as [[[e s] ds]|]; [|destruct H]. destruct H6 as [He [Hs [Hd _]]].
    rewrite !chars_app, !in_app_iff in H. destruct H as [H|[H|H]].
    + destruct He as [->| ->]; cbn in H; unfold litchar; cbn; intuition.
    + eapply lit_sign; eassumption.
    + right; left. auto.
Qed.
Lemma denotes_chars s x c : denotes s x -> In c (chars s) -> litchar c.
Proof.
  intros [d [Hd [[a [b [-> [Ha [Hb _]]]]] _]]]. rewrite !chars_app, !in_app_iff. intros [H|[H|H]].
  - left. auto.
  - eapply decimal_chars; eassumption.
  - left. auto.
Qed.
Lemma not_lit c : In c ["/"; "("; ","; "="; "#"]%char -> ~ litchar c.
Proof.
  cbn. intros [<-|[<-|[<-|[<-|[<-|[]]]]]] [H|[H|H]]; try (unfold blank in H; cbn in H; lia); try (unfold digit in H; cbn in H; lia);
    cbn in H; intuition discriminate.
Qed.
Lemma denotes_free s x c : In c ["/"; "("; ","; "="; "#"]%char -> denotes s x -> free c s.
Proof. intros Hc D H. apply (not_lit c Hc). eapply denotes_chars; eassumption. Qed.

Lemma cut_pm a b : free "/" a -> cut_first "+/-" (a ++ "+/-" ++ b) = Some (a, b).
Proof.
  induction a as [|c a IH]; [intros _; cbn; destruct b; reflexivity|]. intros F. apply free_cons in F. destruct F as [N F].
  rewrite sapp_cons. cbn [cut_first]. rewrite IH by exact F.
  replace (starts_with "+/-" (String c (a ++ "+/-" ++ b))) with false; [reflexivity|]. symmetry.
  destruct (starts_with "+/-" (String c (a ++ "+/-" ++ b))) eqn:E; [|reflexivity]. exfalso.
  apply starts_with_iff in E as [r E]. injection E as -> E. destruct a as [|d a]; [discriminate|]. injection E as -> _.
  apply free_cons in F. destruct F. congruence.
Qed.
Lemma free_occurs c s : free c s <-> ~ occurs (String c "") s.
Proof.
  split.
  - intros F [a [b ->]]. apply F. rewrite !chars_app, !in_app_iff. right. left. left. reflexivity.
  - intros N H. apply N. apply in_split in H as [l1 [l2 H]]. exists (string_of_list_ascii l1), (string_of_list_ascii l2).
    apply chars_inj. rewrite H, !chars_app. unfold chars. rewrite !list_ascii_of_string_of_list_ascii. reflexivity.
Qed.
Lemma denotes_pm_free s u : denotes_pm s u -> free "(" s.
Proof.
  intros [a [b [-> [Ha [Hb _]]]]]. rewrite !free_app. split; [|split].
  - eapply denotes_free; [|exact Ha]. cbn; tauto.
  - cbv. intros [H|[H|[H|[]]]]; discriminate.
  - eapply denotes_free; [|exact Hb]. cbn; tauto.
Qed.

Lemma ufloat_iff other s u : ufloat_fromstr other s = Ok u <-> uncertain (orel other) s u.
Proof.
  unfold ufloat_fromstr, uncertain, orel. split.
  - destruct (contains "(" s) eqn:E1.
    + intros H. right. split; [left; apply contains_iff, E1|exact H].
    + destruct (cut_first "+/-" s) as [[a b]|] eqn:E2.
      * intros H. left. apply cut_first_some in E2. apply bind_ok in H as [n [Hn H]]. apply bind_ok in H as [d [Hd H]].
        unfold mk_ufloat in H. destruct (Rlt_dec d 0) as [L|L]; [discriminate|]. injection H as <-.
        exists a, b. split; [exact E2|]. split; [apply pfloat_iff, Hn|]. split; [apply pfloat_iff, Hd|]. cbn. lra.
      * intros H. right. split; [right; apply cut_first_none, E2|exact H].
  - intros [D|[O H]].
    + pose proof (denotes_pm_free _ _ D) as F. destruct D as [a [b [-> [Ha [Hb Hs]]]]].
      destruct (contains "(" (a ++ "+/-" ++ b)) eqn:E1; [exfalso; apply contains_iff in E1; apply free_occurs in F; tauto|].
      rewrite cut_pm by (eapply denotes_free; [|exact Ha]; cbn; tauto).
      rewrite (proj2 (pfloat_iff _ _) Ha), (proj2 (pfloat_iff _ _) Hb). cbn [bind]. unfold mk_ufloat.
      destruct (Rlt_dec (snd u) 0); [lra|]. destruct u; reflexivity.
    + destruct (contains "(" s) eqn:E1; [exact H|]. destruct O as [O|O]; [apply contains_iff in O; congruence|].
      apply cut_first_none in O. rewrite O. exact H.
Qed.

Lemma mean_average l : mean l = average l. Proof. reflexivity. Qed.
Lemma umean_eq us : umean us = PU (average (map fst us)) (sqrt (fold_right (fun u a => snd u * snd u + a) 0 us) / INR (length us)).
Proof.
  unfold umean. f_equal; try (unfold mean; rewrite map_length; reflexivity). f_equal. f_equal. induction us as [|u us IH]; [reflexivity|].
  cbn. rewrite <- IH. reflexivity.
Qed.
Lemma Forall2_iff {A B} (P Q : A -> B -> Prop) l l' : (forall x y, P x y <-> Q x y) -> Forall2 P l l' <-> Forall2 Q l l'.
Proof. intros H. split; induction 1; constructor; auto; apply H; auto. Qed.
Lemma mapM_iff {A B} (f : A -> res B) l ys : mapM f l = Ok ys <-> Forall2 (fun x y => f x = Ok y) l ys.
Proof. split; [apply mapM_ok|apply mapM_intro]. Qed.

Definition rhs_model other rhs : res pval :=
  if contains "+/-" rhs
  then us <- mapM (ufloat_fromstr other) (split_on "," (strip rhs)) ;; Ok (umean us)
  else xs <- mapM pfloat (split_on "," (strip rhs)) ;; Ok (PF (mean xs)).
Lemma rhs_iff other rhs v : rhs_model other rhs = Ok v <-> rhs_value (orel other) rhs v.
Proof.
  unfold rhs_model, rhs_value. split.
  - intros H. exists (strip rhs), (split_on "," (strip rhs)). split; [apply strip_trim_of; reflexivity|].
    split; [apply split_on_iff; reflexivity|]. destruct (contains "+/-" rhs) eqn:E.
    + right. split; [apply contains_iff, E|]. apply bind_ok in H as [us [H1 H2]]. exists us. split.
      * apply mapM_iff in H1. revert H1. apply Forall2_iff. intros x y. first [apply ufloat_iff | symmetry; apply ufloat_iff].
      * injection H2 as <-. apply umean_eq.
    + left. split; [rewrite <- contains_iff; congruence|]. apply bind_ok in H as [xs [H1 H2]]. exists xs. split.
      * apply mapM_iff in H1. revert H1. apply Forall2_iff. intros x y. first [apply pfloat_iff | symmetry; apply pfloat_iff].
      * injection H2 as <-. reflexivity.
  - intros [t [ws [Ht [Hw H]]]]. apply strip_trim_of in Ht as ->. apply split_on_iff in Hw as ->. destruct H as [[O [xs [H ->]]]|[O [us [H ->]]]].
    + rewrite <- contains_iff in O. apply not_true_is_false in O. rewrite O.
      rewrite (proj2 (mapM_iff pfloat ws xs)); [reflexivity|]. revert H. apply Forall2_iff. intros; first [apply pfloat_iff | symmetry; apply pfloat_iff].
    + apply contains_iff in O. rewrite O. rewrite (proj2 (mapM_iff (ufloat_fromstr other) ws us)); [cbn; rewrite umean_eq; reflexivity|].
      revert H. apply Forall2_iff. intros; first [apply ufloat_iff | symmetry; apply ufloat_iff].
Qed.

(* the first field, and the second *)
Lemma split_head c s : exists b tl, s = b ++ tl /\ free c b /\ hd "" (split_on c s) = b /\
  ((tl = "" /\ split_on c s = [b]) \/ exists u, tl = String c u /\ split_on c s = b :: split_on c u).
Proof.
  induction s as [|x s IH].
  - exists "", "". split; [reflexivity|]. split; [apply free_nil|]. split; [reflexivity|]. left. split; reflexivity.
  - destruct (ascii_dec x c) as [->|N].
    + exists "", (String c s). split; [reflexivity|]. split; [apply free_nil|]. cbn. rewrite aeqb_refl. split; [reflexivity|]. right. exists s. split; reflexivity.
    + destruct IH as [b [tl [-> [F [H1 H2]]]]]. exists (String x b), tl. split; [reflexivity|]. split; [apply free_cons; auto|].
      cbn [split_on append]. rewrite aeqb_neq by auto. destruct H2 as [[-> H2]|[u [-> H2]]]; rewrite H2; split; try reflexivity; [left|right]; eauto.
Qed.
Lemma split_head_eq c b tl : free c b -> (tl = "" \/ exists u, tl = String c u) -> hd "" (split_on c (b ++ tl)) = b.
Proof.
  intros F [->|[u ->]]; [rewrite sapp_nil, split_on_free by auto; reflexivity|]. rewrite split_on_app by auto. reflexivity.
Qed.

Theorem parse_line_iff other line k v : parse_line other line = Ok (k, v) <-> assigns (orel other) line k v.
Proof.
  unfold parse_line, assigns. split.
  - intros H. destruct (split_head "#" (strip line)) as [body [tail [Et [Fb [Eb Htl]]]]]. rewrite Eb in H.
    destruct (split_head "=" body) as [lhs [tl [El [Fl [Ehd Hl]]]]]. rewrite Ehd in H. apply bind_ok in H as [rhs [Hr H]].
    destruct Hl as [[-> Hl]|[u [-> Hl]]]; [rewrite Hl in Hr; discriminate|]. rewrite Hl in Hr. cbn in Hr.
    destruct (split_head "=" u) as [r [rest [Eu [Fr [Eh2 Hrest]]]]].
    assert (r = rhs). { destruct Hrest as [[_ K]|[w [_ K]]]; rewrite K in Hr; cbn in Hr; congruence. } clear Eh2. subst r.
    apply bind_ok in H as [v' [Hv H]]. injection H as <- <-.
    exists (strip line), body, tail, lhs, rhs, rest. split; [apply strip_trim_of; reflexivity|]. split; [exact Et|]. split; [exact Fb|].
    split; [destruct Htl as [[? _]|[w [? _]]]; eauto|]. split; [rewrite El, Eu; reflexivity|]. split; [exact Fl|]. split; [exact Fr|].
    split; [destruct Hrest as [[? _]|[w [? _]]]; eauto|]. split; [apply strip_trim_of; reflexivity|]. apply rhs_iff. exact Hv.
  - intros [t [body [tail [lhs [rhs [rest [Ht [Et [Fb [Htl [Eb [Fl [Fr [Hrest [Hk Hv]]]]]]]]]]]]]]].
    apply strip_trim_of in Ht. apply strip_trim_of in Hk. apply rhs_iff in Hv.
    rewrite Ht, Et, split_head_eq by assumption.
    assert (Es : split_on "=" body = lhs :: split_on "=" (rhs ++ rest)) by (rewrite Eb; apply (split_on_app "=" lhs (rhs ++ rest)); exact Fl).
    rewrite Es. cbn [nth_error hd]. pose proof (split_head_eq "=" rhs rest Fr Hrest) as Hh. destruct (split_on "=" (rhs ++ rest)) as [|r' q] eqn:Eq.
    + exfalso. exact (split_on_ne _ _ Eq).
    + cbn in Hh. subst r'. cbn [bind nth_error]. unfold rhs_model in Hv. rewrite Hv. cbn. rewrite Hk. reflexivity.
Qed.

Lemma comment_iff l : starts_with "#" l = true <-> comment_line l.
Proof. rewrite starts_with_iff. unfold comment_line. split; intros [r ->]; exists r; reflexivity. Qed.
Lemma comment_false l : starts_with "#" l = false <-> ~ comment_line l.
Proof. rewrite <- comment_iff. destruct (starts_with "#" l); split; congruence. Qed.

(* the effect of reading *)
Definition apply_reads (d : dict pval) (rs : list (option (string * pval))) : dict pval :=
  fold_left (fun d r => match r with Some (k, v) => dset d k v | None => d end) rs d.
Lemma load_lines_iff other ls d d' :
  load_lines other d ls = Ok d' <-> exists rs, Forall2 (line_reads (orel other)) ls rs /\ d' = apply_reads d rs.
Proof.
  revert d. induction ls as [|l ls IH]; intros d; cbn [load_lines].
  - split; [intros H; injection H as <-; exists []; split; [constructor|reflexivity]|]. intros [rs [H ->]]. inversion H; subst. reflexivity.
  - destruct (starts_with "#" l) eqn:E.
    + rewrite IH. split.
      * intros [rs [H ->]]. exists (None :: rs). split; [constructor; [constructor; apply comment_iff, E|exact H]|reflexivity].
      * intros [rs [H ->]]. inversion H as [|? r ? rs' Hr Hrs]; subst. destruct Hr as [_|k v N _]; [exists rs'; split; auto|].
        apply comment_iff in E. tauto.
    + apply comment_false in E. split.
      * intros H. apply bind_ok in H as [[k v] [H1 H2]]. apply IH in H2 as [rs [H2 ->]]. exists (Some (k, v) :: rs). split; [|reflexivity].
        constructor; [|exact H2]. constructor; [exact E|]. apply parse_line_iff, H1.
      * intros [rs [H ->]]. inversion H as [|? r ? rs' Hr Hrs]; subst. destruct Hr as [C|k v _ A]; [tauto|].
        apply parse_line_iff in A. rewrite A. cbn [bind fst snd]. apply IH. exists rs'. split; [exact Hrs|reflexivity].
Qed.
Lemma apply_reads_get d rs k :
  dget (apply_reads d rs) k = match last_assigned k rs with Some v => Some v | None => dget d k end.
Proof.
  unfold apply_reads. revert d. induction rs as [|r rs IH]; intros d; [reflexivity|]. cbn [fold_left last_assigned]. rewrite IH.
  destruct (last_assigned k rs); [reflexivity|]. destruct r as [[k' v]|]; [|reflexivity]. rewrite dget_dset.
  rewrite String.eqb_sym. destruct (String.eqb k' k); reflexivity.
Qed.
Lemma apply_reads_nodup d rs : NoDup (dkeys d) -> NoDup (dkeys (apply_reads d rs)).
Proof.
  unfold apply_reads. revert d. induction rs as [|[[k v]|] rs IH]; intros d H; cbn [fold_left]; auto. apply IH, nodup_dset, H.
Qed.

Theorem load_text_sound other content d : load_text other content = Ok d ->
  exists ls rs, text_lines (univ_nl content) ls /\ Forall2 (line_reads (orel other)) ls rs
    /\ NoDup (dkeys d) /\ forall k, dget d k = last_assigned k rs.
Proof.
  unfold load_text. intros H. apply load_lines_iff in H as [rs [H ->]]. exists (file_lines (univ_nl content)), rs.
  split; [apply file_lines_text|]. split; [exact H|]. split; [apply apply_reads_nodup; constructor|].
  intros k. rewrite apply_reads_get. destruct (last_assigned k rs); reflexivity.
Qed.
Theorem load_text_complete other content ls rs :
  text_lines (univ_nl content) ls -> Forall2 (line_reads (orel other)) ls rs ->
  exists d, load_text other content = Ok d /\ NoDup (dkeys d) /\ forall k, dget d k = last_assigned k rs.
Proof.
  intros Ht H. apply file_lines_iff in Ht. exists (apply_reads [] rs). split; [|split].
  - unfold load_text. rewrite Ht. apply load_lines_iff. exists rs. auto.
  - apply apply_reads_nodup. constructor.
  - intros k. rewrite apply_reads_get. destruct (last_assigned k rs); reflexivity.
Qed.
Lemma load_lines_bad other ls d l : In l ls -> ~ comment_line l -> (forall k v, ~ assigns (orel other) l k v) ->
  exists e, load_lines other d ls = Err e.
Proof.
  intros Hin N A. destruct (load_lines other d ls) as [d'|e] eqn:E; [|eauto]. exfalso.
  apply load_lines_iff in E as [rs [H _]]. apply (In_nth_error) in Hin as [i Hi].
  revert i rs H Hi. induction ls as [|l' ls IH]; intros [|i] rs H Hi; try discriminate; inversion H as [|? r ? rs' Hr Hrs]; subst.
  - injection Hi as ->. destruct Hr as [C|k v _ K]; [tauto|exact (A k v K)].
  - exact (IH i rs' Hrs Hi).
Qed.
(* a line whose part before the comment has no '=' *)
Lemma assigns_needs_eq other l k v : assigns other l k v -> exists a b, l = a ++ "=" ++ b /\ free "#" a.
Proof.
  intros [t [body [tail [lhs [rhs [rest [[x [y [E1 [Hx _]]]] [Et [Fb [Htl [Eb _]]]]]]]]]]]. subst.
  exists (x ++ lhs), ((rhs ++ rest) ++ tail ++ y). split.
  - rewrite !sapp_assoc. reflexivity.
  - rewrite !free_app in *. split; [|tauto]. intros K. apply Hx in K. unfold blank in K. cbv in K. lia.
Qed.
