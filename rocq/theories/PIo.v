(* PIo.v -- text functions of MIo.v meet the vocabulary of SIo.v *)
From Verif Require Import Base MString MIo SIo PBase PString.
From Coq Require Import ZArith Lra.
Local Open Scope string_scope.

Lemma sapp_assoc a b c : (a ++ b) ++ c = a ++ b ++ c.
Proof. induction a; cbn; congruence. Qed.
Lemma sapp_nil a : a ++ "" = a.
Proof. induction a; cbn; congruence. Qed.
Lemma sapp_cons c a b : String c a ++ b = String c (a ++ b).
Proof. reflexivity. Qed.
Lemma sapp_inj_l a b c : a ++ b = a ++ c -> b = c.
Proof. induction a; cbn; [auto|]. intros H. injection H. auto. Qed.
Lemma sapp_eq_nil a b : a ++ b = "" -> a = "" /\ b = "".
Proof. destruct a; cbn; [auto|discriminate]. Qed.
Lemma chars_app a b : chars (a ++ b) = (chars a ++ chars b)%list.
Proof. unfold chars. induction a; cbn; congruence. Qed.
Lemma chars_inj a b : chars a = chars b -> a = b.
Proof. unfold chars. intros H. rewrite <- (string_of_list_ascii_of_string a), <- (string_of_list_ascii_of_string b), H. reflexivity. Qed.
Lemma slen_app a b : String.length (a ++ b) = (String.length a + String.length b)%nat.
Proof. induction a; cbn; congruence. Qed.
Lemma ssnoc_inj a b c d : a ++ String c "" = b ++ String d "" -> a = b /\ c = d.
Proof.
  intros H. apply (f_equal chars) in H. rewrite !chars_app in H. apply app_inj_tail in H. destruct H as [H ->].
  split; [apply chars_inj, H|reflexivity].
Qed.
Lemma s_snoc s : s = "" \/ exists s' c, s = s' ++ String c "".
Proof.
  induction s as [|c s IH]; [auto|]. right. destruct IH as [->|[s' [d ->]]].
  - exists "", c. reflexivity.
  - exists (String c s'), d. reflexivity.
Qed.

Lemma free_nil c : free c "". Proof. intros []. Qed.
Lemma free_app c a b : free c (a ++ b) <-> free c a /\ free c b.
Proof. unfold free. rewrite chars_app, in_app_iff. tauto. Qed.
Lemma free_cons c x a : free c (String x a) <-> x <> c /\ free c a.
Proof. unfold free, chars. cbn. tauto. Qed.
Lemma aeqb_refl c : Ascii.eqb c c = true. Proof. apply Ascii.eqb_refl. Qed.
Lemma aeqb_neq c d : c <> d -> Ascii.eqb c d = false. Proof. apply Ascii.eqb_neq. Qed.

Lemma is_ws_spec c : is_ws c = true <-> blank c.
Proof.
  unfold is_ws, blank. cbv zeta. rewrite !orb_true_iff, !andb_true_iff, !Nat.leb_le, !Nat.eqb_eq. tauto.
Qed.
Lemma is_ws_false c : is_ws c = false <-> ~ blank c.
Proof. rewrite <- is_ws_spec. destruct (is_ws c); split; congruence. Qed.
Lemma is_digit_spec c : is_digit c = true <-> digit c.
Proof. unfold is_digit, digit. rewrite andb_true_iff, !Nat.leb_le. tauto. Qed.
Lemma is_upper_spec c : is_upper c = true <-> upper c.
Proof. unfold is_upper, upper. rewrite andb_true_iff, !Nat.leb_le. tauto. Qed.
Lemma is_lower_spec c : is_lower c = true <-> lower c.
Proof. unfold is_lower, lower. rewrite andb_true_iff, !Nat.leb_le. tauto. Qed.

(* ---- strip ---- *)
Lemma all_blank_nil : all_blank "". Proof. intros c []. Qed.
Lemma all_blank_cons c s : all_blank (String c s) <-> blank c /\ all_blank s.
Proof. unfold all_blank, chars. cbn. split; [intros H; split; auto|]. intros [H1 H2] d [<-|H]; auto. Qed.
Lemma all_blank_app a b : all_blank (a ++ b) <-> all_blank a /\ all_blank b.
Proof.
  unfold all_blank. rewrite chars_app. setoid_rewrite in_app_iff. split; [intros H; split; auto|]. intros [H1 H2] c [H|H]; auto.
Qed.

Lemma lstrip_split s : exists a, s = a ++ lstrip s /\ all_blank a.
Proof.
  induction s as [|c s IH]; [exists ""; split; [reflexivity|apply all_blank_nil]|]. cbn [lstrip].
  destruct (is_ws c) eqn:E; [|exists ""; split; [reflexivity|apply all_blank_nil]].
  destruct IH as [a [H1 H2]]. exists (String c a). split; [cbn; congruence|]. apply all_blank_cons. apply is_ws_spec in E. auto.
Qed.
Lemma lstrip_head s c s' : lstrip s = String c s' -> ~ blank c.
Proof.
  induction s as [|d s IH]; cbn [lstrip]; [discriminate|]. destruct (is_ws d) eqn:E; [exact IH|].
  intros H. injection H as -> ->. apply is_ws_false, E.
Qed.
Lemma rstrip_cons c s : rstrip (String c s) = match rstrip s with "" => if is_ws c then "" else String c "" | r => String c r end.
Proof. reflexivity. Qed.
Lemma rstrip_snoc_ws s c : is_ws c = true -> rstrip (s ++ String c "") = rstrip s.
Proof.
  intros E. induction s as [|d s IH]; [cbn; rewrite E; reflexivity|].
  rewrite sapp_cons, !rstrip_cons, IH. reflexivity.
Qed.
Lemma rstrip_snoc s c : is_ws c = false -> rstrip (s ++ String c "") = s ++ String c "".
Proof.
  intros E. induction s as [|d s IH]; [cbn; rewrite E; reflexivity|].
  rewrite sapp_cons, rstrip_cons, IH. destruct s; reflexivity.
Qed.
Lemma rstrip_split s : exists b, s = rstrip s ++ b /\ all_blank b.
Proof.
  induction s as [|c s IH]; [exists ""; split; [reflexivity|apply all_blank_nil]|]. rewrite rstrip_cons.
  destruct IH as [b [H1 H2]]. destruct (rstrip s) as [|x r] eqn:Er.
  - destruct (is_ws c) eqn:E.
    + exists (String c b). cbn in H1. split; [cbn; congruence|]. apply all_blank_cons. apply is_ws_spec in E. auto.
    + exists b. split; [cbn in *; congruence|auto].
  - exists b. split; [cbn in *; congruence|auto].
Qed.
Lemma rstrip_last s c s' : rstrip s = s' ++ String c "" -> ~ blank c.
Proof.
  revert s'. induction s as [|d s IH]; intros s'; [destruct s'; discriminate|]. rewrite rstrip_cons.
  destruct (rstrip s) as [|x r] eqn:Er.
  - destruct (is_ws d) eqn:E; [destruct s'; discriminate|]. intros H. destruct s' as [|y s'].
    + injection H as ->. apply is_ws_false, E.
    + destruct s'; discriminate.
  - intros H. destruct s' as [|y s']; [discriminate|]. injection H as -> H. apply (IH s'). exact H.
Qed.
Lemma rstrip_app_blank s b : all_blank b -> rstrip (s ++ b) = rstrip s.
Proof.
  revert s. induction b as [|c b IH]; intros s H; [rewrite sapp_nil; reflexivity|].
  apply all_blank_cons in H. destruct H as [Hc Hb].
  replace (s ++ String c b) with ((s ++ String c "") ++ b) by (rewrite sapp_assoc; reflexivity).
  rewrite IH by auto. apply rstrip_snoc_ws, is_ws_spec, Hc.
Qed.
Lemma lstrip_app_blank a s : all_blank a -> lstrip (a ++ s) = lstrip s.
Proof.
  induction a as [|c a IH]; intros H; [reflexivity|]. apply all_blank_cons in H. destruct H as [Hc Ha].
  cbn [append lstrip]. rewrite (proj2 (is_ws_spec c) Hc). auto.
Qed.
Lemma rstrip_trimmed s : (forall c s', s = s' ++ String c "" -> ~ blank c) -> rstrip s = s.
Proof.
  intros H. destruct (s_snoc s) as [->|[s' [c ->]]]; [reflexivity|]. apply rstrip_snoc, is_ws_false. eauto.
Qed.
Lemma lstrip_trimmed s : (forall c s', s = String c s' -> ~ blank c) -> lstrip s = s.
Proof. destruct s as [|c s]; [reflexivity|]. intros H. cbn. rewrite (proj2 (is_ws_false c)); [reflexivity|]. eauto. Qed.
Lemma trimmed_strip s : trimmed s -> strip s = s.
Proof. intros [H1 H2]. unfold strip. rewrite lstrip_trimmed, rstrip_trimmed; auto. Qed.
Lemma all_blank_rstrip s : all_blank s -> rstrip s = "".
Proof. intros H. apply (rstrip_app_blank "" s H). Qed.

Lemma strip_trim_of s t : strip s = t <-> trim_of s t.
Proof.
  split.
  - intros <-. unfold strip. destruct (lstrip_split s) as [a [H1 H2]]. destruct (rstrip_split (lstrip s)) as [b [H3 H4]].
    exists a, b. split; [congruence|]. split; [auto|]. split; [auto|]. split.
    + intros c s' E. destruct (lstrip s) as [|d l] eqn:El; [discriminate|].
      destruct (rstrip (String d l)) as [|x r] eqn:Er; [discriminate|]. injection E as -> ->.
      cbn in H3. injection H3 as -> H3. apply (lstrip_head s c l). exact El.
    + intros c s' E. apply (rstrip_last _ _ _ E).
  - intros [a [b [-> [Ha [Hb Ht]]]]]. unfold strip. rewrite lstrip_app_blank by auto.
    destruct t as [|c t].
    + cbn. destruct (lstrip_split b) as [b' [E _]]. assert (B : all_blank (lstrip b)) by (rewrite E in Hb; apply all_blank_app in Hb; tauto).
      apply all_blank_rstrip, B.
    + destruct Ht as [H1 H2]. rewrite lstrip_trimmed.
      * rewrite rstrip_app_blank by auto. apply rstrip_trimmed. exact H2.
      * intros d s' E. injection E as <- <-. eauto.
Qed.
Lemma strip_free c s : free c s -> free c (strip s).
Proof.
  intros H. destruct (proj1 (strip_trim_of s _) eq_refl) as [a [b [E _]]]. rewrite E, !free_app in H. tauto.
Qed.

(* ---- split ---- *)
Lemma split_on_ne c s : split_on c s <> [].
Proof. destruct s as [|x s]; cbn; [discriminate|]. destruct (Ascii.eqb x c); [discriminate|]. destruct (split_on c s); discriminate. Qed.
Lemma concat_cons c w ws : ws <> [] -> String.concat (String c "") (w :: ws) = w ++ String c (String.concat (String c "") ws).
Proof. destruct ws; [congruence|reflexivity]. Qed.
Lemma split_on_fields c s : fields c s (split_on c s).
Proof.
  induction s as [|x s IH]; [split; [discriminate|split; [reflexivity|repeat constructor; apply free_nil]]|].
  split; [apply split_on_ne|]. destruct IH as [_ [E F]]. pose proof (split_on_ne c s) as NE. cbn [split_on]. destruct (Ascii.eqb x c) eqn:Ex.
  - apply Ascii.eqb_eq in Ex as ->. split; [|constructor; [apply free_nil|exact F]].
    rewrite concat_cons by exact NE. cbn. congruence.
  - apply Ascii.eqb_neq in Ex. destruct (split_on c s) as [|w ws]; [congruence|]. split.
    + rewrite E. destruct ws; reflexivity.
    + inversion F; subst. constructor; [apply free_cons; auto|auto].
Qed.
Lemma split_on_free c s : free c s -> split_on c s = [s].
Proof.
  induction s as [|x s IH]; [reflexivity|]. rewrite free_cons. intros [N F]. cbn. rewrite aeqb_neq by auto. rewrite IH by auto. reflexivity.
Qed.
Lemma split_on_app c a b : free c a -> split_on c (a ++ String c b) = a :: split_on c b.
Proof.
  induction a as [|x a IH]; cbn; [rewrite aeqb_refl; reflexivity|]. rewrite free_cons. intros [N F].
  rewrite aeqb_neq by auto. rewrite IH by auto. reflexivity.
Qed.
Lemma split_on_iff c s ws : split_on c s = ws <-> fields c s ws.
Proof.
  split; [intros <-; apply split_on_fields|]. intros [NE [-> F]]. induction ws as [|w ws IH]; [congruence|].
  inversion F as [|? ? Fw Fs]; subst. destruct ws as [|w' ws].
  - apply split_on_free. exact Fw.
  - rewrite concat_cons by discriminate. rewrite split_on_app by exact Fw. f_equal. apply IH; [discriminate|exact Fs].
Qed.

(* ---- substrings ---- *)
Lemma starts_with_iff p s : starts_with p s = true <-> exists r, s = p ++ r.
Proof.
  revert s. induction p as [|c p IH]; intros s; cbn.
  - split; [exists s; reflexivity|auto].
  - destruct s as [|d s]; [split; [discriminate|intros [r H]; discriminate]|]. rewrite andb_true_iff, Ascii.eqb_eq, IH. split.
    + intros [-> [r ->]]. exists r. reflexivity.
    + intros [r H]. injection H as -> ->. eauto.
Qed.
Lemma contains_iff sub s : contains sub s = true <-> occurs sub s.
Proof.
  unfold occurs. induction s as [|c s IH]; cbn [contains]; rewrite orb_true_iff, starts_with_iff.
  - split; [intros [[r H]|H]; [exists "", r; exact H|discriminate]|]. intros [a [b H]]. left. symmetry in H.
    apply sapp_eq_nil in H. destruct H as [-> H]. exists b. auto.
  - rewrite IH. split.
    + intros [[r H]|[a [b H]]]; [exists "", r; exact H|]. exists (String c a), b. cbn. congruence.
    + intros [a [b H]]. destruct a as [|x a]; [left; eauto|]. injection H as <- H. right. eauto.
Qed.
Lemma sdrop_app a b : sdrop (String.length a) (a ++ b) = b.
Proof. induction a; cbn; auto. Qed.

Lemma cut_first_some sub s a b : cut_first sub s = Some (a, b) -> s = a ++ sub ++ b.
Proof.
  revert a b. induction s as [|c s IH]; intros a b; cbn [cut_first]; destruct (starts_with sub _) eqn:E.
  - intros H. injection H as <- <-. apply starts_with_iff in E as [r E]. pose proof (sdrop_app sub r) as K. rewrite <- E in K. rewrite K. exact E.
  - discriminate.
  - intros H. injection H as <- <-. apply starts_with_iff in E as [r E]. pose proof (sdrop_app sub r) as K. rewrite <- E in K. rewrite K. exact E.
  - destruct (cut_first sub s) as [[x y]|]; [|discriminate]. intros H. injection H as <- <-. cbn. rewrite (IH x y eq_refl). reflexivity.
Qed.
Lemma cut_first_none sub s : cut_first sub s = None <-> ~ occurs sub s.
Proof.
  rewrite <- contains_iff. induction s as [|c s IH]; cbn [cut_first contains]; destruct (starts_with sub _) eqn:E.
  - split; [discriminate|cbn; congruence].
  - cbn. split; congruence.
  - cbn. split; [discriminate|congruence].
  - cbn [orb]. destruct (cut_first sub s) as [[x y]|]; [|tauto]. split; [discriminate|]. intros H. exfalso. destruct IH as [_ IH]. discriminate (IH H).
Qed.

(* ---- lines ---- *)
Lemma univ_nl_free s : free CR s -> univ_nl s = s.
Proof.
  induction s as [|c s IH]; [reflexivity|]. rewrite free_cons. intros [N F]. cbn. rewrite aeqb_neq by auto. rewrite IH by auto. reflexivity.
Qed.
Lemma univ_nl_read s : read_as s (univ_nl s).
Proof.
  assert (G : forall n s, (String.length s <= n)%nat -> read_as s (univ_nl s)).
  { intros n. induction n as [|n IH]; intros [|c r] H; try apply ra_end; cbn in H; [lia|]. cbn [univ_nl].
    destruct (Ascii.eqb c CR) eqn:E.
    - apply Ascii.eqb_eq in E. subst c. destruct r as [|d r]; [apply ra_cr; [discriminate|apply ra_end]|]. cbn in H.
      destruct (Ascii.eqb d NL) eqn:E2.
      + apply Ascii.eqb_eq in E2. subst d. apply ra_crlf, IH. lia.
      + apply ra_cr; [|apply IH; cbn; lia]. intros u X. injection X as -> _. discriminate.
    - apply ra_char; [apply Ascii.eqb_neq, E|]. apply IH. lia. }
  exact (G _ s (le_n _)).
Qed.
Lemma read_as_fun s t : read_as s t -> univ_nl s = t.
Proof.
  induction 1 as [|s t H IH|s t N H IH|c s t N H IH]; [reflexivity| | |].
  - cbn. rewrite IH. reflexivity.
  - cbn [univ_nl]. change (Ascii.eqb "013" CR) with true. cbv iota. f_equal. destruct s as [|d s]; [cbn in IH; exact IH|].
    destruct (Ascii.eqb d NL) eqn:E; [|exact IH]. apply Ascii.eqb_eq in E. subst d. exfalso. exact (N s eq_refl).
  - cbn [univ_nl]. rewrite aeqb_neq by auto. rewrite IH. reflexivity.
Qed.
Lemma univ_nl_no_cr s : free CR (univ_nl s).
Proof.
  assert (G : forall n s, (String.length s <= n)%nat -> free CR (univ_nl s)).
  { intros n. induction n as [|n IH]; intros [|c r] H; try apply free_nil; cbn in H; [lia|]. cbn [univ_nl].
    destruct (Ascii.eqb c CR) eqn:E.
    - apply free_cons. split; [discriminate|]. destruct r as [|d r]; [apply free_nil|]. cbn in H.
      destruct (Ascii.eqb d NL); apply IH; cbn; lia.
    - apply free_cons. split; [apply Ascii.eqb_neq, E|]. apply IH. lia. }
  exact (G _ s (le_n _)).
Qed.
Lemma file_lines_line m s : free NL m -> file_lines (m ++ String NL s) = (m ++ String NL "") :: file_lines s.
Proof.
  induction m as [|c m IH]; [reflexivity|]. rewrite free_cons. intros [N F]. cbn [append file_lines].
  rewrite aeqb_neq by auto. rewrite IH by auto. reflexivity.
Qed.
Lemma file_lines_last m : free NL m -> m <> "" -> file_lines m = [m].
Proof.
  intros F. induction m as [|c m IH]; [congruence|]. intros _. apply free_cons in F. destruct F as [N F]. cbn. rewrite aeqb_neq by auto.
  destruct m as [|d m]; [reflexivity|]. rewrite IH by (auto; discriminate). reflexivity.
Qed.
Lemma file_lines_concat s : fold_right append "" (file_lines s) = s.
Proof.
  induction s as [|c s IH]; [reflexivity|]. cbn. destruct (Ascii.eqb c NL); [cbn; congruence|].
  destruct (file_lines s); cbn in *; congruence.
Qed.
Lemma split_nl s : free NL s \/ exists m s', free NL m /\ s = m ++ String NL s'.
Proof.
  induction s as [|c s IH]; [left; apply free_nil|]. destruct (ascii_dec c NL) as [->|N]; [right; exists "", s; split; [apply free_nil|reflexivity]|].
  destruct IH as [F|[m [s' [F ->]]]]; [left; apply free_cons; auto|]. right. exists (String c m), s'. split; [apply free_cons; auto|reflexivity].
Qed.
Lemma file_lines_ind (P : string -> list string -> Prop) :
  P "" [] -> (forall m, free NL m -> m <> "" -> P m [m]) ->
  (forall m s, free NL m -> P s (file_lines s) -> P (m ++ String NL s) ((m ++ String NL "") :: file_lines s)) ->
  forall s, P s (file_lines s).
Proof.
  intros H0 H1 H2. assert (G : forall n s, (String.length s <= n)%nat -> P s (file_lines s)).
  { intros n. induction n as [|n IH]; intros s L.
    - destruct s; [exact H0|cbn in L; lia].
    - destruct (split_nl s) as [F|[m [s' [F ->]]]].
      + destruct (string_dec s "") as [->|N]; [exact H0|]. rewrite file_lines_last by auto. auto.
      + rewrite file_lines_line by auto. apply H2; [auto|]. apply IH. rewrite slen_app in L. cbn in L. lia. }
  intros s. exact (G _ s (le_n _)).
Qed.
Lemma file_lines_text s : text_lines s (file_lines s).
Proof.
  split; [symmetry; apply file_lines_concat|]. revert s.
  apply (file_lines_ind (fun s ls => Forall (fun l => l <> "") ls
    /\ (forall i l, nth_error ls i = Some l ->
        exists m, free NL m /\ (l = m ++ String NL "" \/ (l = m /\ S i = length ls))))).
  - split; [constructor|]. intros [|i] l H; discriminate.
  - intros m F N. split; [repeat constructor; auto|]. intros [|i] l H; [|destruct i; discriminate]. injection H as <-. exists m. auto.
  - intros m s F [I1 I2]. split; [constructor; [destruct m; discriminate|auto]|]. intros [|i] l H.
    + injection H as <-. exists m. auto.
    + cbn in H. destruct (I2 i l H) as [m' [F' [->|[-> E]]]]; exists m'; split; auto. right. cbn. auto.
Qed.
Lemma text_lines_unique s ls : text_lines s ls -> file_lines s = ls.
Proof.
  intros [-> [NE H]]. induction ls as [|l ls IH]; [reflexivity|].
  inversion NE as [|? ? N NE']; subst. destruct (H 0%nat l eq_refl) as [m [F [->|[-> E]]]].
  - cbn [fold_right]. rewrite sapp_assoc. cbn [append]. rewrite file_lines_line by auto. f_equal.
    apply IH; [auto|]. intros i l Hi. destruct (H (S i) l Hi) as [m' [F' [->|[-> E']]]]; exists m'; split; auto.
  - destruct ls; [|discriminate]. cbn [fold_right]. rewrite sapp_nil. apply file_lines_last; auto.
Qed.
Lemma file_lines_iff s ls : file_lines s = ls <-> text_lines s ls.
Proof. split; [intros <-; apply file_lines_text|apply text_lines_unique]. Qed.
(* text ending in a newline (or empty) followed by other text *)
Definition closed (s : string) : Prop := s = "" \/ exists m, s = m ++ String NL "".
Lemma file_lines_app a b : closed a -> file_lines (a ++ b) = (file_lines a ++ file_lines b)%list.
Proof.
  revert b. revert a. apply (file_lines_ind (fun a ls => forall b, closed a -> file_lines (a ++ b) = (ls ++ file_lines b)%list)).
  - reflexivity.
  - intros m F N b [->|[m' ->]]; [congruence|]. apply free_app in F. destruct F as [_ F]. apply free_cons in F. destruct F. congruence.
  - intros m s F IH b C. rewrite sapp_assoc. cbn [append]. rewrite file_lines_line by auto. cbn. f_equal. apply IH.
    destruct C as [C|[m' C]]; [destruct m; discriminate|]. destruct (s_snoc s) as [->|[s' [c ->]]]; [left; reflexivity|right].
    exists s'. replace (m ++ String NL (s' ++ String c "")) with ((m ++ String NL s') ++ String c "") in C by (rewrite sapp_assoc; reflexivity).
    apply ssnoc_inj in C. destruct C as [_ ->]. reflexivity.
Qed.
