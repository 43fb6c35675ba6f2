(* PIo6.v -- camel case spacing and file names *)
From Verif Require Import Base MString MIo SIo PBase PString PIo.
From Coq Require Import ZArith Lra.
Local Open Scope string_scope.

Lemma blank_not_upper c : blank c -> is_upper c = false.
Proof. unfold blank, is_upper. cbv zeta. intros H. apply andb_false_iff. rewrite !Nat.leb_gt. lia. Qed.
Lemma blank_not_lower c : blank c -> is_lower c = false.
Proof. unfold blank, is_lower. cbv zeta. intros H. apply andb_false_iff. rewrite !Nat.leb_gt. lia. Qed.
Lemma camel_sub_cons prev c s : camel_sub prev (String c s) =
  if camel_here prev (String c s) then String " " (String c (camel_sub (Some c) s)) else String c (camel_sub (Some c) s).
Proof. reflexivity. Qed.
Lemma camel_blank_prefix prev a t : all_blank a -> exists p, camel_sub prev (a ++ t) = a ++ camel_sub p t.
Proof.
  revert prev. induction a as [|c a IH]; intros prev H; [exists prev; reflexivity|]. apply all_blank_cons in H. destruct H as [Hc Ha].
  destruct (IH (Some c) Ha) as [p E]. exists p. cbn [append]. rewrite camel_sub_cons. unfold camel_here. rewrite blank_not_upper by exact Hc. cbn. congruence.
Qed.
Lemma camel_blank_suffix prev t b : all_blank b -> camel_sub prev (t ++ b) = camel_sub prev t ++ b.
Proof.
  intros Hb. revert prev. induction t as [|c t IH]; intros prev.
  - cbn. revert prev. induction b as [|c b IH]; intros prev; [reflexivity|]. apply all_blank_cons in Hb. destruct Hb as [Hc Hb].
    rewrite camel_sub_cons. unfold camel_here. rewrite blank_not_upper by exact Hc. cbn. rewrite IH by exact Hb. reflexivity.
  - cbn [append]. rewrite !camel_sub_cons, IH.
    replace (camel_here prev (String c (t ++ b))) with (camel_here prev (String c t)).
    + destruct (camel_here prev (String c t)); reflexivity.
    + unfold camel_here. destruct t as [|d t]; [|reflexivity]. cbn [append]. destruct b as [|d b]; [reflexivity|].
      apply all_blank_cons in Hb. destruct Hb as [Hd _]. rewrite blank_not_lower by exact Hd. reflexivity.
Qed.
(* the spaced text without leading space *)
Definition spaced (t : string) : string := match t with "" => "" | String c t' => String c (camel_sub (Some c) t') end.
Lemma spaced_last c t d s : ~ blank d -> String c t = s ++ String d "" -> exists s', spaced (String c t) = s' ++ String d "".
Proof.
  intros N E. unfold spaced. destruct s as [|x s].
  - injection E as -> ->. exists "". reflexivity.
  - cbn in E. injection E as -> ->. revert x. induction s as [|y s IH]; intros x.
    + cbn. destruct (is_upper d && _); [exists (String x " ")|exists (String x "")]; reflexivity.
    + destruct (IH y) as [s' H]. cbn [append]. rewrite camel_sub_cons. rewrite H. destruct (camel_here _ _); [exists (String x (String " " s'))|exists (String x s')]; reflexivity.
Qed.
Lemma spaced_trimmed t : trimmed t -> trimmed (spaced t).
Proof.
  intros [T1 T2]. destruct t as [|c t]; [split; auto|]. split.
  - intros d s E. cbn in E. injection E as <- <-. eapply T1. reflexivity.
  - intros d s E. destruct (s_snoc (String c t)) as [|[s' [x K]]]; [discriminate|].
    destruct (spaced_last c t x s' (T2 _ _ K) K) as [s2 K2]. rewrite K2 in E. apply ssnoc_inj in E. destruct E as [_ <-]. eapply T2. exact K.
Qed.
Lemma strip_camel s : strip (camel_sub None s) = spaced (strip s).
Proof.
  destruct (proj1 (strip_trim_of s _) eq_refl) as [a [b [E [Ha [Hb T]]]]]. set (t := strip s) in *. rewrite E.
  destruct (camel_blank_prefix None a (t ++ b) Ha) as [p Ep]. rewrite Ep, (camel_blank_suffix p t b Hb).
  apply strip_trim_of. destruct t as [|c t'].
  - exists a, b. cbn. split; [reflexivity|]. split; [exact Ha|]. split; [exact Hb|]. split; intros ? ? K; [discriminate|destruct s'; discriminate].
  - rewrite camel_sub_cons. destruct (camel_here p (String c t')).
    + exists (a ++ " "), b. split; [cbn; rewrite !sapp_assoc; reflexivity|]. split; [apply all_blank_app; split; [exact Ha|]|split; [exact Hb|apply (spaced_trimmed (String c t')), T]].
      intros d [<-|[]]. right; left; cbv; lia.
    + exists a, b. split; [reflexivity|]. split; [exact Ha|]. split; [exact Hb|apply (spaced_trimmed (String c t')), T].
Qed.
Lemma despace_cons c s : despace (String c s) = if Ascii.eqb c " " then despace s else String c (despace s).
Proof. unfold despace, chars. cbn. destruct (Ascii.eqb c " "); reflexivity. Qed.
Lemma despace_camel prev s : despace (camel_sub prev s) = despace s.
Proof.
  revert prev. induction s as [|c s IH]; intros prev; [reflexivity|]. rewrite camel_sub_cons.
  destruct (camel_here prev (String c s)); rewrite !despace_cons, IH; reflexivity.
Qed.
Lemma despace_spaced s : despace (spaced s) = despace s.
Proof. destruct s as [|c s]; [reflexivity|]. cbn [spaced]. rewrite !despace_cons, despace_camel. reflexivity. Qed.

(* ---- the words ---- *)
Definition words (t : string) : list string := split_on " " (spaced t).
Lemma split_cons c s : c <> " "%char -> split_on " " (String c s) =
  match split_on " " s with w :: ws => String c w :: ws | [] => [String c ""] end.
Proof. intros N. cbn. rewrite aeqb_neq by exact N. reflexivity. Qed.
Lemma split_sp s : split_on " " (String " " s) = "" :: split_on " " s.
Proof. reflexivity. Qed.
Lemma words_step p c s : p <> " "%char -> c <> " "%char ->
  words (String p (String c s)) =
  if camel_here (Some p) (String c s) then String p "" :: words (String c s)
  else match words (String c s) with w :: ws => String p w :: ws | [] => [] end.
Proof.
  intros Np Nc. unfold words. cbn [spaced]. rewrite camel_sub_cons, split_cons by exact Np.
  destruct (camel_here (Some p) (String c s)).
  - rewrite split_sp. reflexivity.
  - pose proof (split_on_ne " " (String c (camel_sub (Some c) s))) as NE. destruct (split_on " " (String c (camel_sub (Some c) s))); [congruence|reflexivity].
Qed.
Lemma words_nonempty c s : free " " (String c s) -> exists w ws, words (String c s) = String c w :: ws /\ Forall (fun x => x <> "") ws.
Proof.
  revert c. induction s as [|d s IH]; intros c F.
  - apply free_cons in F. destruct F as [N _]. unfold words. cbn. rewrite aeqb_neq by exact N. exists "", []. split; [reflexivity|constructor].
  - apply free_cons in F. destruct F as [N F]. assert (Nd : d <> " "%char) by (apply free_cons in F; tauto).
    destruct (IH d F) as [w [ws [E H]]]. rewrite words_step by assumption. rewrite E. destruct (camel_here (Some c) (String d s)).
    + exists "", (String d w :: ws). split; [reflexivity|]. constructor; [discriminate|exact H].
    + exists (String d w), ws. auto.
Qed.
Lemma words_concat c s : free " " (String c s) -> sconcat (words (String c s)) = String c s.
Proof.
  revert c. induction s as [|d s IH]; intros c F.
  - apply free_cons in F. destruct F as [N _]. unfold words. cbn. rewrite aeqb_neq by exact N. reflexivity.
  - apply free_cons in F. destruct F as [N F]. assert (Nd : d <> " "%char) by (apply free_cons in F; tauto). specialize (IH d F).
    rewrite words_step by assumption. destruct (camel_here (Some c) (String d s)); [change (String c "" ++ sconcat (words (String d s)) = String c (String d s)); rewrite IH; reflexivity|].
    destruct (words (String d s)); [discriminate|]. cbn in *. rewrite IH. reflexivity.
Qed.
Lemma word_start_here p c s : word_start (String p "") (String c s) <-> camel_here (Some p) (String c s) = true.
Proof.
  unfold word_start, camel_here. rewrite andb_true_iff, orb_true_iff, is_upper_spec, is_lower_spec. split.
  - intros [c' [b' [E [U H]]]]. injection E as <- <-. split; [exact U|]. destruct H as [[d [b'' [-> L]]]|[a' [d [E L]]]].
    + left. apply is_lower_spec, L.
    + right. destruct a' as [|x a']; [injection E as ->; exact L|destruct a'; discriminate].
  - intros [U H]. exists c, s. split; [reflexivity|]. split; [exact U|]. destruct H as [H|H].
    + left. destruct s as [|d s]; [discriminate|]. exists d, s. split; [reflexivity|apply is_lower_spec, H].
    + right. exists "", p. auto.
Qed.
Lemma word_start_cons p a b : a <> "" -> word_start (String p a) b <-> word_start a b.
Proof.
  intros N. unfold word_start. split; intros [c [b' [E [U H]]]]; exists c, b'; (split; [exact E|split; [exact U|]]); (destruct H as [H|[a' [d [Ea L]]]]; [left; exact H|right]).
  - destruct a' as [|x a']; [injection Ea as _ Ea; congruence|]. injection Ea as _ Ea. exists a', d. auto.
  - exists (String p a'), d. split; [cbn; congruence|exact L].
Qed.
Lemma words_boundaries p s a b : free " " (String p s) -> String p s = a ++ b -> a <> "" -> b <> "" ->
  ((exists w1 w2, words (String p s) = (w1 ++ w2)%list /\ a = sconcat w1) <-> word_start a b).
Proof.
  revert p a. induction s as [|c s IH]; intros p a F E Na Nb.
  - exfalso. destruct a as [|x a]; [congruence|]. cbn in E. injection E as _ E. symmetry in E. apply sapp_eq_nil in E. tauto.
  - destruct a as [|x a]; [congruence|]. cbn in E. injection E as <- E. assert (F' := F). apply free_cons in F'. destruct F' as [Np F'].
    assert (Nc : c <> " "%char) by (apply free_cons in F'; tauto).
    destruct (words_nonempty c s F') as [w [ws [Ew Hne]]]. rewrite words_step by assumption.
    destruct a as [|y a].
    + cbn in E. subst b. rewrite word_start_here. destruct (camel_here (Some p) (String c s)).
      * split; [reflexivity|]. intros _. exists [String p ""], (words (String c s)). split; reflexivity.
      * split; [|discriminate]. rewrite Ew. intros [w1 [w2 [E1 E2]]]. destruct w1 as [|v w1]; [discriminate|]. injection E1 as <- E1. cbn in E2. discriminate.
    + rewrite word_start_cons by discriminate. rewrite <- (IH c (String y a) F' E) by (auto; discriminate).
      destruct (camel_here (Some p) (String c s)).
      * split.
        -- intros [w1 [w2 [E1 E2]]]. destruct w1 as [|v w1]; [discriminate|]. injection E1 as <- E1. cbn in E2. injection E2 as E2.
           exists w1, w2. split; [exact E1|exact E2].
        -- intros [w1 [w2 [E1 E2]]]. exists (String p "" :: w1), w2. rewrite E1, E2. split; reflexivity.
      * rewrite Ew. split.
        -- intros [w1 [w2 [E1 E2]]]. destruct w1 as [|v w1]; [discriminate|]. injection E1 as <- E1. injection E2 as -> ->.
           exists (String c w :: w1), w2. split; [cbn; congruence|reflexivity].
        -- intros [w1 [w2 [E1 E2]]]. destruct w1 as [|v w1]; [discriminate|]. injection E1 as <- E1. exists (String p (String c w) :: w1), w2.
           split; [cbn; congruence|]. cbn in *. congruence.
Qed.

(* ---- file names ---- *)
Lemma camel_word_sub prev w r : camel_word w -> (forall c r', r = String c r' -> ~ lower c) ->
  exists l, lower l /\ camel_sub prev (w ++ r) = String " " (w ++ camel_sub (Some l) r).
Proof.
  intros [c [d [w' [-> [U [L H]]]]]] Hr.
  cbn [append]. rewrite camel_sub_cons. unfold camel_here.
  rewrite (proj2 (is_upper_spec c) U), (proj2 (is_lower_spec d) L). cbn [andb orb].
  assert (LU : forall x, lower x -> is_upper x = false) by (intros x; unfold lower, is_upper; intros; apply andb_false_iff; rewrite !Nat.leb_gt; lia).
  assert (G : forall w p d, lower d -> (forall x, In x (chars w) -> lower x) -> exists l, lower l /\ camel_sub p (String d (w ++ r)) = String d (w ++ camel_sub (Some l) r)).
  { clear -LU. induction w as [|x w IH]; intros p d L H.
    - exists d. split; [exact L|]. cbn [append]. rewrite camel_sub_cons. unfold camel_here. rewrite LU by exact L. reflexivity.
    - cbn [append]. rewrite camel_sub_cons. unfold camel_here. rewrite LU by exact L. cbn [andb].
      destruct (IH (Some d) x) as [l [Hl E]]; [apply H; left; reflexivity|intros y Hy; apply H; right; exact Hy|]. exists l. split; [exact Hl|]. rewrite E. reflexivity. }
  destruct (G w' (Some c) d L H) as [l [Hl E]]. exists l. split; [exact Hl|]. rewrite E. reflexivity.
Qed.
Lemma camel_word_head w : camel_word w -> exists c w', w = String c w' /\ upper c /\ ~ lower c.
Proof. intros [c [d [w' [-> [U _]]]]]. exists c, (String d w'). split; [reflexivity|]. split; [exact U|]. unfold upper, lower in *. lia. Qed.
Lemma camel_word_free w : camel_word w -> free " " w.
Proof.
  intros [c [d [w' [-> [U [L H]]]]]] [K|[K|K]].
  - subst. unfold upper in U. cbv in U. lia.
  - subst. unfold lower in L. cbv in L. lia.
  - apply H in K. unfold lower in K. cbv in K. lia.
Qed.
Lemma camel_word_nodot w : camel_word w -> free "." w.
Proof.
  intros [c [d [w' [-> [U [L H]]]]]] [K|[K|K]].
  - subst. unfold upper in U. cbv in U. lia.
  - subst. unfold lower in L. cbv in L. lia.
  - apply H in K. unfold lower in K. cbv in K. lia.
Qed.
Lemma cut_last_dot_none e : free "." e -> cut_last_dot e = None.
Proof. induction e as [|c e IH]; [reflexivity|]. intros F. apply free_cons in F. destruct F as [N F]. cbn. rewrite IH by exact F. rewrite aeqb_neq by exact N. reflexivity. Qed.
Lemma cut_last_dot_app a e : free "." e -> cut_last_dot (a ++ String "." e) = Some a.
Proof.
  intros F. induction a as [|c a IH]; cbn [append cut_last_dot]; [rewrite cut_last_dot_none by exact F; reflexivity|]. rewrite IH. reflexivity.
Qed.
Lemma splitext_app c a e : c <> "."%char -> free "." e -> splitext0 (String c a ++ String "." e) = String c a.
Proof. intros N F. unfold splitext0. rewrite cut_last_dot_app by exact F. cbn. rewrite aeqb_neq by exact N. reflexivity. Qed.

Theorem filename_parts w1 w2 w3 w4 t ext :
  camel_word w1 -> camel_word w2 -> camel_word w3 -> camel_word w4 -> digit t -> free "." ext ->
  filename_to_dict (w1 ++ w2 ++ w3 ++ w4 ++ String t (String "." ext))
  = Ok [("bicycle", w1); ("part", w2); ("pendulum", w3); ("angleOrder", w4); ("trial", String t "")].
Proof.
  intros H1 H2 H3 H4 Ht He. destruct (camel_word_head w1 H1) as [c1 [v1 [E1 [U1 _]]]].
  assert (Nt : ~ lower t) by (unfold lower, digit in *; lia).
  assert (Nu : is_upper t = false) by (unfold is_upper, digit in *; apply andb_false_iff; rewrite !Nat.leb_gt; lia).
  assert (Tf : t <> " "%char) by (intros ->; unfold digit in Ht; cbv in Ht; lia).
  assert (Hd : forall w r, camel_word w -> forall c r', w ++ r = String c r' -> ~ lower c).
  { intros w r Hw c r' E. destruct (camel_word_head w Hw) as [x [w' [-> [_ L]]]]. injection E as <- _. exact L. }
  assert (S0 : splitext0 (w1 ++ w2 ++ w3 ++ w4 ++ String t (String "." ext)) = w1 ++ w2 ++ w3 ++ w4 ++ String t "").
  { replace (w1 ++ w2 ++ w3 ++ w4 ++ String t (String "." ext)) with ((w1 ++ w2 ++ w3 ++ w4 ++ String t "") ++ String "." ext) by (rewrite !sapp_assoc; reflexivity).
    rewrite E1. cbn [append]. apply splitext_app; [|exact He]. intros ->. unfold upper in U1. cbv in U1. lia. }
  unfold filename_to_dict. rewrite S0.
  destruct (camel_word_sub None w1 (w2 ++ w3 ++ w4 ++ String t "") H1 (Hd w2 _ H2)) as [l1 [_ C1]].
  destruct (camel_word_sub (Some l1) w2 (w3 ++ w4 ++ String t "") H2 (Hd w3 _ H3)) as [l2 [_ C2]].
  destruct (camel_word_sub (Some l2) w3 (w4 ++ String t "") H3 (Hd w4 _ H4)) as [l3 [_ C3]].
  assert (Ht' : forall c r', String t "" = String c r' -> ~ lower c) by (intros c r' E; injection E as <- _; exact Nt).
  destruct (camel_word_sub (Some l3) w4 (String t "") H4 Ht') as [l4 [_ C4]].
  assert (C5 : camel_sub (Some l4) (String t "") = String t "") by (rewrite camel_sub_cons; unfold camel_here; rewrite Nu; reflexivity).
  rewrite C1, C2, C3, C4, C5.
  assert (St : strip (String " " (w1 ++ String " " (w2 ++ String " " (w3 ++ String " " (w4 ++ String t ""))))) = w1 ++ String " " (w2 ++ String " " (w3 ++ String " " (w4 ++ String t "")))).
  { apply strip_trim_of. exists " ", "". split; [cbn; rewrite ?sapp_nil; reflexivity|]. split; [intros x [<-|[]]; right; left; cbv; lia|].
    split; [apply all_blank_nil|]. split.
    - intros c s' E. rewrite E1 in E. injection E as <- _. unfold upper, blank in *. lia.
    - intros c s' E.
      replace (w1 ++ String " " (w2 ++ String " " (w3 ++ String " " (w4 ++ String t "")))) with ((w1 ++ String " " (w2 ++ String " " (w3 ++ String " " w4))) ++ String t "") in E
        by (rewrite !sapp_assoc; cbn; rewrite !sapp_assoc; cbn; rewrite !sapp_assoc; reflexivity).
      apply ssnoc_inj in E. destruct E as [_ <-]. unfold digit, blank in *. lia. }
  rewrite St, !split_on_app by (apply camel_word_free; assumption).
  rewrite split_on_free by (rewrite free_app; split; [apply camel_word_free; assumption|apply free_cons; split; [exact Tf|apply free_nil]]).
  cbn [last]. assert (SL : forall w, slast (w ++ String t "") = Ok (String t "") /\ sinit (w ++ String t "") = w).
  { induction w as [|x w [I1 I2]]; [split; reflexivity|]. cbn [append slast sinit]. rewrite I1, I2. destruct w; split; reflexivity. }
  destruct (SL w4) as [S1 S2]. rewrite S1, S2. cbn [bind removelast app combine fold_left fst snd dset String.eqb Ascii.eqb Bool.eqb]. reflexivity.
Qed.
