(* PIo5.v -- write_parameter_text_file, write_periods_to_file *)
From Verif Require Import Base MString MIo SIo PBase PString PIo PIo2 PIo3 PIo4.
From Coq Require Import ZArith Lra Permutation Sorted.
Local Open Scope string_scope.

(* ---- numbers as printed ---- *)
Lemma decimal_chars_nb d c : decimal_ok d -> In c (chars (decimal_text d)) -> digit c \/ In c ["+"; "-"; "."; "e"; "E"]%char.
Proof.
  intros [H1 [H2 [H3 [H4 [H5 H6]]]]]. unfold decimal_text. rewrite !chars_app, !in_app_iff. intros [H|[H|[H|[H|H]]]].
  - destruct H1 as [E|[E|E]]; rewrite E in H; cbn in H |- *; intuition.
  - left. auto.
  - destruct (d_dot d); cbn in H |- *; [|tauto]. intuition.
  - left. auto.
  - destruct (d_exp d) as [[[e s] ds]|]; [|destruct H]. destruct H6 as [He [Hs [Hd _]]].
    rewrite !chars_app, !in_app_iff in H. destruct H as [H|[H|H]].
    + destruct He as [->| ->]; cbn in H |- *; intuition.
    + destruct Hs as [->|[->| ->]]; cbn in H |- *; intuition.
    + left. auto.
Qed.
Lemma numchar_not_blank c : digit c \/ In c ["+"; "-"; "."; "e"; "E"]%char -> ~ blank c.
Proof.
  unfold digit, blank. intros [H|H] B; [lia|]. cbn in H. destruct H as [<-|[<-|[<-|[<-|[<-|[]]]]]]; cbv in B; lia.
Qed.
Lemma no_blank_trimmed s : (forall c, In c (chars s) -> ~ blank c) -> trimmed s.
Proof.
  intros H. split; intros c s' ->; apply H; unfold chars.
  - left. reflexivity.
  - fold chars. change (In c (chars (s' ++ String c ""))). rewrite chars_app. apply in_or_app. right. left. reflexivity.
Qed.
Lemma decimal_text_ne d : decimal_ok d -> decimal_text d <> "".
Proof.
  intros [_ [_ [_ [_ [H _]]]]] E. unfold decimal_text in E. apply sapp_eq_nil in E. destruct E as [_ E]. apply sapp_eq_nil in E. destruct E as [E1 E].
  apply sapp_eq_nil in E. destruct E as [_ E]. apply sapp_eq_nil in E. destruct E as [E2 _]. destruct H; congruence.
Qed.
Lemma decimal_free d c : decimal_ok d -> ~ digit c -> ~ In c ["+"; "-"; "."; "e"; "E"]%char -> free c (decimal_text d).
Proof. intros H H1 H2 H3. destruct (decimal_chars_nb d c H H3); tauto. Qed.
Lemma decimal_trimmed d : decimal_ok d -> trimmed (decimal_text d).
Proof. intros H. apply no_blank_trimmed. intros c Hc. apply numchar_not_blank. eapply decimal_chars_nb; eassumption. Qed.
Lemma decimal_clean d : decimal_ok d -> clean_text (decimal_text d).
Proof.
  intros H. split; [apply decimal_trimmed, H|]. split; [apply decimal_text_ne, H|].
  repeat split; apply decimal_free; auto; try (unfold digit; cbv; lia); cbn; intuition discriminate.
Qed.
Lemma decimal_denotes d : decimal_ok d -> denotes (decimal_text d) (decimal_value d).
Proof.
  intros H. exists d. split; [exact H|]. split; [|reflexivity]. exists "", "". rewrite sapp_nil. split; [reflexivity|].
  split; [apply all_blank_nil|]. split; [apply all_blank_nil|]. apply decimal_trimmed, H.
Qed.
Lemma trim_self s : trimmed s -> trim_of s s.
Proof. intros H. exists "", "". rewrite sapp_nil. repeat split; auto using all_blank_nil; apply H. Qed.
Lemma fields_self c s : free c s -> fields c s [s].
Proof. intros H. split; [discriminate|]. split; [reflexivity|]. repeat constructor. exact H. Qed.
Lemma decimal_rhs other d : decimal_ok d -> rhs_value other (decimal_text d) (PF (decimal_value d)).
Proof.
  intros H. exists (decimal_text d), [decimal_text d]. split; [apply trim_self, decimal_trimmed, H|].
  split; [apply fields_self, decimal_free; [exact H|unfold digit; cbv; lia|cbn; intuition discriminate]|]. left. split.
  - intros [a [b E]]. assert (F : free "/" (decimal_text d)) by (apply decimal_free; [exact H|unfold digit; cbv; lia|cbn; intuition discriminate]).
    apply F. rewrite E, !chars_app, !in_app_iff. right. left. cbn. tauto.
  - exists [decimal_value d]. split; [repeat constructor; apply decimal_denotes, H|]. f_equal. unfold average. cbn. field.
Qed.
(* str of a ufloat: nominal+/-std *)
Definition pm_text (a b : decimal) : string := decimal_text a ++ "+/-" ++ decimal_text b.
Lemma pm_clean a b : decimal_ok a -> decimal_ok b -> clean_text (pm_text a b).
Proof.
  intros Ha Hb. destruct (decimal_clean a Ha) as [Ta [Na [A1 [A2 [A3 A4]]]]]. destruct (decimal_clean b Hb) as [Tb [Nb [B1 [B2 [B3 B4]]]]].
  unfold pm_text. split; [apply trimmed_app; auto|]. split; [intros E; apply sapp_eq_nil in E; tauto|].
  rewrite !free_app. repeat split; auto; cbv; intuition discriminate.
Qed.
Lemma pm_rhs other a b : decimal_ok a -> decimal_ok b -> 0 <= decimal_value b ->
  rhs_value other (pm_text a b) (PU (decimal_value a) (decimal_value b)).
Proof.
  intros Ha Hb P. exists (pm_text a b), [pm_text a b]. destruct (pm_clean a b Ha Hb) as [T _]. split; [apply trim_self, T|].
  assert (Fa : free "," (decimal_text a)) by (apply decimal_free; [exact Ha|unfold digit; cbv; lia|cbn; intuition discriminate]).
  assert (Fb : free "," (decimal_text b)) by (apply decimal_free; [exact Hb|unfold digit; cbv; lia|cbn; intuition discriminate]).
  split; [apply fields_self; unfold pm_text; rewrite !free_app; repeat split; auto; cbv; intuition discriminate|]. right.
  split; [exists (decimal_text a), (decimal_text b); reflexivity|].
  exists [(decimal_value a, decimal_value b)]. split.
  - constructor; [|constructor]. left. exists (decimal_text a), (decimal_text b). split; [reflexivity|]. cbn [fst snd].
    split; [apply decimal_denotes, Ha|]. split; [apply decimal_denotes, Hb|exact P].
  - cbn [map fst snd fold_right length INR]. f_equal.
    + unfold average. cbn. field.
    + rewrite Rplus_0_r, sqrt_square by exact P. field.
Qed.

(* ---- write_parameter_text_file ---- *)
Section W.
Context {V : Type} (str : V -> string).
Lemma write_cases fs answers path d out fs' rest :
  write_parameter_text_file str fs answers path d = (out, fs', rest) ->
  match out with
  | Ok true => exists fs1, fs_files fs1 = fs_files fs /\ open_w fs1 path (par_text str d) = Ok fs'
  | Ok false => fs_files fs' = fs_files fs /\ (exists old, dget (fs_files fs) path = Some old)
                /\ exists junk, answers = (junk ++ "n" :: rest)%list /\ forall x, In x junk -> x <> "y" /\ x <> "n"
  | Err _ => fs_files fs' = fs_files fs
  end.
Proof.
  unfold write_parameter_text_file. destruct (os_split path) as [head tl]. fold (ensure_dir fs head).
  destruct (ensure_dir fs head) as [fs1|e] eqn:E1; [|intros H; injection H as <- <- <-; reflexivity].
  apply ensure_dir_ok in E1 as [F1 _]. unfold open_r. rewrite F1. destruct (dget (fs_files fs) path) as [old|] eqn:Ef.
  - destruct (ask answers) as [[a r]|] eqn:Ea.
    + destruct (String.eqb a "y") eqn:Ey.
      * destruct (open_w fs1 path (par_text str d)) as [fs2|e] eqn:Eo; intros H; injection H as <- <- <-; eauto.
      * intros H; injection H as <- <- <-. split; [exact F1|]. split; [eauto|]. clear -Ea Ey. revert a r Ea Ey.
        induction answers as [|x l IH]; intros a r Ea Ey; [discriminate|]. cbn in Ea.
        destruct (String.eqb x "y" || String.eqb x "n") eqn:Ex.
        -- injection Ea as -> ->. rewrite Ey in Ex. cbn in Ex. apply String.eqb_eq in Ex as ->. exists []. split; [reflexivity|intros ? []].
        -- destruct (IH a r Ea Ey) as [junk [-> Hj]]. exists (x :: junk). split; [reflexivity|]. intros z [<-|Hz]; [|auto].
           apply orb_false_iff in Ex. rewrite !String.eqb_neq in Ex. exact Ex.
    + intros H; injection H as <- <- <-. exact F1.
  - destruct (open_w fs1 path (par_text str d)) as [fs2|e] eqn:Eo; intros H; injection H as <- <- <-; eauto.
Qed.
Lemma write_new fs answers path d : isdir fs (fst (os_split path)) = true -> isdir fs path = false -> snd (os_split path) <> "" ->
  dget (fs_files fs) path = None -> exists fs', write_parameter_text_file str fs answers path d = (Ok true, fs', answers).
Proof.
  intros H1 H2 H3 H4. unfold write_parameter_text_file. destruct (os_split path) as [h t] eqn:Es. cbn in H1, H3. rewrite H1.
  unfold open_r. rewrite H4. unfold open_w. rewrite H2, Es. cbn [snd]. apply String.eqb_neq in H3. rewrite H3. cbn [orb]. eexists; reflexivity.
Qed.
Lemma write_yes fs path d old junk rest : isdir fs (fst (os_split path)) = true -> isdir fs path = false -> snd (os_split path) <> "" ->
  dget (fs_files fs) path = Some old -> (forall x, In x junk -> x <> "y" /\ x <> "n") ->
  exists fs', write_parameter_text_file str fs (junk ++ "y" :: rest) path d = (Ok true, fs', rest).
Proof.
  intros H1 H2 H3 H4 H5. unfold write_parameter_text_file. destruct (os_split path) as [h t] eqn:Es. cbn in H1, H3. rewrite H1.
  unfold open_r. rewrite H4, ask_first by auto. unfold open_w. rewrite H2, Es. cbn [snd]. apply String.eqb_neq in H3. rewrite H3. cbn. eexists; reflexivity.
Qed.
Lemma write_no fs path d old junk rest : isdir fs (fst (os_split path)) = true ->
  dget (fs_files fs) path = Some old -> (forall x, In x junk -> x <> "y" /\ x <> "n") ->
  write_parameter_text_file str fs (junk ++ "n" :: rest) path d = (Ok false, fs, rest).
Proof.
  intros H1 H4 H5. unfold write_parameter_text_file. destruct (os_split path) as [h t] eqn:Es. cbn in H1. rewrite H1.
  unfold open_r. rewrite H4, ask_first by auto. reflexivity.
Qed.
Lemma write_eof fs path d old junk : isdir fs (fst (os_split path)) = true ->
  dget (fs_files fs) path = Some old -> (forall x, In x junk -> x <> "y" /\ x <> "n") ->
  write_parameter_text_file str fs junk path d = (Err (OtherError "EOFError"), fs, []).
Proof.
  intros H1 H4 H5. unfold write_parameter_text_file. destruct (os_split path) as [h t] eqn:Es. cbn in H1. rewrite H1.
  unfold open_r. rewrite H4, ask_none by auto. reflexivity.
Qed.
Lemma split_last_none p : free slash p -> split_last_slash p = None.
Proof.
  induction p as [|c p IH]; [reflexivity|]. intros F. apply free_cons in F. destruct F as [N F]. cbn. rewrite IH by exact F. rewrite aeqb_neq by auto. reflexivity.
Qed.
Lemma write_bare fs answers path d : free slash path -> isdir fs "" = false ->
  write_parameter_text_file str fs answers path d = (Err IOError, fs, answers).
Proof.
  intros F H. unfold write_parameter_text_file, os_split. rewrite split_last_none by exact F. rewrite H. reflexivity.
Qed.
End W.

(* ---- write_periods_to_file ---- *)
Lemma sconcat_app a b : sconcat (a ++ b) = sconcat a ++ sconcat b.
Proof. unfold sconcat. induction a as [|x a IH]; [reflexivity|]. cbn. rewrite IH, sapp_assoc. reflexivity. Qed.
Definition ends_nl (l : string) : Prop := exists m, free NL m /\ l = m ++ String NL "".
Lemma closed_lines s : closed s -> Forall ends_nl (file_lines s).
Proof.
  revert s. apply (file_lines_ind (fun s ls => closed s -> Forall ends_nl ls)).
  - constructor.
  - intros m F N [->|[m' ->]]; [congruence|]. apply free_app in F. destruct F as [_ F]. apply free_cons in F. destruct F. congruence.
  - intros m s F IH C. constructor; [exists m; auto|]. apply IH. destruct C as [C|[m' C]]; [destruct m; discriminate|].
    destruct (s_snoc s) as [->|[s' [c ->]]]; [left; reflexivity|right]. exists s'.
    replace (m ++ String NL (s' ++ String c "")) with ((m ++ String NL s') ++ String c "") in C by (rewrite sapp_assoc; reflexivity).
    apply ssnoc_inj in C. destruct C as [_ ->]. reflexivity.
Qed.
Lemma lines_of_ends ls : Forall ends_nl ls -> file_lines (sconcat ls) = ls /\ closed (sconcat ls).
Proof.
  induction 1 as [|l ls [m [F ->]] H [IH C]]; [split; [reflexivity|left; reflexivity]|]. cbn [sconcat fold_right]. fold (sconcat ls). split.
  - rewrite sapp_assoc. cbn [append]. rewrite file_lines_line by exact F. rewrite IH. reflexivity.
  - right. destruct C as [E|[m' E]]; rewrite E; [exists m; apply sapp_nil|]. exists ((m ++ String NL "") ++ m'). rewrite !sapp_assoc. reflexivity.
Qed.
Lemma Forall_filter {A} (P : A -> Prop) f l : Forall P l -> Forall P (filter f l).
Proof. rewrite !Forall_forall. intros H x Hx. apply filter_In in Hx. apply H. tauto. Qed.
Lemma entry_ends k t : free NL k -> free NL t -> ends_nl (entry_line k t).
Proof.
  intros Hk Ht. exists (k ++ " = " ++ t). split; [rewrite !free_app; repeat split; auto; cbv; intuition discriminate|]. unfold entry_line. rewrite !sapp_assoc. reflexivity.
Qed.
Definition t_entries {V} (mp : dict V) : dict V := filter (fun kv => starts_with "T" (fst kv)) mp.
Lemma t_entries_nodup {V} (mp : dict V) : NoDup (dkeys mp) -> NoDup (dkeys (t_entries mp)).
Proof.
  unfold t_entries, dkeys. induction mp as [|[k v] mp IH]; intros N; [constructor|]. cbn in N. inversion N as [|? ? NI N']; subst. cbn [filter fst].
  destruct (starts_with "T" k); [|auto]. cbn [map fst]. constructor; [|auto]. intros K. apply NI. apply in_map_iff in K as [x [E K]]. apply filter_In in K.
  apply in_map_iff. exists x. tauto.
Qed.
Definition not_T (l : string) : bool := negb (starts_with "T" l).
Definition period_lines {V} (str : V -> string) (mp : dict V) : list string := map (par_line str) (sorted_items (t_entries mp)).

Section P.
Context {V : Type} (str : V -> string) (mp : dict V).
Hypothesis Hnd : NoDup (dkeys mp).
Hypothesis Hcl : forall k v, In (k, v) mp -> starts_with "T" k = true -> free NL k /\ free NL (str v) /\ free CR k /\ free CR (str v).
Lemma t_in kv : In kv (sorted_items (t_entries mp)) <-> In kv mp /\ starts_with "T" (fst kv) = true.
Proof. rewrite sorted_items_in by apply t_entries_nodup, Hnd. unfold t_entries. apply filter_In. Qed.
Lemma period_lines_ends : Forall ends_nl (period_lines str mp).
Proof.
  apply Forall_forall. intros l Hl. unfold period_lines in Hl. apply in_map_iff in Hl as [[k v] [<- Hl]]. apply t_in in Hl as [Hl Ht].
  destruct (Hcl k v Hl Ht) as [A [B _]]. apply entry_ends; assumption.
Qed.
Lemma period_lines_T : filter not_T (period_lines str mp) = [].
Proof.
  unfold period_lines. assert (H : forall kv, In kv (sorted_items (t_entries mp)) -> starts_with "T" (fst kv) = true) by (intros kv K; apply t_in in K; tauto).
  induction (sorted_items (t_entries mp)) as [|[k v] l IH]; [reflexivity|]. cbn [map filter].
  assert (Hk := H (k, v) (or_introl eq_refl)). cbn [fst] in Hk. unfold not_T at 1. unfold par_line. cbn [fst].
  assert (E : starts_with "T" (k ++ " = " ++ str (snd (k, v)) ++ String NL "") = true).
  { apply starts_with_iff in Hk as [r ->]. apply starts_with_iff. exists (r ++ " = " ++ str v ++ String NL ""). reflexivity. }
  rewrite E. cbn. apply IH. intros; apply H; right; assumption.
Qed.
Lemma period_lines_cr : free CR (sconcat (period_lines str mp)).
Proof.
  unfold period_lines. rewrite map_entry. apply entries_free; [cbv; intuition discriminate|discriminate|].
  intros k t Hin. apply in_map_iff in Hin as [[k' v] [E Hin]]. injection E as <- <-. apply t_in in Hin as [Hin Ht]. destruct (Hcl k' v Hin Ht) as [_ [_ ?]]. assumption.
Qed.
Definition kept (old : string) : list string := filter not_T (file_lines (univ_nl old)).
Lemma periods_text_eq old : periods_text str old mp = sconcat (kept old) ++ sconcat (period_lines str mp).
Proof. reflexivity. Qed.
Lemma sconcat_filter_cr f (ls : list string) : Forall (free CR) ls -> free CR (sconcat (filter f ls)).
Proof.
  induction 1 as [|l ls H Hs IH]; [apply free_nil|]. cbn. destruct (f l); [|exact IH]. cbn. rewrite free_app. auto.
Qed.
Lemma lines_cr s : free CR s -> Forall (free CR) (file_lines s).
Proof.
  intros F. rewrite <- (file_lines_concat s) in F. revert F. generalize (file_lines s). intros l. induction l as [|x l IH]; intros F; [constructor|].
  cbn in F. rewrite free_app in F. constructor; [tauto|apply IH; tauto].
Qed.
Lemma periods_text_cr old : free CR (periods_text str old mp).
Proof. rewrite periods_text_eq, free_app. split; [apply sconcat_filter_cr, lines_cr, univ_nl_no_cr|apply period_lines_cr]. Qed.
Lemma periods_lines old : closed (univ_nl old) ->
  file_lines (univ_nl (periods_text str old mp)) = (kept old ++ period_lines str mp)%list.
Proof.
  intros C. rewrite univ_nl_free by apply periods_text_cr. rewrite periods_text_eq.
  assert (K : Forall ends_nl (kept old)) by (apply Forall_filter, closed_lines, C).
  rewrite <- sconcat_app. apply lines_of_ends. apply Forall_app. split; [exact K|apply period_lines_ends].
Qed.
Lemma filter_idem {A} (f : A -> bool) l : filter f (filter f l) = filter f l.
Proof. induction l as [|x l IH]; [reflexivity|]. cbn. destruct (f x) eqn:E; cbn; rewrite ?E, IH; reflexivity. Qed.
Lemma periods_idem old : closed (univ_nl old) ->
  periods_text str (periods_text str old mp) mp = periods_text str old mp.
Proof.
  intros C. rewrite (periods_text_eq (periods_text str old mp)). unfold kept. rewrite periods_lines by exact C.
  rewrite filter_app, period_lines_T, app_nil_r. unfold kept. rewrite filter_idem. reflexivity.
Qed.

Lemma load_lines_app other d a b : load_lines other d (a ++ b) = bind (load_lines other d a) (fun d' => load_lines other d' b).
Proof.
  revert d. induction a as [|l a IH]; intros d; [reflexivity|]. cbn [app load_lines]. destruct (starts_with "#" l); [apply IH|].
  destruct (parse_line other l) as [kv|e]; [|reflexivity]. cbn [bind]. apply IH.
Qed.
Lemma trim_first s t c r : trim_of s t -> s = String c r -> ~ blank c -> exists r', t = String c r'.
Proof.
  intros [a [b [E [Ha [Hb _]]]]] -> N. destruct a as [|x a].
  - destruct t as [|y t]; cbn in E; [subst b; exfalso; apply N; apply Hb; left; reflexivity|]. injection E as -> E. eauto.
  - exfalso. injection E as -> _. apply N, Ha. left. reflexivity.
Qed.
Lemma T_line_key other l k v : starts_with "T" l = true -> assigns other l k v -> starts_with "T" k = true.
Proof.
  intros HT [t [body [tail [lhs [rhs [rest [Ht [Et [Fb [Htl [Eb [Fl [Fr [Hrest [Hk Hv]]]]]]]]]]]]]]].
  apply starts_with_iff in HT as [r HT]. cbn in HT.
  assert (NT : ~ blank "T"%char) by (unfold blank; cbv; lia).
  destruct (trim_first l t "T" r Ht HT NT) as [r' E]. rewrite Et, Eb in E.
  destruct lhs as [|c lhs]; [discriminate|]. cbn in E. injection E as -> _.
  destruct (trim_first _ k "T" lhs Hk eq_refl NT) as [r'' ->]. reflexivity.
Qed.
Lemma load_kept other ls d d0 : load_lines other d ls = Ok d0 ->
  exists d1, load_lines other d (filter not_T ls) = Ok d1 /\ forall k, starts_with "T" k = false -> dget d1 k = dget d0 k.
Proof.
  intros H. apply load_lines_iff in H as [rs [H ->]].
  assert (G : exists rs', Forall2 (line_reads (orel other)) (filter not_T ls) rs' /\ forall k, starts_with "T" k = false -> last_assigned k rs' = last_assigned k rs).
  { induction H as [|l r ls rs Hr Hrs [rs' [I1 I2]]]; [exists []; split; [constructor|reflexivity]|]. cbn [filter].
    unfold not_T at 1. destruct (starts_with "T" l) eqn:E; cbn [negb].
    - exists rs'. split; [exact I1|]. intros k Hk. rewrite I2 by exact Hk. cbn. destruct (last_assigned k rs); [reflexivity|].
      destruct Hr as [_|k' v _ A]; [reflexivity|]. apply (T_line_key _ _ _ _ E) in A.
      destruct (String.eqb k k') eqn:Ek; [apply String.eqb_eq in Ek; congruence|reflexivity].
    - exists (r :: rs'). split; [constructor; assumption|]. intros k Hk. cbn. rewrite I2 by exact Hk. reflexivity. }
  destruct G as [rs' [G1 G2]]. exists (apply_reads d rs'). split; [apply load_lines_iff; eauto|].
  intros k Hk. rewrite !apply_reads_get, G2 by exact Hk. reflexivity.
Qed.
Lemma load_entries_any other (num : V -> pval) (es : list (string * V)) d :
  NoDup (map fst es) ->
  (forall k v, In (k, v) es -> clean_key k /\ clean_text (str v) /\ rhs_value (orel other) (str v) (num v)) ->
  exists d', load_lines other d (map (par_line str) es) = Ok d' /\
    forall k, dget d' k = match dget es k with Some v => Some (num v) | None => dget d k end.
Proof.
  revert d. induction es as [|[k v] es IH]; intros d N H; cbn [map load_lines]; [exists d; split; reflexivity|].
  destruct (H k v (or_introl eq_refl)) as [Hk [Ht Hv]]. rewrite par_line_entry. cbn [fst snd].
  rewrite entry_not_comment by exact Hk. rewrite (parse_entry other k (str v) (num v)) by assumption. cbn [bind fst snd].
  cbn in N. inversion N as [|? ? NI N']; subst.
  destruct (IH (dset d k (num v)) N') as [d' [E1 E2]]; [intros; apply H; right; assumption|]. exists d'. split; [exact E1|].
  intros q. rewrite E2, dget_dset. cbn [dget]. rewrite String.eqb_sym. destruct (String.eqb q k) eqn:E.
  - apply String.eqb_eq in E as ->. rewrite (proj2 (dget_none es k)) by exact NI. rewrite ?String.eqb_refl. reflexivity.
  - rewrite String.eqb_sym in E. rewrite ?E. rewrite String.eqb_sym in E. rewrite ?E. reflexivity.
Qed.
Lemma t_get k : dget (sorted_items (t_entries mp)) k = if starts_with "T" k then dget mp k else None.
Proof.
  rewrite sorted_items_get by apply t_entries_nodup, Hnd. unfold t_entries. clear. induction mp as [|[q v] l IH]; [destruct (starts_with "T" k); reflexivity|].
  cbn [filter fst]. destruct (starts_with "T" q) eqn:E; cbn [dget]; rewrite IH; destruct (String.eqb k q) eqn:Ek; try reflexivity;
    apply String.eqb_eq in Ek; subst; rewrite E; reflexivity.
Qed.
Lemma periods_load other (num : V -> pval) old d0 : closed (univ_nl old) -> load_text other old = Ok d0 ->
  (forall k v, In (k, v) mp -> starts_with "T" k = true -> clean_key k /\ clean_text (str v) /\ rhs_value (orel other) (str v) (num v)) ->
  exists d1, load_text other (periods_text str old mp) = Ok d1 /\
    (forall k v, starts_with "T" k = true -> dget mp k = Some v -> dget d1 k = Some (num v)) /\
    (forall k, starts_with "T" k = false -> dget d1 k = dget d0 k).
Proof.
  intros C H0 H. unfold load_text in *. rewrite periods_lines by exact C. rewrite load_lines_app.
  destruct (load_kept other _ _ _ H0) as [d1 [E1 E2]]. unfold kept. rewrite E1. cbn [bind].
  destruct (load_entries_any other num (sorted_items (t_entries mp)) d1) as [d' [E3 E4]].
  - apply sorted_items_nodup, t_entries_nodup, Hnd.
  - intros k v Hin. apply t_in in Hin as [Hin Ht]. exact (H k v Hin Ht).
  - exists d'. split; [exact E3|]. split.
    + intros k v HT Hk. rewrite E4, t_get, HT, Hk. reflexivity.
    + intros k HT. rewrite E4, t_get, HT. apply E2, HT.
Qed.
End P.
