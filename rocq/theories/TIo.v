(* TIo.v -- theorems for C34-C38 (bicycleparameters/io.py) *)
From Verif Require Import Base MString MIo SIo PBase PString PIo PIo2 PIo3 PIo4 PIo5 PIo6.
From Coq Require Import ZArith Lra Permutation Sorted.
Local Open Scope string_scope.

(* ================= C34 ================= *)

(* Whenever the function returns True, the file holds one line "key = value" per
   entry in increasing key order, every other file is as before, and loading the
   file gives back the written dictionary ([num] is the value a text stands for;
   [other] are the uncertainties package's other notations). *)
Theorem C34_saved_file_loads_back : forall (V : Type) (str : V -> string) (num : V -> pval) other fs answers path d fs' rest,
  NoDup (dkeys d) ->
  (forall k v, In (k, v) d -> clean_key k /\ clean_text (str v) /\ rhs_value (fun t u => other t = Ok u) (str v) (num v)) ->
  write_parameter_text_file str fs answers path d = (Ok true, fs', rest) ->
  exists content es d',
    dget (fs_files fs') path = Some content
    /\ (forall q, q <> path -> dget (fs_files fs') q = dget (fs_files fs) q)
    /\ Permutation es d
    /\ StronglySorted (fun a b => String.ltb (fst a) (fst b) = true) es
    /\ content = fold_right append "" (map (fun kv => entry_line (fst kv) (str (snd kv))) es)
    /\ load_text other content = Ok d'
    /\ dkeys d' = dkeys es
    /\ forall k, dget d' k = option_map num (dget d k).
Proof.
  intros V str num other fs answers path d fs' rest N H W. apply write_cases in W as [fs1 [F W]]. apply open_w_ok in W as [_ [G1 G2]].
  exists (par_text str d), (sorted_items d), (map (fun kv => (fst kv, num (snd kv))) (sorted_items d)).
  split; [exact G1|]. split; [intros q Hq; rewrite G2 by exact Hq; rewrite F; reflexivity|]. split; [apply sorted_items_perm, N|].
  split; [apply sorted_items_sorted, N|]. split; [reflexivity|]. split; [apply load_par_text; assumption|].
  split; [unfold dkeys; rewrite map_map; reflexivity|]. intros k. rewrite <- (sorted_items_get d k N). induction (sorted_items d) as [|[q v] l IH]; [reflexivity|].
  cbn [map dget fst snd]. destruct (String.eqb k q); [reflexivity|exact IH].
Qed.
Print Assumptions C34_saved_file_loads_back.

(* The hypotheses on the texts hold for all numbers printed as decimal literals
   or as nominal+/-std. *)
Theorem C34_printed_numbers_round_trip : forall other fs answers path (d : dict printed) fs' rest,
  NoDup (dkeys d) -> (forall k p, In (k, p) d -> clean_key k /\ printed_ok p) ->
  write_parameter_text_file printed_text fs answers path d = (Ok true, fs', rest) ->
  exists content d', dget (fs_files fs') path = Some content /\ load_text other content = Ok d'
    /\ forall k, dget d' k = option_map printed_value (dget d k).
Proof.
  intros other fs answers path d fs' rest N H W.
  destruct (C34_saved_file_loads_back printed printed_text printed_value other fs answers path d fs' rest N) as [c [es [d' [A [_ [_ [_ [_ [B [_ C]]]]]]]]]]; [|exact W|eauto].
  intros k p Hin. destruct (H k p Hin) as [Hk Hp]. split; [exact Hk|]. destruct p as [x|a b].
  - split; [apply decimal_clean, Hp|apply decimal_rhs, Hp].
  - destruct Hp as [Ha [Hb P]]. split; [apply (pm_clean a b Ha Hb)|apply (pm_rhs _ a b Ha Hb P)].
Qed.
Print Assumptions C34_printed_numbers_round_trip.

(* When it answers False, the file existed, the user's first proper answer was
   "n", and no file changed; when it raises, no file changed either. *)
Theorem C34_declined_or_failed_changes_no_file : forall (V : Type) (str : V -> string) fs answers path d out fs' rest,
  write_parameter_text_file str fs answers path d = (out, fs', rest) -> out <> Ok true ->
  fs_files fs' = fs_files fs
  /\ (out = Ok false -> (exists old, dget (fs_files fs) path = Some old)
        /\ exists junk, answers = (junk ++ "n" :: rest)%list /\ forall x, In x junk -> x <> "y" /\ x <> "n").
Proof.
  intros V str fs answers path d out fs' rest W N. apply write_cases in W. destruct out as [[|]|e].
  - congruence.
  - split; [tauto|]. intros _. tauto.
  - split; [exact W|discriminate].
Qed.
Print Assumptions C34_declined_or_failed_changes_no_file.

(* Which of the outcomes happens, for a file in an existing directory: a new file
   is written without asking; an existing file is overwritten exactly after the
   first proper answer "y" and kept after "n"; other answers are asked again. *)
Theorem C34_decision : forall (V : Type) (str : V -> string) fs path d rest junk,
  isdir fs (fst (os_split path)) = true -> isdir fs path = false -> snd (os_split path) <> "" ->
  (forall x, In x junk -> x <> "y" /\ x <> "n") ->
  (dget (fs_files fs) path = None ->
     exists fs', write_parameter_text_file str fs rest path d = (Ok true, fs', rest))
  /\ (forall old, dget (fs_files fs) path = Some old ->
     (exists fs', write_parameter_text_file str fs (junk ++ "y" :: rest) path d = (Ok true, fs', rest))
     /\ write_parameter_text_file str fs (junk ++ "n" :: rest) path d = (Ok false, fs, rest)
     /\ write_parameter_text_file str fs junk path d = (Err (OtherError "EOFError"), fs, [])).
Proof.
  intros V str fs path d rest junk H1 H2 H3 H4. split; [intros H; apply write_new; assumption|]. intros old H. split; [|split].
  - eapply write_yes; eassumption.
  - eapply write_no; eassumption.
  - eapply write_eof; eassumption.
Qed.
Print Assumptions C34_decision.

(* Refuted part: a file name without directory can never be written. *)
Theorem C34_bare_file_name_fails : forall (V : Type) (str : V -> string) fs answers path d,
  free slash path -> isdir fs "" = false ->
  write_parameter_text_file str fs answers path d = (Err IOError, fs, answers).
Proof. intros. apply write_bare; assumption. Qed.
Print Assumptions C34_bare_file_name_fails.

Example C34_example :
  let d := [("w", PrDec {| d_sign := ""; d_int := "1"; d_dot := true; d_frac := "02"; d_exp := None |});
            ("c", PrPm {| d_sign := "-"; d_int := "0"; d_dot := true; d_frac := "08"; d_exp := None |}
                       {| d_sign := ""; d_int := "1"; d_dot := false; d_frac := ""; d_exp := Some ("e", "-", "2") |})] in
  write_parameter_text_file printed_text {| fs_dirs := ["data/P"]; fs_files := [] |} [] "data/P/x.txt" d
  = (Ok true, {| fs_dirs := ["data/P"]; fs_files := [("data/P/x.txt",
      "c = -0.08+/-1e-2" ++ String NL ("w = 1.02" ++ String NL ""))] |}, [])
  /\ clean_key "w" /\ clean_key "c".
Proof.
  split; [reflexivity|]. split; (split; [apply no_blank_trimmed; intros c [<-|[]]; unfold blank; cbv; lia|]; repeat split; cbv; intuition discriminate).
Qed.

(* ================= C35 ================= *)

(* Loading succeeds exactly when every line is a comment or an assignment, and
   then every key has the value of its last assignment. *)
Theorem C35_load_meaning : forall other content text ls,
  read_as content text -> text_lines text ls ->
  (forall d, load_text other content = Ok d ->
     exists rs, Forall2 (line_reads (fun t u => other t = Ok u)) ls rs /\ NoDup (dkeys d) /\ forall k, dget d k = last_assigned k rs)
  /\ (forall rs, Forall2 (line_reads (fun t u => other t = Ok u)) ls rs ->
     exists d, load_text other content = Ok d /\ forall k, dget d k = last_assigned k rs).
Proof.
  intros other content text ls RA Hl. apply read_as_fun in RA. subst text. split.
  - intros d H. apply load_text_sound in H as [ls' [rs [H1 [H2 [H3 H4]]]]].
    assert (ls' = ls) by (apply file_lines_iff in H1; apply file_lines_iff in Hl; congruence). subst. eauto.
  - intros rs H. destruct (load_text_complete other content ls rs Hl H) as [d [A [_ B]]]. eauto.
Qed.
Print Assumptions C35_load_meaning.

(* Any line that is not a comment and has no '=' in front of a hash makes the
   whole load raise, wherever it is. *)
Theorem C35_line_without_equals_raises : forall other content text ls l,
  read_as content text -> text_lines text ls -> In l ls -> ~ comment_line l ->
  (forall a b, l = a ++ "=" ++ b -> ~ free "#" a) ->
  exists e, load_text other content = Err e.
Proof.
  intros other content text ls l RA Hl Hin N H. apply read_as_fun in RA. subst text. unfold load_text. apply file_lines_iff in Hl. rewrite Hl.
  apply (load_lines_bad other ls [] l Hin N). intros k v A. destruct (assigns_needs_eq _ _ _ _ A) as [a [b [E F]]]. exact (H a b E F).
Qed.
Print Assumptions C35_line_without_equals_raises.

(* Consequences a user of the documented format may not expect: blank lines and
   indented comments raise, text after a second '=' is dropped. *)
Theorem C35_blank_or_indented_comment_raises : forall other content text ls l,
  read_as content text -> text_lines text ls -> In l ls ->
  (all_blank l \/ exists a b, l = a ++ String "#" b /\ all_blank a /\ a <> "") ->
  exists e, load_text other content = Err e.
Proof.
  intros other content text ls l RA Hl Hin H. assert (NE : l <> "") by (destruct Hl as [_ [F _]]; rewrite Forall_forall in F; auto).
  assert (Hh : forall s, all_blank s -> free "#" s /\ free "=" s).
  { intros s B. split; intros K; apply B in K; unfold blank in K; cbv in K; lia. }
  apply (C35_line_without_equals_raises other content text ls l RA Hl Hin).
  - intros [u ->]. destruct H as [B|[a [b [E [B N]]]]].
    + apply Hh in B. destruct B as [B _]. apply free_cons in B. destruct B. congruence.
    + destruct a as [|c a]; [congruence|]. injection E as <- _. apply Hh in B. destruct B as [B _]. apply free_cons in B. destruct B. congruence.
  - intros x y E F. destruct H as [B|[a [b [E' [B N]]]]].
    + apply Hh in B. destruct B as [_ B]. rewrite E in B. apply free_app in B. destruct B as [_ B]. apply free_app in B. destruct B as [B _]. apply B. left. reflexivity.
    + destruct (Hh a B) as [_ Fa]. rewrite E in E'. clear -E' F Fa. revert a E' Fa. induction x as [|c x IH]; intros a E Fa.
      * destruct a as [|d a]; [discriminate|]. injection E as <- _. apply free_cons in Fa. destruct Fa. congruence.
      * destruct a as [|d a]; cbn in E; injection E as -> E.
        -- apply free_cons in F. destruct F. congruence.
        -- apply free_cons in F. apply free_cons in Fa. apply (IH (proj2 F) a E (proj2 Fa)).
Qed.
Print Assumptions C35_blank_or_indented_comment_raises.

(* every file content is read as exactly one text, so the theorems above apply to it *)
Theorem C35_every_content_is_read_as_one_text : forall content, exists text, forall t, read_as content t <-> t = text.
Proof. intros content. exists (univ_nl content). intros t. split; [intros H; symmetry; apply read_as_fun, H|intros ->; apply univ_nl_read]. Qed.
Print Assumptions C35_every_content_is_read_as_one_text.
Example C35_crlf : exists d, load_text (fun _ => Err (ValueError "")) ("w = 1" ++ String CR (String NL ("c = 2" ++ String CR "d = 3"))) = Ok d
  /\ dkeys d = ["w"; "c"; "d"].
Proof. eexists. split; reflexivity. Qed.

(* float(text) is the decimal literal's value, and nothing else is accepted. *)
Theorem C35_float_text : forall s x, pfloat s = Ok x <-> denotes s x.
Proof. exact pfloat_iff. Qed.
Print Assumptions C35_float_text.

(* the docstring's example *)
Definition docstring_file : string :=
  "c = 0.08 +/- 0.01" ++ String NL ("d=0.314+/-0.002  # a comment" ++ String NL ("# t" ++ String NL ("t = 0.1, 0.3" ++ String NL ("whb = 0.5" ++ String NL "")))).
Example C35_example : exists d, load_text (fun _ => Err (ValueError "")) docstring_file = Ok d
  /\ dkeys d = ["c"; "d"; "t"; "whb"] /\ dget d "c" = Some (PU (8/100) (1/100)) /\ dget d "t" = Some (PF (2/10)) /\ dget d "whb" = Some (PF (5/10)).
Proof.
  cbv -[Rmult Rdiv Rplus Rinv IZR sqrt powerRZ Rlt_dec Ropp INR].
  repeat match goal with |- context [Rlt_dec ?a ?b] => let L := fresh in destruct (Rlt_dec a b) as [L|L]; [exfalso; revert L; apply Rle_not_lt, Rmult_le_pos; [lra|]; apply Rlt_le, powerRZ_lt; lra|] end.
  eexists. split; [reflexivity|]. split; [reflexivity|]. split; [|split]; f_equal; f_equal; cbn -[sqrt];
    change (Pos.to_nat 2) with 2%nat; change (Pos.to_nat 1) with 1%nat; cbn [pow]; try lra.
  match goal with |- context [sqrt ?x] => replace x with ((1/100) * (1/100)) by lra end. rewrite sqrt_square by lra. lra.
Qed.

(* ================= C36 ================= *)

(* The new file consists of the old lines not starting with T, in order, and one
   line per entry of the dictionary whose key starts with T, in increasing key
   order; other files are unchanged. *)
Theorem C36_new_content : forall (V : Type) (str : V -> string) fs path (mp : dict V) old old_text fs',
  NoDup (dkeys mp) ->
  (forall k v, In (k, v) mp -> starts_with "T" k = true -> free NL k /\ free NL (str v) /\ free CR k /\ free CR (str v)) ->
  dget (fs_files fs) path = Some old -> read_as old old_text -> ends_properly old_text ->
  write_periods_to_file str fs path mp = Ok fs' ->
  exists new es old_lines,
    dget (fs_files fs') path = Some new
    /\ (forall q, q <> path -> dget (fs_files fs') q = dget (fs_files fs) q)
    /\ text_lines old_text old_lines
    /\ (forall kv, In kv es <-> In kv mp /\ exists r, fst kv = String "T" r)
    /\ StronglySorted (fun a b => String.ltb (fst a) (fst b) = true) es
    /\ text_lines new (filter (fun l => negb (starts_with "T" l)) old_lines ++ map (fun kv => entry_line (fst kv) (str (snd kv))) es).
Proof.
  intros V str fs path mp old old_text fs' N H Hf RA C W. apply read_as_fun in RA. subst old_text. unfold write_periods_to_file, open_r in W. rewrite Hf in W. cbn [bind] in W.
  apply open_w_ok in W as [_ [G1 G2]]. exists (periods_text str old mp), (sorted_items (t_entries mp)), (file_lines (univ_nl old)).
  split; [exact G1|]. split; [exact G2|]. split; [apply file_lines_text|]. split.
  - intros kv. rewrite t_in by exact N. rewrite starts_with_iff. reflexivity.
  - split; [apply sorted_items_sorted, t_entries_nodup, N|]. apply file_lines_iff.
    pose proof (periods_lines str mp N H old C) as P. rewrite univ_nl_free in P by (apply periods_text_cr; assumption). exact P.
Qed.
Print Assumptions C36_new_content.

(* Doing it twice with the same data is the same as once. *)
Theorem C36_idempotent : forall (V : Type) (str : V -> string) fs path (mp : dict V) old old_text fs1 fs2,
  NoDup (dkeys mp) ->
  (forall k v, In (k, v) mp -> starts_with "T" k = true -> free NL k /\ free NL (str v) /\ free CR k /\ free CR (str v)) ->
  dget (fs_files fs) path = Some old -> read_as old old_text -> ends_properly old_text ->
  write_periods_to_file str fs path mp = Ok fs1 -> write_periods_to_file str fs1 path mp = Ok fs2 ->
  forall q, dget (fs_files fs2) q = dget (fs_files fs1) q.
Proof.
  intros V str fs path mp old old_text fs1 fs2 N H Hf RA C W1 W2 q. apply read_as_fun in RA. subst old_text. unfold write_periods_to_file, open_r in *. rewrite Hf in W1. cbn [bind] in W1.
  apply open_w_ok in W1 as [_ [G1 G2]]. rewrite G1 in W2. cbn [bind] in W2. apply open_w_ok in W2 as [_ [K1 K2]].
  destruct (string_dec q path) as [->|Nq]; [|apply K2, Nq]. rewrite K1, G1. f_equal. apply periods_idem; assumption.
Qed.
Print Assumptions C36_idempotent.

(* Read back: the periods have the new values and every key not starting with T
   keeps its value. *)
Theorem C36_load_after_write : forall (V : Type) (str : V -> string) (num : V -> pval) other fs path (mp : dict V) old old_text fs' d0,
  NoDup (dkeys mp) ->
  (forall k v, In (k, v) mp -> starts_with "T" k = true ->
     clean_key k /\ clean_text (str v) /\ rhs_value (fun t u => other t = Ok u) (str v) (num v)) ->
  dget (fs_files fs) path = Some old -> read_as old old_text -> ends_properly old_text -> load_text other old = Ok d0 ->
  write_periods_to_file str fs path mp = Ok fs' ->
  exists new d1, dget (fs_files fs') path = Some new /\ load_text other new = Ok d1
    /\ (forall k v, starts_with "T" k = true -> dget mp k = Some v -> dget d1 k = Some (num v))
    /\ (forall k, starts_with "T" k = false -> dget d1 k = dget d0 k).
Proof.
  intros V str num other fs path mp old old_text fs' d0 N H Hf RA C L W. apply read_as_fun in RA. subst old_text. unfold write_periods_to_file, open_r in W. rewrite Hf in W. cbn [bind] in W.
  apply open_w_ok in W as [_ [G1 _]]. exists (periods_text str old mp).
  destruct (periods_load str mp N) with (other := other) (num := num) (old := old) (d0 := d0) as [d1 [A [B D]]]; try assumption.
  - intros k v Hin HT. destruct (H k v Hin HT) as [[_ [_ [_ [X1 X2]]]] [[_ [_ [_ [_ [Y1 Y2]]]]] _]]. auto.
  - exists d1. auto.
Qed.
Print Assumptions C36_load_after_write.

(* Refuted part: when the last kept line has no newline, the first period is glued
   to it; the old value is lost and the file no longer loads. *)
Theorem C36_missing_final_newline_corrupts :
  exists (mp : dict printed) old, NoDup (dkeys mp) /\ (forall k p, In (k, p) mp -> clean_key k /\ printed_ok p)
    /\ (exists d0, load_text (fun _ => Err IndexError) old = Ok d0 /\ dget d0 "w" <> None)
    /\ forall fs path fs', dget (fs_files fs) path = Some old -> write_periods_to_file printed_text fs path mp = Ok fs' ->
         exists new e, dget (fs_files fs') path = Some new /\ load_text (fun _ => Err IndexError) new = Err e.
Proof.
  exists [("TcB1", PrDec {| d_sign := ""; d_int := "2"; d_dot := true; d_frac := "5"; d_exp := None |})], "w = 1.02".
  split; [repeat constructor; intros []|]. split.
  - intros k p [E|[]]. injection E as <- <-. split.
    + split; [apply no_blank_trimmed; intros c Hc; cbv in Hc; destruct Hc as [<-|[<-|[<-|[<-|[]]]]]; unfold blank; cbv; lia|].
      repeat split; cbv; intuition discriminate.
    + cbn. unfold decimal_ok, sign_ok. cbn. split; [auto|]. split; [intros x [<-|[]]; unfold digit; cbv; lia|].
      split; [intros x [<-|[]]; unfold digit; cbv; lia|]. split; [discriminate|]. split; [left; discriminate|exact I].
  - split; [eexists; split; [reflexivity|cbn; discriminate]|]. intros fs path fs' F W. unfold write_periods_to_file, open_r in W. rewrite F in W. cbn [bind] in W.
    apply open_w_ok in W as [_ [G _]]. eexists. eexists. split; [exact G|reflexivity].
Qed.
Print Assumptions C36_missing_final_newline_corrupts.

Example C36_example : periods_text printed_text ("w = 1" ++ String NL ("Tx = 3" ++ String NL ("c = 2" ++ String NL "")))
   [("b", PrDec {| d_sign := ""; d_int := "9"; d_dot := false; d_frac := ""; d_exp := None |});
    ("TtB1", PrDec {| d_sign := ""; d_int := "2"; d_dot := false; d_frac := ""; d_exp := None |});
    ("TcB1", PrDec {| d_sign := ""; d_int := "4"; d_dot := false; d_frac := ""; d_exp := None |})]
  = "w = 1" ++ String NL ("c = 2" ++ String NL ("TcB1 = 4" ++ String NL ("TtB1 = 2" ++ String NL ""))).
Proof. reflexivity. Qed.

(* ================= C37 ================= *)

(* Up to white space at the ends, only spaces are added; list output is the
   string output cut at its spaces. *)
Theorem C37_only_spaces_added : forall s t, trim_of s t ->
  exists out ws, space_out_camel_case s "string" = Ok (CString out) /\ space_out_camel_case s "list" = Ok (CList ws)
    /\ despace out = despace t /\ trimmed out /\ fields " " out ws.
Proof.
  intros s t Ht. pose proof (proj2 (strip_trim_of s t) Ht) as E. exists (spaced t), (split_on " " (spaced t)).
  unfold space_out_camel_case. cbn [String.eqb Ascii.eqb Bool.eqb]. rewrite strip_camel, E. split; [reflexivity|]. split; [reflexivity|].
  split; [apply despace_spaced|]. split; [apply spaced_trimmed; destruct Ht as [? [? [_ [_ [_ T]]]]]; exact T|]. apply split_on_fields.
Qed.
Print Assumptions C37_only_spaces_added.

(* For a text without spaces the list output are its camel case words: joined
   they are the text, and a word ends exactly where a new word starts. *)
Theorem C37_words : forall s, trimmed s -> free " " s -> s <> "" ->
  exists ws, space_out_camel_case s "list" = Ok (CList ws)
    /\ fold_right append "" ws = s /\ Forall (fun w => w <> "") ws
    /\ forall a b, s = a ++ b -> a <> "" -> b <> "" ->
        ((exists w1 w2, ws = (w1 ++ w2)%list /\ a = fold_right append "" w1) <-> word_start a b).
Proof.
  intros s T F N. exists (words s). unfold space_out_camel_case. cbn [String.eqb Ascii.eqb Bool.eqb].
  rewrite strip_camel, (trimmed_strip s T). split; [reflexivity|]. destruct s as [|c s]; [congruence|]. split; [apply words_concat, F|]. split.
  - destruct (words_nonempty c s F) as [w [ws [E H]]]. rewrite E. constructor; [discriminate|exact H].
  - intros a b E Na Nb. apply words_boundaries; assumption.
Qed.
Print Assumptions C37_words.

Theorem C37_bad_option : forall s o, o <> "string" -> o <> "list" -> space_out_camel_case s o = Err (ValueError "").
Proof. intros s o H1 H2. apply String.eqb_neq in H1, H2. unfold space_out_camel_case. rewrite H1, H2. reflexivity. Qed.
Print Assumptions C37_bad_option.

(* Spacing out is not idempotent: a second application doubles spaces. *)
Theorem C37_not_idempotent : exists s out out2, space_out_camel_case s "string" = Ok (CString out)
  /\ space_out_camel_case out "string" = Ok (CString out2) /\ out <> out2.
Proof. exists "aBc", "a Bc", "a  Bc". repeat split. discriminate. Qed.
Print Assumptions C37_not_idempotent.

(* File names made of four camel case words and a digit are taken apart into
   exactly these. *)
Theorem C37_file_name : forall bicycle part pendulum angle trial ext,
  camel_word bicycle -> camel_word part -> camel_word pendulum -> camel_word angle -> digit trial -> free "." ext ->
  filename_to_dict (bicycle ++ part ++ pendulum ++ angle ++ String trial (String "." ext))
  = Ok [("bicycle", bicycle); ("part", part); ("pendulum", pendulum); ("angleOrder", angle); ("trial", String trial "")].
Proof. exact filename_parts. Qed.
Print Assumptions C37_file_name.
Example C37_doc : space_out_camel_case "DMLSServicesOtherBSTextLLC" "list" = Ok (CList ["DMLS"; "Services"; "Other"; "BS"; "Text"; "LLC"]).
Proof. reflexivity. Qed.
Example C37_file : filename_to_dict "BrowserForkCompoundFirst1.mat"
  = Ok [("bicycle", "Browser"); ("part", "Fork"); ("pendulum", "Compound"); ("angleOrder", "First"); ("trial", "1")].
Proof. reflexivity. Qed.

(* ================= C38 ================= *)

Lemma mapM_nominal l xs : mapM nominal l = Ok xs <-> exists us, l = map (fun u => SUfloat (fst u) (snd u)) us /\ xs = map fst us.
Proof.
  revert xs. induction l as [|s l IH]; intros xs; cbn [mapM].
  - split; [intros H; injection H as <-; exists []; auto|]. intros [[|u us] [E ->]]; [reflexivity|discriminate].
  - split.
    + intros H. apply bind_ok in H as [y [H1 H]]. apply bind_ok in H as [ys [H2 H]]. injection H as <-. apply IH in H2 as [us [-> ->]].
      destruct s as [x|n sd]; [discriminate|]. injection H1 as ->. exists ((y, sd) :: us). auto.
    + intros [[|u us] [E ->]]; [discriminate|]. injection E as -> ->. cbn. rewrite (proj2 (IH (map fst us))) by eauto. reflexivity.
Qed.
(* The result has the same keys in the same order, every uncertain number or list
   of uncertain numbers replaced by nominal values, every plain number kept. *)
Theorem C38_values : forall d d', (forall k s, ~ In (k, MText s) d) ->
  (remove_uncertainties d = Ok d' <-> Forall2 (fun a b => fst a = fst b /\ without_std (snd a) (snd b)) d d').
Proof.
  intros d d' HT. unfold remove_uncertainties. eapply iff_trans; [exact (mapM_iff _ d d')|].
  assert (G : forall k v b, In (k, v) d -> (v' <- remove_one v;; Ok (k, v')) = Ok b <-> k = fst b /\ without_std v (snd b)).
  { intros k v [k' v'] Hin. cbn [fst snd]. split.
    - intros H. apply bind_ok in H as [w [H E]]. injection E as <- <-. split; [reflexivity|]. destruct v as [[x|n s]|l|t]; cbn in H.
      + injection H as <-. constructor.
      + injection H as <-. constructor.
      + apply bind_ok in H as [xs [H E]]. injection E as <-. apply mapM_nominal in H as [us [-> ->]]. rewrite map_map. constructor.
      + exfalso. exact (HT k t Hin).
    - intros [<- H]. destruct H as [n s|x|us]; [reflexivity|reflexivity|]. cbn.
      rewrite (proj2 (mapM_nominal _ (map fst us))) by eauto. cbn. rewrite map_map. reflexivity. }
  clear HT. revert d' G. induction d as [|[k v] d IH]; intros d' G; (split; intros H; inversion H as [|? ? ? ? H1 H2]; subst; constructor).
  - apply G; [left; reflexivity|exact H1].
  - apply IH; [intros; apply G; right; assumption|exact H2].
  - apply G; [left; reflexivity|exact H1].
  - apply IH; [intros; apply G; right; assumption|exact H2].
Qed.
Print Assumptions C38_values.

(* Applied to its own output it changes nothing if there is no list of numbers... *)
Theorem C38_idempotent_without_lists : forall d d', (forall k l, ~ In (k, MList l) d) -> (forall k s, ~ In (k, MText s) d) ->
  remove_uncertainties d = Ok d' -> remove_uncertainties d' = Ok d'.
Proof.
  intros d d' HL HT H. apply C38_values in H; [|exact HT]. unfold remove_uncertainties. apply mapM_iff.
  induction H as [|[k v] [k' v'] d d' [E W] H IH]; constructor.
  - cbn in E, W |- *. subst k'. destruct W; try reflexivity. exfalso. eapply HL. left. reflexivity.
  - apply IH; [intros k0 l Hin; apply (HL k0 l); right; exact Hin|intros k0 l Hin; apply (HT k0 l); right; exact Hin].
Qed.
Print Assumptions C38_idempotent_without_lists.

(* ... and raises AttributeError on its own output if there is one (refuted part
   of the property). *)
Theorem C38_fails_on_own_output_with_list : forall d d' k us, us <> [] ->
  (forall q s, ~ In (q, MText s) d) -> In (k, MList (map (fun u => SUfloat (fst u) (snd u)) us)) d ->
  remove_uncertainties d = Ok d' -> remove_uncertainties d' = Err AttributeError.
Proof.
  intros d d' k us N HT Hin H. apply C38_values in H; [|exact HT]. clear HT. induction H as [|[q v] [q' v'] d d' [E W] H IH]; [destruct Hin|].
  cbn in E, W. subst q'. unfold remove_uncertainties in *. cbn [mapM fst snd]. destruct Hin as [E|Hin].
  - injection E as -> ->. inversion W as [| |us' E1 E2]. destruct us' as [|u' us']; [destruct us; [congruence|discriminate]|]. reflexivity.
  - specialize (IH Hin). destruct W as [n s|x|us']; cbn [remove_one bind].
    + rewrite IH. reflexivity.
    + rewrite IH. reflexivity.
    + destruct us' as [|u us']; cbn; [rewrite IH; reflexivity|reflexivity].
Qed.
Print Assumptions C38_fails_on_own_output_with_list.
Example C38_example : remove_uncertainties [("a", MScalar (SUfloat 1 2)); ("b", MList [SUfloat 3 1; SUfloat 4 1]); ("c", MScalar (SFloat 5))]
  = Ok [("a", MScalar (SFloat 1)); ("b", MList [SFloat 3; SFloat 4]); ("c", MScalar (SFloat 5))].
Proof. reflexivity. Qed.
