(* PState3.v -- lemmas for C45: names of saved files and loading them again *)
From Verif Require Import Base MString MIo MPeriod MMain SIo MState SState PBase PString PIo PIo3 PIo4 PIo5 PIo6 PState PState2.
Local Open Scope string_scope.

Lemma camel_not_lower_head w r : camel_word w -> forall c r', w ++ r = String c r' -> ~ lower c.
Proof. intros Hw c r' E. destruct (camel_word_head w Hw) as [x [w' [-> [_ L]]]]. injection E as <- _. exact L. Qed.
Lemma camel_last w : camel_word w -> exists a c, w = a ++ String c "" /\ lower c.
Proof.
  intros [c [d [w' [-> [U [L A]]]]]]. destruct (s_snoc w') as [->|[s' [x ->]]].
  - exists (String c ""), d. split; [reflexivity|exact L].
  - exists (String c (String d s')), x. split; [reflexivity|]. apply A. rewrite chars_app. apply in_or_app. right. left. reflexivity.
Qed.
Lemma camel_free_slash w : camel_word w -> free slash w.
Proof.
  intros [c [d [w' [-> [U [L A]]]]]] [K|[K|K]].
  - subst. unfold upper in U. cbv in U. lia.
  - subst. unfold lower in L. cbv in L. lia.
  - apply A in K. unfold lower in K. cbv in K. lia.
Qed.
Lemma camel_plain w : camel_word w -> plain w.
Proof. intros C. destruct (camel_last w C) as [a [c [-> L]]]. exists a, c. split; [reflexivity|]. intros ->. unfold lower in L. cbv in L. lia. Qed.
Lemma camel_sub_last p w : camel_word w -> camel_sub p w = String " " w.
Proof.
  intros C. destruct (camel_word_sub p w "" C ltac:(discriminate)) as [l [_ E]]. rewrite sapp_nil in E. rewrite E. f_equal. cbn [camel_sub]. rewrite sapp_nil. reflexivity.
Qed.
Lemma strip_words w m v : camel_word w -> camel_word v -> strip (String " " (w ++ m ++ v)) = w ++ m ++ v.
Proof.
  intros W C. apply strip_trim_of. exists " ", "". split; [cbn; rewrite ?sapp_nil; reflexivity|]. split; [intros x [<-|[]]; right; left; cbv; lia|]. split; [apply all_blank_nil|].
  destruct (camel_word_head w W) as [c1 [v1 [-> [U1 _]]]]. destruct (camel_last v C) as [a [c [-> L]]]. split.
  - intros d s' E. injection E as <- _. unfold upper, blank in *. lia.
  - intros d s' E. rewrite <- !sapp_assoc in E. apply ssnoc_inj in E as [_ <-]. unfold lower, blank in *. lia.
Qed.
Lemma two_words a b ext : camel_word a -> camel_word b -> free "." ext -> space_out_camel_case (splitext0 (a ++ b ++ String "." ext)) "list" = Ok (CList [a; b]).
Proof.
  intros A B F. assert (S0 : splitext0 (a ++ b ++ String "." ext) = a ++ b).
  { rewrite <- sapp_assoc. destruct (camel_word_head a A) as [c [v [-> [U _]]]]. cbn [append]. apply splitext_app; [|exact F]. intros ->. unfold upper in U. cbv in U. lia. }
  rewrite S0. unfold space_out_camel_case. cbn [String.eqb Ascii.eqb Bool.eqb]. pose proof (camel_not_lower_head b "" B) as NB. rewrite sapp_nil in NB. destruct (camel_word_sub None a b A NB) as [l [_ E]]. rewrite E, camel_sub_last by exact B.
  change (a ++ String " " b) with (a ++ " " ++ b). rewrite strip_words by assumption. cbn [append]. rewrite split_on_app by (apply camel_word_free, A). rewrite split_on_free by (apply camel_word_free, B). reflexivity.
Qed.
Lemma three_words name s t : camel_word name -> camel_word s -> camel_word t ->
  space_out_camel_case (splitext0 (grow (grow name s) t)) "list" = Ok (CList [name; s ++ ".txt"; t]).
Proof.
  intros A B C. assert (S0 : splitext0 (grow (grow name s) t) = name ++ s ++ ".txt" ++ t).
  { unfold grow. replace ((name ++ s ++ ".txt") ++ t ++ ".txt") with ((name ++ s ++ ".txt" ++ t) ++ ".txt") by (rewrite !sapp_assoc; reflexivity).
    destruct (camel_word_head name A) as [c [v [-> [U _]]]]. cbn [append]. apply splitext_app; [|intros [K|[K|[K|[]]]]; discriminate]. intros ->. unfold upper in U. cbv in U. lia. }
  rewrite S0. unfold space_out_camel_case. cbn [String.eqb Ascii.eqb Bool.eqb].
  destruct (camel_word_sub None name (s ++ ".txt" ++ t) A (camel_not_lower_head s _ B)) as [l1 [_ E1]].
  destruct (camel_word_sub (Some l1) s (".txt" ++ t) B) as [l2 [_ E2]]; [intros c r' K; injection K as <- _; unfold lower; cbv; lia|].
  assert (E3 : camel_sub (Some l2) (".txt" ++ t) = ".txt" ++ String " " t).
  { cbn [append]. do 4 (rewrite camel_sub_cons; unfold camel_here; replace (is_upper _) with false by reflexivity; cbn [andb]). rewrite camel_sub_last by exact C. reflexivity. }
  rewrite E1, E2, E3. replace (name ++ String " " (s ++ ".txt" ++ String " " t)) with (name ++ (" " ++ s ++ ".txt" ++ " ") ++ t) by (cbn; rewrite !sapp_assoc; reflexivity).
  rewrite strip_words by assumption. replace (name ++ (" " ++ s ++ ".txt" ++ " ") ++ t) with (name ++ String " " ((s ++ ".txt") ++ String " " t)) by (cbn; rewrite !sapp_assoc; reflexivity).
  rewrite split_on_app by (apply camel_word_free, A). rewrite split_on_app. 2:{ apply free_app. split; [apply camel_word_free, B|]. intros [K|[K|[K|[K|[]]]]]; discriminate. }
  rewrite split_on_free by (apply camel_word_free, C). reflexivity.
Qed.

Lemma first_dot a b x y : free "." a -> free "." b -> a ++ String "." x = b ++ String "." y -> a = b.
Proof.
  revert b. induction a as [|c a IH]; intros [|d b] A B E; [reflexivity| | |].
  - cbn in E. injection E as <- _. apply free_cons in B as [B _]. congruence.
  - cbn in E. injection E as -> _. apply free_cons in A as [A _]. congruence.
  - cbn in E. injection E as -> E. apply free_cons in A as [_ A]. apply free_cons in B as [_ B]. f_equal. exact (IH b A B E).
Qed.
(* the proper name of a later set is none of the names used *)
Lemma proper_name_unused name sets s i : camel_word s -> (forall x, In x sets -> camel_word x) -> hd "" sets <> s -> (i < length sets)%nat ->
  name ++ s ++ ".txt" <> grown_name name sets i.
Proof.
  intros C A N L K. destruct sets as [|s0 sets]; [cbn in L; lia|]. unfold grown_name in K. apply sapp_inj_l in K. cbn [firstn map fold_right] in K. rewrite sapp_assoc in K.
  cbn [append] in K. apply first_dot in K; [|apply camel_word_nodot, C|apply camel_word_nodot, A; left; reflexivity]. cbn [hd] in N. congruence.
Qed.

Section New.
  Variables E H : Type.
  Variable other : string -> res (R * R).
  Variable calc : dict pval -> res (dict pval * E).
  Variable decode : string -> res (dict string * res (R * R)).
  Variable str : pval -> string.
  Lemma bad_name_raises fs name data fr fp dir n : dir = os_join (os_join data "bicycles") name -> has_dir fs dir ->
    has_entry fs dir "Parameters" -> has_entry fs (os_join dir "Parameters") n ->
    (forall a b, space_out_camel_case (splitext0 n) "list" <> Ok (CList [a; b])) ->
    exists e, new_bicycle H other calc decode str fs name data fr fp = (Err e, fs).
  Proof.
    intros -> D P N W. unfold new_bicycle. cbv zeta. apply isdir_iff in D. rewrite D. cbn [negb]. fold (prelude other fs name (os_join (os_join data "bicycles") name)).
    destruct (prelude other fs name (os_join (os_join data "bicycles") name)) as [[[en ps] im]|e] eqn:Q; [|eexists; reflexivity]. exfalso.
    apply (prelude_ok other decode) in Q. destruct Q as [_ [Q _]]. destruct Q as [Q|Q]; [|tauto]. destruct Q as [_ [names [rows [L [F _]]]]]. apply listdir_ok in L as [_ L]. apply L in N. clear -F N W.
    induction F as [|f [k v] l l' [[w X] _] F IH]; [destruct N|]. destruct N as [<-|N]; [exact (W _ _ X)|exact (IH N)].
  Qed.
  Lemma no_dir_raises fs name data fr fp : ~ has_dir fs (os_join (os_join data "bicycles") name) ->
    new_bicycle H other calc decode str fs name data fr fp = (Err (ValueError "Are you nuts?!"), fs).
  Proof. intros N. unfold new_bicycle. cbv zeta. destruct (isdir fs _) eqn:D; [apply isdir_iff in D; tauto|reflexivity]. Qed.

  Lemma write_periods_files fs p (mp : dict pval) fs' : write_periods_to_file str fs p mp = Ok fs' -> fs_dirs fs' = fs_dirs fs /\ forall q, q <> p -> dget (fs_files fs') q = dget (fs_files fs) q.
  Proof.
    unfold write_periods_to_file. intros K. apply bind_ok in K as [t [_ K]]. unfold open_w in K. destruct (_ || _); [discriminate|]. injection K as <-. split; [reflexivity|].
    intros q Q. cbn. rewrite dget_dset. apply String.eqb_neq in Q. rewrite Q. reflexivity.
  Qed.
  Lemma calc_files (b : bicycle_obj E H) fs fp b' fs' out : calculate_from_measured other calc decode str b fs fp = (b', fs', out) ->
    fs_dirs fs' = fs_dirs fs /\ (forall q, q <> os_join (os_join (bo_dir b) "RawData") (bo_name b ++ "Measured.txt") -> dget (fs_files fs') q = dget (fs_files fs) q).
  Proof.
    unfold calculate_from_measured. cbv zeta. destruct (load_file _ _ _); [|intros K; injection K as _ <- _; auto]. destruct (_ || _); [|intros K; injection K as _ <- _; auto].
    destruct (raw_periods _ _ _ _); [|intros K; injection K as _ <- _; auto]. destruct (write_periods_to_file _ _ _ _) eqn:W; [|intros K; injection K as _ <- _; auto].
    intros K. injection K as _ <- _. eapply write_periods_files. exact W.
  Qed.
  Lemma new_files fs name data fr fp out fs' : new_bicycle H other calc decode str fs name data fr fp = (out, fs') ->
    fs_dirs fs' = fs_dirs fs /\ forall q, q <> os_join (os_join (os_join (os_join data "bicycles") name) "RawData") (name ++ "Measured.txt") -> dget (fs_files fs') q = dget (fs_files fs) q.
  Proof.
    unfold new_bicycle. cbv zeta. destruct (negb _); [intros K; injection K as _ <-; auto|].
    match goal with |- match ?x with _ => _ end = _ -> _ => destruct x as [[[en ps] im]|e] end; [|intros K; injection K as _ <-; auto].
    destruct (_ || _).
    - match goal with |- context [calculate_from_measured other calc decode str ?b fs fp] => destruct (calculate_from_measured other calc decode str b fs fp) as [[b1 fs1] r] eqn:C end. apply calc_files in C. cbn [bo_dir bo_name] in C.
      destruct r as [[bench ex]|e]; intros K; injection K as _ <-; exact C.
    - destruct (_ && _); [|intros K; injection K as _ <-; auto]. destruct (load_file _ _ _) as [m|e]; [intros K; injection K as _ <-; auto|]. destruct e; intros K; injection K as _ <-; auto.
  Qed.
End New.
