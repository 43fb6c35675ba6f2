(* TSets2.v -- C66: YAML, INI and HTML output of parameter sets
   (bicycleparameters/parameter_sets.py) *)
From Verif Require Import Base MString MHeap MVec MInertia MIo SIo MTable STable MSets MSets2 SSets2 SModels PBase PString PIo PIo2 PIo3 PIo4 PIo5 PTable PSets PSets4.
From Coq Require Import ZArith Lra.
Local Open Scope string_scope.
Local Open Scope R_scope.

(* ================= YAML ================= *)

Lemma init_ok c y r s : init_set c y r = Ok s <->
  (takes_rider c = true <-> r <> None) /\ exists d, y = YDict d /\ complete (par_strings c) d /\ s = mkobj c d r.
Proof.
  unfold init_set. split.
  - intros E. assert (Q : (takes_rider c = true <-> r <> None) /\ match y with YDict d => _ <- check_parameters (par_strings c) d ;; Ok (mkobj c d r) | _ => Err AttributeError end = Ok s).
    { destruct (takes_rider c), r; try discriminate E; (split; [split; congruence|exact E]). }
    destruct Q as [Q1 Q2]. split; [exact Q1|]. destruct y as [|b|t|d]; try discriminate. exists d. split; [reflexivity|].
    destruct (check_parameters (par_strings c) d) as [[]|e] eqn:K; [|discriminate]. apply check_ok in K. split; [exact K|]. injection Q2 as <-. reflexivity.
  - intros [Q [d [-> [K ->]]]]. apply check_ok in K. rewrite K. cbn [bind]. destruct (takes_rider c), r; try reflexivity; exfalso.
    + apply (proj1 Q); reflexivity.
    + assert (false = true) by (apply Q; discriminate). discriminate.
Qed.

(* Exactly the following files load: a mapping whose entry 'values' is a mapping holding
   every required parameter as a float (and, for the two classes of the Meijaard2007
   family, with an entry 'rider'); the file's entry 'parameterization' plays no part. *)
Theorem C66_yaml_load_criterion : forall load c fs f s,
  from_yaml load c fs f = Ok s <->
  exists t m d, dget (fs_files fs) f = Some t /\ load t = Ok (YMapping m) /\ dget m "values" = Some (YDict d)
    /\ complete (par_strings c) d
    /\ match c with
       | CMeijaard2007 | CMeijaard2007WithFeedback => exists r, dget m "rider" = Some r /\ s = mkobj c d (Some r)
       | CMoore2019 | CMooreRiderLean2012 => s = mkobj c d None
       | CMoore2012 => False
       end.
Proof.
  intros load c fs f s. unfold from_yaml, open_r. split.
  - intros E. destruct (dget (fs_files fs) f) as [t|] eqn:F; [|discriminate]. cbn [bind] in E. destruct (load t) as [y|e] eqn:L; [|discriminate]. cbn [bind] in E.
    destruct y as [m|]; [|destruct c; discriminate]. exists t, m. unfold ylook, dlook in E.
    destruct (dget m "values") as [v|] eqn:V; [|destruct c; discriminate]. cbn [bind] in E.
    destruct c.
    1, 2: destruct (dget m "rider") as [r|] eqn:Rr; [|discriminate]; cbn [bind] in E; apply init_ok in E as [_ [d [-> [K ->]]]]; exists d; repeat (split; [first [reflexivity|assumption]|]); exists r; split; reflexivity.
    1, 3: apply init_ok in E as [_ [d [-> [K ->]]]]; exists d; repeat (split; [first [reflexivity|assumption]|]); reflexivity.
    apply init_ok in E as [Q _]. exfalso. apply (proj1 Q); reflexivity.
  - intros [t [m [d [F [L [V [K M]]]]]]]. rewrite F. cbn [bind]. rewrite L. cbn [bind]. unfold ylook, dlook. rewrite V. cbn [bind]. destruct c.
    1, 2: destruct M as [r [-> ->]]; cbn [bind]; apply init_ok; (split; [split; [discriminate|reflexivity]|]); exists d; auto.
    1, 3: subst s; apply init_ok; (split; [split; [discriminate|congruence]|]); exists d; auto.
    destruct M.
Qed.
Print Assumptions C66_yaml_load_criterion.

(* Files without these entries are refused, by name. *)
Theorem C66_yaml_missing_entries : forall load c fs f t m,
  dget (fs_files fs) f = Some t -> load t = Ok (YMapping m) ->
  (dget m "values" = None -> from_yaml load c fs f = Err (KeyError "values"))
  /\ (dget m "values" <> None -> dget m "rider" = None -> c = CMeijaard2007 \/ c = CMeijaard2007WithFeedback -> from_yaml load c fs f = Err (KeyError "rider")).
Proof.
  intros load c fs f t m F L. unfold from_yaml, open_r. rewrite F. cbn [bind]. rewrite L. cbn [bind]. unfold ylook, dlook. split.
  - intros ->. destruct c; reflexivity.
  - intros V W C. destruct (dget m "values"); [|congruence]. cbn [bind]. rewrite W. destruct C as [-> | ->]; reflexivity.
Qed.
Print Assumptions C66_yaml_missing_entries.

Lemma open_w_read fs f t fs' : open_w fs f t = Ok fs' -> open_r fs' f = Ok t /\ forall q, q <> f -> dget (fs_files fs') q = dget (fs_files fs) q.
Proof. intros E. apply open_w_ok in E as [_ [A B]]. unfold open_r. rewrite A. split; [reflexivity|exact B]. Qed.
Lemma written_doc dump load s fs fs' f : yaml_faithful dump load (yaml_document (po_class s) (po_par s)) -> to_yaml dump fs s f = Ok fs' ->
  exists t m d, dget (fs_files fs') f = Some t /\ load t = Ok (YMapping m) /\ dget m "values" = Some (YDict d)
    /\ (forall k, dget d k = dget (po_par s) k) /\ dget m "rider" = Some YNull /\ dget m "parameterization" = Some (YStr (parameterization (po_class s))).
Proof.
  intros [m [L S]] E. unfold to_yaml in E. fold (yaml_document (po_class s) (po_par s)) in E. set (m0 := yaml_document (po_class s) (po_par s)) in *.
  apply open_w_ok in E as [_ [A _]]. exists (dump m0), m.
  pose proof (S "values") as S1. pose proof (S "rider") as S2. pose proof (S "parameterization") as S3. cbn [m0 yaml_document dget String.eqb Ascii.eqb Bool.eqb] in S1, S2, S3.
  destruct (dget m "values") as [[| | |d]|]; cbn in S1; try contradiction. exists d.
  destruct (dget m "rider") as [r|]; [|contradiction]. destruct (dget m "parameterization") as [q|]; [|contradiction].
  split; [exact A|]. split; [exact L|]. split; [reflexivity|]. split; [exact S1|]. split; [destruct r; cbn in S2; try contradiction; congruence|]. destruct q; cbn in S3; try contradiction; congruence.
Qed.
Lemma complete_ext ks d d' : (forall k, dget d' k = dget d k) -> complete ks d -> complete ks d'.
Proof. intros E C k Hk. rewrite E. apply C, Hk. Qed.

(* A set of floats written with to_yaml and loaded by the same class keeps every value
   (required and extra alike), and other files are untouched; Moore2012 sets apart. *)
Theorem C66_yaml_round_trip : forall dump load s fs fs' f,
  yaml_faithful dump load (yaml_document (po_class s) (po_par s)) -> complete (par_strings (po_class s)) (po_par s) -> po_class s <> CMoore2012 ->
  to_yaml dump fs s f = Ok fs' ->
  exists s', from_yaml load (po_class s) fs' f = Ok s'
    /\ po_class s' = po_class s
    /\ (forall k, dget (po_par s') k = dget (po_par s) k)
    /\ (forall q, q <> f -> dget (fs_files fs') q = dget (fs_files fs) q).
Proof.
  intros dump load s fs fs' f Y C N E. destruct (written_doc dump load s fs fs' f Y E) as [t [m [d [A [L [V [D [Rr _]]]]]]]].
  exists (mkobj (po_class s) d (if takes_rider (po_class s) then Some YNull else None)). split; [|split; [reflexivity|]; split; [exact D|]; apply (proj2 (open_w_read _ _ _ _ E))].
  apply C66_yaml_load_criterion. exists t, m, d. repeat (split; [first [assumption|exact (complete_ext _ _ _ D C)]|]).
  destruct (po_class s); cbn; try congruence; try reflexivity; exists YNull; split; auto.
Qed.
Print Assumptions C66_yaml_round_trip.

(* Whether the rider is included is not kept: the file always says null. *)
Theorem C66_yaml_forgets_the_rider : forall dump load s fs fs' f s',
  yaml_faithful dump load (yaml_document (po_class s) (po_par s)) -> to_yaml dump fs s f = Ok fs' ->
  po_class s = CMeijaard2007 \/ po_class s = CMeijaard2007WithFeedback ->
  from_yaml load (po_class s) fs' f = Ok s' -> po_rider s' = Some YNull.
Proof.
  intros dump load s fs fs' f s' Y E C F. destruct (written_doc dump load s fs fs' f Y E) as [t [m [d [A [L [V [D [Rr _]]]]]]]].
  apply C66_yaml_load_criterion in F as [t' [m' [d' [A' [L' [V' [K' M]]]]]]]. assert (t' = t) by congruence. subst t'. assert (m' = m) by congruence. subst m'.
  destruct C as [C|C]; rewrite C in M; destruct M as [r [G ->]]; cbn; congruence.
Qed.
Print Assumptions C66_yaml_forgets_the_rider.

(* A Moore2012 set can be written but never loaded. *)
Theorem C66_moore2012_yaml_cannot_be_loaded : forall dump load s fs fs' f,
  yaml_faithful dump load (yaml_document (po_class s) (po_par s)) -> po_class s = CMoore2012 -> to_yaml dump fs s f = Ok fs' ->
  from_yaml load CMoore2012 fs' f = Err TypeError.
Proof.
  intros dump load s fs fs' f Y C E. destruct (written_doc dump load s fs fs' f Y E) as [t [m [d [A [L [V _]]]]]].
  unfold from_yaml, open_r. rewrite A. cbn [bind]. rewrite L. cbn [bind]. unfold ylook, dlook. rewrite V. reflexivity.
Qed.
Print Assumptions C66_moore2012_yaml_cannot_be_loaded.

(* The parameterization stored in the file is not looked at: a feedback set loads as a
   plain benchmark set, the gains staying along as extra values. *)
Theorem C66_yaml_parameterization_not_checked : forall dump load s fs fs' f,
  yaml_faithful dump load (yaml_document (po_class s) (po_par s)) -> po_class s = CMeijaard2007WithFeedback -> complete (par_strings (po_class s)) (po_par s) ->
  to_yaml dump fs s f = Ok fs' ->
  exists s', from_yaml load CMeijaard2007 fs' f = Ok s' /\ forall k, dget (po_par s') k = dget (po_par s) k.
Proof.
  intros dump load s fs fs' f Y Q C E. destruct (written_doc dump load s fs fs' f Y E) as [t [m [d [A [L [V [D [Rr _]]]]]]]].
  exists (mkobj CMeijaard2007 d (Some YNull)). split; [|exact D]. apply C66_yaml_load_criterion. exists t, m, d. repeat (split; [assumption|]).
  split; [|exists YNull; split; auto]. apply (complete_ext _ _ _ D). intros k Hk. apply C. rewrite Q. apply smem_spec. apply smem_spec in Hk. revert Hk. clear.
  intros Hk. apply smem_spec in Hk. cbn in Hk. repeat (destruct Hk as [<-|Hk]; [reflexivity|]). destruct Hk.
Qed.
Print Assumptions C66_yaml_parameterization_not_checked.

(* ================= INI ================= *)

(* What to_ini writes reads back (load_parameter_text_file reads this syntax) as the same
   names in the same order, each value within half a unit of the sixteenth decimal. *)
Theorem C66_ini_loads_back : forall other fo fs s f fs',
  plain_floats (po_par s) -> (forall k, In k (dkeys (po_par s)) -> clean_key k) ->
  to_ini fo fs s f = Ok fs' ->
  exists t d', dget (fs_files fs') f = Some t /\ load_text other t = Ok d'
    /\ dkeys d' = dkeys (po_par s)
    /\ (forall k x, dget (po_par s) k = Some (VNum x) -> exists v, dget d' k = Some (PF v) /\ Rabs (v - x) <= 1 / 2 / 10 ^ 16)
    /\ (forall q, q <> f -> dget (fs_files fs') q = dget (fs_files fs) q).
Proof.
  intros other fo fs s f fs' [N P] CK E. unfold to_ini in E.
  set (num := fun v : pyval => match v with VNum x => fmt_decimal 16 x | _ => fmt_decimal 16 0 end).
  set (es := map (fun kv => (fst kv, num (snd kv))) (po_par s)).
  assert (K : map fst es = dkeys (po_par s)) by (unfold es, dkeys; rewrite map_map; reflexivity).
  assert (M : mapM (fun kv => t <- format_fixed fo 16 (snd kv) ;; Ok (fst kv ++ "=" ++ t ++ String NL "")) (po_par s) = Ok (map (fun kx => ini_line (fst kx) (decimal_text (snd kx))) es)).
  { unfold es. rewrite map_map. clear E K CK N es. induction (po_par s) as [|[k v] l IH]; [reflexivity|]. cbn [mapM map fst snd].
    destruct (P k v (or_introl eq_refl)) as [x ->]. cbn [format_fixed bind num]. rewrite (proj1 (proj2 (fmt_decimal_ok 16 x ltac:(lia)))). rewrite IH by (intros; eapply P; right; eassumption). reflexivity. }
  rewrite M in E. cbn [bind] in E. apply open_w_ok in E as [_ [A B]].
  assert (H : forall k x, In (k, x) es -> clean_key k /\ decimal_ok x).
  { intros k x Hin. unfold es in Hin. apply in_map_iff in Hin as [[k' v] [Eq Hin]]. cbn in Eq. injection Eq as <- <-. split; [apply CK, (in_map fst _ _ Hin)|].
    destruct (P k' v Hin) as [y ->]. apply fmt_decimal_ok. lia. }
  exists (sconcat (map (fun kx => ini_line (fst kx) (decimal_text (snd kx))) es)), (map (fun kx => (fst kx, PF (decimal_value (snd kx)))) es).
  split; [exact A|]. split; [apply load_ini_text; [rewrite K; exact N|exact H]|]. split; [unfold dkeys at 1; rewrite map_map; exact K|]. split; [|exact B].
  intros k x G. unfold es. rewrite map_map. cbn [fst snd]. exists (decimal_value (fmt_decimal 16 x)). split; [|apply fmt_decimal_ok; lia].
  clear -G. induction (po_par s) as [|[k' v'] l IH]; [discriminate|]. cbn [map dget fst snd] in *. destruct (String.eqb k k'); [|apply IH, G]. injection G as ->. reflexivity.
Qed.
Print Assumptions C66_ini_loads_back.

(* Sixteen decimals do not keep a float: a value below half a unit of the sixteenth
   decimal reads back as zero. *)
Theorem C66_ini_loses_small_values : forall other fo x, 0 < x < 1 / 2 / 10 ^ 16 ->
  exists t d', to_ini fo {| fs_dirs := []; fs_files := [] |} (mkobj CMeijaard2007 [("v", VNum x)] None) "a.ini" = Ok {| fs_dirs := []; fs_files := [("a.ini", t)] |}
    /\ load_text other t = Ok d' /\ dget d' "v" = Some (PF 0).
Proof.
  intros other fo x Hx.
  assert (Z : round_even (Rabs x * 10 ^ 16) = 0%Z).
  { pose proof (round_even_near (Rabs x * 10 ^ 16)) as N. pose proof (pow10_pos 16) as P. rewrite (Rabs_pos_eq x) in N |- * by lra.
    assert (B : x * 10 ^ 16 < 1 / 2) by (apply Rmult_lt_reg_r with (/ 10 ^ 16); [apply Rinv_0_lt_compat, P|]; rewrite Rmult_assoc, Rinv_r, Rmult_1_r by lra; unfold Rdiv in Hx |- *; lra).
    assert (B0 : 0 < x * 10 ^ 16) by (apply Rmult_lt_0_compat; lra). generalize dependent (x * 10 ^ 16). intros y N B B0. clear Hx P. apply Rabs_le_both in N.
    apply Z.le_antisymm; apply IZR_lt_half; lra. }
  assert (D : fmt_decimal 16 x = {| d_sign := ""; d_int := "0"; d_dot := true; d_frac := "0000000000000000"; d_exp := None |}).
  { unfold fmt_decimal. cbv zeta. rewrite Z. f_equal. destruct (Rltb x 0) eqn:L; [apply Rltb_true in L; lra|reflexivity]. }
  destruct (fmt_decimal_ok 16 x ltac:(lia)) as [O [T _]]. exists ("v=" ++ fmt_fixed 16 x ++ String NL ""), [("v", PF (decimal_value (fmt_decimal 16 x)))].
  split; [cbn; rewrite sapp_nil; reflexivity|]. split.
  - rewrite <- T. pose proof (load_ini_text other [("v", fmt_decimal 16 x)]) as Q. unfold sconcat in Q. cbn [map fst snd fold_right] in Q. rewrite sapp_nil in Q. apply Q.
    + repeat constructor. intros [].
    + intros k d [E|[]]. injection E as <- <-. split; [|exact O]. repeat split; try (intros [K|[]]; discriminate).
      * intros c s E. injection E as <- _. unfold blank. cbv. lia.
      * intros c s E. destruct s as [|a s]; [injection E as <-; unfold blank; cbv; lia|]. destruct s; discriminate.
  - cbn [dget String.eqb Ascii.eqb Bool.eqb]. f_equal. f_equal. rewrite D. unfold decimal_value, sign_factor. cbn [d_sign d_int d_frac d_exp String.eqb]. rewrite frac_value_int.
    replace (int_value "0000000000000000") with 0%Z by reflexivity. replace (int_value "0") with 0%Z by reflexivity. unfold Rdiv. ring.
Qed.
Print Assumptions C66_ini_loses_small_values.

(* An extra value that cannot be formatted stops the writing before the file is opened. *)
Theorem C66_ini_unformattable_value : forall fo fs s f k v e,
  In (k, v) (po_par s) -> (forall x, v <> VNum x) -> fo 16%nat v = Err e -> exists e', to_ini fo fs s f = Err e'.
Proof.
  intros fo fs s f k v e Hin N E. unfold to_ini.
  assert (M : exists e', mapM (fun kv => t <- format_fixed fo 16 (snd kv) ;; Ok (fst kv ++ "=" ++ t ++ String NL "")) (po_par s) = Err e').
  { induction (po_par s) as [|[k' v'] l IH]; [destruct Hin|]. cbn [mapM fst snd]. destruct Hin as [H|H].
    - injection H as -> ->. exists e. unfold format_fixed. destruct v; [congruence| |]; rewrite E; reflexivity.
    - destruct (format_fixed fo 16 v') as [t|e']; [|exists e'; reflexivity]. cbn [bind]. destruct (IH H) as [e' M]. rewrite M. exists e'. reflexivity. }
  destruct M as [e' M]. exists e'. rewrite M. reflexivity.
Qed.
Print Assumptions C66_ini_unformattable_value.

(* ================= HTML ================= *)

(* The table of a complete set: the name of the parameterization, then one row per
   required parameter, in order, with its label and its value to three decimals; extra
   parameters are not shown. *)
Theorem C66_html_rows : forall fo s, complete (par_strings (po_class s)) (po_par s) ->
  exists values, repr_html fo s = Ok (html_table (parameterization (po_class s)) (map (fun lv => html_row (fst lv) (snd lv)) (combine (labels (po_class s)) values)))
    /\ length (labels (po_class s)) = length (par_strings (po_class s))
    /\ Forall2 (fun k t => exists x, dget (po_par s) k = Some (VNum x) /\ shows 3 t x) (par_strings (po_class s)) values.
Proof.
  intros fo s C. unfold repr_html. assert (L : length (labels (po_class s)) = length (par_strings (po_class s))) by (destruct (po_class s); reflexivity).
  revert L C. generalize (labels (po_class s)) as ls. generalize (par_strings (po_class s)) as ks. intros ks ls L C.
  set (val := fun k => match dget (po_par s) k with Some (VNum x) => fmt_fixed 3 x | _ => "" end).
  exists (map val ks).
  assert (M : mapM (fun kl => v <- dlook (po_par s) (fst kl) ;; t <- format_fixed fo 3 v ;; Ok ("<tr><td>\(" ++ snd kl ++ "\)</td><td>" ++ t ++ "</td></tr>")) (combine ks ls)
     = Ok (map (fun lv => html_row (fst lv) (snd lv)) (combine ls (map val ks)))).
  { revert ls L. induction ks as [|k ks IH]; intros [|l ls] L; try discriminate; [reflexivity|]. cbn [combine mapM map fst snd].
    destruct (C k (or_introl eq_refl)) as [x G]. unfold dlook. rewrite G. cbn [bind format_fixed]. rewrite IH; [|intros k' Hk; apply C; right; exact Hk|injection L as L; exact L].
    cbn [bind]. unfold val at 2. rewrite G. reflexivity. }
  rewrite M. split; [reflexivity|]. split; [exact L|]. clear M L ls. induction ks as [|k ks IH]; [constructor|]. cbn [map]. constructor; [|apply IH; intros k' Hk; apply C; right; exact Hk].
  destruct (C k (or_introl eq_refl)) as [x G]. exists x. split; [exact G|]. unfold val. rewrite G. apply fmt_shows. lia.
Qed.
Print Assumptions C66_html_rows.

(* A parameter deleted after construction makes it fail with its name. *)
Theorem C66_html_missing_parameter : forall fo s pre k post, par_strings (po_class s) = (pre ++ k :: post)%list ->
  complete pre (po_par s) -> dget (po_par s) k = None -> repr_html fo s = Err (KeyError k).
Proof.
  intros fo s pre k post E C G. unfold repr_html. assert (L : length (labels (po_class s)) = length (par_strings (po_class s))) by (destruct (po_class s); reflexivity).
  revert L. rewrite E. generalize (labels (po_class s)) as ls. intros ls L.
  match goal with |- bind ?m _ = _ => assert (M : m = Err (KeyError k)) end; [|rewrite M; reflexivity]. clear E. revert ls L.
  induction pre as [|p pre IH]; intros [|l ls] L; try discriminate; cbn [combine mapM app fst snd].
  - unfold dlook. rewrite G. reflexivity.
  - destruct (C p (or_introl eq_refl)) as [x Gx]. unfold dlook at 1. rewrite Gx. cbn [bind format_fixed]. rewrite IH; [reflexivity|intros k' Hk; apply C; right; exact Hk|injection L as L; exact L].
Qed.
Print Assumptions C66_html_missing_parameter.

Fixpoint nodupb (l : list string) : bool := match l with [] => true | x :: l' => negb (smem x l') && nodupb l' end.
Lemma nodupb_spec l : nodupb l = true -> NoDup l.
Proof.
  induction l as [|x l IH]; [constructor|]. cbn. intros H. apply andb_true_iff in H as [A B]. constructor; [|apply IH, B].
  intros K. apply smem_spec in K. rewrite K in A. discriminate.
Qed.
(* In three of the five classes different parameters have different labels. *)
Theorem C66_html_labels_distinct : forall c, c = CMeijaard2007 \/ c = CMeijaard2007WithFeedback \/ c = CMoore2019 -> NoDup (labels c).
Proof.
  intros c H. apply nodupb_spec. destruct H as [-> | [-> | ->]]; vm_compute; reflexivity.
Qed.
Print Assumptions C66_html_labels_distinct.
(* In the other two the moments of inertia id11 and ie11 carry the same label. *)
Theorem C66_html_labels_clash : forall c, c = CMoore2012 \/ c = CMooreRiderLean2012 ->
  exists i j, nth_error (par_strings c) i = Some "id11" /\ nth_error (par_strings c) j = Some "ie11" /\ nth_error (labels c) i = nth_error (labels c) j.
Proof. intros c [-> | ->]; [exists 8%nat, 10%nat|exists 10%nat, 12%nat]; repeat split; reflexivity. Qed.
Print Assumptions C66_html_labels_clash.
Ltac gain :=
  match goal with |- spells ?k ?l =>
    first [ gain2 "phi" "\phi" k l | gain2 "del" "\delta" k l ] end
with gain2 a la k l :=
  first [ exact (sp_gain a "phi" la "\phi" ltac:(cbn; tauto) ltac:(cbn; tauto)) | exact (sp_gain a "del" la "\delta" ltac:(cbn; tauto) ltac:(cbn; tauto))
        | exact (sp_gain a "phid" la "\dot{\phi}" ltac:(cbn; tauto) ltac:(cbn; tauto)) | exact (sp_gain a "deld" la "\dot{\delta}" ltac:(cbn; tauto) ltac:(cbn; tauto)) ].
Ltac spell := repeat (apply Forall2_cons; [first [apply sp_lam|apply sp_one|apply sp_two|apply sp_four|apply (sp_alpha _)]|]); try apply Forall2_nil.
(* The labels spell the names: all of them for the benchmark sets ... *)
Theorem C66_html_labels_spell_the_names :
  Forall2 spells (par_strings CMeijaard2007) (labels CMeijaard2007)
  /\ Forall2 spells (par_strings CMeijaard2007WithFeedback) (labels CMeijaard2007WithFeedback)
  (* ... all but two for Moore2019 (mP is shown as m_B, zH as z-H) ... *)
  /\ Forall2 (fun k l => spells k l \/ (k, l) = ("mP", "m_B") \/ (k, l) = ("zH", "z-H")) (par_strings CMoore2019) (labels CMoore2019)
  (* ... and all but ie11 (shown as I_{D11}) for the others, up to capitals. *)
  /\ Forall2 (fun k l => spells_ci k l \/ (k, l) = ("ie11", "I_{D11}")) (par_strings CMoore2012) (labels CMoore2012)
  /\ Forall2 (fun k l => spells_ci k l \/ (k, l) = ("ie11", "I_{D11}")) (par_strings CMooreRiderLean2012) (labels CMooreRiderLean2012).
Proof.
  unfold par_strings, labels. split; [spell|]. split; [spell; repeat (apply Forall2_cons; [first [apply sp_lam|apply sp_two|apply sp_one|gain]|])
; apply Forall2_nil|]. split; [|split].
  - repeat (apply Forall2_cons; [first [left; first [apply sp_lam|apply sp_one|apply sp_two|apply sp_four|apply (sp_alpha _)] | right; left; reflexivity | right; right; reflexivity]|]); apply Forall2_nil.
  - repeat (apply Forall2_cons; [first [left; eexists; split; [|first [apply sp_one|apply sp_two|apply sp_four]]; reflexivity | right; reflexivity]|]); apply Forall2_nil.
  - repeat (apply Forall2_cons; [first [left; eexists; split; [|first [apply sp_one|apply sp_two|apply sp_four]]; reflexivity | right; reflexivity]|]); apply Forall2_nil.
Qed.
Print Assumptions C66_html_labels_spell_the_names.

(* ================= the hypotheses are met ================= *)
Definition ex_par : pdict := map (fun k => (k, VNum (1 / 3))) (par_strings CMeijaard2007).
Definition ex_set : pobj := mkobj CMeijaard2007 ex_par (Some (YBool true)).
Definition ex_fs : fsys := {| fs_dirs := ["data"]; fs_files := [] |}.
Definition ex_dump (m : dict yval) : string := "text".
Definition ex_load (t : string) : res ydoc := Ok (YMapping (rev (yaml_document CMeijaard2007 ex_par))).
Example ex_complete : complete (par_strings CMeijaard2007) ex_par.
Proof. intros k Hk. cbn in Hk. exists (1 / 3). repeat (destruct Hk as [<-|Hk]; [reflexivity|]). destruct Hk. Qed.
Example ex_plain : plain_floats ex_par /\ forall k, In k (dkeys ex_par) -> clean_key k.
Proof.
  split; [split|].
  - apply nodupb_spec. reflexivity.
  - intros k v Hin. unfold ex_par in Hin. apply in_map_iff in Hin as [q [E _]]. injection E as <- <-. eexists. reflexivity.
  - assert (B : forall s, (forall c, In c (chars s) -> (48 <= nat_of_ascii c <= 57 \/ 65 <= nat_of_ascii c <= 122)%nat) -> clean_key s).
    { intros s Q. assert (F : forall c, (nat_of_ascii c < 48 \/ 57 < nat_of_ascii c < 65)%nat -> free c s) by (intros c Hc K; apply Q in K; lia).
      assert (NB : forall c, In c (chars s) -> ~ blank c) by (intros c Hc; apply Q in Hc; unfold blank; cbv zeta; lia).
      split; [apply no_blank_trimmed, NB|]. repeat split; apply F; cbv; lia. }
    intros k Hk. apply B. cbn in Hk. repeat (destruct Hk as [<-|Hk]; [intros c Hc; cbn in Hc; repeat (destruct Hc as [<-|Hc]; [cbv; lia|]); destruct Hc|]). destruct Hk.
Qed.
Example ex_yaml : yaml_faithful ex_dump ex_load (yaml_document CMeijaard2007 ex_par)
  /\ exists fs', to_yaml ex_dump ex_fs ex_set "data/a.yml" = Ok fs' /\ exists s', from_yaml ex_load CMeijaard2007 fs' "data/a.yml" = Ok s' /\ po_rider s' <> po_rider ex_set.
Proof.
  assert (Y : yaml_faithful ex_dump ex_load (yaml_document CMeijaard2007 ex_par)).
  { eexists. split; [reflexivity|]. intros k. cbn [yaml_document rev app dget].
    destruct (String.eqb k "description") eqn:E1; [apply String.eqb_eq in E1; subst; cbn; reflexivity|].
    destruct (String.eqb k "parameterization") eqn:E2; [apply String.eqb_eq in E2; subst; cbn; reflexivity|].
    destruct (String.eqb k "parameters") eqn:E3; [apply String.eqb_eq in E3; subst; cbn; reflexivity|].
    destruct (String.eqb k "rider") eqn:E4; [apply String.eqb_eq in E4; subst; cbn; reflexivity|].
    destruct (String.eqb k "values") eqn:E5; [cbn; reflexivity|exact I]. }
  split; [exact Y|]. destruct (to_yaml ex_dump ex_fs ex_set "data/a.yml") as [fs'|e] eqn:W; [|discriminate]. exists fs'. split; [reflexivity|].
  destruct (C66_yaml_round_trip ex_dump ex_load ex_set ex_fs fs' "data/a.yml" Y ex_complete ltac:(discriminate) W) as [s' [L _]]. exists s'. split; [exact L|].
  pose proof (C66_yaml_forgets_the_rider ex_dump ex_load ex_set ex_fs fs' "data/a.yml" s' Y W (or_introl eq_refl) L) as F. rewrite F. discriminate.
Qed.
Example ex_ini : exists fs', to_ini (fun _ _ => Err TypeError) ex_fs ex_set "data/a.ini" = Ok fs'.
Proof. eexists. reflexivity. Qed.
