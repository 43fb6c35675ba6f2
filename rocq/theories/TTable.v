(* TTable.v -- theorems for C49 (bicycleparameters/tables.py).  [str] is
   Python's str(), [set_list] the order in which list(set(l)) lists a set. *)
From Verif Require Import Base MString MIo SIo MPeriod MTable STable PBase PString PIo PIo3 PTable PTable2 PTable3 PTable4 PTable5 PTable6.
From Coq Require Import Lra Lia.
Local Open Scope string_scope.

(* Every name of any bicycle once, in increasing order of the names in small
   letters, and no other. *)
Theorem C49_variable_list : forall set_list source bikes vars, set_like set_list ->
  generate_variable_list set_list source bikes = Ok vars ->
  NoDup vars /\ ci_sorted vars /\ forall x, In x vars <-> occurs_in source bikes x.
Proof. intros sl source bikes vars SL H. destruct (variable_list_spec sl SL source bikes vars H) as [A [B [C _]]]. auto. Qed.
Print Assumptions C49_variable_list.
Theorem C49_variable_list_defined : forall set_list source bikes, set_like set_list ->
  (exists vars, generate_variable_list set_list source bikes = Ok vars) <-> forall b, In b bikes -> exists d, dget (tb_par b) source = Some d.
Proof. intros sl source bikes SL. apply variable_list_defined. exact SL. Qed.
Print Assumptions C49_variable_list_defined.
(* The order is determined when no two names differ in capitals only, *)
Theorem C49_variable_order : forall s1 s2 source bikes v1 v2, set_like s1 -> set_like s2 -> ci_distinct source bikes ->
  generate_variable_list s1 source bikes = Ok v1 -> generate_variable_list s2 source bikes = Ok v2 -> v1 = v2.
Proof. exact variable_list_unique. Qed.
Print Assumptions C49_variable_order.

Definition dedup_rev (l : list string) : list string := rev (nodup string_dec l).
Lemma nodup_set_like : set_like (nodup string_dec).
Proof. intros l. split; [apply NoDup_nodup|intros x; apply nodup_In]. Qed.
Lemma rev_set_like : set_like dedup_rev.
Proof. intros l. unfold dedup_rev. split; [apply NoDup_rev, NoDup_nodup|]. intros x. rewrite <- in_rev. apply nodup_In. Qed.
(* and depends on the iteration order of a set otherwise: the row order of the
   table changes between runs. *)
Theorem C49_variable_order_refuted : exists s1 s2 source bikes v1 v2, set_like s1 /\ set_like s2 /\
  generate_variable_list s1 source bikes = Ok v1 /\ generate_variable_list s2 source bikes = Ok v2 /\ v1 <> v2.
Proof.
  exists (nodup string_dec), dedup_rev, "Measured", [mktb "Rigid" [("Measured", [("lP", PF 1); ("LP", PF 2)])]].
  eexists _, _. split; [apply nodup_set_like|]. split; [apply rev_set_like|]. split; [reflexivity|]. split; [reflexivity|]. discriminate.
Qed.
Print Assumptions C49_variable_order_refuted.

(* A table: one row per name; the label, and for every bicycle the two cells of
   [cell_pair]: NA for missing values, the whole number when there is no
   standard deviation or it is about 1 or more, otherwise both rounded to the
   first digit of the standard deviation. *)
Theorem C49_rows : forall str set_list source latex bikes t, set_like set_list -> proper str source bikes ->
  new_table str set_list source latex bikes = Ok t ->
  exists vars, generate_variable_list set_list source bikes = Ok vars /\ Forall2 (row_of str source latex bikes) vars (tab_data t).
Proof. intros str sl source latex bikes t SL PR H. destruct (rows_spec str sl SL source latex bikes t PR H) as [vars [A [B _]]]. eauto. Qed.
Print Assumptions C49_rows.
(* The labels of a LaTeX table, for every name: see [latex_label]; a name that has none
   is a KeyError that names it, "T" alone an IndexError. *)
Theorem C49_latex_labels : forall var l, to_latex var = Ok l <-> latex_label var l.
Proof. exact to_latex_iff. Qed.
Print Assumptions C49_latex_labels.
Theorem C49_name_without_label : forall var, (forall l, ~ latex_label var l) -> to_latex var = Err (if String.eqb var "T" then IndexError else KeyError var).
Proof.
  intros var N. destruct (to_latex var) as [l|e] eqn:E; [exfalso; apply (N l), to_latex_iff, E|]. unfold to_latex in E. destruct (dget latexMap var); [discriminate|].
  destruct (starts_with "alpha" var); [discriminate|]. destruct (starts_with "a" var && (String.length var =? 3)%nat); [discriminate|].
  destruct (starts_with "T" var) eqn:S.
  - apply starts_with_iff in S as [r ->]. destruct r; [injection E as <-; reflexivity|discriminate].
  - assert (String.eqb var "T" = false) as -> by (apply String.eqb_neq; intros ->; discriminate). destruct (String.length var =? 2)%nat; [discriminate|]. destruct (starts_with "I" var); [discriminate|congruence].
Qed.
Print Assumptions C49_name_without_label.
(* When a table is made at all. *)
Theorem C49_table_defined : forall str set_list source latex bikes, set_like set_list -> proper str source bikes ->
  (exists t, new_table str set_list source latex bikes = Ok t) <->
  (forall b, In b bikes -> exists d, dget (tb_par b) source = Some d) /\
  (latex = true -> forall x, occurs_in source bikes x -> exists l, latex_label x l) /\
  (forall b d x, In b bikes -> dget (tb_par b) source = Some d -> ~ unprintable (dget d x)).
Proof. intros str sl source latex bikes SL PR. apply table_defined; assumption. Qed.
Print Assumptions C49_table_defined.
(* One value whose standard deviation rounds to 0 at 14 decimals, such as one
   known exactly, makes the whole table fail with UnboundLocalError. *)
Theorem C49_exact_value_refuted : forall str set_list source bikes b d x n s, set_like set_list -> proper str source bikes ->
  (forall b, In b bikes -> exists d, dget (tb_par b) source = Some d) ->
  In b bikes -> dget (tb_par b) source = Some d -> dget d x = Some (PU n s) -> 1 / 10 ^ 15 <= Rabs n -> s <= 5 / 10 ^ 15 ->
  new_table str set_list source false bikes = Err UnboundLocalError.
Proof.
  intros str sl source bikes b d x n s SL PR HS Hb G V N S. destruct (new_table str sl source false bikes) as [t|e] eqn:H.
  - exfalso. apply (proj1 (table_defined str sl SL source false bikes PR) (ex_intro _ t H)) with (b := b) (d := d) (x := x); try assumption. rewrite V. split; assumption.
  - f_equal. eapply table_error; eassumption.
Qed.
Print Assumptions C49_exact_value_refuted.

(* The printed table: 2 n + 5 lines of equal length for n names; rules and rows
   alternate; every cell is padded to its column; the first row carries the
   names of the bicycles over their two columns. *)
Theorem C49_layout : forall str set_list source latex bikes t text t', set_like set_list -> proper str source bikes -> plain_table str source latex bikes ->
  new_table str set_list source latex bikes = Ok t -> create_rst_table t = (text, t') ->
  rst_layout text (map tb_name bikes) (heads latex (map tb_name bikes) :: map (printed_row latex) (tab_data t)).
Proof. intros str sl source latex bikes t text t' SL PR PT H C. exact (proj1 (layout_spec str sl SL source latex bikes t text t' PR PT H C)). Qed.
Print Assumptions C49_layout.
Theorem C49_line_count : forall str set_list source latex bikes t text t' vars, set_like set_list -> proper str source bikes -> plain_table str source latex bikes ->
  new_table str set_list source latex bikes = Ok t -> create_rst_table t = (text, t') -> generate_variable_list set_list source bikes = Ok vars ->
  exists lines, fields NL text lines /\ length lines = (2 * length vars + 5)%nat.
Proof.
  intros str sl source latex bikes t text t' vars SL PR PT H C HV. destruct (C49_layout _ _ _ _ _ _ _ _ SL PR PT H C) as [lines [w0 [ws [F [N _]]]]]. exists lines. split; [exact F|].
  destruct (C49_rows _ _ _ _ _ _ SL PR H) as [v [HV' R]]. assert (v = vars) by congruence. subst v.
  assert (L : length vars = length (tab_data t)) by (clear - R; induction R; cbn; congruence).
  cbn [length] in N. rewrite map_length in N. lia.
Qed.
Print Assumptions C49_line_count.
(* create_rst_table() changes the table: called again it returns a different
   text, with the header line twice and the labels wrapped twice. *)
Theorem C49_second_call_refuted : forall str set_list source latex bikes t text t' text2 t2, set_like set_list -> proper str source bikes -> plain_table str source latex bikes ->
  new_table str set_list source latex bikes = Ok t -> create_rst_table t = (text, t') -> create_rst_table t' = (text2, t2) ->
  text2 <> text /\ let names := map tb_name bikes in
  rst_layout text2 names (heads latex names :: printed_row latex (heads latex names) :: map (fun row => printed_row latex (printed_row latex row)) (tab_data t)).
Proof. intros str sl source latex bikes t text t' text2 t2 SL PR PT H C C2. destruct (second_call str sl SL source latex bikes t text t' text2 t2 PR PT H C C2) as [A B]. auto. Qed.
Print Assumptions C49_second_call_refuted.

(* The hypotheses are met: two bicycles, one of which lacks a parameter. *)
Definition ex_str (v : pval) : string := match v with PF _ => "1.5" | PU _ _ => "90.0+/-2.0" end.
Definition ex_bikes : list tbike :=
  [mktb "Rigid" [("Benchmark", [("w", PF (3/2)); ("IBxx", PU 90 2)])]; mktb "Browser" [("Benchmark", [("w", PU 0 0)])]].
Lemma ex_proper : proper ex_str "Benchmark" ex_bikes.
Proof.
  split.
  - intros b d x v [<-|[<-|[]]] G V; injection G as <-; cbn [dget] in V; repeat (destruct (String.eqb x _) in V; [injection V as <-; cbn; lra|]); discriminate.
  - intros x K. apply contains_iff in K. discriminate K.
Qed.
Lemma ex_small s : (forall c, In c (chars s) -> In c (chars "abcdefghijklmnopqrstuvwxyzIRB0123456789.+-/_{}\")) -> plain_text s.
Proof. intros H. split; intros K; apply H in K; cbn in K; repeat (destruct K as [K|K]; [discriminate K|]); exact K. Qed.
Lemma ex_plain : plain_table ex_str "Benchmark" true ex_bikes.
Proof.
  split; [|split].
  - intros b [<-|[<-|[]]]; apply ex_small; cbn; intros c; tauto.
  - intros [x|n s]; apply ex_small; cbn; intros c; tauto.
  - intros x [b [d [[<-|[<-|[]]] [G I1]]]]; injection G as <-; cbn in I1;
      repeat (destruct I1 as [<-|I1]; [split; [apply ex_small; cbn; intros c; tauto|intros l _ L; apply to_latex_iff in L; injection L as <-; apply ex_small; cbn; intros c; tauto]|]); destruct I1.
Qed.
Example C49_example_defined : exists t, new_table ex_str (nodup string_dec) "Benchmark" true ex_bikes = Ok t.
Proof.
  apply (C49_table_defined ex_str (nodup string_dec) "Benchmark" true ex_bikes nodup_set_like ex_proper). split; [|split].
  - intros b [<-|[<-|[]]]; eexists; reflexivity.
  - intros _ x [b [d [[<-|[<-|[]]] [G I1]]]]; injection G as <-; cbn in I1; repeat (destruct I1 as [<-|I1]; [eexists; apply to_latex_iff; reflexivity|]); destruct I1.
  - intros b d x [<-|[<-|[]]] G; injection G as <-; cbn [dget]; repeat (destruct (String.eqb x _); [cbn; try rewrite Rabs_R0; lra|]); intros [].
Qed.
