(* PTable5.v -- lemmas for C49: rows of the table *)
From Verif Require Import Base MString MIo SIo MPeriod MTable STable PBase PString PIo PIo2 PIo3 PIo5 PTable PTable2 PTable3 PTable4 PTable6.
From Coq Require Import ZArith Lra Lia Sorted Permutation.
Local Open Scope string_scope.

Section Rows.
  Variable str : pval -> string.
  Variable set_list : list string -> list string.
  Hypothesis SL : set_like set_list.

  Lemma variable_list_spec source bikes vars : generate_variable_list set_list source bikes = Ok vars ->
    NoDup vars /\ ci_sorted vars /\ (forall x, In x vars <-> occurs_in source bikes x) /\ forall b, In b bikes -> exists d, dget (tb_par b) source = Some d.
  Proof.
    intros H. apply variable_list_iff in H as [ds [F ->]]. destruct (SL (concat ds)) as [N M]. split; [|split; [apply sort_by_sorted|split]].
    - eapply Permutation_NoDup; [apply Permutation_sym, sort_by_perm|exact N].
    - intros x. rewrite <- (concat_occurs source bikes ds x F), <- M. split; apply Permutation_in; [|apply Permutation_sym]; apply sort_by_perm.
    - clear - F. induction F as [|b ks bikes ds [d [G _]] F IH]; [intros ? []|]. intros b' [<-|K]; eauto.
  Qed.
  Lemma variable_list_defined source bikes : (exists vars, generate_variable_list set_list source bikes = Ok vars) <-> forall b, In b bikes -> exists d, dget (tb_par b) source = Some d.
  Proof.
    split; [intros [vars H]; apply variable_list_spec in H; apply H|]. intros H.
    assert (K : exists ds, Forall2 (fun b ks => exists d, dget (tb_par b) source = Some d /\ ks = dkeys d) bikes ds).
    { induction bikes as [|b bikes IH]; [exists []; constructor|]. destruct (H b (or_introl eq_refl)) as [d G]. destruct IH as [ds F]; [intros; apply H; right; assumption|]. exists (dkeys d :: ds). constructor; [eauto|exact F]. }
    destruct K as [ds F]. eexists. apply variable_list_iff. exists ds. split; [exact F|reflexivity].
  Qed.

  Lemma bad_pm : (forall x, ~ occurs "+/-" (str (PF x))) -> forall x, contains "+/-" (str (PF x)) = false.
  Proof. intros H x. destruct (contains "+/-" (str (PF x))) eqn:C; [|reflexivity]. exfalso. apply (H x), contains_iff, C. Qed.

  (* the cells of one bicycle *)
  Lemma cells_iff source bikes var b : proper str source bikes -> In b bikes -> (exists d, dget (tb_par b) source = Some d) -> forall cs,
    cells str source var b = Ok cs -> exists d, dget (tb_par b) source = Some d /\ cell_pair str (dget d var) cs.
  Proof.
    intros [P1 P2] Hb [d G] cs H. exists d. split; [exact G|]. destruct (cells_spec str source var b d G (fun v V => P1 b d var v Hb G V) (bad_pm P2)) as [[cs' [A B]]|[_ A]]; congruence.
  Qed.
  Lemma rows_spec source latex bikes t : proper str source bikes -> new_table str set_list source latex bikes = Ok t ->
    exists vars, generate_variable_list set_list source bikes = Ok vars /\ Forall2 (row_of str source latex bikes) vars (tab_data t) /\ tab_latex t = latex /\ tab_bikes t = bikes.
  Proof.
    intros PR H. unfold new_table in H. apply bind_ok in H as [vars [HV H]]. apply bind_ok in H as [data [HD H]]. injection H as <-. exists vars. split; [exact HV|]. split; [|split; reflexivity]. cbn [tab_data].
    destruct (variable_list_spec _ _ _ HV) as [_ [_ [_ HS]]]. unfold generate_table_data in HD. apply mapM_iff in HD.
    induction HD as [|var row vars data R F IH]; [constructor|]. constructor; [|].
    2:{ clear - F HS PR. induction F as [|v r vs rs R F IH]; [constructor|]. constructor; [|exact IH].
        apply bind_ok in R as [l [L R]]. apply bind_ok in R as [css [C R]]. injection R as <-. exists l, css. split; [reflexivity|]. split; [destruct latex; [apply to_latex_iff, L|injection L as <-; reflexivity]|].
        apply mapM_iff in C. assert (G : forall bs css, (forall b, In b bs -> In b bikes) -> Forall2 (fun b cs => cells str source v b = Ok cs) bs css -> Forall2 (fun b cs => exists d, dget (tb_par b) source = Some d /\ cell_pair str (dget d v) cs) bs css).
        { induction 2 as [|b cs bs cl K F' IH']; [constructor|]. constructor; [eapply cells_iff; eauto; [apply H; left; reflexivity|apply HS, H; left; reflexivity]|apply IH'; intros; apply H; right; assumption]. }
        apply G; [auto|exact C]. }
    apply bind_ok in R as [l [L R]]. apply bind_ok in R as [css [C R]]. injection R as <-. exists l, css. split; [reflexivity|]. split; [destruct latex; [apply to_latex_iff, L|injection L as <-; reflexivity]|].
    apply mapM_iff in C. assert (G : forall bs css, (forall b, In b bs -> In b bikes) -> Forall2 (fun b cs => cells str source var b = Ok cs) bs css -> Forall2 (fun b cs => exists d, dget (tb_par b) source = Some d /\ cell_pair str (dget d var) cs) bs css).
    { induction 2 as [|b cs bs cl K F' IH']; [constructor|]. constructor; [eapply cells_iff; eauto; [apply H; left; reflexivity|apply HS, H; left; reflexivity]|apply IH'; intros; apply H; right; assumption]. }
    apply G; [auto|exact C].
  Qed.

  (* when a table can be made *)
  Lemma cells_ok_iff source bikes var b d : proper str source bikes -> In b bikes -> dget (tb_par b) source = Some d -> (exists cs, cells str source var b = Ok cs) <-> ~ unprintable (dget d var).
  Proof.
    intros [P1 P2] Hb G. destruct (cells_spec str source var b d G (fun v V => P1 b d var v Hb G V) (bad_pm P2)) as [[cs' [A B]]|[U A]].
    - split; [|intros _; eauto]. intros _ U. destruct B; cbn in U; try exact U; lra.
    - split; [intros [cs K]; congruence|tauto].
  Qed.
  Lemma mapM_defined {A B} (f : A -> res B) l : (exists r, mapM f l = Ok r) <-> forall a, In a l -> exists b, f a = Ok b.
  Proof.
    split.
    - intros [r H]. apply mapM_iff in H. induction H as [|a b l r K F IH]; [intros ? []|]. intros x [<-|Hx]; eauto.
    - induction l as [|a l IH]; intros H; [eexists; reflexivity|]. destruct (H a (or_introl eq_refl)) as [b E]. destruct IH as [r R]; [intros; apply H; right; assumption|]. exists (b :: r). cbn. rewrite E. cbn. rewrite R. reflexivity.
  Qed.
  Lemma table_defined source latex bikes : proper str source bikes -> (exists t, new_table str set_list source latex bikes = Ok t) <->
    (forall b, In b bikes -> exists d, dget (tb_par b) source = Some d) /\
    (latex = true -> forall x, occurs_in source bikes x -> exists l, latex_label x l) /\
    (forall b d x, In b bikes -> dget (tb_par b) source = Some d -> ~ unprintable (dget d x)).
  Proof.
    intros PR. split.
    - intros [t H]. unfold new_table in H. apply bind_ok in H as [vars [HV H]]. apply bind_ok in H as [data [HD _]]. destruct (variable_list_spec _ _ _ HV) as [_ [_ [HM HS]]]. split; [exact HS|].
      assert (D := proj1 (mapM_defined _ _) (ex_intro _ data HD)). cbn beta in D. split.
      + intros -> x Hx. destruct (D x (proj2 (HM x) Hx)) as [r R]. apply bind_ok in R as [l [L _]]. exists l. apply to_latex_iff, L.
      + intros b d x Hb G U. destruct (dget d x) as [v|] eqn:V; [|destruct U]. assert (Hx : In x vars) by (apply HM; exists b, d; split; [exact Hb|]; split; [exact G|]; apply dget_some_in; eauto).
        destruct (D x Hx) as [r R]. apply bind_ok in R as [l [_ R]]. apply bind_ok in R as [css [C _]]. assert (D' := proj1 (mapM_defined _ _) (ex_intro _ css C)). destruct (D' b Hb) as [cs K].
        apply (proj1 (cells_ok_iff source bikes x b d PR Hb G) (ex_intro _ cs K)). rewrite V. exact U.
    - intros [HS [HL HU]]. destruct (proj2 (variable_list_defined source bikes) HS) as [vars HV]. destruct (variable_list_spec _ _ _ HV) as [_ [_ [HM _]]]. unfold new_table. rewrite HV. cbn [bind].
      assert (K : exists data, generate_table_data str source latex bikes vars = Ok data).
      { unfold generate_table_data. apply mapM_defined. intros x Hx. assert (L : exists l, (if latex then to_latex x else Ok x) = Ok l) by (destruct latex; [destruct (HL eq_refl x (proj1 (HM x) Hx)) as [l L]; exists l; apply to_latex_iff, L|eauto]).
        destruct L as [l L]. rewrite L. cbn [bind]. assert (C : exists css, mapM (cells str source x) bikes = Ok css).
        { apply mapM_defined. intros b Hb. destruct (HS b Hb) as [d G]. apply (cells_ok_iff source bikes x b d PR Hb G). apply (HU b d x Hb G). }
        destruct C as [css C]. rewrite C. cbn [bind]. eauto. }
      destruct K as [data K]. rewrite K. cbn [bind]. eauto.
  Qed.
  Lemma mapM_err {A B} (f : A -> res B) l e : mapM f l = Err e -> exists a, In a l /\ f a = Err e.
  Proof.
    induction l as [|a l IH]; cbn [mapM]; [discriminate|]. destruct (f a) as [b|e'] eqn:E; cbn [bind]; [|intros H; injection H as <-; exists a; split; [left; reflexivity|exact E]].
    destruct (mapM f l) as [r|e'] eqn:R; cbn [bind]; [discriminate|]. intros H. injection H as <-. destruct (IH eq_refl) as [x [X Y]]. exists x. split; [right; exact X|exact Y].
  Qed.
  Lemma table_error source bikes e : proper str source bikes -> (forall b, In b bikes -> exists d, dget (tb_par b) source = Some d) -> new_table str set_list source false bikes = Err e -> e = UnboundLocalError.
  Proof.
    intros PR HS H. destruct (proj2 (variable_list_defined source bikes) HS) as [vars HV]. unfold new_table in H. rewrite HV in H. cbn [bind] in H.
    destruct (generate_table_data str source false bikes vars) as [data|e'] eqn:K; cbn [bind] in H; [discriminate|]. injection H as <-. apply mapM_err in K as [x [_ K]]. cbn [bind] in K.
    destruct (mapM (cells str source x) bikes) as [css|e2] eqn:C; cbn [bind] in K; [discriminate|]. injection K as <-. apply mapM_err in C as [b [Hb C]]. destruct (HS b Hb) as [d G].
    destruct PR as [P1 P2]. destruct (cells_spec str source x b d G (fun v V => P1 b d x v Hb G V) (bad_pm P2)) as [[cs' [A B]]|[U A]]; congruence.
  Qed.

  (* the shape of the rows *)
  Lemma row_len source latex bikes var row : row_of str source latex bikes var row -> length row = (1 + 2 * length bikes)%nat.
  Proof.
    intros [l [css [-> [_ F]]]]. change (1 + 2 * length bikes)%nat with (S (2 * length bikes)). cbn [length]. apply f_equal. induction F as [|b cs bikes css [d [_ C]] F IH]; [reflexivity|]. cbn [concat]. rewrite app_length, IH. cbn [length]. destruct C; cbn; lia.
  Qed.
  Lemma shows_plain d t x : shows d t x -> plain_text t.
  Proof.
    intros [_ [sg [ip [fp [-> [S [I1 [_ [F _]]]]]]]]].
    assert (D : forall s, all_digits s -> free NL s /\ free "|" s). { intros s A. split; intros K; apply A in K; unfold digit in K; cbv in K; lia. }
    unfold plain_text. rewrite !free_app. destruct (D ip I1), (D fp F).
    assert (C : forall c, c <> "|"%char -> c <> NL -> free NL (String c "") /\ free "|" (String c "")). { intros c A B. split; apply free_cons; split; auto; apply free_nil. }
    destruct (C "."%char) as [C1 C2]; [discriminate|discriminate|]. destruct S as [-> | ->]; [|destruct (C "-"%char) as [C3 C4]; [discriminate|discriminate|]]; repeat split; try assumption; apply free_nil.
  Qed.
  Lemma lit_plain s : s = "NA" \/ s = "0.0" -> plain_text s.
  Proof. intros [-> | ->]; (split; intros K; cbn in K; repeat (destruct K as [K|K]; [discriminate K|]); exact K). Qed.
  Lemma cell_plain v cs : (forall v, plain_text (str v)) -> cell_pair str v cs -> forall c, In c cs -> plain_text c.
  Proof.
    intros P H c Hc. destruct H; cbn in Hc; repeat (destruct Hc as [<-|Hc]); try contradiction; try apply P; try (apply lit_plain; auto; fail); eapply shows_plain; eassumption.
  Qed.
  Lemma row_plain source latex bikes var row : plain_table str source latex bikes -> occurs_in source bikes var -> row_of str source latex bikes var row -> forall c, In c row -> plain_text c.
  Proof.
    intros [_ [P PL]] O [l [css [-> [L F]]]] c [<-|Hc].
    - destruct (PL var O) as [A B]. destruct latex; [apply B; [reflexivity|exact L]|congruence].
    - apply in_concat in Hc as [cs [Hcs Hc]]. clear - F P Hcs Hc. induction F as [|b cs' bikes css [d [_ C]] F IH]; [destruct Hcs|]. destruct Hcs as [<-|Hcs]; [eapply cell_plain; eassumption|apply IH, Hcs].
  Qed.
  Lemma layout_spec source latex bikes t text t' : proper str source bikes -> plain_table str source latex bikes -> new_table str set_list source latex bikes = Ok t -> create_rst_table t = (text, t') ->
    let names := map tb_name bikes in let rows := heads latex names :: map (printed_row latex) (tab_data t) in
    rst_layout text names rows /\ t' = mktable latex bikes rows.
  Proof.
    intros PR PT H C. destruct (rows_spec source latex bikes t PR H) as [vars [HV [F [E1 E2]]]]. destruct (variable_list_spec _ _ _ HV) as [_ [_ [HM _]]].
    assert (RF : forall row, In row (tab_data t) -> exists var, In var vars /\ row_of str source latex bikes var row).
    { clear - F. induction F as [|v r vs rs R F IH]; [intros ? []|]. intros row [<-|K]; [exists v; split; [left; reflexivity|exact R]|]. destruct (IH row K) as [v' [A B]]. exists v'. split; [right; exact A|exact B]. }
    pose proof (rst_spec t text t' C) as S. rewrite E1, E2 in S. apply S.
    - intros row K. destruct (RF row K) as [v [_ R]]. eapply row_len, R.
    - intros row c K Hc. destruct (RF row K) as [v [Hv R]]. exact (row_plain _ _ _ _ _ PT (proj1 (HM v) Hv) R c Hc).
    - intros b Hb. exact (proj1 PT b Hb).
  Qed.
  Lemma second_call source latex bikes t text t' text2 t2 : proper str source bikes -> plain_table str source latex bikes -> new_table str set_list source latex bikes = Ok t -> create_rst_table t = (text, t') -> create_rst_table t' = (text2, t2) ->
    let names := map tb_name bikes in
    rst_layout text2 names (heads latex names :: printed_row latex (heads latex names) :: map (fun row => printed_row latex (printed_row latex row)) (tab_data t)) /\ text2 <> text.
  Proof.
    intros PR PT H C C2 names. destruct (layout_spec _ _ _ _ _ _ PR PT H C) as [L ->]. fold names in L, C2. destruct (rows_spec source latex bikes t PR H) as [vars [HV [F [E1 E2]]]]. destruct (variable_list_spec _ _ _ HV) as [_ [_ [HM _]]].
    assert (RF : forall row, In row (tab_data t) -> exists var, In var vars /\ row_of str source latex bikes var row).
    { clear - F. induction F as [|v r vs rs R F IH]; [intros ? []|]. intros row [<-|K]; [exists v; split; [left; reflexivity|exact R]|]. destruct (IH row K) as [v' [A B]]. exists v'. split; [right; exact A|exact B]. }
    pose proof (rst_spec _ text2 t2 C2) as S. cbn [tab_data tab_bikes tab_latex map] in S. rewrite map_map in S. destruct S as [S _].
    - intros row [<-|K]; [rewrite heads_len; unfold names; rewrite map_length; reflexivity|]. apply in_map_iff in K as [r [<- K]]. rewrite printed_len. destruct (RF r K) as [v [_ R]]. eapply row_len, R.
    - intros row c [<-|K] Hc; [split; eapply heads_free; try exact Hc; [left|right; left]; reflexivity|]. apply in_map_iff in K as [r [<- K]]. destruct (RF r K) as [v [Hv R]]. pose proof (row_plain _ _ _ _ _ PT (proj1 (HM v) Hv) R) as Q.
      split; eapply printed_free; try exact Hc; try (intros c' Hc'; apply (Q c' Hc')); [left|right; left]; reflexivity.
    - intros b Hb. exact (proj1 PT b Hb).
    - split; [exact S|]. intros ->. destruct L as [l1 [w1 [ws1 [F1 [N1 _]]]]]. destruct S as [l2 [w2 [ws2 [F2 [N2 _]]]]]. apply split_on_iff in F1, F2. cbn [length] in N1, N2. rewrite !map_length in *. subst l1 l2. lia.
  Qed.
End Rows.

Lemma variable_list_unique s1 s2 source bikes v1 v2 : set_like s1 -> set_like s2 -> ci_distinct source bikes -> generate_variable_list s1 source bikes = Ok v1 -> generate_variable_list s2 source bikes = Ok v2 -> v1 = v2.
Proof.
  intros S1 S2 D H1 H2. destruct (variable_list_spec s1 S1 _ _ _ H1) as [N1 [O1 [M1 _]]]. destruct (variable_list_spec s2 S2 _ _ _ H2) as [N2 [O2 [M2 _]]].
  apply ci_sorted_unique; try assumption.
  - apply NoDup_Permutation; try assumption. intros x. rewrite M1, M2. reflexivity.
  - intros x y Hx Hy. apply D; apply M1; assumption.
Qed.
