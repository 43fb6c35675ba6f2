(* PSets4.v -- lemmas for C66 *)
From Verif Require Import Base MString MHeap MIo SIo MTable STable MSets MSets2 SSets2 PBase PString PIo PIo2 PIo3 PIo4 PIo5 PTable.
From Coq Require Import ZArith Lra.
Local Open Scope string_scope.

(* '%.df' % x as a decimal literal, for every x *)
Definition fmt_decimal (d : nat) (x : R) : decimal :=
  let z := round_even (Rabs x * 10 ^ d) in
  {| d_sign := if Rltb x 0 then "-" else ""; d_int := znat_str (z / 10 ^ Z.of_nat d); d_dot := true; d_frac := pad_digits d z; d_exp := None |}.
Lemma fmt_decimal_ok d x : (1 <= d)%nat ->
  decimal_ok (fmt_decimal d x) /\ decimal_text (fmt_decimal d x) = fmt_fixed d x
  /\ Rabs (decimal_value (fmt_decimal d x) - x) <= 1 / 2 / 10 ^ d.
Proof.
  intros D. unfold fmt_decimal. cbv zeta. pose proof (pow10_pos d) as P. pose proof (pow10_Zpos d) as PZ.
  set (z := round_even (Rabs x * 10 ^ d)).
  assert (Z0 : (0 <= z)%Z) by (apply round_even_nonneg, Rmult_le_pos; [apply Rabs_pos|lra]).
  assert (NN : (0 <= z / 10 ^ Z.of_nat d)%Z) by (apply Z.div_pos; lia). destruct (znat_ok _ NN) as [O1 O2]. split; [|split].
  - unfold decimal_ok. cbn. split; [destruct (Rltb x 0); [right; right|left]; reflexivity|]. split; [exact O1|]. split; [apply pad_digits_ok|]. split; [discriminate|]. split; [left; exact O2|exact I].
  - unfold decimal_text, fmt_fixed. cbn [d_sign d_int d_dot d_frac d_exp]. fold z. rewrite sapp_nil. destruct d; [lia|]. reflexivity.
  - unfold decimal_value. cbn [d_sign d_int d_dot d_frac d_exp]. rewrite frac_value_int, pad_len, pad_value, znat_value by lia. rewrite Rmult_1_r.
    assert (Q : IZR z = IZR (z / 10 ^ Z.of_nat d) * 10 ^ d + IZR (z mod 10 ^ Z.of_nat d)).
    { rewrite <- pow10_Z, <- mult_IZR, <- plus_IZR. f_equal. pose proof (Z.div_mod z (10 ^ Z.of_nat d)). lia. }
    replace (IZR (z / 10 ^ Z.of_nat d) + IZR (z mod 10 ^ Z.of_nat d) / 10 ^ d) with (IZR z / 10 ^ d) by (rewrite Q; field; lra).
    assert (B : Rabs (IZR z / 10 ^ d - Rabs x) <= 1 / 2 / 10 ^ d).
    { pose proof (round_even_near (Rabs x * 10 ^ d)) as N. fold z in N.
      replace (IZR z / 10 ^ d - Rabs x) with ((IZR z - Rabs x * 10 ^ d) / 10 ^ d) by (field; lra).
      unfold Rdiv at 1. rewrite Rabs_mult, (Rabs_pos_eq (/ 10 ^ d)) by (apply Rlt_le, Rinv_0_lt_compat, P).
      unfold Rdiv at 2. apply Rmult_le_compat_r; [apply Rlt_le, Rinv_0_lt_compat, P|exact N]. }
    unfold sign_factor. destruct (Rltb x 0) eqn:L; cbn [String.eqb Ascii.eqb Bool.eqb].
    + apply Rltb_true in L. rewrite (Rabs_left x L) in B. rewrite <- Rabs_Ropp. replace (- (-1 * (IZR z / 10 ^ d) - x)) with (IZR z / 10 ^ d - - x) by ring. exact B.
    + apply Rltb_no in L. rewrite (Rabs_pos_eq x L) in B. rewrite Rmult_1_l. exact B.
Qed.
Lemma fmt_shows d x : (1 <= d)%nat -> shows d (fmt_fixed d x) x.
Proof.
  intros D. destruct (fmt_decimal_ok d x D) as [A [B C]]. split.
  - exists (decimal_value (fmt_decimal d x)). split; [rewrite <- B; apply decimal_denotes, A|exact C].
  - exists (d_sign (fmt_decimal d x)), (d_int (fmt_decimal d x)), (d_frac (fmt_decimal d x)).
    destruct A as [_ [A1 [A2 _]]]. split; [rewrite <- B; unfold decimal_text, fmt_decimal; cbn [d_sign d_int d_dot d_frac d_exp]; rewrite sapp_nil; reflexivity|].
    assert (NN : (0 <= round_even (Rabs x * 10 ^ d) / 10 ^ Z.of_nat d)%Z).
    { apply Z.div_pos; [|apply pow10_Zpos]. apply round_even_nonneg, Rmult_le_pos; [apply Rabs_pos|apply Rlt_le, pow10_pos]. }
    split; [cbn; destruct (Rltb x 0); [right|left]; reflexivity|]. split; [exact A1|]. split; [apply znat_ok, NN|]. split; [exact A2|apply pad_len].
Qed.

(* lines "k=v\n" *)
Definition ini_line (k t : string) : string := k ++ "=" ++ t ++ String NL "".
Lemma strip_ini k t : clean_key k -> clean_text t -> strip (ini_line k t) = k ++ "=" ++ t.
Proof.
  intros [K _] [T [NT _]]. apply strip_trim_of. exists "", (String NL ""). split; [unfold ini_line; cbn [append]; rewrite !sapp_assoc; reflexivity|].
  split; [apply all_blank_nil|]. split; [apply blank_nl|]. destruct k as [|c k].
  - apply (trimmed_app "=" "" t); auto; [discriminate|]. apply trimmed_one. unfold blank. cbv. lia.
  - apply trimmed_app; auto. discriminate.
Qed.
Lemma parse_ini other k t v : clean_key k -> clean_text t -> rhs_value (orel other) t v -> parse_line other (ini_line k t) = Ok (k, v).
Proof.
  intros Hk Ht Hv. apply rhs_iff in Hv. unfold parse_line. rewrite (strip_ini k t Hk Ht).
  destruct Hk as [K1 [K2 [K3 _]]]. destruct Ht as [T1 [T2 [T3 [T4 _]]]].
  rewrite (split_on_free "#" (k ++ "=" ++ t)) by (rewrite !free_app; split; [exact K3|split; [intros K; cbv in K; intuition discriminate|exact T4]]).
  cbn [hd]. change (k ++ "=" ++ t) with (k ++ String "=" t).
  rewrite split_on_app by exact K2. rewrite (split_on_free "=" t) by exact T3. cbn [nth_error hd bind].
  unfold rhs_model in Hv. rewrite Hv. cbn [bind]. rewrite trimmed_strip by exact K1. reflexivity.
Qed.
Lemma ini_not_comment k t : clean_key k -> starts_with "#" (ini_line k t) = false.
Proof.
  intros [_ [_ [F _]]]. destruct (starts_with "#" (ini_line k t)) eqn:E; [|reflexivity]. exfalso. apply starts_with_iff in E as [r E].
  unfold ini_line in E. destruct k as [|c k]; [discriminate|]. injection E as -> _. apply free_cons in F. destruct F. congruence.
Qed.
Lemma file_lines_ini (ls : list (string * string)) :
  (forall k t, In (k, t) ls -> free NL k /\ free NL t) ->
  file_lines (sconcat (map (fun kt => ini_line (fst kt) (snd kt)) ls)) = map (fun kt => ini_line (fst kt) (snd kt)) ls.
Proof.
  induction ls as [|[k t] ls IH]; intros H; [reflexivity|]. cbn [map sconcat fold_right fst snd].
  destruct (H k t (or_introl eq_refl)) as [Hk Ht].
  replace (ini_line k t ++ fold_right append "" (map (fun kt => ini_line (fst kt) (snd kt)) ls))
    with ((k ++ "=" ++ t) ++ String NL (fold_right append "" (map (fun kt => ini_line (fst kt) (snd kt)) ls)))
    by (unfold ini_line; rewrite !sapp_assoc; reflexivity).
  rewrite file_lines_line.
  - unfold sconcat in IH. rewrite IH by (intros; apply H; right; assumption). f_equal. unfold ini_line. rewrite !sapp_assoc. reflexivity.
  - rewrite !free_app. split; [exact Hk|]. split; [|exact Ht]. intros K. cbv in K. intuition discriminate.
Qed.
Lemma ini_free c (ls : list (string * string)) : c <> "="%char -> c <> NL ->
  (forall k t, In (k, t) ls -> free c k /\ free c t) -> free c (sconcat (map (fun kt => ini_line (fst kt) (snd kt)) ls)).
Proof.
  intros H1 H2. induction ls as [|[k t] ls IH]; intros H; [apply free_nil|]. cbn [map sconcat fold_right fst snd].
  rewrite free_app. split; [|apply IH; intros; apply H; right; assumption]. unfold ini_line. rewrite !free_app.
  destruct (H k t (or_introl eq_refl)) as [Hk Ht]. split; [exact Hk|]. split; [apply free_cons; split; [congruence|apply free_nil]|]. split; [exact Ht|]. apply free_cons. split; [congruence|apply free_nil].
Qed.
Lemma load_ini other (es : list (string * decimal)) d :
  NoDup (dkeys d ++ map fst es) -> (forall k x, In (k, x) es -> clean_key k /\ decimal_ok x) ->
  load_lines other d (map (fun kx => ini_line (fst kx) (decimal_text (snd kx))) es) = Ok (d ++ map (fun kx => (fst kx, PF (decimal_value (snd kx)))) es)%list.
Proof.
  revert d. induction es as [|[k v] es IH]; intros d N H; cbn [map load_lines]; [rewrite app_nil_r; reflexivity|].
  destruct (H k v (or_introl eq_refl)) as [Hk Hv]. cbn [fst snd].
  rewrite ini_not_comment by exact Hk. rewrite (parse_ini other k _ (PF (decimal_value v)) Hk (decimal_clean v Hv) (decimal_rhs _ v Hv)). cbn [bind fst snd].
  assert (Nk : ~ In k (dkeys d)) by (cbn in N; apply NoDup_remove_2 in N; rewrite in_app_iff in N; tauto).
  rewrite dset_fresh by exact Nk. rewrite IH.
  - rewrite <- app_assoc. reflexivity.
  - unfold dkeys. rewrite map_app. cbn. rewrite <- app_assoc. exact N.
  - intros; apply H; right; assumption.
Qed.
Lemma load_ini_text other (es : list (string * decimal)) :
  NoDup (map fst es) -> (forall k x, In (k, x) es -> clean_key k /\ decimal_ok x) ->
  load_text other (sconcat (map (fun kx => ini_line (fst kx) (decimal_text (snd kx))) es)) = Ok (map (fun kx => (fst kx, PF (decimal_value (snd kx)))) es).
Proof.
  intros N H. unfold load_text.
  assert (M : map (fun kx => ini_line (fst kx) (decimal_text (snd kx))) es = map (fun kt => ini_line (fst kt) (snd kt)) (map (fun kx => (fst kx, decimal_text (snd kx))) es)) by (rewrite map_map; reflexivity).
  assert (H' : forall k t, In (k, t) (map (fun kx => (fst kx, decimal_text (snd kx))) es) -> clean_key k /\ clean_text t).
  { intros k t Hin. apply in_map_iff in Hin as [[k' v] [E Hin]]. cbn in E. injection E as <- <-. destruct (H k' v Hin). split; [assumption|apply decimal_clean; assumption]. }
  rewrite M, univ_nl_free.
  - rewrite file_lines_ini.
    + rewrite <- M. apply (load_ini other es []); assumption.
    + intros k t Hin. destruct (H' k t Hin) as [K T]. split; [apply K|apply T].
  - apply ini_free; [discriminate|discriminate|]. intros k t Hin. destruct (H' k t Hin) as [K T]. split; [apply K|apply T].
Qed.
