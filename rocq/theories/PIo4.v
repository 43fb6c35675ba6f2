(* PIo4.v -- writing parameter files and period lines *)
From Verif Require Import Base MString MIo SIo PBase PString PIo PIo2 PIo3.
From Coq Require Import ZArith Lra Permutation Sorted.
Local Open Scope string_scope.

(* ---- the sorted items of a dictionary ---- *)
Definition key_lt {V} (a b : string * V) : Prop := String.ltb (fst a) (fst b) = true.
Lemma flat_map_map {A B C} (f : A -> list B) (g : C -> A) l : flat_map f (map g l) = flat_map (fun x => f (g x)) l.
Proof. induction l; cbn; congruence. Qed.
Lemma flat_map_perm {A B} (f : A -> list B) l l' : Permutation l l' -> Permutation (flat_map f l) (flat_map f l').
Proof. apply Permutation_flat_map. Qed.
Lemma flat_map_self {V} (d : dict V) l : NoDup (dkeys d) -> incl l d ->
  flat_map (fun kv => match dget d (fst kv) with Some v => [(fst kv, v)] | None => [] end) l = l.
Proof.
  intros N. induction l as [|[k v] l IH]; intros H; [reflexivity|]. cbn. rewrite (in_dget d k v N) by (apply H; left; reflexivity).
  cbn. f_equal. apply IH. intros x Hx. apply H. right. exact Hx.
Qed.
Lemma sorted_items_perm {V} (d : dict V) : NoDup (dkeys d) -> Permutation (sorted_items d) d.
Proof.
  intros N. unfold sorted_items. rewrite (flat_map_perm _ _ _ (ssort_perm (dkeys d))). unfold dkeys. rewrite flat_map_map.
  rewrite flat_map_self by (auto; intros x Hx; exact Hx). reflexivity.
Qed.
Lemma sorted_items_keys {V} (d : dict V) : map fst (sorted_items d) = ssort (dkeys d).
Proof.
  unfold sorted_items. assert (H : incl (ssort (dkeys d)) (dkeys d)) by (intros x; apply ssort_in).
  revert H. generalize (ssort (dkeys d)). intros l. induction l as [|k l IH]; intros H; [reflexivity|]. cbn.
  assert (Hk : In k (dkeys d)) by (apply H; left; reflexivity). apply dget_some_in in Hk as [v ->]. cbn. f_equal.
  apply IH. intros x Hx. apply H. right. exact Hx.
Qed.
Lemma sorted_strict {V} (l : list (string * V)) : StronglySorted sle (map fst l) -> NoDup (map fst l) -> StronglySorted key_lt l.
Proof.
  induction l as [|[k v] l IH]; intros S N; [constructor|]. cbn in S, N. inversion S as [|? ? S' F]; subst. inversion N as [|? ? NI N']; subst.
  constructor; [auto|]. rewrite Forall_forall in *. intros [k' v'] Hin. unfold key_lt. cbn.
  assert (Hk : In k' (map fst l)) by (apply (in_map fst l (k', v')) in Hin; exact Hin).
  specialize (F k' Hk). unfold sle in F. destruct (sltb_total k k') as [L|[->|L]]; [exact L|tauto|congruence].
Qed.
Lemma sorted_items_sorted {V} (d : dict V) : NoDup (dkeys d) -> StronglySorted key_lt (sorted_items d).
Proof.
  intros N. apply sorted_strict; rewrite sorted_items_keys; [apply ssort_sorted|apply ssort_nodup, N].
Qed.
Lemma sorted_items_nodup {V} (d : dict V) : NoDup (dkeys d) -> NoDup (map fst (sorted_items d)).
Proof. intros N. rewrite sorted_items_keys. apply ssort_nodup, N. Qed.
Lemma sorted_items_in {V} (d : dict V) kv : NoDup (dkeys d) -> In kv (sorted_items d) <-> In kv d.
Proof. intros N. split; apply Permutation_in; [|symmetry]; apply sorted_items_perm, N. Qed.
Lemma sorted_items_get {V} (d : dict V) k : NoDup (dkeys d) -> dget (sorted_items d) k = dget d k.
Proof.
  intros N. pose proof (sorted_items_nodup d N) as N2. destruct (dget d k) as [v|] eqn:E.
  - apply in_dget; [exact N2|]. apply sorted_items_in; [exact N|]. apply dget_in, E.
  - apply dget_none in E. apply dget_none. intros K. apply E. change (In k (map fst (sorted_items d))) in K. rewrite sorted_items_keys, ssort_in in K. exact K.
Qed.
(* sorting a sorted dictionary changes nothing; a sorted dictionary is
   determined by its entries *)
Lemma sorted_items_idem {V} (d : dict V) : NoDup (dkeys d) -> sorted_items (sorted_items d) = sorted_items d.
Proof.
  intros N. unfold sorted_items at 1. unfold dkeys at 1. rewrite sorted_items_keys, (ssort_idem (ssort (dkeys d))) by apply ssort_sorted.
  rewrite <- sorted_items_keys, flat_map_map. apply flat_map_self; [apply sorted_items_nodup, N|intros x Hx; exact Hx].
Qed.

(* ---- lines ---- *)
Lemma par_line_entry {V} (str : V -> string) kv : par_line str kv = entry_line (fst kv) (str (snd kv)).
Proof. reflexivity. Qed.
Lemma free_lit c s : In c (chars s) -> free c s -> False. Proof. intros H F. exact (F H). Qed.
Lemma file_lines_entries (ls : list (string * string)) :
  (forall k t, In (k, t) ls -> free NL k /\ free NL t) ->
  file_lines (sconcat (map (fun kt => entry_line (fst kt) (snd kt)) ls)) = map (fun kt => entry_line (fst kt) (snd kt)) ls.
Proof.
  induction ls as [|[k t] ls IH]; intros H; [reflexivity|]. cbn [map sconcat fold_right fst snd]. unfold entry_line at 1.
  rewrite !sapp_assoc. cbn [append]. destruct (H k t (or_introl eq_refl)) as [Hk Ht].
  replace (k ++ String " " (String "=" (String " " (t ++ String NL (fold_right append "" (map (fun kt => entry_line (fst kt) (snd kt)) ls))))))
    with ((k ++ " = " ++ t) ++ String NL (fold_right append "" (map (fun kt => entry_line (fst kt) (snd kt)) ls)))
    by (rewrite !sapp_assoc; reflexivity).
  rewrite file_lines_line.
  - unfold sconcat in IH. rewrite IH by (intros; apply H; right; assumption). unfold entry_line. cbn. f_equal. rewrite !sapp_assoc. reflexivity.
  - rewrite !free_app. split; [exact Hk|]. split; [|exact Ht]. intros K. cbv in K. intuition discriminate.
Qed.
Lemma entries_free c (ls : list (string * string)) : ~ In c (chars " = ") -> c <> NL ->
  (forall k t, In (k, t) ls -> free c k /\ free c t) -> free c (sconcat (map (fun kt => entry_line (fst kt) (snd kt)) ls)).
Proof.
  intros H1 H2. induction ls as [|[k t] ls IH]; intros H; [apply free_nil|]. cbn [map sconcat fold_right fst snd].
  rewrite free_app. split; [|apply IH; intros; apply H; right; assumption]. unfold entry_line. rewrite !free_app.
  destruct (H k t (or_introl eq_refl)) as [Hk Ht]. repeat split; auto. apply free_cons. split; [congruence|apply free_nil].
Qed.
Lemma entries_closed (ls : list (string * string)) : closed (sconcat (map (fun kt => entry_line (fst kt) (snd kt)) ls)).
Proof.
  induction ls as [|[k t] ls IH]; [left; reflexivity|]. right. cbn [map sconcat fold_right fst snd]. destruct IH as [E|[m E]]; unfold sconcat in E; rewrite E.
  - exists (k ++ " = " ++ t). rewrite sapp_nil. unfold entry_line. rewrite !sapp_assoc. reflexivity.
  - exists (entry_line k t ++ m). rewrite sapp_assoc. reflexivity.
Qed.

Lemma trimmed_app a m b : a <> "" -> b <> "" -> trimmed a -> trimmed b -> trimmed (a ++ m ++ b).
Proof.
  intros Na Nb [A1 _] [_ B2]. split.
  - intros c s E. destruct a as [|x a]; [congruence|]. cbn in E. injection E as -> _. eapply A1. reflexivity.
  - intros c s E. destruct (s_snoc b) as [->|[b' [d ->]]]; [congruence|]. rewrite <- !sapp_assoc in E. apply ssnoc_inj in E. destruct E as [_ <-].
    eapply B2. reflexivity.
Qed.
Lemma blank_nl : all_blank (String NL "").
Proof. intros c [<-|[]]. left. cbv. lia. Qed.
Lemma trimmed_one c : ~ blank c -> trimmed (String c "").
Proof.
  intros H. split; intros d s E.
  - injection E as <- <-. exact H.
  - destruct s as [|x s]; [injection E as <-; exact H|destruct s; discriminate].
Qed.
Lemma strip_entry k t : clean_key k -> clean_text t ->
  strip (entry_line k t) = (if String.eqb k "" then "= " ++ t else k ++ " = " ++ t).
Proof.
  intros [K _] [T [NT _]]. apply strip_trim_of. destruct (String.eqb k "") eqn:E.
  - apply String.eqb_eq in E as ->. exists " ", (String NL ""). split; [cbn; rewrite ?sapp_assoc; reflexivity|].
    split; [intros c [<-|[]]; right; left; cbv; lia|]. split; [apply blank_nl|].
    apply (trimmed_app "=" " " t); auto; [discriminate|]. apply trimmed_one. unfold blank. cbv. lia.
  - apply String.eqb_neq in E. exists "", (String NL ""). split; [unfold entry_line; cbn [append]; rewrite !sapp_assoc; reflexivity|].
    split; [apply all_blank_nil|]. split; [apply blank_nl|]. apply trimmed_app; auto.
Qed.
Lemma lstrip_sp t : lstrip (String " " t) = lstrip t. Proof. reflexivity. Qed.
Lemma rhs_model_sp other t : rhs_model other (String " " t) = rhs_model other t.
Proof. unfold rhs_model, strip. rewrite lstrip_sp. reflexivity. Qed.
Lemma strip_sp_end k : trimmed k -> strip (k ++ " ") = k.
Proof.
  intros T. apply strip_trim_of. exists "", " ". split; [reflexivity|]. split; [apply all_blank_nil|]. split; [|exact T].
  intros c [<-|[]]. right; left; cbv; lia.
Qed.
Lemma parse_entry other k t v : clean_key k -> clean_text t -> rhs_value (orel other) t v ->
  parse_line other (entry_line k t) = Ok (k, v).
Proof.
  intros Hk Ht Hv. apply rhs_iff in Hv. unfold parse_line. rewrite (strip_entry k t Hk Ht).
  destruct Hk as [K1 [K2 [K3 _]]]. destruct Ht as [T1 [T2 [T3 [T4 _]]]].
  assert (Hsp : free "=" " ") by (intros K; cbv in K; intuition discriminate).
  destruct (String.eqb k "") eqn:E.
  - apply String.eqb_eq in E as ->. rewrite (split_on_free "#" ("= " ++ t)) by (rewrite free_app; split; [intros K; cbv in K; intuition discriminate|exact T4]).
    cbn [hd]. change ("= " ++ t) with ("" ++ String "=" (" " ++ t)). rewrite split_on_app by apply free_nil.
    rewrite (split_on_free "=" (" " ++ t)) by (rewrite free_app; auto). cbn [nth_error hd bind].
    change (" " ++ t) with (String " " t). pose proof (rhs_model_sp other t) as M. unfold rhs_model in M, Hv. rewrite M, Hv. reflexivity.
  - rewrite (split_on_free "#" (k ++ " = " ++ t)) by (rewrite !free_app; split; [exact K3|split; [intros K; cbv in K; intuition discriminate|exact T4]]).
    cbn [hd]. replace (k ++ " = " ++ t) with ((k ++ " ") ++ String "=" (" " ++ t)) by (rewrite sapp_assoc; reflexivity).
    rewrite split_on_app by (rewrite free_app; auto). rewrite (split_on_free "=" (" " ++ t)) by (rewrite free_app; auto). cbn [nth_error hd bind].
    change (" " ++ t) with (String " " t). pose proof (rhs_model_sp other t) as M. unfold rhs_model in M, Hv. rewrite M, Hv. cbn [bind].
    rewrite strip_sp_end by exact K1. reflexivity.
Qed.
Lemma entry_not_comment k t : clean_key k -> starts_with "#" (entry_line k t) = false.
Proof.
  intros [_ [_ [F _]]]. destruct (starts_with "#" (entry_line k t)) eqn:E; [|reflexivity]. exfalso. apply starts_with_iff in E as [r E].
  unfold entry_line in E. destruct k as [|c k]; [discriminate|]. injection E as -> _. apply free_cons in F. destruct F. congruence.
Qed.
Lemma dset_fresh {V} (d : dict V) k v : ~ In k (dkeys d) -> dset d k v = (d ++ [(k, v)])%list.
Proof.
  induction d as [|[k' v'] d IH]; intros H; [reflexivity|]. cbn in *. destruct (String.eqb k k') eqn:E; [apply String.eqb_eq in E; subst; tauto|]. rewrite IH by tauto. reflexivity.
Qed.
Lemma load_entries {V} other (str : V -> string) (num : V -> pval) (es : list (string * V)) d :
  NoDup (dkeys d ++ map fst es) ->
  (forall k v, In (k, v) es -> clean_key k /\ clean_text (str v) /\ rhs_value (orel other) (str v) (num v)) ->
  load_lines other d (map (par_line str) es) = Ok (d ++ map (fun kv => (fst kv, num (snd kv))) es)%list.
Proof.
  revert d. induction es as [|[k v] es IH]; intros d N H; cbn [map load_lines]; [rewrite app_nil_r; reflexivity|].
  destruct (H k v (or_introl eq_refl)) as [Hk [Ht Hv]]. rewrite par_line_entry. cbn [fst snd].
  rewrite entry_not_comment by exact Hk. rewrite (parse_entry other k (str v) (num v)) by assumption. cbn [bind fst snd].
  assert (Nk : ~ In k (dkeys d)).
  { cbn in N. apply NoDup_remove_2 in N. rewrite in_app_iff in N. tauto. }
  rewrite dset_fresh by exact Nk. rewrite IH.
  - rewrite <- app_assoc. reflexivity.
  - unfold dkeys. rewrite map_app. cbn. rewrite <- app_assoc. exact N.
  - intros; apply H; right; assumption.
Qed.
Lemma map_entry {V} (str : V -> string) (es : list (string * V)) :
  map (par_line str) es = map (fun kt => entry_line (fst kt) (snd kt)) (map (fun kv => (fst kv, str (snd kv))) es).
Proof. rewrite map_map. reflexivity. Qed.
Lemma load_par_text {V} other (str : V -> string) (num : V -> pval) (d : dict V) :
  NoDup (dkeys d) ->
  (forall k v, In (k, v) d -> clean_key k /\ clean_text (str v) /\ rhs_value (orel other) (str v) (num v)) ->
  load_text other (par_text str d) = Ok (map (fun kv => (fst kv, num (snd kv))) (sorted_items d)).
Proof.
  intros N H. unfold load_text, par_text. rewrite map_entry.
  assert (H' : forall k t, In (k, t) (map (fun kv => (fst kv, str (snd kv))) (sorted_items d)) -> clean_key k /\ clean_text t).
  { intros k t Hin. apply in_map_iff in Hin as [[k' v] [E Hin]]. injection E as <- <-. apply (proj1 (sorted_items_in d _ N)) in Hin.
    destruct (H k' v Hin) as [? [? ?]]. auto. }
  rewrite univ_nl_free.
  - rewrite file_lines_entries.
    + rewrite <- map_entry. apply (load_entries other str num (sorted_items d) []).
      * apply sorted_items_nodup, N.
      * intros k v Hin. apply H. exact (proj1 (sorted_items_in d _ N) Hin).
    + intros k t Hin. destruct (H' k t Hin) as [[_ [_ [_ [A _]]]] [_ [_ [_ [_ [B _]]]]]]. auto.
  - apply entries_free; [cbv; intuition discriminate|discriminate|].
    intros k t Hin. destruct (H' k t Hin) as [[_ [_ [_ [_ A]]]] [_ [_ [_ [_ [_ B]]]]]]. auto.
Qed.

(* ---- the file operations ---- *)
Lemma open_w_ok fs p t fs' : open_w fs p t = Ok fs' ->
  fs_dirs fs' = fs_dirs fs /\ dget (fs_files fs') p = Some t /\ (forall q, q <> p -> dget (fs_files fs') q = dget (fs_files fs) q).
Proof.
  unfold open_w. destruct (isdir fs p || String.eqb (snd (os_split p)) ""); [discriminate|]. intros H. injection H as <-. cbn.
  split; [reflexivity|]. split; [apply dget_dset_eq|]. intros q Hq. apply dget_dset_neq. apply String.eqb_neq. auto.
Qed.

Lemma makedirs_files fs p fs' : makedirs fs p = Ok fs' -> fs_files fs' = fs_files fs /\ isdir fs' p = true /\ (forall q, isdir fs q = true -> isdir fs' q = true).
Proof.
  unfold makedirs. destruct (String.eqb p ""); [discriminate|]. destruct (existsb _ _); [discriminate|]. intros H. injection H as <-.
  split; [reflexivity|]. unfold isdir. cbn [fs_dirs]. split; [apply smem_spec; left; reflexivity|].
  intros q Hq. apply smem_spec in Hq. apply smem_spec. right. apply in_or_app. right. exact Hq.
Qed.
Definition ensure_dir (fs : fsys) (head : string) : res fsys := if isdir fs head then Ok fs else makedirs fs head.
Lemma ensure_dir_ok fs h fs1 : ensure_dir fs h = Ok fs1 -> fs_files fs1 = fs_files fs /\ isdir fs1 h = true.
Proof.
  unfold ensure_dir. destruct (isdir fs h) eqn:E; intros H.
  - injection H as <-. auto.
  - apply makedirs_files in H. tauto.
Qed.
Lemma ask_none answers : (forall a, In a answers -> a <> "y" /\ a <> "n") -> ask answers = None.
Proof.
  induction answers as [|a l IH]; intros H; [reflexivity|]. cbn. destruct (H a (or_introl eq_refl)) as [H1 H2].
  apply String.eqb_neq in H1, H2. rewrite H1, H2. cbn. apply IH. intros; apply H; right; assumption.
Qed.
Lemma ask_first junk a rest : (forall x, In x junk -> x <> "y" /\ x <> "n") -> a = "y" \/ a = "n" -> ask (junk ++ a :: rest) = Some (a, rest).
Proof.
  intros H Ha. induction junk as [|x l IH].
  - cbn. destruct Ha as [->| ->]; reflexivity.
  - cbn. destruct (H x (or_introl eq_refl)) as [H1 H2]. apply String.eqb_neq in H1, H2. rewrite H1, H2. cbn. apply IH. intros; apply H; right; assumption.
Qed.
