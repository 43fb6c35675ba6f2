(* PPeriod.v *)
From Verif Require Import Base MString MIo SIo MPeriod SPeriod PBase PString PIo PIo3.
From Coq Require Import Lra Lia ZArith Permutation.
Local Open Scope string_scope.
Local Open Scope R_scope.

(* ---- get_period_key ---- *)
Lemma nat_ascii_lt c : (nat_of_ascii c < 256)%nat. Proof. apply nat_ascii_bounded. Qed.
Lemma lower_small c : small_of c (lower_char c).
Proof.
  unfold small_of, lower_char. destruct (is_upper c) eqn:E.
  - left. apply is_upper_spec in E. split; [exact E|]. rewrite nat_ascii_embedding; [reflexivity|]. unfold upper in E. lia.
  - right. split; [rewrite <- is_upper_spec; congruence|reflexivity].
Qed.
Lemma small_of_fun c d d' : small_of c d -> small_of c d' -> d = d'.
Proof.
  intros [[U H]|[N ->]] [[U' H']|[N' ->]]; try tauto.
  rewrite <- (ascii_nat_embedding d), <- (ascii_nat_embedding d'). congruence.
Qed.
Definition parts_dict (split : bool) (rod : option string) : dict string :=
  let sub := [("Fwheel", "F"); ("Rwheel", "R"); ("Frame", "B"); ("Flywheel", "D")] in
  let sub := if split then dset (dset sub "Fork" "S") "Handlebar" "G" else dset sub "Fork" "H" in
  match rod with Some r => dset sub r "P" | None => dset sub "Rod" "P" end.
Definition base_dict (split : bool) : dict string :=
  if split then [("Fwheel", "F"); ("Rwheel", "R"); ("Frame", "B"); ("Flywheel", "D"); ("Fork", "S"); ("Handlebar", "G")]
  else [("Fwheel", "F"); ("Rwheel", "R"); ("Frame", "B"); ("Flywheel", "D"); ("Fork", "H")].
Lemma parts_dict_eq split rod : parts_dict split rod = dset (base_dict split) (match rod with Some r => r | None => "Rod" end) "P".
Proof. unfold parts_dict. destruct split, rod; reflexivity. Qed.
Lemma base_iff split p l : dget (base_dict split) p = Some l <->
    (p = "Fwheel" /\ l = "F" \/ p = "Rwheel" /\ l = "R" \/ p = "Frame" /\ l = "B" \/ p = "Flywheel" /\ l = "D"
     \/ split = true /\ (p = "Fork" /\ l = "S" \/ p = "Handlebar" /\ l = "G")
     \/ split = false /\ p = "Fork" /\ l = "H").
Proof.
  split.
  - unfold base_dict. destruct split; cbn [dget];
      repeat match goal with |- context [String.eqb p ?x] => destruct (String.eqb_spec p x) as [->|]; [intros H; injection H as <-; tauto|] end; discriminate.
  - intros H. destruct split; intuition (subst; try discriminate; reflexivity).
Qed.
Lemma parts_iff split rod p l : dget (parts_dict split rod) p = Some l <-> part_letter split rod p l.
Proof.
  rewrite parts_dict_eq, dget_dset. destruct (String.eqb_spec p (match rod with Some r => r | None => "Rod" end)) as [->|N].
  - split; [intros H; injection H as <-; constructor|]. intros H. inversion H as [|p' l' NE]; subst; [reflexivity|congruence].
  - rewrite base_iff. split.
    + intros H. apply pl_other; [congruence|exact H].
    + intros H. inversion H as [|p' l' NE K]; subst; [congruence|exact K].
Qed.
Definition ordinals : dict string := [("First", "1"); ("Second", "2"); ("Third", "3"); ("Fourth", "4"); ("Fifth", "5"); ("Sixth", "6")].
Lemma ordinal_iff w n : dget ordinals w = Some n <-> ordinal_digit w n.
Proof.
  split.
  - unfold ordinals. cbn [dget].
    repeat match goal with |- context [String.eqb w ?x] => destruct (String.eqb_spec w x) as [->|]; [intros H; injection H as <-; constructor|] end. discriminate.
  - intros []; reflexivity.
Qed.
Lemma dlook_iff {V} (d : dict V) k v : dlook d k = Ok v <-> dget d k = Some v.
Proof. unfold dlook. destruct (dget d k); split; congruence. Qed.
Lemma get_period_key_iff mat split key : get_period_key mat split = Ok key <-> period_key mat split key.
Proof.
  unfold get_period_key, period_key. fold (parts_dict split (dget mat "rod")). fold ordinals. split.
  - intros H. apply bind_ok in H as [w [Hw H]]. apply bind_ok in H as [pe [Hpe H]]. apply bind_ok in H as [pc [Hpc H]].
    apply bind_ok in H as [part [Hp H]]. apply bind_ok in H as [letter [Hl H]]. apply bind_ok in H as [num [Hn H]]. injection H as <-.
    destruct pe as [|c rest]; [discriminate|]. injection Hpc as <-.
    rewrite dlook_iff in Hpe, Hp, Hl, Hn. exists w, c, rest, (lower_char c), part, letter, num.
    split; [|split; [exact Hpe|split; [apply lower_small|split; [exact Hp|split; [apply parts_iff, Hl|split; [apply ordinal_iff, Hn|reflexivity]]]]]].
    unfold orientation_word. destruct (dget mat "angleOrder") as [x|] eqn:E; [injection Hw as ->; auto|]. apply dlook_iff in Hw. auto.
  - intros [w [c [rest [d [part [letter [num [Hw [Hpe [Hs [Hp [Hl [Hn ->]]]]]]]]]]]]].
    apply parts_iff in Hl. apply ordinal_iff in Hn.
    assert (Ew : match dget mat "angleOrder" with Some x => Ok x | None => dlook mat "angle" end = Ok w).
    { destruct Hw as [E|[E1 E2]]; [rewrite E; reflexivity|]. rewrite E1. apply dlook_iff, E2. }
    rewrite Ew. cbn [bind]. rewrite (proj2 (dlook_iff mat "pendulum" _) Hpe). cbn [bind].
    rewrite (proj2 (dlook_iff mat "part" _) Hp). cbn [bind]. rewrite (proj2 (dlook_iff _ _ _) Hl). cbn [bind].
    rewrite (proj2 (dlook_iff ordinals w _) Hn). cbn [bind]. rewrite (small_of_fun c d (lower_char c) Hs (lower_small c)). reflexivity.
Qed.
Lemma letter_one split rod p l : part_letter split rod p l -> exists a, l = String a "".
Proof.
  intros H. inversion H as [|p' l' _ K]; subst; [eexists; reflexivity|]. intuition (subst; eexists; reflexivity).
Qed.
Lemma part_letter_inj split rod p p' l : part_letter split rod p l -> part_letter split rod p' l -> p = p'.
Proof.
  intros H H'. inversion H as [|q m N K]; inversion H' as [|q' m' N' K']; subst; auto.
  - exfalso. intuition discriminate.
  - exfalso. intuition discriminate.
  - clear H H' N N'. destruct split; intuition (subst; try discriminate; reflexivity).
Qed.
Lemma ordinal_inj w w' n : ordinal_digit w n -> ordinal_digit w' n -> w = w'.
Proof. intros []; intros H; inversion H; reflexivity. Qed.

(* ---- calc_periods_for_files ---- *)
(* the files that carry the key k *)
Definition periods_of (split : bool) (k : string) (files : list (dict string * res (R * R))) : list (R * R) :=
  flat_map (fun f => match get_period_key (fst f) split, snd f with
                     | Ok k', Ok p => if String.eqb k k' then [p] else []
                     | _, _ => []
                     end) files.
Lemma collect_get split acc files out : collect_periods split acc files = Ok out ->
  forall k, dget out k = match dget acc k, periods_of split k files with
                         | None, [] => None
                         | None, l => Some l
                         | Some a, l => Some (a ++ l)%list
                         end.
Proof.
  revert acc. induction files as [|[mat per] files IH]; intros acc H k; cbn [collect_periods] in H.
  - injection H as ->. cbn. destruct (dget out k); [rewrite app_nil_r|]; reflexivity.
  - apply bind_ok in H as [q [Hq H]]. apply bind_ok in H as [p [Hp H]]. rewrite (IH _ H k). cbn [periods_of flat_map fst snd].
    fold (periods_of split k files). rewrite Hq, Hp.
    assert (E : dget (match dget acc q with Some l => dset acc q (l ++ [p])%list | None => dset acc q [p] end) k
                = if String.eqb k q then Some (match dget acc q with Some l => l ++ [p] | None => [p] end)%list else dget acc k).
    { destruct (dget acc q); apply dget_dset. }
    rewrite E. clear E. destruct (String.eqb_spec k q) as [Eq|N].
    + subst q. destruct (dget acc k); [rewrite <- app_assoc|]; reflexivity.
    + reflexivity.
Qed.
Lemma collect_nodup split acc files out : NoDup (dkeys acc) -> collect_periods split acc files = Ok out -> NoDup (dkeys out).
Proof.
  revert acc. induction files as [|[mat per] files IH]; intros acc N H; cbn [collect_periods] in H.
  - injection H as <-. exact N.
  - apply bind_ok in H as [q [Hq H]]. apply bind_ok in H as [p [Hp H]]. apply (IH _) in H; [exact H|]. destruct (dget acc q); apply nodup_dset, N.
Qed.
Lemma collect_all split acc files out : collect_periods split acc files = Ok out ->
  Forall (fun f => exists k p, get_period_key (fst f) split = Ok k /\ snd f = Ok p) files.
Proof.
  revert acc. induction files as [|[mat per] files IH]; intros acc H; cbn [collect_periods] in H; constructor.
  - apply bind_ok in H as [q [Hq H]]. apply bind_ok in H as [p [Hp H]]. exists q, p. auto.
  - apply bind_ok in H as [q [Hq H]]. apply bind_ok in H as [p [Hp H]]. eapply IH, H.
Qed.
Lemma collect_ok split acc files : Forall (fun f => exists k p, get_period_key (fst f) split = Ok k /\ snd f = Ok p) files ->
  exists out, collect_periods split acc files = Ok out.
Proof.
  intros H. revert acc. induction H as [|[mat per] files [k [p [Hk Hp]]] H IH]; intros acc; [exists acc; reflexivity|].
  cbn in Hk, Hp. cbn [collect_periods]. rewrite Hk, Hp. cbn [bind]. apply IH.
Qed.
Lemma dget_map_kv {V W} (f : string -> V -> W) (d : dict V) k :
  dget (map (fun kl => (fst kl, f (fst kl) (snd kl))) d) k = option_map (f k) (dget d k).
Proof. induction d as [|[q v] d IH]; [reflexivity|]. cbn [map dget fst snd]. destruct (String.eqb_spec k q) as [->|]; [reflexivity|exact IH]. Qed.
Lemma key_T mat split k : get_period_key mat split = Ok k -> starts_with "T" k = true.
Proof. intros H. apply get_period_key_iff in H as [? [? [? [? [? [? [? [_ [_ [_ [_ [_ [_ ->]]]]]]]]]]]]]. reflexivity. Qed.
Lemma periods_of_nonT split k files : starts_with "T" k = false -> periods_of split k files = [].
Proof.
  intros H. induction files as [|[mat per] files IH]; [reflexivity|]. cbn [periods_of flat_map fst snd]. fold (periods_of split k files). rewrite IH, app_nil_r.
  destruct (get_period_key mat split) as [q|] eqn:E; [|reflexivity]. destruct per; [|reflexivity]. destruct (String.eqb_spec k q) as [->|]; [|reflexivity].
  apply key_T in E. congruence.
Qed.
Lemma calc_periods_get split files d : calc_periods_for_files split files = Ok d ->
  NoDup (dkeys d) /\ forall k, dget d k = match periods_of split k files with [] => None | l => Some (PerMean (umean l)) end.
Proof.
  unfold calc_periods_for_files. intros H. apply bind_ok in H as [acc [H E]]. injection E as <-. split.
  - unfold dkeys. rewrite map_map. cbn [fst]. eapply collect_nodup; [|exact H]. constructor.
  - intros k. rewrite (dget_map_kv (fun q l => if starts_with "T" q then PerMean (umean l) else PerList l)).
    rewrite (collect_get _ _ _ _ H k). cbn [dget]. destruct (periods_of split k files) as [|p l] eqn:E; [reflexivity|]. cbn [option_map].
    destruct (starts_with "T" k) eqn:T; [reflexivity|]. rewrite periods_of_nonT in E by exact T. discriminate.
Qed.
Lemma periods_of_perm split k files files' : Permutation files files' -> Permutation (periods_of split k files) (periods_of split k files').
Proof. apply Permutation_flat_map. Qed.
Lemma rsum_perm' l l' : Permutation l l' -> rsum l = rsum l'.
Proof. unfold rsum. induction 1; cbn; try lra; congruence. Qed.
Lemma umean_perm l l' : Permutation l l' -> umean l = umean l'.
Proof.
  intros P. unfold umean, mean. rewrite !map_length. rewrite (Permutation_length P).
  rewrite (rsum_perm' _ _ (Permutation_map fst P)), (rsum_perm' _ _ (Permutation_map (fun u => Rsqr (snd u)) P)). reflexivity.
Qed.
Lemma calc_periods_perm split files files' d : Permutation files files' -> calc_periods_for_files split files = Ok d ->
  exists d', calc_periods_for_files split files' = Ok d' /\ forall k, dget d' k = dget d k.
Proof.
  intros P H. assert (A : exists acc, collect_periods split [] files' = Ok acc).
  { unfold calc_periods_for_files in H. apply bind_ok in H as [acc [H _]]. apply collect_all in H. apply collect_ok.
    rewrite Forall_forall in *. intros f Hf. apply H. eapply Permutation_in; [symmetry; exact P|exact Hf]. }
  assert (D : exists d', calc_periods_for_files split files' = Ok d') by (destruct A as [acc A]; unfold calc_periods_for_files; rewrite A; eexists; reflexivity).
  destruct D as [d' D]. exists d'. split; [exact D|]. intros k. rewrite (proj2 (calc_periods_get _ _ _ D)), (proj2 (calc_periods_get _ _ _ H)).
  pose proof (periods_of_perm split k _ _ P) as Q. destruct (periods_of split k files) as [|p l].
  - apply Permutation_nil in Q. rewrite Q. reflexivity.
  - destruct (periods_of split k files') as [|p' l'] eqn:E; [symmetry in Q; apply Permutation_nil_cons in Q; destruct Q|].
    f_equal. f_equal. apply umean_perm. symmetry. exact Q.
Qed.

(* ---- check_for_period ---- *)
Lemma stake2 k a b : String.eqb (stake 2 k) (String a (String b "")) = String.prefix (String a (String b "")) k.
Proof.
  destruct k as [|c [|d k]]; cbn [stake String.eqb String.prefix].
  - reflexivity.
  - destruct (ascii_dec a c) as [->|N]; [rewrite Ascii.eqb_refl|rewrite aeqb_neq by congruence]; reflexivity.
  - destruct (ascii_dec a c) as [->|N]; [rewrite Ascii.eqb_refl|rewrite aeqb_neq by congruence; reflexivity].
    destruct (ascii_dec b d) as [->|N]; [rewrite Ascii.eqb_refl|rewrite aeqb_neq by congruence; reflexivity]. destruct k; reflexivity.
Qed.
Lemma count_periods_spec keys nc nt : count_periods keys nc nt = (nc + how_many "Tc" keys, nt + how_many "Tt" keys)%nat.
Proof.
  revert nc nt. induction keys as [|k keys IH]; intros nc nt; cbn [count_periods how_many]; [f_equal; lia|]. rewrite !stake2.
  destruct (String.prefix "Tc" k) eqn:E1.
  - assert (E2 : String.prefix "Tt" k = false).
    { rewrite <- stake2 in E1 |- *. apply String.eqb_eq in E1. rewrite E1. reflexivity. }
    rewrite E2, IH. f_equal; lia.
  - destruct (String.prefix "Tt" k); rewrite IH; f_equal; lia.
Qed.
Lemma check_for_period_iff {V} (mp : dict V) split : check_for_period mp split = true <->
  (if split then how_many "Tc" (dkeys mp) < 5 \/ how_many "Tt" (dkeys mp) < 11
   else how_many "Tc" (dkeys mp) < 4 \/ how_many "Tt" (dkeys mp) < 8)%nat.
Proof.
  unfold check_for_period. rewrite count_periods_spec. destruct split; rewrite orb_true_iff, !Nat.ltb_lt; cbn [Nat.add]; tauto.
Qed.
