(* PTable4.v -- lemmas for C49: the printed table *)
From Verif Require Import Base MString MIo SIo MPeriod MTable STable PBase PString PIo PIo2 PIo3 PIo5 PTable PTable2 PTable3.
From Coq Require Import ZArith Lra Lia Sorted Permutation.
Local Open Scope string_scope.

Definition bar : ascii := "|".
Lemma bars_close ps : String bar (sconcat (map (fun p => p ++ String bar "") ps)) = String.concat (String bar "") ("" :: ps ++ [""])%list.
Proof.
  rewrite concat_cons by (destruct ps; discriminate). cbn [append]. f_equal. induction ps as [|p ps IH]; [reflexivity|].
  change (((p :: ps) ++ [""])%list) with (p :: (ps ++ [""])%list). rewrite concat_cons by (destruct ps; discriminate). rewrite <- IH.
  cbn [map sconcat fold_right]. unfold sconcat. cbn [fold_right]. rewrite sapp_assoc. reflexivity.
Qed.
Lemma bars_open ps : sconcat (map (fun p => String bar p) ps) ++ String bar "" = String bar (sconcat (map (fun p => p ++ String bar "") ps)).
Proof.
  induction ps as [|p ps IH]; [reflexivity|]. unfold sconcat in *. cbn [map fold_right]. rewrite sapp_assoc, IH, sapp_assoc. reflexivity.
Qed.
Lemma spaces_snoc k : spaces k ++ " " = srep k " " ++ " ". Proof. reflexivity. Qed.
Lemma srep_snoc k : srep (S k) " " = srep k " " ++ " ".
Proof. induction k as [|k IH]; [reflexivity|]. change (srep (S (S k)) " ") with (" " ++ srep (S k) " "). rewrite IH at 1. change (srep (S k) " ") with (" " ++ srep k " "). rewrite sapp_assoc. reflexivity. Qed.

Definition padded (c : string) (w : nat) : string := " " ++ c ++ spaces (w - String.length c) ++ " ".
Lemma padded_len c w : (String.length c <= w)%nat -> String.length (padded c w) = (w + 2)%nat.
Proof. intros H. unfold padded, spaces. rewrite !slen_app, srep1. cbn [String.length]. lia. Qed.
Lemma padded_free x c w : x <> " "%char -> free x c -> free x (padded c w).
Proof.
  intros N F. unfold padded, spaces. rewrite !free_app. repeat split; try exact F; try (apply free_cons; split; [congruence|apply free_nil]). apply srep_free. congruence.
Qed.
Lemma line_spec row W : length row = length W -> Forall2 le (map String.length row) W -> (forall c, In c row -> free bar c) ->
  table_line (String bar (sconcat (map (fun p => p ++ String bar "") (map (fun iw => padded (fst iw) (snd iw)) (combine row W))))) row (map (fun w => (w + 2)%nat) W).
Proof.
  intros L F B. exists (map (fun iw => padded (fst iw) (snd iw)) (combine row W)). split; [|split].
  - split; [discriminate|]. split; [apply bars_close|]. constructor; [apply free_nil|]. apply Forall_app. split; [|constructor; [apply free_nil|constructor]].
    apply Forall_forall. intros x Hx. apply in_map_iff in Hx as [[c w] [<- Hc]]. cbn [fst snd]. apply padded_free; [discriminate|]. apply B. eapply in_combine_l, Hc.
  - clear B. revert W L F. induction row as [|c row IH]; intros [|w W] L F; try discriminate; [constructor|]. cbn. constructor; [|apply IH; [cbn in L; congruence|inversion F; assumption]].
    exists (w - String.length c)%nat. reflexivity.
  - clear B. revert W L F. induction row as [|c row IH]; intros [|w W] L F; try discriminate; [constructor|]. cbn [combine map fst snd]. inversion F as [|? ? ? ? F1 F2]. subst. constructor; [|apply IH; [cbn in L; congruence|assumption]].
    apply padded_len, F1.
Qed.
Lemma cell_line_bars row W : cell_line row W = String bar (sconcat (map (fun p => p ++ String bar "") (map (fun iw => padded (fst iw) (snd iw)) (combine row W)))).
Proof.
  unfold cell_line. rewrite map_map. change ("|" ++ ?x) with (String bar x). f_equal. f_equal. apply map_ext. intros [c w]. cbn [fst snd]. unfold padded. rewrite !sapp_assoc. reflexivity.
Qed.

Lemma body_concat sep cell (last : string) (l : list (string * list string)) :
  sconcat (map (fun dr => sep dr ++ String NL "" ++ cell dr ++ String NL "") l) ++ last = String.concat (String NL "") (flat_map (fun dr => [sep dr; cell dr]) l ++ [last])%list.
Proof.
  induction l as [|dr l IH]; [reflexivity|]. cbn [flat_map]. change (([sep dr; cell dr] ++ flat_map (fun dr => [sep dr; cell dr]) l) ++ [last])%list with (sep dr :: cell dr :: (flat_map (fun dr => [sep dr; cell dr]) l ++ [last])%list).
  rewrite concat_cons by discriminate. rewrite concat_cons by (destruct (flat_map (fun dr0 => [sep dr0; cell dr0]) l); discriminate). rewrite <- IH. unfold sconcat. cbn [map fold_right]. rewrite !sapp_assoc. reflexivity.
Qed.
Lemma nth_body (A B : Type) (f g : A -> B) (l : list A) (rest : list B) i a : nth_error l i = Some a ->
  nth_error (flat_map (fun x => [f x; g x]) l ++ rest)%list (2 * i) = Some (f a) /\ nth_error (flat_map (fun x => [f x; g x]) l ++ rest)%list (2 * i + 1) = Some (g a).
Proof.
  revert i. induction l as [|x l IH]; intros [|i] H; try discriminate; cbn in H.
  - injection H as ->. split; reflexivity.
  - destruct (IH i H) as [P Q]. replace (2 * S i)%nat with (S (S (2 * i))) by lia. replace (S (S (2 * i)) + 1)%nat with (S (S (2 * i + 1))) by lia. cbn [flat_map app nth_error]. split; assumption.
Qed.
Lemma body_len (A B : Type) (f g : A -> B) (l : list A) : length (flat_map (fun x => [f x; g x]) l) = (2 * length l)%nat.
Proof. induction l as [|x l IH]; [reflexivity|]. cbn. cbn in IH. lia. Qed.
Lemma nth_even (A B : Type) (f g : A -> B) (l : list A) (rest : list B) i b : nth_error (flat_map (fun x => [f x; g x]) l ++ rest)%list (2 * i) = Some b -> (exists a, In a l /\ b = f a) \/ In b rest.
Proof.
  intros H. destruct (Nat.lt_ge_cases i (length l)) as [L|L].
  - destruct (nth_error l i) as [a|] eqn:E; [|apply nth_error_None in E; lia]. destruct (nth_body A B f g l rest i a E) as [P _]. left. exists a. split; [eapply nth_error_In, E|congruence].
  - right. rewrite nth_error_app2 in H by (rewrite body_len; lia). eapply nth_error_In, H.
Qed.

(* rules *)
Lemma rule_app a b : rule_line a -> rule_line b -> rule_line (a ++ b).
Proof. intros A B c H. change list_ascii_of_string with chars in H. rewrite chars_app, in_app_iff in H. destruct H; [apply A|apply B]; assumption. Qed.
Lemma rule_rep n d : In d ["+"; "-"; "="]%char -> rule_line (srep n (String d "")).
Proof. intros H. induction n as [|n IH]; [intros c []|]. cbn [srep]. apply rule_app; [|exact IH]. intros c [<-|[]]. exact H. Qed.
Lemma rule_sconcat l : (forall x, In x l -> rule_line x) -> rule_line (sconcat l).
Proof. induction l as [|x l IH]; intros H; [intros c []|]. cbn. apply rule_app; [apply H; left; reflexivity|]. apply IH. intros; apply H; right; assumption. Qed.
Lemma rule_plus : rule_line "+". Proof. intros c [<-|[]]. left. reflexivity. Qed.
Lemma sep_rule d W : In d ["+"; "-"; "="]%char -> rule_line (sep_line (String d "") W).
Proof.
  intros H. unfold sep_line. apply rule_app; [|apply rule_plus]. apply rule_sconcat. intros x Hx. apply in_map_iff in Hx as [w [<- _]]. apply rule_app; [apply rule_plus|apply rule_rep, H].
Qed.
Lemma rule_free l : rule_line l -> free NL l.
Proof. intros H K. apply H in K. cbn in K. destruct K as [K|[K|[K|[]]]]; discriminate K. Qed.

Lemma joined_pairs ws : joined (map (fun w => (w + 2)%nat) ws) = map (fun p => (fst p + snd p + 3 + 2)%nat) (pairs ws).
Proof.
  assert (G : forall n ws, (length ws <= n)%nat -> joined (map (fun w => (w + 2)%nat) ws) = map (fun p => (fst p + snd p + 3 + 2)%nat) (pairs ws)).
  { induction n as [|n IH]; intros [|a [|b l]] L; try reflexivity; cbn in L; [lia|]. cbn [map joined pairs fst snd]. rewrite IH by lia. f_equal. lia. }
  apply (G (length ws)). apply le_n.
Qed.

Lemma names_bounded bikes ws : Forall2 le (tl (start_widths bikes)) ws -> Forall2 (fun (b : tbike) (p : nat * nat) => (String.length (tb_name b) <= fst p + snd p)%nat) bikes (pairs ws).
Proof.
  unfold start_widths. cbn [tl]. revert ws. induction bikes as [|b bikes IH]; intros ws H; cbn [flat_map app] in H.
  - inversion H. constructor.
  - inversion H as [|? a ? l1 H1 H2]. subst. inversion H2 as [|? a2 ? l2 H3 H4]. subst. cbn [pairs]. constructor; [|apply IH, H4]. cbn [fst snd].
    assert (K : (String.length (tb_name b) <= 2 * Nat.div2 (S (String.length (tb_name b))))%nat).
    { pose proof (Nat.div2_odd (S (String.length (tb_name b)))) as K. destruct (Nat.odd (S (String.length (tb_name b)))); cbn [Nat.b2n] in K; lia. }
    change (Nat.div2 (S (String.length (tb_name b))) <= a)%nat in H1. change (Nat.div2 (S (String.length (tb_name b))) <= a2)%nat in H3. lia.
Qed.
Lemma names_line bikes w two : Forall2 (fun (b : tbike) (p : nat * nat) => (String.length (tb_name b) <= fst p + snd p)%nat) bikes two ->
  ("|" ++ spaces (w + 2) ++ sconcat (map (fun bp : tbike * (nat * nat) => "| " ++ tb_name (fst bp) ++ spaces (fst (snd bp) + snd (snd bp) + 4 - String.length (tb_name (fst bp)))) (combine bikes two))) ++ "|"
  = String bar (sconcat (map (fun p => p ++ String bar "") (map (fun iw => padded (fst iw) (snd iw)) (combine ("" :: map tb_name bikes) (w :: map (fun p => (fst p + snd p + 3)%nat) two))))).
Proof.
  intros F. rewrite <- bars_open. cbn [combine map fst snd]. unfold sconcat at 2. cbn [fold_right].
  assert (E0 : spaces (w + 2) = padded "" w).
  { unfold padded. cbn [String.length append]. rewrite Nat.sub_0_r. unfold spaces. replace (w + 2)%nat with (S (S w)) by lia. change (srep (S (S w)) " ") with (" " ++ srep (S w) " "). rewrite srep_snoc. reflexivity. }
  rewrite E0. change ("|" ++ padded "" w ++ ?x) with (String bar (padded "" w ++ x)). cbn [append]. f_equal. rewrite !sapp_assoc. f_equal.
  change (fold_right append "" ?l) with (sconcat l).
  change (String bar "") with "|". f_equal. rewrite map_map. f_equal.
  induction F as [|b p bikes two H F IH]; [reflexivity|]. cbn [combine map fst snd]. f_equal; [|exact IH]. unfold padded. change ("| " ++ ?x) with (String bar (" " ++ x)). apply f_equal. apply f_equal. apply f_equal.
  replace (fst p + snd p + 4 - String.length (tb_name b))%nat with (S (fst p + snd p + 3 - String.length (tb_name b))) by lia. unfold spaces. rewrite srep_snoc. reflexivity.
Qed.
Lemma heads_eq latex bikes : heads latex (map tb_name bikes) = "Variable" :: flat_map (fun _ : tbike => if latex then [":math:`v`"; ":math:`\sigma`"] else ["v"; "sigma"]) bikes.
Proof. unfold heads. rewrite map_map, flat_map_concat_map. reflexivity. Qed.
Lemma heads_len latex names : length (heads latex names) = (1 + 2 * length names)%nat.
Proof. unfold heads. change (1 + 2 * length names)%nat with (S (2 * length names)). cbn [length]. apply f_equal. induction names as [|n l IH]; [reflexivity|]. cbn [map concat]. rewrite app_length, IH. destruct latex; cbn; lia. Qed.
Lemma printed_eq (latex : bool) (data : list (list string)) : (if latex then map (fun row : list string => match row with x :: r => (":math:`" ++ x ++ "`") :: r | [] => [] end) data else data) = map (printed_row latex) data.
Proof.
  destruct latex; [apply map_ext; intros [|x r]; reflexivity|]. symmetry. rewrite <- map_id. apply map_ext. intros [|x r]; reflexivity.
Qed.
Lemma printed_len latex row : length (printed_row latex row) = length row. Proof. destruct row; reflexivity. Qed.
Lemma heads_free x latex names : In x [NL; bar] -> forall c, In c (heads latex names) -> free x c.
Proof.
  intros Hx c Hc. unfold heads in Hc. assert (K : In c ["Variable"; ":math:`v`"; ":math:`\sigma`"; "v"; "sigma"]).
  { destruct Hc as [<-|Hc]; [left; reflexivity|]. apply in_concat in Hc as [l [Hl Hc]]. apply in_map_iff in Hl as [n [<- _]]. destruct latex; cbn in *; intuition. }
  clear Hc. cbn in Hx, K. intros Q. destruct Hx as [<-|[<-|[]]]; repeat (destruct K as [<-|K]; [cbn in Q; repeat (destruct Q as [Q|Q]; [discriminate Q|]); exact Q|]); exact K.
Qed.
Lemma printed_free x latex row : In x [NL; bar] -> (forall c, In c row -> free x c) -> forall c, In c (printed_row latex row) -> free x c.
Proof.
  intros Hx H c Hc. destruct row as [|y r]; [destruct Hc|]. cbn [printed_row] in Hc. destruct Hc as [<-|Hc]; [|apply H; right; exact Hc]. destruct latex; [|apply H; left; reflexivity].
  rewrite !free_app. cbn in Hx. split; [|split; [apply H; left; reflexivity|]]; intros Q; destruct Hx as [<-|[<-|[]]]; cbn in Q; repeat (destruct Q as [Q|Q]; [discriminate Q|]); exact Q.
Qed.

Lemma rows_concat (F : string * list string -> string) h data : sconcat (map F (("=", h) :: map (fun r => ("-", r)) data)) = F ("=", h) ++ sconcat (map (fun r => F ("-", r)) data).
Proof. unfold sconcat. cbn [map fold_right]. rewrite map_map. reflexivity. Qed.
Lemma rst_spec t text t' : create_rst_table t = (text, t') ->
  (forall row, In row (tab_data t) -> length row = (1 + 2 * length (tab_bikes t))%nat) ->
  (forall row c, In row (tab_data t) -> In c row -> free NL c /\ free bar c) ->
  (forall b, In b (tab_bikes t) -> free NL (tb_name b) /\ free bar (tb_name b)) ->
  let names := map tb_name (tab_bikes t) in let rows := heads (tab_latex t) names :: map (printed_row (tab_latex t)) (tab_data t) in
  rst_layout text names rows /\ t' = mktable (tab_latex t) (tab_bikes t) rows.
Proof.
  intros H HL HF HN names rows. unfold create_rst_table in H. rewrite printed_eq, <- heads_eq in H. fold names in H. set (data1 := map (printed_row (tab_latex t)) (tab_data t)) in *.
  fold rows in H. set (W := column_widths (tab_bikes t) rows) in *.
  assert (RL : forall row, In row rows -> length row = (1 + 2 * length (tab_bikes t))%nat).
  { intros row [<-|Hr]; [rewrite heads_len; unfold names; rewrite map_length; reflexivity|]. apply in_map_iff in Hr as [r [<- Hr]]. rewrite printed_len. apply HL, Hr. }
  assert (RF : forall row c x, In x [NL; bar] -> In row rows -> In c row -> free x c).
  { intros row c x Hx [<-|Hr] Hc; [eapply heads_free; eassumption|]. apply in_map_iff in Hr as [r [<- Hr]]. eapply printed_free; [exact Hx| |exact Hc]. intros c' Hc'. destruct (HF r c' Hr Hc') as [A B]. destruct Hx as [<-|[<-|[]]]; assumption. }
  destruct (widths_gen rows (start_widths (tab_bikes t))) as [WL [WS WR]]; [intros row Hr; rewrite start_len; apply RL, Hr|]. change (fold_left (fun largest row => widen (map String.length row) largest) rows (start_widths (tab_bikes t))) with W in *.
  rewrite start_len in WL. destruct W as [|w ws] eqn:EW; [discriminate WL|]. cbn [hd tl] in H. cbn [length] in WL. assert (WL' : length ws = (2 * length (tab_bikes t))%nat) by lia.
  set (two := pairs ws) in *.
  assert (NB : Forall2 (fun (b : tbike) (p : nat * nat) => (String.length (tb_name b) <= fst p + snd p)%nat) (tab_bikes t) two) by (apply names_bounded; inversion WS; assumption).
  set (last_dash := match data1 with [] => "=" | _ => "-" end) in *.
  set (sep := fun dr : string * list string => sep_line (fst dr) (firstn (length (snd dr)) (w :: ws))).
  set (cell := fun dr : string * list string => cell_line (snd dr) (w :: ws)).
  set (drs := ("=", heads (tab_latex t) names) :: map (fun r => ("-", r)) data1).
  set (top := "+" ++ srep (w + 2) "-" ++ sconcat (map (fun p => "+" ++ srep (fst p + snd p + 5) "-") two)) in *.
  set (nms := "|" ++ spaces (w + 2) ++ sconcat (map (fun bp : tbike * (nat * nat) => "| " ++ tb_name (fst bp) ++ spaces (fst (snd bp) + snd (snd bp) + 4 - String.length (tb_name (fst bp)))) (combine (tab_bikes t) two))) in *.
  set (last := sep_line last_dash (w :: ws)) in *.
  set (lines := (top ++ "+") :: (nms ++ "|") :: (flat_map (fun dr => [sep dr; cell dr]) drs ++ [last])%list).
  assert (ET : text = String.concat (String NL "") lines).
  { replace text with (fst (text, t')) by reflexivity. rewrite <- H. cbn [fst]. unfold lines. rewrite concat_cons by discriminate. rewrite concat_cons by (destruct drs; discriminate). rewrite <- body_concat. unfold drs. rewrite rows_concat. rewrite (sapp_assoc _ _ last).
    change (fun r : list string => sep ("-", r) ++ String NL "" ++ cell ("-", r) ++ String NL "") with (fun row : list string => sep_line "-" (firstn (length row) (w :: ws)) ++ String NL "" ++ cell_line row (w :: ws) ++ String NL "").
    change (sep ("=", heads (tab_latex t) names) ++ String NL "" ++ cell ("=", heads (tab_latex t) names) ++ String NL "") with (sep_line "=" (firstn (length (heads (tab_latex t) names)) (w :: ws)) ++ String NL "" ++ cell_line (heads (tab_latex t) names) (w :: ws) ++ String NL "").
    generalize (sconcat (map (fun row : list string => sep_line "-" (firstn (length row) (w :: ws)) ++ String NL "" ++ cell_line row (w :: ws) ++ String NL "") data1) ++ last).
    generalize (sep_line "=" (firstn (length (heads (tab_latex t) names)) (w :: ws)) ++ String NL "" ++ cell_line (heads (tab_latex t) names) (w :: ws) ++ String NL "").
    clear. intros x y. clearbody top nms. change (String NL ?z) with (String NL "" ++ z). rewrite !sapp_assoc. reflexivity. }
  assert (ES : rows = map snd drs) by (unfold drs; cbn [map snd]; rewrite map_map; cbn [snd]; rewrite map_id; reflexivity).
  assert (DS : forall dr, In dr drs -> In (snd dr) rows /\ (fst dr = "=" \/ fst dr = "-")).
  { intros dr Hd. split; [rewrite ES; apply in_map, Hd|]. destruct Hd as [<-|Hd]; [left; reflexivity|]. apply in_map_iff in Hd as [r [<- _]]. right. reflexivity. }
  assert (FL : forall dr, In dr drs -> firstn (length (snd dr)) (w :: ws) = w :: ws).
  { intros dr Hd. apply firstn_all2. rewrite (RL _ (proj1 (DS dr Hd))). cbn [length]. lia. }
  assert (RULE : forall l, l = top ++ "+" \/ (exists dr, In dr drs /\ l = sep dr) \/ l = last -> rule_line l).
  { intros l [->|[[dr [Hd ->]]| ->]].
    - unfold top. repeat apply rule_app; try apply rule_plus; [apply rule_rep; cbn; auto|]. apply rule_sconcat. intros x Hx. apply in_map_iff in Hx as [p [<- _]]. apply rule_app; [apply rule_plus|apply rule_rep; cbn; auto].
    - unfold sep. destruct (DS dr Hd) as [_ [-> | ->]]; apply sep_rule; cbn; auto.
    - unfold last, last_dash. destruct data1; apply sep_rule; cbn; auto. }
  assert (CELL : forall dr, In dr drs -> table_line (cell dr) (snd dr) (map (fun w => (w + 2)%nat) (w :: ws))).
  { intros dr Hd. unfold cell. rewrite cell_line_bars. apply line_spec.
    - rewrite (RL _ (proj1 (DS dr Hd))). cbn [length]. lia.
    - apply WR, DS, Hd.
    - intros c Hc. eapply RF; [right; left; reflexivity|apply DS, Hd|exact Hc]. }
  assert (NAMES : table_line (nms ++ "|") ("" :: names) (map (fun w => (w + 2)%nat) (w :: map (fun p => (fst p + snd p + 3)%nat) two))).
  { unfold nms. rewrite (names_line _ _ _ NB). apply line_spec.
    - cbn [length]. rewrite !map_length. unfold two. rewrite (proj2 (pairs_sum ws _ WL')). unfold names. rewrite map_length. reflexivity.
    - constructor; [cbn; lia|]. change (Forall2 le (map String.length (map tb_name (tab_bikes t))) (map (fun p : nat * nat => (fst p + snd p + 3)%nat) two)). rewrite map_map. clear - NB. induction NB; cbn; constructor; [cbn in *; lia|assumption].
    - intros c [<-|Hc]; [apply free_nil|]. apply in_map_iff in Hc as [b [<- Hb]]. apply HN, Hb. }
  assert (LNL : forall l, In l lines -> free NL l).
  { intros l Hl. destruct Hl as [<-|[<-|Hl]].
    - apply rule_free, RULE. left. reflexivity.
    - unfold nms. rewrite !free_app. split; [|apply free_cons; split; [discriminate|apply free_nil]]. split; [apply free_cons; split; [discriminate|apply free_nil]|]. split; [apply srep_free; discriminate|].
      apply sconcat_free. intros x Hx. apply in_map_iff in Hx as [[b p] [<- Hb]]. cbn [fst snd]. rewrite !free_app. split; [do 2 (apply free_cons; split; [discriminate|]); apply free_nil|]. split; [apply HN; eapply in_combine_l, Hb|apply srep_free; discriminate].
    - apply in_app_iff in Hl. destruct Hl as [Hl|[<-|[]]]; [|apply rule_free, RULE; right; right; reflexivity]. apply in_flat_map in Hl as [dr [Hd Hl]]. destruct Hl as [<-|[<-|[]]]; [apply rule_free, RULE; right; left; eauto|].
      unfold cell, cell_line. apply free_app. split; [apply free_cons; split; [discriminate|apply free_nil]|]. apply sconcat_free. intros x Hx. apply in_map_iff in Hx as [[c v] [<- Hc]]. cbn [fst snd]. rewrite !free_app.
      split; [apply free_cons; split; [discriminate|apply free_nil]|]. split; [eapply RF; [left; reflexivity|apply DS, Hd|eapply in_combine_l, Hc]|]. split; [apply srep_free; discriminate|]. do 2 (apply free_cons; split; [discriminate|]). apply free_nil. }
  assert (LEN : forall l, In l lines -> String.length l = (list_sum (map (fun w => (w + 3)%nat) (w :: ws)) + 1)%nat).
  { destruct (pairs_sum ws _ WL') as [PS PL]. fold two in PS, PL. intros l Hl. destruct Hl as [<-|[<-|Hl]].
    - unfold top. rewrite !slen_app, srep1, sconcat_len, map_map. cbn [String.length map list_sum fold_right]. unfold list_sum in PS. rewrite <- PS.
      assert (E : forall l : list (nat * nat), list_sum (map (fun p => String.length ("+" ++ srep (fst p + snd p + 5) "-")) l) = fold_right Nat.add 0%nat (map (fun p => (fst p + snd p + 6)%nat) l)).
      { induction l as [|p l IH]; [reflexivity|]. cbn [map fold_right list_sum]. unfold list_sum in IH. rewrite IH, slen_app, srep1. cbn [String.length]. lia. }
      rewrite E. lia.
    - unfold nms. rewrite !slen_app, sconcat_len, map_map. unfold spaces at 1. rewrite srep1. cbn [String.length map list_sum fold_right]. unfold list_sum in PS. rewrite <- PS.
      assert (E : forall (bs : list tbike) (l : list (nat * nat)), Forall2 (fun (b : tbike) (p : nat * nat) => (String.length (tb_name b) <= fst p + snd p)%nat) bs l -> list_sum (map (fun bp : tbike * (nat * nat) => String.length ("| " ++ tb_name (fst bp) ++ spaces (fst (snd bp) + snd (snd bp) + 4 - String.length (tb_name (fst bp))))) (combine bs l)) = fold_right Nat.add 0%nat (map (fun p => (fst p + snd p + 6)%nat) l)).
      { clear. induction 1 as [|b p bs l B F IH]; [reflexivity|]. cbn [combine map fold_right list_sum fst snd]. unfold list_sum in IH. rewrite IH, !slen_app. unfold spaces. rewrite srep1. cbn [String.length]. lia. }
      rewrite (E _ _ NB). lia.
    - apply in_app_iff in Hl. destruct Hl as [Hl|[<-|[]]].
      + apply in_flat_map in Hl as [dr [Hd Hl]]. destruct Hl as [<-|[<-|[]]].
        * unfold sep. rewrite (FL dr Hd). destruct (DS dr Hd) as [_ [-> | ->]]; apply sep_len.
        * unfold cell. apply cell_len; [rewrite (RL _ (proj1 (DS dr Hd))); cbn [length]; lia|apply WR, DS, Hd].
      + unfold last, last_dash. destruct data1; apply sep_len. }
  split; [|injection H as _ <-; reflexivity].
  exists lines, (w + 2)%nat, (map (fun w => (w + 2)%nat) ws). split; [|split; [|split; [|split; [|split; [|split]]]]].
  - split; [discriminate|]. split; [exact ET|]. apply Forall_forall, LNL.
  - unfold lines. cbn [length]. rewrite app_length, body_len. rewrite ES, map_length. cbn [length]. lia.
  - rewrite map_length. unfold names. rewrite map_length. exact WL'.
  - intros l l' Hl Hl'. rewrite (LEN l Hl), (LEN l' Hl'). reflexivity.
  - intros [|i] l Hi; [injection Hi as <-; apply RULE; left; reflexivity|]. replace (2 * S i)%nat with (S (S (2 * i))) in Hi by lia. cbn [nth_error] in Hi. apply (nth_even _ _ sep cell) in Hi. apply RULE. right.
    destruct Hi as [[a [Ha ->]]|[<-|[]]]; [left; eauto|right; reflexivity].
  - exists (nms ++ "|"). split; [reflexivity|]. rewrite joined_pairs. fold two. cbn [map] in NAMES. rewrite map_map in NAMES. exact NAMES.
  - intros i row Hi. rewrite ES in Hi. rewrite nth_error_map in Hi. destruct (nth_error drs i) as [dr|] eqn:Ed; [|discriminate Hi]. injection Hi as <-. exists (cell dr). split; [|exact (CELL dr (nth_error_In _ _ Ed))].
    replace (2 * i + 3)%nat with (S (S (2 * i + 1))) by lia. cbn [nth_error]. exact (proj2 (nth_body _ _ sep cell drs [last] i dr Ed)).
Qed.
