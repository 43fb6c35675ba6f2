(* PModels6.v -- the rider lean matrices in terms of named parameters and states *)
From Coq Require Import Lra Lia.
From Verif Require Import Base MString MHeap MBicycle MVec MInertia MSets MModels MModels2 PBase PBicycle PHeap SModels SModels2
  PModels PModels2 PModels3 PModels4 PSets3 PModels5.
Local Open Scope string_scope.
Local Open Scope R_scope.

Definition picked (M : marr) (rows cols : list nat) : marr := map (fun i => map (fun j => nth j (nth i M []) 0) cols) rows.
Lemma select_ok M n m rows cols : shape n m M -> (forall i, In i rows -> (i < n)%nat) -> (forall j, In j cols -> (j < m)%nat) ->
  select M rows cols = Ok (picked M rows cols).
Proof.
  intros (HL & HR) Hr Hc. unfold select, picked. induction rows as [|i rows IH]; [reflexivity|].
  cbn [mapM map]. rewrite IH by (intros; apply Hr; right; assumption).
  assert (Hi : (i < length M)%nat) by (rewrite HL; apply Hr; left; reflexivity).
  rewrite (index_ok M i [] Hi). cbn [bind].
  assert (LR : length (nth i M []) = m) by (apply HR, nth_In, Hi).
  assert (EC : mapM (index (nth i M [])) cols = Ok (map (fun j => nth j (nth i M []) 0) cols)).
  { clear - Hc LR. induction cols as [|j cols IH]; [reflexivity|]. cbn [mapM map].
    rewrite (index_ok _ j 0) by (rewrite LR; apply Hc; left; reflexivity). cbn [bind]. rewrite IH by (intros; apply Hc; right; assumption). reflexivity. }
  rewrite EC. reflexivity.
Qed.

Lemma nth_error_map_nth {A B} (f : A -> B) l i y : nth_error (map f l) i = Some y <-> exists x, nth_error l i = Some x /\ y = f x.
Proof.
  rewrite nth_error_map. destruct (nth_error l i) as [x|]; cbn [option_map]; split.
  - intros X; injection X as <-. eauto.
  - intros (x' & X & ->). injection X as <-. reflexivity.
  - discriminate.
  - intros (x' & X & _). discriminate.
Qed.
Lemma restriction_picked rs cs M rows cols : NoDup rs -> NoDup cs -> shape (length rs) (length cs) M ->
  (forall i, In i rows -> (i < length rs)%nat) -> (forall j, In j cols -> (j < length cs)%nat) ->
  restriction rs cs M (map (fun i => nth i rs "") rows) (map (fun j => nth j cs "") cols) (picked M rows cols).
Proof.
  intros NR NC (HL & HR) Hr Hc. split.
  - split; [unfold picked; rewrite !map_length; reflexivity|]. intros row HI. unfold picked in HI. apply in_map_iff in HI.
    destruct HI as (i & <- & _). rewrite !map_length. reflexivity.
  - intros r c x IR IC. split.
    + intros (i & j & row & E1 & E2 & E3 & E4). apply nth_error_map_nth in E1. destruct E1 as (i0 & E1 & ->).
      apply nth_error_map_nth in E2. destruct E2 as (j0 & E2 & ->).
      unfold picked in E3. apply nth_error_map_nth in E3. destruct E3 as (i1 & E3 & ->). rewrite E1 in E3. injection E3 as <-.
      apply nth_error_map_nth in E4. destruct E4 as (j1 & E4 & ->). rewrite E2 in E4. injection E4 as <-.
      assert (Hi : (i0 < length rs)%nat) by (apply Hr; eapply nth_error_In; eauto).
      assert (Hj : (j0 < length cs)%nat) by (apply Hc; eapply nth_error_In; eauto).
      exists i0, j0, (nth i0 M []). repeat split.
      * apply nth_error_nth'; exact Hi.
      * apply nth_error_nth'; exact Hj.
      * apply nth_error_nth'; lia.
      * apply nth_error_nth'. rewrite (HR (nth i0 M [])) by (apply nth_In; lia). exact Hj.
    + intros (i & j & row & E1 & E2 & E3 & E4).
      apply in_map_iff in IR. destruct IR as (i0 & RI & IR). apply in_map_iff in IC. destruct IC as (j0 & CJ & IC).
      assert (Hi : (i0 < length rs)%nat) by (apply Hr; auto). assert (Hj : (j0 < length cs)%nat) by (apply Hc; auto).
      assert (i = i0).
      { apply (proj1 (NoDup_nth_error rs) NR); [apply nth_error_Some; congruence|]. rewrite E1. rewrite (nth_error_nth' rs "" Hi). congruence. }
      assert (j = j0).
      { apply (proj1 (NoDup_nth_error cs) NC); [apply nth_error_Some; congruence|]. rewrite E2. rewrite (nth_error_nth' cs "" Hj). congruence. }
      subst i j. apply In_nth_error in IR. destruct IR as (a & EA). apply In_nth_error in IC. destruct IC as (b & EB).
      exists a, b, (map (fun j => nth j (nth i0 M []) 0) cols). repeat split.
      * apply nth_error_map_nth. eauto.
      * apply nth_error_map_nth. eauto.
      * unfold picked. apply nth_error_map_nth. eauto.
      * apply nth_error_map_nth. exists j0. split; [exact EB|]. rewrite (nth_error_nth M i0 [] E3). symmetry. apply nth_error_nth. exact E4.
Qed.

Lemma nodup_strings l : (if list_eq_dec String.string_dec (nodup String.string_dec l) l then true else false) = true -> NoDup l.
Proof. destruct (list_eq_dec _ _ _) as [E|]; [|discriminate]. intros _. rewrite <- E. apply NoDup_nodup. Qed.

Lemma par_strings_split : par_strings CMooreRiderLean2012 = (p_names ++ ["v"])%list.
Proof. reflexivity. Qed.
Lemma lean_parameters_iff k : In k p_names <-> In k lean_parameters.
Proof. split; revert k; apply sub_spec; vm_compute; reflexivity. Qed.
Lemma filter_all {A} (f : A -> bool) l : (forall x, In x l -> f x = true) -> filter f l = l.
Proof. induction l as [|x l IH]; intros E; [reflexivity|]. cbn [filter]. rewrite (E x) by (left; reflexivity). rewrite IH by (intros; apply E; right; assumption). reflexivity. Qed.

Section RL.
Context (pitch : R -> R -> R -> R -> R -> R -> R -> res R) (body : (string -> R) -> res (marr * marr)).

Lemma env_lookup e q5 u6 : (forall k, In k motion_symbols -> k <> "u6" -> k <> "q5" -> e k = 0) -> e "q5" = q5 -> e "u6" = u6 ->
  forall k, In k motion_symbols \/ In k lean_parameters ->
  match dget (combine (q_names ++ u_names ++ r_names ++ p_names)%list ([0; 0; 0; 0; q5; 0; 0; 0; 0] ++ [0; u6; 0; 0] ++ [0; 0; 0; 0] ++ map e p_names)%list) k with
  | Some x => x | None => 0 end = e k.
Proof.
  intros Z E5 E6 k Hk.
  assert (Hk' : In k (q_names ++ u_names ++ r_names ++ p_names)%list).
  { destruct Hk as [Hk|Hk].
    - revert k Hk. apply sub_spec. vm_compute. reflexivity.
    - apply lean_parameters_iff in Hk. rewrite !in_app_iff. tauto. }
  clear Hk. cbn [app q_names u_names r_names p_names] in Hk'.
  assert (Z' : forall k, sub [k] motion_symbols = true -> String.eqb k "u6" = false -> String.eqb k "q5" = false -> 0 = e k).
  { intros k0 S A B. symmetry. apply Z; [apply (sub_spec _ _ S); left; reflexivity | apply String.eqb_neq; exact A | apply String.eqb_neq; exact B]. }
  cbn [app q_names u_names r_names p_names map combine].
  repeat (destruct Hk' as [<-|Hk']; [cbn [dget String.eqb Ascii.eqb Bool.eqb]; first [reflexivity | symmetry; exact E5 | symmetry; exact E6 | apply Z'; reflexivity]|]).
  destruct Hk'.
Qed.

Lemma rl_row_named d e : linear_equations body -> operating_point pitch d e ->
  rl_row pitch body d = AB <- body e ;; Ok (picked (fst AB) a_idxs a_idxs, picked (snd AB) a_idxs b_idxs).
Proof.
  intros (BX & BS) (HP & (v & EV & NR & EU) & EQ & Z).
  unfold rl_row, num_at, dlook. rewrite EV. cbn [bind].
  assert (SC : forall k, In k p_names -> scalar_at (without d "v") k = Ok (e k)).
  { intros k Hk. unfold scalar_at, dlook. rewrite dget_without.
    destruct (String.eqb k "v") eqn:EKV; [apply String.eqb_eq in EKV; subst k; exfalso; cbn [p_names In] in Hk; intuition discriminate|].
    rewrite (HP k) by (apply lean_parameters_iff, Hk). reflexivity. }
  unfold rider_lean_matrices. rewrite !SC by (cbn [p_names In]; tauto). cbn [bind]. rewrite EQ. cbn [bind].
  rewrite (rdiv_eq (- v) (e "rr") NR). cbn [bind].
  assert (FI : filter (dmem (without d "v")) (par_strings CMooreRiderLean2012) = p_names).
  { rewrite par_strings_split, filter_app. cbn [filter]. unfold dmem at 2. rewrite dget_without. cbn [String.eqb Ascii.eqb Bool.eqb]. rewrite app_nil_r.
    apply filter_all. intros k Hk. specialize (SC k Hk). unfold scalar_at, dlook in SC. unfold dmem. destruct (dget (without d "v") k); [reflexivity|discriminate]. }
  rewrite FI.
  assert (MM : mapM (scalar_at (without d "v")) p_names = Ok (map e p_names)).
  { clear - SC. induction p_names as [|k l IH]; [reflexivity|]. cbn [mapM map]. rewrite SC by (left; reflexivity). cbn [bind].
    rewrite IH by (intros; apply SC; right; assumption). reflexivity. }
  rewrite MM. cbn [bind]. unfold eval_linear. rewrite map_length. rewrite Nat.ltb_irrefl.
  rewrite (BX _ e).
  2:{ intros k Hk. rewrite (env_lookup e (e "q5") (- v / e "rr") Z); auto. rewrite <- EU. field. exact NR. }
  destruct (body e) as [[A_ B_]|er] eqn:EB; cbn [bind fst snd]; [|reflexivity].
  destruct (BS e A_ B_ EB) as (SA & SB).
  rewrite (select_ok A_ 13 13 a_idxs a_idxs SA) by (intros i Hi; cbn [a_idxs In] in Hi; lia). cbn [bind].
  rewrite (select_ok B_ 13 4 a_idxs b_idxs SB) by (intros i Hi; cbn [a_idxs b_idxs In] in Hi; lia). reflexivity.
Qed.
Lemma a_restriction A_ : shape 13 13 A_ -> restriction full_states full_states A_ lean_states lean_states (picked A_ a_idxs a_idxs).
Proof.
  intros S. apply (restriction_picked full_states full_states A_ a_idxs a_idxs); [apply nodup_strings; vm_compute; reflexivity | apply nodup_strings; vm_compute; reflexivity | exact S | |];
    intros i Hi; cbn [a_idxs In length full_states] in *; lia.
Qed.
Lemma b_restriction B_ : shape 13 4 B_ -> restriction full_states full_inputs B_ lean_states lean_inputs (picked B_ a_idxs b_idxs).
Proof.
  intros S. apply (restriction_picked full_states full_inputs B_ a_idxs b_idxs); [apply nodup_strings; vm_compute; reflexivity | apply nodup_strings; vm_compute; reflexivity | exact S | |];
    intros i Hi; cbn [a_idxs b_idxs In length full_states full_inputs] in *; lia.
Qed.

Lemma all_scalar_keys d ov : NoDup (dkeys ov) -> all_scalar ov -> array_keys_of d ov = [].
Proof.
  intros N AS. destruct (array_keys_of d ov) as [|k l] eqn:E; [reflexivity|].
  assert (X : In k (array_keys_of d ov)) by (rewrite E; left; reflexivity). apply in_array_keys in X; auto. destruct X as (_ & l' & EL).
  apply dget_in in EL. destruct (AS _ _ EL) as (x & X). discriminate.
Qed.
Lemma all_scalar_lengths d ov : all_scalar ov -> array_lengths d ov = [].
Proof.
  intros AS. unfold array_lengths. induction ov as [|[k v] ov IH]; [reflexivity|]. cbn [flat_map fst snd].
  destruct (AS k v (or_introl eq_refl)) as (x & ->). cbn [app]. apply IH. intros k' v' I'. apply (AS k' v'). right; exact I'.
Qed.
Lemma rowd_scalars d ov i k : all_scalar ov -> dget (rowd d ov i) k = dget (with_scalars d ov) k.
Proof.
  intros AS. rewrite dget_rowd. unfold with_scalars.
  rewrite (dget_map_val d (fun k v => match dget ov k with Some (OScalar x) => VNum x | _ => v end) k).
  destruct (dget d k); [|reflexivity]. destruct (dget ov k) as [[x|l]|] eqn:E; auto. apply dget_in in E. destruct (AS _ _ E) as (x & X). discriminate.
Qed.
Lemma rl_scalar s ov h d : nth_error h (ps_ref s) = Some d -> NoDup (dkeys ov) -> all_scalar ov -> (forall l, dget d "v" <> Some (VArr l)) ->
  exists h', preserved h h' /\ form_state_space_matrices_rl pitch body s ov h = (h', map_res Single (rl_row pitch body (with_scalars d ov))).
Proof.
  intros E N AS NV.
  destruct (form_rl_eq pitch body s ov h d 0 E N) as (h' & P & ER); [|exact NV|].
  { intros m Hm. rewrite (all_scalar_lengths d ov AS) in Hm. destruct Hm. }
  exists h'. split; [exact P|]. rewrite ER. unfold rl_pure. rewrite (all_scalar_keys d ov N AS).
  rewrite (rl_row_ext pitch body _ (with_scalars d ov)); [reflexivity|]. intros k _. apply rowd_scalars, AS.
Qed.
Lemma complete_no_array_v d : complete (required CMooreRiderLean2012) d -> forall l, dget d "v" <> Some (VArr l).
Proof. intros C l X. apply complete_required in C. destruct (C "v") as (x & EX); [cbn [par_strings In]; tauto|]. congruence. Qed.

Lemma rl_named s ov h d e : linear_equations body -> nth_error h (ps_ref s) = Some d -> NoDup (dkeys ov) -> all_scalar ov ->
  complete (required CMooreRiderLean2012) d -> operating_point pitch (with_scalars d ov) e ->
  (forall A_ B_, body e = Ok (A_, B_) ->
     exists A B, snd (form_state_space_matrices_rl pitch body s ov h) = Ok (Single (A, B)) /\
       restriction full_states full_states A_ lean_states lean_states A /\ restriction full_states full_inputs B_ lean_states lean_inputs B) /\
  (forall er, body e = Err er -> snd (form_state_space_matrices_rl pitch body s ov h) = Err er).
Proof.
  intros LE E N AS C OP. destruct (rl_scalar s ov h d E N AS (complete_no_array_v d C)) as (h' & _ & ER). rewrite ER. cbn [snd].
  rewrite (rl_row_named (with_scalars d ov) e LE OP). split.
  - intros A_ B_ EB. rewrite EB. cbn [bind map_res fst snd]. destruct LE as (_ & BS). destruct (BS e A_ B_ EB) as (SA & SB).
    eexists _, _. split; [reflexivity|]. split; [apply a_restriction, SA | apply b_restriction, SB].
  - intros er EB. rewrite EB. reflexivity.
Qed.
(* without an operating point there is no result *)
Lemma rl_no_point s ov h d : nth_error h (ps_ref s) = Some d -> NoDup (dkeys ov) -> all_scalar ov ->
  complete (required CMooreRiderLean2012) d -> forall ab, snd (form_state_space_matrices_rl pitch body s ov h) = Ok ab ->
  exists e, operating_point pitch (with_scalars d ov) e.
Proof.
  intros E N AS C ab EA. destruct (rl_scalar s ov h d E N AS (complete_no_array_v d C)) as (h' & _ & ER). rewrite ER in EA. cbn [snd] in EA.
  assert (CW : forall k, In k rider_lean_parameters -> exists x, dget (with_scalars d ov) k = Some (VNum x)).
  { intros k Hk. destruct (C k Hk) as (x & EX). rewrite <- (rowd_scalars d ov 0 k AS), dget_rowd, EX.
    destruct (dget ov k) as [[y|l]|]; eauto. }
  set (w := with_scalars d ov) in *. clearbody w.
  destruct (rl_row pitch body w) as [[A B]|er] eqn:EW; [|discriminate]. clear EA.
  destruct (CW "v") as (v & EV); [apply (sub_spec ["v"] rider_lean_parameters); [vm_compute; reflexivity | left; reflexivity]|].
  assert (PAR : forall k, In k p_names -> exists x, dget w k = Some (VNum x)).
  { intros k Hk. apply CW. apply lean_parameters_iff in Hk. unfold lean_parameters in Hk. apply filter_In in Hk. apply Hk. }
  pose (val := fun k => match dget w k with Some (VNum x) => x | _ => 0 end).
  assert (VAL : forall k, In k p_names -> dget w k = Some (VNum (val k))) by (intros k Hk; destruct (PAR k Hk) as (x & EX); unfold val; rewrite EX; reflexivity).
  unfold rl_row, num_at, dlook in EW. rewrite EV in EW. cbn [bind] in EW. unfold rider_lean_matrices in EW.
  assert (SC : forall k, In k p_names -> scalar_at (without w "v") k = Ok (val k)).
  { intros k Hk. unfold scalar_at, dlook. rewrite dget_without.
    destruct (String.eqb k "v") eqn:EKV; [apply String.eqb_eq in EKV; subst k; exfalso; cbn [p_names In] in Hk; intuition discriminate|].
    rewrite (VAL k Hk). reflexivity. }
  rewrite !SC in EW by (cbn [p_names In]; tauto). cbn [bind] in EW.
  destruct (pitch 0 0 (val "rf") (val "rr") (val "d1") (val "d2") (val "d3")) as [q5|] eqn:EQ; [|discriminate]. cbn [bind] in EW.
  unfold rdiv in EW. destruct (Req_EM_T (val "rr") 0) as [Z|NZ]; [discriminate|]. clear EW.
  exists (fun k => if smem k motion_symbols then (if String.eqb k "u6" then - v / val "rr" else if String.eqb k "q5" then q5 else 0) else val k).
  repeat split.
  - intros k Hk. assert (Hp : In k p_names) by (apply lean_parameters_iff, Hk).
    assert (NM : smem k motion_symbols = false).
    { cbn [p_names In] in Hp. repeat (destruct Hp as [<-|Hp]; [reflexivity|]). destruct Hp. }
    rewrite NM. apply VAL, Hp.
  - exists v. split; [exact EV|]. change (smem "rr" motion_symbols) with false. change (smem "u6" motion_symbols) with true. cbn [String.eqb Ascii.eqb Bool.eqb].
    split; [exact NZ|]. field. exact NZ.
  - exact EQ.
  - intros k Hk N6 N5. apply smem_spec in Hk. rewrite Hk. apply String.eqb_neq in N6. apply String.eqb_neq in N5. rewrite N6, N5. reflexivity.
Qed.

(* ---- vectorised ---- *)
Lemma rl_at_row s ov h d i ab : nth_error h (ps_ref s) = Some d -> NoDup (dkeys ov) -> (forall l, dget d "v" <> Some (VArr l)) ->
  snd (form_state_space_matrices_rl pitch body s (at_row i ov) h) = Ok (Single ab) <-> rl_row pitch body (rowd d ov i) = Ok ab.
Proof.
  intros E N NV.
  destruct (form_rl_eq pitch body s (at_row i ov) h d 0 E) as (h' & _ & ER); [rewrite dkeys_at_row; exact N | | exact NV|].
  { intros m Hm. rewrite array_lengths_at_row in Hm. destruct Hm. }
  rewrite ER. cbn [snd]. unfold rl_pure. rewrite array_keys_at_row.
  assert (EX : rl_row pitch body (rowd d (at_row i ov) 0) = rl_row pitch body (rowd d ov i)).
  { apply rl_row_ext. intros k _. rewrite !dget_rowd, dget_at_row. destruct (dget d k); auto. destruct (dget ov k) as [[x|l]|]; reflexivity. }
  rewrite EX. destruct (rl_row pitch body (rowd d ov i)) as [ab'|er]; cbn [map_res]; split; intros X; try discriminate; injection X as <-; reflexivity.
Qed.
Lemma rl_pointwise s ov h d n : nth_error h (ps_ref s) = Some d -> NoDup (dkeys ov) -> same_lengths d ov n -> complete (required CMooreRiderLean2012) d ->
  (exists k, array_given d ov k) ->
  pointwise (snd (form_state_space_matrices_rl pitch body s ov h)) (fun i => snd (form_state_space_matrices_rl pitch body s (at_row i ov) h)) n.
Proof.
  intros E N HS C (k & AG). pose proof (complete_no_array_v d C) as NV.
  destruct (form_rl_eq pitch body s ov h d n E N HS NV) as (h' & _ & ER). rewrite ER. cbn [snd].
  eapply rows_pointwise; [|intros i a; apply rl_at_row; eauto].
  unfold rl_pure. apply in_array_keys in AG; auto. destruct (array_keys_of d ov) as [|k0 ks]; [destruct AG|].
  destruct (C "v") as (v & EV); [apply (sub_spec ["v"] (required CMooreRiderLean2012)); [vm_compute; reflexivity | left; reflexivity]|]. rewrite EV.
  split; [|split].
  - intros a X. destruct (mapM _ _); discriminate.
  - intros l X. destruct (mapM _ _) as [l'|] eqn:EM; [|discriminate]. injection X as <-. reflexivity.
  - intros _ l X. rewrite X. reflexivity.
Qed.
Lemma rl_preserves s ov h d : nth_error h (ps_ref s) = Some d -> NoDup (dkeys ov) -> complete (required CMooreRiderLean2012) d ->
  preserved h (fst (form_state_space_matrices_rl pitch body s ov h)).
Proof.
  intros E N C. destruct (lens_agree_dec d ov) as [LA|NA].
  - apply lens_agree_iff in LA. destruct LA as (n & HS).
    destruct (form_rl_eq pitch body s ov h d n E N HS (complete_no_array_v d C)) as (h' & P & ER). rewrite ER. exact P.
  - unfold form_state_space_matrices_rl. unfold hbind at 1. rewrite (parse_parameter_overrides_eq _ _ _ _ E).
    pose proof (parsed_ok d ov N) as P. destruct (parsed d ov) as [[[d' ks] len]|e].
    + exfalso. destruct P as (_ & _ & P & _). apply NA. exact P.
    + apply preserved_app.
Qed.
Lemma rl_bad_lengths s ov h d : nth_error h (ps_ref s) = Some d -> NoDup (dkeys ov) -> ~ lens_agree d ov ->
  snd (form_state_space_matrices_rl pitch body s ov h) = Err (ValueError "All array valued parameters must have the same length.").
Proof.
  intros E N NA. unfold form_state_space_matrices_rl. unfold hbind at 1. rewrite (parse_parameter_overrides_eq _ _ _ _ E).
  pose proof (parsed_ok d ov N) as P. destruct (parsed d ov) as [[[d' ks] len]|e].
  + exfalso. destruct P as (_ & _ & P & _). apply NA. exact P.
  + destruct P as (-> & _). reflexivity.
Qed.
End RL.
