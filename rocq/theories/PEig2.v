(* PEig2.v -- Bicycle.eig against the model class; sorted speeds *)
From Coq Require Import Lra Lia Permutation Sorting.Sorted ZArith.
From Verif Require Import Base MString MHeap MBicycle MVec MInertia MSets MModels MModels2 PBase SBicycle PBicycle PBicycle2 PHeap SModels SModels2 PModels PModels2 PModels3
  PSets PSets2 PSets3 PModels4 PModels5 PModels6 PModels7 PModels10 PModels11 SSort PSort MEig SEig PEig.
Local Open Scope string_scope.
Local Open Scope R_scope.

Lemma dget_nums p k : dget (nums p) k = match dget p k with Some x => Some (VNum x) | None => None end.
Proof. induction p as [|[k' x] p IH]; [reflexivity|]. cbn [nums map fst snd dget]. destruct (String.eqb k k'); [reflexivity|exact IH]. Qed.

Definition at_speed (x : R) : dict oval := [("v", OScalar x)].
Lemma model_at_speed ps p s h x ab : dget ps "Benchmark" = Some p -> nth_error h (ps_ref s) = Some (nums p) -> complete (required CMeijaard2007) (nums p) ->
  (snd (form_state_space_matrices s (at_speed x) h) = Ok (Single ab) <-> snd (bicycle_state_space ps x FTrue) = Ok ab).
Proof.
  intros E EH C.
  assert (N : NoDup (dkeys (at_speed x))) by (repeat constructor; intros []).
  assert (SC : all_scalar (at_speed x)) by (intros k v [H|[]]; injection H as <- <-; eauto).
  rewrite (ss_scalar s (at_speed x) h (nums p) ab EH N SC), ss_row_iff, (bicycle_space_eq ps x FTrue p E).
  set (d := rowd (nums p) (at_speed x) 0).
  assert (CN : snd (benchmark_par_to_canonical (floats d)) = canonical p).
  { change (canonical (floats d) = canonical p). apply canonical_ext. intros k Hk. unfold d. rewrite dget_floats, dget_rowd, dget_nums.
    destruct (dget p k) as [y|]; [|reflexivity]. unfold at_speed. cbn [dget]. destruct (String.eqb k "v") eqn:EK; [|reflexivity].
    apply String.eqb_eq in EK. subst k. exfalso. revert Hk. unfold canon_keys. cbn [In]. intuition discriminate. }
  destruct (C "v") as (v0 & EV); [cbv; tauto|]. destruct (C "g") as (g0 & EG); [cbv; tauto|].
  assert (DV : dget d "v" = Some (VNum x)) by (unfold d; rewrite dget_rowd, EV; reflexivity).
  assert (DG : dget d "g" = Some (VNum g0)) by (unfold d; rewrite dget_rowd, EG; reflexivity).
  assert (LG : dlook p "g" = Ok g0).
  { rewrite dget_nums in EG. unfold dlook. destruct (dget p "g"); [|discriminate]. injection EG as ->. reflexivity. }
  rewrite CN, LG. split.
  - intros (c & v & g & EC & EV' & EG' & EM). assert (v = x) as -> by congruence. assert (g = g0) as -> by congruence. rewrite EC. cbn [bind]. rewrite EM. reflexivity.
  - intros H. apply bind_ok in H. destruct H as (c & EC & H). cbn [bind] in H. apply bind_ok in H. destruct H as (ab' & EM & H). injection H as ->. exists c, x, g0. auto.
Qed.

Lemma forall2_nth {A B} (P : A -> B -> Prop) a b l1 l2 : Forall2 P l1 l2 <-> length l1 = length l2 /\ forall i, (i < length l1)%nat -> P (nth i l1 a) (nth i l2 b).
Proof.
  split.
  - induction 1 as [|x y l1 l2 H1 H2 (L & IH)]; [split; [reflexivity|intros i Hi; cbn in Hi; lia]|]. split; [cbn; congruence|].
    intros [|i] Hi; [exact H1|]. cbn [nth]. apply IH. cbn in Hi. lia.
  - revert l2. induction l1 as [|x l1 IH]; intros [|y l2] (L & H); try discriminate; constructor.
    + apply (H 0%nat). cbn. lia.
    + apply IH. split; [cbn in L; lia|]. intros i Hi. apply (H (S i)). cbn. lia.
Qed.
Lemma eig_is_model_eig eig ps p s h l evs : dget ps "Benchmark" = Some p -> nth_error h (ps_ref s) = Some (nums p) -> complete (required CMeijaard2007) (nums p) -> l <> [] ->
  (bicycle_eig eig ps (SpSeq l) = Ok evs <-> snd (calc_eigen eig (state_space MMeijaard s) false [("v", OArray l)] h) = Ok (Stack evs)).
Proof.
  intros E EH C NE. set (ov := [("v", OArray l)]).
  assert (N : NoDup (dkeys ov)) by (repeat constructor; intros []).
  assert (KV : In "v" (dkeys (nums p))) by (apply dget_some_in; destruct (C "v") as (v0 & EV); [cbv; tauto|eauto]).
  assert (SL : same_lengths (nums p) ov (length l)).
  { intros q Hq. unfold array_lengths, ov in Hq. cbn [flat_map snd fst] in Hq. destruct (dmem (nums p) "v"); cbn in Hq; intuition. }
  assert (CH : changes MMeijaard (nums p) ov).
  { exists "v". split; [split; [exact KV|eexists; reflexivity]|]. intros _. cbv. tauto. }
  destruct (sst_pointwise MMeijaard s ov h (nums p) (length l) (conj EH C) N SL CH) as (P1 & P2 & P3).
  assert (SG : forall i ab, snd (state_space MMeijaard s (at_row i ov) h) = Ok (Single ab) <-> snd (bicycle_state_space ps (nth i l 0) FTrue) = Ok ab).
  { intros i ab. cbn [state_space]. change (at_row i ov) with (at_speed (nth i l 0)). apply model_at_speed with (p := p); auto. }
  assert (LP : (0 < length l)%nat) by (destruct l; [congruence|cbn; lia]).
  rewrite calc_eigen_eq. cbn [snd orient].
  split.
  - intros H. destruct (eig_none eig ps l evs H) as (p1 & c & EP & EC). assert (p1 = p) as -> by congruence.
    apply (eig_iff eig ps l evs p E (ex_intro _ c EC)) in H.
    apply (forall2_nth _ 0 ([], [])) in H. destruct H as (LE & H).
    destruct (P3 LP) as (abs & EA).
    { intros i Hi. destruct (H i Hi) as (A & B & X & _). exists (A, B). apply SG, X. }
    rewrite EA. destruct (P2 abs EA) as (LA & HA). replace (mapM _ abs) with (Ok evs : res (list eigres)); [reflexivity|]. symmetry.
    apply mapM_nth_iff. split; [unfold eigres in *; lia|]. intros j a b Hj. rewrite LA in Hj. destruct (H j Hj) as (A & B & X & Y).
    pose proof (proj1 (SG j _) (HA j a Hj)) as Z. rewrite X in Z. injection Z as Z. rewrite <- Z. cbn [fst]. rewrite Y. f_equal.
    apply nth_indep. unfold eigres in *. lia.
  - destruct (snd (state_space MMeijaard s ov h)) as [[x|abs]|e] eqn:EA; [exfalso; apply (P1 x); reflexivity| |discriminate].
    destruct (P2 abs eq_refl) as (LA & HA). intros H.
    destruct (mapM (fun x : marr * marr => eig (fst x)) abs) as [evs'|] eqn:EM; [|discriminate]. injection H as ->.
    apply mapM_nth_iff in EM. destruct EM as (LM & HM).
    assert (EC : exists c, canonical p = Ok c).
    { pose proof (proj1 (SG 0%nat _) (HA 0%nat ([], []) LP)) as Z. rewrite (bicycle_space_eq ps _ FTrue p E) in Z. apply bind_ok in Z. destruct Z as (c & Z & _). eauto. }
    apply (eig_iff eig ps l evs p E EC). apply (forall2_nth _ 0 ([], [])). split; [unfold eigres in *; lia|]. intros i Hi.
    pose proof (proj1 (SG i _) (HA i ([], []) Hi)) as Z. assert (Hi' : (i < length abs)%nat) by congruence.
    specialize (HM i ([], []) ([], []) Hi'). unfold eigres in *. destruct (nth i abs ([], [])) as [A B]. exists A, B. auto.
Qed.

(* ---- np.sort ---- *)
Lemma rinsert_perm x l : Permutation (x :: l) (rinsert x l).
Proof.
  induction l as [|y l IH]; cbn [rinsert]; [auto|]. destruct (Rltb y x); [|auto].
  eapply perm_trans; [apply perm_swap|]. apply perm_skip, IH.
Qed.
Lemma rsort_perm l : Permutation l (rsort l).
Proof. induction l as [|x l IH]; [constructor|]. cbn [rsort fold_right]. eapply perm_trans; [apply perm_skip, IH|]. apply rinsert_perm. Qed.
Lemma rinsert_sorted x l : StronglySorted Rle l -> StronglySorted Rle (rinsert x l).
Proof.
  induction 1 as [|y l S IH F]; cbn [rinsert]; [repeat constructor|]. unfold Rltb. destruct (Rlt_dec y x) as [L|L].
  - constructor; [exact IH|]. rewrite Forall_forall in *. intros z Hz. apply (Permutation_in z (Permutation_sym (rinsert_perm x l))) in Hz.
    destruct Hz as [<-|Hz]; [lra|auto].
  - constructor; [constructor; assumption|]. constructor; [lra|]. rewrite Forall_forall in *. intros z Hz. specialize (F z Hz). lra.
Qed.
Lemma rsort_sorted l : StronglySorted Rle (rsort l).
Proof. induction l as [|x l IH]; [constructor|]. apply rinsert_sorted, IH. Qed.
Lemma rsort_copy l : sorted_copy l (rsort l).
Proof. split; [apply rsort_perm|apply rsort_sorted]. Qed.
Lemma sorted_unique l1 : forall l2, Permutation l1 l2 -> StronglySorted Rle l1 -> StronglySorted Rle l2 -> l1 = l2.
Proof.
  induction l1 as [|x l1 IH]; intros l2 P S1 S2.
  - apply Permutation_nil in P. subst. reflexivity.
  - destruct l2 as [|y l2]; [apply Permutation_sym, Permutation_nil in P; discriminate|].
    inversion S1 as [|? ? S1' F1]; inversion S2 as [|? ? S2' F2]; subst. rewrite Forall_forall in F1, F2.
    assert (x = y) as ->.
    { assert (I1 : In x (y :: l2)) by (apply (Permutation_in x P); left; reflexivity).
      assert (I2 : In y (x :: l1)) by (apply (Permutation_in y (Permutation_sym P)); left; reflexivity).
      destruct I1 as [->|I1]; [reflexivity|]. destruct I2 as [->|I2]; [reflexivity|]. specialize (F1 y I2). specialize (F2 x I1). lra. }
    f_equal. apply IH; auto. eapply Permutation_cons_inv; eauto.
Qed.
Lemma rsort_unique l s : sorted_copy l s -> s = rsort l.
Proof. intros (P & S). apply sorted_unique; [|exact S|apply rsort_sorted]. eapply perm_trans; [apply Permutation_sym, P|apply rsort_perm]. Qed.
Lemma rsort_order l1 l2 : Permutation l1 l2 -> rsort l1 = rsort l2.
Proof. intros P. apply rsort_unique. split; [|apply rsort_sorted]. eapply perm_trans; [apply Permutation_sym, P|apply rsort_perm]. Qed.
