(* PEig.v -- lemmas about Bicycle.canonical, state_space and eig *)
From Coq Require Import Lra Lia Permutation Sorting.Sorted.
From Verif Require Import Base MString MHeap MBicycle MVec MInertia MSets MModels MModels2 PBase SBicycle PBicycle PBicycle2 PHeap SModels SModels2 PModels PModels2 PModels3
  PSets PSets2 PSets3 PModels4 PModels5 PModels6 PModels7 PModels10 PModels11 SSort PSort MEig SEig.
Local Open Scope string_scope.
Local Open Scope R_scope.

Lemma bicycle_canonical_eq ps p f : dget ps "Benchmark" = Some p ->
  snd (bicycle_canonical ps f) = c <- canonical p ;; check_flag f c.
Proof. intros E. unfold bicycle_canonical, canonical. rewrite E. destruct (benchmark_par_to_canonical p) as [p' r]. reflexivity. Qed.

Lemma canonical_fst_frame ps f p : dget ps "Benchmark" = Some p ->
  exists p', fst (bicycle_canonical ps f) = dset ps "Benchmark" p' /\ p' = fst (benchmark_par_to_canonical p).
Proof. intros E. unfold bicycle_canonical. rewrite E. destruct (benchmark_par_to_canonical p) as [p' r]. exists p'. split; reflexivity. Qed.

Lemma written_frame p k : ~ In k written -> dget (fst (benchmark_par_to_canonical p)) k = dget p k.
Proof.
  intros H. destruct (benchmark_par_to_canonical p) as [p' r] eqn:E. apply (canonical_frame p p' r k E); intros ->; apply H; cbn; tauto.
Qed.

Lemma dkeys_dset_in {V} (d : dict V) k v : In k (dkeys d) -> dkeys (dset d k v) = dkeys d.
Proof.
  induction d as [|[k' v'] d IH]; [intros []|]. intros H. cbn [dset dkeys map fst]. destruct (String.eqb k k') eqn:E; [apply String.eqb_eq in E; subst; reflexivity|].
  cbn [map fst]. f_equal. apply IH. destruct H as [H|H]; [|exact H]. cbn in H. subst. rewrite String.eqb_refl in E. discriminate.
Qed.

Lemma sbw_refl ps : same_but_written ps ps.
Proof. split; [reflexivity|]. split; [reflexivity|]. intros p E. eauto. Qed.
Lemma sbw_trans a b c : same_but_written a b -> same_but_written b c -> same_but_written a c.
Proof.
  intros (K1 & O1 & B1) (K2 & O2 & B2). split; [congruence|]. split.
  - intros n Hn. rewrite O2, O1; auto.
  - intros p E. destruct (B1 p E) as (p1 & E1 & H1). destruct (B2 p1 E1) as (p2 & E2 & H2). exists p2. split; [exact E2|]. intros k Hk. rewrite H2, H1; auto.
Qed.
Lemma sbw_canonical ps f : same_but_written ps (fst (bicycle_canonical ps f)).
Proof.
  destruct (dget ps "Benchmark") as [p|] eqn:E.
  - destruct (canonical_fst_frame ps f p E) as (p' & -> & ->). split; [|split].
    + apply dkeys_dset_in. apply dget_some_in. eauto.
    + intros n Hn. rewrite dget_dset. apply String.eqb_neq in Hn. rewrite Hn. reflexivity.
    + intros p0 E0. assert (p0 = p) as -> by congruence. exists (fst (benchmark_par_to_canonical p)). rewrite dget_dset, String.eqb_refl. split; [reflexivity|].
      intros k Hk. apply written_frame, Hk.
  - unfold bicycle_canonical. rewrite E. apply sbw_refl.
Qed.
Lemma space_fst ps v f : fst (bicycle_state_space ps v f) = fst (bicycle_canonical ps FFalse).
Proof. unfold bicycle_state_space. destruct (bicycle_canonical ps FFalse). reflexivity. Qed.
Lemma bode_fst ps v u y : fst (bode_system ps v u y) = fst (bicycle_canonical ps FFalse).
Proof. unfold bode_system. rewrite <- (space_fst ps v FTrue). destruct (bicycle_state_space ps v FTrue). reflexivity. Qed.
Lemma sbw_call ps c : same_but_written ps (object_after c ps).
Proof. destruct c; cbn [object_after]; rewrite ?space_fst, ?bode_fst; apply sbw_canonical. Qed.
Lemma sbw_all cs : forall ps, same_but_written ps (object_after_all cs ps).
Proof.
  induction cs as [|c cs IH]; intros ps; [apply sbw_refl|]. cbn [object_after_all fold_left].
  eapply sbw_trans; [apply sbw_call|]. apply IH.
Qed.

Lemma canon_keys_not_written k : In k canon_keys -> ~ In k written.
Proof.
  intros H W. assert (X : forallb (fun k => negb (smem k written)) canon_keys = true) by reflexivity.
  rewrite forallb_forall in X. specialize (X k H). apply smem_spec in W. rewrite W in X. discriminate.
Qed.
Lemma canonical_written p p' : (forall k, ~ In k written -> dget p' k = dget p k) -> canonical p' = canonical p.
Proof. intros H. apply canonical_ext. intros k Hk. apply H, canon_keys_not_written, Hk. Qed.

Lemma bicycle_space_eq ps v f p : dget ps "Benchmark" = Some p ->
  snd (bicycle_state_space ps v f) = c <- canonical p ;; g <- dlook p "g" ;; ab <- ab_matrix (cM c) (cC1 c) (cK0 c) (cK2 c) v g ;; check_flag f ab.
Proof.
  intros E. unfold bicycle_state_space. pose proof (bicycle_canonical_eq ps p FFalse E) as H. destruct (canonical_fst_frame ps FFalse p E) as (p' & H1 & ->).
  destruct (bicycle_canonical ps FFalse) as [ps' r]. cbn [fst snd] in *. subst r ps'. unfold check_flag at 1.
  destruct (canonical p) as [c|e]; [|reflexivity]. cbn [bind]. unfold dlook at 1. rewrite dget_dset, String.eqb_refl. cbn [bind].
  unfold dlook. rewrite written_frame by (cbn; intuition discriminate). reflexivity.
Qed.

Lemma history_canonical ps ps' f : same_but_written ps ps' -> snd (bicycle_canonical ps' f) = snd (bicycle_canonical ps f).
Proof.
  intros (K & _ & B). destruct (dget ps "Benchmark") as [p|] eqn:E.
  - destruct (B p eq_refl) as (p' & E' & H). rewrite (bicycle_canonical_eq ps p f E), (bicycle_canonical_eq ps' p' f E'), (canonical_written p p' H). reflexivity.
  - assert (E' : dget ps' "Benchmark" = None).
    { destruct (dget ps' "Benchmark") eqn:X; [|reflexivity]. exfalso. assert (I1 : In "Benchmark" (dkeys ps)) by (rewrite <- K; apply dget_some_in; eauto).
      apply dget_some_in in I1. destruct I1 as (? & I1). congruence. }
    unfold bicycle_canonical. rewrite E, E'. reflexivity.
Qed.
Lemma history_space ps ps' v f : same_but_written ps ps' -> snd (bicycle_state_space ps' v f) = snd (bicycle_state_space ps v f).
Proof.
  intros S. destruct (dget ps "Benchmark") as [p|] eqn:E.
  - destruct (proj2 (proj2 S) p E) as (p' & E' & H). rewrite (bicycle_space_eq ps v f p E), (bicycle_space_eq ps' v f p' E'), (canonical_written p p' H).
    unfold dlook. rewrite (H "g") by (cbn; intuition discriminate). reflexivity.
  - pose proof (history_canonical ps ps' FFalse S) as H. unfold bicycle_state_space.
    assert (X : snd (bicycle_canonical ps FFalse) = Err (KeyError "Benchmark")) by (unfold bicycle_canonical; rewrite E; reflexivity). rewrite X in H.
    destruct (bicycle_canonical ps FFalse), (bicycle_canonical ps' FFalse). cbn [snd] in *. subst. reflexivity.
Qed.

(* ---- eig ---- *)
Definition speeds_of (s : speed_arg) : res (list R) := match s with SpFloat x => Ok [x] | SpScalar _ => Err IndexError | SpSeq l => Ok l end.
Lemma bicycle_eig_eq eig ps s p : dget ps "Benchmark" = Some p ->
  bicycle_eig eig ps s = c <- canonical p ;; l <- speeds_of s ;;
    mapM (fun v => g <- dlook p "g" ;; ab <- ab_matrix (cM c) (cC1 c) (cK0 c) (cK2 c) v g ;; eig (fst ab)) l.
Proof.
  intros E. unfold bicycle_eig, canonical, dlook at 1. rewrite E. cbn [bind]. destruct (benchmark_par_to_canonical p) as [p' r] eqn:EB. cbn [snd].
  destruct r as [c|e]; [|reflexivity]. cbn [bind]. destruct s; try reflexivity; cbn [bind speeds_of]; apply mapM_ext_in; intros v _; unfold dlook;
    pose proof (written_frame p "g" ltac:(cbn; intuition discriminate)) as W; rewrite EB in W; cbn [fst] in W; rewrite W; reflexivity.
Qed.
Lemma history_eig eig ps ps' s : same_but_written ps ps' -> bicycle_eig eig ps' s = bicycle_eig eig ps s.
Proof.
  intros S. destruct (dget ps "Benchmark") as [p|] eqn:E.
  - destruct (proj2 (proj2 S) p E) as (p' & E' & H). rewrite (bicycle_eig_eq eig ps s p E), (bicycle_eig_eq eig ps' s p' E'), (canonical_written p p' H).
    unfold dlook. rewrite (H "g") by (cbn; intuition discriminate). reflexivity.
  - pose proof (history_canonical ps ps' FFalse S) as H. unfold bicycle_canonical in H. rewrite E in H. unfold bicycle_eig, dlook. rewrite E.
    destruct (dget ps' "Benchmark") as [p'|] eqn:E'; [|reflexivity]. exfalso. destruct S as (K & _). assert (I1 : In "Benchmark" (dkeys ps)) by (rewrite <- K; apply dget_some_in; eauto).
    apply dget_some_in in I1. destruct I1 as (? & I1). congruence.
Qed.

Lemma shape_ab M C1 K0 K2 v g A B : ab_matrix M C1 K0 K2 v g = Ok (A, B) -> shape 4 4 A /\ shape 4 2 B.
Proof.
  intros H. destruct (ab_shape _ _ _ _ _ _ _ _ H) as (L1 & F1 & L2 & F2). rewrite Forall_forall in F1, F2. split; split; auto.
Qed.

Lemma eig_rows eig ps l evs : eig_contract eig -> bicycle_eig eig ps (SpSeq l) = Ok evs ->
  length evs = length l /\ forall i, (i < length l)%nat -> spectrum_at ps (nth i l 0) (fst (nth i evs ([], []))) (snd (nth i evs ([], []))).
Proof.
  intros EC H. destruct (dget ps "Benchmark") as [p|] eqn:E.
  2:{ unfold bicycle_eig, dlook in H. rewrite E in H. discriminate. }
  rewrite (bicycle_eig_eq eig ps _ p E) in H. apply bind_ok in H. destruct H as (c & EC1 & H). cbn [speeds_of bind] in H.
  pose proof (mapM_length _ _ _ H) as L. split; [exact L|]. intros i Hi.
  pose proof (mapM_nth _ l evs i 0 ([], []) H Hi) as HN. cbn beta in HN. apply bind_ok in HN. destruct HN as (g & EG & HN). apply bind_ok in HN. destruct HN as ((A & B) & EA & HN).
  cbn [fst] in HN. exists A, B. split.
  - rewrite (bicycle_space_eq ps _ FTrue p E), EC1. cbn [bind]. rewrite EG. cbn [bind]. rewrite EA. reflexivity.
  - unfold eigres in *. destruct (nth i evs ([], [])) as [w V]. apply (EC 4%nat A w V (proj1 (shape_ab _ _ _ _ _ _ _ _ EA)) HN).
Qed.

Lemma eig_none eig ps l e : bicycle_eig eig ps (SpSeq l) = Ok e -> exists p c, dget ps "Benchmark" = Some p /\ canonical p = Ok c.
Proof.
  intros H. destruct (dget ps "Benchmark") as [p|] eqn:E.
  2:{ unfold bicycle_eig, dlook in H. rewrite E in H. discriminate. }
  rewrite (bicycle_eig_eq eig ps _ p E) in H. apply bind_ok in H. destruct H as (c & EC1 & H). eauto.
Qed.
Lemma eig_iff eig ps l evs p : dget ps "Benchmark" = Some p -> (exists c, canonical p = Ok c) ->
  (bicycle_eig eig ps (SpSeq l) = Ok evs <->
   Forall2 (fun v e => exists A B, snd (bicycle_state_space ps v FTrue) = Ok (A, B) /\ eig A = Ok e) l evs).
Proof.
  intros E (c & EC). rewrite (bicycle_eig_eq eig ps _ p E), EC. cbn [bind speeds_of].
  assert (X : forall v e, (g <- dlook p "g" ;; ab <- ab_matrix (cM c) (cC1 c) (cK0 c) (cK2 c) v g ;; eig (fst ab)) = Ok e <->
                exists A B, snd (bicycle_state_space ps v FTrue) = Ok (A, B) /\ eig A = Ok e).
  { intros v e. rewrite (bicycle_space_eq ps v FTrue p E), EC. cbn [bind]. destruct (dlook p "g") as [g|er]; cbn [bind].
    2:{ split; [discriminate|]. intros (A & B & X & _). discriminate. }
    destruct (ab_matrix _ _ _ _ v g) as [[A B]|er]; cbn [bind check_flag fst].
    - split; [eauto|]. intros (A' & B' & X & Y). injection X as <- <-. exact Y.
    - split; [discriminate|]. intros (A & B & X & _). discriminate. }
  revert evs. induction l as [|v l IH]; intros evs; cbn [mapM].
  - split; [intros H; injection H as <-; constructor|]. intros H. inversion H. reflexivity.
  - split.
    + intros H. apply bind_ok in H. destruct H as (e & H1 & H). apply bind_ok in H. destruct H as (es & H2 & H). injection H as <-.
      constructor; [apply X, H1|apply IH, H2].
    + intros H. inversion H as [|? e ? es H1 H2]; subst. apply X in H1. apply IH in H2. rewrite H1. cbn [bind]. rewrite H2. reflexivity.
Qed.
