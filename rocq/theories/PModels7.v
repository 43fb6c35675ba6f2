(* PModels7.v -- the three state space methods together; eigenvalues *)
From Coq Require Import Lra Lia.
From Verif Require Import Base MString MHeap MBicycle MVec MInertia MSets MModels MModels2 PBase PBicycle PHeap SModels SModels2
  PModels PModels2 PModels3 PModels4 PSets3 PModels5 PModels6.
Local Open Scope string_scope.
Local Open Scope R_scope.

Definition row_of (m : lin_model) (d : pdict) : res (marr * marr) :=
  match m with MMeijaard => ss_row d | MFeedback => fb_row d | MRiderLean pitch body => rl_row pitch body d end.

Lemma complete_rowd names d ov i : complete names d -> complete names (rowd d ov i).
Proof.
  intros C k Hk. destruct (C k Hk) as (x & EX). rewrite dget_rowd, EX. destruct (dget ov k) as [[y|l]|]; eauto.
Qed.

Lemma sst_bad m s ov h d : fit m s h d -> NoDup (dkeys ov) -> ~ lens_agree d ov ->
  snd (state_space m s ov h) = Err (ValueError "All array valued parameters must have the same length.").
Proof.
  intros (E & C) N NA. destruct m as [| |pitch body]; cbn [state_space].
  - destruct (form_ss_bad s ov h d E N NA) as (h' & _ & ->). reflexivity.
  - destruct (form_fb_bad s ov h d E N NA) as (h' & _ & ->). reflexivity.
  - apply (rl_bad_lengths pitch body s ov h d E N NA).
Qed.

Lemma sst_preserves m s ov h d : fit m s h d -> NoDup (dkeys ov) -> preserved h (fst (state_space m s ov h)).
Proof.
  intros (E & C) N. destruct m as [| |pitch body]; cbn [state_space].
  - eapply ss_preserves; eauto.
  - eapply fb_preserves; eauto.
  - eapply rl_preserves; eauto.
Qed.

Lemma sst_det m s ov h h2 d : fit m s h d -> fit m s h2 d -> NoDup (dkeys ov) ->
  snd (state_space m s ov h) = snd (state_space m s ov h2).
Proof.
  intros F F2 N. destruct (lens_agree_dec d ov) as [LA|NA].
  2:{ rewrite (sst_bad m s ov h d F N NA), (sst_bad m s ov h2 d F2 N NA). reflexivity. }
  destruct F as (E & C). destruct F2 as (E2 & _). destruct m as [| |pitch body]; cbn [state_space].
  - eapply ss_det; eauto.
  - eapply fb_det; eauto.
  - apply lens_agree_iff in LA. destruct LA as (n & HS).
    destruct (form_rl_eq pitch body s ov h d n E N HS (complete_no_array_v d C)) as (h' & _ & ->).
    destruct (form_rl_eq pitch body s ov h2 d n E2 N HS (complete_no_array_v d C)) as (h'' & _ & ->). reflexivity.
Qed.

Lemma sst_rows m s ov h d : fit m s h d -> NoDup (dkeys ov) ->
  (forall ab, snd (state_space m s ov h) = Ok (Single ab) -> exists d', complete (required (model_class m)) d' /\ row_of m d' = Ok ab) /\
  (forall l, snd (state_space m s ov h) = Ok (Stack l) -> forall ab, In ab l -> exists d', complete (required (model_class m)) d' /\ row_of m d' = Ok ab).
Proof.
  intros F N. destruct (lens_agree_dec d ov) as [LA|NA].
  2:{ rewrite (sst_bad m s ov h d F N NA). split; intros; discriminate. }
  destruct F as (E & C). apply lens_agree_iff in LA. destruct LA as (n & HS).
  assert (RO : forall (row : pdict -> res (marr * marr)) r, rows_of n (fun i => row (rowd d ov i)) r -> row = row_of m ->
    (forall ab, r = Ok (Single ab) -> exists d', complete (required (model_class m)) d' /\ row_of m d' = Ok ab) /\
    (forall l, r = Ok (Stack l) -> forall ab, In ab l -> exists d', complete (required (model_class m)) d' /\ row_of m d' = Ok ab)).
  { intros row r (R1 & R2 & _) ->. split; [intros ab X; exfalso; apply (R1 ab X)|].
    intros l EL ab IN. apply R2 in EL. apply mapM_seq_ok in EL. destruct EL as [HL HE].
    destruct (In_nth l ab ([], []) IN) as (i & Hi & <-). exists (rowd d ov i). split; [apply complete_rowd, C|]. apply HE. lia. }
  destruct m as [| |pitch body]; cbn [state_space].
  - destruct (form_ss_eq s ov h d n E N HS) as (h' & r & _ & -> & HR). cbn [snd].
    destruct (ss_varies d ov); [apply (RO ss_row r HR eq_refl)|]. destruct HR as (HR1 & HR2). split; [|intros l X; exfalso; apply (HR1 l X)].
    intros ab X. exists (rowd d ov 0). split; [apply complete_rowd, C|]. apply HR2, X.
  - destruct (form_fb_eq s ov h d n E N HS) as (h' & r & _ & -> & HR). cbn [snd].
    destruct (match array_keys_of d ov with [] => false | _ => true end); [apply (RO fb_row r HR eq_refl)|]. destruct HR as (HR1 & HR2). split; [|intros l X; exfalso; apply (HR1 l X)].
    intros ab X. exists (rowd d ov 0). split; [apply complete_rowd, C|]. apply HR2, X.
  - destruct (form_rl_eq pitch body s ov h d n E N HS (complete_no_array_v d C)) as (h' & _ & ->). cbn [snd]. unfold rl_pure.
    destruct (array_keys_of d ov).
    + destruct (rl_row pitch body (rowd d ov 0)) as [ab|] eqn:ER; cbn [map_res]; split; intros ? X; try discriminate. injection X as <-.
      exists (rowd d ov 0). split; [apply complete_rowd, C|exact ER].
    + destruct (dget d "v"); [|split; intros; discriminate].
      destruct (mapM _ (seq 0 n)) as [ll|] eqn:EM; cbn [map_res]; split; intros ? X; try discriminate. injection X as <-.
      apply mapM_seq_ok in EM. destruct EM as [HL HE]. intros ab IN. destruct (In_nth ll ab ([], []) IN) as (i & Hi & <-).
      exists (rowd d ov i). split; [apply complete_rowd, C|]. apply HE. lia.
Qed.

Lemma shape_picked M rows cols : shape (length rows) (length cols) (picked M rows cols).
Proof. unfold shape, picked. rewrite map_length. split; [reflexivity|]. intros row IN. apply in_map_iff in IN. destruct IN as (i & <- & _). apply map_length. Qed.

(* first order form: the first two equations say that the angle rates are the rates *)
Definition first_order (A B : marr) : Prop :=
  exists a b, A = [[0; 0; 1; 0]; [0; 0; 0; 1]; [a 2%nat 0%nat; a 2%nat 1%nat; a 2%nat 2%nat; a 2%nat 3%nat]; [a 3%nat 0%nat; a 3%nat 1%nat; a 3%nat 2%nat; a 3%nat 3%nat]]
  /\ B = [[0; 0]; [0; 0]; [b 2%nat 0%nat; b 2%nat 1%nat]; [b 3%nat 0%nat; b 3%nat 1%nat]].
Lemma fb_complete d : complete (required CMeijaard2007WithFeedback) d -> complete gain_names d.
Proof. intros C k Hk. apply C. apply gain_names_iff in Hk. unfold required. apply in_or_app. right. exact Hk. Qed.
Lemma first_order_row m d A B : m = MMeijaard \/ m = MFeedback -> complete (required (model_class m)) d -> row_of m d = Ok (A, B) -> first_order A B.
Proof.
  intros [-> | ->] C E; cbn [row_of] in E.
  - apply ss_row_shape in E. exact E.
  - apply (fb_row_iff d A B (fb_complete d C)) in E. destruct E as (A0 & E & ->).
    apply ss_row_shape in E. destruct E as (a & b & -> & ->). unfold gain_matrix.
    match goal with |- first_order ?X ?Y => exists (ent X), (ent Y) end. split; [|reflexivity].
    cbn. repeat f_equal; ring.
Qed.
Lemma row_shape m d A B : sound_equations m -> complete (required (model_class m)) d -> row_of m d = Ok (A, B) ->
  shape (n_states m) (n_states m) A /\ shape (n_states m) (n_inputs m) B.
Proof.
  intros S C E. destruct m as [| |pitch body].
  1,2: apply first_order_row in E; [|tauto|exact C]; destruct E as (a & b & -> & ->); cbn [n_states n_inputs]; split; split; try reflexivity; intros row IN;
    repeat (destruct IN as [<-|IN]; [reflexivity|]); destruct IN.
  cbn [row_of] in E. unfold rl_row in E. apply bind_ok in E. destruct E as (v & _ & E). unfold rider_lean_matrices in E.
  repeat (apply bind_ok in E; destruct E as (? & ?X & E)). injection E as <- <-.
  match goal with H : eval_linear _ _ _ _ _ = Ok ?AB |- _ => unfold eval_linear in H; destruct (Nat.ltb _ _) in H; [discriminate|]; destruct AB as [A_ B_]; apply S in H; destruct H as (SA & SB) end.
  cbn [fst snd] in *.
  rewrite (select_ok A_ 13 13 a_idxs a_idxs SA) in * by (intros i Hi; cbn [a_idxs In] in Hi; lia).
  rewrite (select_ok B_ 13 4 a_idxs b_idxs SB) in * by (intros i Hi; cbn [a_idxs b_idxs In] in Hi; lia).
  repeat match goal with H : Ok _ = Ok _ |- _ => injection H as <- end. split; [exact (shape_picked A_ a_idxs a_idxs) | exact (shape_picked B_ a_idxs b_idxs)].
Qed.
Lemma sst_shape m s ov h d : sound_equations m -> fit m s h d -> NoDup (dkeys ov) ->
  (forall A B, snd (state_space m s ov h) = Ok (Single (A, B)) -> shape (n_states m) (n_states m) A /\ shape (n_states m) (n_inputs m) B) /\
  (forall l, snd (state_space m s ov h) = Ok (Stack l) -> forall A B, In (A, B) l -> shape (n_states m) (n_states m) A /\ shape (n_states m) (n_inputs m) B).
Proof.
  intros S F N. destruct (sst_rows m s ov h d F N) as (R1 & R2). split.
  - intros A B E. destruct (R1 _ E) as (d' & C & ER). eapply row_shape; eauto.
  - intros l E A B IN. destruct (R2 _ E _ IN) as (d' & C & ER). eapply row_shape; eauto.
Qed.

(* ---- calc_eigen ---- *)
Definition orient (left : bool) (A : marr) : marr := if left then transpose A else A.
Lemma calc_eigen_eq eig fss left ov h :
  calc_eigen eig fss left ov h = (fst (fss ov h),
    match snd (fss ov h) with
    | Err e => Err e
    | Ok (Single x) => map_res Single (eig (orient left (fst x)))
    | Ok (Stack l) => map_res Stack (mapM (fun x : marr * marr => eig (orient left (fst x))) l)
    end).
Proof.
  unfold calc_eigen, hbind. destruct (fss ov h) as [h' [[x|l]|e]]; cbn [fst snd]; [| |reflexivity].
  - unfold lift, hret, orient. destruct (eig _); reflexivity.
  - unfold lift, hret. unfold orient. destruct (mapM _ l); reflexivity.
Qed.

Lemma shape_transpose n A : shape n n A -> shape n n (transpose A).
Proof.
  intros (HL & HR). unfold transpose. split; [rewrite map_length, seq_length; exact HL|].
  intros row IN. apply in_map_iff in IN. destruct IN as (j & <- & _). rewrite map_length. exact HL.
Qed.
Lemma ent_transpose n A i j : shape n n A -> (i < n)%nat -> (j < n)%nat -> ent (transpose A) i j = ent A j i.
Proof.
  intros (HL & HR) Hi Hj. unfold ent, transpose.
  rewrite (nth_indep _ [] (map (fun row => nth 0 row 0) A)) by (rewrite map_length, seq_length; lia).
  rewrite (map_nth (fun j => map (fun row => nth j row 0) A) (seq 0 (length A)) 0%nat i). rewrite seq_nth by lia. cbn [plus].
  rewrite (nth_indep _ 0 (nth i [] 0)) by (rewrite map_length; lia).
  rewrite (map_nth (fun row => nth i row 0) A [] j). reflexivity.
Qed.
Lemma cmul_comm a b : cmul a b = cmul b a.
Proof. unfold cmul. f_equal; ring. Qed.
Lemma oriented_pair n A lam V j : shape n n A -> right_eigenpair n (transpose A) lam V j -> left_eigenpair n A lam V j.
Proof.
  intros S (NZ & EQ). split; [exact NZ|]. intros i Hi. rewrite <- (EQ i Hi). f_equal. apply map_ext_in. intros k Hk. apply in_seq in Hk.
  rewrite (ent_transpose n A i k S Hi) by lia. apply cmul_comm.
Qed.

Lemma eig_oriented eig left n A w V : eig_contract eig -> shape n n A -> eig (orient left A) = Ok (w, V) -> eigenpairs left n A w V.
Proof.
  intros EC S E. destruct left; cbn [orient] in E.
  - destruct (EC n (transpose A) w V (shape_transpose n A S) E) as (L1 & L2 & L3 & EP). split; [exact L1|]. split; [exact L2|]. split; [exact L3|]. intros j Hj. apply (oriented_pair n A _ V j S (EP j Hj)).
  - exact (EC n A w V S E).
Qed.
