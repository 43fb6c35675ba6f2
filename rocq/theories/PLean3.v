(* PLean3.v -- from the checked weights to entries, matrices and modes *)
From Coq Require Import Lra Lia ZArith FMapPositive.
From Verif Require Import Base MString MHeap MBicycle MVec MInertia MSets MModels MModels2 SModels SModels2 PBase PModels6 MLean MLeanProg MLean2 SLean PLean PLean2.
Local Open Scope string_scope.
Local Open Scope R_scope.

Lemma result_shape st m : shape (fst (mat_shape m)) (snd (mat_shape m)) (result st m).
Proof.
  unfold result, rows_of. split; [rewrite map_length, seq_length; reflexivity|].
  intros row H. apply in_map_iff in H. destruct H as (i & <- & _). rewrite map_length, seq_length. reflexivity.
Qed.
Lemma body_shape pitch mem e A B : lean_body pitch mem e = Ok (A, B) -> shape 13 13 A /\ shape 13 4 B.
Proof.
  unfold lean_body, lean_equations. destruct (pitch _ _ _ _ _ _ _); cbn [bind]; [|discriminate].
  destruct (lrun _ lean_program) as [st|]; cbn [bind]; [|discriminate]. intros H. injection H as <- <-. split; [exact (result_shape st MA)|exact (result_shape st MB)].
Qed.
Lemma scaled_entries (k : nat -> nat -> R) (f : string -> string -> R) rs cs M N : NoDup rs -> NoDup cs ->
  shape (length rs) (length cs) M -> shape (length rs) (length cs) N ->
  (forall i j, (i < length rs)%nat -> (j < length cs)%nat -> f (nth i rs "") (nth j cs "") = k i j) ->
  scaled k M N -> entries_times f rs cs M N.
Proof.
  intros ND1 ND2 SM SN HK (HL & HS). split; [exact SM|]. split; [exact SN|]. intros r c x (i & j & row & E1 & E2 & E3 & E4).
  destruct SN as (LN & RN). destruct (HS i j) as (HR & HX).
  assert (LI : (i < length rs)%nat) by (apply nth_error_Some; congruence). assert (LJ : (j < length cs)%nat) by (apply nth_error_Some; congruence).
  destruct (nth_error N i) as [row'|] eqn:E5; [|apply nth_error_None in E5; lia].
  assert (LR : length row' = length cs) by (apply RN; eapply nth_error_In; exact E5).
  destruct (nth_error row' j) as [y|] eqn:E6; [|apply nth_error_None in E6; lia].
  exists i, j, row'. repeat split; try assumption. rewrite E6. f_equal.
  rewrite (nth_error_nth _ _ [] E5), (nth_error_nth _ _ [] E3) in HX. rewrite (nth_error_nth _ _ 0 E6), (nth_error_nth _ _ 0 E4) in HX. rewrite HX.
  rewrite <- HK by assumption. rewrite (nth_error_nth _ _ "" E1), (nth_error_nth _ _ "" E2). reflexivity.
Qed.

Lemma nodup_full : NoDup full_states /\ NoDup full_inputs.
Proof. split; repeat constructor; cbn; intuition discriminate. Qed.
Lemma symbols_names k : In k lean_names -> In k equation_symbols.
Proof. revert k. apply Forall_forall. repeat (constructor; [apply smem_spec; reflexivity|]). constructor. Qed.

(* both results fail, or both are there with the factors *)
Definition bodies_times (fA fB : string -> string -> R) (x y : res (marr * marr)) : Prop :=
  match x, y with
  | Ok (A, B), Ok (A', B') => entries_times fA full_states full_states A A' /\ entries_times fB full_states full_inputs B B'
  | Err e, Err e' => e = e'
  | _, _ => False
  end.

Lemma bodies_scaled W (act : W -> R) wA' wB' wC' wD' fA fB pitch1 pitch2 mem1 mem2 e1 e2 :
  equations_scaled W act wA' wB' wC' wD' (lean_equations pitch1 mem1 lean_program e1) (lean_equations pitch2 mem2 lean_program e2) ->
  (forall i j, (i < 13)%nat -> (j < 13)%nat -> fA (row_name i) (row_name j) = act (wA' i j)) ->
  (forall i j, (i < 13)%nat -> (j < 4)%nat -> fB (row_name i) (in_name j) = act (wB' i j)) ->
  bodies_times fA fB (lean_body pitch1 mem1 e1) (lean_body pitch2 mem2 e2).
Proof.
  intros H HA HB.
  pose proof (body_shape pitch1 mem1 e1) as S1. pose proof (body_shape pitch2 mem2 e2) as S2. unfold lean_body in *.
  destruct (lean_equations pitch1 mem1 lean_program e1) as [[[[A B] C] D]|], (lean_equations pitch2 mem2 lean_program e2) as [[[[A' B'] C'] D']|];
    cbn [bind equations_scaled bodies_times] in *; try contradiction; [|exact H].
  destruct H as (H1 & H2 & _). destruct (S1 _ _ eq_refl) as (SA & SB). destruct (S2 _ _ eq_refl) as (SA' & SB'). destruct nodup_full as (N1 & N2).
  split; [apply (scaled_entries (fun i j => act (wA' i j))); assumption|apply (scaled_entries (fun i j => act (wB' i j))); assumption].
Qed.

(* ---- units ---- *)
Lemma units_body u pitch mem1 mem2 e1 e2 : positive_units u ->
  (forall k, In k lean_names -> e2 k = unit_of u k * e1 k) -> same_shape_same_pitch pitch ->
  bodies_times (fun r c => unit_of u r / (u_time u * unit_of u c)) (fun r c => unit_of u r / (u_time u * unit_of u c)) (lean_body pitch mem1 e1) (lean_body pitch mem2 e2).
Proof.
  intros PU HE HP. pose proof PU as (P1 & P2 & P3).
  assert (K : forall r c, unit_of u r / (u_time u * unit_of u c) = act3 u (w3add (w3add (dimension r) (w3opp (0, 0, 1)%Z)) (w3opp (dimension c)))).
  { intros r c. rewrite !act3_add, !act3_opp by exact PU. change (unit_of u r) with (act3 u (dimension r)). change (unit_of u c) with (act3 u (dimension c)).
    pose proof (act3_pos u PU (dimension c)). cbn [act3]. rewrite powerRZ_1. cbn [powerRZ]. field. lra. }
  eapply (bodies_scaled W3 (act3 u)).
  - eapply (weights_sound W3 w3add w3opp w30 w3eqb (fun a => w3eqb a w30) w3half (act3 u)); [apply act3_0|apply act3_add, PU|apply act3_opp, PU| |..].
    + intros a. pose proof (act3_pos u PU a). lra.
    + intros a b H. apply w3eqb_ok in H. congruence.
    + intros a x. apply act3_trig_sin.
    + intros a x. apply act3_trig_cos.
    + intros a b x. apply act3_half, PU.
    + exact units_checked.
    + intros k Hk. cbn [rel]. rewrite (HE k Hk). reflexivity.
    + rewrite !HE by (apply smem_spec; reflexivity). unfold unit_of. cbn [dimension smem existsb String.eqb Ascii.eqb Bool.eqb orb]. cbn [powerRZ Pos.to_nat Pos.iter_op Nat.add pow].
      change (Pos.to_nat 1) with 1%nat. rewrite !pow_1, !Rmult_1_l, !Rmult_1_r. rewrite HP by exact P2. unfold rel_res. destruct (pitch _ _ _ _ _ _ _); [cbn; ring|reflexivity].
  - intros i j Hi Hj. apply K.
  - intros i j Hi Hj. apply K.
Qed.

(* ---- signs ---- *)
Lemma signs_body l time (f : R) pitch mem1 mem2 e1 e2 : sign_weights l time = true -> f = act2 time ->
  (forall k, In k lean_names -> e2 k = act2 (smem k l) * e1 k) ->
  pitch (e2 "q4") (e2 "q7") (e2 "rf") (e2 "rr") (e2 "d1") (e2 "d2") (e2 "d3") = pitch (e1 "q4") (e1 "q7") (e1 "rf") (e1 "rr") (e1 "d1") (e1 "d2") (e1 "d3") ->
  bodies_times (fun r c => f * act2 (smem r l) * act2 (smem c l)) (fun r c => f * act2 (smem r l) * act2 (smem c l)) (lean_body pitch mem1 e1) (lean_body pitch mem2 e2).
Proof.
  intros OK -> HE HP.
  assert (K : forall r c, act2 time * act2 (smem r l) * act2 (smem c l) = act2 (xorb (xorb (smem r l) time) (smem c l))) by (intros; rewrite !act2_add; ring).
  eapply (bodies_scaled bool act2).
  - eapply (weights_sound bool xorb (fun b => b) false Bool.eqb (fun _ => true) w2half act2); [apply act2_0|apply act2_add|apply act2_opp|apply act2_nz|apply act2_eqb|apply act2_sin|apply act2_cos|apply act2_half| |..].
    + exact OK.
    + intros k Hk. cbn [rel]. exact (HE k Hk).
    + rewrite HP. unfold rel_res. clear HP. destruct (pitch (e1 "q4") (e1 "q7") (e1 "rf") (e1 "rr") (e1 "d1") (e1 "d2") (e1 "d3")); [cbn; ring|reflexivity].
  - intros i j Hi Hj. apply K.
  - intros i j Hi Hj. apply K.
Qed.

(* ---- nothing is read before it is assigned ---- *)
Lemma scaled_one k M N : (forall i j, k i j = 1) -> scaled k M N -> M = N.
Proof.
  intros K (L & H). apply (nth_ext M N [] [] L). intros i Hi. apply (nth_ext (nth i M []) (nth i N []) 0 0).
  - apply (H i 0%nat).
  - intros j Hj. destruct (H i j) as (_ & E). rewrite E, K. ring.
Qed.
Lemma body_ext pitch mem1 mem2 e1 e2 : (forall k, In k lean_names -> e1 k = e2 k) ->
  lean_equations pitch mem1 lean_program e1 = lean_equations pitch mem2 lean_program e2.
Proof.
  intros HE. pose proof plain_checked as OK. unfold sign_weights in OK.
  pose proof (weights_sound bool xorb (fun b => b) false Bool.eqb (fun _ => true) w2half act2 act2_0 act2_add act2_opp act2_nz act2_eqb act2_sin act2_cos act2_half
    _ _ _ _ _ _ _ OK pitch pitch mem1 mem2 e1 e2) as H.
  specialize (H ltac:(intros k Hk; cbn [rel is_odd smem existsb act2]; rewrite (HE k Hk); ring)).
  specialize (H ltac:(rewrite !HE by (apply smem_spec; reflexivity); unfold rel_res; destruct (pitch (e2 "q4") (e2 "q7") (e2 "rf") (e2 "rr") (e2 "d1") (e2 "d2") (e2 "d3")); [cbn; ring|reflexivity])).
  destruct (lean_equations pitch mem1 lean_program e1) as [[[[A B] C] D]|], (lean_equations pitch mem2 lean_program e2) as [[[[A' B'] C'] D']|];
    cbn [equations_scaled] in H; try contradiction; [|congruence].
  destruct H as (H1 & H2 & H3 & H4).
  apply scaled_one in H1, H2, H3, H4; try (intros i j; unfold wA, wB, wC, wD, w_out, rate, is_odd; try (destruct (Nat.ltb i 9)); reflexivity). congruence.
Qed.
Lemma lean_body_linear pitch mem : linear_equations (lean_body pitch mem).
Proof.
  split.
  - intros e1 e2 HE. unfold lean_body. rewrite (body_ext pitch mem mem e1 e2); [reflexivity|].
    intros k Hk. apply HE. apply symbols_names in Hk. unfold equation_symbols in Hk. apply in_app_or in Hk. exact Hk.
  - intros e A B H. exact (body_shape _ _ _ _ _ H).
Qed.
Lemma entry_fun rs cs M r c x y : NoDup rs -> NoDup cs -> entry rs cs M r c x -> entry rs cs M r c y -> x = y.
Proof.
  intros N1 N2 (i & j & row & A & B & C & D) (i' & j' & row' & A' & B' & C' & D').
  assert (i = i') by (rewrite NoDup_nth_error in N1; apply N1; [apply nth_error_Some; congruence|congruence]).
  assert (j = j') by (rewrite NoDup_nth_error in N2; apply N2; [apply nth_error_Some; congruence|congruence]). subst. congruence.
Qed.
