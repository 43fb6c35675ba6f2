(* PLean4.v -- the matrices of the rider lean model: operating points, constants, modes *)
From Coq Require Import Lra Lia ZArith FMapPositive.
From Verif Require Import Base MString MHeap MBicycle MVec MInertia MSets MModels MModels2 SModels SModels2 PBase PModels6 MLean MLeanProg MLean2 SLean PLean PLean2 PLean3.
Local Open Scope string_scope.
Local Open Scope R_scope.

(* ---- entries assigned a number ---- *)
Fixpoint last_assigned (m : mat) (i j : nat) (p : list stmt) (d : option expr) : option expr :=
  match p with
  | [] => d
  | SM m' i' j' e :: r => last_assigned m i j r (if (mat_eqb m m' && Nat.eqb i i' && Nat.eqb j j')%bool then Some e else d)
  | _ :: r => last_assigned m i j r d
  end.
Lemma last_number m i j a q p : forall st st' d, last_assigned m i j p d = Some (Lit a q) -> lrun st p = Ok st' ->
  (d = Some (Lit a q) -> ls_mat st m i j = IZR a / IZR (Zpos q)) -> ls_mat st' m i j = IZR a / IZR (Zpos q).
Proof.
  induction p as [|s p IH]; intros st st' d L E HD; cbn [last_assigned lrun] in *; [injection E as <-; auto|].
  destruct (lexec st s) as [st1|] eqn:EX; cbn [bind] in E; [|discriminate].
  destruct s as [n e|k e|m' i' j' e]; cbn [lexec] in EX.
  - destruct (leval st e); cbn [bind] in EX; [|discriminate]. destruct (Pos.ltb n z_size); [|discriminate]. injection EX as <-.
    eapply IH; [exact L|exact E|exact HD].
  - destruct (leval st e); cbn [bind] in EX; [|discriminate]. injection EX as <-. eapply IH; [exact L|exact E|exact HD].
  - destruct (leval st e) as [x|] eqn:EV; cbn [bind] in EX; [|discriminate].
    destruct (Nat.ltb i' (fst (mat_shape m')) && Nat.ltb j' (snd (mat_shape m')))%bool; [|discriminate]. injection EX as <-.
    eapply IH; [exact L|exact E|]. cbn [ls_mat]. intros H. destruct (mat_eqb m m' && Nat.eqb i i' && Nat.eqb j j')%bool; [|exact (HD H)].
    injection H as ->. cbn in EV. congruence.
Qed.
Lemma result_ent st m i j : (i < fst (mat_shape m))%nat -> (j < snd (mat_shape m))%nat -> ent (result st m) i j = ls_mat st m i j.
Proof.
  intros Hi Hj. unfold ent, result, rows_of.
  rewrite (nth_indep _ [] (map (ls_mat st m 0%nat) (seq 0 (snd (mat_shape m))))) by (rewrite map_length, seq_length; exact Hi).
  rewrite (map_nth (fun i => map (ls_mat st m i) (seq 0 (snd (mat_shape m))))), seq_nth by exact Hi.
  rewrite (nth_indep _ 0 (ls_mat st m i 0%nat)) by (rewrite map_length, seq_length; exact Hj). rewrite (map_nth (ls_mat st m i)), seq_nth by exact Hj. reflexivity.
Qed.
Lemma body_number pitch mem e A B : lean_body pitch mem e = Ok (A, B) ->
  (forall i j a, (i < 13)%nat -> (j < 13)%nat -> last_assigned MA i j lean_program None = Some (Lit a 1) -> ent A i j = IZR a) /\
  (forall i j a, (i < 13)%nat -> (j < 4)%nat -> last_assigned MB i j lean_program None = Some (Lit a 1) -> ent B i j = IZR a).
Proof.
  unfold lean_body, lean_equations. destruct (pitch _ _ _ _ _ _ _); cbn [bind]; [|discriminate].
  destruct (lrun _ lean_program) as [st|] eqn:E; cbn [bind]; [|discriminate]. intros H. injection H as <- <-.
  split; intros i j b Hi Hj L; pose proof (last_number _ _ _ _ _ _ _ _ _ L E ltac:(discriminate)) as HN;
    rewrite result_ent by assumption; rewrite HN; field.
Qed.
(* the rows of the coordinates whose rates are states, and the columns of the contact point *)
Definition is_number (m : mat) (i j : nat) (a : Z) : bool :=
  match last_assigned m i j lean_program None with Some (Lit b 1) => Z.eqb a b | _ => false end.
Definition rate_of (i : nat) : option nat := match i with 3 => Some 9 | 5 => Some 10 | 6 => Some 11 | 8 => Some 12 | _ => None end%nat.
Lemma numbers_checked :
  forallb (fun i => forallb (fun j => match rate_of i with
     | Some k => is_number MA i j (if Nat.eqb j k then 1 else 0)
     | None => if Nat.ltb j 2 then is_number MA i j 0 else true end) (seq 0 13)) (seq 0 13) = true /\
  forallb (fun i => forallb (fun j => is_number MB i j 0) (seq 0 4)) (seq 0 9) = true.
Proof. split; vm_cast_no_check (eq_refl true). Qed.
Lemma is_number_inv m i j a : is_number m i j a = true -> last_assigned m i j lean_program None = Some (Lit a 1).
Proof.
  unfold is_number. destruct (last_assigned m i j lean_program None) as [[| |p q| | | | | | | | |]|]; try discriminate. destruct q; try discriminate.
  intros H. apply Z.eqb_eq in H. subst. reflexivity.
Qed.
Lemma body_numbers pitch mem e A B : lean_body pitch mem e = Ok (A, B) ->
  (forall i k j, rate_of i = Some k -> (i < 13)%nat -> (j < 13)%nat -> ent A i j = if Nat.eqb j k then 1 else 0) /\
  (forall i j, (i < 13)%nat -> (j < 2)%nat -> ent A i j = 0) /\
  (forall i j, (i < 9)%nat -> (j < 4)%nat -> ent B i j = 0).
Proof.
  intros E. destruct (body_number _ _ _ _ _ E) as (HA & HB). destruct numbers_checked as (NA & NB).
  rewrite forallb_forall in NA, NB. repeat split.
  - intros i k j R Hi Hj. specialize (NA i ltac:(apply in_seq; lia)). rewrite R in NA. rewrite forallb_forall in NA. specialize (NA j ltac:(apply in_seq; lia)).
    apply is_number_inv in NA. rewrite (HA _ _ _ Hi Hj NA). destruct (Nat.eqb j k); reflexivity.
  - intros i j Hi Hj. specialize (NA i ltac:(apply in_seq; lia)). rewrite forallb_forall in NA. specialize (NA j ltac:(apply in_seq; lia)).
    destruct (rate_of i) as [k|] eqn:R.
    + apply is_number_inv in NA. rewrite (HA i j _ Hi ltac:(lia) NA). destruct (Nat.eqb_spec j k) as [->|]; [|reflexivity].
      exfalso. do 9 (destruct i as [|i]; cbn in R; try discriminate; try (injection R as <-; lia)).
    + destruct (Nat.ltb_spec j 2); [|lia]. apply is_number_inv in NA. exact (HA i j _ Hi ltac:(lia) NA).
  - intros i j Hi Hj. specialize (NB i ltac:(apply in_seq; lia)). rewrite forallb_forall in NB. specialize (NB j ltac:(apply in_seq; lia)).
    apply is_number_inv in NB. exact (HB i j _ ltac:(lia) Hj NB).
Qed.

(* ---- the matrices of two parameter sets ---- *)
Lemma nodup_lean : NoDup lean_states /\ NoDup lean_inputs.
Proof. split; repeat constructor; cbn; intuition discriminate. Qed.
Lemma lean_in_full k : In k lean_states -> In k full_states.
Proof. revert k. apply Forall_forall. repeat (constructor; [apply smem_spec; reflexivity|]). constructor. Qed.
Lemma inputs_in_full k : In k lean_inputs -> In k full_inputs.
Proof. revert k. apply Forall_forall. repeat (constructor; [apply smem_spec; reflexivity|]). constructor. Qed.
Lemma entry_in rs cs M r c x : entry rs cs M r c x -> In r rs /\ In c cs.
Proof. intros (i & j & row & A & B & _). split; eapply nth_error_In; eassumption. Qed.

Lemma restrict_times f rs cs M N rs' cs' M' N' : restriction rs cs M rs' cs' M' -> restriction rs cs N rs' cs' N' ->
  entries_times f rs cs M N -> entries_times f rs' cs' M' N'.
Proof.
  intros (S1 & H1) (S2 & H2) (_ & _ & H). split; [exact S1|]. split; [exact S2|]. intros r c x E.
  destruct (entry_in _ _ _ _ _ _ E) as (Ir & Ic). apply H2; [assumption..|]. apply H. apply H1; assumption.
Qed.
Lemma op_v pitch d e : operating_point pitch d e -> exists v, dget d "v" = Some (VNum v) /\ e "rr" <> 0 /\ e "u6" * e "rr" = - v.
Proof. intros (_ & H & _). exact H. Qed.

Lemma two_sets pitch mem1 mem2 fA s1 ov1 h1 d1 s2 ov2 h2 d2 e1 e2 : rl_fit s1 ov1 h1 d1 -> rl_fit s2 ov2 h2 d2 ->
  operating_point pitch (with_scalars d1 ov1) e1 -> operating_point pitch (with_scalars d2 ov2) e2 ->
  bodies_times fA fA (lean_body pitch mem1 e1) (lean_body pitch mem2 e2) ->
  (forall A B, rl_matrices pitch mem1 s1 ov1 h1 = Ok (Single (A, B)) ->
     exists A' B', rl_matrices pitch mem2 s2 ov2 h2 = Ok (Single (A', B')) /\
       entries_times fA lean_states lean_states A A' /\ entries_times fA lean_states lean_inputs B B') /\
  (forall er, rl_matrices pitch mem1 s1 ov1 h1 = Err er -> rl_matrices pitch mem2 s2 ov2 h2 = Err er).
Proof.
  intros (F1 & F2 & F3 & F4) (G1 & G2 & G3 & G4) O1 O2 HB. unfold rl_matrices.
  destruct (rl_named pitch (lean_body pitch mem1) s1 ov1 h1 d1 e1 (lean_body_linear _ _) F1 F2 F3 F4 O1) as (A1 & A2).
  destruct (rl_named pitch (lean_body pitch mem2) s2 ov2 h2 d2 e2 (lean_body_linear _ _) G1 G2 G3 G4 O2) as (B1 & B2).
  destruct (lean_body pitch mem1 e1) as [[M1 N1]|x1], (lean_body pitch mem2 e2) as [[M2 N2]|x2]; cbn [bodies_times] in HB; try contradiction.
  - destruct (A1 _ _ eq_refl) as (A & B & E1 & R1 & R2). destruct (B1 _ _ eq_refl) as (A' & B' & E2 & R3 & R4). rewrite E1, E2. destruct HB as (HA & HB). split.
    + intros A0 B0 X. injection X as <- <-. exists A', B'. split; [reflexivity|]. split; [exact (restrict_times _ _ _ _ _ _ _ _ _ R1 R3 HA)|exact (restrict_times _ _ _ _ _ _ _ _ _ R2 R4 HB)].
    + intros er X. discriminate.
  - rewrite (A2 _ eq_refl), (B2 _ eq_refl). split; [discriminate|]. intros er X. congruence.
Qed.

(* ---- modes ---- *)
Lemma entry_ent rs cs M i j : shape (length rs) (length cs) M -> (i < length rs)%nat -> (j < length cs)%nat -> entry rs cs M (nth i rs "") (nth j cs "") (ent M i j).
Proof.
  intros (L & H) Hi Hj. destruct (nth_error M i) as [row|] eqn:E; [|apply nth_error_None in E; unfold marr in *; lia].
  assert (LR : length row = length cs) by (apply H; eapply nth_error_In; exact E).
  exists i, j, row. repeat split; [apply nth_error_nth'; exact Hi|apply nth_error_nth'; exact Hj|exact E|].
  unfold ent. rewrite (nth_error_nth _ _ [] E). apply nth_error_nth'. lia.
Qed.
Lemma times_ent f rs cs M N : NoDup rs -> NoDup cs -> entries_times f rs cs M N -> forall i j, (i < length rs)%nat -> (j < length cs)%nat ->
  ent N i j = f (nth i rs "") (nth j cs "") * ent M i j.
Proof.
  intros N1 N2 (S1 & S2 & H) i j Hi Hj. eapply entry_fun; [exact N1|exact N2|apply entry_ent; assumption|]. apply H, entry_ent; assumption.
Qed.

Lemma csum_ext (f g : nat -> cplx) l : (forall k, In k l -> f k = g k) -> csum (map f l) = csum (map g l).
Proof. intros H. rewrite (map_ext_in f g l H). reflexivity. Qed.
Lemma csum_scale a (f : nat -> cplx) l : csum (map (fun k => cscale a (f k)) l) = cscale a (csum (map f l)).
Proof.
  unfold csum, cscale. cbn [fst snd]. rewrite !map_map. cbn [fst snd].
  f_equal; (induction l as [|x l IH]; unfold rsum in *; cbn [map fold_right]; [ring|rewrite IH; ring]).
Qed.
Lemma mode_times (f : string -> R) (t : R) rs A A' V V' lam j : NoDup rs -> t <> 0 -> (forall k, f k <> 0) ->
  entries_times (fun r c => f r / (t * f c)) rs rs A A' -> rows_times f rs V V' ->
  right_eigenpair (length rs) A lam V j -> right_eigenpair (length rs) A' (cscale (/ t) lam) V' j.
Proof.
  intros ND T F HA HV ((i0 & Hi0 & NZ) & HE). split.
  - exists i0. split; [exact Hi0|]. rewrite (HV i0 j Hi0). intros X. apply NZ. unfold cscale in X. injection X as X1 X2.
    apply Rmult_integral in X1, X2. rewrite (surjective_pairing (cent V i0 j)). f_equal; [destruct X1 as [X1|X1]|destruct X2 as [X2|X2]]; try assumption; elim (F _ X1) || elim (F _ X2).
  - intros i Hi. rewrite (csum_ext _ (fun k => cscale (f (nth i rs "") / t) (cmul (ent A i k, 0) (cent V k j)))).
    + rewrite csum_scale, (HE i Hi), (HV i j Hi). unfold cscale, cmul. cbn [fst snd]. f_equal; field; exact T.
    + intros k Hk. apply in_seq in Hk. rewrite (times_ent _ _ _ _ _ ND ND HA i k) by lia. rewrite (HV k j) by lia.
      unfold cscale, cmul. cbn [fst snd]. f_equal; field; split; try exact T; apply F.
Qed.

(* ---- operating points of related sets ---- *)
Lemma rlp_v k : In k lean_parameters -> In k rider_lean_parameters /\ k <> "v".
Proof. unfold lean_parameters. intros H. apply filter_In in H. destruct H as (H & N). split; [exact H|]. intros ->. discriminate. Qed.
Lemma op_units pitch u d d' e : positive_units u -> same_shape_same_pitch pitch -> converted u d d' -> operating_point pitch d e ->
  operating_point pitch d' (fun k => unit_of u k * e k).
Proof.
  intros (P1 & P2 & P3) HP HC (O1 & (v & O2 & O3 & O4) & O5 & O6). split; [|split; [|split]].
  - intros k Hk. destruct (rlp_v k Hk) as (Hr & _). apply HC; [exact Hr|apply O1, Hk].
  - exists (unit_of u "v" * v). split; [apply HC; [apply smem_spec; reflexivity|exact O2]|].
    unfold unit_of. cbn [dimension smem existsb String.eqb Ascii.eqb Bool.eqb orb]. cbn [powerRZ]. change (Pos.to_nat 1) with 1%nat. rewrite !pow_1. split.
    + apply Rmult_integral_contrapositive_currified; [|exact O3]. lra.
    + transitivity (u_length u * / u_time u * (e "u6" * e "rr")); [ring|rewrite O4; ring].
  - unfold unit_of. cbn [dimension smem existsb String.eqb Ascii.eqb Bool.eqb orb]. cbn [powerRZ]. change (Pos.to_nat 1) with 1%nat.
    rewrite !pow_1, !Rmult_1_l, !Rmult_1_r. rewrite HP by exact P2. exact O5.
  - intros k Hk N1 N2. rewrite (O6 k Hk N1 N2). ring.
Qed.
Lemma op_backwards pitch d d' e : backwards d d' -> operating_point pitch d e -> operating_point pitch d' (fun k => reversal k * e k).
Proof.
  intros HC (O1 & (v & O2 & O3 & O4) & O5 & O6). split; [|split; [|split]].
  - intros k Hk. destruct (rlp_v k Hk) as (Hr & _). apply HC; [exact Hr|apply O1, Hk].
  - exists (-1 * v). split; [exact (HC "v" v ltac:(apply smem_spec; reflexivity) O2)|].
    unfold reversal. cbn [reversed smem existsb String.eqb Ascii.eqb Bool.eqb orb]. split; [lra|].
    transitivity (- (e "u6" * e "rr")); [ring|rewrite O4; ring].
  - unfold reversal. cbn [reversed smem existsb String.eqb Ascii.eqb Bool.eqb orb]. rewrite !Rmult_1_l. exact O5.
  - intros k Hk N1 N2. rewrite (O6 k Hk N1 N2). ring.
Qed.
Lemma op_mirror pitch d e : operating_point pitch d e -> forall k, In k lean_names -> e k = mirror k * e k.
Proof.
  intros (_ & _ & _ & O6) k Hk. unfold mirror. destruct (smem k lateral) eqn:S; [|ring].
  apply smem_spec in S. enough (e k = 0) by lra. apply O6.
  - revert k S Hk. assert (H : Forall (fun k => In k motion_symbols) lateral) by (repeat (constructor; [apply smem_spec; reflexivity|]); constructor).
    rewrite Forall_forall in H. intros k S _. exact (H k S).
  - intros ->. cbn in S. intuition discriminate.
  - intros ->. cbn in S. intuition discriminate.
Qed.
