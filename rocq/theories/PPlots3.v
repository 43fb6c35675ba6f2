(* PPlots3.v -- eigenvalues that the greedy sorting leaves out; an unstable row shaded as
   stable *)
From Coq Require Import Lra Lia.
From Verif Require Import Base MString MHeap MBicycle MVec MInertia MSets MSets2 MModels MModels2 MEig PBase SBicycle PBicycle PHeap SModels SModels2 SSort PSort
  PModels PModels2 PModels3 PModels4 PSets3 PModels5 PModels6 PModels7 PModels8 PModels9 PModels10 PModels11 PModels12 PEig3 MPlots SPlots PPlots PPlots2.
Local Open Scope string_scope.
Local Open Scope R_scope.

(* two others are nearer to e *)
Definition beaten (next : list cplx) (k : nat) (e : cplx) : Prop := exists x a b xa xb,
  nth_error next k = Some x /\ a <> b /\ a <> k /\ b <> k /\ nth_error next a = Some xa /\ nth_error next b = Some xb /\
  edist e xa < edist e x /\ edist e xb < edist e x.
Lemma beaten_not_nearest (P : nat -> Prop) next k e : beaten next k e -> (forall a b, a <> b -> a <> k -> b <> k -> P a \/ P b) -> ~ nearest_among P e next k.
Proof.
  intros (x & a & b & xa & xb & EX & NAB & NA & NB & EA & EB & DA & DB) HP (_ & x' & EX' & H).
  assert (x' = x) as -> by congruence. destruct (HP a b NAB NA NB) as [PA|PB].
  - destruct (H a xa PA EA). lra.
  - destruct (H b xb PB EB). lra.
Qed.
Lemma greedy_beaten next cur taken ks k : greedy next cur taken ks -> (forall e, In e cur -> beaten next k e) -> ~ In k ks.
Proof.
  induction 1 as [taken|e cur taken q ks HN _ G IH|e cur taken k0 q ks HN _ HN2 G IH]; intros HB; [intros []| |].
  - intros [<-|I]; [|apply IH; [intros; apply HB; right; assumption|exact I]].
    apply (beaten_not_nearest (fun _ => True) next q e); auto. apply HB; left; reflexivity.
  - intros [<-|I]; [|apply IH; [intros; apply HB; right; assumption|exact I]].
    apply (beaten_not_nearest (fun j => j <> k0) next q e); [apply HB; left; reflexivity| |exact HN2].
    intros a b NAB _ _. destruct (Nat.eq_dec a k0); [right; congruence | left; assumption].
Qed.
(* an eigenvalue value that occurs only at a beaten index disappears *)
Lemma sorted_beaten {V} (i o : list cplx * list V) prev ks k x : greedy (fst i) prev [] ks -> rearranged ks i o ->
  nth_error (fst i) k = Some x -> (forall j, nth_error (fst i) j = Some x -> j = k) -> (forall e, In e prev -> beaten (fst i) k e) -> ~ In x (fst o).
Proof.
  intros G (R1 & _) EX U HB I. pose proof (greedy_beaten _ _ _ _ k G HB) as NI.
  apply NI. clear - R1 U I. induction R1 as [|q y ks l H R1 IH]; [destruct I|]. destruct I as [->|I]; [left; apply U, H | right; apply IH, I].
Qed.

(* ---- diagonal matrices ---- *)
Definition is_diag (A : marr) : bool :=
  forallb (fun i => forallb (fun j => (Nat.eqb i j || (if Req_EM_T (ent A i j) 0 then true else false))%bool) (seq 0 (length A))) (seq 0 (length A)).
Definition eigd (A : marr) : res eigres :=
  if is_diag A then Ok (map (fun i => (ent A i i, 0)) (seq 0 (length A)),
                        map (fun i => map (fun j => if Nat.eqb i j then (1, 0) else (0, 0)) (seq 0 (length A))) (seq 0 (length A)))
  else Err RuntimeError.
Lemma nth_map_seq {A} (f : nat -> A) n i d : (i < n)%nat -> nth i (map f (seq 0 n)) d = f i.
Proof. intros H. rewrite (nth_map f (seq 0 n) i 0%nat) by (rewrite seq_length; exact H). rewrite seq_nth by exact H. reflexivity. Qed.
Lemma csum_zero n (f : nat -> cplx) i : (forall k, (k < n)%nat -> k <> i -> f k = (0, 0)) -> (i < n)%nat -> csum (map f (seq 0 n)) = f i.
Proof.
  assert (G : forall a n, (forall k, (a <= k < a + n)%nat -> k <> i -> f k = (0, 0)) ->
     csum (map f (seq a n)) = if (a <=? i)%nat && (i <? a + n)%nat then f i else (0, 0)).
  { intros a m. revert a. induction m as [|m IH]; intros a H.
    - cbn [seq map]. replace ((a <=? i)%nat && (i <? a + 0)%nat) with false; [reflexivity|]. symmetry. apply Bool.andb_false_iff. destruct (Nat.leb_spec a i); [right; apply Nat.ltb_ge; lia | left; reflexivity].
    - cbn [seq map]. assert (IHm := IH (S a) ltac:(intros; apply H; lia)).
      unfold csum in *. cbn [map rsum fold_right fst snd] in *.
      destruct (Nat.eq_dec a i) as [->|NE].
      + replace ((S i <=? i)%nat && (i <? S i + m)%nat) with false in IHm by (symmetry; apply Bool.andb_false_iff; left; apply Nat.leb_gt; lia).
        replace ((i <=? i)%nat && (i <? i + S m)%nat) with true by (symmetry; apply Bool.andb_true_iff; split; [apply Nat.leb_le; lia | apply Nat.ltb_lt; lia]).
        unfold rsum in *. injection IHm as I1 I2. destruct (f i) as [u v]. cbn [fst snd] in *. rewrite I1, I2. f_equal; ring.
      + rewrite (H a) by lia. cbn [fst snd].
        replace ((a <=? i)%nat && (i <? a + S m)%nat) with ((S a <=? i)%nat && (i <? S a + m)%nat).
        * unfold rsum in *. destruct ((S a <=? i)%nat && (i <? S a + m)%nat); destruct (f i) as [u v]; injection IHm as I1 I2; cbn [fst snd] in *; rewrite I1, I2; f_equal; ring.
        * destruct (Nat.leb_spec a i), (Nat.leb_spec (S a) i), (Nat.ltb_spec i (a + S m)), (Nat.ltb_spec i (S a + m)); cbn [andb]; auto; lia. }
  intros H Hi. rewrite (G 0%nat n) by (intros; apply H; lia). cbn [Nat.leb andb plus]. replace (i <? n)%nat with true by (symmetry; apply Nat.ltb_lt; exact Hi). reflexivity.
Qed.
Lemma eigd_contract : eig_contract eigd.
Proof.
  intros n A w V (LA & HR) E. unfold eigd in E. destruct (is_diag A) eqn:D; [|discriminate]. injection E as <- <-. rewrite !map_length, !seq_length, LA.
  split; [reflexivity|]. split; [reflexivity|]. split.
  { intros row Hr. apply in_map_iff in Hr. destruct Hr as (i & <- & _). rewrite map_length, seq_length. reflexivity. }
  assert (DG : forall i j, (i < n)%nat -> (j < n)%nat -> i <> j -> ent A i j = 0).
  { intros i j Hi Hj NE. unfold is_diag in D. rewrite LA in D. rewrite forallb_forall in D. specialize (D i ltac:(apply in_seq; lia)). rewrite forallb_forall in D.
    specialize (D j ltac:(apply in_seq; lia)). apply Bool.orb_true_iff in D. destruct D as [D|D]; [apply Nat.eqb_eq in D; contradiction|]. destruct (Req_EM_T (ent A i j) 0); [assumption|discriminate]. }
  assert (CE : forall i j, (i < n)%nat -> (j < n)%nat ->
     cent (map (fun i => map (fun j => if Nat.eqb i j then (1, 0) else (0, 0)) (seq 0 n)) (seq 0 n)) i j = if Nat.eqb i j then (1, 0) else (0, 0)).
  { intros i j Hi Hj. unfold cent. rewrite nth_map_seq by exact Hi. rewrite nth_map_seq by exact Hj. reflexivity. }
  intros j Hj. split.
  - exists j. split; [exact Hj|]. rewrite CE by assumption. rewrite Nat.eqb_refl. intros X. injection X as X. lra.
  - intros i Hi. rewrite (csum_zero n _ j); [|intros k Hk NE; rewrite CE by assumption; replace (Nat.eqb k j) with false by (symmetry; apply Nat.eqb_neq; exact NE); unfold cmul; cbn [fst snd]; f_equal; ring|exact Hj].
    rewrite !CE by assumption. rewrite Nat.eqb_refl, nth_map_seq by exact Hj. destruct (Nat.eqb i j) eqn:EQ; unfold cmul; cbn [fst snd].
    + apply Nat.eqb_eq in EQ. subst. f_equal; ring.
    + apply Nat.eqb_neq in EQ. rewrite DG by auto. f_equal; ring.
Qed.

(* ---- an unstable row that is shaded ---- *)
Definition dg (f : nat -> R) (n : nat) : marr := map (fun i => map (fun j => if Nat.eqb i j then f i else 0) (seq 0 n)) (seq 0 n).
Lemma eigd_dg f n : exists V, eigd (dg f n) = Ok (map (fun i => (f i, 0)) (seq 0 n), V).
Proof.
  assert (L : length (dg f n) = n) by (unfold dg; rewrite map_length, seq_length; reflexivity).
  assert (EE : forall i j, (i < n)%nat -> (j < n)%nat -> ent (dg f n) i j = if Nat.eqb i j then f i else 0).
  { intros i j Hi Hj. unfold ent, dg. rewrite nth_map_seq by exact Hi. rewrite nth_map_seq by exact Hj. reflexivity. }
  unfold eigd. rewrite L. replace (is_diag (dg f n)) with true.
  - eexists. f_equal. f_equal. apply map_ext_in. intros i Hi. apply in_seq in Hi. rewrite EE by lia. rewrite Nat.eqb_refl. reflexivity.
  - symmetry. unfold is_diag. rewrite L. apply forallb_forall. intros i Hi. apply forallb_forall. intros j Hj. apply in_seq in Hi, Hj. rewrite EE by lia.
    destruct (Nat.eqb i j); [reflexivity|]. cbn [orb]. destruct (Req_EM_T 0 0); [reflexivity|congruence].
Qed.
Definition entries (u : R) (i : nat) : R := match i with 0%nat => -11 | 2%nat => -10 - 30 * u | _ => -1 end.
Definition sweep (e : string -> R) : res (marr * marr) := Ok (dg (entries (e "u6")) 13, map (fun _ => [0; 0; 0; 0]) (seq 0 13)).
Lemma sweep_linear : linear_equations sweep.
Proof.
  split.
  - intros e1 e2 HE. unfold sweep. rewrite (HE "u6"); [reflexivity|]. left; cbv; tauto.
  - intros e A B E. injection E as <- <-. split; (split; [reflexivity|]); intros row Hr; repeat (destruct Hr as [<-|Hr]; [reflexivity|]); contradiction.
Qed.
Lemma sweep_picked u : picked (dg (entries u) 13) a_idxs a_idxs = dg (entries u) 12.
Proof. reflexivity. Qed.
