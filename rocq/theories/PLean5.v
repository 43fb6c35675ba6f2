(* PLean5.v -- an evaluator over the rationals for concrete cases: when it gives values, the
   equations give the same values *)
From Coq Require Import Lra Lia ZArith QArith Qreals FMapPositive.
From Verif Require Import Base MString MHeap MBicycle MVec MInertia MSets MModels MModels2 SModels SModels2 PBase MLean MLeanProg MLean2 SLean PLean.
Local Open Scope string_scope.
Local Open Scope R_scope.

Record qstate := mkqst { qs_names : list (string * Q); qs_z : PositiveMap.t Q; qs_mat : list (mat * nat * nat * Q) }.
Definition qis0 (x : Q) : bool := Z.eqb (Qnum x) 0.
Definition obind {A B} (x : option A) (f : A -> option B) : option B := match x with Some a => f a | None => None end.
Fixpoint qpow (x : Q) (n : nat) : Q := match n with O => 1%Q | S k => Qred (x * qpow x k) end.
(* sines and cosines of zero and roots of one only *)
Fixpoint qeval (st : qstate) (e : expr) : option Q :=
  match e with
  | Nm s => dget (qs_names st) s
  | Zr n => PositiveMap.find n (qs_z st)
  | Lit p q => Some (p # q)%Q
  | Neg a => obind (qeval st a) (fun x => Some (- x)%Q)
  | Add a b => obind (qeval st a) (fun x => obind (qeval st b) (fun y => Some (Qred (x + y))))
  | Sub a b => obind (qeval st a) (fun x => obind (qeval st b) (fun y => Some (Qred (x - y))))
  | Mul a b => obind (qeval st a) (fun x => obind (qeval st b) (fun y => Some (Qred (x * y))))
  | Div a b => obind (qeval st a) (fun x => obind (qeval st b) (fun y => if qis0 y then None else Some (Qred (x / y))))
  | Sin a => obind (qeval st a) (fun x => if qis0 x then Some 0%Q else None)
  | Cos a => obind (qeval st a) (fun x => if qis0 x then Some 1%Q else None)
  | PowN a n => obind (qeval st a) (fun x => Some (qpow x n))
  | PowH a n => obind (qeval st a) (fun x => if Qeq_bool x 1 then Some 1%Q else None)
  end.
Definition qexec (st : qstate) (s : stmt) : option qstate :=
  match s with
  | SZ n e => obind (qeval st e) (fun a => if Pos.ltb n z_size then Some (mkqst (qs_names st) (PositiveMap.add n a (qs_z st)) (qs_mat st)) else None)
  | SN x e => obind (qeval st e) (fun a => Some (mkqst (dset (qs_names st) x a) (qs_z st) (qs_mat st)))
  | SM m i j e => obind (qeval st e) (fun a => if (Nat.ltb i (fst (mat_shape m)) && Nat.ltb j (snd (mat_shape m)))%bool
                                             then Some (mkqst (qs_names st) (qs_z st) ((m, i, j, a) :: qs_mat st)) else None)
  end.
Fixpoint qrun (st : qstate) (p : list stmt) : option qstate :=
  match p with [] => Some st | s :: r => obind (qexec st s) (fun st' => qrun st' r) end.
Fixpoint qfind (l : list (mat * nat * nat * Q)) (m : mat) (i j : nat) : option Q :=
  match l with
  | [] => None
  | (m', i', j', a) :: r => if (mat_eqb m m' && Nat.eqb i i' && Nat.eqb j j')%bool then Some a else qfind r m i j
  end.

Definition qrel (st : qstate) (s : lstate) : Prop :=
  (forall k a, dget (qs_names st) k = Some a -> ls_names s k = Some (Q2R a)) /\
  (forall n a, PositiveMap.find n (qs_z st) = Some a -> ls_z s n = Q2R a) /\
  (forall m i j a, qfind (qs_mat st) m i j = Some a -> ls_mat s m i j = Q2R a).
Lemma obind_some {A B} (x : option A) (f : A -> option B) y : obind x f = Some y -> exists a, x = Some a /\ f a = Some y.
Proof. destruct x; cbn; [eauto|discriminate]. Qed.
Lemma Q2R_red x : Q2R (Qred x) = Q2R x. Proof. apply Qeq_eqR, Qred_correct. Qed.
Lemma Q2R_pow x n : Q2R (qpow x n) = Q2R x ^ n.
Proof. induction n as [|n IH]; cbn [qpow pow]; [apply RMicromega.Q2R_1|rewrite Q2R_red, Q2R_mult, IH; reflexivity]. Qed.
Lemma qis0_spec x : qis0 x = true -> Q2R x = 0.
Proof. unfold qis0, Q2R. intros H. apply Z.eqb_eq in H. rewrite H. ring. Qed.
Lemma qis0_false x : qis0 x = false -> Q2R x <> 0 /\ ~ (x == 0)%Q.
Proof.
  unfold qis0, Q2R. intros H. apply Z.eqb_neq in H. split.
  - intros E. apply Rmult_integral in E. destruct E as [E|E]; [apply eq_IZR in E; tauto|]. revert E. apply Rinv_neq_0_compat. apply not_0_IZR. discriminate.
  - intros E. unfold Qeq in E. cbn in E. lia.
Qed.
Lemma some_eq {A} (x y : A) : Some x = Some y -> y = x. Proof. congruence. Qed.
Lemma qeval_sound st s : qrel st s -> forall e a, qeval st e = Some a -> leval s e = Ok (Q2R a).
Proof.
  intros (HN & HZ & _) e. induction e as [k|n|p q|e IH|e1 IH1 e2 IH2|e1 IH1 e2 IH2|e1 IH1 e2 IH2|e1 IH1 e2 IH2|e IH|e IH|e IH n|e IH n]; intros a E; cbn [qeval leval] in *.
  - rewrite (HN _ _ E). reflexivity.
  - rewrite (HZ _ _ E). reflexivity.
  - apply some_eq in E; subst a. unfold Q2R, Rdiv. reflexivity.
  - apply obind_some in E. destruct E as (x & E & F). apply some_eq in F; subst a. rewrite (IH _ E). cbn [bind]. rewrite Q2R_opp. reflexivity.
  - apply obind_some in E. destruct E as (x & E & F). apply obind_some in F. destruct F as (y & F & G). apply some_eq in G; subst a. rewrite (IH1 _ E), (IH2 _ F). cbn [bind]. rewrite Q2R_red, Q2R_plus. reflexivity.
  - apply obind_some in E. destruct E as (x & E & F). apply obind_some in F. destruct F as (y & F & G). apply some_eq in G; subst a. rewrite (IH1 _ E), (IH2 _ F). cbn [bind]. rewrite Q2R_red, Q2R_minus. reflexivity.
  - apply obind_some in E. destruct E as (x & E & F). apply obind_some in F. destruct F as (y & F & G). apply some_eq in G; subst a. rewrite (IH1 _ E), (IH2 _ F). cbn [bind]. rewrite Q2R_red, Q2R_mult. reflexivity.
  - apply obind_some in E. destruct E as (x & E & F). apply obind_some in F. destruct F as (y & F & G). destruct (qis0 y) eqn:Y; [discriminate|]. apply some_eq in G; subst a.
    apply qis0_false in Y. destruct Y as (Y1 & Y2). rewrite (IH1 _ E), (IH2 _ F). cbn [bind]. unfold rdiv. destruct (Req_EM_T (Q2R y) 0); [tauto|]. rewrite Q2R_red, Q2R_div by exact Y2. reflexivity.
  - apply obind_some in E. destruct E as (x & E & F). destruct (qis0 x) eqn:X; [|discriminate]. apply some_eq in F; subst a. rewrite (IH _ E). cbn [bind]. rewrite (qis0_spec _ X), sin_0, RMicromega.Q2R_0. reflexivity.
  - apply obind_some in E. destruct E as (x & E & F). destruct (qis0 x) eqn:X; [|discriminate]. apply some_eq in F; subst a. rewrite (IH _ E). cbn [bind]. rewrite (qis0_spec _ X), cos_0, RMicromega.Q2R_1. reflexivity.
  - apply obind_some in E. destruct E as (x & E & F). apply some_eq in F; subst a. rewrite (IH _ E). cbn [bind]. rewrite Q2R_pow. reflexivity.
  - apply obind_some in E. destruct E as (x & E & F). destruct (Qeq_bool x 1) eqn:X; [|discriminate]. apply some_eq in F; subst a. rewrite (IH _ E). cbn [bind].
    apply Qeq_bool_eq, Qeq_eqR in X. rewrite X, RMicromega.Q2R_1. unfold half_power. destruct (Rltb 1 0) eqn:L; [apply Rltb_spec in L; lra|]. rewrite pow1, sqrt_1. f_equal. ring.
Qed.
Lemma qexec_sound st s x st' : qrel st s -> qexec st x = Some st' -> exists s', lexec s x = Ok s' /\ qrel st' s'.
Proof.
  intros HS E. pose proof HS as (HN & HZ & HM). destruct x as [n e|k e|m i j e]; cbn [qexec lexec] in *; apply obind_some in E; destruct E as (a & E & F); rewrite (qeval_sound _ _ HS _ _ E); cbn [bind].
  - destruct (Pos.ltb n z_size); [|discriminate]. injection F as <-. eexists. split; [reflexivity|]. split; [exact HN|]. split; [|exact HM]. cbn. intros n' a' F.
    destruct (Pos.eqb_spec n' n) as [->|NE]; [rewrite PositiveMap.gss in F; congruence|rewrite PositiveMap.gso in F by exact NE; exact (HZ _ _ F)].
  - injection F as <-. eexists. split; [reflexivity|]. split; [|split; [exact HZ|exact HM]]. cbn. intros k' a' F. rewrite dget_dset in F. destruct (String.eqb k' k); [congruence|exact (HN _ _ F)].
  - destruct (Nat.ltb i (fst (mat_shape m)) && Nat.ltb j (snd (mat_shape m)))%bool; [|discriminate]. injection F as <-. eexists. split; [reflexivity|]. split; [exact HN|]. split; [exact HZ|].
    cbn. intros m' i' j' a' F. destruct (mat_eqb m' m && Nat.eqb i' i && Nat.eqb j' j)%bool; [congruence|exact (HM _ _ _ _ F)].
Qed.
Lemma qrun_sound p : forall st s st', qrel st s -> qrun st p = Some st' -> exists s', lrun s p = Ok s' /\ qrel st' s'.
Proof.
  induction p as [|x p IH]; intros st s st' HS E; cbn [qrun lrun] in *; [injection E as <-; eauto|].
  apply obind_some in E. destruct E as (st1 & E & F). destruct (qexec_sound _ _ _ _ HS E) as (s1 & E1 & H1). rewrite E1. cbn [bind]. exact (IH _ _ _ H1 F).
Qed.
Definition qstart (v : string -> Q) (lam : Q) : qstate := mkqst (("lam", lam) :: map (fun k => (k, v k)) lean_names) (PositiveMap.empty Q) [].
Definition qmat (st : qstate) (m : mat) : list (list (option Q)) := map (fun i => map (qfind (qs_mat st) m i) (seq 0 (snd (mat_shape m)))) (seq 0 (fst (mat_shape m))).
Lemma qequations v lam st pitch mem : qrun (qstart v lam) lean_program = Some st ->
  pitch (Q2R (v "q4")) (Q2R (v "q7")) (Q2R (v "rf")) (Q2R (v "rr")) (Q2R (v "d1")) (Q2R (v "d2")) (Q2R (v "d3")) = Ok (Q2R lam) ->
  exists A B, lean_body pitch mem (fun k => Q2R (v k)) = Ok (A, B) /\
    (forall i j a, (i < 13)%nat -> (j < 13)%nat -> qfind (qs_mat st) MA i j = Some a -> nth j (nth i A []) 0 = Q2R a) /\
    (forall i j a, (i < 13)%nat -> (j < 4)%nat -> qfind (qs_mat st) MB i j = Some a -> nth j (nth i B []) 0 = Q2R a).
Proof.
  intros E HP. unfold lean_body, lean_equations. rewrite HP. cbn [bind].
  match goal with |- context [lrun ?s lean_program] => set (S0 := s) end.
  assert (HS : qrel (qstart v lam) S0).
  { split; [|split].
    - intros k a F. unfold qstart in F. cbn [qs_names dget] in F. subst S0. cbn [ls_names unpacked].
      destruct (String.eqb k "lam"); [congruence|].
      assert (G : In k lean_names /\ a = v k).
      { clear -F. induction lean_names as [|n l IH]; cbn [map dget] in F; [discriminate|]. destruct (String.eqb_spec k n) as [->|NE]; [injection F as <-; cbn; tauto|].
        destruct (IH F). cbn. tauto. }
      destruct G as [G ->]. destruct (smem k lean_names) eqn:SM; [reflexivity|apply smem_spec in G; congruence].
    - intros n a F. cbn [qstart qs_z] in F. rewrite PositiveMap.gempty in F. discriminate.
    - intros m i j a F. discriminate. }
  destruct (qrun_sound _ _ _ _ HS E) as (s' & E' & (_ & _ & HM)). rewrite E'. cbn [bind].
  eexists _, _. split; [reflexivity|].
  assert (RE : forall m i j, (i < fst (mat_shape m))%nat -> (j < snd (mat_shape m))%nat -> nth j (nth i (result s' m) []) 0 = ls_mat s' m i j).
  { intros m i j Hi Hj. unfold result, rows_of.
    rewrite (nth_indep _ [] (map (ls_mat s' m 0%nat) (seq 0 (snd (mat_shape m))))) by (rewrite map_length, seq_length; exact Hi).
    rewrite (map_nth (fun i => map (ls_mat s' m i) (seq 0 (snd (mat_shape m))))), seq_nth by exact Hi.
    rewrite (nth_indep _ 0 (ls_mat s' m i 0%nat)) by (rewrite map_length, seq_length; exact Hj). rewrite (map_nth (ls_mat s' m i)), seq_nth by exact Hj. reflexivity. }
  split; intros i j a Hi Hj F; rewrite RE by assumption; exact (HM _ _ _ _ F).
Qed.
(* all parameters one, forward speed one, level *)
Definition ones_point (k : string) : Q := if smem k lean_parameters then 1 else if String.eqb k "u6" then (-1) else 0.
Lemma ones_ok : exists st, (qrun (qstart ones_point 0%Q) lean_program) = Some st /\ qfind (qs_mat st) MA 9 3 = Some (27 # 79)%Q /\ qfind (qs_mat st) MA 2 11 = Some (-1 # 2)%Q /\ qfind (qs_mat st) MB 11 2 = Some (40 # 79)%Q.
Proof.
  assert (H : match (qrun (qstart ones_point 0%Q) lean_program) with Some st => (match qfind (qs_mat st) MA 9 3 with Some x => Z.eqb (Qnum x) 27 && Pos.eqb (Qden x) 79 | None => false end
    && match qfind (qs_mat st) MA 2 11 with Some x => Z.eqb (Qnum x) (-1) && Pos.eqb (Qden x) 2 | None => false end
    && match qfind (qs_mat st) MB 11 2 with Some x => Z.eqb (Qnum x) 40 && Pos.eqb (Qden x) 79 | None => false end)%bool | None => false end = true) by vm_cast_no_check (eq_refl true).
  destruct (qrun (qstart ones_point 0%Q) lean_program) as [st|]; [|discriminate]. exists st. split; [reflexivity|].
  apply andb_prop in H. destruct H as [H H3]. apply andb_prop in H. destruct H as [H1 H2].
  destruct (qfind (qs_mat st) MA 9 3) as [[n1 m1]|]; [|discriminate]. destruct (qfind (qs_mat st) MA 2 11) as [[n2 m2]|]; [|discriminate]. destruct (qfind (qs_mat st) MB 11 2) as [[n3 m3]|]; [|discriminate].
  cbn [Qnum Qden] in *. apply andb_prop in H1, H2, H3. destruct H1 as [A1 B1], H2 as [A2 B2], H3 as [A3 B3].
  apply Z.eqb_eq in A1, A2, A3. apply Pos.eqb_eq in B1, B2, B3. subst. auto.
Qed.
