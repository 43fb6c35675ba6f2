(* PLean.v -- a checker that follows a weight through a straight line program, and its
   soundness: two runs whose inputs differ by the factors of the weights end in results
   that differ by the factors of the weights. *)
From Coq Require Import Lra Lia ZArith FMapPositive.
From Verif Require Import Base MString MBicycle MVec MInertia MModels2 PBase MLean.
Local Open Scope string_scope.
Local Open Scope R_scope.

(* the weight of a quantity that is zero in both runs, or a weight *)
Inductive aval (W : Type) := AZ | AW (w : W).
Arguments AZ {W}. Arguments AW {W} w.

Section Weights.
  Variable W : Type.
  Variables (wadd : W -> W -> W) (wopp : W -> W) (w0 : W) (weqb : W -> W -> bool).
  Variable trig : W -> bool.            (* a factor that may stand in a sine or cosine *)
  Variable half : W -> option W.        (* the weight of the root *)

  Fixpoint wmul (n : nat) (w : W) : W := match n with O => w0 | S k => wadd w (wmul k w) end.
  Record astate := mkast { as_names : list (string * aval W); as_z : PositiveMap.t (aval W); as_mat : list (mat * nat * nat * aval W) }.

  Fixpoint aeval (st : astate) (e : expr) : option (aval W) :=
    match e with
    | Nm s => dget (as_names st) s
    | Zr n => PositiveMap.find n (as_z st)
    | Lit p q => Some (if Z.eqb p 0 then AZ else AW w0)
    | Neg a => aeval st a
    | Add a b | Sub a b =>
        match aeval st a, aeval st b with
        | Some AZ, Some y => Some y
        | Some x, Some AZ => Some x
        | Some (AW x), Some (AW y) => if weqb x y then Some (AW x) else None
        | _, _ => None
        end
    | Mul a b =>
        match aeval st a, aeval st b with
        | Some (AW x), Some (AW y) => Some (AW (wadd x y))
        | Some _, Some _ => Some AZ
        | _, _ => None
        end
    | Div a b =>
        match aeval st a, aeval st b with
        | Some (AW x), Some (AW y) => Some (AW (wadd x (wopp y)))
        | Some _, Some _ => Some AZ
        | _, _ => None
        end
    | Sin a => match aeval st a with
               | Some AZ => Some AZ
               | Some (AW w) => if trig w then Some (AW w) else None
               | None => None end
    | Cos a => match aeval st a with
               | Some AZ => Some (AW w0)
               | Some (AW w) => if trig w then Some (AW w0) else None
               | None => None end
    | PowN a n => match aeval st a with
                  | Some AZ => Some (match n with O => AW w0 | _ => AZ end)
                  | Some (AW w) => Some (AW (wmul n w))
                  | None => None end
    | PowH a n => match aeval st a with
                  | Some AZ => Some AZ
                  | Some (AW w) => match half w with Some v => Some (AW (wadd (wmul n w) v)) | None => None end
                  | None => None end
    end.
  Definition aexec (st : astate) (s : stmt) : option astate :=
    match s with
    | SZ n e => match aeval st e with
                | Some a => if Pos.ltb n z_size then Some (mkast (as_names st) (PositiveMap.add n a (as_z st)) (as_mat st)) else None
                | None => None end
    | SN x e => match aeval st e with Some a => Some (mkast (dset (as_names st) x a) (as_z st) (as_mat st)) | None => None end
    | SM m i j e => match aeval st e with
                    | Some a => if (Nat.ltb i (fst (mat_shape m)) && Nat.ltb j (snd (mat_shape m)))%bool
                                then Some (mkast (as_names st) (as_z st) ((m, i, j, a) :: as_mat st)) else None
                    | None => None end
    end.
  Fixpoint arun (st : astate) (p : list stmt) : option astate :=
    match p with [] => Some st | s :: r => match aexec st s with Some st' => arun st' r | None => None end end.

  (* the weight found for an entry of a matrix *)
  Fixpoint mfind (l : list (mat * nat * nat * aval W)) (m : mat) (i j : nat) : option (aval W) :=
    match l with
    | [] => None
    | (m', i', j', a) :: r => if (mat_eqb m m' && Nat.eqb i i' && Nat.eqb j j')%bool then Some a else mfind r m i j
    end.

  (* every entry that is expected has been assigned and has the weight that is expected of it *)
  Definition expected (l : list (mat * nat * nat * aval W)) (m : mat) (w : nat -> nat -> W) : bool :=
    forallb (fun i => forallb (fun j => match mfind l m i j with
                                        | Some AZ => true
                                        | Some (AW x) => weqb x (w i j)
                                        | None => false end) (seq 0 (snd (mat_shape m)))) (seq 0 (fst (mat_shape m))).

  Section Soundness.
    Variable act : W -> R.
    Hypothesis act0 : act w0 = 1.
    Hypothesis act_add : forall a b, act (wadd a b) = act a * act b.
    Hypothesis act_opp : forall a, act (wopp a) = / act a.
    Hypothesis act_nz : forall a, act a <> 0.
    Hypothesis weqb_ok : forall a b, weqb a b = true -> act a = act b.
    Hypothesis trig_sin : forall a x, trig a = true -> sin (act a * x) = act a * sin x.
    Hypothesis trig_cos : forall a x, trig a = true -> cos (act a * x) = cos x.
    Hypothesis half_ok : forall a b x, half a = Some b -> (act a * x < 0 <-> x < 0) /\ (0 <= x -> sqrt (act a * x) = act b * sqrt x).

    Definition rel (a : aval W) (x y : R) : Prop := match a with AZ => x = 0 /\ y = 0 | AW w => y = act w * x end.
    Definition rel_res (a : aval W) (x y : res R) : Prop :=
      match x, y with Ok x, Ok y => rel a x y | Err e, Err e' => e = e' | _, _ => False end.
    Definition rel_state (st : astate) (s1 s2 : lstate) : Prop :=
      (forall k a, dget (as_names st) k = Some a -> exists x y, ls_names s1 k = Some x /\ ls_names s2 k = Some y /\ rel a x y) /\
      (forall n a, PositiveMap.find n (as_z st) = Some a -> rel a (ls_z s1 n) (ls_z s2 n)) /\
      (forall m i j a, mfind (as_mat st) m i j = Some a -> rel a (ls_mat s1 m i j) (ls_mat s2 m i j)).

    Lemma act_mul n w : act (wmul n w) = act w ^ n.
    Proof. induction n as [|n IH]; cbn [wmul pow]; [exact act0|rewrite act_add, IH; reflexivity]. Qed.

    Lemma aeval_sound st s1 s2 : rel_state st s1 s2 -> forall e a, aeval st e = Some a -> rel_res a (leval s1 e) (leval s2 e).
    Proof.
      intros (HN & HZ & _) e.
      induction e as [s|n|p q|e IH|e1 IH1 e2 IH2|e1 IH1 e2 IH2|e1 IH1 e2 IH2|e1 IH1 e2 IH2|e IH|e IH|e IH n|e IH n]; intros a E; cbn [aeval leval] in *.
      - destruct (HN _ _ E) as (x & y & -> & -> & H). exact H.
      - exact (HZ _ _ E).
      - injection E as <-. destruct (Z.eqb_spec p 0) as [->|NZ]; cbn; [split; unfold Rdiv; ring|rewrite act0; ring].
      - specialize (IH _ E). destruct (leval s1 e), (leval s2 e); cbn [bind rel_res] in *; try contradiction; try exact IH.
        destruct a; cbn in *; [lra|rewrite IH; ring].
      - destruct (aeval st e1) as [[|w1]|]; try discriminate; (destruct (aeval st e2) as [[|w2]|]; try discriminate);
          try (injection E as <-); try (destruct (weqb w1 w2) eqn:Q; [apply weqb_ok in Q; injection E as <-|discriminate]);
          specialize (IH1 _ eq_refl); specialize (IH2 _ eq_refl);
          destruct (leval s1 e1), (leval s2 e1); cbn [bind rel_res] in *; try contradiction; try exact IH1;
          destruct (leval s1 e2), (leval s2 e2); cbn [bind rel_res] in *; try contradiction; try exact IH2; cbn in *; try lra;
          match type of IH1 with _ /\ _ => destruct IH1 as [-> ->] | _ => rewrite IH1 end; match type of IH2 with _ /\ _ => destruct IH2 as [-> ->] | _ => rewrite IH2 end; try rewrite <- Q; solve [ring|split; ring].
      - destruct (aeval st e1) as [[|w1]|]; try discriminate; (destruct (aeval st e2) as [[|w2]|]; try discriminate);
          try (injection E as <-); try (destruct (weqb w1 w2) eqn:Q; [apply weqb_ok in Q; injection E as <-|discriminate]);
          specialize (IH1 _ eq_refl); specialize (IH2 _ eq_refl);
          destruct (leval s1 e1), (leval s2 e1); cbn [bind rel_res] in *; try contradiction; try exact IH1;
          destruct (leval s1 e2), (leval s2 e2); cbn [bind rel_res] in *; try contradiction; try exact IH2; cbn in *; try lra;
          match type of IH1 with _ /\ _ => destruct IH1 as [-> ->] | _ => rewrite IH1 end; match type of IH2 with _ /\ _ => destruct IH2 as [-> ->] | _ => rewrite IH2 end; try rewrite <- Q; solve [ring|split; ring].
      - destruct (aeval st e1) as [[|w1]|]; try discriminate; (destruct (aeval st e2) as [[|w2]|]; try discriminate);
          injection E as <-; specialize (IH1 _ eq_refl); specialize (IH2 _ eq_refl);
          destruct (leval s1 e1), (leval s2 e1); cbn [bind rel_res] in *; try contradiction; try exact IH1;
          destruct (leval s1 e2), (leval s2 e2); cbn [bind rel_res] in *; try contradiction; try exact IH2; cbn in *;
          match type of IH1 with _ /\ _ => destruct IH1 as [-> ->] | _ => rewrite IH1 end; match type of IH2 with _ /\ _ => destruct IH2 as [-> ->] | _ => rewrite IH2 end; try rewrite act_add; solve [ring|split; ring].
      - assert (DZ : forall w x y, y = act w * x -> (y = 0 <-> x = 0)).
        { intros w x y ->. split; [intros H; apply Rmult_integral in H; destruct H as [H|H]; [elim (act_nz w H)|exact H]|intros ->; ring]. }
        destruct (aeval st e1) as [[|w1]|]; try discriminate; (destruct (aeval st e2) as [[|w2]|]; try discriminate);
          injection E as <-; specialize (IH1 _ eq_refl); specialize (IH2 _ eq_refl);
          destruct (leval s1 e1), (leval s2 e1); cbn [bind rel_res] in *; try contradiction; try exact IH1;
          destruct (leval s1 e2) as [b1|], (leval s2 e2) as [b2|]; cbn [bind rel_res] in *; try contradiction; try exact IH2;
          unfold rdiv; cbn in IH1, IH2.
        + destruct IH1 as [-> ->], IH2 as [-> ->]. destruct (Req_EM_T 0 0); [reflexivity|congruence].
        + destruct IH1 as [-> ->]. pose proof (DZ _ _ _ IH2) as D. destruct (Req_EM_T b1 0), (Req_EM_T b2 0); try tauto; cbn; try reflexivity. split; unfold Rdiv; ring.
        + destruct IH2 as [-> ->]. destruct (Req_EM_T 0 0); [reflexivity|congruence].
        + pose proof (DZ _ _ _ IH2) as D. destruct (Req_EM_T b1 0), (Req_EM_T b2 0); try tauto; cbn; try reflexivity.
          rewrite IH1, IH2, act_add, act_opp. field. split; [assumption|apply act_nz].
      - destruct (aeval st e) as [[|w]|]; try discriminate.
        + injection E as <-. specialize (IH _ eq_refl). destruct (leval s1 e), (leval s2 e); cbn [bind rel_res] in *; try contradiction; try exact IH.
          cbn in *. destruct IH as [-> ->]. rewrite sin_0. tauto.
        + destruct (trig w) eqn:TW; [|discriminate]. injection E as <-. specialize (IH _ eq_refl).
          destruct (leval s1 e), (leval s2 e); cbn [bind rel_res] in *; try contradiction; try exact IH. cbn in *. rewrite IH. apply trig_sin, TW.
      - destruct (aeval st e) as [[|w]|]; try discriminate.
        + injection E as <-. specialize (IH _ eq_refl). destruct (leval s1 e), (leval s2 e); cbn [bind rel_res] in *; try contradiction; try exact IH.
          cbn in *. destruct IH as [-> ->]. rewrite act0. ring.
        + destruct (trig w) eqn:TW; [|discriminate]. injection E as <-. specialize (IH _ eq_refl).
          destruct (leval s1 e), (leval s2 e); cbn [bind rel_res] in *; try contradiction; try exact IH. cbn in *. rewrite IH, trig_cos, act0 by exact TW. ring.
      - destruct (aeval st e) as [[|w]|]; try discriminate.
        + injection E as <-. specialize (IH _ eq_refl). destruct (leval s1 e), (leval s2 e); cbn [bind rel_res] in *; try contradiction; try exact IH.
          cbn in IH. destruct IH as [-> ->]. destruct n; cbn; [rewrite act0; ring|split; ring].
        + injection E as <-. specialize (IH _ eq_refl). destruct (leval s1 e), (leval s2 e); cbn [bind rel_res] in *; try contradiction; try exact IH.
          cbn in *. rewrite IH, act_mul. apply Rpow_mult_distr.
      - destruct (aeval st e) as [[|w]|]; try discriminate.
        + injection E as <-. specialize (IH _ eq_refl). destruct (leval s1 e), (leval s2 e); cbn [bind rel_res] in *; try contradiction; try exact IH.
          cbn in IH. destruct IH as [-> ->]. unfold half_power. destruct (Rltb 0 0) eqn:L; [apply Rltb_spec in L; lra|]. cbn. rewrite sqrt_0. split; ring.
        + destruct (half w) as [v|] eqn:HW; [|discriminate]. injection E as <-. specialize (IH _ eq_refl).
          destruct (leval s1 e) as [x|], (leval s2 e) as [y|]; cbn [bind rel_res] in *; try contradiction; try exact IH.
          cbn in IH. subst y. destruct (half_ok _ _ x HW) as (H1 & H2). unfold half_power.
          destruct (Rltb x 0) eqn:L1, (Rltb (act w * x) 0) eqn:L2; try reflexivity.
          * apply Rltb_spec in L1. apply Rltb_false in L2. apply H1 in L1. lra.
          * apply Rltb_spec in L2. apply Rltb_false in L1. apply H1 in L2. lra.
          * apply Rltb_false in L1. cbn. rewrite H2 by lra. rewrite act_add, act_mul, Rpow_mult_distr. ring.
    Qed.

    Definition rel_out (st : astate) (x y : res lstate) : Prop :=
      match x, y with Ok x, Ok y => rel_state st x y | Err e, Err e' => e = e' | _, _ => False end.
    Lemma aexec_sound st s1 s2 s st' : rel_state st s1 s2 -> aexec st s = Some st' -> rel_out st' (lexec s1 s) (lexec s2 s).
    Proof.
      intros HS E. pose proof HS as (HN & HZ & HM). destruct s as [n e|k e|m i j e]; cbn [aexec lexec] in *;
        (destruct (aeval st e) as [a|] eqn:EA; [|discriminate]; pose proof (aeval_sound _ _ _ HS _ _ EA) as HE;
         destruct (leval s1 e) as [x|], (leval s2 e) as [y|]; cbn [bind rel_res] in *; try contradiction; try exact HE).
      - destruct (Pos.ltb n z_size); [|discriminate]. injection E as <-. split; [exact HN|]. split; [|exact HM].
        cbn [ls_z as_z]. intros n' a' F. destruct (Pos.eqb_spec n' n) as [->|NE].
        + rewrite PositiveMap.gss in F. injection F as <-. exact HE.
        + rewrite PositiveMap.gso in F by exact NE. exact (HZ _ _ F).
      - injection E as <-. split; [|split; [exact HZ|exact HM]]. cbn [ls_names as_names]. intros k' a' F. rewrite dget_dset in F.
        destruct (String.eqb k' k); [injection F as <-; eauto|exact (HN _ _ F)].
      - destruct (Nat.ltb i (fst (mat_shape m)) && Nat.ltb j (snd (mat_shape m)))%bool; [|discriminate]. injection E as <-. split; [exact HN|]. split; [exact HZ|].
        cbn [ls_mat as_mat mfind]. intros m' i' j' a' F. destruct (mat_eqb m' m && Nat.eqb i' i && Nat.eqb j' j)%bool; [injection F as <-; exact HE|exact (HM _ _ _ _ F)].
    Qed.
    Lemma arun_sound p : forall st s1 s2 st', rel_state st s1 s2 -> arun st p = Some st' -> rel_out st' (lrun s1 p) (lrun s2 p).
    Proof.
      induction p as [|s p IH]; intros st s1 s2 st' HS E; cbn [arun lrun] in *; [injection E as <-; exact HS|].
      destruct (aexec st s) as [st1|] eqn:EX; [|discriminate]. pose proof (aexec_sound _ _ _ _ _ HS EX) as HX.
      destruct (lexec s1 s), (lexec s2 s); cbn [bind rel_out] in *; try contradiction; [exact (IH _ _ _ _ HX E)|exact HX].
    Qed.

    (* the whole of the equations *)
    Definition astart (w : string -> aval W) (wlam : W) : astate :=
      mkast (("lam", AW wlam) :: map (fun k => (k, w k)) lean_names) (PositiveMap.empty (aval W)) [].
    Definition scaled (f : nat -> nat -> R) (M N : marr) : Prop :=
      length M = length N /\ forall i j, length (nth i M []) = length (nth i N []) /\ nth j (nth i N []) 0 = f i j * nth j (nth i M []) 0.
    Lemma expected_scaled st s1 s2 m w : rel_state st s1 s2 -> expected (as_mat st) m w = true ->
      scaled (fun i j => act (w i j)) (result s1 m) (result s2 m).
    Proof.
      intros (_ & _ & HM) E. unfold expected in E. rewrite forallb_forall in E. unfold result, rows_of.
      set (n1 := fst (mat_shape m)) in *. set (n2 := snd (mat_shape m)) in *. clearbody n1 n2.
      split; [rewrite !map_length; reflexivity|]. intros i j.
      assert (RW : forall f : nat -> nat -> R, nth i (map (fun i => map (f i) (seq 0 n2)) (seq 0 n1)) [] = if Nat.ltb i n1 then map (f i) (seq 0 n2) else []).
      { intros f. destruct (Nat.ltb_spec i n1) as [L|L].
        - rewrite (nth_indep _ [] (map (f 0%nat) (seq 0 n2))) by (rewrite map_length, seq_length; exact L).
          rewrite (map_nth (fun i => map (f i) (seq 0 n2))), seq_nth by exact L. reflexivity.
        - apply nth_overflow. rewrite map_length, seq_length. exact L. }
      rewrite !RW. destruct (Nat.ltb_spec i n1) as [L|L].
      - split; [rewrite !map_length; reflexivity|].
        destruct (Nat.lt_ge_cases j n2) as [L2|L2].
        + assert (EE : forall f : nat -> R, nth j (map f (seq 0 n2)) 0 = f j).
          { intros f. rewrite (nth_indep _ 0 (f 0%nat)) by (rewrite map_length, seq_length; exact L2). rewrite (map_nth f), seq_nth by exact L2. reflexivity. }
          rewrite !EE. specialize (E i). rewrite forallb_forall in E. specialize (E ltac:(apply in_seq; lia) j ltac:(apply in_seq; lia)).
          destruct (mfind (as_mat st) m i j) as [a|] eqn:F; [|discriminate]. pose proof (HM _ _ _ _ F) as H. destruct a as [|x]; cbn in H.
          * destruct H as [-> ->]. ring.
          * rewrite H, (weqb_ok _ _ E). reflexivity.
        + rewrite !nth_overflow by (rewrite map_length, seq_length; exact L2). ring.
      - cbn. destruct j; split; try reflexivity; ring.
    Qed.

    (* the fields of the four results *)
    Definition equations_scaled (wA wB wC wD : nat -> nat -> W) (x y : res (marr * marr * marr * marr)) : Prop :=
      match x, y with
      | Ok (A, B, C, D), Ok (A', B', C', D') =>
          scaled (fun i j => act (wA i j)) A A' /\ scaled (fun i j => act (wB i j)) B B' /\
          scaled (fun i j => act (wC i j)) C C' /\ scaled (fun i j => act (wD i j)) D D'
      | Err e, Err e' => e = e'
      | _, _ => False
      end.
    Definition weights_ok (p : list stmt) (w : string -> aval W) (wlam : W) (wA wB wC wD : nat -> nat -> W) : bool :=
      match arun (astart w wlam) p with
      | Some st => (expected (as_mat st) MA wA && expected (as_mat st) MB wB && expected (as_mat st) MC wC && expected (as_mat st) MD wD)%bool
      | None => false
      end.
    Lemma weights_sound p w wlam wA wB wC wD : weights_ok p w wlam wA wB wC wD = true ->
      forall pitch1 pitch2 mem1 mem2 e1 e2, (forall k, In k lean_names -> rel (w k) (e1 k) (e2 k)) ->
      rel_res (AW wlam) (pitch1 (e1 "q4") (e1 "q7") (e1 "rf") (e1 "rr") (e1 "d1") (e1 "d2") (e1 "d3"))
                        (pitch2 (e2 "q4") (e2 "q7") (e2 "rf") (e2 "rr") (e2 "d1") (e2 "d2") (e2 "d3")) ->
      equations_scaled wA wB wC wD (lean_equations pitch1 mem1 p e1) (lean_equations pitch2 mem2 p e2).
    Proof.
      intros OK pitch1 pitch2 mem1 mem2 e1 e2 HE HP. unfold weights_ok in OK. destruct (arun (astart w wlam) p) as [st|] eqn:E; [|discriminate].
      apply andb_prop in OK. destruct OK as [OK D]. apply andb_prop in OK. destruct OK as [OK C]. apply andb_prop in OK. destruct OK as [A B].
      unfold lean_equations.
      destruct (pitch1 (e1 "q4") (e1 "q7") (e1 "rf") (e1 "rr") (e1 "d1") (e1 "d2") (e1 "d3")) as [l1|x1],
               (pitch2 (e2 "q4") (e2 "q7") (e2 "rf") (e2 "rr") (e2 "d1") (e2 "d2") (e2 "d3")) as [l2|x2]; cbn [bind rel_res] in *; try contradiction; [|exact HP].
      match goal with |- context [lrun ?s1 p] => match goal with |- context [bind (lrun s1 p) _] => set (S1 := s1) end end.
      match goal with |- equations_scaled _ _ _ _ _ (bind (lrun ?s2 p) _) => set (S2 := s2) end.
      assert (R0 : rel_state (astart w wlam) S1 S2).
      { split; [|split].
        - intros k a F. unfold astart in F. cbn [as_names dget] in F. subst S1 S2. cbn [ls_names unpacked].
          destruct (String.eqb k "lam"); [injection F as <-; do 2 eexists; repeat split; exact HP|].
          assert (G : In k lean_names /\ a = w k).
          { clear -F. induction lean_names as [|n l IH]; cbn [map dget] in F; [discriminate|]. destruct (String.eqb_spec k n) as [->|NE]; [injection F as <-; cbn; tauto|].
            destruct (IH F). cbn. tauto. }
          destruct G as [G ->]. destruct (smem k lean_names) eqn:SM; [|apply smem_spec in G; congruence]. do 2 eexists. repeat split. cbn. apply HE, G.
        - intros n a F. cbn [astart as_z] in F. rewrite PositiveMap.gempty in F. discriminate.
        - intros m i j a F. discriminate. }
      pose proof (arun_sound _ _ _ _ _ R0 E) as HR. destruct (lrun S1 p) as [t1|], (lrun S2 p) as [t2|]; cbn [bind rel_out equations_scaled] in *; try contradiction; [|exact HR].
      repeat split; eapply expected_scaled; eassumption.
    Qed.
  End Soundness.
End Weights.
