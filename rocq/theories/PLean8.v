(* PLean8.v -- the matrices of the rider lean model against the balances *)
From Coq Require Import Lra Lia ZArith QArith Qreals FMapPositive.
From Verif Require Import Base MString MHeap MBicycle MVec MInertia MSets MModels MModels2 SModels SModels2 PBase PModels6 MLean MLeanProg MLean2 SLean PLean PLean2 PLean3 PLean4 PLean5 PLPoly SBicycle SLean2 PLean6 PLean7.
Local Open Scope string_scope.
Local Open Scope R_scope.

(* ---- lists ---- *)
Lemma dotl_map (f : nat -> R) (g : string -> R) js ks : dotl (map f js) (map g ks) = fold_right Rplus 0 (map (fun t => f (fst t) * g (snd t)) (combine js ks)).
Proof.
  unfold dotl. revert ks. induction js as [|j js IH]; intros [|k ks]; cbn [map combine fold_right fst snd]; try reflexivity. rewrite IH. reflexivity.
Qed.
Lemma fold_plus_app l l' : fold_right Rplus 0 (l ++ l') = fold_right Rplus 0 l + fold_right Rplus 0 l'.
Proof. induction l as [|a l IH]; cbn [app fold_right]; [ring|rewrite IH; ring]. Qed.
Lemma addv_map {A} (f g : A -> R) l : addv (map f l) (map g l) = map (fun i => f i + g i) l.
Proof. unfold addv. induction l as [|a l IH]; [reflexivity|]. cbn [map combine fst snd]. rewrite IH. reflexivity. Qed.
Lemma rows_value sf x T ex : (forall k, In k lean_states -> ex k = x k) -> (forall k, In k lean_inputs -> ex k = T k) ->
  addv (mulv (map (fun i => map (ls_mat sf MA i) a_idxs) a_idxs) (map x lean_states)) (mulv (map (fun i => map (ls_mat sf MB i) b_idxs) a_idxs) (map T lean_inputs))
  = map (row_value sf ex) a_idxs.
Proof.
  intros HX HT. rewrite <- (map_ext_in ex x lean_states HX), <- (map_ext_in ex T lean_inputs HT). unfold mulv. rewrite !map_map, addv_map. unfold row_value.
  apply map_ext. intros i. rewrite !dotl_map, fold_plus_app. reflexivity.
Qed.
Lemma table_ext (A : marr) (f : nat -> nat -> R) rs cs : shape (length rs) (length cs) A ->
  (forall i j, (i < length rs)%nat -> (j < length cs)%nat -> ent A i j = f (nth i rs 0%nat) (nth j cs 0%nat)) -> A = map (fun i => map (f i) cs) rs.
Proof.
  intros (L & HR) H. apply (nth_ext _ _ [] []); [rewrite map_length; exact L|]. intros i Hi. unfold marr in *. rewrite L in Hi.
  rewrite (nth_indep (map (fun i => map (f i) cs) rs) [] (map (f 0%nat) cs)) by (rewrite map_length; exact Hi). rewrite (map_nth (fun i => map (f i) cs)).
  assert (LR : length (nth i A []) = length cs) by (apply HR, nth_In; unfold marr in *; lia).
  apply (nth_ext _ _ 0 0); [rewrite map_length; exact LR|]. intros j Hj. rewrite LR in Hj.
  specialize (H i j Hi Hj). unfold ent in H. 
  replace (nth j (map (f (nth i rs 0%nat)) cs) 0) with (f (nth i rs 0%nat) (nth j cs 0%nat)); [|rewrite (nth_indep (map (f (nth i rs 0%nat)) cs) 0 (f (nth i rs 0%nat) 0%nat)) by (rewrite map_length; exact Hj); symmetry; apply (map_nth (f (nth i rs 0%nat)))].
  exact H.
Qed.
Lemma restricted rs cs M rs' cs' N js ks : NoDup rs -> NoDup cs -> NoDup rs' -> NoDup cs' -> shape (length rs) (length cs) M -> restriction rs cs M rs' cs' N ->
  length js = length rs' -> length ks = length cs' ->
  (forall i, (i < length rs')%nat -> (nth i js 0 < length rs)%nat /\ nth (nth i js 0%nat) rs "" = nth i rs' "") ->
  (forall i, (i < length cs')%nat -> (nth i ks 0 < length cs)%nat /\ nth (nth i ks 0%nat) cs "" = nth i cs' "") ->
  N = map (fun i => map (ent M i) ks) js.
Proof.
  intros N1 N2 N3 N4 SM (SN & H) LJ LK HJ HK. apply table_ext; [rewrite LJ, LK; exact SN|]. intros i j Hi Hj. rewrite LJ in Hi. rewrite LK in Hj.
  destruct (HJ i Hi) as (J1 & J2). destruct (HK j Hj) as (K1 & K2).
  eapply entry_fun; [exact N1|exact N2| |apply entry_ent; [exact SM|exact J1|exact K1]]. rewrite J2, K2. apply H; [apply nth_In, Hi|apply nth_In, Hj|]. apply entry_ent; assumption.
Qed.

(* ---- the balances ---- *)
Definition extra_of (x dx T : string -> R) (k : string) : R :=
  if String.eqb k "a4" then dx "u4" else if String.eqb k "a7" then dx "u7" else if String.eqb k "a9" then dx "u9" else if smem k lean_inputs then T k else x k.
Section Rides.
  Variables (p : list stmt) (mem : memory) (e : string -> R) (lam : R) (sf : lstate).
  Hypothesis CH : all_checks p = true.
  Hypothesis UP : upright_point e lam.
  Hypothesis RUN : lrun (lam_names mem e lam) p = Ok sf.
  Lemma rides_iff x dx T v : v = fwd e ->
    map dx lean_states = map (row_value sf (extra_of x dx T)) a_idxs <-> rides (lean_bike e lam) (e "rr") (e "rf") v (e "g") x dx T.
  Proof.
    intros ->. set (ex := extra_of x dx T). destruct (lengths_core p mem e lam sf CH UP RUN) as (W & F).
    destruct (kin_ok p mem e lam sf CH UP RUN ex) as (R0 & R1 & R2 & R3 & R5 & R6 & R7 & R8 & R10).
    pose proof (lateral_iff p mem e lam sf CH UP RUN ex) as LI.
    cbn [lean_states a_idxs map]. rewrite R0, R1, R2, R3, R5, R6, R7, R8, R10.
    set (r9 := row_value sf ex 9) in *. set (r11 := row_value sf ex 11) in *. set (r12 := row_value sf ex 12) in *. clearbody r9 r11 r12. clear R0 R1 R2 R3 R5 R6 R7 R8 R10 RUN CH.
    change (ex "u6") with (x "u6"). change (ex "q3") with (x "q3"). change (ex "u4") with (x "u4"). change (ex "u7") with (x "u7"). change (ex "u9") with (x "u9").
    change (ex "a4") with (dx "u4") in LI. change (ex "a7") with (dx "u7") in LI. change (ex "a9") with (dx "u9") in LI.
    assert (W' : rb_w (lean_bike e lam) <> 0) by exact W.
    assert (YAW : fwd e * x "q3" + rb_w (lean_bike e lam) * dx "q3" - rb_t (lean_bike e lam) * x "u7" = fwd e * (x "q3" + cos lam * x "q7") <-> dx "q3" = yaw1 e ex lam).
    { unfold yaw1. change (ex "q7") with (x "q7"). change (ex "u7") with (x "u7"). split; intros H.
      - apply Rmult_eq_reg_l with (rb_w (lean_bike e lam)); [|exact W']. transitivity (fwd e * cos lam * x "q7" + rb_t (lean_bike e lam) * x "u7"); [lra|field; exact W'].
      - rewrite H. field. exact W'. }
    assert (ACC : forall psi2, fwd e * dx "q3" + rb_w (lean_bike e lam) * psi2 - rb_t (lean_bike e lam) * dx "u7" = fwd e * (dx "q3" + cos lam * x "u7") <-> psi2 = yaw2 e ex lam).
    { intros psi2. unfold yaw2. change (ex "u7") with (x "u7"). change (ex "a7") with (dx "u7"). split; intros H.
      - apply Rmult_eq_reg_l with (rb_w (lean_bike e lam)); [|exact W']. transitivity (fwd e * cos lam * x "u7" + rb_t (lean_bike e lam) * dx "u7"); [lra|field; exact W'].
      - rewrite H. field. exact W'. }
    unfold rides. change (rb_lam (lean_bike e lam)) with lam. split.
    - intros H. injection H as D1 D2 D3 D4 D6 D7 D8 D9 D10 D11 D12 D13.
      destruct (proj2 LI (conj D10 (conj D12 D13))) as (L1 & L2 & L3).
      split; [exact D4|]. split; [exact D6|]. split; [exact D7|]. split; [exact D9|]. split; [exact D1|]. split; [rewrite D8; field; exact F|]. split; [exact D11|]. split; [exact D2|].
      split; [rewrite D2; apply YAW, D3|]. exists (fwd e * dx "q3"), (yaw2 e ex lam), (sidefrc e ex lam).
      split; [reflexivity|]. split; [apply ACC; reflexivity|]. rewrite D3. unfold balances. change (rb_lam (lean_bike e lam)) with lam. split; [|split; [|split]].
      + unfold res_roll in L1. exact (Rminus_diag_uniq _ _ L1).
      + unfold sidefrc. match goal with |- ?a = ?w * (?b / ?w) => transitivity b; [reflexivity|field; exact W'] end.
      + unfold res_steer in L2. exact (Rminus_diag_uniq _ _ L2).
      + unfold res_lean in L3. exact (Rminus_diag_uniq _ _ L3).
    - intros (D4 & D6 & D7 & D9 & D1 & D8 & D11 & D2 & D3 & y2 & psi2 & FF & HY & HP & B1 & B2 & B3 & B4).
      rewrite D2 in D3. apply YAW in D3. rewrite HY in *. apply ACC in HP. subst psi2.
      rewrite D3 in *. change (rb_lam (lean_bike e lam)) with lam in *.
      assert (FV : FF = sidefrc e ex lam).
      { unfold sidefrc. apply Rmult_eq_reg_l with (rb_w (lean_bike e lam)); [|exact W']. rewrite <- B2. symmetry. match goal with |- ?w * (?b / ?w) = ?a => transitivity b; [field; exact W'|reflexivity] end. }
      subst FF.
      destruct (proj1 LI) as (L1 & L2 & L3).
      { split; [|split]; [unfold res_roll|unfold res_steer|unfold res_lean]; apply Rminus_diag_eq; assumption. }
      rewrite D1, D2, D4, D6, D7, D9, D11, L1, L2, L3.
      replace (dx "q8") with (e "rr" / e "rf" * x "u6"); [reflexivity|]. apply Rmult_eq_reg_l with (e "rf"); [|exact F]. rewrite D8. field. exact F.
  Qed.
End Rides.

(* ---- the matrices of a parameter set ---- *)
Lemma lean_shapes : NoDup a_idxs /\ length a_idxs = length lean_states /\ length b_idxs = length lean_inputs.
Proof. split; [repeat constructor; cbn; lia|split; reflexivity]. Qed.
Definition body_with pitch mem (P : list stmt) e : res (marr * marr) := r <- lean_equations pitch mem P e ;; match r with (A, B, _, _) => Ok (A, B) end.
Lemma body_with_run P pitch mem e lam A B : body_with pitch mem P e = Ok (A, B) -> e "q4" = 0 -> e "q7" = 0 -> pitch 0 0 (e "rf") (e "rr") (e "d1") (e "d2") (e "d3") = Ok lam ->
  exists sf, lrun (lam_names mem e lam) P = Ok sf /\ result sf MA = A /\ result sf MB = B.
Proof.
  unfold body_with, lean_equations. intros EB H4 H7 HP. rewrite H4, H7, HP in EB. cbn [bind] in EB.
  change (mklst (fun k => if String.eqb k "lam" then Some lam else ls_names (unpacked mem e) k) (ls_z (unpacked mem e)) (ls_mat (unpacked mem e))) with (lam_names mem e lam) in EB.
  destruct (lrun (lam_names mem e lam) P) as [sf|]; cbn [bind] in EB; [|discriminate]. injection EB as EB1 EB2. eauto.
Qed.
Lemma matrices_rows pitch mem s ov h d p A B : rl_fit s ov h d -> parameters (with_scalars d ov) p -> pitch_levels pitch p -> rl_matrices pitch mem s ov h = Ok (Single (A, B)) ->
  exists e lam sf, (forall k, smem k motion_symbols = false -> e k = p k) /\ pitch 0 0 (p "rf") (p "rr") (p "d1") (p "d2") (p "d3") = Ok lam /\ upright_point e lam /\ p "v" = fwd e /\
    lrun (lam_names mem e lam) lean_program = Ok sf /\
    A = map (fun i => map (ls_mat sf MA i) a_idxs) a_idxs /\ B = map (fun i => map (ls_mat sf MB i) b_idxs) a_idxs.
Proof.
  intros F PA PL E. pose proof F as (F1 & F2 & F3 & F4).
  destruct (rl_no_point pitch (lean_body pitch mem) s ov h d F1 F2 F3 F4 _ E) as (e0 & (O1 & (v & O2 & O3 & O4) & O5 & O6)).
  set (e := fun k => if smem k motion_symbols then e0 k else p k).
  assert (DIS : forall k, In k lean_parameters -> smem k motion_symbols = false).
  { apply Forall_forall. repeat (constructor; [reflexivity|]). constructor. }
  assert (EP : forall k, In k lean_parameters -> e0 k = p k).
  { intros k Hk. symmetry. apply (PA k); [apply (rlp_v k Hk)|apply O1, Hk]. }
  assert (EQ : forall k, In k lean_parameters -> e k = e0 k).
  { intros k Hk. unfold e. rewrite (DIS k Hk). symmetry. apply EP, Hk. }
  assert (EM : forall k, In k motion_symbols -> e k = e0 k).
  { intros k Hk. unfold e. apply smem_spec in Hk. rewrite Hk. reflexivity. }
  assert (INP : forall k, smem k lean_parameters = true -> p k = e0 k) by (intros k Hk; symmetry; apply EP, smem_spec, Hk).
  assert (OP : operating_point pitch (with_scalars d ov) e).
  { split; [|split; [|split]].
    - intros k Hk. rewrite (EQ k Hk). apply O1, Hk.
    - exists v. split; [exact O2|]. change (e "rr") with (p "rr"). rewrite (INP "rr" eq_refl). split; [exact O3|exact O4].
    - change (pitch 0 0 (p "rf") (p "rr") (p "d1") (p "d2") (p "d3") = Ok (e0 "q5")). rewrite (INP "rf" eq_refl), (INP "rr" eq_refl), (INP "d1" eq_refl), (INP "d2" eq_refl), (INP "d3" eq_refl). exact O5.
    - intros k Hk N1 N2. rewrite (EM k Hk). apply O6; assumption. }
  destruct (rl_named pitch (lean_body pitch mem) s ov h d e (lean_body_linear _ _) F1 F2 F3 F4 OP) as (A1 & A2). unfold rl_matrices in E.
  destruct (lean_body pitch mem e) as [[M N]|er] eqn:EB; [|rewrite (A2 _ eq_refl) in E; discriminate].
  destruct (A1 _ _ eq_refl) as (A' & B' & E' & RA & RB). rewrite E in E'. injection E' as <- <-. clear A1 A2 E.
  pose proof OP as (_ & _ & OP5 & OP6). destruct (body_shape _ _ _ _ _ EB) as (SM & SN).
  destruct (body_with_run lean_program pitch mem e (e "q5") M N EB) as (sf & RUN & EB1 & EB2); [apply OP6; discriminate || (apply smem_spec; reflexivity)..|exact OP5|]. clear EB.
  exists e, (e "q5"), sf. split; [intros k Hk; unfold e; rewrite Hk; reflexivity|]. split; [exact OP5|].
  split; [split; [reflexivity|]; split; [exact OP6|]; split; [exact (PL _ OP5)|change (e "rr") with (p "rr"); rewrite (INP "rr" eq_refl); exact O3]|].
  split.
  { unfold fwd. change (e "u6") with (e0 "u6"). change (e "rr") with (p "rr"). rewrite (INP "rr" eq_refl), (PA "v" v ltac:(apply smem_spec; reflexivity) O2). lra. }
  split; [exact RUN|]. destruct nodup_lean as (L1 & L2). destruct nodup_full as (N1 & N2).
  assert (IDX : forall l : list nat, forall full part : list string, Forall (fun t => (fst t < length full)%nat /\ nth (fst t) full "" = snd t) (combine l part) -> length l = length part ->
    forall i, (i < length part)%nat -> (nth i l 0 < length full)%nat /\ nth (nth i l 0%nat) full "" = nth i part "").
  { intros l full part FA LL i Hi. rewrite Forall_forall in FA. specialize (FA (nth i l 0%nat, nth i part "")). apply FA. rewrite <- combine_nth by exact LL. apply nth_In. rewrite combine_length. lia. }
  assert (IA : forall i, (i < length lean_states)%nat -> (nth i a_idxs 0 < length full_states)%nat /\ nth (nth i a_idxs 0%nat) full_states "" = nth i lean_states "").
  { apply IDX; [|reflexivity]. cbn [combine a_idxs lean_states fst snd]. repeat (constructor; [cbn; split; [lia|reflexivity]|]). constructor. }
  assert (IB : forall i, (i < length lean_inputs)%nat -> (nth i b_idxs 0 < length full_inputs)%nat /\ nth (nth i b_idxs 0%nat) full_inputs "" = nth i lean_inputs "").
  { apply IDX; [|reflexivity]. cbn [combine b_idxs lean_inputs fst snd]. repeat (constructor; [cbn; split; [lia|reflexivity]|]). constructor. }
  split.
  - rewrite (restricted _ _ _ _ _ _ a_idxs a_idxs N1 N1 L1 L1 SM RA eq_refl eq_refl IA IA).
    apply map_ext_in. intros i Hi. apply map_ext_in. intros j Hj. rewrite <- EB1. apply result_ent; cbn in Hi, Hj |- *; lia.
  - rewrite (restricted _ _ _ _ _ _ a_idxs b_idxs N1 N2 L1 L2 SN RB eq_refl eq_refl IA IB).
    apply map_ext_in. intros i Hi. apply map_ext_in. intros j Hj. rewrite <- EB2. apply result_ent; cbn in Hi, Hj |- *; lia.
Qed.
Lemma bike_ext e p lam : (forall k, smem k motion_symbols = false -> e k = p k) -> lean_bike e lam = lean_bike p lam.
Proof. intros H. unfold lean_bike, lean_bodies, px, pz, body_of, upright. rewrite !H by reflexivity. reflexivity. Qed.
Lemma matrices_ride pitch mem s ov h d p A B : rl_fit s ov h d -> parameters (with_scalars d ov) p -> pitch_levels pitch p -> rl_matrices pitch mem s ov h = Ok (Single (A, B)) ->
  exists lam, pitch 0 0 (p "rf") (p "rr") (p "d1") (p "d2") (p "d3") = Ok lam /\ rb_w (lean_bike p lam) <> 0 /\ p "rf" <> 0 /\ p "rr" <> 0 /\ forall x dx T,
    map dx lean_states = addv (mulv A (map x lean_states)) (mulv B (map T lean_inputs)) <-> rides (lean_bike p lam) (p "rr") (p "rf") (p "v") (p "g") x dx T.
Proof.
  intros F PA PL E. destruct (matrices_rows _ _ _ _ _ _ _ _ _ F PA PL E) as (e & lam & sf & HE & HP & UP & HV & RUN & -> & ->). exists lam. split; [exact HP|].
  destruct (lengths_core _ _ _ _ _ lean_checked UP RUN) as (W & RF).
  rewrite <- (bike_ext e p lam HE). split; [exact W|]. split; [rewrite <- HE by reflexivity; exact RF|]. split; [rewrite <- HE by reflexivity; apply UP|]. intros x dx T.
  rewrite <- (HE "rr" eq_refl), <- (HE "rf" eq_refl), <- (HE "g" eq_refl), (rows_value sf x T (extra_of x dx T)).
  - apply (rides_iff _ _ _ _ _ lean_checked UP RUN), HV.
  - intros k Hk. cbn in Hk. repeat (destruct Hk as [<-|Hk]; [reflexivity|]). destruct Hk.
  - intros k Hk. cbn in Hk. repeat (destruct Hk as [<-|Hk]; [reflexivity|]). destruct Hk.
Qed.
