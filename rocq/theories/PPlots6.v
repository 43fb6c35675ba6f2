(* PPlots6.v -- the figures of the models: simulations, modes, gains *)
From Coq Require Import Lra Lia.
From Verif Require Import Base MString MHeap MBicycle MVec MInertia MSets MSets2 MModels MModels2 MEig MDraw PBase SBicycle PBicycle PHeap SModels SModels2 SSort PSort
  PModels PModels2 PModels3 PModels4 PSets3 PModels5 PModels6 PModels7 PModels8 PModels9 PModels10 PModels11 PEig3 PDraw MPlots SPlots PPlots PPlots2 PPlots3 PPlots4 PPlots5.
From Verif Require MApp.
Local Open Scope string_scope.
Local Open Scope R_scope.

(* ---- the heap ---- *)
Lemma parse_preserves s ov h d : nth_error h (ps_ref s) = Some d -> preserved h (fst (parse_parameter_overrides s ov h)).
Proof. intros E. rewrite (parse_parameter_overrides_eq _ _ _ _ E). cbn [fst]. apply preserved_app. Qed.
Lemma simulate_preserves solve m s ov h d times x0 inp : fit m s h d -> NoDup (dkeys ov) ->
  preserved h (fst (simulate solve s (state_space m s) times x0 inp ov h)).
Proof.
  intros F N. unfold simulate, hbind. pose proof (parse_preserves s ov h d (proj1 F)) as P1.
  destruct (parse_parameter_overrides s ov h) as [h1 [[[par ks] len]|e]]; cbn [fst] in *; [|exact P1].
  destruct ks as [|k ks]; [|exact P1]. pose proof (fit_preserved m s _ _ d P1 F) as F1. pose proof (sst_preserves m s ov h1 d F1 N) as P2.
  destruct (state_space m s ov h1) as [h2 [ab|e]]; cbn [fst] in *; [|eapply preserved_trans; eauto].
  assert (P : preserved h h2) by (eapply preserved_trans; eauto). unfold lift, hret.
  destruct ab as [AB|l]; cbn [fst]; [|exact P]. destruct (time_span times) as [t|e]; cbn [fst]; [|exact P].
  match goal with |- context [solve ?a ?b ?c ?e ?f] => destruct (solve a b c e f) as [y|er] end; cbn [fst]; [|exact P].
  destruct (mapM (column y) (seq 0 (ytimes y))); cbn [fst]; [|exact P].
  match goal with |- context [match ?q with Ok _ => _ | Err _ => _ end] => destruct q end; cbn [fst]; exact P.
Qed.
Lemma modes_preserves solve eig m s ov h d times : fit m s h d -> NoDup (dkeys ov) ->
  preserved h (fst (simulate_modes solve eig s (state_space m s) times ov h)).
Proof.
  intros F N. unfold simulate_modes, hbind. pose proof (parse_preserves s ov h d (proj1 F)) as P1.
  destruct (parse_parameter_overrides s ov h) as [h1 [[[par ks] len]|e]]; cbn [fst] in *; [|exact P1].
  destruct ks as [|k ks]; [|exact P1]. pose proof (fit_preserved m s _ _ d P1 F) as F1. pose proof (sst_preserves m s ov h1 d F1 N) as P2.
  destruct (state_space m s ov h1) as [h2 [ab|e]]; cbn [fst] in *; [|eapply preserved_trans; eauto].
  assert (P : preserved h h2) by (eapply preserved_trans; eauto). unfold lift, hret.
  destruct ab as [AB|l]; cbn [fst]; [|exact P]. pose proof (fit_preserved m s _ _ d P F) as F2. pose proof (eigen_preserves eig false m s ov h2 d F2 N) as P3.
  destruct (calc_eigen eig (state_space m s) false ov h2) as [h3 [ev|e]]; cbn [fst] in *; [|eapply preserved_trans; eauto].
  assert (P' : preserved h h3) by (eapply preserved_trans; eauto). destruct ev; cbn [fst]; exact P'.
Qed.

(* ---- curves ---- *)
Lemma combine_samples times (ys : list R) f : length ys = length times -> (forall k, (k < length times)%nat -> nth k ys 0 = f k) -> combine times ys = samples times f.
Proof.
  intros L H. unfold samples. apply (nth_ext _ _ (0, 0) (0, 0)); [rewrite combine_length, map_length, seq_length; lia|].
  intros k Hk. rewrite combine_length in Hk. rewrite combine_nth by lia. rewrite nth_map_seq by lia. rewrite H by lia. reflexivity.
Qed.
Lemma plot_columns_ok times M idxs f W : length M = length times -> (forall k, (k < length times)%nat -> length (nth k M []) = W) -> (forall i, In i idxs -> (i < W)%nat) ->
  plot_columns times M idxs f = Ok (map (fun i => samples times (fun k => f (ent M k i))) idxs).
Proof.
  intros LM HW HI. unfold plot_columns. rewrite LM, Nat.eqb_refl. induction idxs as [|i idxs IH]; [reflexivity|]. cbn [mapM map].
  assert (HM : forall row, In row M -> length row = W).
  { intros row Ir. apply (In_nth _ _ []) in Ir. destruct Ir as (k & Hk & <-). apply HW. lia. }
  assert (E : mapM (fun row => index row i) M = Ok (map (fun row => nth i row 0) M)).
  { clear - HM HI. specialize (HI i (or_introl eq_refl)). induction M as [|r M IHM]; [reflexivity|]. cbn [mapM map].
    rewrite (index_ok r i 0) by (rewrite (HM r (or_introl eq_refl)); exact HI). cbn [bind]. rewrite IHM by (intros; apply HM; right; assumption). reflexivity. }
  rewrite E. cbn [bind]. rewrite IH by (intros; apply HI; right; assumption). cbn [bind]. f_equal. f_equal. apply combine_samples; [rewrite !map_length; exact LM|].
  intros k Hk. rewrite (nth_map f _ k 0) by (rewrite map_length; lia). f_equal. rewrite (nth_map _ M k []) by lia. reflexivity.
Qed.
Lemma samples_ext times f g : (forall k, (k < length times)%nat -> f k = g k) -> samples times f = samples times g.
Proof. intros H. unfold samples. apply map_ext_in. intros k Hk. apply in_seq in Hk. rewrite H by lia. reflexivity. Qed.
Lemma rad2deg_eq x : rad2deg x = in_degrees x.
Proof. unfold MApp.rad2deg, in_degrees. field. apply PI_neq0. Qed.
Lemma width_ok (times : list R) M W : length M = length times -> (0 < length times)%nat -> (forall k, (k < length times)%nat -> length (nth k M []) = W) -> width M = W.
Proof. intros L P H. unfold width. destruct M as [|r M]; [cbn in L; lia|]. apply (H 0%nat P). Qed.

Lemma hd_error_pos {A} (l : list A) x : hd_error l = Some x -> (0 < length l)%nat. Proof. destruct l; [discriminate|]. cbn. lia. Qed.
Lemma input_at_len inp n t x u : input_at inp n t x u -> length u = n. Proof. intros (H & _). exact H. Qed.

(* ---- plot_simulation ---- *)
Lemma plot_sim_heap solve m s times x0 inp ov h d : fit m s h d -> NoDup (dkeys ov) ->
  preserved h (fst (plot_simulation solve m s times x0 inp ov h)) /\
  (forall e, snd (simulate solve s (state_space m s) times x0 inp ov h) = Err e -> snd (plot_simulation solve m s times x0 inp ov h) = Err e).
Proof.
  intros F N. unfold plot_simulation, hbind. pose proof (simulate_preserves solve m s ov h d times x0 inp F N) as P.
  destruct (simulate solve s (state_space m s) times x0 inp ov h) as [h1 [r|e]]; cbn [fst snd] in *; unfold lift; cbn [fst snd]; (split; [exact P|]); intros e0 X; first [discriminate X | injection X as ->; reflexivity].
Qed.
Lemma plot_sim_meaning solve m s times x0 inp ov h d st us : solver_contract solve -> m = MMeijaard \/ m = MFeedback -> increasing times -> fit m s h d -> NoDup (dkeys ov) ->
  snd (simulate solve s (state_space m s) times x0 inp ov h) = Ok (st, us) ->
  exists A B t0 x u, snd (state_space m s ov h) = Ok (Single (A, B)) /\ hd_error times = Some t0 /\ x t0 = x0 /\ motion 4 2 A B inp t0 (last times t0) x /\
    (forall k, (k < length times)%nat -> input_at inp 2 (nth k times 0) (x (nth k times 0)) (u k)) /\
    snd (plot_simulation solve m s times x0 inp ov h) = Ok
      (let state i := samples times (fun k => in_degrees (nth i (x (nth k times 0)) 0)) in
       let input i := samples times (fun k => nth i (u k) 0) in
       [("Torque [Nm]", [("$T_\phi$", input 0%nat); ("$T_\delta$", input 1%nat)]);
        ("Angle [deg]", [("$\phi$", state 0%nat); ("$\delta$", state 1%nat)]);
        ("Angluar Rate [deg/s]", [("$\dot{\phi}$", state 2%nat); ("$\dot{\delta}$", state 3%nat)])]).
Proof.
  intros SC Hm HI F N E. assert (SE : sound_equations m) by (destruct Hm as [-> | ->]; exact I).
  destruct (simulation solve m s ov h d times x0 inp st us SC SE HI F N E) as (A & B & t0 & x & EA & ET & EX & MO & LS & LU & HK).
  assert (NS : n_states m = 4%nat /\ n_inputs m = 2%nat /\ state_latex m = ["\phi"; "\delta"; "\dot{\phi}"; "\dot{\delta}"]) by (destruct Hm as [-> | ->]; repeat split; reflexivity).
  destruct NS as (NS & NI & SL). rewrite NS, NI in *.
  exists A, B, t0, x, (fun k => nth k us []). do 4 (split; [assumption|]). split.
  { intros k Hk. destruct (HK k Hk) as (Q1 & Q2). rewrite <- Q1. exact Q2. }
  unfold plot_simulation, hbind. destruct (simulate solve s (state_space m s) times x0 inp ov h) as [h1 r]. cbn [snd] in E. subst r. unfold lift. cbn [snd].
  pose proof (hd_error_pos _ _ ET) as TP.
  assert (WS : forall k, (k < length times)%nat -> length (nth k st []) = 4%nat).
  { intros k Hk. destruct (HK k Hk) as (-> & _). apply MO. apply increasing_bounds; assumption. }
  assert (WU : forall k, (k < length times)%nat -> length (nth k us []) = 2%nat).
  { intros k Hk. destruct (HK k Hk) as (_ & Q). apply input_at_len in Q. exact Q. }
  rewrite (width_ok times us 2) by assumption. rewrite (width_ok times st 4) by assumption. rewrite SL.
  cbn [seq firstn skipn map].
  rewrite (plot_columns_ok times us [0; 1]%nat (fun x => x) 2 LU WU) by (intros i [<-|[<-|[]]]; lia). cbn [bind].
  rewrite (plot_columns_ok times st [0; 1]%nat rad2deg 4 LS WS) by (intros i [<-|[<-|[]]]; lia). cbn [bind].
  rewrite (plot_columns_ok times st [2; 3]%nat rad2deg 4 LS WS) by (intros i [<-|[<-|[]]]; lia). cbn [bind map combine].
  assert (ST : forall i, samples times (fun k => rad2deg (ent st k i)) = samples times (fun k => in_degrees (nth i (x (nth k times 0)) 0))).
  { intros i. apply samples_ext. intros k Hk. unfold ent. destruct (HK k Hk) as (-> & _). apply rad2deg_eq. }
  rewrite !ST. reflexivity.
Qed.

(* ---- the rider lean model ---- *)
Lemma parse_load s ov h d par ks len h1 : nth_error h (ps_ref s) = Some d -> parse_parameter_overrides s ov h = (h1, Ok (par, ks, len)) -> hload par h1 = (h1, Ok (par_of d ov)).
Proof.
  intros E P. rewrite (parse_parameter_overrides_eq _ _ _ _ E) in P. destruct (parsed d ov) as [[[d' ks'] len']|]; [|discriminate]. injection P as <- <- _ _.
  fold (par_of d ov). apply hload_eq. apply nth_error_app_last.
Qed.
Lemma plot_rl_eq solve pitch body s times x0 inp ov h d x0' r : nth_error h (ps_ref s) = Some d -> NoDup (dkeys ov) ->
  snd (plot_simulation_rl solve pitch body s times x0 inp ov h) = Ok (x0', r) ->
  exists h1 r1, preserved h h1 /\ snd (simulate_rl solve pitch body s times x0' inp ov h1) = Ok (x0', r1) /\ (9 < length x0)%nat /\ (exists w, x0' = upd x0 9 w) /\
    r = (let names idxs := map (fun i => dollars (nth i (state_latex (MRiderLean pitch body)) "")) idxs in
    let deg st idxs := cs <- plot_columns times st idxs rad2deg ;; Ok (combine (names idxs) cs) in
      ru <- r1 ;;
      let '(st, us) := ru in
      c0 <- plot_columns times us (seq 0 (width us)) (fun x => x) ;;
      c1 <- plot_columns times st (firstn 2 (seq 0 (width st))) (fun x => x) ;;
      c2 <- deg st [4; 6]%nat ;;
      c3 <- deg st [3; 5; 7]%nat ;; c4 <- deg st [2%nat] ;;
      c5 <- deg st [8; 10; 11]%nat ;; c6 <- deg st [9%nat] ;;
      Ok [("Torque [Nm]", combine (map dollars (input_latex (MRiderLean pitch body))) c0);
          ("Distance [m]", combine (names [0; 1]%nat) c1);
          ("Angle [deg]", c2);
          ("Angle [deg]", c3); (dollars "q_3" ++ " [deg]", c4);
          ("Angluar Rate [deg/s]", c5); (dollars "u_6" ++ " [deg/s]", c6)]).
Proof.
  intros E N H. unfold plot_simulation_rl, hbind in H. pose proof (parse_preserves s ov h d E) as P1.
  destruct (parse_parameter_overrides s ov h) as [h1 [[[par ks] len]|e]] eqn:EP; [|discriminate]. cbn [fst] in P1.
  rewrite (parse_load s ov h d par ks len h1 E EP) in H. unfold lift in H.
  destruct (scalar_at (par_of d ov) "v") as [v|] eqn:EV; [|discriminate]. destruct (scalar_at (par_of d ov) "rr") as [rr|] eqn:ER; [|discriminate].
  destruct (rdiv (- v) rr) as [w|] eqn:EW; [|discriminate]. destruct (index x0 9) as [x9|] eqn:E9; [|discriminate].
  exists h1. destruct (simulate_rl solve pitch body s times (upd x0 9 w) inp ov h1) as [h2 [[x1 r1]|e]] eqn:ES; [|discriminate].
  assert (E1 : nth_error h1 (ps_ref s) = Some d) by (destruct P1 as (t & ->); rewrite nth_error_app1; [exact E|apply nth_error_Some; congruence]).
  assert (L9 : (9 < length x0)%nat) by (unfold index in E9; apply nth_error_Some; destruct (nth_error x0 9); [discriminate|discriminate]).
  assert (X1 : x1 = upd x0 9 w).
  { unfold simulate_rl, hbind in ES. destruct (parse_parameter_overrides s ov h1) as [h3 [[[par3 ks3] len3]|e]] eqn:EP3; [|discriminate].
    rewrite (parse_load s ov h1 d par3 ks3 len3 h3 E1 EP3) in ES. unfold lift in ES. rewrite EV, ER, EW in ES.
    destruct (index (upd x0 9 w) 9) as [y9|]; [|discriminate].
    destruct (simulate solve s (form_state_space_matrices_rl pitch body s) times (upd (upd x0 9 w) 9 w) inp ov h3) as [h4 r4]. injection ES as _ <- _. apply upd_upd. }
  cbn [snd hret fst] in H. injection H as <- <-. subst x1. exists r1. split; [exact P1|]. split; [rewrite ES; reflexivity|]. split; [exact L9|]. split; [eauto|reflexivity].
Qed.
Lemma sst_det2 m s ov h h2 d : fit m s h d -> preserved h h2 -> NoDup (dkeys ov) -> snd (state_space m s ov h2) = snd (state_space m s ov h).
Proof. intros F P N. symmetry. exact (sst_det m s ov h h2 d F (fit_preserved m s _ _ d P F) N). Qed.
Lemma plot_rl_meaning solve pitch body s times x0 inp ov h d x0' figs : solver_contract solve -> linear_equations body -> increasing times ->
  fit (MRiderLean pitch body) s h d -> NoDup (dkeys ov) -> snd (plot_simulation_rl solve pitch body s times x0 inp ov h) = Ok (x0', Ok figs) ->
  exists v rr A B t0 x u, dget (with_scalars d ov) "v" = Some (VNum v) /\ dget (with_scalars d ov) "rr" = Some (VNum rr) /\ rr <> 0 /\ x0' = upd x0 9 (- v / rr) /\
    snd (form_state_space_matrices_rl pitch body s ov h) = Ok (Single (A, B)) /\ hd_error times = Some t0 /\ x t0 = x0' /\ motion 12 3 A B inp t0 (last times t0) x /\
    (forall k, (k < length times)%nat -> input_at inp 3 (nth k times 0) (x (nth k times 0)) (u k)) /\
    figs = (let state i := samples times (fun k => nth i (x (nth k times 0)) 0) in
            let degrees i := samples times (fun k => in_degrees (nth i (x (nth k times 0)) 0)) in
            let input i := samples times (fun k => nth i (u k) 0) in
            [("Torque [Nm]", [("$T_4$", input 0%nat); ("$T_7$", input 1%nat); ("$T_9$", input 2%nat)]);
             ("Distance [m]", [("$q_1$", state 0%nat); ("$q_2$", state 1%nat)]);
             ("Angle [deg]", [("$q_6$", degrees 4%nat); ("$q_8$", degrees 6%nat)]);
             ("Angle [deg]", [("$q_4$", degrees 3%nat); ("$q_7$", degrees 5%nat); ("$q_9$", degrees 7%nat)]);
             ("$q_3$ [deg]", [("$q_3$", degrees 2%nat)]);
             ("Angluar Rate [deg/s]", [("$u_4$", degrees 8%nat); ("$u_7$", degrees 10%nat); ("$u_9$", degrees 11%nat)]);
             ("$u_6$ [deg/s]", [("$u_6$", degrees 9%nat)])]).
Proof.
  intros SC LE HI F N E. destruct (plot_rl_eq solve pitch body s times x0 inp ov h d x0' _ (proj1 F) N E) as (h1 & r1 & P1 & ES & L9 & (w & EW) & EF).
  pose proof (fit_preserved _ s _ _ d P1 F) as F1.
  destruct (rider_lean_initial solve pitch body s ov h1 d times x0' inp x0' r1 (proj1 F1) N ES) as (v & rr & EV & ER & NR & EX & _ & h2 & P2 & E1).
  exists v, rr. rewrite EW, upd_upd in EX. rewrite <- EW in EX.
  destruct r1 as [[st us]|e]; [|discriminate]. pose proof (fit_preserved _ s _ _ d P2 F1) as F2.
  destruct (simulation solve (MRiderLean pitch body) s ov h2 d times x0' inp st us SC LE HI F2 N (eq_sym E1)) as (A & B & t0 & x & EA & ET & XT & MO & LS & LU & HK).
  cbn [n_states n_inputs] in *.
  exists A, B, t0, x, (fun k => nth k us []). do 4 (split; [assumption|]). split.
  { rewrite (sst_det2 (MRiderLean pitch body) s ov h1 h2 d F1 P2 N) in EA. rewrite (sst_det2 (MRiderLean pitch body) s ov h h1 d F P1 N) in EA. exact EA. }
  do 3 (split; [assumption|]). split.
  { intros k Hk. destruct (HK k Hk) as (Q1 & Q2). rewrite <- Q1. exact Q2. }
  pose proof (hd_error_pos _ _ ET) as TP.
  assert (WS : forall k, (k < length times)%nat -> length (nth k st []) = 12%nat).
  { intros k Hk. destruct (HK k Hk) as (-> & _). apply MO. apply increasing_bounds; assumption. }
  assert (WU : forall k, (k < length times)%nat -> length (nth k us []) = 3%nat).
  { intros k Hk. destruct (HK k Hk) as (_ & Q). apply input_at_len in Q. exact Q. }
  cbn zeta in EF. cbn [bind] in EF. rewrite (width_ok times us 3) in EF by assumption. rewrite (width_ok times st 12) in EF by assumption.
  cbn [seq firstn] in EF.
  rewrite (plot_columns_ok times us [0; 1; 2]%nat (fun x => x) 3 LU WU) in EF by (intros i Hi; repeat (destruct Hi as [<-|Hi]; [lia|]); destruct Hi).
  rewrite !(fun idxs f H => plot_columns_ok times st idxs f 12 LS WS H) in EF by (intros i Hi; repeat (destruct Hi as [<-|Hi]; [lia|]); destruct Hi).
  cbn [bind map combine nth state_latex input_latex dollars append] in EF.
  assert (ST : forall i, samples times (fun k => rad2deg (ent st k i)) = samples times (fun k => in_degrees (nth i (x (nth k times 0)) 0))).
  { intros i. apply samples_ext. intros k Hk. unfold ent. destruct (HK k Hk) as (-> & _). apply rad2deg_eq. }
  assert (SI : forall i, samples times (fun k => ent st k i) = samples times (fun k => nth i (x (nth k times 0)) 0)).
  { intros i. apply samples_ext. intros k Hk. unfold ent. destruct (HK k Hk) as (-> & _). reflexivity. }
  rewrite !ST, !SI in EF. injection EF as EF. exact EF.
Qed.
Lemma plot_rl_preserves solve pitch body s times x0 inp ov h d : fit (MRiderLean pitch body) s h d -> NoDup (dkeys ov) ->
  preserved h (fst (plot_simulation_rl solve pitch body s times x0 inp ov h)).
Proof.
  intros F N. unfold plot_simulation_rl, hbind. pose proof (parse_preserves s ov h d (proj1 F)) as P1.
  destruct (parse_parameter_overrides s ov h) as [h1 [[[par ks] len]|e]] eqn:EP; cbn [fst] in *; [|exact P1].
  rewrite (parse_load s ov h d par ks len h1 (proj1 F) EP). unfold lift.
  destruct (scalar_at (par_of d ov) "v") as [v|] eqn:EV; [|exact P1]. destruct (scalar_at (par_of d ov) "rr") as [rr|] eqn:ER; [|exact P1].
  destruct (rdiv (- v) rr) as [w|] eqn:EW; [|exact P1]. destruct (index x0 9); [|exact P1].
  pose proof (fit_preserved _ s _ _ d P1 F) as F1.
  assert (P2 : preserved h1 (fst (simulate_rl solve pitch body s times (upd x0 9 w) inp ov h1))).
  { unfold simulate_rl, hbind. pose proof (parse_preserves s ov h1 d (proj1 F1)) as Q1.
    destruct (parse_parameter_overrides s ov h1) as [h3 [[[par3 ks3] len3]|e3]] eqn:EP3; cbn [fst] in *; [|exact Q1].
    rewrite (parse_load s ov h1 d par3 ks3 len3 h3 (proj1 F1) EP3). unfold lift.
    rewrite EV, ER, EW. destruct (index (upd x0 9 w) 9); [|exact Q1].
    pose proof (fit_preserved _ s _ _ d Q1 F1) as F3.
    pose proof (simulate_preserves solve (MRiderLean pitch body) s ov h3 d times (upd (upd x0 9 w) 9 w) inp F3 N) as Q2. cbn [state_space] in Q2.
    destruct (simulate solve s (form_state_space_matrices_rl pitch body s) times (upd (upd x0 9 w) 9 w) inp ov h3); cbn [fst] in *. eapply preserved_trans; eauto. }
  destruct (simulate_rl solve pitch body s times (upd x0 9 w) inp ov h1) as [h2 [xr|e]]; cbn [fst] in *; eapply preserved_trans; eauto.
Qed.
