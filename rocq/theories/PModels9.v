(* PModels9.v -- simulation *)
From Coq Require Import Lra Lia.
From Verif Require Import Base MString MHeap MBicycle MVec MInertia MSets MModels MModels2 PBase PBicycle PHeap SModels SModels2
  PModels PModels2 PModels3 PModels4 PSets3 PModels5 PModels6 PModels7 PModels8.
Local Open Scope string_scope.
Local Open Scope R_scope.

Lemma fit_app m s h d t : fit m s h d -> fit m s (h ++ t)%list d.
Proof. intros (E & C). split; [apply nth_error_app_l, E | exact C]. Qed.
Lemma fit_preserved m s h h' d : preserved h h' -> fit m s h d -> fit m s h' d.
Proof. intros P (E & C). split; [eapply preserved_nth; eauto | exact C]. Qed.

Definition rhs_of (A B : marr) (inp : option (R -> list R -> res (list R))) : R -> list R -> res (list R) :=
  match inp with
  | None => fun _ x => matvec A x
  | Some f => fun t x => a <- matvec A x ;; u <- f t x ;; b <- matvec B u ;; vadd a b
  end.

Lemma simulate_ok solve m s ov h d times x0 inp st us : fit m s h d -> NoDup (dkeys ov) ->
  snd (simulate solve s (state_space m s) times x0 inp ov h) = Ok (st, us) ->
  array_keys_of d ov = [] /\
  exists A B t0 y, snd (state_space m s ov h) = Ok (Single (A, B)) /\ hd_error times = Some t0 /\
    solve (rhs_of A B inp) t0 (last times t0) x0 times = Ok y /\ mapM (column y) (seq 0 (ytimes y)) = Ok st /\
    match inp with
    | None => us = repeat (repeat 0 (length (hd [] B))) (length times)
    | Some f => mapM (fun it => x <- column y (fst it) ;; f (snd it) x) (combine (seq 0 (length times)) times) = Ok us
    end.
Proof.
  intros F N. unfold simulate. unfold hbind at 1. rewrite (parse_parameter_overrides_eq _ _ _ _ (proj1 F)).
  pose proof (parsed_ok d ov N) as P. destruct (parsed d ov) as [[[d' ks] len]|e]; [|discriminate].
  destruct P as (-> & -> & _ & HD & ED). cbn [fst snd]. rewrite <- ED. destruct (array_keys_of d ov) as [|k0 ks0]; [|discriminate].
  intros E. split; [reflexivity|]. unfold hbind at 1 in E. rewrite (sst_det m s ov h (h ++ [d'])%list d F (fit_app m s h d [d'] F) N).
  revert E. destruct (state_space m s ov (h ++ [d'])%list) as [h2 [r|e]]; cbn [snd]; [|discriminate]. intros E.
  unfold hbind at 1, lift at 1 in E. destruct r as [[A B]|l]; [|discriminate]. cbn [fst snd] in E.
  unfold hbind at 1, lift at 1 in E. destruct times as [|t0 ts] eqn:ET; [discriminate|]. cbn [time_span fst snd] in E. rewrite <- ET in *.
  unfold hbind at 1, lift at 1 in E. cbn zeta in E.
  replace (match inp with None => fun (_ : R) x => matvec A x | Some f => fun t x => a <- matvec A x ;; u <- f t x ;; b <- matvec B u ;; vadd a b end) with (rhs_of A B inp) in E by reflexivity.
  destruct (solve (rhs_of A B inp) t0 (last times t0) x0 times) as [y|] eqn:EY; [|discriminate].
  unfold hbind at 1, lift at 1 in E. destruct (mapM (column y) (seq 0 (ytimes y))) as [st'|] eqn:ES; [|discriminate].
  unfold hbind, lift, hret in E.
  exists A, B, t0, y. split; [reflexivity|]. split; [rewrite ET; reflexivity|]. split; [exact EY|].
  destruct inp as [f|].
  - destruct (mapM _ (combine _ times)) as [us'|] eqn:EU; [|discriminate]. injection E as <- <-. auto.
  - injection E as <- <-. auto.
Qed.

Lemma increasing_bounds times t0 k : increasing times -> hd_error times = Some t0 -> (k < length times)%nat ->
  t0 <= nth k times 0 <= last times t0.
Proof.
  intros IN E Hk. destruct times as [|t ts]; [discriminate|]. injection E as ->.
  assert (EL : last (t0 :: ts) t0 = nth (length ts) (t0 :: ts) 0).
  { clear. revert t0. induction ts as [|a ts IH]; intros t0; [reflexivity|]. change (last (t0 :: a :: ts) t0) with (last (a :: ts) t0).
    cbn [length]. change (nth (S (length ts)) (t0 :: a :: ts) 0) with (nth (length ts) (a :: ts) 0). rewrite <- IH.
    clear. revert a. induction ts as [|b ts IH]; intros a; [reflexivity|]. change (last (b :: ts) t0 = last (b :: ts) a).
    destruct ts as [|c ts]; [reflexivity|]. specialize (IH b). change (last (c :: ts) t0 = last (c :: ts) b) in IH. change (last (c :: ts) t0 = last (c :: ts) a).
    clear IH. revert c. induction ts as [|d ts IH]; intros c; [reflexivity|]. apply (IH d). }
  rewrite EL. cbn [length] in Hk. split.
  - destruct k as [|k]; [simpl; lra|]. left. apply (IN 0%nat (S k)); simpl; lia.
  - destruct (Nat.eq_dec k (length ts)) as [->|NE]; [lra|]. left. apply IN; simpl; lia.
Qed.

Lemma column_ok (y : marr) T k : (forall row, In row y -> length row = T) -> (k < T)%nat ->
  column y k = Ok (map (fun row => nth k row 0) y).
Proof.
  intros HR Hk. unfold column. induction y as [|row y IH]; [reflexivity|]. cbn [mapM map].
  rewrite (index_ok row k 0) by (rewrite (HR row); [exact Hk | left; reflexivity]). cbn [bind].
  rewrite IH by (intros; apply HR; right; assumption). reflexivity.
Qed.
Lemma column_samples (y : marr) (x0 : list R) (x : R -> list R) times k : length y = length x0 -> (forall row, In row y -> length row = length times) ->
  (forall i k, (i < length x0)%nat -> (k < length times)%nat -> ent y i k = nth i (x (nth k times 0)) 0) ->
  (k < length times)%nat -> length (x (nth k times 0)) = length x0 -> column y k = Ok (x (nth k times 0)).
Proof.
  intros LY HR HS Hk LX. rewrite (column_ok y (length times) k HR Hk). f_equal.
  apply (nth_ext _ _ 0 0); [rewrite map_length; lia|]. rewrite map_length. intros i Hi.
  rewrite <- HS by lia. unfold ent. rewrite (nth_indep _ 0 (nth k [] 0)) by (rewrite map_length; exact Hi).
  apply (map_nth (fun row => nth k row 0)).
Qed.

(* the solver's trajectory is a motion *)
Lemma vadd_ok a b c : vadd a b = Ok c -> length a = length b /\ length c = length a /\ forall i, (i < length a)%nat -> nth i c 0 = nth i a 0 + nth i b 0.
Proof.
  unfold vadd. destruct (Nat.eqb _ _) eqn:E; [|discriminate]. apply Nat.eqb_eq in E. intros X. injection X as <-.
  split; [exact E|]. split; [rewrite map_length, combine_length; lia|]. intros i Hi.
  rewrite (nth_indep _ 0 ((fun p => fst p + snd p) (0, 0))) by (rewrite map_length, combine_length; lia).
  rewrite (map_nth (fun p => fst p + snd p)). rewrite combine_nth by exact E. reflexivity.
Qed.
Lemma matvec_gen M x n m dx : shape n m M -> (0 < n)%nat -> matvec M x = Ok dx ->
  length x = m /\ length dx = n /\ forall i, (i < n)%nat -> nth i dx 0 = rsum (map (fun j => ent M i j * nth j x 0) (seq 0 m)).
Proof.
  intros (HL & HR) Hn E. unfold matvec in E. pose proof (mapM_length _ _ _ E) as LD.
  assert (G : forall i, (i < n)%nat -> length x = m /\ nth i dx 0 = rsum (map (fun j => ent M i j * nth j x 0) (seq 0 m))).
  { intros i Hi. assert (Hi' : (i < length M)%nat) by lia. pose proof (mapM_nth _ M dx i [] 0 E Hi') as HX. cbv beta in HX.
    assert (LR : length (nth i M []) = m) by (apply HR, nth_In, Hi').
    destruct (Nat.eqb (length (nth i M [])) (length x)) eqn:EQ; [|discriminate]. apply Nat.eqb_eq in EQ. injection HX as <-.
    split; [lia|]. apply (rsum_combine m); lia. }
  split; [apply (G 0%nat Hn)|]. split; [lia|]. intros i Hi. apply G, Hi.
Qed.
Lemma rsum_zeros n f : (forall k, (k < n)%nat -> f k = 0) -> rsum (map f (seq 0 n)) = 0.
Proof. intros Z. rewrite rsum_seq, <- (sumn_zero n). apply sumn_ext, Z. Qed.
Lemma nth_repeat0 m k : nth k (repeat 0 m) 0 = 0.
Proof. revert k. induction m as [|m IH]; intros [|k]; simpl; auto. Qed.

Lemma trajectory_motion n m A B inp t0 tf x l : shape n n A -> shape n m B -> (0 < n)%nat -> t0 <= tf ->
  trajectory l (rhs_of A B inp) t0 tf x -> l = n /\ motion n m A B inp t0 tf x.
Proof.
  intros SA SB Hn Ht T.
  assert (LN : forall t, t0 <= t <= tf -> length (x t) = n /\ l = n).
  { intros t Hb. destruct (T t Hb) as (LX & dx & ED & LD & _). destruct inp as [f|]; cbn [rhs_of] in ED.
    - apply bind_ok in ED. destruct ED as (a & EA & _). destruct (matvec_gen A (x t) n n a SA Hn EA) as (LL & _). split; lia.
    - destruct (matvec_gen A (x t) n n dx SA Hn ED) as (LL & _). split; lia. }
  split; [apply (LN t0); lra|]. intros t Hb. destruct (LN t Hb) as (LL & ->). split; [exact LL|].
  destruct (T t Hb) as (_ & dx & ED & LD & DD). destruct inp as [f|]; cbn [rhs_of] in ED.
  - apply bind_ok in ED. destruct ED as (a & EA & ED). apply bind_ok in ED. destruct ED as (u & EU & ED). apply bind_ok in ED. destruct ED as (b & EB & ED).
    destruct (matvec_gen A (x t) n n a SA Hn EA) as (_ & La & Ha). destruct (matvec_gen B u n m b SB Hn EB) as (Lu & Lb & Hb').
    apply vadd_ok in ED. destruct ED as (_ & _ & HS). exists u. split; [split; assumption|]. intros i Hi. rewrite <- Ha, <- Hb' by exact Hi.
    rewrite <- HS by lia. apply (DD i Hi).
  - destruct (matvec_gen A (x t) n n dx SA Hn ED) as (_ & _ & Ha). exists (repeat 0 m). split; [split; [apply repeat_length | intros k; apply nth_repeat0]|].
    intros i Hi. rewrite <- Ha by exact Hi. rewrite rsum_zeros by (intros; rewrite nth_repeat0; ring). rewrite Rplus_0_r. apply (DD i Hi).
Qed.

Lemma hd_shape n m B : shape n m B -> (0 < n)%nat -> length (hd [] B) = m.
Proof. intros (HL & HR) Hn. destruct B as [|r B]; [simpl in HL; lia|]. apply HR. left. reflexivity. Qed.
Lemma n_states_pos m : (0 < n_states m)%nat.
Proof. destruct m; simpl; lia. Qed.

Lemma simulation solve m s ov h d times x0 inp st us : solver_contract solve -> sound_equations m -> increasing times -> fit m s h d -> NoDup (dkeys ov) ->
  snd (simulate solve s (state_space m s) times x0 inp ov h) = Ok (st, us) ->
  exists A B t0 x, snd (state_space m s ov h) = Ok (Single (A, B)) /\ hd_error times = Some t0 /\ x t0 = x0 /\
    motion (n_states m) (n_inputs m) A B inp t0 (last times t0) x /\ length st = length times /\ length us = length times /\
    forall k, (k < length times)%nat ->
      nth k st [] = x (nth k times 0) /\ input_at inp (n_inputs m) (nth k times 0) (nth k st []) (nth k us []).
Proof.
  intros SC SE IN F N E. apply (simulate_ok solve m s ov h d times x0 inp st us F N) in E.
  destruct E as (_ & A & B & t0 & y & EA & ET & EY & ES & EU). destruct (proj1 (sst_shape m s ov h d SE F N) A B EA) as (SA & SB).
  exists A, B, t0. destruct (SC _ _ _ _ _ _ EY) as (LY & LR & x & X0 & TR & SM). exists x.
  pose proof (n_states_pos m) as NP.
  assert (LT : (0 < length times)%nat) by (destruct times; [discriminate | simpl; lia]).
  assert (BD : forall k, (k < length times)%nat -> t0 <= nth k times 0 <= last times t0) by (intros; apply increasing_bounds; auto).
  assert (Ht : t0 <= last times t0) by (pose proof (BD 0%nat LT); lra).
  destruct (trajectory_motion _ _ A B inp t0 (last times t0) x (length x0) SA SB NP Ht TR) as (LX & MO).
  assert (YT : ytimes y = length times).
  { unfold ytimes. destruct y as [|row y]; [simpl in LY; lia|]. apply LR. left. reflexivity. }
  rewrite YT in ES. apply mapM_nth_iff in ES. rewrite seq_length in ES. destruct ES as (LS & HS).
  assert (CO : forall k, (k < length times)%nat -> column y k = Ok (x (nth k times 0))).
  { intros k Hk. apply (column_samples y x0 x times k LY LR SM Hk). destruct (MO (nth k times 0) (BD k Hk)) as (L & _). lia. }
  assert (ST : forall k, (k < length times)%nat -> nth k st [] = x (nth k times 0)).
  { intros k Hk. specialize (HS k 0%nat [] Hk). rewrite seq_nth in HS by exact Hk. cbn [plus] in HS. rewrite CO in HS by exact Hk. congruence. }
  split; [exact EA|]. split; [exact ET|]. split; [exact X0|]. split; [exact MO|]. split; [exact LS|].
  destruct inp as [f|].
  - apply mapM_nth_iff in EU. rewrite combine_length, seq_length, Nat.min_id in EU. destruct EU as (LU & HU). split; [exact LU|].
    intros k Hk. split; [apply ST, Hk|]. specialize (HU k (0%nat, 0) [] Hk). rewrite combine_nth in HU by apply seq_length. cbn [fst snd] in HU.
    rewrite seq_nth in HU by exact Hk. cbn [plus] in HU. rewrite CO in HU by exact Hk. cbn [bind] in HU. rewrite ST by exact Hk. split; [|exact HU].
    destruct (MO (nth k times 0) (BD k Hk)) as (_ & u & (LU' & EU') & _). congruence.
  - subst us. split; [apply repeat_length|]. intros k Hk. split; [apply ST, Hk|].
    rewrite (nth_indep (repeat (repeat 0 (length (hd [] B))) (length times)) [] (repeat 0 (length (hd [] B)))) by (rewrite repeat_length; exact Hk).
    rewrite nth_repeat. unfold input_at. split; [rewrite repeat_length; apply (hd_shape (n_states m)); assumption|]. intros j. apply nth_repeat0.
Qed.

(* ---- without inputs the motion is unique ---- *)
Lemma motion_trajectory n m A B t0 tf x : shape n n A -> motion n m A B None t0 tf x -> trajectory n (fun _ z => matvec A z) t0 tf x.
Proof.
  intros SA MO t Ht. destruct (MO t Ht) as (LX & u & (LU & Z) & DD). split; [exact LX|].
  destruct SA as (HL & HR).
  assert (EX : exists dx, matvec A (x t) = Ok dx).
  { clear - HL HR LX. unfold matvec. clear HL. induction A as [|row A IH]; [eexists; reflexivity|]. cbn [mapM].
    rewrite (HR row) by (left; reflexivity). rewrite LX, Nat.eqb_refl. cbn [bind].
    destruct IH as (dx & E); [intros; apply HR; right; assumption|]. rewrite LX in E. rewrite E. eexists; reflexivity. }
  destruct EX as (dx & ED). exists dx. split; [exact ED|].
  destruct (matvec_ok A (x t) n dx (conj HL HR) LX ED) as (LD & HD). split; [exact LD|]. intros i Hi. rewrite HD by exact Hi.
  specialize (DD i Hi). rewrite (rsum_zeros m) in DD by (intros k _; rewrite Z; ring). rewrite Rplus_0_r, rsum_seq in DD. exact DD.
Qed.
Lemma free_motion_unique n m A B t0 tf x y : shape n n A -> motion n m A B None t0 tf x -> motion n m A B None t0 tf y -> x t0 = y t0 ->
  forall t, t0 <= t <= tf -> x t = y t.
Proof. intros SA MX MY. apply (linear_unique n A t0 tf x y SA); eapply motion_trajectory; eauto. Qed.

Lemma motion_linear n m A B t0 tf x y a b : motion n m A B None t0 tf x -> motion n m A B None t0 tf y ->
  motion n m A B None t0 tf (fun t => map (fun i => a * nth i (x t) 0 + b * nth i (y t) 0) (seq 0 n)).
Proof.
  assert (NM : forall (f : nat -> R) i, (i < n)%nat -> nth i (map f (seq 0 n)) 0 = f i).
  { intros f i Hi. rewrite (nth_indep _ 0 (f 0%nat)) by (rewrite map_length, seq_length; exact Hi). rewrite (map_nth f). rewrite seq_nth by exact Hi. reflexivity. }
  intros MX MY t Ht. split; [rewrite map_length; apply seq_length|]. destruct (MX t Ht) as (_ & u & (LU & ZU) & DX). destruct (MY t Ht) as (_ & w & (LW & ZW) & DY).
  exists u. split; [split; assumption|]. intros i Hi. specialize (DX i Hi). specialize (DY i Hi).
  rewrite (rsum_zeros m) in * by (intros k _; rewrite ?ZU, ?ZW; ring). rewrite Rplus_0_r in *.
  assert (EQ : rsum (map (fun j => ent A i j * nth j (map (fun i => a * nth i (x t) 0 + b * nth i (y t) 0) (seq 0 n)) 0) (seq 0 n)) =
     a * rsum (map (fun j => ent A i j * nth j (x t) 0) (seq 0 n)) + b * rsum (map (fun j => ent A i j * nth j (y t) 0) (seq 0 n))).
  { rewrite !rsum_seq, <- !sumn_scal, <- sumn_plus. apply sumn_ext. intros j Hj. rewrite NM by exact Hj. ring. }
  rewrite EQ. apply (derivable_pt_lim_plus (fun t => a * nth i (x t) 0) (fun t => b * nth i (y t) 0)) in DX || idtac.
  assert (DL : derivable_pt_lim (fun t => a * nth i (x t) 0 + b * nth i (y t) 0) t
     (a * rsum (map (fun j => ent A i j * nth j (x t) 0) (seq 0 n)) + b * rsum (map (fun j => ent A i j * nth j (y t) 0) (seq 0 n)))).
  { apply (derivable_pt_lim_plus (fun t => a * nth i (x t) 0) (fun t => b * nth i (y t) 0)).
    - apply (derivable_pt_lim_scal (fun t => nth i (x t) 0)). exact DX.
    - apply (derivable_pt_lim_scal (fun t => nth i (y t) 0)). exact DY. }
  intros eps He. destruct (DL eps He) as (del & HD). exists del. intros hh Hh Hd. rewrite !NM by exact Hi. apply HD; assumption.
Qed.

(* ---- modes ---- *)
Lemma mode_motion n m A B w V j t0 tf : eigenpairs false n A w V -> (j < n)%nat ->
  motion n m A B None t0 tf (fun t => map (fun i => mode_re (nth j w (0, 0)) (cent V i j) t0 t) (seq 0 n)).
Proof.
  assert (NM : forall (f : nat -> R) i, (i < n)%nat -> nth i (map f (seq 0 n)) 0 = f i).
  { intros f i Hi. rewrite (nth_indep _ 0 (f 0%nat)) by (rewrite map_length, seq_length; exact Hi). rewrite (map_nth f). rewrite seq_nth by exact Hi. reflexivity. }
  intros (_ & _ & _ & EP) Hj. destruct (EP j Hj) as (_ & EQ). set (lam := nth j w (0, 0)) in *. clearbody lam.
  intros t Ht. split; [rewrite map_length; apply seq_length|]. exists (repeat 0 m). split; [split; [apply repeat_length | intros k; apply nth_repeat0]|].
  intros i Hi. rewrite (rsum_zeros m) by (intros k _; rewrite nth_repeat0; ring). rewrite Rplus_0_r.
  assert (SUM : rsum (map (fun k => ent A i k * nth k (map (fun i => mode_re lam (cent V i j) t0 t) (seq 0 n)) 0) (seq 0 n)) = mode_re lam (cmul lam (cent V i j)) t0 t).
  { rewrite <- (EQ i Hi). unfold csum, mode_re. rewrite !map_map. cbn [fst snd cmul].
    rewrite !rsum_seq. rewrite (sumn_ext n _ (fun k => exp (fst lam * (t - t0)) * (cos (snd lam * (t - t0)) * (ent A i k * fst (cent V k j) - 0 * snd (cent V k j))
      - sin (snd lam * (t - t0)) * (ent A i k * snd (cent V k j) + 0 * fst (cent V k j))))).
    - rewrite sumn_scal, sumn_minus, !sumn_scal. cbn [fst snd]. ring.
    - intros k Hk. rewrite NM by exact Hk. ring. }
  rewrite SUM. pose proof (mode_deriv lam (cent V i j) t0 t) as DL.
  intros eps He. destruct (DL eps He) as (del & HD). exists del. intros hh Hh Hd. rewrite !NM by exact Hi. apply HD; assumption.
Qed.
