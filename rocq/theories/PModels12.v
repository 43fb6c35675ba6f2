(* PModels12.v -- runs of the simulation that succeed *)
From Coq Require Import Lra ClassicalDescription.
From Verif Require Import Base MString MHeap MBicycle MVec MInertia MSets MModels MModels2 PBase PHeap SBicycle PBicycle2 SModels SModels2 PModels PModels2 PModels3 PSets PSets2 PSets3 PModels4 PModels5 PModels6 PModels7 PModels8 PModels9 PModels10.
Local Open Scope string_scope.
Local Open Scope R_scope.

Lemma simulate_run solve m s ov h d times t0 x0 A B y st : fit m s h d -> NoDup (dkeys ov) -> all_scalar ov ->
  snd (state_space m s ov h) = Ok (Single (A, B)) -> hd_error times = Some t0 ->
  solve (fun _ x => matvec A x) t0 (last times t0) x0 times = Ok y -> mapM (column y) (seq 0 (ytimes y)) = Ok st ->
  snd (simulate solve s (state_space m s) times x0 None ov h) = Ok (st, repeat (repeat 0 (length (hd [] B))) (length times)).
Proof.
  intros F N HA EA ET EY ES. unfold simulate. unfold hbind at 1. rewrite (parse_parameter_overrides_eq _ _ _ _ (proj1 F)).
  pose proof (parsed_ok d ov N) as P. destruct (parsed d ov) as [[[d' ks] len]|e].
  2:{ exfalso. destruct P as (_ & P). apply P. exists 0%nat. split; [discriminate|]. intros q Hq. change (In q (array_lengths d ov)) in Hq. rewrite (all_scalar_lengths d ov HA) in Hq. destruct Hq. }
  destruct P as (-> & -> & _ & HD & ED). cbn [fst snd]. rewrite <- ED, (all_scalar_keys d ov N HA). unfold hbind at 1.
  rewrite (sst_det m s ov h (h ++ [d'])%list d F (fit_app m s h d [d'] F) N) in EA.
  destruct (state_space m s ov (h ++ [d'])%list) as [h2 r]. cbn [snd] in EA. subst r.
  destruct times as [|t1 ts] eqn:E; [discriminate|]. rewrite <- E in *.
  unfold hbind, lift. cbn [fst snd]. rewrite E at 1. cbn [time_span fst snd]. rewrite <- E. assert (t1 = t0) as -> by (rewrite E in ET; injection ET; auto).
  rewrite EY, ES. reflexivity.
Qed.

Lemma modes_run solve eig m s ov h d times t0 A B w V res : fit m s h d -> NoDup (dkeys ov) -> all_scalar ov ->
  snd (state_space m s ov h) = Ok (Single (A, B)) -> eig A = Ok (w, V) -> hd_error times = Some t0 ->
  mapM (fun j => x0 <- mapM (fun row => z <- index row j ;; Ok (fst z)) V ;;
                y <- solve (fun _ x => matvec A x) t0 (last times t0) x0 times ;;
                if Nat.eqb (ytimes y) (length times) then mapM (column y) (seq 0 (ytimes y))
                else Err (ValueError "could not broadcast input array")) (seq 0 (length (hd [] V))) = Ok res ->
  snd (simulate_modes solve eig s (state_space m s) times ov h) = Ok res.
Proof.
  intros F N HA EA EE ET EM. unfold simulate_modes. unfold hbind at 1. rewrite (parse_parameter_overrides_eq _ _ _ _ (proj1 F)).
  pose proof (parsed_ok d ov N) as P. destruct (parsed d ov) as [[[d' ks] len]|e].
  2:{ exfalso. destruct P as (_ & P). apply P. exists 0%nat. split; [discriminate|]. intros q Hq. change (In q (array_lengths d ov)) in Hq. rewrite (all_scalar_lengths d ov HA) in Hq. destruct Hq. }
  destruct P as (-> & -> & _ & HD & ED). cbn [fst snd]. rewrite <- ED, (all_scalar_keys d ov N HA). unfold hbind at 1.
  pose proof (fit_app m s h d [d'] F) as F1.
  pose proof (sst_preserves m s ov (h ++ [d'])%list d F1 N) as P1. pose proof (sst_det m s ov h (h ++ [d'])%list d F F1 N) as D1.
  destruct (state_space m s ov (h ++ [d'])%list) as [h2 r] eqn:ES; cbn [fst snd] in *. assert (r = Ok (Single (A, B))) as -> by congruence.
  unfold hbind at 1, lift at 1. unfold hbind at 1.
  pose proof (fit_preserved m s _ _ d P1 F1) as F2.
  rewrite calc_eigen_eq. rewrite <- (sst_det m s ov h h2 d F F2 N), EA. cbn [fst snd orient]. rewrite EE. cbn [map_res].
  unfold hbind, lift. cbn [fst snd].
  destruct times as [|t1 ts] eqn:E; [discriminate|]. rewrite <- E in *. assert (t1 = t0) as -> by (rewrite E in ET; injection ET; auto).
  rewrite <- EM. apply mapM_ext_in. intros j _. destruct (mapM _ V) as [x0|]; [|reflexivity]. cbn [bind]. rewrite E at 1. cbn [time_span bind fst snd]. rewrite <- E. reflexivity.
Qed.

(* ---- a solver and an eigenvalue routine that meet their contracts ---- *)
(* knows equilibria only *)
Definition rest_solver : solver := fun f t0 tf x0 times =>
  if excluded_middle_informative (forall t, f t x0 = Ok (repeat 0 (length x0))) then Ok (map (fun x => repeat x (length times)) x0) else Err RuntimeError.
Lemma rest_solver_contract : solver_contract rest_solver.
Proof.
  intros f t0 tf x0 times y. unfold rest_solver. destruct (excluded_middle_informative _) as [H|_]; [|discriminate]. intros E. injection E as <-.
  split; [apply map_length|]. split.
  - intros row Hr. apply in_map_iff in Hr. destruct Hr as (x & <- & _). apply repeat_length.
  - exists (fun _ => x0). split; [reflexivity|]. split.
    + intros t _. split; [reflexivity|]. exists (repeat 0 (length x0)). split; [apply H|]. split; [apply repeat_length|].
      intros i Hi. rewrite nth_repeat0. unfold comp. apply derivable_pt_lim_const.
    + intros i k Hi Hk. unfold ent. rewrite (nth_indep _ [] (repeat 0 (length times))) by (rewrite map_length; exact Hi).
      change (repeat 0 (length times)) with ((fun x : R => repeat x (length times)) 0). rewrite map_nth.
      generalize (nth i x0 0). clear -Hk. intros x. revert k Hk. induction (length times) as [|n IH]; intros k Hk; [lia|]. destruct k; [reflexivity|]. cbn [repeat nth]. apply IH. lia.
Qed.
Definition zero_col (A : marr) (j : nat) : bool := forallb (fun row => if Req_EM_T (nth j row 0) 0 then true else false) A.
Definition eig0 (A : marr) : res eigres :=
  match find (zero_col A) (seq 0 (length A)) with
  | Some j => Ok (repeat (0, 0) (length A), map (fun i => repeat (if Nat.eqb i j then (1, 0) else (0, 0)) (length A)) (seq 0 (length A)))
  | None => Err RuntimeError
  end.
Lemma nth_repeat_lt {A} (x d : A) n k : (k < n)%nat -> nth k (repeat x n) d = x.
Proof. revert k. induction n as [|n IH]; intros k Hk; [lia|]. destruct k; [reflexivity|]. cbn [repeat nth]. apply IH. lia. Qed.
Lemma eig0_contract : eig_contract eig0.
Proof.
  intros n A w V (LA & LR) E. unfold eig0 in E. rewrite LA in E. destruct (find (zero_col A) (seq 0 n)) as [j0|] eqn:EF; [|discriminate].
  injection E as <- <-. apply find_some in EF. destruct EF as (Hj0 & ZC). apply in_seq in Hj0.
  split; [apply repeat_length|]. split; [rewrite map_length; apply seq_length|]. split.
  - intros row Hr. apply in_map_iff in Hr. destruct Hr as (i & <- & _). apply repeat_length.
  - intros j Hj. set (V := map _ (seq 0 n)).
    assert (CV : forall i, (i < n)%nat -> cent V i j = if Nat.eqb i j0 then (1, 0) else (0, 0)).
    { intros i Hi. unfold cent, V. rewrite (nth_indep _ [] ((fun i => repeat (if Nat.eqb i j0 then (1, 0) else (0, 0)) n) 0%nat)) by (rewrite map_length, seq_length; exact Hi).
      rewrite (map_nth (fun i => repeat (if Nat.eqb i j0 then (1, 0) else (0, 0)) n)), seq_nth by exact Hi. apply nth_repeat_lt, Hj. }
    split.
    + exists j0. split; [lia|]. rewrite CV, Nat.eqb_refl by lia. intros X. injection X. lra.
    + intros i Hi. rewrite nth_repeat_lt by exact Hj.
      assert (Z : forall k, (k < n)%nat -> cmul (ent A i k, 0) (cent V k j) = (0, 0)).
      { intros k Hk. rewrite CV by exact Hk. destruct (Nat.eqb k j0) eqn:EK.
        - apply Nat.eqb_eq in EK. subst k. unfold zero_col in ZC. rewrite forallb_forall in ZC.
          assert (HI : In (nth i A []) A) by (apply nth_In; lia). specialize (ZC _ HI). destruct (Req_EM_T _ 0) as [EZ|]; [|discriminate].
          unfold ent. rewrite EZ. unfold cmul; cbn [fst snd]. f_equal; ring.
        - unfold cmul; cbn [fst snd]. f_equal; ring. }
      unfold csum. rewrite !map_map, !rsum_zeros by (intros k Hk; rewrite Z by exact Hk; reflexivity).
      unfold cmul; cbn [fst snd]. f_equal; ring.
Qed.
