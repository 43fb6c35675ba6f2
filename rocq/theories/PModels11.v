(* PModels11.v -- modal controllability *)
From Coq Require Import Lra Lia.
From Verif Require Import Base MString MHeap MBicycle MVec MInertia MGeometry MSets MModels MModels2 PBase PBicycle PHeap SSort SModels SModels2 PSort
  PModels PModels2 PModels3 PModels4 PSets3 PModels5 PModels6 PModels7 PModels8 PModels9 PModels10.
Local Open Scope string_scope.
Local Open Scope R_scope.

(* Cauchy-Schwarz for Re(q^H b) *)
Definition ssq_c (q : list cplx) : R := rsum (map (fun z => fst z ^ 2 + snd z ^ 2) q).
Definition ssq_r (b : list R) : R := rsum (map (fun x => x ^ 2) b).
Lemma ssq_c_pos q : 0 <= ssq_c q.
Proof. unfold ssq_c, rsum. induction q as [|z q IH]; simpl; [lra|]. assert (0 <= fst z * (fst z * 1)) by nra. assert (0 <= snd z * (snd z * 1)) by nra. simpl in IH. lra. Qed.
Lemma ssq_r_pos b : 0 <= ssq_r b.
Proof. unfold ssq_r, rsum. induction b as [|z q IH]; simpl; [lra|]. assert (0 <= z * (z * 1)) by nra. simpl in IH. lra. Qed.
Lemma cs_step a A B x y : 0 <= A -> 0 <= B -> a ^ 2 <= A * B -> (a + x * y) ^ 2 <= (A + x ^ 2) * (B + y ^ 2).
Proof.
  intros HA HB H. set (al := sqrt A). set (be := sqrt B).
  assert (EA : al * al = A) by (apply sqrt_sqrt, HA). assert (EB : be * be = B) by (apply sqrt_sqrt, HB).
  assert (PA : 0 <= al) by apply sqrt_pos. assert (PB : 0 <= be) by apply sqrt_pos. clearbody al be. subst A B.
  assert (HL : Rabs a <= al * be).
  { apply Rsqr_incr_0; [|apply Rabs_pos|nra]. rewrite <- Rsqr_abs. unfold Rsqr. nra. }
  assert (G : 2 * a * (x * y) <= al * al * y ^ 2 + be * be * x ^ 2).
  { apply Rle_trans with (2 * (al * be) * Rabs (x * y)).
    - replace (2 * a * (x * y)) with (2 * (a * (x * y))) by ring. replace (2 * (al * be) * Rabs (x * y)) with (2 * (al * be * Rabs (x * y))) by ring.
      apply Rmult_le_compat_l; [lra|]. eapply Rle_trans; [apply Rle_abs|]. rewrite Rabs_mult. apply Rmult_le_compat_r; [apply Rabs_pos | exact HL].
    - rewrite Rabs_mult. rewrite <- (pow2_abs x), <- (pow2_abs y). set (X := Rabs x). set (Y := Rabs y). clearbody X Y.
      assert (0 <= (al * Y - be * X) ^ 2) by apply pow2_ge_0. nra. }
  nra.
Qed.
Lemma cauchy_schwarz q b : (re_inner q b) ^ 2 <= ssq_c q * ssq_r b.
Proof.
  revert b. induction q as [|z q IH]; intros b.
  - unfold re_inner, rsum. simpl. assert (0 <= ssq_r b) by apply ssq_r_pos. unfold ssq_c, rsum. simpl. lra.
  - destruct b as [|y b].
    + unfold re_inner, rsum. simpl. unfold ssq_r, rsum. simpl. lra.
    + specialize (IH b). change (re_inner (z :: q) (y :: b)) with (fst z * y + re_inner q b). set (a := re_inner q b) in *. clearbody a.
      assert (E1 : ssq_c (z :: q) = fst z ^ 2 + snd z ^ 2 + ssq_c q) by reflexivity.
      assert (E2 : ssq_r (y :: b) = y ^ 2 + ssq_r b) by reflexivity. rewrite E1, E2.
      pose proof (ssq_c_pos q) as P1. pose proof (ssq_r_pos b) as P2. set (SQ := ssq_c q) in *. set (SB := ssq_r b) in *. clearbody SQ SB.
      pose proof (cs_step a SQ SB (fst z) y P1 P2 IH) as S.
      assert (0 <= snd z ^ 2) by apply pow2_ge_0. assert (0 <= y ^ 2) by apply pow2_ge_0.
      replace (fst z * y + a) with (a + fst z * y) by ring. eapply Rle_trans; [exact S|].
      assert (0 <= snd z ^ 2 * (SB + y ^ 2)) by (apply Rmult_le_pos; lra). nra.
Qed.
Lemma re_vdot_eq q b : re_vdot q b = re_inner q b.
Proof.
  unfold re_vdot, rdotl, re_inner, rsum. revert b. induction q as [|z q IH]; intros [|y b]; cbn [map combine fold_right]; auto. rewrite IH. reflexivity.
Qed.
Lemma cnorm_eq q : cnorm q = norm_c q.
Proof. unfold cnorm, norm_c. do 2 f_equal. apply map_ext. intros z. ring. Qed.
Lemma rnorm_eq b : rnorm b = norm_r b.
Proof. unfold rnorm, norm_r, rdotl. f_equal. unfold rsum. induction b as [|x b IH]; [reflexivity|]. cbn [combine map fold_right fst snd]. rewrite IH. ring. Qed.
Lemma pow2_gt_0 x : x <> 0 -> 0 < x ^ 2.
Proof. intros H. replace (x ^ 2) with (Rsqr x) by (unfold Rsqr; ring). apply Rlt_0_sqr, H. Qed.
Lemma norm_c_pos q : (exists z, In z q /\ z <> (0, 0)) -> 0 < norm_c q.
Proof.
  intros (z & IN & NZ). unfold norm_c. apply sqrt_lt_R0. fold (ssq_c q). induction q as [|y q IH]; [destruct IN|].
  change (ssq_c (y :: q)) with (fst y ^ 2 + snd y ^ 2 + ssq_c q). pose proof (ssq_c_pos q). pose proof (pow2_ge_0 (fst y)). pose proof (pow2_ge_0 (snd y)).
  destruct IN as [->|IN]; [|specialize (IH IN); lra].
  destruct (Req_dec (fst z) 0) as [A|A]; [|assert (0 < fst z ^ 2) by (apply pow2_gt_0, A); lra].
  destruct (Req_dec (snd z) 0) as [B|B]; [|assert (0 < snd z ^ 2) by (apply pow2_gt_0, B); lra].
  exfalso. apply NZ. destruct z; simpl in *; subst; reflexivity.
Qed.
Lemma norm_r_pos b : (exists x, In x b /\ x <> 0) -> 0 < norm_r b.
Proof.
  intros (z & IN & NZ). unfold norm_r. apply sqrt_lt_R0. fold (ssq_r b). induction b as [|y q IH]; [destruct IN|].
  change (ssq_r (y :: q)) with (y ^ 2 + ssq_r q). pose proof (ssq_r_pos q). pose proof (pow2_ge_0 y).
  destruct IN as [->|IN]; [|specialize (IH IN); lra]. assert (0 < z ^ 2) by (apply pow2_gt_0, NZ); lra.
Qed.
Lemma inner_bound q b : Rabs (re_inner q b) <= norm_c q * norm_r b.
Proof.
  unfold norm_c, norm_r. fold (ssq_c q) (ssq_r b). rewrite <- sqrt_mult by (apply ssq_c_pos || apply ssq_r_pos).
  rewrite <- sqrt_Rsqr_abs. apply sqrt_le_1_alt. unfold Rsqr. pose proof (cauchy_schwarz q b). nra.
Qed.
(* defined exactly when both vectors are non zero, and then the angle *)
Lemma mod_cont_angle acute q b : 0 < norm_c q -> 0 < norm_r b -> exists beta, mod_cont acute q b = Ok beta /\ modal_angle acute q b beta.
Proof.
  intros Pq Pb. unfold mod_cont. rewrite re_vdot_eq, cnorm_eq, rnorm_eq. set (D := norm_c q * norm_r b).
  assert (DP : 0 < D) by (apply Rmult_lt_0_compat; assumption). rewrite rdiv_eq by lra. cbn [bind].
  pose proof (inner_bound q b) as IB. fold D in IB. set (r := re_inner q b) in *.
  assert (B1 : Rabs (r / D) <= 1).
  { unfold Rdiv. rewrite Rabs_mult, (Rabs_right (/ D)) by (left; apply Rinv_0_lt_compat, DP). apply (Rmult_le_reg_r D); [exact DP|].
    rewrite Rmult_assoc, Rinv_l by lra. lra. }
  assert (B2 : -1 <= r / D <= 1) by (unfold Rabs in B1; destruct (Rcase_abs _) in B1; lra).
  unfold racos, modal_angle. fold D. destruct acute.
  - rewrite Rabs_Rabsolu. destruct (Rlt_dec 1 (Rabs (r / D))) as [C|C]; [lra|]. eexists. split; [reflexivity|].
    pose proof (Rabs_pos (r / D)) as RP. rewrite cos_acos by lra. split.
    + split; [apply acos_bound|]. apply Rnot_lt_le. intros LT. pose proof (acos_bound (Rabs (r / D))) as AB. pose proof PI_RGT_0. assert (X : cos (acos (Rabs (r / D))) < 0) by (apply cos_lt_0; lra). rewrite cos_acos in X by lra. lra.
    + unfold Rdiv. rewrite Rabs_mult, (Rabs_right (/ D)) by (left; apply Rinv_0_lt_compat, DP). fold r. field. lra.
  - destruct (Rlt_dec 1 (Rabs (r / D))) as [C|C]; [lra|]. eexists. split; [reflexivity|].
    rewrite cos_acos by exact B2. split; [apply acos_bound|]. fold r. field. lra.
Qed.

Lemma f2_length {A B} (P : A -> B -> Prop) l1 l2 : Forall2 P l1 l2 -> length l1 = length l2.
Proof. induction 1; simpl; congruence. Qed.
(* sorting only picks eigenvectors of the same row *)
Lemma chained_picks {V} : forall (inp out : list (list cplx * list V)) prev, chained prev inp out ->
  Forall2 (fun i o => length (snd o) = length (fst o) /\ forall x, In x (snd o) -> In x (snd i)) inp out.
Proof.
  induction inp as [|i inp IH]; intros [|o out] prev C; try (destruct C; fail); [constructor|]. destruct C as ((ks & _ & R1 & R2) & C). constructor; [|eapply IH; eauto].
  split; [rewrite <- (f2_length _ _ _ R1), <- (f2_length _ _ _ R2); reflexivity|].
  intros x IN. clear - R2 IN. induction R2 as [|k y ks l H R2 IH]; [destruct IN|]. destruct IN as [<-|IN]; [eapply nth_error_In; eauto | apply IH, IN].
Qed.
Lemma columns_of_nth V n : length V = n -> forall j, (j < n)%nat -> nth j (columns_of V) [] = ccol V j.
Proof.
  intros LV j Hj. unfold columns_of, ccol. rewrite LV.
  rewrite (nth_indep _ [] (map (fun row : list cplx => nth 0 row (0, 0)) V)) by (rewrite map_length, seq_length; exact Hj).
  rewrite (map_nth (fun j => map (fun row : list cplx => nth j row (0, 0)) V)). rewrite seq_nth by exact Hj. reflexivity.
Qed.
Lemma in_columns V q : In q (columns_of V) -> exists j, (j < length V)%nat /\ q = ccol V j.
Proof. unfold columns_of. intros IN. apply in_map_iff in IN. destruct IN as (j & <- & Hj). apply in_seq in Hj. exists j. split; [lia | reflexivity]. Qed.
Lemma in_columns_conv V j : (j < length V)%nat -> In (ccol V j) (columns_of V).
Proof. intros Hj. unfold columns_of. apply in_map_iff. exists j. split; [reflexivity|]. apply in_seq. lia. Qed.

Lemma first_order_row_b m d A B : m = MMeijaard \/ m = MFeedback -> complete (required (model_class m)) d -> row_of m d = Ok (A, B) ->
  forall j, (j < 2)%nat -> exists x, In x (rcol B j) /\ x <> 0.
Proof.
  intros HM C E.
  assert (ES : exists A0, ss_row d = Ok (A0, B)).
  { destruct HM as [-> | ->]; cbn [row_of] in E; [eauto|]. apply (fb_row_iff d A B (fb_complete d C)) in E. destruct E as (A0 & E & _). eauto. }
  destruct ES as (A0 & ES). apply ss_row_iff in ES. destruct ES as (c & v & g & _ & _ & _ & EA). clear - EA.
  unfold ab_matrix, inv2 in EA. apply bind_ok in EA. destruct EA as (iM & EI & EA). apply bind_ok in EI. destruct EI as (k & EK & EI).
  apply rdiv_ok in EK. destruct EK as (ND & EK). injection EI as <-. injection EA as <- <-.
  destruct (cM c) as [a b c' d]. cbn [m11 m12 m21 m22] in *. set (D := a * d - b * c') in *.
  assert (KN : k <> 0). { subst k. intros X. assert (1 / D * D = 0) by (rewrite X; ring). assert (1 / D * D = 1) by (field; exact ND). lra. }
  intros j Hj. unfold rcol. cbn.
  destruct j as [|[|j]]; [| |lia].
  - destruct (Req_dec d 0) as [Z|Z].
    + exists (k * - c'). split; [tauto|]. intros X. apply Rmult_integral in X. destruct X as [X|X]; [contradiction|]. apply ND. unfold D. rewrite Z. assert (c' = 0) by lra. subst; ring.
    + exists (k * d). split; [tauto|]. intros X. apply Rmult_integral in X. destruct X; contradiction.
  - destruct (Req_dec a 0) as [Z|Z].
    + exists (k * - b). split; [tauto|]. intros X. apply Rmult_integral in X. destruct X as [X|X]; [contradiction|]. apply ND. unfold D. rewrite Z. assert (b = 0) by lra. subst; ring.
    + exists (k * a). split; [tauto|]. intros X. apply Rmult_integral in X. destruct X; contradiction.
Qed.

Lemma mapM_total {A B} (f : A -> res B) l : (forall x, In x l -> exists y, f x = Ok y) -> exists l', mapM f l = Ok l'.
Proof.
  induction l as [|x l IH]; intros H; [eexists; reflexivity|]. destruct (H x) as (y & E); [left; reflexivity|].
  destruct IH as (l' & E'); [intros; apply H; right; assumption|]. simpl. rewrite E. simpl. rewrite E'. eexists; reflexivity.
Qed.
Definition modal_pure (acute : bool) (abs : list (marr * marr)) (evs : list eigres) : res (list marr) :=
  sorted <- sort_eigenmodes (map (fun e : eigres => (fst e, columns_of (snd e))) evs) ;;
  mapM (fun be : (marr * marr) * (list cplx * list (list cplx)) => mapM (fun q => mapM (mod_cont acute q) (bcolumns (snd (fst be)))) (snd (snd be))) (combine abs sorted).
Lemma modal_eq eig m s acute ov h d : fit m s h d -> NoDup (dkeys ov) ->
  snd (modal_controllability eig (state_space m s) acute ov h) =
  match snd (state_space m s ov h) with
  | Err e => Err e
  | Ok ab => match snd (calc_eigen eig (state_space m s) true ov h) with
             | Err e => Err e
             | Ok ev => match ab, ev with Stack abs, Stack evs => modal_pure acute abs evs | _, _ => Err TypeError end
             end
  end.
Proof.
  intros F N. unfold modal_controllability. unfold hbind at 1. pose proof (sst_preserves m s ov h d F N) as P.
  destruct (state_space m s ov h) as [h1 [ab|e]] eqn:ES; cbn [fst snd] in *; [|reflexivity].
  assert (DE : snd (calc_eigen eig (state_space m s) true ov h) = snd (calc_eigen eig (state_space m s) true ov h1)).
  { rewrite !calc_eigen_eq. cbn [snd]. rewrite (sst_det m s ov h h1 d F (fit_preserved m s _ _ d P F) N). reflexivity. }
  rewrite DE. unfold hbind at 1. destruct (calc_eigen eig (state_space m s) true ov h1) as [h2 [ev|e]]; cbn [snd]; [|reflexivity].
  destruct ab as [x|abs], ev as [y|evs]; try reflexivity. unfold hbind, lift, modal_pure. destruct (sort_eigenmodes _); reflexivity.
Qed.

Lemma bcolumns_eq n B : shape n 2 B -> (0 < n)%nat -> bcolumns B = [rcol B 0; rcol B 1].
Proof. intros S Hn. unfold bcolumns. rewrite (hd_shape n 2 B S Hn). reflexivity. Qed.
Lemma eigen_col_pos n A lam (V : list (list cplx)) j (left : bool) : length V = n -> (if left then left_eigenpair else right_eigenpair) n A lam V j -> 0 < norm_c (ccol V j).
Proof.
  intros LV EP. apply norm_c_pos.
  assert (X : exists i, (i < n)%nat /\ cent V i j <> (0, 0)) by (destruct left; apply EP). destruct X as (i & Hi & NZ).
  exists (cent V i j). split; [|exact NZ]. unfold ccol, cent. apply in_map_iff. exists (nth i V []). split; [reflexivity|]. apply nth_In. lia.
Qed.

Lemma modal_meaning eig m s acute ov h d abs evs : eig_contract eig -> m = MMeijaard \/ m = MFeedback -> fit m s h d -> NoDup (dkeys ov) ->
  snd (state_space m s ov h) = Ok (Stack abs) -> snd (calc_eigen eig (state_space m s) true ov h) = Ok (Stack evs) -> abs <> [] ->
  exists l, snd (modal_controllability eig (state_space m s) acute ov h) = Ok l /\ length l = length abs /\
    forall k, (k < length abs)%nat -> shape 4 2 (nth k l []) /\
      forall i j, (i < 4)%nat -> (j < 2)%nat -> exists c, (c < 4)%nat /\ (k = 0%nat -> c = i) /\
        modal_angle acute (ccol (snd (nth k evs ([], []))) c) (rcol (snd (nth k abs ([], []))) j) (ent (nth k l []) i j).
Proof.
  intros EC HM F N EA EV NE. rewrite (modal_eq eig m s acute ov h d F N), EA, EV.
  assert (SE : sound_equations m) by (destruct HM as [-> | ->]; exact Logic.I).
  assert (NS : n_states m = 4%nat /\ n_inputs m = 2%nat) by (destruct HM as [-> | ->]; split; reflexivity). destruct NS as (NS & NI).
  destruct (eigen_stack eig m s true ov h d evs EC SE F N EV) as (abs' & EA' & LE & EP). assert (abs' = abs) by congruence. subst abs'. clear EA'. rewrite NS in EP.
  pose proof (proj2 (sst_shape m s ov h d SE F N) abs EA) as SH. rewrite NS, NI in SH.
  pose proof (proj2 (sst_rows m s ov h d F N) abs EA) as RW.
  set (rows := map (fun e : eigres => (fst e, columns_of (snd e))) evs).
  assert (RC : rect 4 rows).
  { unfold rect, rows. apply Forall_forall. intros r IN. apply in_map_iff in IN. destruct IN as ([w V] & <- & IN). cbn [fst snd].
    destruct (In_nth evs (w, V) ([], []) IN) as (i & Hi & EI). specialize (EP i Hi). rewrite EI in EP. destruct EP as (LW & LV & _). cbn [fst snd] in *.
    split; [exact LW|]. unfold columns_of. rewrite map_length, seq_length. exact LV. }
  assert (LR : length rows = length abs) by (unfold rows; rewrite map_length; lia).
  destruct rows as [|r0 rows'] eqn:ER; [destruct abs; [contradiction|discriminate]|].
  destruct (sort_eigenmodes_spec 4 r0 rows' RC) as (out & ESO & RO & LO & CH).
  unfold modal_pure. fold rows. rewrite ER. cbn [bind]. rewrite ESO. cbn [bind].
  (* rows of the sorted modes *)
  assert (PK : forall k, (k < length abs)%nat -> length (snd (nth k (r0 :: out) ([], []))) = 4%nat /\
      forall i, (i < 4)%nat -> exists c, (c < 4)%nat /\ (k = 0%nat -> c = i) /\ nth i (snd (nth k (r0 :: out) ([], []))) [] = ccol (snd (nth k evs ([], []))) c).
  { assert (RN : forall k, (k < length abs)%nat -> snd (nth k rows ([], [])) = columns_of (snd (nth k evs ([], []))) /\ length (snd (nth k evs ([], []))) = 4%nat).
    { intros k Hk. split.
      - assert (EQN : nth k rows ([], []) = (fun e : eigres => (fst e, columns_of (snd e))) (nth k evs ([], []))) by exact (map_nth (fun e : eigres => (fst e, columns_of (snd e))) evs ([], []) k).
        rewrite EQN. reflexivity.
      - specialize (EP k ltac:(lia)). apply EP. }
    intros k Hk. destruct (RN k Hk) as (RK & LK). rewrite ER in RK. destruct k as [|k].
    - cbn [nth] in *. rewrite RK. split; [unfold columns_of; rewrite map_length, seq_length; exact LK|].
      intros i Hi. exists i. split; [exact Hi|]. split; [reflexivity|]. apply (columns_of_nth _ 4 LK i Hi).
    - cbn [nth] in *. assert (Hk' : (k < length out)%nat) by (simpl in LR; lia).
      pose proof (chained_picks _ _ _ CH) as F2.
      assert (G : forall k (a b : list cplx * list (list cplx)) (inp out : list (list cplx * list (list cplx))), Forall2 (fun i o => length (snd o) = length (fst o) /\ forall x, In x (snd o) -> In x (snd i)) inp out ->
         (k < length out)%nat -> forall x, In x (snd (nth k out b)) -> In x (snd (nth k inp a))).
      { clear. intros k a b inp out F2. revert k. induction F2 as [|i o inp out (_ & H) F2 IH]; intros k Hk; [simpl in Hk; lia|].
        destruct k as [|k]; cbn [nth]; [exact H|]. apply IH. simpl in Hk. lia. }
      assert (L4 : length (snd (nth k out ([], []))) = 4%nat).
      { unfold rect in RO. rewrite Forall_forall in RO. apply (RO (nth k out ([], []))). apply nth_In, Hk'. }
      split; [exact L4|]. intros i Hi.
      assert (IN : In (nth i (snd (nth k out ([], []))) []) (snd (nth k out ([], [])))) by (apply nth_In; lia).
      apply (G k ([], []) ([], []) rows' out F2 Hk') in IN. rewrite RK in IN. apply in_columns in IN. destruct IN as (c & Hc & EQ).
      exists c. split; [lia|]. split; [lia|exact EQ]. }
  (* every angle is defined *)
  assert (DEF : forall k, (k < length abs)%nat -> forall c, (c < 4)%nat -> forall j, (j < 2)%nat ->
     exists beta, mod_cont acute (ccol (snd (nth k evs ([], []))) c) (rcol (snd (nth k abs ([], []))) j) = Ok beta /\
                  modal_angle acute (ccol (snd (nth k evs ([], []))) c) (rcol (snd (nth k abs ([], []))) j) beta).
  { intros k Hk c Hc j Hj. apply mod_cont_angle.
    - specialize (EP k ltac:(lia)). destruct EP as (_ & LV & _ & EJ). eapply (eigen_col_pos 4 _ _ _ c true LV). apply EJ, Hc.
    - apply norm_r_pos. destruct (nth k abs ([], [])) as [A B] eqn:EAB.
      destruct (RW (A, B)) as (d' & CD & ERW); [rewrite <- EAB; apply nth_In, Hk|]. cbn [snd]. eapply first_order_row_b; eauto. }
  set (sorted := r0 :: out) in *.
  assert (LS : length sorted = length abs) by (unfold sorted; simpl in *; lia).
  assert (ROW : forall k, (k < length abs)%nat -> exists M, (fun be : (marr * marr) * (list cplx * list (list cplx)) =>
      mapM (fun q => mapM (mod_cont acute q) (bcolumns (snd (fst be)))) (snd (snd be))) (nth k (combine abs sorted) (([], []), ([], []))) = Ok M).
  { intros k Hk. rewrite combine_nth by (symmetry; exact LS). cbn [fst snd].
    assert (SB : shape 4 2 (snd (nth k abs ([], [])))).
    { destruct (nth k abs ([], [])) as [A B] eqn:EAB. apply (SH A B). rewrite <- EAB. apply nth_In, Hk. }
    pose proof (bcolumns_eq 4 _ SB ltac:(lia)) as BC. unfold marr in *. rewrite BC. destruct (PK k Hk) as (L4 & HC).
    assert (ALL : forall q, In q (snd (nth k sorted ([], []))) -> exists r, mapM (mod_cont acute q) [rcol (snd (nth k abs ([], []))) 0; rcol (snd (nth k abs ([], []))) 1] = Ok r).
    { intros q IN. destruct (In_nth _ _ [] IN) as (i & Hi & <-). destruct (HC i ltac:(lia)) as (c & Hc & _ & ->).
      destruct (DEF k Hk c Hc 0%nat ltac:(lia)) as (b0 & E0 & _). destruct (DEF k Hk c Hc 1%nat ltac:(lia)) as (b1 & E1 & _).
      cbn [mapM]. rewrite E0, E1. eexists; reflexivity. }
    apply mapM_total. exact ALL. }
  assert (TOT : exists l, mapM (fun be : (marr * marr) * (list cplx * list (list cplx)) => mapM (fun q => mapM (mod_cont acute q) (bcolumns (snd (fst be)))) (snd (snd be))) (combine abs sorted) = Ok l).
  { assert (LC : length (combine abs sorted) = length abs) by (rewrite combine_length; rewrite LS; apply Nat.min_id).
    assert (ALL : forall be, In be (combine abs sorted) -> exists M, (fun be : (marr * marr) * (list cplx * list (list cplx)) => mapM (fun q => mapM (mod_cont acute q) (bcolumns (snd (fst be)))) (snd (snd be))) be = Ok M).
    { intros be IN. destruct (In_nth _ _ (([], []), ([], [])) IN) as (k & Hk & <-). apply ROW. rewrite <- LC. exact Hk. }
    apply mapM_total. exact ALL. }
  destruct TOT as (l & EL). exists l. split; [exact EL|]. apply mapM_nth_iff in EL. rewrite combine_length, LS, Nat.min_id in EL. destruct EL as (LL & HL). split; [exact LL|].
  intros k Hk. specialize (HL k (([], []), ([], [])) [] Hk). rewrite combine_nth in HL by (symmetry; exact LS). cbn [fst snd] in HL.
  assert (SB : shape 4 2 (snd (nth k abs ([], [])))).
  { destruct (nth k abs ([], [])) as [A B] eqn:EAB. apply (SH A B). rewrite <- EAB. apply nth_In, Hk. }
  pose proof (bcolumns_eq 4 _ SB ltac:(lia)) as BC. unfold marr in *. rewrite BC in HL. destruct (PK k Hk) as (L4 & HC). apply mapM_nth_iff in HL. rewrite L4 in HL. destruct HL as (LM & HM').
  assert (RWS : forall i, (i < 4)%nat -> exists c b0 b1, (c < 4)%nat /\ (k = 0%nat -> c = i) /\ nth i (nth k l []) [] = [b0; b1] /\
     modal_angle acute (ccol (snd (nth k evs ([], []))) c) (rcol (snd (nth k abs ([], []))) 0) b0 /\ modal_angle acute (ccol (snd (nth k evs ([], []))) c) (rcol (snd (nth k abs ([], []))) 1) b1).
  { intros i Hi. specialize (HM' i [] [] Hi). destruct (HC i Hi) as (c & Hc & K0 & EQ). rewrite EQ in HM'.
    destruct (DEF k Hk c Hc 0%nat ltac:(lia)) as (b0 & E0 & A0). destruct (DEF k Hk c Hc 1%nat ltac:(lia)) as (b1 & E1 & A1).
    cbn [mapM] in HM'. rewrite E0, E1 in HM'. cbn [bind] in HM'. injection HM' as HM'. exists c, b0, b1. repeat split; auto; apply A0 || apply A1. }
  split.
  - split; [exact LM|]. intros row IN. destruct (In_nth _ _ [] IN) as (i & Hi & <-). destruct (RWS i ltac:(lia)) as (c & b0 & b1 & _ & _ & -> & _). reflexivity.
  - intros i j Hi Hj. destruct (RWS i Hi) as (c & b0 & b1 & Hc & K0 & EQ & A0 & A1). exists c. split; [exact Hc|]. split; [exact K0|].
    unfold ent. rewrite EQ. destruct j as [|[|j]]; [exact A0 | exact A1 | lia].
Qed.
