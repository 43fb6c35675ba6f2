(* PPlots4.v -- the figures of the models: eigenvectors *)
From Coq Require Import Lra Lia.
From Verif Require Import Base MString MHeap MBicycle MVec MInertia MSets MSets2 MModels MModels2 MEig MDraw PBase SBicycle PBicycle PHeap SModels SModels2 SSort PSort
  PModels PModels2 PModels3 PModels4 PSets3 PModels5 PModels6 PModels7 PModels8 PModels9 PModels10 PModels11 PEig3 PDraw MPlots SPlots PPlots PPlots2 PPlots3.
Local Open Scope string_scope.
Local Open Scope R_scope.

Lemma npatan2_scale k y x : 0 < k -> npatan2 (k * y) (k * x) = npatan2 y x.
Proof.
  intros K. unfold npatan2.
  assert (D : x <> 0 -> k * y / (k * x) = y / x) by (intros; field; lra).
  assert (P : forall a b, Rltb a b = true -> a < b) by (intros; apply Rltb_spec; assumption).
  assert (Q : forall a b, Rltb a b = false -> b <= a) by (intros; apply Rltb_false; assumption).
  destruct (Rltb 0 x) eqn:E1.
  - apply P in E1. replace (Rltb 0 (k * x)) with true by (symmetry; apply Rltb_spec; nra). rewrite D by lra. reflexivity.
  - apply Q in E1. replace (Rltb 0 (k * x)) with false by (symmetry; apply Rltb_false; nra).
    destruct (Rltb x 0) eqn:E2.
    + apply P in E2. replace (Rltb (k * x) 0) with true by (symmetry; apply Rltb_spec; nra). rewrite D by lra.
      destruct (Rleb 0 y) eqn:E3.
      * apply Rleb_spec in E3. replace (Rleb 0 (k * y)) with true by (symmetry; apply Rleb_spec; nra). reflexivity.
      * assert (y < 0). { destruct (Rle_lt_dec 0 y) as [L|L]; [|exact L]. apply Rleb_spec in L. congruence. }
        replace (Rleb 0 (k * y)) with false; [reflexivity|]. symmetry. destruct (Rleb 0 (k * y)) eqn:E4; [|reflexivity]. apply Rleb_spec in E4. nra.
    + apply Q in E2. replace (Rltb (k * x) 0) with false by (symmetry; apply Rltb_false; nra).
      destruct (Rltb 0 y) eqn:E3.
      * apply P in E3. replace (Rltb 0 (k * y)) with true by (symmetry; apply Rltb_spec; nra). reflexivity.
      * apply Q in E3. replace (Rltb 0 (k * y)) with false by (symmetry; apply Rltb_false; nra).
        destruct (Rltb y 0) eqn:E4.
        -- apply P in E4. replace (Rltb (k * y) 0) with true by (symmetry; apply Rltb_spec; nra). reflexivity.
        -- apply Q in E4. replace (Rltb (k * y) 0) with false by (symmetry; apply Rltb_false; nra). reflexivity.
Qed.
Lemma npatan2_range y x : - PI < npatan2 y x <= PI.
Proof.
  unfold npatan2. pose proof PI_RGT_0 as P. pose proof (atan_bound (y / x)) as B.
  destruct (Rltb 0 x) eqn:E1; [lra|]. destruct (Rltb x 0) eqn:E2.
  - apply Rltb_spec in E2. destruct (Rleb 0 y) eqn:E3.
    + apply Rleb_spec in E3. split; [lra|]. assert (y / x <= 0).
      { unfold Rdiv. assert (/ x < 0) by (apply Rinv_lt_0_compat; exact E2). nra. }
      assert (atan (y / x) <= 0). { destruct (Req_dec (y / x) 0) as [->|NE]; [rewrite atan_0; lra|]. rewrite <- atan_0. left. apply atan_increasing. lra. }
      lra.
    + assert (y < 0). { destruct (Rle_lt_dec 0 y) as [L|L]; [|exact L]. apply Rleb_spec in L. congruence. }
      assert (0 < y / x). { unfold Rdiv. assert (/ x < 0) by (apply Rinv_lt_0_compat; exact E2). nra. }
      assert (0 < atan (y / x)). { rewrite <- atan_0. apply atan_increasing. exact H0. }
      lra.
  - destruct (Rltb 0 y); [lra|]. destruct (Rltb y 0); lra.
Qed.
Lemma cmod_pos z : 0 <= cmod z. Proof. apply sqrt_pos. Qed.
Lemma cmod_sq z : cmod z * cmod z = fst z * fst z + snd z * snd z. Proof. apply sqrt_sqrt. nra. Qed.
Lemma cmod_zero z : cmod z = 0 -> z = (0, 0).
Proof. intros E. pose proof (cmod_sq z) as Q. rewrite E in Q. destruct z as [a b]. cbn [fst snd] in Q. assert (a = 0) by nra. assert (b = 0) by nra. subst. reflexivity. Qed.
Lemma cmod_00 : cmod (0, 0) = 0. Proof. unfold cmod. cbn [fst snd]. replace (0 * 0 + 0 * 0) with 0 by ring. apply sqrt_0. Qed.
Lemma polar_of z : cmod z * cos (npatan2 (snd z) (fst z)) = fst z /\ cmod z * sin (npatan2 (snd z) (fst z)) = snd z.
Proof.
  destruct (Req_dec (cmod z) 0) as [E|NE]; [rewrite (cmod_zero _ E), cmod_00; cbn [fst snd]; lra|].
  pose proof (cmod_pos z). assert (K : 0 < / cmod z) by (apply Rinv_0_lt_compat; lra).
  rewrite <- (npatan2_scale (/ cmod z) _ _ K).
  assert (U : (/ cmod z * fst z) ^ 2 + (/ cmod z * snd z) ^ 2 = 1).
  { replace ((/ cmod z * fst z) ^ 2 + (/ cmod z * snd z) ^ 2) with (/ cmod z * / cmod z * (fst z * fst z + snd z * snd z)) by ring.
    rewrite <- cmod_sq. field. exact NE. }
  destruct (atan2_unit _ _ U) as (-> & ->). split; field; exact NE.
Qed.

Lemma in_combine_seq {A} (v : list A) a j z (d : A) : In (j, z) (combine (seq a (length v)) v) -> (a <= j < a + length v)%nat /\ nth (j - a) v d = z.
Proof.
  revert a. induction v as [|x v IH]; intros a; [intros []|]. cbn [length seq combine]. intros [E|I].
  - injection E as <- <-. split; [lia|]. rewrite Nat.sub_diag. reflexivity.
  - apply IH in I. destruct I as (B & <-). split; [lia|]. replace (j - a)%nat with (S (j - S a)) by lia. reflexivity.
Qed.
Lemma combine_seq_nth {A} (v : list A) j (d : A) : (j < length v)%nat -> nth_error (combine (seq 0 (length v)) v) j = Some (j, nth j v d).
Proof.
  intros Hj. rewrite (nth_error_nth' _ (0%nat, d)) by (rewrite combine_length, seq_length; lia).
  rewrite combine_nth by (rewrite seq_length; reflexivity). rewrite seq_nth by exact Hj. reflexivity.
Qed.
Lemma vector_lines_ok n v : (length v <= n)%nat -> v <> [] -> exists ls, vector_lines n v = Ok ls /\ length ls = length v /\
  (forall j, (j < length v)%nat -> exists p, nth_error ls j = Some p /\ po_width p = (n - j)%nat) /\
  ((exists z, In z v /\ z <> (0, 0)) -> shows_vector v ls) /\
  ((forall z, In z v -> z = (0, 0)) -> forall p, In p ls -> po_radius p = None).
Proof.
  intros L NE. destruct (lmax_ok (map cmod v)) as (r & ER); [intros X; apply map_eq_nil in X; contradiction|].
  destruct (lmax_spec _ _ ER) as (I & U). unfold vector_lines. rewrite ER. cbn [bind].
  set (f := fun jc : nat * cplx => mkpolar (npatan2 (snd (snd jc)) (fst (snd jc))) (if Req_EM_T r 0 then None else Some (cmod (snd jc) / r)) (n - fst jc)).
  assert (EM : forall l : list (nat * cplx), (forall jz, In jz l -> (fst jz < n)%nat) -> mapM (fun jc : nat * cplx => let '(j, z) := jc in
     if (j <? n)%nat then Ok (mkpolar (npatan2 (snd z) (fst z)) (if Req_EM_T r 0 then None else Some (cmod z / r)) (n - j)) else Err IndexError) l = Ok (map f l)).
  { induction l as [|[j z] l IH]; [reflexivity|]. intros HL. cbn [mapM map]. pose proof (HL _ (or_introl eq_refl)) as Hj. cbn [fst] in Hj.
    apply Nat.ltb_lt in Hj. rewrite Hj. cbn [bind]. rewrite IH by (intros; apply HL; right; assumption). reflexivity. }
  rewrite EM; [|intros [j z] H; apply (in_combine_seq v 0 j z (0, 0)) in H; cbn [fst]; lia].
  exists (map f (combine (seq 0 (length v)) v)). split; [reflexivity|].
  assert (NT : forall j, (j < length v)%nat -> nth_error (map f (combine (seq 0 (length v)) v)) j = Some (f (j, nth j v (0, 0)))).
  { intros j Hj. erewrite map_nth_error by (apply combine_seq_nth, Hj). reflexivity. }
  split; [rewrite map_length, combine_length, seq_length; lia|]. split.
  { intros j Hj. eexists. split; [apply NT, Hj|]. reflexivity. }
  split.
  - intros (z & Iz & Nz). assert (RP : 0 < r).
    { pose proof (U (cmod z) (in_map _ _ _ Iz)). pose proof (cmod_pos z). destruct (Req_dec (cmod z) 0) as [E|E]; [apply cmod_zero in E; contradiction|lra]. }
    assert (R0 : r <> 0) by lra.
    split; [rewrite map_length, combine_length, seq_length; lia|]. exists r. split; [exact RP|]. split.
    + apply in_map_iff in I. destruct I as (z0 & E0 & I0). apply (In_nth _ _ (0, 0)) in I0. destruct I0 as (j & Hj & Ej).
      exists (f (j, nth j v (0, 0))). split; [eapply nth_error_In, NT, Hj|]. unfold f. cbn [po_radius snd fst]. rewrite Ej, E0.
      destruct (Req_EM_T r 0); [contradiction|]. f_equal. field. exact R0.
    + intros j Hj. eexists. split; [apply NT, Hj|]. unfold shows_polar, f. cbn [po_angle po_radius fst snd]. split; [apply npatan2_range|].
      destruct (Req_EM_T r 0); [contradiction|]. eexists. split; [reflexivity|].
      set (zj := nth j v (0, 0)). pose proof (cmod_pos zj) as CP. assert (CU : cmod zj <= r) by (apply U, in_map, nth_In, Hj).
      split.
      { split; [apply Rmult_le_pos; [exact CP|left; apply Rinv_0_lt_compat, RP]|]. apply (Rmult_le_reg_r r); [exact RP|]. unfold Rdiv. rewrite Rmult_assoc, Rinv_l by exact R0. lra. }
      replace (r * (cmod zj / r)) with (cmod zj) by (field; exact R0). apply polar_of.
  - intros Z p Ip. apply in_map_iff in Ip. destruct Ip as ([j z] & <- & _). unfold f. cbn [po_radius].
    apply in_map_iff in I. destruct I as (z0 & E0 & I0). rewrite (Z _ I0), cmod_00 in E0. destruct (Req_EM_T r 0); [reflexivity|congruence].
Qed.
Lemma mapM_err_some {A B} (f : A -> res B) l e : (exists x, In x l /\ f x = Err e) -> (forall x, In x l -> f x = Err e \/ exists y, f x = Ok y) -> mapM f l = Err e.
Proof.
  induction l as [|a l IH]; intros (x & I & E) H; [destruct I|]. cbn [mapM]. destruct (H a (or_introl eq_refl)) as [->|(y & EY)]; [reflexivity|].
  rewrite EY. cbn [bind]. destruct I as [->|I]; [congruence|]. rewrite IH; [reflexivity|eauto|intros; apply H; right; assumption].
Qed.
Lemma mapM_err_or {A B} (f : A -> res B) l e : (forall x, In x l -> f x = Err e \/ exists y, f x = Ok y) -> mapM f l = Err e \/ exists y, mapM f l = Ok y.
Proof.
  induction l as [|a l IH]; intros H; [right; eexists; reflexivity|]. cbn [mapM]. destruct (H a (or_introl eq_refl)) as [->|(y & ->)]; [auto|]. cbn [bind].
  destruct IH as [->|(y' & ->)]; [intros; apply H; right; assumption|auto|right; eexists; reflexivity].
Qed.
Lemma vector_lines_err n v : (n < length v)%nat -> vector_lines n v = Err IndexError.
Proof.
  intros L. unfold vector_lines. destruct (lmax_ok (map cmod v)) as (r & ->); [destruct v; [cbn in L; lia|discriminate]|]. cbn [bind].
  apply mapM_err_some.
  - exists (n, nth n v (0, 0)). split; [eapply nth_error_In, combine_seq_nth, L|]. rewrite Nat.ltb_irrefl. reflexivity.
  - intros [j z] _. destruct (j <? n)%nat; eauto.
Qed.

(* ---- the visible modes ---- *)
Definition vmask (default : R) (hz : hide_arg) (z : cplx) : bool := negb (hides hz && Rltb (cmod z) (tol_of default hz)).
Definition vis (default : R) (hz : hide_arg) (w : list cplx) : list nat := filter (fun j => vmask default hz (nth j w (0, 0))) (seq 0 (length w)).
Lemma filter_seq_sorted (p : nat -> bool) n : forall a, (forall i j, (i < j)%nat -> (j < length (filter p (seq a n)))%nat -> (nth i (filter p (seq a n)) 0 < nth j (filter p (seq a n)) 0)%nat).
Proof.
  induction n as [|n IH]; intros a i j Hij Hj; [cbn in Hj; lia|]. cbn [seq filter] in *. destruct (p a) eqn:PA.
  - destruct j as [|j]; [lia|]. cbn [length] in Hj. destruct i as [|i]; cbn [nth].
    + assert (I : In (nth j (filter p (seq (S a) n)) 0%nat) (filter p (seq (S a) n))) by (apply nth_In; lia).
      apply filter_In in I. destruct I as (I & _). apply in_seq in I. lia.
    + apply IH; lia.
  - apply IH; assumption.
Qed.
Lemma vis_shown default hz w : 0 < default -> shown_modes default hz w (vis default hz w).
Proof.
  intros DP. split; [intros; apply filter_seq_sorted; assumption|].
  intros j. unfold vis. rewrite filter_In, in_seq. cbn [plus]. match goal with |- (?a /\ ?b <-> ?c /\ ?d) => assert (Q : b <-> d); [|split; intros (X1 & X2); (split; [lia|apply Q, X2])] end.
  unfold vmask, cmod. destruct hz as [| |t]; cbn [hides tol_of].
  - cbn. tauto.
  - cbn [andb]. rewrite Bool.negb_true_iff, Rltb_false. split; intros H; [replace (fst (nth j w (0, 0)) ^ 2 + snd (nth j w (0, 0)) ^ 2) with (fst (nth j w (0, 0)) * fst (nth j w (0, 0)) + snd (nth j w (0, 0)) * snd (nth j w (0, 0))) by ring; exact H|].
    replace (fst (nth j w (0, 0)) * fst (nth j w (0, 0)) + snd (nth j w (0, 0)) * snd (nth j w (0, 0))) with (fst (nth j w (0, 0)) ^ 2 + snd (nth j w (0, 0)) ^ 2) by ring; exact H.
  - replace (fst (nth j w (0, 0)) * fst (nth j w (0, 0)) + snd (nth j w (0, 0)) * snd (nth j w (0, 0))) with (fst (nth j w (0, 0)) ^ 2 + snd (nth j w (0, 0)) ^ 2) by ring.
    destruct (Req_EM_T t 0) as [->|NE]; cbn [andb negb].
    + split; [|tauto]. intros _. apply sqrt_pos.
    + rewrite Bool.negb_true_iff, Rltb_false. tauto.
Qed.

Lemma filter_combine {A} (l : list A) (mk : list bool) d : length mk = length l -> forall a,
  filter snd (combine l mk) = map (fun j => (nth (j - a) l d, true)) (filter (fun j => nth (j - a) mk false) (seq a (length l))).
Proof.
  revert mk. induction l as [|x l IH]; intros mk E a; [reflexivity|]. destruct mk as [|b mk]; [discriminate|]. injection E as E.
  cbn [combine filter snd length seq]. replace (nth (a - a) (b :: mk) false) with b by (rewrite Nat.sub_diag; reflexivity). rewrite (IH mk E (S a)).
  assert (F : filter (fun j => nth (j - a) (b :: mk) false) (seq (S a) (length l)) = filter (fun j => nth (j - S a) mk false) (seq (S a) (length l))).
  { apply filter_ext_in. intros j Hj. apply in_seq in Hj. replace (j - a)%nat with (S (j - S a)) by lia. reflexivity. }
  rewrite F. assert (M : forall L, (forall j, In j L -> (a < j)%nat) -> map (fun j => (nth (j - a) (x :: l) d, true)) L = map (fun j => (nth (j - S a) l d, true)) L).
  { intros L HL. apply map_ext_in. intros j Hj. specialize (HL j Hj). replace (j - a)%nat with (S (j - S a)) by lia. reflexivity. }
  destruct b; [cbn [map]; rewrite Nat.sub_diag; change (nth 0 (x :: l) d) with x; f_equal|]; rewrite M; auto; intros j Hj; apply filter_In in Hj; destruct Hj as (Hj & _); apply in_seq in Hj; lia.
Qed.
Lemma shown_vis default hz lastw (ws : list cplx) (vs : list (list cplx)) : length ws = length lastw -> length vs = length lastw ->
  filter snd (combine (combine ws vs) (map (vmask default hz) lastw)) = map (fun j => (nth j ws (0, 0), nth j vs [], true)) (vis default hz lastw).
Proof.
  intros L1 L2. rewrite (filter_combine (combine ws vs) (map (vmask default hz) lastw) ((0, 0), []) ltac:(rewrite map_length, combine_length, L1, L2, Nat.min_id; reflexivity) 0%nat). rewrite combine_length.
  replace (Nat.min (length ws) (length vs)) with (length lastw) by (rewrite L1, L2, Nat.min_id; reflexivity). unfold vis.
  rewrite (filter_ext_in _ (fun j => vmask default hz (nth j lastw (0, 0)))).
  - apply map_ext. intros j. rewrite Nat.sub_0_r, combine_nth by lia. reflexivity.
  - intros j Hj. apply in_seq in Hj. rewrite Nat.sub_0_r. rewrite (nth_map _ _ _ (0, 0)) by lia. reflexivity.
Qed.
Lemma count_vis default hz w : count (fun b => b) (map (vmask default hz) w) = length (vis default hz w).
Proof.
  unfold count, vis. assert (G : forall a, length (filter (fun b : bool => b) (map (vmask default hz) w)) = length (filter (fun j => vmask default hz (nth (j - a) w (0, 0))) (seq a (length w)))).
  { induction w as [|z w IH]; intros a; [reflexivity|]. cbn [map filter length seq]. replace (nth (a - a) (z :: w) (0, 0)) with z by (rewrite Nat.sub_diag; reflexivity).
    assert (F : filter (fun j => vmask default hz (nth (j - a) (z :: w) (0, 0))) (seq (S a) (length w)) = filter (fun j => vmask default hz (nth (j - S a) w (0, 0))) (seq (S a) (length w))).
    { apply filter_ext_in. intros j Hj. apply in_seq in Hj. replace (j - a)%nat with (S (j - S a)) by lia. reflexivity. }
    rewrite F. destruct (vmask default hz z); cbn [length]; rewrite (IH (S a)); reflexivity. }
  rewrite (G 0%nat). f_equal. apply filter_ext. intros j. rewrite Nat.sub_0_r. reflexivity.
Qed.

(* one row of panels *)
Lemma mapM_nth_error {A B} (f : A -> res B) l ys i x : mapM f l = Ok ys -> nth_error l i = Some x -> exists y, nth_error ys i = Some y /\ f x = Ok y.
Proof.
  intros E EX. pose proof (nth_error_Some l i) as Q. rewrite EX in Q. assert (Hi : (i < length l)%nat) by (apply Q; discriminate).
  pose proof (mapM_length _ _ _ E) as L. destruct (nth_error ys i) as [y|] eqn:EY; [|apply nth_error_None in EY; lia].
  exists y. split; [reflexivity|]. pose proof (mapM_nth f l ys i x y E Hi) as X. rewrite (nth_error_nth _ _ _ EX), (nth_error_nth _ _ _ EY) in X. exact X.
Qed.
Definition row_panels (n ac k : nat) (shown : list (cplx * list cplx * bool)) : res (list panel) :=
  mapM (fun iz : nat * (cplx * list cplx * bool) => let '(i, ((w, v), _)) := iz in
          ls <- vector_lines n v ;;
          if (ac <=? i)%nat then Err IndexError else
          Ok (mkpanel k i ls w (Rleb 0 (fst w)))) (combine (seq 0 (length shown)) shown).
Lemma row_panels_ok n ac k ws vs js : (length js <= ac)%nat -> (forall j, In j js -> nth j vs [] <> [] /\ (length (nth j vs []) <= n)%nat) ->
  exists ps, row_panels n ac k (map (fun j => (nth j ws (0, 0), nth j vs [], true)) js) = Ok ps /\ length ps = length js /\
    forall a, (a < length js)%nat -> exists p, nth_error ps a = Some p /\ pn_row p = k /\ pn_col p = a /\ pn_title p = nth (nth a js 0%nat) ws (0, 0) /\
      (pn_red p = true <-> 0 <= fst (nth (nth a js 0%nat) ws (0, 0))) /\ vector_lines n (nth (nth a js 0%nat) vs []) = Ok (pn_lines p).
Proof.
  intros LA HV. unfold row_panels. rewrite map_length. set (sh := map _ js). set (g := fun iz : nat * (cplx * list cplx * bool) => _).
  assert (LS : length sh = length js) by apply map_length. rewrite <- LS.
  assert (NT : forall a, (a < length js)%nat -> nth_error (combine (seq 0 (length sh)) sh) a = Some (a, (nth (nth a js 0%nat) ws (0, 0), nth (nth a js 0%nat) vs [], true))).
  { intros a Ha. rewrite (combine_seq_nth sh a ((0, 0), [], true)) by (eapply Nat.lt_le_trans; [exact Ha|apply Nat.eq_le_incl; symmetry; exact LS]). f_equal. f_equal. unfold sh.
    rewrite (nth_map _ js a 0%nat) by exact Ha. reflexivity. }
  assert (EX : exists ps, mapM g (combine (seq 0 (length sh)) sh) = Ok ps).
  { apply mapM_total. intros [i [[w v] b]] I. pose proof I as I2. apply (in_combine_seq sh 0 i _ ((0, 0), [], true)) in I2. destruct I2 as (B & E2). cbn [plus] in B. rewrite Nat.sub_0_r in E2.
    assert (Hi : (i < length js)%nat) by lia. pose proof (NT i Hi) as X. rewrite (combine_seq_nth sh i ((0, 0), [], true)) in X by lia. rewrite E2 in X. injection X as -> -> ->.
    unfold g. cbn zeta beta iota. destruct (HV (nth i js 0%nat) (nth_In _ _ Hi)) as (H1 & H2). destruct (vector_lines_ok n _ H2 H1) as (ls & EL & _). rewrite EL. cbn [bind].
    replace (ac <=? i)%nat with false by (symmetry; apply Nat.leb_gt; lia). eauto. }
  destruct EX as (ps & EP). exists ps. split; [exact EP|]. pose proof (mapM_length _ _ _ EP) as LP. rewrite combine_length, seq_length in LP. split; [lia|].
  intros a Ha. rewrite LS in Ha. destruct (mapM_nth_error _ _ _ _ _ EP (NT a Ha)) as (p & EA & EG). exists p. split; [exact EA|].
  unfold g in EG. apply bind_ok in EG. destruct EG as (ls & EL & EG). destruct (ac <=? a)%nat; [discriminate|]. injection EG as <-. cbn [pn_row pn_col pn_title pn_red pn_lines].
  do 3 (split; [reflexivity|]). split; [apply Rleb_spec | exact EL].
Qed.

Lemma nth_error_combine {A B} (l : list A) (l' : list B) k a b : nth_error l k = Some a -> nth_error l' k = Some b -> nth_error (combine l l') k = Some (a, b).
Proof. revert l' k. induction l as [|x l IH]; intros [|y l'] [|k]; cbn; try discriminate; try congruence. apply IH. Qed.
Lemma last_indep {A} (l : list A) d d' : l <> [] -> last l d = last l d'.
Proof. induction l as [|x l IH]; [congruence|]. intros _. destruct l as [|y l]; [reflexivity|]. change (last (y :: l) d = last (y :: l) d'). apply IH. discriminate. Qed.
Lemma concat_nth_error {A} (ls : list (list A)) m k a : (forall l, In l ls -> length l = m) -> (k < length ls)%nat -> (a < m)%nat ->
  nth_error (concat ls) (k * m + a) = nth_error (nth k ls []) a.
Proof.
  revert k. induction ls as [|l ls IH]; intros k HL Hk Ha; [cbn in Hk; lia|]. cbn [concat]. pose proof (HL l (or_introl eq_refl)) as L.
  destruct k as [|k]; cbn [nth].
  - rewrite nth_error_app1 by lia. reflexivity.
  - rewrite nth_error_app2 by lia. replace (S k * m + a - length l)%nat with (k * m + a)%nat by lia. apply IH; [intros; apply HL; right; assumption|cbn in Hk; lia|exact Ha].
Qed.
Lemma concat_length_eq {A} (ls : list (list A)) m : (forall l, In l ls -> length l = m) -> length (concat ls) = (length ls * m)%nat.
Proof. induction ls as [|l ls IH]; intros H; [reflexivity|]. cbn [concat length]. rewrite app_length, IH by (intros; apply H; right; assumption). rewrite (H l (or_introl eq_refl)). lia. Qed.

(* a panel for the mode j with the vector v at (k, a) *)
Definition panel_is (n k a : nat) (w : cplx) (v : list cplx) (p : panel) : Prop :=
  pn_row p = k /\ pn_col p = a /\ pn_title p = w /\ (pn_red p = true <-> 0 <= fst w) /\ vector_lines n v = Ok (pn_lines p).
(* the body of the figure for blocks of vectors *)
Lemma figure_rows n par keys (ev : shaped eigres) hz (M : nat) lastw par_vals :
  let ws k := nth k (evals_2d ev) [] in let vs k := nth k (evecs_T ev) [] in let js := vis (1 / 10 ^ 14) hz lastw in
  length (evals_2d ev) = M -> (0 < M <= 10)%nat -> last (evals_2d ev) [] = lastw -> (M <= length (evecs_T ev))%nat ->
  (match keys with [] => Ok [0] | _ => kx <- x_values par keys ;; Ok (snd kx) end) = Ok par_vals -> length par_vals = M ->
  (forall k, (k < M)%nat -> length (ws k) = length lastw /\ length (vs k) = length lastw) ->
  (js = [] -> vectors_figure n par keys ev hz = Err (ValueError "Number of columns must be a positive integer")) /\
  ((forall k j, (k < M)%nat -> In j js -> nth j (vs k) [] <> [] /\ (length (nth j (vs k) []) <= n)%nat) ->
     (length js = 1%nat -> (1 < M)%nat -> vectors_figure n par keys ev hz = Err IndexError) /\
     (js <> [] -> (length js = 1%nat -> M = 1%nat) ->
        exists ps, vectors_figure n par keys ev hz = Ok (ps, match keys with [] => [] | k :: _ => map (fun iv : nat * R => (fst iv, k, snd iv)) (combine (seq 0 M) par_vals) end) /\
          length ps = (M * length js)%nat /\
          forall k a, (k < M)%nat -> (a < length js)%nat -> exists p, nth_error ps (k * length js + a) = Some p /\
            panel_is n k a (nth (nth a js 0%nat) (ws k) (0, 0)) (nth (nth a js 0%nat) (vs k) []) p)).
Proof.
  intros ws vs js LE HM EL LT EP LP HL.
  set (blocks := map fst (combine (combine (evals_2d ev) (evecs_T ev)) par_vals)).
  assert (LB : length blocks = M) by (unfold blocks; rewrite map_length, !combine_length; lia).
  assert (NB : forall k, (k < M)%nat -> nth_error blocks k = Some (ws k, vs k)).
  { intros k Hk. unfold blocks. rewrite (map_nth_error fst k _ (d := ((ws k, vs k), nth k par_vals 0))); [reflexivity|]. apply nth_error_combine; [|apply (nth_error_nth' _ 0); lia].
    apply nth_error_combine; apply nth_error_nth'; lia. }
  assert (CB : length (combine (combine (evals_2d ev) (evecs_T ev)) par_vals) = M) by (rewrite <- LB; unfold blocks; rewrite map_length; reflexivity).
  set (rowf := fun (ar ac : nat) (kr : nat * (list cplx * list (list cplx))) => let '(k, (ws, vs)) := kr in
            if (ar <=? k)%nat then Err IndexError else
            row_panels n ac k (filter snd (combine (combine ws vs) (map (vmask (1 / 10 ^ 14) hz) lastw)))).
  assert (FIG : vectors_figure n par keys ev hz =
    if (length js =? 0)%nat then Err (ValueError "Number of columns must be a positive integer") else
    let '(ar, ac) := if (length js =? 1)%nat then (1%nat, M) else (M, length js) in
    rows <- mapM (rowf ar ac) (combine (seq 0 M) blocks) ;;
    Ok (concat rows, match keys with [] => [] | k :: _ => map (fun iv : nat * R => (fst iv, k, snd iv)) (combine (seq 0 (length rows)) par_vals) end)).
  { unfold vectors_figure. rewrite EP. destruct (evals_2d ev) as [|w0 r] eqn:EE; [cbn in LE; lia|].
    assert (LR : last r w0 = lastw) by (rewrite <- EL; destruct r as [|w1 r]; [reflexivity|]; apply (last_indep (w1 :: r)); discriminate).
    rewrite LR. cbn [bind]. rewrite LE. replace (10 <? M)%nat with false by (symmetry; apply Nat.ltb_ge; lia).
    change (map (fun z => negb (hides hz && Rltb (cmod z) (tol_of (1 / 10 ^ 14) hz))) lastw) with (map (vmask (1 / 10 ^ 14) hz) lastw).
    rewrite count_vis. fold js. destruct (length js =? 0)%nat; [reflexivity|]. destruct (length js =? 1)%nat; cbn [bind]; rewrite CB; reflexivity. }
  assert (ROW : forall ar ac k, (k < M)%nat -> rowf ar ac (k, (ws k, vs k)) = if (ar <=? k)%nat then Err IndexError else row_panels n ac k (map (fun j => (nth j (ws k) (0, 0), nth j (vs k) [], true)) js)).
  { intros ar ac k Hk. unfold rowf. destruct (HL k Hk) as (L1 & L2). rewrite (shown_vis _ _ _ _ _ L1 L2). reflexivity. }
  assert (NTB : forall k, (k < M)%nat -> nth_error (combine (seq 0 M) blocks) k = Some (k, (ws k, vs k))).
  { intros k Hk. apply nth_error_combine; [|apply NB, Hk]. rewrite (nth_error_nth' _ 0%nat) by (rewrite seq_length; exact Hk). rewrite seq_nth by exact Hk. reflexivity. }
  assert (INB : forall x, In x (combine (seq 0 M) blocks) -> exists k, (k < M)%nat /\ x = (k, (ws k, vs k))).
  { intros x I. apply In_nth_error in I. destruct I as (k & EK). assert (Hk : (k < M)%nat).
    { assert (X : (k < length (combine (seq 0 M) blocks))%nat) by (apply nth_error_Some; congruence). rewrite combine_length, seq_length in X. lia. }
    exists k. split; [exact Hk|]. rewrite (NTB k Hk) in EK. congruence. }
  split.
  - intros EJ. rewrite FIG, EJ. reflexivity.
  - intros HV. split.
    + intros EJ HM1. rewrite FIG, EJ. cbn [Nat.eqb]. rewrite (mapM_err_some _ _ IndexError); [reflexivity| |].
      * exists (1%nat, (ws 1%nat, vs 1%nat)). split; [eapply nth_error_In, NTB; lia|]. rewrite ROW by lia. reflexivity.
      * intros x Ix. destruct (INB x Ix) as (k0 & Hk0 & ->). rewrite ROW by exact Hk0. destruct (1 <=? k0)%nat; [auto|]. right.
        destruct (row_panels_ok n M k0 (ws k0) (vs k0) js) as (ps & -> & _); [lia|intros; apply HV; auto|]. eauto.
    + intros NJ H1.
      assert (EA : exists ar ac, (if (length js =? 1)%nat then (1%nat, M) else (M, length js)) = (ar, ac) /\ ar = M /\ (length js <= ac)%nat).
      { destruct (Nat.eqb_spec (length js) 1) as [E|E]; [|do 2 eexists; split; [reflexivity|lia]]. do 2 eexists; split; [reflexivity|]. rewrite E. specialize (H1 E). lia. }
      destruct EA as (ar & ac & EA & -> & HA).
      assert (RO : forall k, (k < M)%nat -> exists ps, rowf M ac (k, (ws k, vs k)) = Ok ps /\ length ps = length js /\
        forall a, (a < length js)%nat -> exists p, nth_error ps a = Some p /\ panel_is n k a (nth (nth a js 0%nat) (ws k) (0, 0)) (nth (nth a js 0%nat) (vs k) []) p).
      { intros k Hk. rewrite ROW by exact Hk. replace (M <=? k)%nat with false by (symmetry; apply Nat.leb_gt; exact Hk). apply row_panels_ok; [exact HA|intros; apply HV; auto]. }
      destruct (mapM_total (rowf M ac) (combine (seq 0 M) blocks)) as (rows & ER).
      { intros x Ix. destruct (INB x Ix) as (k0 & Hk0 & ->). destruct (RO k0 Hk0) as (ps & E & _). eauto. }
      pose proof (mapM_length _ _ _ ER) as LR. rewrite combine_length, seq_length, LB, Nat.min_id in LR.
      assert (RR : forall k, (k < M)%nat -> length (nth k rows []) = length js /\
        forall a, (a < length js)%nat -> exists p, nth_error (nth k rows []) a = Some p /\ panel_is n k a (nth (nth a js 0%nat) (ws k) (0, 0)) (nth (nth a js 0%nat) (vs k) []) p).
      { intros k Hk. destruct (mapM_nth_error _ _ _ _ _ ER (NTB k Hk)) as (ps & E1 & E2). rewrite (nth_error_nth _ _ [] E1). destruct (RO k Hk) as (ps' & E3 & R). rewrite E2 in E3. injection E3 as ->. exact R. }
      assert (RL : forall l, In l rows -> length l = length js).
      { intros l I. apply (In_nth _ _ []) in I. destruct I as (k & Hk & <-). apply RR. lia. }
      exists (concat rows). split; [|split].
      * rewrite FIG. replace (length js =? 0)%nat with false by (symmetry; apply Nat.eqb_neq; destruct js; [congruence|discriminate]). rewrite EA, ER. cbn [bind]. rewrite LR. reflexivity.
      * rewrite (concat_length_eq rows (length js) RL), LR. reflexivity.
      * intros k a Hk Ha. destruct (RR k Hk) as (_ & R). destruct (R a Ha) as (p & E1 & E2). exists p. split; [|exact E2]. rewrite concat_nth_error by (auto; lia). exact E1.
Qed.

(* more rows than line widths: the first panel fails *)
Lemma figure_long n par keys (ev : shaped eigres) hz M lastw par_vals w0 wr v0 vr :
  let js := vis (1 / 10 ^ 14) hz lastw in
  evals_2d ev = w0 :: wr -> evecs_T ev = v0 :: vr -> length (evals_2d ev) = M -> (0 < M <= 10)%nat -> last (evals_2d ev) [] = lastw ->
  (match keys with [] => Ok [0] | _ => kx <- x_values par keys ;; Ok (snd kx) end) = Ok par_vals -> par_vals <> [] ->
  length w0 = length lastw -> length v0 = length lastw -> js <> [] -> (forall j, In j js -> (n < length (nth j v0 []))%nat) ->
  vectors_figure n par keys ev hz = Err IndexError.
Proof.
  intros js EW EV LE HM EL EP NP L1 L2 NJ HV. unfold vectors_figure. rewrite EP, EW, EV in *. 
  assert (LR : last wr w0 = lastw) by (rewrite <- EL; destruct wr as [|w1 r]; [reflexivity|]; apply (last_indep (w1 :: r)); discriminate).
  rewrite LR. cbn [bind]. rewrite LE. replace (10 <? M)%nat with false by (symmetry; apply Nat.ltb_ge; lia).
  change (map (fun z => negb (hides hz && Rltb (cmod z) (tol_of (1 / 10 ^ 14) hz))) lastw) with (map (vmask (1 / 10 ^ 14) hz) lastw).
  rewrite count_vis. fold js. destruct js as [|j0 js'] eqn:EJ; [congruence|]. cbn [length Nat.eqb].
  destruct par_vals as [|p0 pr]; [congruence|]. cbn [combine map fst length seq].
  set (row := fun (ar ac : nat) (kr : nat * (list cplx * list (list cplx))) => let '(k, (ws, vs)) := kr in
            if (ar <=? k)%nat then Err IndexError else
            row_panels n ac k (filter snd (combine (combine ws vs) (map (vmask (1 / 10 ^ 14) hz) lastw)))).
  assert (RE : forall ar ac, row ar ac (0%nat, (w0, v0)) = Err IndexError).
  { intros ar ac. unfold row. destruct (ar <=? 0)%nat; [reflexivity|]. rewrite shown_vis by assumption. unfold js in EJ. rewrite EJ. unfold row_panels. cbn [map length seq combine mapM].
    rewrite (vector_lines_err n (nth j0 v0 [])); [reflexivity|]. apply HV. left; reflexivity. }
  destruct (length js' =? 0)%nat; cbn [bind mapM].
  - pose proof (RE 1%nat M) as R. unfold row, row_panels in R. rewrite R. reflexivity.
  - pose proof (RE M (S (length js'))) as R. unfold row, row_panels in R. rewrite R. reflexivity.
Qed.
