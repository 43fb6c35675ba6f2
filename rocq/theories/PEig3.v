(* PEig3.v -- the eigenvalue plots *)
From Coq Require Import Lra Lia Permutation Sorting.Sorted ZArith.
From Verif Require Import Base MString MHeap MBicycle MModels MModels2 PBase SBicycle PModels2 PModels3 SModels SModels2 PModels11 SSort PSort MEig SEig PEig PEig2.
Local Open Scope string_scope.
Local Open Scope R_scope.

Definition rows4 (evs : list eigres) : Prop := forall e, In e evs -> length (fst e) = 4%nat /\ length (snd e) = 4%nat.
Lemma rows4_rect evs : rows4 evs -> rect 4 (with_columns evs).
Proof.
  intros H. unfold rect, with_columns. rewrite Forall_forall. intros r Hr. apply in_map_iff in Hr. destruct Hr as (e & <- & He). destruct (H e He) as (L1 & L2).
  cbn [fst snd]. unfold columns_of. rewrite map_length, seq_length. auto.
Qed.
Lemma chained_vals {V} : forall (inp out : list (list cplx * list V)) prev, chained prev inp out ->
  Forall2 (fun i o => forall x, In x (fst o) -> In x (fst i)) inp out.
Proof.
  induction inp as [|i inp IH]; intros [|o out] prev C; try (destruct C; fail); [constructor|]. destruct C as ((ks & _ & R1 & R2) & C). constructor; [|eapply IH; eauto].
  intros x IN. clear - R1 IN. induction R1 as [|k y ks l H R1 IH]; [destruct IN|]. destruct IN as [<-|IN]; [eapply nth_error_In; eauto | apply IH, IN].
Qed.
Lemma nth_map {A B} (f : A -> B) l i a b : (i < length l)%nat -> nth i (map f l) b = f (nth i l a).
Proof. intros H. rewrite (nth_indep _ b (f a)) by (rewrite map_length; exact H). apply map_nth. Qed.
Lemma four {A} (l : list A) d : length l = 4%nat -> l = [nth 0 l d; nth 1 l d; nth 2 l d; nth 3 l d].
Proof. destruct l as [|a [|b [|c [|e [|]]]]]; cbn; intros H; try discriminate. reflexivity. Qed.

Lemma quads evs : rows4 evs -> evs <> [] ->
  exists sorted m wea1 wea2, sort_eigenmodes (with_columns evs) = Ok sorted /\ sort_modes (with_columns evs) = Ok m /\ length sorted = length evs /\
    mapM (fun r => index (fst r) 0) (weave m) = Ok wea1 /\ mapM (fun r => index (fst r) 1) (weave m) = Ok wea2 /\
    length wea1 = length evs /\ length wea2 = length evs /\ length (map fst (capsize m)) = length evs /\ length (map fst (caster m)) = length evs /\
    forall i, (i < length evs)%nat ->
      fst (nth i sorted ([], [])) = [nth i (map fst (caster m)) (0, 0); nth i (map fst (capsize m)) (0, 0); nth i wea1 (0, 0); nth i wea2 (0, 0)] /\
      forall z, In z (fst (nth i sorted ([], []))) -> In z (fst (nth i evs ([], []))).
Proof.
  intros H4 NE. pose proof (rows4_rect evs H4) as RC. destruct evs as [|e0 evs]; [congruence|]. clear NE. cbn [with_columns map] in *.
  set (r0 := (fst e0, columns_of (snd e0))) in *. set (rows := map (fun e : eigres => (fst e, columns_of (snd e))) evs) in *.
  destruct (sort_modes_spec r0 rows RC) as (sorted & wv & cap & cas & ES & EM & EW & F1 & F0).
  destruct (sort_eigenmodes_spec 4 r0 rows RC) as (out & ES' & RO & LO & CH). assert (sorted = r0 :: out) as -> by congruence.
  assert (RS : rect 4 (r0 :: out)) by (constructor; [inversion RC; assumption|exact RO]).
  assert (LS : length (r0 :: out) = length (e0 :: evs)) by (cbn [length]; unfold rows in LO; rewrite map_length in LO; congruence).
  assert (L4 : forall i, (i < length (r0 :: out))%nat -> length (fst (nth i (r0 :: out) ([], []))) = 4%nat).
  { intros i Hi. unfold rect in RS. rewrite Forall_forall in RS. apply RS, nth_In, Hi. }
  assert (IX : forall k, (k < 2)%nat -> mapM (fun r : list cplx * list (list cplx) => index (fst r) k) wv = Ok (map (fun r : list cplx * list (list cplx) => nth (2 + k) (fst r) (0, 0)) (r0 :: out))).
  { intros k Hk. rewrite EW. apply mapM_nth_iff. split; [rewrite !map_length; reflexivity|]. intros j a b Hj. rewrite map_length in Hj.
    rewrite (nth_map _ (r0 :: out) j ([], [])) by exact Hj. rewrite (nth_map _ (r0 :: out) j ([], [])) by exact Hj. cbn [fst].
    unfold index. specialize (L4 j Hj). destruct (fst (nth j (r0 :: out) ([], []))) as [|z0 [|z1 [|z2 [|z3 [|]]]]]; try discriminate.
    destruct k as [|[|k]]; [reflexivity|reflexivity|lia]. }
  exists (r0 :: out), (mkmodes wv cap cas). eexists. eexists. split; [exact ES|]. split; [exact EM|]. split; [exact LS|].
  cbn [weave capsize caster]. split; [apply (IX 0%nat); lia|]. split; [apply (IX 1%nat); lia|].
  pose proof (f2_length _ _ _ F1) as LC1. pose proof (f2_length _ _ _ F0) as LC0.
  rewrite !map_length. split; [exact LS|]. split; [exact LS|]. split; [congruence|]. split; [congruence|].
  intros i Hi. rewrite <- LS in Hi. split.
  - rewrite (four (fst (nth i (r0 :: out) ([], []))) (0, 0)) at 1 by (apply L4, Hi).
    apply (forall2_nth _ ([], []) ((0, 0), [])) in F1. destruct F1 as (_ & F1). destruct (F1 i Hi) as (F1' & _).
    apply (forall2_nth _ ([], []) ((0, 0), [])) in F0. destruct F0 as (_ & F0). destruct (F0 i Hi) as (F0' & _).
    rewrite (nth_map _ cas i ((0, 0), [])) by (rewrite <- LC0; exact Hi). rewrite (nth_map _ cap i ((0, 0), [])) by (rewrite <- LC1; exact Hi).
    rewrite (nth_map _ (r0 :: out) i ([], [])) by exact Hi. rewrite (nth_map _ (r0 :: out) i ([], [])) by exact Hi.
    apply nth_error_nth with (d := (0, 0)) in F1', F0'. rewrite F1', F0'. reflexivity.
  - destruct i as [|i]; [cbn [nth]; auto|]. cbn [nth length] in *. pose proof (chained_vals _ _ _ CH) as FV.
    apply (forall2_nth _ ([], []) ([], [])) in FV. destruct FV as (LV & FV). intros z Hz.
    assert (Hi2 : (i < length rows)%nat) by lia. specialize (FV i Hi2 z Hz). unfold rows in FV, Hi2. rewrite map_length in Hi2.
    rewrite (nth_map (fun e : eigres => (fst e, columns_of (snd e))) evs i ([], [])) in FV by exact Hi2. exact FV.
Qed.

Lemma spectrum_rows4 ps l evs : length evs = length l ->
  (forall i, (i < length l)%nat -> spectrum_at ps (nth i l 0) (fst (nth i evs ([], []))) (snd (nth i evs ([], [])))) -> rows4 evs.
Proof.
  intros L H e He. destruct (In_nth _ _ ([], []) He) as (i & Hi & <-). rewrite L in Hi. destruct (H i Hi) as (A & B & _ & (L1 & L2 & _)). auto.
Qed.

Lemma curve_over speeds ys : length ys = length speeds -> over speeds (curve_of speeds ys) /\ forall i, (i < length speeds)%nat -> snd (pt (curve_of speeds ys) i) = nth i ys 0.
Proof.
  intros L. unfold over, curve_of, pt. rewrite combine_length, L, Nat.min_id.
  repeat split; intros i Hi; rewrite combine_nth by congruence; reflexivity.
Qed.

Definition re_curve (speeds : list R) (l : list cplx) : curve := curve_of speeds (map (fun z : cplx => fst z) l).
Definition im_curve (speeds : list R) (l : list cplx) : curve := curve_of speeds (map (fun z : cplx => Rabs (snd z)) l).
Lemma re_curve_at speeds l i : length l = length speeds -> (i < length speeds)%nat -> snd (pt (re_curve speeds l) i) = fst (nth i l (0, 0)).
Proof.
  intros L Hi. unfold re_curve. rewrite (proj2 (curve_over speeds (map (fun z : cplx => fst z) l) ltac:(rewrite map_length; exact L)) i Hi).
  apply (nth_map (fun z : cplx => fst z) l i (0, 0)). congruence.
Qed.
Lemma im_curve_at speeds l i : length l = length speeds -> (i < length speeds)%nat -> snd (pt (im_curve speeds l) i) = Rabs (snd (nth i l (0, 0))).
Proof.
  intros L Hi. unfold im_curve. rewrite (proj2 (curve_over speeds (map (fun z : cplx => Rabs (snd z)) l) ltac:(rewrite map_length; exact L)) i Hi).
  apply (nth_map (fun z : cplx => Rabs (snd z)) l i (0, 0)). congruence.
Qed.
Lemma re_over speeds l : length l = length speeds -> over speeds (re_curve speeds l).
Proof. intros L. apply curve_over. rewrite map_length; exact L. Qed.
Lemma im_over speeds l : length l = length speeds -> over speeds (im_curve speeds l).
Proof. intros L. apply curve_over. rewrite map_length; exact L. Qed.

(* what both plots draw *)
Record drawn (eig : marr -> res eigres) (ps : par_sets) (speeds : list R) (evs : list eigres) (m4 : list (list cplx)) : Prop := mkdrawn {
  dr_eig : bicycle_eig eig ps (SpSeq speeds) = Ok evs;
  dr_len : length evs = length speeds;
  dr_spec : forall i, (i < length speeds)%nat -> spectrum_at ps (nth i speeds 0) (fst (nth i evs ([], []))) (snd (nth i evs ([], [])));
  dr_ne : evs <> [];
  dr_m4 : length m4 = 4%nat;
  dr_lens : forall l, In l m4 -> length l = length speeds;
  dr_in : forall q i, (q < 4)%nat -> (i < length speeds)%nat -> In (nth i (nth q m4 []) (0, 0)) (fst (nth i evs ([], [])));
  dr_perm : exists sorted, sort_eigenmodes (with_columns evs) = Ok sorted /\
    forall i, (i < length speeds)%nat -> Permutation (map (fun l => nth i l (0, 0)) m4) (fst (nth i sorted ([], []))) }.

Lemma drawn_shows eig ps speeds evs m4 : drawn eig ps speeds evs m4 -> shows_spectrum ps speeds (map (re_curve speeds) m4) (map (im_curve speeds) m4).
Proof.
  intros D. destruct D as [DE DL DS DN D4 DLN DI _]. split; [rewrite map_length; exact D4|]. split; [rewrite map_length; exact D4|]. split.
  - intros c Hc. apply in_app_or in Hc. destruct Hc as [Hc|Hc]; apply in_map_iff in Hc; destruct Hc as (l & <- & Hl); [apply re_over|apply im_over]; auto.
  - intros i Hi. do 2 eexists. split; [apply DS, Hi|]. intros q Hq. exists (nth i (nth q m4 []) (0, 0)). split; [apply DI; assumption|].
    rewrite (nth_map _ m4 q []) by lia. rewrite (nth_map _ m4 q []) by lia. assert (IN : In (nth q m4 []) m4) by (apply nth_In; lia).
    split; [apply re_curve_at|apply im_curve_at]; auto.
Qed.

Lemma drawn_exists eig ps speeds evs : eig_contract eig -> bicycle_eig eig ps (SpSeq speeds) = Ok evs -> evs <> [] ->
  exists m wea1 wea2, sort_modes (with_columns evs) = Ok m /\
    mapM (fun r => index (fst r) 0) (weave m) = Ok wea1 /\ mapM (fun r => index (fst r) 1) (weave m) = Ok wea2 /\
    drawn eig ps speeds evs [wea1; wea2; map fst (capsize m); map fst (caster m)].
Proof.
  intros EC E NE. destruct (eig_rows eig ps speeds evs EC E) as (L & H).
  destruct (quads evs (spectrum_rows4 ps speeds evs L H) NE) as (sorted & m & w1 & w2 & E1 & E2 & LS & E3 & E4 & L1 & L2 & L3 & L4 & Q).
  exists m, w1, w2. split; [exact E2|]. split; [exact E3|]. split; [exact E4|]. constructor; auto.
  - intros l [<-|[<-|[<-|[<-|[]]]]]; congruence.
  - intros q i Hq Hi. rewrite <- L in Hi. destruct (Q i Hi) as (EQ & QI). apply QI. rewrite EQ. destruct q as [|[|[|[|]]]]; cbn [nth In]; try lia; tauto.
  - exists sorted. split; [exact E1|]. intros i Hi. rewrite <- L in Hi. destruct (Q i Hi) as (EQ & _). rewrite EQ. cbn [map].
    apply (Permutation_app_comm [nth i w1 (0, 0); nth i w2 (0, 0)] [nth i (map fst (capsize m)) (0, 0); nth i (map fst (caster m)) (0, 0)] : Permutation _ _) || idtac.
    match goal with |- Permutation [?a; ?b; ?c; ?d] _ => apply (perm_trans (l' := [c; d; a; b])); [apply (Permutation_app_comm [a; b] [c; d])|apply perm_swap] end.
Qed.

Lemma plot_drawn eig ps sp cs : eig_contract eig -> plot_eigenvalues eig ps sp false = Ok cs ->
  exists evs m4, drawn eig ps (rsort sp) evs m4 /\ cs = (map (im_curve (rsort sp)) m4 ++ map (re_curve (rsort sp)) m4)%list.
Proof.
  intros EC E. unfold plot_eigenvalues in E. apply bind_ok in E. destruct E as (evs & EE & E).
  assert (NE : evs <> []) by (intros ->; discriminate).
  destruct (drawn_exists eig ps (rsort sp) evs EC EE NE) as (m & w1 & w2 & E2 & E3 & E4 & D).
  rewrite E2 in E. cbn [bind] in E. rewrite E3 in E. cbn [bind] in E. rewrite E4 in E. cbn [bind] in E. injection E as <-.
  exists evs. eexists. split; [exact D|]. reflexivity.
Qed.
Lemma plotly_drawn eig ps sp fg lg st cs reg : eig_contract eig -> plot_eigenvalues_plotly eig ps sp fg lg st = Ok (cs, reg) ->
  fg = false /\ lg = false /\ exists evs w1 w2 cap cas, drawn eig ps (rsort sp) evs [w1; w2; cap; cas] /\
    cs = (map (re_curve (rsort sp)) [w1; w2; cap; cas] ++ map (im_curve (rsort sp)) [w1; w2; cap; cas])%list /\
    (if st then stability_region (rsort sp) w1 w2 cap cas else Ok NotDrawn) = Ok reg.
Proof.
  intros EC E. unfold plot_eigenvalues_plotly in E. destruct fg; [discriminate|]. apply bind_ok in E. destruct E as (evs & EE & E).
  destruct lg; [discriminate|]. split; [reflexivity|]. split; [reflexivity|].
  assert (NE : evs <> []) by (intros ->; discriminate).
  destruct (drawn_exists eig ps (rsort sp) evs EC EE NE) as (m & w1 & w2 & E2 & E3 & E4 & D).
  rewrite E2 in E. cbn [bind] in E. rewrite E3 in E. cbn [bind] in E. rewrite E4 in E. cbn [bind] in E.
  apply bind_ok in E. destruct E as (rg & ER & E). injection E as <- <-.
  exists evs, w1, w2, (map fst (capsize m)), (map fst (caster m)). split; [exact D|]. split; [reflexivity|exact ER].
Qed.

Lemma drawn_first eig ps speeds evs m4 : drawn eig ps speeds evs m4 ->
  shows_all (map (re_curve speeds) m4) (map (im_curve speeds) m4) 0 (fst (nth 0 evs ([], []))).
Proof.
  intros [DE DL DS DN D4 DLN DI (sorted & ES & P)]. destruct evs as [|e0 evs]; [congruence|].
  assert (Hi : (0 < length speeds)%nat) by (rewrite <- DL; cbn; lia).
  exists (map (fun l => nth 0 l (0, 0)) m4). split.
  - rewrite (P 0%nat Hi). cbn [with_columns map sort_eigenmodes] in ES. apply bind_ok in ES. destruct ES as (r & _ & ES). injection ES as <-. apply Permutation_refl.
  - intros q Hq. rewrite !(nth_map _ m4 q []) by lia. assert (IN : In (nth q m4 []) m4) by (apply nth_In; lia).
    rewrite re_curve_at, im_curve_at by auto. auto.
Qed.
Lemma drawn_smooth eig ps speeds evs m4 eps e0 rest : drawn eig ps speeds evs m4 -> evs = e0 :: rest -> smooth eps 4 (fst e0) (with_columns rest) ->
  forall i, (i < length speeds)%nat -> shows_all (map (re_curve speeds) m4) (map (im_curve speeds) m4) i (fst (nth i evs ([], []))).
Proof.
  intros [DE DL DS DN D4 DLN DI (sorted & ES & P)] EV SM i Hi.
  exists (map (fun l => nth i l (0, 0)) m4). split.
  - rewrite (P i Hi). pose proof (rows4_rect evs (spectrum_rows4 ps speeds evs DL DS)) as RC. rewrite EV in ES, RC. cbn [with_columns map] in ES, RC.
    destruct (sort_eigenmodes_spec 4 _ _ RC) as (out & ES' & RO & LO & _). rewrite ES in ES'. injection ES' as ->.
    destruct (sort_eigenmodes_smooth eps 4 (fst e0, columns_of (snd e0)) (with_columns rest) out RC SM ES) as (F & _).
    apply (forall2_nth _ ([], []) ([], [])) in F. destruct F as (LF & F).
    assert (Hi2 : (i < length ((fst e0, columns_of (snd e0)) :: with_columns rest))%nat).
    { cbn [length]. unfold with_columns. rewrite map_length. rewrite <- DL, EV in Hi. exact Hi. }
    specialize (F i Hi2). apply (Permutation_map fst) in F.
    assert (RS : rect 4 ((fst e0, columns_of (snd e0)) :: out)) by (constructor; [inversion RC; assumption|exact RO]).
    assert (FC : forall (x : list cplx * list (list cplx)), length (fst x) = length (snd x) -> map fst (combine (fst x) (snd x)) = fst x).
    { intros [a b] Lx. cbn [fst snd] in *. revert b Lx. induction a as [|u a IH]; intros [|v b] Lx; try discriminate; [reflexivity|]. cbn [combine map fst]. f_equal. apply IH. cbn in Lx. lia. }
    unfold rect in RC, RS. rewrite Forall_forall in RC, RS.
    rewrite !FC in F.
    2:{ destruct (RS _ (nth_In _ ([], []) (eq_ind _ (fun n => (i < n)%nat) Hi2 _ LF))) as (? & ?). congruence. }
    2:{ destruct (RC _ (nth_In _ ([], []) Hi2)) as (? & ?). congruence. }
    apply Permutation_sym. rewrite EV. destruct i as [|i]; [exact F|]. cbn [nth] in *. cbn [length] in Hi2. unfold with_columns in F, Hi2. rewrite map_length in Hi2.
    rewrite (nth_map (fun e : eigres => (fst e, columns_of (snd e))) rest i ([], [])) in F by lia. exact F.
  - intros q Hq. rewrite !(nth_map _ m4 q []) by lia. assert (IN : In (nth q m4 []) m4) by (apply nth_In; lia).
    rewrite re_curve_at, im_curve_at by auto. auto.
Qed.

(* ---- minima and maxima ---- *)
Lemma lmax_spec l a : lmax l = Ok a -> In a l /\ forall x, In x l -> x <= a.
Proof.
  destruct l as [|x l]; [discriminate|]. cbn [lmax]. intros E. injection E as <-. revert x. induction l as [|y l IH]; intros x; cbn [fold_left].
  - split; [left; reflexivity|]. intros z [<-|[]]. lra.
  - destruct (IH (Rmax x y)) as (I1 & I2). split.
    + destruct I1 as [E|I1]; [|right; right; exact I1]. rewrite <- E. unfold Rmax. destruct (Rle_dec x y); [right; left|left]; reflexivity.
    + intros z [<-|[<-|Hz]]; [apply Rle_trans with (Rmax x y); [apply Rmax_l|apply I2; left; reflexivity]|apply Rle_trans with (Rmax x y); [apply Rmax_r|apply I2; left; reflexivity]|apply I2; right; exact Hz].
Qed.
Lemma lmin_spec l a : lmin l = Ok a -> In a l /\ forall x, In x l -> a <= x.
Proof.
  destruct l as [|x l]; [discriminate|]. cbn [lmin]. intros E. injection E as <-. revert x. induction l as [|y l IH]; intros x; cbn [fold_left].
  - split; [left; reflexivity|]. intros z [<-|[]]. lra.
  - destruct (IH (Rmin x y)) as (I1 & I2). split.
    + destruct I1 as [E|I1]; [|right; right; exact I1]. rewrite <- E. unfold Rmin. destruct (Rle_dec x y); [left|right; left]; reflexivity.
    + intros z [<-|[<-|Hz]]; [apply Rle_trans with (Rmin x y); [apply I2; left; reflexivity|apply Rmin_l]|apply Rle_trans with (Rmin x y); [apply I2; left; reflexivity|apply Rmin_r]|apply I2; right; exact Hz].
Qed.
Lemma lmin_ok l : l <> [] -> exists a, lmin l = Ok a. Proof. destruct l; [congruence|]. intros _. eexists; reflexivity. Qed.
Lemma lmax_ok l : l <> [] -> exists a, lmax l = Ok a. Proof. destruct l; [congruence|]. intros _. eexists; reflexivity. Qed.

Lemma neg_iff speeds mode x : length mode = length speeds ->
  (In x (neg_speeds speeds mode) <-> exists i, (i < length speeds)%nat /\ nth i speeds 0 = x /\ fst (nth i mode (0, 0)) < 0).
Proof.
  intros L. unfold neg_speeds. rewrite in_map_iff. split.
  - intros ((a & z) & <- & H). apply filter_In in H. destruct H as (H & N). cbn [fst snd] in *. unfold Rltb in N. destruct (Rlt_dec (fst z) 0) as [N'|]; [|discriminate].
    destruct (In_nth _ _ (0, (0, 0)) H) as (i & Hi & E). rewrite combine_length, L, Nat.min_id in Hi. rewrite combine_nth in E by congruence. injection E as <- <-. eauto.
  - intros (i & Hi & <- & N). exists (nth i speeds 0, nth i mode (0, 0)). split; [reflexivity|]. apply filter_In. split.
    + rewrite <- combine_nth by congruence. apply nth_In. rewrite combine_length, L, Nat.min_id. exact Hi.
    + cbn [fst snd]. unfold Rltb. destruct (Rlt_dec _ 0); [reflexivity|contradiction].
Qed.

(* the bounds of the region *)
Definition bounds (speeds : list R) (m4 : list (list cplx)) (a b : R) : Prop :=
  (forall l, In l m4 -> exists lo hi, lmin (neg_speeds speeds l) = Ok lo /\ lmax (neg_speeds speeds l) = Ok hi /\ lo <= a /\ b <= hi) /\
  (exists l, In l m4 /\ lmin (neg_speeds speeds l) = Ok a) /\ (exists l, In l m4 /\ lmax (neg_speeds speeds l) = Ok b).
Lemma region_bounds speeds w1 w2 cap cas r : stability_region speeds w1 w2 cap cas = Ok r ->
  exists a b, bounds speeds [w1; w2; cap; cas] a b /\ r = if Rltb b a then NoRegion else if Rltb (b - a) (1 / 10000) then NoRegion else Region a b.
Proof.
  unfold stability_region. intros E.
  destruct (lmin (neg_speeds speeds w2)) as [a2|] eqn:A2; cbn [bind] in E; [|discriminate]. destruct (lmin (neg_speeds speeds cas)) as [as_|] eqn:AS; cbn [bind] in E; [|discriminate].
  destruct (lmin (neg_speeds speeds cap)) as [ap|] eqn:AP; cbn [bind] in E; [|discriminate]. destruct (lmin (neg_speeds speeds w1)) as [a1|] eqn:A1; cbn [bind] in E; [|discriminate].
  destruct (lmax [a2; as_; ap; a1]) as [a|] eqn:EA; cbn [bind] in E; [|discriminate].
  destruct (lmax (neg_speeds speeds w2)) as [b2|] eqn:B2; cbn [bind] in E; [|discriminate]. destruct (lmax (neg_speeds speeds cas)) as [bs|] eqn:BS; cbn [bind] in E; [|discriminate].
  destruct (lmax (neg_speeds speeds cap)) as [bp|] eqn:BP; cbn [bind] in E; [|discriminate]. destruct (lmax (neg_speeds speeds w1)) as [b1|] eqn:B1; cbn [bind] in E; [|discriminate].
  destruct (lmin [b2; bs; bp; b1]) as [b|] eqn:EB; cbn [bind] in E; [|discriminate].
  apply lmax_spec in EA. apply lmin_spec in EB. destruct EA as (IA & UA), EB as (IB & UB).
  exists a, b. split.
  - split; [|split].
    + intros l [<-|[<-|[<-|[<-|[]]]]]; do 2 eexists; (split; [eassumption|]); (split; [eassumption|]); split; try (apply UA; cbn; tauto); apply UB; cbn; tauto.
    + destruct IA as [<-|[<-|[<-|[<-|[]]]]]; eexists; (split; [|eassumption]); cbn; tauto.
    + destruct IB as [<-|[<-|[<-|[<-|[]]]]]; eexists; (split; [|eassumption]); cbn; tauto.
  - destruct (Rltb b a); [congruence|]. destruct (Rltb (b - a) (1 / 10000)); congruence.
Qed.
Lemma region_crash speeds w1 w2 cap cas l : In l [w1; w2; cap; cas] -> neg_speeds speeds l = [] -> stability_region speeds w1 w2 cap cas = Err UnboundLocalError.
Proof.
  intros IN E. unfold stability_region.
  destruct IN as [<-|[<-|[<-|[<-|[]]]]]; rewrite E; cbn [lmin bind];
    repeat match goal with |- context [lmin (neg_speeds speeds ?x)] => destruct (lmin (neg_speeds speeds x)); cbn [bind] end; reflexivity.
Qed.
Lemma region_total speeds w1 w2 cap cas : (forall l, In l [w1; w2; cap; cas] -> neg_speeds speeds l <> []) -> exists r, stability_region speeds w1 w2 cap cas = Ok r.
Proof.
  intros H. unfold stability_region.
  assert (HL : forall l, In l [w1; w2; cap; cas] -> (exists a, lmin (neg_speeds speeds l) = Ok a) /\ (exists b, lmax (neg_speeds speeds l) = Ok b)).
  { intros l Hl. split; [apply lmin_ok|apply lmax_ok]; auto. }
  destruct (HL w1) as ((a1 & ->) & (b1 & ->)); [cbn; tauto|]. destruct (HL w2) as ((a2 & ->) & (b2 & ->)); [cbn; tauto|].
  destruct (HL cap) as ((a3 & ->) & (b3 & ->)); [cbn; tauto|]. destruct (HL cas) as ((a4 & ->) & (b4 & ->)); [cbn; tauto|].
  cbn [bind lmax lmin]. destruct (Rltb _ _); [eauto|]. destruct (Rltb _ _); eauto.
Qed.

Lemma sorted_nth speeds i j : StronglySorted Rle speeds -> (i <= j < length speeds)%nat -> nth i speeds 0 <= nth j speeds 0.
Proof.
  intros S. revert i j. induction S as [|x l S IH F]; intros i j H; [cbn in H; lia|]. rewrite Forall_forall in F.
  destruct i as [|i], j as [|j]; cbn [nth]; try lra; try lia. - apply F, nth_In. cbn in H. lia. - apply IH. cbn in H. lia.
Qed.
Lemma sorted_nodup_lt speeds i j : StronglySorted Rle speeds -> NoDup speeds -> (i < length speeds)%nat -> (j < length speeds)%nat -> nth i speeds 0 <= nth j speeds 0 -> (i <= j)%nat.
Proof.
  intros S N Hi Hj L. destruct (le_lt_dec i j) as [|C]; [assumption|]. exfalso.
  pose proof (sorted_nth speeds j i S ltac:(lia)) as L2. assert (E : nth i speeds 0 = nth j speeds 0) by lra.
  assert (i = j) by (eapply NoDup_nth with (d := 0); eauto). lia.
Qed.
