(* PDraw6.v -- the figure of Bicycle.plot_bicycle_geometry and of its plotly twin *)
From Coq Require Import Lra Permutation Sorted.
From Verif Require Import Base MString MBicycle MVec MInertia MGeometry MIo MRider MMain MPlot MSets MDraw PBase SRider PRider SBicycle PBicycle SInertia PInertia PInertia3 SGeometry PGeometry SDraw PDraw PDraw2 PDraw3 MDraw2 SDraw2 PDraw5.
Local Open Scope string_scope.
Local Open Scope R_scope.

Lemma nominal_iff bench par : (exists nb, remove_uncertainties bench = Ok nb /\ numbers_of nb = Ok par) <-> nominal_values bench par.
Proof.
  unfold nominal_values, remove_uncertainties, numbers_of. split.
  - intros (nb & H & N). revert nb par H N. induction bench as [|[k v] bench IH]; intros nb par H N; cbn [mapM fst snd] in H.
    + injection H as <-. cbn in N. injection N as <-. constructor.
    + step_bind H. step_bind H. assert (nb = x :: x0) by congruence. subst nb. clear H. step_bind E. assert (x = (k, x1)) by congruence. subst x. clear E.
      cbn [mapM fst snd] in N. step_bind N. step_bind N. assert (par = x :: x2) by congruence. subst par. clear N. step_bind E. assert (x = (k, x3)) by congruence. subst x. clear E.
      constructor; [|eapply IH; eassumption]. cbn [fst snd]. split; [reflexivity|].
      destruct v as [[f|n s]|l|t]; cbn [remove_one] in E1.
      * assert (x1 = MScalar (SFloat f)) by congruence. subst x1. cbn [num_of] in E3. left. congruence.
      * assert (x1 = MScalar (SFloat n)) by congruence. subst x1. cbn [num_of] in E3. right. exists s. congruence.
      * step_bind E1. assert (x1 = MList (map SFloat x)) by congruence. subst x1. discriminate.
      * destruct t; [|discriminate]. assert (x1 = MList []) by congruence. subst x1. discriminate.
  - intros H. induction H as [|[k v] [k' x] bench par [E V] H IH]; [exists []; split; reflexivity|].
    cbn [fst snd] in *. subst k'. destruct IH as (nb & A & B). exists ((k, MScalar (SFloat x)) :: nb). cbn [mapM fst snd].
    assert (R1 : remove_one v = Ok (MScalar (SFloat x))) by (destruct V as [-> | [s ->]]; reflexivity).
    rewrite R1, A. cbn [bind mapM fst snd num_of]. rewrite B. split; reflexivity.
Qed.

Lemma maxl_ge l x : In x l -> x <= maxl l.
Proof.
  destruct l as [|a l]; [intros []|]. cbn [maxl]. revert x a. induction l as [|b l IH]; intros x a H; cbn [fold_left In] in *.
  - destruct H as [<-|[]]. lra.
  - destruct H as [<-|[<-|H]].
    + apply Rle_trans with (Rmax a b); [apply Rmax_l|apply IH; left; reflexivity].
    + apply Rle_trans with (Rmax a b); [apply Rmax_r|apply IH; left; reflexivity].
    + apply IH. right. exact H.
Qed.
Lemma fold_min_le l a x : In x (a :: l) -> fold_left Rmin l a <= x.
Proof.
  revert x a. induction l as [|b l IH]; intros x a H; cbn [fold_left In] in *.
  - destruct H as [<-|[]]. lra.
  - destruct H as [<-|[<-|H]].
    + apply Rle_trans with (Rmin a b); [apply IH; left; reflexivity|apply Rmin_l].
    + apply Rle_trans with (Rmin a b); [apply IH; left; reflexivity|apply Rmin_r].
    + apply IH. right. exact H.
Qed.
Lemma npceil_ge x : x <= npceil x.
Proof. unfold npceil. pose proof (proj1 (base_Int_part (- x))). lra. Qed.

Lemma pendulum_line_spec xc zc m b len : exists p q, pendulum_line xc zc m b len = [p; q] /\ pendulum_drawn (xc, zc) m b len p q.
Proof.
  unfold pendulum_line. eexists. eexists. split; [reflexivity|].
  set (o := project_point_on_line (m, b) (xc, zc)). set (xp := len / 2 * cos (atan m)).
  assert (CA : cos (atan m) ^ 2 * (1 + m ^ 2) = 1).
  { rewrite cos_atan_sq. assert (0 < 1 + m ^ 2) by (pose proof (pow2_ge_0 m); lra). rewrite pow_inv, pow2_sqrt by lra. field. lra. }
  repeat split.
  - unfold on2, up. cbn [fst snd]. ring.
  - unfold on2, up. cbn [fst snd]. ring.
  - unfold sqdist2, xp. cbn [fst snd]. set (k := cos (atan m)) in *.
    transitivity (len ^ 2 * (k ^ 2 * (1 + m ^ 2))); [field|rewrite CA; ring].
  - intros r Hr. replace (up (mid _ _)) with o.
    + exact (proj1 (project_nearest m b (xc, zc) r Hr)).
    + pose proof (project_on m b (xc, zc)) as O. fold o in O. unfold on2 in O. unfold up, mid. cbn [fst snd].
      rewrite (surjective_pairing o). apply pt_eq; cbn [fst snd]; [field|]. rewrite O. field.
Qed.

Lemma nominal_list_iff v xs : mapM nominal v = Ok xs <-> nominal_list v xs.
Proof.
  unfold nominal_list. split.
  - revert xs. induction v as [|[f|n s] v IH]; intros xs H; cbn [mapM nominal bind] in H.
    + assert (xs = []) by congruence. subst. exists []. split; reflexivity.
    + discriminate.
    + step_bind H. destruct (IH x E) as (us & U & V). exists ((n, s) :: us). cbn [map fst snd]. split; congruence.
  - intros (us & -> & ->). induction us as [|[n s] us IH]; [reflexivity|]. cbn [map mapM nominal bind fst snd]. rewrite IH. reflexivity.
Qed.
Lemma remove_lists_iff d d' : remove_lists d = Ok d' <-> Forall2 (fun a b => fst a = fst b /\ nominal_list (snd a) (snd b)) d d'.
Proof.
  unfold remove_lists. split.
  - revert d'. induction d as [|[k v] d IH]; intros d' H; cbn [mapM fst snd] in H.
    + assert (d' = []) by congruence. subst. constructor.
    + step_bind H. step_bind H. assert (d' = x :: x0) by congruence. subst d'. step_bind E. assert (x = (k, x1)) by congruence. subst x.
      constructor; [split; [reflexivity|apply nominal_list_iff; exact E1]|apply IH; exact E0].
  - intros H. induction H as [|[k v] [k' xs] d d' [E N] H IH]; [reflexivity|]. cbn [mapM fst snd] in *. subst k'.
    apply nominal_list_iff in N. rewrite N. cbn [bind]. rewrite IH. reflexivity.
Qed.
Lemma remove_lists_look d d' X xs : remove_lists d = Ok d' -> dget d' X = Some xs -> exists v, dget d X = Some v /\ nominal_list v xs.
Proof.
  intros H. apply remove_lists_iff in H. induction H as [|[k v] [k' ys] d d' [E N] H IH]; cbn [dget fst snd] in *; [discriminate|].
  subst k'. destruct (String.eqb X k); [|exact IH]. intros Q. exists v. split; [reflexivity|congruence].
Qed.
(* AttributeError exactly when the first failing dictionary has a plain number *)
Lemma remove_lists_err d e : remove_lists d = Err e -> e = AttributeError.
Proof.
  unfold remove_lists. induction d as [|[k v] d IH]; cbn [mapM fst snd]; [discriminate|].
  destruct (mapM nominal v) as [xs|e'] eqn:E; cbn [bind].
  - destruct (mapM _ d) eqn:M; cbn [bind]; [discriminate|]. intros H. apply IH. congruence.
  - intros H. assert (e' = e) by congruence. subst e'. clear H IH. revert e E. induction v as [|[f|n s] v IH]; intros e E; cbn [mapM nominal bind] in E; [discriminate|congruence|].
    destruct (mapM nominal v); cbn [bind] in E; [discriminate|]. apply IH. congruence.
Qed.
Lemma read_pendulum_spec b : exists pen, read_pendulum b = Ok pen /\
  match pen with
  | Some (s', i', p') => exists s i p, db_extras b = Some (s, i, p) /\ remove_lists s = Ok s' /\ remove_lists i = Ok i' /\ remove_lists p = Ok p'
  | None => db_extras b = None \/ exists s i p, db_extras b = Some (s, i, p) /\ (remove_lists s = Err AttributeError \/ remove_lists i = Err AttributeError \/ remove_lists p = Err AttributeError)
  end.
Proof.
  unfold read_pendulum. destruct (db_extras b) as [[[s i] p]|]; [|exists None; auto].
  destruct (remove_lists s) as [s'|e] eqn:ES; cbn [bind]; [|apply remove_lists_err in ES as E'; subst e; exists None; eauto 9].
  destruct (remove_lists i) as [i'|e] eqn:EI; cbn [bind]; [|apply remove_lists_err in EI as E'; subst e; exists None; eauto 9].
  destruct (remove_lists p) as [p'|e] eqn:EP; cbn [bind]; [|apply remove_lists_err in EP as E'; subst e; exists None; eauto 9].
  exists (Some (s', i', p')). split; [reflexivity|]. exists s, i, p. auto.
Qed.

Lemma ellipses_spec eig par all todo y es : inertia_ellipses eig par all todo y = Ok es ->
  exists sizes, length sizes = length todo /\
    map (fun e : string * (pt * R * R * R) => let '(col, (c, wd, ht, a)) := e in Ell c wd ht a col) es =
    map (fun Xs : string * (R * R * R) => let '(X, (wd, ht, a)) := Xs in Ell (plot_centre par X) wd ht a X) (combine todo sizes).
Proof.
  revert y es. induction todo as [|X todo IH]; intros y es H; cbn [inertia_ellipses] in H.
  - exists []. assert (es = []) by congruence. subst. split; reflexivity.
  - step_bind H. step_bind H. step_bind H. destruct (IH _ _ E1) as (sizes & L & M). destruct x as [y' [[[c wd] ht] a]].
    assert (es = (x0, (c, wd, ht, a)) :: x1) by (cbn [snd] in H; congruence). subst es. exists ((wd, ht, a) :: sizes). cbn [length map combine]. split; [congruence|].
    rewrite M. f_equal. unfold part_color in E0. destruct (smem X all); [|discriminate]. assert (x0 = X) by congruence. subst x0.
    f_equal. unfold inertia_ellipse in E. step_bind E. step_bind E. step_bind E. apply centre_eval in E4. cbv zeta in E. destruct (find_yrow _ y); [|discriminate]. repeat step_bind E. congruence.
Qed.
Lemma bike_lines_spec par g rear w rF frame steer : bike_lines par = Ok (g, rear, w, rF, frame, steer) ->
  w = pv par "w" /\ rF = pv par "rF" /\ rear = (0, pv par "rR") /\ cos (pv par "lam") <> 0 /\ (exists m, frame = [(0, pv par "rR")] ++ m ++ [(pv par "w", pv par "rF")])%list /\
  (exists d e, frame = [(0, pv par "rR"); up d; up e; (pv par "w", pv par "rF")] /\ steer = [up e; (pv par "w" + pv par "c", 0)]) /\
  bike_drawn par [Poly g "black"; Circle rear (snd rear) "black"; Circle (w, rF) rF "black"; Poly frame "black"; Poly steer "black"].
Proof.
  unfold bike_lines. intros H. step_bind H. step_bind H. step_bind H. step_bind H. rename E2 into FP.
  assert (CN : cos (pv par "lam") <> 0).
  { assert (X : exists pts, fundamental_geometry_plot_data par = Ok pts) by eauto. apply plot_data_defined in X. exact (proj2 X). }
  apply plot_data_spec in FP. destruct FP as (p1 & p2 & -> & A1 & A2 & L1 & L2).
  unfold index in H. cbn [nth_error bind] in H. step_bind H. apply rdiv_ok in E2. destruct E2 as [NZ ->].
  apply pv_of_dlook in E, E0, E1. subst x x0 x1.
  set (ww := pv par "w") in *. set (tr := pv par "c") in *. set (lam := pv par "lam") in *. set (rR := pv par "rR") in *. set (rf := pv par "rF") in *.
  assert (DX : fst p2 + snd p2 * (fst p2 - fst p1) / (snd p1 - snd p2) = ww + tr).
  { unfold ahead in A1, A2. apply (Rmult_eq_reg_r (cos lam * (snd p1 - snd p2))); [|apply Rmult_integral_contrapositive_currified; assumption].
    transitivity (fst p2 * cos lam * (snd p1 - snd p2) + snd p2 * (fst p2 * cos lam - fst p1 * cos lam)); [field; exact NZ|].
    assert (Y2 : fst p2 * cos lam = (ww + tr) * cos lam + snd p2 * sin lam) by lra.
    assert (Y1 : fst p1 * cos lam = (ww + tr) * cos lam + snd p1 * sin lam) by lra.
    rewrite Y1, Y2. ring. }
  rewrite DX in H. cbn [map fst snd] in H. rewrite !Ropp_involutive in H. injection H as <- <- <- <- <- <-.
  split; [reflexivity|]. split; [reflexivity|]. split; [reflexivity|]. split; [exact CN|]. split; [exists [up p1; up p2]; reflexivity|]. split; [exists p1, p2; split; reflexivity|].
  unfold bike_drawn. fold ww tr lam rR rf. exists p1, p2. auto.
Qed.

Lemma mapM_nth {A B} (f : A -> res B) l r : mapM f l = Ok r -> length r = length l /\ forall i a b, nth_error l i = Some a -> nth_error r i = Some b -> f a = Ok b.
Proof.
  revert r. induction l as [|a l IH]; intros r H; cbn [mapM] in H.
  - assert (r = []) by congruence. subst. split; [reflexivity|]. intros [|i] a b E; discriminate.
  - step_bind H. step_bind H. assert (r = x :: x0) by congruence. subst r. destruct (IH _ E0) as [L N]. cbn [length]. split; [congruence|].
    intros [|i] a' b'; cbn [nth_error]; [congruence|apply N].
Qed.
Lemma nth_combine_seq {A} (l : list A) i k : nth_error (combine (seq k (length l)) l) i = match nth_error l i with Some a => Some ((k + i)%nat, a) | None => None end.
Proof.
  revert i k. induction l as [|a l IH]; intros i k; cbn [length seq combine]; [destruct i; reflexivity|].
  destruct i as [|i]; cbn [nth_error]; [rewrite Nat.add_0_r; reflexivity|]. rewrite IH. destruct (nth_error l i); [|reflexivity]. do 2 f_equal. lia.
Qed.
Lemma index_ok {A} (l : list A) i a : index l i = Ok a -> nth_error l i = Some a.
Proof. unfold index. destruct (nth_error l i); congruence. Qed.

Lemma number_lines parts X lines g k :
  mapM (fun il => c <- part_color parts X ;; p0 <- index (snd il) 0 ;; Ok [Poly (snd il) c; Text p0 (nat_str (fst il + 1))]) lines = Ok g ->
  (forall i il, nth_error lines i = Some il -> exists p q : pt, il = ((k + i)%nat, [p; q])) ->
  g = map (fun il : nat * (pt * pt) => [Poly [fst (snd il); snd (snd il)] X; Text (fst (snd il)) (nat_str (fst il + 1))])
        (combine (seq k (length lines)) (map (fun il => (nth 0 (snd il) (0, 0), nth 1 (snd il) (0, 0))) lines)).
Proof.
  revert g k. induction lines as [|il lines IH]; intros g k GG SH; cbn [mapM length seq combine map] in *; [congruence|].
  step_bind GG. step_bind GG. assert (g = x :: x0) by congruence. subst g. clear GG. destruct (SH 0%nat il eq_refl) as (p & q & EL). subst il. rewrite Nat.add_0_r in *. cbn [fst snd nth] in *.
  unfold part_color in E. destruct (smem X parts) eqn:SM; [|discriminate]. unfold index in E. cbn [bind nth_error] in E. f_equal; [congruence|].
  apply IH; [exact E0|]. intros i il Hi. destruct (SH (S i) il Hi) as (p' & q' & ->). exists p', q'. f_equal. lia.
Qed.
Lemma pendulum_part_group par parts is ps is' ps' X ms lines g : remove_lists is = Ok is' -> remove_lists ps = Ok ps' ->
  pendulum_part par is' ps' X ms = Ok lines ->
  mapM (fun il => c <- part_color parts X ;; p0 <- index (snd il) 0 ;; Ok [Poly (snd il) c; Text p0 (nat_str (fst il + 1))]) lines = Ok g ->
  pendulum_group par is ps X ms (concat g).
Proof.
  intros RI RP PP GG. unfold pendulum_part in PP. step_bind PP. step_bind PP. apply pv_of_dlook in E, E0. subst x x0.
  destruct (mapM_nth _ _ _ PP) as [L N]. rewrite combine_length, seq_length, Nat.min_id in L.
  assert (SH : forall i il, nth_error lines i = Some il -> exists p q, il = (i, [p; q]) /\ forall m, nth_error ms i = Some m ->
      exists b len, nominal_entry is X i b /\ nominal_entry ps X i len /\ pendulum_drawn (pv par ("x" ++ X), pv par ("z" ++ X)) m b len p q).
  { intros i il H. assert (LT : (i < length ms)%nat) by (rewrite <- L; apply nth_error_Some; congruence).
    destruct (nth_error ms i) as [m|] eqn:EM; [|apply nth_error_None in EM; lia].
    specialize (N i (i, m) il). rewrite nth_combine_seq, EM in N. specialize (N eq_refl H). cbv beta iota in N.
    step_bind N. step_bind N. step_bind N. step_bind N.
    destruct (pendulum_line_spec (pv par ("x" ++ X)) (pv par ("z" ++ X)) m x0 x2) as (p & q & EL & DR). rewrite EL in N.
    exists p, q. split; [congruence|]. intros m' Em'. assert (m' = m) by congruence. subst m'. exists x0, x2.
    apply dlook_inv in E, E1. apply index_ok in E0, E2.
    destruct (remove_lists_look _ _ _ _ RI E) as (vi & GI & NI). destruct (remove_lists_look _ _ _ _ RP E1) as (vp & GP & NP).
    split; [exists vi, x; auto|]. split; [exists vp, x1; auto|exact DR]. }
  exists (map (fun il => (nth 0 (snd il) (0, 0), nth 1 (snd il) (0, 0))) lines). rewrite map_length. split; [exact L|]. split.
  - rewrite <- (map_length (fun il => (nth 0 (snd il) (0, 0), nth 1 (snd il) (0, 0))) lines) at 1. rewrite map_length. f_equal.
    clear PP N L. assert (SH' : forall i il, nth_error lines i = Some il -> exists p q, il = ((0 + i)%nat, [p; q])).
    { intros i il H. destruct (SH i il H) as (p & q & -> & _). eauto. }
    clear SH RI RP. apply (number_lines parts X lines g 0 GG SH').
  - intros i m l Em El. rewrite nth_error_map in El. destruct (nth_error lines i) as [il|] eqn:EI; [|discriminate]. cbn [option_map] in El.
    destruct (SH i il EI) as (p & q & -> & G). cbn [snd nth] in El. assert (l = (p, q)) by congruence. subst l. cbn [fst snd]. apply G. exact Em.
Qed.
Lemma pendulum_all par parts ss is ps ss' is' ps' pls pshapes : remove_lists ss = Ok ss' -> remove_lists is = Ok is' -> remove_lists ps = Ok ps' ->
  pendulum_lines par (ss', is', ps') = Ok pls ->
  mapM (fun kl => mapM (fun il => c <- part_color parts (fst kl) ;; p0 <- index (snd il) 0 ;; Ok [Poly (snd il) c; Text p0 (nat_str (fst il + 1))]) (snd kl)) pls = Ok pshapes ->
  pendulum_groups par ss is ps (concat (map (@concat shape) pshapes)).
Proof.
  intros RS RI RP PL SH. exists (map (@concat shape) pshapes). split; [reflexivity|]. apply remove_lists_iff in RS. unfold pendulum_lines in PL.
  revert pls pshapes PL SH. induction RS as [|[X v] [X' ms] ss ss' [E N] RS IH]; intros pls pshapes PL SH; cbn [mapM fst snd] in *.
  - assert (pls = []) by congruence. subst pls. cbn [mapM] in SH. assert (pshapes = []) by congruence. subst. constructor.
  - subst X'. step_bind PL. step_bind PL. assert (pls = x :: x0) by congruence. subst pls. clear PL. step_bind E. assert (x = (X, x1)) by congruence. subst x. clear E.
    cbn [mapM fst snd] in SH. step_bind SH. step_bind SH. assert (pshapes = x :: x2) by congruence. subst pshapes. clear SH. cbn [map]. constructor.
    + exists ms. split; [exact N|]. cbn [fst]. eapply pendulum_part_group; eassumption.
    + eapply IH; eassumption.
Qed.

Lemma place_centre par X o : wheel_like X = false -> place par X = Ok o -> o = plot_centre par X.
Proof.
  unfold wheel_like, place, plot_centre. intros W H. step_bind H. step_bind H. apply pv_of_dlook in E, E0. subst x x0.
  destruct (String.eqb X "F"); [discriminate|]. destruct (String.eqb X "R"); [discriminate|]. destruct (String.eqb X "D"); [discriminate|]. cbn [orb]. congruence.
Qed.
Lemma not_wheel_eq X : not_wheel X = negb (wheel_like X).
Proof. unfold not_wheel, wheel_like, smem. cbn [existsb]. destruct (String.eqb X "R"), (String.eqb X "F"), (String.eqb X "D"); reflexivity. Qed.
Lemma filter_ext' {A} (f g : A -> bool) l : (forall a, f a = g a) -> filter f l = filter g l.
Proof. intros H. induction l as [|a l IH]; cbn [filter]; [reflexivity|]. rewrite H, IH. reflexivity. Qed.
Lemma mass_symbols_spec par parts coms : mass_symbols par parts = Ok coms -> coms = centre_marks par parts.
Proof.
  unfold mass_symbols. intros H. step_bind H. step_bind H. step_bind H. step_bind H. step_bind H. step_bind H. step_bind H.
  apply pv_of_dlook in E, E0, E2. subst x x0 x2.
  assert (x1 = "F") by (unfold part_color in E1; destruct (smem "F" parts); congruence). assert (x3 = "R") by (unfold part_color in E3; destruct (smem "R" parts); congruence). subst x1 x3.
  assert (C : x4 = map (fun X => centre_mark par X X) (filter (fun X => negb (wheel_like X)) parts)).
  { rewrite (filter_ext' _ _ _ not_wheel_eq) in E4. assert (F : forall X, In X (filter (fun X => negb (wheel_like X)) parts) -> wheel_like X = false) by (intros X I; apply filter_In in I; destruct I as [_ I]; apply negb_true_iff; exact I).
    clear H E1 E3 E5. revert x4 E4 F. generalize (filter (fun X => negb (wheel_like X)) parts) as l. induction l as [|X l IH]; intros r M F; cbn [mapM map] in *; [congruence|].
    step_bind M. step_bind M. step_bind E. step_bind E. apply place_centre in E1; [|apply F; left; reflexivity]. subst x1.
    assert (x2 = X) by (unfold part_color in E2; destruct (smem X parts); congruence). subst x2.
    rewrite <- (IH x0 E0) by (intros; apply F; right; assumption). unfold centre_mark, symbol, sRad in *. congruence. }
  subst x4. assert (HX : x5 = if existsb (String.eqb "H") parts then [] else centre_mark par "H" "b").
  { change (smem "H" parts) with (existsb (String.eqb "H") parts) in E5. destruct (existsb (String.eqb "H") parts); [congruence|]. step_bind E5. apply place_centre in E; [|reflexivity]. subst x. unfold centre_mark, symbol, sRad in *. congruence. }
  subst x5. unfold centre_marks. assert (RES : forall a b : list shape, Ok a = Ok b -> b = a) by congruence. apply RES in H. exact H.
Qed.
Lemma existsb_smem H parts : existsb (String.eqb H) parts = smem H parts.
Proof. reflexivity. Qed.

Lemma lengths_unique_on_bike p q m b : bike_lengths p m b -> bike_lengths q m b -> forall v, on_bike p v = on_bike q v.
Proof.
  assert (U : forall d k x y, holds d k x -> holds d k y -> x = y) by (intros d k x y [A|[s A]] [B|[s' B]]; congruence).
  intros (A1 & A2 & A3 & A4 & A5 & A6) (B1 & B2 & B3 & B4 & B5 & B6) v.
  unfold on_bike, hips, bottom_bracket. cbn [vx vy vz].
  rewrite (U _ _ _ _ A1 B1), (U _ _ _ _ A2 B2), (U _ _ _ _ A3 B3), (U _ _ _ _ A4 B4), (U _ _ _ _ A5 B5), (U _ _ _ _ A6 B6). reflexivity.
Qed.
Lemma vec_conv' v m b r : yeadon_vec_to_bicycle_vec v m b = Ok r -> exists p, bike_lengths p m b /\ chain_stay_ok p /\ r = on_bike p v.
Proof.
  intros H. destruct (remove_uncertainties m) as [m'|] eqn:Em; [|unfold yeadon_vec_to_bicycle_vec in H; rewrite Em in H; discriminate].
  destruct (remove_uncertainties b) as [b'|] eqn:Eb; [|unfold yeadon_vec_to_bicycle_vec in H; rewrite Em, Eb in H; discriminate].
  apply (vec_conv v m b m' b' r Em Eb). exact H.
Qed.
Lemma stick_spec m b p v w l : bike_lengths p m b -> stick m b v w = Ok l -> l = seg p v w /\ chain_stay_ok p.
Proof.
  intros BL H. unfold stick in H. step_bind H. step_bind H. apply vec_conv' in E, E0. destruct E as (p1 & L1 & C1 & ->). destruct E0 as (p2 & L2 & C2 & ->).
  rewrite (lengths_unique_on_bike _ _ _ _ L1 BL), (lengths_unique_on_bike _ _ _ _ L2 BL) in H. split; [unfold seg; congruence|].
  unfold chain_stay_ok in *. destruct BL as (A1 & A2 & A3 & _), L1 as (B1 & B2 & B3 & _).
  assert (U : forall d k x y, holds d k x -> holds d k y -> x = y) by (intros d k x y [A|[s A]] [B|[s' B]]; congruence).
  rewrite (U _ _ _ _ A1 B1), (U _ _ _ _ A2 B2), (U _ _ _ _ A3 B3). exact C1.
Qed.
Lemma stick_lengths m b v w l : stick m b v w = Ok l -> exists p, bike_lengths p m b.
Proof. intros H. unfold stick in H. step_bind H. apply vec_conv' in E. destruct E as (p & L & _). eauto. Qed.
Lemma stick_figure_spec m b h fig : stick_figure m b h = Ok fig -> exists p, bike_lengths p m b /\ chain_stay_ok p /\ fig = rider_segments p h.
Proof.
  unfold stick_figure. cbn [mapM fst snd]. intros H. step_bind H. destruct (stick_lengths _ _ _ _ _ E) as [p BL]. exists p. split; [exact BL|].
  destruct (stick_spec _ _ _ _ _ _ BL E) as [-> C]. split; [exact C|]. clear E.
  step_bind H. step_bind E. destruct (stick_spec _ _ _ _ _ _ BL E0) as [-> _]. clear E0.
  step_bind E. step_bind E0. destruct (stick_spec _ _ _ _ _ _ BL E1) as [-> _]. clear E1.
  step_bind E0. step_bind E1. destruct (stick_spec _ _ _ _ _ _ BL E2) as [-> _]. clear E2.
  step_bind E1. step_bind E2. destruct (stick_spec _ _ _ _ _ _ BL E3) as [-> _]. clear E3.
  step_bind E2. step_bind E3. destruct (stick_spec _ _ _ _ _ _ BL E4) as [-> _]. clear E4.
  cbn [bind] in E3. unfold rider_segments. congruence.
Qed.
