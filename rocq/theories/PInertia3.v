(* PInertia3.v -- total mass centre, part tensors, combining bodies, principal
   axes, conversion (C16-C18, C26) *)
From Verif Require Import Base PBase MBicycle MVec MInertia SBicycle SInertia PBicycle PInertia.
From Coq Require Import Lra Permutation Sorted.
Local Open Scope string_scope.
Local Open Scope R_scope.

(* ---------- total_com ---------- *)
Lemma rsum_sum_over {A} (f : A -> R) l : rsum (map f l) = sum_over f l.
Proof. unfold rsum, sum_over. induction l as [|a l IH]; simpl; [reflexivity|]. rewrite IH; reflexivity. Qed.
Lemma prod_row (f : R * vec3 -> R) ps :
  rsum (map (fun p => fst p * snd p) (combine (map fst ps) (map f ps))) = sum_over (fun q => fst q * f q) ps.
Proof. unfold rsum, sum_over. induction ps as [|a l IH]; simpl; [reflexivity|]. rewrite IH; reflexivity. Qed.

Definition wsum (f : vec3 -> R) (ps : list (R * vec3)) : R := sum_over (fun q => fst q * f (snd q)) ps.

Lemma total_com_eval ps : total_com (coord_rows ps) (mass_list ps) =
  if Req_EM_T (mass_of ps) 0 then Err ZeroDivisionError
  else Ok (mass_of ps, coords (mk3 (wsum vx ps / mass_of ps) (wsum vy ps / mass_of ps) (wsum vz ps / mass_of ps))).
Proof.
  unfold total_com, coord_rows, mass_list.
  assert (L : forall f : R * vec3 -> R, Nat.eqb (length (map f ps)) (length (map fst ps)) = true).
  { intros f. apply Nat.eqb_eq. rewrite !map_length. reflexivity. }
  cbn [forallb]. rewrite !L. cbn [andb map].
  change (rsum (map fst ps)) with (rsum (map (fun q : R * vec3 => fst q) ps)).
  rewrite rsum_sum_over. cbn [mapM]. rewrite !prod_row.
  change (sum_over (fun q : R * vec3 => fst q) ps) with (mass_of ps).
  unfold rdiv. destruct (Req_EM_T (mass_of ps) 0); reflexivity.
Qed.

Lemma moment_shift f c ps : sum_over (fun q : R * vec3 => fst q * (f (snd q) - c)) ps = wsum f ps - c * mass_of ps.
Proof.
  unfold wsum, mass_of, sum_over. induction ps as [|a l IH]; simpl; [ring|]. rewrite IH; ring.
Qed.
Lemma is_com_iff ps c : mass_of ps <> 0 ->
  (is_com ps c <-> c = mk3 (wsum vx ps / mass_of ps) (wsum vy ps / mass_of ps) (wsum vz ps / mass_of ps)).
Proof.
  intros M. unfold is_com, first_moment. rewrite zero3_eq, (moment_shift vx), (moment_shift vy), (moment_shift vz).
  split.
  - intros (X & Y & Z). apply vec3_ext; cbn; apply (Rmult_eq_reg_r (mass_of ps)); auto; field_simplify; auto; lra.
  - intros ->. cbn. repeat split; field; auto.
Qed.
Lemma total_com_iff ps m cs :
  total_com (coord_rows ps) (mass_list ps) = Ok (m, cs) <->
  m = mass_of ps /\ m <> 0 /\ exists c, cs = coords c /\ is_com ps c.
Proof.
  rewrite total_com_eval. destruct (Req_EM_T (mass_of ps) 0) as [E|E].
  - split; [discriminate|]. intros (-> & H & _). contradiction.
  - split.
    + intros H. inversion H; subst. repeat split; auto. eexists; split; [reflexivity|]. apply is_com_iff; auto.
    + intros (-> & _ & c & -> & H). apply is_com_iff in H; auto. subst c. reflexivity.
Qed.
Lemma wsum_perm f ps qs : Permutation ps qs -> wsum f ps = wsum f qs.
Proof. apply sum_over_perm. Qed.
Lemma total_com_perm ps qs : Permutation ps qs ->
  total_com (coord_rows ps) (mass_list ps) = total_com (coord_rows qs) (mass_list qs).
Proof.
  intros P. rewrite !total_com_eval. rewrite (wsum_perm vx _ _ P), (wsum_perm vy _ _ P), (wsum_perm vz _ _ P).
  unfold mass_of. rewrite (sum_over_perm fst _ _ P). reflexivity.
Qed.
Lemma total_com_group ps qs m1 c1 m2 c2 :
  total_com (coord_rows ps) (mass_list ps) = Ok (m1, coords c1) ->
  total_com (coord_rows qs) (mass_list qs) = Ok (m2, coords c2) ->
  total_com (coord_rows (ps ++ qs)) (mass_list (ps ++ qs)) =
  total_com (coord_rows [(m1, c1); (m2, c2)]) (mass_list [(m1, c1); (m2, c2)]).
Proof.
  rewrite !total_com_eval.
  destruct (Req_EM_T (mass_of ps) 0); [discriminate|]. destruct (Req_EM_T (mass_of qs) 0); [discriminate|].
  intros H1 H2. inversion H1; inversion H2; subst; clear H1 H2.
  assert (W : forall f, wsum f (ps ++ qs) = wsum f ps + wsum f qs) by (intros; apply sum_over_app).
  assert (Ms : mass_of (ps ++ qs) = mass_of ps + mass_of qs) by apply sum_over_app.
  assert (W2 : forall f, wsum f [(mass_of ps, c1); (mass_of qs, c2)] = mass_of ps * f c1 + mass_of qs * f c2).
  { intros f. unfold wsum, sum_over; cbn [fold_right fst snd]. ring. }
  assert (M2 : mass_of [(mass_of ps, c1); (mass_of qs, c2)] = mass_of ps + mass_of qs).
  { unfold mass_of at 1, sum_over; cbn [fold_right fst snd]. ring. }
  rewrite !W, Ms, !W2, M2. destruct (Req_EM_T _ 0); [reflexivity|].
  rewrite <- H3, <- H4, <- H5, <- H7, <- H8, <- H9.
  f_equal. f_equal. unfold coords; cbn [vx vy vz].
  f_equal; [field; auto | f_equal; [field; auto | f_equal; field; auto]].
Qed.
Lemma total_com_translate ps t m c :
  total_com (coord_rows ps) (mass_list ps) = Ok (m, coords c) ->
  let qs := map (fun q => (fst q, v3_add (snd q) t)) ps in
  total_com (coord_rows qs) (mass_list qs) = Ok (m, coords (v3_add c t)).
Proof.
  intros H qs. apply total_com_iff in H. destruct H as (-> & M & c' & E & H).
  assert (c' = c) as -> by (destruct c, c'; unfold coords in E; cbn in E; inversion E; reflexivity).
  apply total_com_iff.
  assert (MM : mass_of ps = mass_of qs).
  { unfold qs, mass_of, sum_over. clear. induction ps as [|a l IH]; simpl; [reflexivity|]. rewrite IH; reflexivity. }
  repeat split; auto. eexists; split; [reflexivity|].
  unfold is_com, first_moment in *. rewrite zero3_eq in *.
  assert (S : forall (f : vec3 -> R), (forall u w, f (v3_add u w) = f u + f w) ->
     sum_over (fun q => fst q * (f (snd q) - f (v3_add c t))) qs = sum_over (fun q => fst q * (f (snd q) - f c)) ps).
  { intros f A. unfold qs. clear - A. unfold sum_over. induction ps as [|a l IH]; simpl; [reflexivity|].
    rewrite IH, !A. ring. }
  rewrite (S vx), (S vy), (S vz); auto.
Qed.
Lemma total_com_bounds ps m c :
  total_com (coord_rows ps) (mass_list ps) = Ok (m, coords c) ->
  Forall (fun q => 0 <= fst q) ps ->
  forall (f : vec3 -> R) lo hi, f = vx \/ f = vy \/ f = vz ->
  Forall (fun q => lo <= f (snd q) <= hi) ps -> lo <= f c <= hi.
Proof.
  intros H P f lo hi F B. rewrite total_com_eval in H. destruct (Req_EM_T (mass_of ps) 0) as [E|E]; [discriminate|].
  inversion H; subst; clear H. rewrite Forall_forall in P, B.
  assert (M0 : 0 <= mass_of ps) by (apply sum_over_nonneg; auto).
  assert (M : 0 < mass_of ps) by lra.
  assert (W1 : lo * mass_of ps <= wsum f ps).
  { unfold mass_of, wsum. rewrite <- sum_over_scale. apply sum_over_le. intros q Hq.
    rewrite Rmult_comm. apply Rmult_le_compat_l; [apply P | apply B]; auto. }
  assert (W2 : wsum f ps <= hi * mass_of ps).
  { unfold mass_of, wsum. rewrite <- sum_over_scale. apply sum_over_le. intros q Hq.
    rewrite (Rmult_comm hi). apply Rmult_le_compat_l; [apply P | apply B]; auto. }
  assert (Q : f c = wsum f ps / mass_of ps).
  { destruct F as [-> | [-> | ->]]; congruence. }
  rewrite Q. split.
  - apply (Rmult_le_reg_r (mass_of ps)); auto. field_simplify; lra.
  - apply (Rmult_le_reg_r (mass_of ps)); auto. field_simplify; lra.
Qed.
Lemma total_com_mismatch coordinates masses :
  Exists (fun row => length row <> length masses) coordinates ->
  total_com coordinates masses = Err (ValueError "operands could not be broadcast together").
Proof.
  intros H. unfold total_com. replace (forallb _ coordinates) with false; [reflexivity|].
  symmetry. apply not_true_is_false. intros F. rewrite forallb_forall in F.
  apply Exists_exists in H. destruct H as (row & I & N). apply N. apply Nat.eqb_eq, F, I.
Qed.

(* ---------- part_inertia_tensor ---------- *)
Lemma dlook_some {V} (p : dict V) k v : dget p k = Some v -> dlook p k = Ok v.
Proof. unfold dlook; intros ->; reflexivity. Qed.

Lemma part_tensor_wheel par part J : is_wheel_part part ->
  (part_inertia_tensor par part = Ok J <->
   dget par "IBxx" <> None /\
   exists a b, dget par ("I" ++ part ++ "xx") = Some a /\ dget par ("I" ++ part ++ "yy") = Some b /\
               J = m3_diag a b a).
Proof.
  intros H. unfold part_inertia_tensor.
  assert (E : in_FRD part = true) by (destruct H as [-> | [-> | ->]]; reflexivity).
  rewrite E. split.
  - intros K. step_bind K. apply dlook_inv in E0. repeat step_bind K. 
    apply dlook_inv in E1, E2, E3. inversion K; subst. rewrite E1 in E3; inversion E3; subst.
    split; [congruence|]. eauto.
  - intros (N & a & b & A & B & ->). destruct (dget par "IBxx") eqn:Q; [|contradiction].
    rewrite (dlook_some _ _ _ Q); cbn [bind]. rewrite (dlook_some _ _ _ A); cbn [bind]. rewrite (dlook_some _ _ _ B); reflexivity.
Qed.
Lemma part_tensor_other par part J : in_FRD part = false ->
  (part_inertia_tensor par part = Ok J <->
   dget par "IBxx" <> None /\
   exists a b c d, dget par ("I" ++ part ++ "xx") = Some a /\ dget par ("I" ++ part ++ "xz") = Some b /\
     dget par ("I" ++ part ++ "yy") = Some c /\ dget par ("I" ++ part ++ "zz") = Some d /\
               J = mk33 (mk3 a 0 b) (mk3 0 c 0) (mk3 b 0 d)).
Proof.
  intros E. unfold part_inertia_tensor. rewrite E. split.
  - intros K. step_bind K. apply dlook_inv in E0. repeat step_bind K.
    apply dlook_inv in E1, E2, E3, E4, E5. inversion K; subst. rewrite E2 in E4; inversion E4; subst.
    split; [congruence|]. do 4 eexists; repeat split; eauto.
  - intros (N & a & b & c & d & A & B & C & D & ->). destruct (dget par "IBxx") eqn:Q; [|contradiction].
    rewrite (dlook_some _ _ _ Q); cbn [bind]. rewrite (dlook_some _ _ _ A); cbn [bind].
    rewrite (dlook_some _ _ _ B); cbn [bind]. rewrite (dlook_some _ _ _ C); cbn [bind].
    rewrite (dlook_some _ _ _ D); reflexivity.
Qed.
Lemma part_tensor_sym par part J : part_inertia_tensor par part = Ok J ->
  symmetric J /\ vy (r1 J) = 0 /\ vz (r2 J) = 0 /\ dget par ("I" ++ part ++ "xx") = Some (vx (r1 J))
  /\ dget par ("I" ++ part ++ "yy") = Some (vy (r2 J)).
Proof.
  unfold part_inertia_tensor. intros K. step_bind K. destruct (in_FRD part).
  - repeat step_bind K. apply dlook_inv in E0, E1, E2. inversion K; subst. unfold symmetric; cbn. repeat split; auto.
  - repeat step_bind K. apply dlook_inv in E0, E1, E2, E3, E4. inversion K; subst. unfold symmetric; cbn.
    repeat split; auto; congruence.
Qed.
Lemma part_tensor_error par part e : part_inertia_tensor par part = Err e ->
  exists k, e = KeyError k /\ dget par k = None /\
   (k = "IBxx" \/ k = "I" ++ part ++ "xx" \/ k = "I" ++ part ++ "xz" \/ k = "I" ++ part ++ "yy" \/ k = "I" ++ part ++ "zz").
Proof.
  assert (L : forall k, (exists v, dlook par k = Ok v) \/ (dlook par k = Err (KeyError k) /\ dget par k = None)).
  { intros k. unfold dlook. destruct (dget par k); eauto. }
  unfold part_inertia_tensor. intros K.
  assert (Lc : forall col, In col ["xx"; "xz"; "yy"; "zz"] ->
    (exists v, dlook par ("I" ++ part ++ col) = Ok v) \/
    (dlook par ("I" ++ part ++ col) = Err (KeyError ("I" ++ part ++ col)) /\ dget par ("I" ++ part ++ col) = None))
    by (intros; apply L).
  destruct (L "IBxx") as [[v E]|[E N]]; rewrite E in K; cbn [bind] in K; [|inversion K; subst; eexists; repeat split; eauto].
  destruct (Lc "xx" ltac:(simpl; tauto)) as [[v1 E1]|[E1 N1]];
  destruct (Lc "xz" ltac:(simpl; tauto)) as [[v2 E2]|[E2 N2]];
  destruct (Lc "yy" ltac:(simpl; tauto)) as [[v3 E3]|[E3 N3]];
  destruct (Lc "zz" ltac:(simpl; tauto)) as [[v4 E4]|[E4 N4]];
  destruct (in_FRD part);
  repeat (first [rewrite E1 in K | rewrite E2 in K | rewrite E3 in K | rewrite E4 in K]; cbn [bind] in K);
  first [discriminate | inversion K; subst; eexists; repeat split; eauto; tauto].
Qed.
Lemma in_FRD_single c : in_FRD (String c "") = true -> is_wheel_part (String c "").
Proof.
  unfold in_FRD. rewrite smem_spec. simpl. unfold is_wheel_part.
  intros [H|[H|[H|[H|[H|[H|[H|[]]]]]]]]; try discriminate; inversion H; auto.
Qed.

(* ---------- principal axes ---------- *)
Lemma insert_by_perm x l : Permutation (insert_by x l) (x :: l).
Proof.
  induction l as [|y l IH]; simpl; auto. destruct (Rltb (fst y) (fst x)); auto.
  rewrite IH. apply perm_swap.
Qed.
Lemma sort_by_perm l : Permutation (sort_by l) l.
Proof. induction l as [|x l IH]; simpl; auto. rewrite insert_by_perm. constructor. exact IH. Qed.
Lemma insert_by_sorted x l : StronglySorted (fun a b => fst a <= fst b) l ->
  StronglySorted (fun a b : R * vec3 => fst a <= fst b) (insert_by x l).
Proof.
  induction 1 as [|y l H IH F]; simpl.
  - repeat constructor.
  - destruct (Rltb (fst y) (fst x)) eqn:E.
    + apply Rltb_spec in E. constructor; auto. rewrite Forall_forall in *. intros z Hz.
      apply (Permutation_in z (insert_by_perm x l)) in Hz. destruct Hz as [<-|Hz]; [lra | auto].
    + apply Rltb_false in E. constructor; [constructor; auto|]. constructor; auto.
      rewrite Forall_forall in *. intros z Hz. specialize (F z Hz). lra.
Qed.
Lemma sort_by_sorted l : StronglySorted (fun a b : R * vec3 => fst a <= fst b) (sort_by l).
Proof. induction l as [|x l IH]; simpl; [constructor|]. apply insert_by_sorted, IH. Qed.

(* ---------- combining ---------- *)
Definition combined (p rd : dict R) : dict R :=
  let mB := pv p "mB" in let mr := pv rd "mB" in let M := mr + mB in
  let cx := (mr * pv rd "xB" + mB * pv p "xB") / M in
  let cy := (mr * pv rd "yB" + mB * 0) / M in
  let cz := (mr * pv rd "zB" + mB * pv p "zB") / M in
  dset (dset (dset (dset (dset (dset (dset (dset p "xB" cx) "zB" cz) "yB" 0) "mB" M)
    "IBxx" (pv rd "IBxx" + mr * ((pv rd "yB" - cy)^2 + (pv rd "zB" - cz)^2) + (pv p "IBxx" + mB * (0^2 + (pv p "zB" - cz)^2))))
    "IBxz" (pv rd "IBxz" + mr * (- (pv rd "xB" - cx) * (pv rd "zB" - cz)) + (pv p "IBxz" + mB * (- (pv p "xB" - cx) * (pv p "zB" - cz)))))
    "IByy" (pv rd "IByy" + mr * ((pv rd "zB" - cz)^2 + (pv rd "xB" - cx)^2) + (pv p "IByy" + mB * ((pv p "zB" - cz)^2 + (pv p "xB" - cx)^2))))
    "IBzz" (pv rd "IBzz" + mr * ((pv rd "xB" - cx)^2 + (pv rd "yB" - cy)^2) + (pv p "IBzz" + mB * ((pv p "xB" - cx)^2 + 0^2))).


Lemma combine_forward p rd :
  (forall k, In k bike_keys -> In k (dkeys p)) -> (forall k, In k rider_keys -> In k (dkeys rd)) ->
  pv rd "mB" + pv p "mB" <> 0 -> combine_bike_rider p rd = Ok (combined p rd).
Proof.
  intros HP HR M.
  assert (LP : forall k, In k bike_keys -> dlook p k = Ok (pv p k)) by (intros; apply dlook_pv; auto).
  assert (LR : forall k, In k rider_keys -> dlook rd k = Ok (pv rd k)) by (intros; apply dlook_pv; auto).
  assert (TP : part_inertia_tensor p "B" = Ok (mk33 (mk3 (pv p "IBxx") 0 (pv p "IBxz")) (mk3 0 (pv p "IByy") 0) (mk3 (pv p "IBxz") 0 (pv p "IBzz")))).
  { unfold part_inertia_tensor. cbn [in_FRD smem existsb String.eqb Ascii.eqb Bool.eqb orb append].
    rewrite !LP by (simpl; tauto). reflexivity. }
  assert (TR : part_inertia_tensor rd "B" = Ok (mk33 (mk3 (pv rd "IBxx") 0 (pv rd "IBxz")) (mk3 0 (pv rd "IByy") 0) (mk3 (pv rd "IBxz") 0 (pv rd "IBzz")))).
  { unfold part_inertia_tensor. cbn [in_FRD smem existsb String.eqb Ascii.eqb Bool.eqb orb append].
    rewrite !LR by (simpl; tauto). reflexivity. }
  unfold combine_bike_rider. rewrite TP, TR.
  rewrite !LP, !LR by (simpl; tauto). cbn [bind].
  unfold total_com. cbn [forallb length Nat.eqb andb map combine fst snd rsum fold_right mapM].
  assert (M' : pv rd "mB" + (pv p "mB" + 0) <> 0) by lra.
  rewrite !rdiv_eq by exact M'. cbn [bind]. unfold combined.
  replace (pv rd "mB" + (pv p "mB" + 0)) with (pv rd "mB" + pv p "mB") by ring. rewrite !Rplus_0_r.
  unfold parallel_axis. vsimpl. reflexivity.
Qed.

Lemma combine_ok p rd q : combine_bike_rider p rd = Ok q ->
  (forall k, In k bike_keys -> In k (dkeys p)) /\ (forall k, In k rider_keys -> In k (dkeys rd)) /\
  pv rd "mB" + pv p "mB" <> 0 /\ q = combined p rd.
Proof.
  intros H.
  assert (G : (forall k, In k bike_keys -> In k (dkeys p)) /\ (forall k, In k rider_keys -> In k (dkeys rd)) /\
              pv rd "mB" + pv p "mB" <> 0).
  { unfold combine_bike_rider in H. do 7 step_bind H. step_bind H.
    unfold total_com in E6. cbn [forallb length Nat.eqb andb map combine fst snd rsum fold_right mapM] in E6.
    step_bind E6. step_bind E7.
    apply rdiv_ok in E8. destruct E8 as [N _]. clear E7 E6. destruct x6 as [mT [|cx [|cy [|cz [|]]]]]; try discriminate.
    do 2 step_bind H. clear H. 
    unfold part_inertia_tensor in E6, E7. cbn [in_FRD smem existsb String.eqb Ascii.eqb Bool.eqb orb append] in E6, E7.
    repeat step_bind E6. repeat step_bind E7. clear E6 E7.
    rewrite (pv_of_dlook _ _ _ E), (pv_of_dlook _ _ _ E0).
    repeat match goal with X : dlook _ _ = Ok _ |- _ => apply in_keys_of_dlook in X end.
    split; [|split].
    - intros k Hk. simpl in Hk. intuition (subst; assumption).
    - intros k Hk. simpl in Hk. intuition (subst; assumption).
    - lra. }
  destruct G as (G1 & G2 & G3). repeat split; auto. rewrite combine_forward in H by assumption. congruence.
Qed.

Ltac pvset := unfold pv; repeat (rewrite dget_dset_eq || (rewrite dget_dset_neq by reflexivity)).

Lemma pv_dset p k x k' : pv (dset p k x) k' = if String.eqb k' k then x else pv p k'.
Proof. unfold pv. rewrite dget_dset. destruct (String.eqb k' k); reflexivity. Qed.

Lemma combined_other p rd k : ~ In k ["xB"; "zB"; "yB"; "mB"; "IBxx"; "IBxz"; "IByy"; "IBzz"] ->
  dget (combined p rd) k = dget p k.
Proof.
  intros H. unfold combined. simpl in H.
  repeat rewrite dget_dset_neq by (apply String.eqb_neq; intros ->; apply H; tauto). reflexivity.
Qed.

Lemma combine_mass_com p rd q : combine_bike_rider p rd = Ok q -> pv rd "yB" = 0 ->
  let parts := [(pv rd "mB", mk3 (pv rd "xB") (pv rd "yB") (pv rd "zB")); (pv p "mB", mk3 (pv p "xB") 0 (pv p "zB"))] in
  pv q "mB" = mass_of parts /\ is_com parts (mk3 (pv q "xB") (pv q "yB") (pv q "zB")).
Proof.
  intros H Y. apply combine_ok in H. destruct H as (_ & _ & M & ->). intros parts.
  assert (Em : mass_of parts = pv rd "mB" + pv p "mB") by (unfold parts, mass_of, sum_over; simpl; ring).
  split.
  - rewrite Em. unfold combined. rewrite !pv_dset. reflexivity.
  - apply is_com_iff; [rewrite Em; exact M|]. rewrite Em. unfold parts, wsum, sum_over; cbn [fold_right fst snd vx vy vz].
    unfold combined. rewrite !pv_dset. cbn [String.eqb Ascii.eqb Bool.eqb]. rewrite Y. apply vec3_ext; cbn [vx vy vz]; field; exact M.
Qed.

(* moments of the combined body about any axis through any point equal the sums *)
Lemma combine_inertia p rd q o n : combine_bike_rider p rd = Ok q -> pv rd "yB" = 0 ->
  bench_moment q "B" o n = bench_moment p "B" o n + bench_moment rd "B" o n.
Proof.
  intros H Y. apply combine_ok in H. destruct H as (_ & _ & M & ->).
  unfold bench_moment, rigid_moment, combined. cbn [append]. rewrite !pv_dset. cbn [String.eqb Ascii.eqb Bool.eqb].
  rewrite Y. revert M.
  generalize (pv rd "mB") (pv rd "xB") (pv rd "zB") (pv rd "IBxx") (pv rd "IBxz") (pv rd "IBzz") (pv rd "IByy").
  generalize (pv p "mB") (pv p "xB") (pv p "zB") (pv p "IBxx") (pv p "IBxz") (pv p "IBzz") (pv p "IByy").
  intros. destruct o, n. vsimpl. field. assumption.
Qed.

(* two non-steering, non-spinning bodies against one with the same mass, mass
   moments and inertia about the origin *)
Definition same_lump (bB fB rB : body) : Prop :=
  b_m bB = b_m fB + b_m rB /\ b_m bB * b_x bB = b_m fB * b_x fB + b_m rB * b_x rB /\
     b_m bB * b_z bB = b_m fB * b_z fB + b_m rB * b_z rB /\
     b_Ixx bB + b_m bB * b_z bB ^ 2 = (b_Ixx fB + b_m fB * b_z fB ^ 2) + (b_Ixx rB + b_m rB * b_z rB ^ 2) /\
     b_Izz bB + b_m bB * b_x bB ^ 2 = (b_Izz fB + b_m fB * b_x fB ^ 2) + (b_Izz rB + b_m rB * b_x rB ^ 2) /\
     b_Ixz bB - b_m bB * b_x bB * b_z bB = (b_Ixz fB - b_m fB * b_x fB * b_z fB) + (b_Ixz rB - b_m rB * b_x rB * b_z rB).
Lemma merge_newton_euler w cc lam rw hf fw bB fB rB v g phi phi1 phi2 del del1 del2 Tphi Tdel :
  b_front bB = false /\ b_front rB = false /\ b_front fB = false ->
  b_Iyy_over_r bB = 0 /\ b_Iyy_over_r rB = 0 /\ b_Iyy_over_r fB = 0 ->
  same_lump bB fB rB ->
  (newton_euler (mkbike w cc lam [rw; bB; hf; fw]) v g phi phi1 phi2 del del1 del2 Tphi Tdel <->
   newton_euler (mkbike w cc lam [rw; fB; rB; hf; fw]) v g phi phi1 phi2 del del1 del2 Tphi Tdel).
Proof.
  set (kq := mkbike w cc lam [rw; bB; hf; fw]).
  set (kr := mkbike w cc lam [rw; fB; rB; hf; fw]).
  intros NB SB Q. destruct Q as (Q1 & Q2 & Q3 & Q4 & Q5 & Q6). destruct NB as (N1 & N2 & N3). destruct SB as (S1 & S2 & S3).
  (* contributions of a body that does not steer or spin *)
  assert (Rx : forall k b v ra ya sa yr sr y2, b_front b = false -> b_Iyy_over_r b = 0 ->
     hx' k v b ra ya sa yr sr - b_z b * (b_m b * lat k b y2 ra ya sa)
     = ra * (b_Ixx b + b_m b * b_z b ^ 2) + ya * (b_Ixz b - b_m b * b_x b * b_z b) - y2 * (b_m b * b_z b)).
  { intros k b v0 ra ya sa yr sr y2 E1 E2. unfold hx', lat, rot_x, rot_z, spin, fr. rewrite E1, E2. ring. }
  assert (Rz : forall k b v ra ya sa rr sr y2, b_front b = false -> b_Iyy_over_r b = 0 ->
     hz' k v b ra ya sa rr sr + b_x b * (b_m b * lat k b y2 ra ya sa)
     = ra * (b_Ixz b - b_m b * b_x b * b_z b) + ya * (b_Izz b + b_m b * b_x b ^ 2) + y2 * (b_m b * b_x b)).
  { intros k b v0 ra ya sa rr sr y2 E1 E2. unfold hz', lat, rot_x, rot_z, spin, fr. rewrite E1, E2. ring. }
  assert (Rg : forall k b ph de, b_front b = false ->
     b_m b * g * (- b_z b * ph + fr b * arm k b * de) = - g * ph * (b_m b * b_z b)).
  { intros k b ph de E1. unfold fr. rewrite E1. ring. }
  assert (Rf : forall b y, b_front b = false -> fr b * y = 0).
  { intros b y E1. unfold fr. rewrite E1. ring. }
  assert (SX : sumb kq (fun b => b_m b * b_x b) = sumb kr (fun b => b_m b * b_x b)).
  { unfold sumb, kq, kr; cbn [k_bodies fold_right]. rewrite Q2. ring. }
  assert (SR : forall ra ya sa yr sr y2, sumb kq (fun b => hx' kq v b ra ya sa yr sr - b_z b * (b_m b * lat kq b y2 ra ya sa))
     = sumb kr (fun b => hx' kr v b ra ya sa yr sr - b_z b * (b_m b * lat kr b y2 ra ya sa))).
  { intros. unfold sumb. change (k_bodies kq) with [rw; bB; hf; fw].
    change (k_bodies kr) with [rw; fB; rB; hf; fw]. cbn [fold_right]. rewrite !(Rx _ bB), !(Rx _ fB), !(Rx _ rB) by assumption.
    rewrite Q4, Q6, Q3. change (hx' kr) with (hx' kq). unfold lat, arm. cbn [k_w k_c k_lam kq kr]. ring. }
  assert (SZ : forall ra ya sa rr sr y2, sumb kq (fun b => hz' kq v b ra ya sa rr sr + b_x b * (b_m b * lat kq b y2 ra ya sa))
     = sumb kr (fun b => hz' kr v b ra ya sa rr sr + b_x b * (b_m b * lat kr b y2 ra ya sa))).
  { intros. unfold sumb. change (k_bodies kq) with [rw; bB; hf; fw].
    change (k_bodies kr) with [rw; fB; rB; hf; fw]. cbn [fold_right]. rewrite !(Rz _ bB), !(Rz _ fB), !(Rz _ rB) by assumption.
    rewrite Q5, Q6, Q2. unfold hz', lat, arm, rot_x, rot_z. cbn [k_w k_c k_lam kq kr]. ring. }
  assert (SG : forall ph de, sumb kq (fun b => b_m b * g * (- b_z b * ph + fr b * arm kq b * de))
     = sumb kr (fun b => b_m b * g * (- b_z b * ph + fr b * arm kr b * de))).
  { intros. unfold sumb. change (k_bodies kq) with [rw; bB; hf; fw].
    change (k_bodies kr) with [rw; fB; rB; hf; fw]. cbn [fold_right]. rewrite !(Rg _ bB), !(Rg _ fB), !(Rg _ rB) by assumption.
    rewrite Q3. unfold arm. cbn [k_w k_c k_lam kq kr]. ring. }
  assert (SF : forall f f' : body -> R, (forall b, f b = f' b) -> sumb kq (fun b => fr b * f b) = sumb kr (fun b => fr b * f' b)).
  { intros f f' E. unfold sumb, kq, kr; cbn [k_bodies fold_right]. rewrite (Rf bB), (Rf fB), (Rf rB) by assumption. rewrite !E. ring. }
  unfold newton_euler.
  assert (FL : front_load kq g = front_load kr g) by (unfold front_load; rewrite SX; reflexivity).
  assert (B : forall P Q : R -> R -> R -> R -> R -> R -> Prop, (forall a b c d e f, P a b c d e f <-> Q a b c d e f) ->
    ((exists a b c d e f, P a b c d e f) <-> exists a b c d e f, Q a b c d e f)).
  { intros P Q X. split; intros (a0 & b0 & c0 & d0 & e0 & f0 & H0); exists a0, b0, c0, d0, e0, f0; apply X; exact H0. }
  apply B. clear B. intros y1 y2 psi psi1 psi2 F. rewrite FL, SR, SZ, SG.
  rewrite (SF _ (fun b => sin (k_lam kr) * hx' kr v b phi2 psi2 del2 psi1 del1
      + cos (k_lam kr) * hz' kr v b phi2 psi2 del2 phi1 del1 + arm kr b * (b_m b * lat kr b y2 phi2 psi2 del2)))
    by (intros; reflexivity).
  rewrite (SF _ (fun b => b_m b * arm kr b)) by (intros; reflexivity).
  cbn [k_w k_c k_lam kq kr]. reflexivity.
Qed.

Lemma combine_newton_euler p rd q v g phi phi1 phi2 del del1 del2 Tphi Tdel :
  combine_bike_rider p rd = Ok q -> pv rd "yB" = 0 ->
  (newton_euler (bike_of q) v g phi phi1 phi2 del del1 del2 Tphi Tdel <->
   newton_euler (with_rider p rd) v g phi phi1 phi2 del del1 del2 Tphi Tdel).
Proof.
  intros H Y. apply combine_ok in H. destruct H as (_ & _ & M & ->).
  assert (O : forall k, ~ In k ["xB"; "zB"; "yB"; "mB"; "IBxx"; "IBxz"; "IByy"; "IBzz"] -> pv (combined p rd) k = pv p k).
  { intros k Hk. unfold pv. rewrite combined_other by exact Hk. reflexivity. }
  assert (F1 : rear_wheel (combined p rd) = rear_wheel p).
  { unfold rear_wheel. rewrite !O by (simpl; intuition discriminate). reflexivity. }
  assert (F2 : front_frame (combined p rd) = front_frame p).
  { unfold front_frame. rewrite !O by (simpl; intuition discriminate). reflexivity. }
  assert (F3 : front_wheel (combined p rd) = front_wheel p).
  { unfold front_wheel. rewrite !O by (simpl; intuition discriminate). reflexivity. }
  set (bB := rear_frame (combined p rd)).
  assert (EB : bike_of (combined p rd) = mkbike (pv p "w") (pv p "c") (pv p "lam") [rear_wheel p; bB; front_frame p; front_wheel p]).
  { unfold bike_of. rewrite F1, F2, F3, !O by (simpl; intuition discriminate). reflexivity. }
  rewrite EB. unfold with_rider.
  set (rB := mkbody (pv rd "mB") _ _ _ _ _ 0 false). set (fB := rear_frame p).
  apply merge_newton_euler; [repeat split | repeat split |]. unfold same_lump.
  unfold bB, rB, fB, rear_frame. cbn [b_m b_x b_z b_Ixx b_Ixz b_Izz].
    unfold combined. rewrite !pv_dset. cbn [String.eqb Ascii.eqb Bool.eqb]. rewrite Y.
    clear - M. revert M.
    generalize (pv rd "mB") (pv rd "xB") (pv rd "zB") (pv rd "IBxx") (pv rd "IBxz") (pv rd "IBzz").
    generalize (pv p "mB") (pv p "xB") (pv p "zB") (pv p "IBxx") (pv p "IBxz") (pv p "IBzz").
    intros. repeat split; field; assumption.
Qed.

(* ---------- conversion ---------- *)
Definition conv_xB (f : string -> R) := (f "mD" * f "xD" + f "mP" * f "xP") / (f "mD" + f "mP").
Definition conv_yB (f : string -> R) := (f "mD" * f "yD" + f "mP" * f "yP") / (f "mD" + f "mP").
Definition conv_zB (f : string -> R) := (f "mD" * f "zD" + f "mP" * f "zP") / (f "mD" + f "mP").
Definition prin (f : string -> R) (X : string) : mat3 :=
  rotate_inertia_about_y (m3_scale (f ("m" ++ X)) (m3_diag (f ("k" ++ X ++ "aa") ^2) (f ("k" ++ X ++ "yy") ^ 2) (f ("k" ++ X ++ "bb") ^2)))
    (- f ("alpha" ++ X)).
Definition conv_IB (f : string -> R) : mat3 :=
  let com := mk3 (conv_xB f) (conv_yB f) (conv_zB f) in
  m3_add (parallel_axis (prin f "D") (f "mD") (v3_sub com (mk3 (f "xD") (f "yD") (f "zD"))))
         (parallel_axis (prin f "P") (f "mP") (v3_sub com (mk3 (f "xP") (f "yP") (f "zP")))).
Definition conv_dict (f : string -> R) : dict R :=
  let IB := conv_IB f in let IH := prin f "H" in
  [("w", f "w"); ("c", f "c"); ("lam", f "lam"); ("g", f "g"); ("v", f "v");
   ("mB", f "mD" + f "mP"); ("xB", conv_xB f); ("yB", conv_yB f); ("zB", conv_zB f);
   ("IBxx", vx (r1 IB)); ("IByy", vy (r2 IB)); ("IBzz", vz (r3 IB)); ("IBxz", vz (r1 IB));
   ("mH", f "mH"); ("xH", f "xH"); ("yH", f "yH"); ("zH", f "zH");
   ("IHxx", vx (r1 IH)); ("IHyy", vy (r2 IH)); ("IHzz", vz (r3 IH)); ("IHxz", vz (r1 IH));
   ("rR", f "rR"); ("mR", f "mR"); ("IRxx", f "mR" * f "kRaa"^2); ("IRyy", f "mR" * f "kRyy"^2); ("IRzz", f "mR" * f "kRaa"^2);
   ("rF", f "rF"); ("mF", f "mF"); ("IFxx", f "mF" * f "kFaa"^2); ("IFyy", f "mF" * f "kFyy"^2); ("IFzz", f "mF" * f "kFaa"^2)].

Lemma conv_total (f : string -> R) (a b c d e g' : R) m1 m2 : m1 + m2 <> 0 ->
  total_com [[a; b]; [c; d]; [e; g']] [m1; m2] =
  Ok (m1 + m2, [(m1 * a + m2 * b) / (m1 + m2); (m1 * c + m2 * d) / (m1 + m2); (m1 * e + m2 * g') / (m1 + m2)]).
Proof.
  intros M. unfold total_com. cbn [forallb length Nat.eqb andb map combine fst snd rsum fold_right mapM].
  rewrite !Rplus_0_r. rewrite !rdiv_eq by exact M. reflexivity.
Qed.

Lemma convert_forward p : (forall k, In k principal_keys -> In k (dkeys p)) -> pv p "mD" + pv p "mP" <> 0 ->
  convert_principal_to_benchmark p = Ok (conv_dict (pv p)).
Proof.
  intros HK M.
  assert (L : forall k, In k principal_keys -> dlook p k = Ok (pv p k)) by (intros; apply dlook_pv; auto).
  unfold convert_principal_to_benchmark.
  do 13 (rewrite L by (simpl; tauto); cbn [bind]).
  rewrite (conv_total (pv p)) by exact M. cbn [bind].
  do 8 (rewrite L by (simpl; tauto); cbn [bind]).
  unfold sum_central_inertias. cbn [vx vy vz]. rewrite (conv_total (pv p)) by exact M. cbn [bind].
  do 16 (rewrite L by (simpl; tauto); cbn [bind]).
  reflexivity.
Qed.
Lemma convert_ok p b : convert_principal_to_benchmark p = Ok b ->
  (forall k, In k principal_keys -> In k (dkeys p)) /\ pv p "mD" + pv p "mP" <> 0 /\ b = conv_dict (pv p).
Proof.
  intros H.
  assert (G : (forall k, In k principal_keys -> In k (dkeys p)) /\ pv p "mD" + pv p "mP" <> 0).
  { unfold convert_principal_to_benchmark in H. do 13 step_bind H. step_bind H.
    unfold total_com in E12. cbn [forallb length Nat.eqb andb map combine fst snd rsum fold_right mapM] in E12.
    step_bind E12. step_bind E13. apply rdiv_ok in E14. destruct E14 as [N _]. clear E12 E13.
    destruct x12 as [mT [|cx [|cy [|cz [|]]]]]; try discriminate.
    do 8 step_bind H. step_bind H. match goal with X : sum_central_inertias _ _ _ _ _ _ = Ok _ |- _ => clear X end.
    repeat step_bind H. clear H.
    split.
    - repeat match goal with X : dlook _ _ = Ok _ |- _ => apply in_keys_of_dlook in X end.
      intros k Hk. unfold principal_keys in Hk. cbn [In] in Hk.
      repeat (destruct Hk as [<-|Hk]; [assumption|]). contradiction.
    - rewrite (pv_of_dlook p "mD" x10), (pv_of_dlook p "mP" x11) by assumption. lra. }
  destruct G as [G1 G2]. repeat split; auto. rewrite convert_forward in H by assumption. congruence.
Qed.
Lemma convert_iff p b : convert_principal_to_benchmark p = Ok b <->
  (forall k, In k principal_keys -> In k (dkeys p)) /\ pv p "mD" + pv p "mP" <> 0 /\ b = conv_dict (pv p).
Proof. split; [apply convert_ok|]. intros (A & B & ->). apply convert_forward; auto. Qed.

Ltac conv_pv := unfold pv at 1, conv_dict; cbn [dget String.eqb Ascii.eqb Bool.eqb].

Lemma prin_moment f X n : moment (prin f X) n =
  principal_central (f ("m" ++ X)) (f ("k" ++ X ++ "aa")) (f ("k" ++ X ++ "yy")) (f ("k" ++ X ++ "bb")) (f ("alpha" ++ X)) n.
Proof.
  unfold prin, principal_central, rotate_inertia_about_y. rewrite cos_neg, sin_neg. destruct n. vsimpl. ring.
Qed.
Lemma prin_sym f X : symmetric (prin f X) /\ vy (r1 (prin f X)) = 0 /\ vz (r2 (prin f X)) = 0.
Proof. unfold prin, symmetric, rotate_inertia_about_y. vsimpl. repeat split; ring. Qed.
Lemma sym_moment J n : symmetric J -> vy (r1 J) = 0 -> vz (r2 J) = 0 ->
  moment J n = vx (r1 J) * vx n ^ 2 + vy (r2 J) * vy n ^ 2 + vz (r3 J) * vz n ^ 2 + 2 * vz (r1 J) * vx n * vz n.
Proof.
  intros (A & B & C) D E. destruct J as [[a1 a2 a3] [b1 b2 b3] [c1 c2 c3]]. destruct n. vsimpl.
  subst. ring.
Qed.
Lemma convert_rear p b o n : convert_principal_to_benchmark p = Ok b -> pv p "yD" = 0 -> pv p "yP" = 0 ->
  bench_moment b "B" o n = principal_moment_of p "D" o n + principal_moment_of p "P" o n.
Proof.
  intros H YD YP. apply convert_ok in H. destruct H as (_ & M & ->).
  unfold bench_moment, principal_moment_of, rigid_moment. cbn [append].
  assert (YB : conv_yB (pv p) = 0) by (unfold conv_yB; rewrite YD, YP; field; exact M).
  assert (Z : forall k, pv (conv_dict (pv p)) k = match dget (conv_dict (pv p)) k with Some x => x | None => 0 end) by reflexivity.
  rewrite !Z. unfold conv_dict. cbn [dget String.eqb Ascii.eqb Bool.eqb].
  pose proof (fun n => prin_moment (pv p) "D" n) as PD. pose proof (fun n => prin_moment (pv p) "P" n) as PP.
  cbn [append] in PD, PP. rewrite <- PD, <- PP. clear PD PP.
  destruct (prin_sym (pv p) "D") as (SD & D1 & D2). destruct (prin_sym (pv p) "P") as (SP & P1 & P2).
  rewrite (sym_moment _ n SD D1 D2), (sym_moment _ n SP P1 P2).
  unfold conv_IB. rewrite YB, YD, YP. unfold parallel_axis. revert SD D1 D2 SP P1 P2.
  generalize (prin (pv p) "D") (prin (pv p) "P"). intros JD JP. intros. unfold conv_xB, conv_zB. revert M.
  generalize (pv p "mD") (pv p "xD") (pv p "zD") (pv p "mP") (pv p "xP") (pv p "zP"). intros.
  clear - M. destruct o, n. destruct JD as [[a1 a2 a3] [b1 b2 b3] [c1 c2 c3]], JP as [[d1 d2 d3] [e1 e2 e3] [f1 f2 f3]].
  vsimpl. field. exact M.
Qed.
Lemma convert_front p b o n : convert_principal_to_benchmark p = Ok b -> pv p "yH" = 0 ->
  bench_moment b "H" o n = principal_moment_of p "H" o n.
Proof.
  intros H YH. apply convert_ok in H. destruct H as (_ & M & ->).
  unfold bench_moment, principal_moment_of, rigid_moment. cbn [append].
  assert (Z : forall k, pv (conv_dict (pv p)) k = match dget (conv_dict (pv p)) k with Some x => x | None => 0 end) by reflexivity.
  rewrite !Z. unfold conv_dict. cbn [dget String.eqb Ascii.eqb Bool.eqb].
  pose proof (fun n => prin_moment (pv p) "H" n) as PD. cbn [append] in PD. rewrite <- PD.
  destruct (prin_sym (pv p) "H") as (SD & D1 & D2). rewrite (sym_moment _ n SD D1 D2). rewrite YH. reflexivity.
Qed.
Lemma convert_newton_euler p b v g phi phi1 phi2 del del1 del2 Tphi Tdel :
  convert_principal_to_benchmark p = Ok b -> pv p "yD" = 0 -> pv p "yP" = 0 ->
  (newton_euler (bike_of b) v g phi phi1 phi2 del del1 del2 Tphi Tdel <->
   newton_euler (principal_bike p) v g phi phi1 phi2 del del1 del2 Tphi Tdel).
Proof.
  intros H YD YP. apply convert_ok in H. destruct H as (_ & M & ->).
  assert (Z : forall k, pv (conv_dict (pv p)) k = match dget (conv_dict (pv p)) k with Some x => x | None => 0 end) by reflexivity.
  set (bB := rear_frame (conv_dict (pv p))).
  assert (YB : conv_yB (pv p) = 0) by (unfold conv_yB; rewrite YD, YP; field; exact M).
  assert (EB : bike_of (conv_dict (pv p)) = mkbike (pv p "w") (pv p "c") (pv p "lam")
      [ mkbody (pv p "mR") 0 (- pv p "rR") (pv p "mR" * pv p "kRaa" ^ 2) 0 (pv p "mR" * pv p "kRaa" ^ 2)
        (pv p "mR" * pv p "kRyy" ^ 2 / pv p "rR") false;
        bB; principal_body p "H" true;
       mkbody (pv p "mF") (pv p "w") (- pv p "rF") (pv p "mF" * pv p "kFaa" ^ 2) 0 (pv p "mF" * pv p "kFaa" ^ 2)
        (pv p "mF" * pv p "kFyy" ^ 2 / pv p "rF") true ]).
  { unfold bike_of. rewrite !Z. unfold rear_wheel, front_wheel. rewrite !Z.
    unfold conv_dict at 1 2 3 4 5 6 7 8 9 11 12 13 14 15 16 17. cbn [dget String.eqb Ascii.eqb Bool.eqb].
    do 3 f_equal. f_equal. unfold front_frame, principal_body. rewrite !Z. unfold conv_dict. cbn [dget String.eqb Ascii.eqb Bool.eqb append].
    unfold prin, rotate_inertia_about_y. rewrite cos_neg, sin_neg. cbn [append]. f_equal; vsimpl; ring. }
  rewrite EB. unfold principal_bike.
  apply merge_newton_euler; [repeat split | repeat split |]. unfold same_lump.
  unfold bB, rear_frame, principal_body. cbn [b_m b_x b_z b_Ixx b_Ixz b_Izz append].
  rewrite !Z. unfold conv_dict. cbn [dget String.eqb Ascii.eqb Bool.eqb].
  unfold conv_IB. rewrite YB, YD, YP. unfold parallel_axis, prin, rotate_inertia_about_y. cbn [append].
  rewrite !cos_neg, !sin_neg. unfold conv_xB, conv_zB. revert M.
  generalize (pv p "mD") (pv p "xD") (pv p "zD") (pv p "mP") (pv p "xP") (pv p "zP").
  generalize (cos (pv p "alphaD")) (sin (pv p "alphaD")) (cos (pv p "alphaP")) (sin (pv p "alphaP")). intros. clear - M.
  vsimpl. repeat split; field; exact M.
Qed.

Lemma other_part c : ~ is_wheel_part (String c "") -> in_FRD (String c "") = false.
Proof. intros H. apply not_true_is_false. intros E. apply H, in_FRD_single, E. Qed.
Lemma part_tensor_other1 par c J : ~ is_wheel_part (String c "") ->
  (part_inertia_tensor par (String c "") = Ok J <->
   dget par "IBxx" <> None /\
   exists a b d e, dget par ("I" ++ String c "" ++ "xx") = Some a /\ dget par ("I" ++ String c "" ++ "xz") = Some b /\
     dget par ("I" ++ String c "" ++ "yy") = Some d /\ dget par ("I" ++ String c "" ++ "zz") = Some e /\
               J = mk33 (mk3 a 0 b) (mk3 0 d 0) (mk3 b 0 e)).
Proof. intros H. apply part_tensor_other, other_part, H. Qed.

Lemma combine_iff p rd : (exists q, combine_bike_rider p rd = Ok q) <->
  (forall k, In k bike_keys -> In k (dkeys p)) /\ (forall k, In k rider_keys -> In k (dkeys rd)) /\
  pv rd "mB" + pv p "mB" <> 0.
Proof.
  split.
  - intros [q H]. apply combine_ok in H. tauto.
  - intros (A & B & C). eexists. apply combine_forward; assumption.
Qed.
Lemma combine_frame p rd q k : combine_bike_rider p rd = Ok q ->
  ~ In k ["xB"; "zB"; "yB"; "mB"; "IBxx"; "IBxz"; "IByy"; "IBzz"] -> dget q k = dget p k.
Proof. intros H. apply combine_ok in H. destruct H as (_ & _ & _ & ->). apply combined_other. Qed.
Lemma combine_canonical p rd q q' c : combine_bike_rider p rd = Ok q -> pv rd "yB" = 0 ->
  benchmark_par_to_canonical q = (q', Ok c) ->
  forall v g phi phi1 phi2 del del1 del2 Tphi Tdel,
    newton_euler (with_rider p rd) v g phi phi1 phi2 del del1 del2 Tphi Tdel <->
    eom (cM c) (cC1 c) (cK0 c) (cK2 c) v g phi del phi1 del1 phi2 del2 Tphi Tdel.
Proof.
  intros H Y HC v g phi phi1 phi2 del del1 del2 Tphi Tdel.
  rewrite <- (combine_newton_euler p rd q) by assumption. eapply canonical_newton_euler; exact HC.
Qed.
Lemma convert_canonical p b b' c : convert_principal_to_benchmark p = Ok b -> pv p "yD" = 0 -> pv p "yP" = 0 ->
  benchmark_par_to_canonical b = (b', Ok c) ->
  forall v g phi phi1 phi2 del del1 del2 Tphi Tdel,
    newton_euler (principal_bike p) v g phi phi1 phi2 del del1 del2 Tphi Tdel <->
    eom (cM c) (cC1 c) (cK0 c) (cK2 c) v g phi del phi1 del1 phi2 del2 Tphi Tdel.
Proof.
  intros H Y1 Y2 HC v g phi phi1 phi2 del del1 del2 Tphi Tdel.
  rewrite <- (convert_newton_euler p b) by assumption. eapply canonical_newton_euler; exact HC.
Qed.
Lemma convert_iff_ex p : (exists b, convert_principal_to_benchmark p = Ok b) <->
  (forall k, In k principal_keys -> In k (dkeys p)) /\ pv p "mD" + pv p "mP" <> 0.
Proof.
  split.
  - intros [b H]. apply convert_ok in H. tauto.
  - intros [A B]. eexists. apply convert_forward; assumption.
Qed.
Lemma convert_keys p b : convert_principal_to_benchmark p = Ok b -> dkeys b = benchmark_keys.
Proof. intros H. apply convert_ok in H. destruct H as (_ & _ & ->). reflexivity. Qed.
Lemma convert_kept p b k : convert_principal_to_benchmark p = Ok b ->
  In k ["w"; "c"; "lam"; "g"; "v"; "mH"; "xH"; "yH"; "zH"; "rR"; "mR"; "rF"; "mF"] -> dget b k = dget p k.
Proof.
  intros H Hk. apply convert_ok in H. destruct H as (K & _ & ->).
  assert (E : dget p k = Some (pv p k)).
  { assert (In k (dkeys p)) as I by (apply K; simpl in Hk |- *; tauto).
    apply dget_some_in in I. destruct I as [x I]. unfold pv. rewrite I. reflexivity. }
  rewrite E. cbn [In] in Hk. repeat (destruct Hk as [<-|Hk]; [reflexivity|]). contradiction.
Qed.
Lemma convert_com p b : convert_principal_to_benchmark p = Ok b ->
  let parts := [(pv p "mD", mk3 (pv p "xD") (pv p "yD") (pv p "zD")); (pv p "mP", mk3 (pv p "xP") (pv p "yP") (pv p "zP"))] in
  pv b "mB" = mass_of parts /\ is_com parts (mk3 (pv b "xB") (pv b "yB") (pv b "zB")).
Proof.
  intros H. apply convert_ok in H. destruct H as (_ & M & ->). intros parts.
  assert (Em : mass_of parts = pv p "mD" + pv p "mP") by (unfold parts, mass_of, sum_over; cbn [fold_right fst snd]; ring).
  split.
  - rewrite Em. reflexivity.
  - apply is_com_iff; [rewrite Em; exact M|]. rewrite Em. unfold parts, wsum, sum_over; cbn [fold_right fst snd vx vy vz].
    change (pv (conv_dict (pv p)) "xB") with (conv_xB (pv p)). change (pv (conv_dict (pv p)) "yB") with (conv_yB (pv p)).
    change (pv (conv_dict (pv p)) "zB") with (conv_zB (pv p)). unfold conv_xB, conv_yB, conv_zB. rewrite !Rplus_0_r. reflexivity.
Qed.
Lemma convert_wheels p b X : convert_principal_to_benchmark p = Ok b -> X = "R" \/ X = "F" ->
  pv b ("I" ++ X ++ "xx") = pv p ("m" ++ X) * pv p ("k" ++ X ++ "aa") ^ 2 /\
  pv b ("I" ++ X ++ "yy") = pv p ("m" ++ X) * pv p ("k" ++ X ++ "yy") ^ 2 /\
  pv b ("I" ++ X ++ "zz") = pv p ("m" ++ X) * pv p ("k" ++ X ++ "aa") ^ 2.
Proof. intros H. apply convert_ok in H. destruct H as (_ & _ & ->). intros [-> | ->]; repeat split; reflexivity. Qed.

Lemma principal_axes_spec eig I Ip C out :
  eig I = Ok (Ip, C) -> eig_contract I Ip C -> principal_axes eig I = Ok out ->
  StronglySorted (fun a b => fst a <= fst b) out /\ Forall (fun q => m3_app I (snd q) = v3_scale (fst q) (snd q)) out /\
  Permutation (map fst out) [vx Ip; vy Ip; vz Ip] /\ Permutation (map snd out) [r1 (m3_T C); r2 (m3_T C); r3 (m3_T C)].
Proof.
  intros E K H. unfold principal_axes in H. rewrite E in H. cbv [bind] in H. assert (H' : out = sort_by [(vx Ip, r1 (m3_T C)); (vy Ip, r2 (m3_T C)); (vz Ip, r3 (m3_T C))]) by congruence. clear H. subst out.
  set (l := [(vx Ip, r1 (m3_T C)); (vy Ip, r2 (m3_T C)); (vz Ip, r3 (m3_T C))]).
  pose proof (sort_by_perm l) as P. repeat split.
  - apply sort_by_sorted.
  - rewrite Forall_forall. intros q Hq. apply (Permutation_in q P) in Hq.
    destruct K as (K1 & K2 & K3). unfold l in Hq. cbn [In] in Hq.
    destruct Hq as [<-|[<-|[<-|[]]]]; cbn [fst snd]; assumption.
  - apply (Permutation_map fst) in P. exact P.
  - apply (Permutation_map snd) in P. exact P.
Qed.
Lemma principal_axes_trace eig I Ip C out :
  eig I = Ok (Ip, C) -> principal_axes eig I = Ok out -> vx Ip + vy Ip + vz Ip = trace I ->
  rsum (map fst out) = trace I.
Proof.
  intros E H T. unfold principal_axes in H. rewrite E in H. cbv [bind] in H. assert (H' : out = sort_by [(vx Ip, r1 (m3_T C)); (vy Ip, r2 (m3_T C)); (vz Ip, r3 (m3_T C))]) by congruence. clear H. subst out.
  rewrite rsum_sum_over, (sum_over_perm _ _ _ (sort_by_perm _)). unfold sum_over; cbn [fold_right fst]. lra.
Qed.
