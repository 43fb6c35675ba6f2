(* TFloat.v -- C78: what double precision arithmetic does to the parameters, the canonical
   matrices and the state space *)
From Coq Require Import Lra Lia ZArith.
From Verif Require Import Base PBase MString MVec MInertia MBicycle MFloat MModels MModels2 MEig SInertia SBicycle PBicycle PBicycle2 SModels SModels2 SLean SUnits PUnits SFloat PFloat PFloat2 PFloat3 PFloat4 PFloat5 TEig TStab.
Local Open Scope string_scope.
Local Open Scope R_scope.

Lemma fcanon_snd a p c : snd (fbenchmark_par_to_canonical a p) = Ok c -> exists q, fbenchmark_par_to_canonical a p = (q, Ok c).
Proof. destruct (fbenchmark_par_to_canonical a p) as [q r]. cbn [snd]. intros ->. eauto. Qed.

(* ---- whatever the rounding ---- *)
(* the mass and gravity stiffness matrices are symmetric to the last bit, and zeros are zeros *)
Theorem C78_structure : forall a p p' c, fbenchmark_par_to_canonical a p = (p', Ok c) ->
  m12 (cM c) = m21 (cM c) /\ m12 (cK0 c) = m21 (cK0 c) /\ m11 (cC1 c) = 0 /\ m11 (cK2 c) = 0 /\ m21 (cK2 c) = 0 /\
  dget p' "IRzz" = dget p "IRxx" /\ dget p' "IFzz" = dget p "IFxx" /\ forall k, k <> "IRzz" -> k <> "IFzz" -> dget p' k = dget p k.
Proof.
  intros a p p' c H. apply fcanon_inversion in H. destruct H as (K & _ & -> & ->). unfold FF_canon. cbn [cM cC1 cK0 cK2 m11 m12 m21 m22]. repeat (split; [reflexivity|]).
  assert (D : forall k, In k canon_keys -> dget p k = Some (pv p k)).
  { intros k Hk. specialize (K k Hk). apply dget_some_in in K. destruct K as (v & E). unfold pv. rewrite E. reflexivity. }
  unfold canon_dict. split; [|split].
  - rewrite dget_dset_neq by reflexivity. rewrite dget_dset_eq. symmetry. apply D. cbn; tauto.
  - rewrite dget_dset_eq. symmetry. apply D. cbn; tauto.
  - intros k N1 N2. rewrite !dget_dset_neq by (apply String.eqb_neq; assumption). reflexivity.
Qed.
Print Assumptions C78_structure.

Lemma fstate_ok a p v A B : fstate_space a p v = Ok (A, B) -> exists p' c g, fbenchmark_par_to_canonical a p = (p', Ok c) /\ dget p "g" = Some g /\ fab_matrix a (cM c) (cC1 c) (cK0 c) (cK2 c) v g = Ok (A, B).
Proof.
  unfold fstate_space. intros H. apply bind_ok in H. destruct H as (c & EC & H). apply bind_ok in H. destruct H as (g & EG & H). apply fcanon_snd in EC. destruct EC as (q & EC). exists q, c, g.
  split; [exact EC|]. split; [|exact H]. unfold dlook in EG. destruct (dget p "g"); [injection EG as ->; reflexivity|discriminate].
Qed.
Lemma fstate_eq a p v p' c g : fbenchmark_par_to_canonical a p = (p', Ok c) -> dget p "g" = Some g -> fstate_space a p v = fab_matrix a (cM c) (cC1 c) (cK0 c) (cK2 c) v g.
Proof. intros E G. unfold fstate_space. rewrite E. cbn [snd bind]. unfold dlook. rewrite G. reflexivity. Qed.

(* the state matrix is in companion form and the block of the inverse mass matrix symmetric *)
Theorem C78_state_space_structure : forall a p v A B, fstate_space a p v = Ok (A, B) ->
  (exists x1 x2 y1 y2 z1 z2 w1 w2, A = [[0; 0; 1; 0]; [0; 0; 0; 1]; [x1; x2; y1; y2]; [z1; z2; w1; w2]]) /\
  exists i11 i12 i22, B = [[0; 0]; [0; 0]; [i11; i12]; [i12; i22]].
Proof.
  intros a p v A B H. destruct (fstate_ok a p v A B H) as (p' & c & g & EC & _ & EA). apply C78_structure in EC. destruct EC as (S & _). apply fab_ok in EA. destruct EA as (_ & -> & ->). split.
  - unfold blocksA, vstack, hstack, m2_rows. cbn. do 8 eexists. reflexivity.
  - unfold blocksB, vstack, m2_rows, finvm, fm2_scale, m2_zero. cbn [app m11 m12 m21 m22]. rewrite S. do 3 eexists. reflexivity.
Qed.
Print Assumptions C78_state_space_structure.

(* ---- rounding treats signs alike ---- *)
(* at the opposite speed the damping block changes sign to the last bit and nothing else changes *)
Theorem C78_riding_backwards : forall a p v A B, sign_symmetric a -> fstate_space a p v = Ok (A, B) ->
  exists A', fstate_space a p (- v) = Ok (A', B) /\
    forall i j, (i < 4)%nat -> (j < 4)%nat -> ent A' i j = if andb (Nat.leb 2 i) (Nat.leb 2 j) then - ent A i j else ent A i j.
Proof.
  intros a p v A B (OD & EV & DO) H. destruct (fstate_ok a p v A B H) as (p' & c & g & EC & EG & EA). rewrite (fstate_eq a p (- v) p' c g EC EG). apply fab_ok in EA. destruct EA as (N & -> & ->).
  rewrite fab_eq by exact N. eexists. split; [reflexivity|]. assert (E1 : fA21 a (cM c) (cK0 c) (cK2 c) (- v) g = fA21 a (cM c) (cK0 c) (cK2 c) v g) by (unfold fA21; rewrite EV; reflexivity).
  assert (M1 : forall x, fmul a (- v) x = - fmul a v x) by (intros x; unfold fmul; rewrite <- OD; f_equal; ring).
  assert (E2 : fA22 a (cM c) (cC1 c) (- v) = m2_neg (fA22 a (cM c) (cC1 c) v)).
  { unfold fA22, m2_neg, fm2_dot, fm2_scale. cbn [m11 m12 m21 m22]. rewrite !M1, !DO. reflexivity. }
  rewrite E1, E2. intros i j Hi Hj. unfold ent, blocksA, vstack, hstack, m2_rows. destruct i as [|[|[|[|]]]]; [| | | |lia]; (destruct j as [|[|[|[|]]]]; [| | | |lia]); reflexivity.
Qed.
Print Assumptions C78_riding_backwards.

(* ---- powers of two as units ---- *)
Lemma sc2_eqm e x' x : sc2 e x' x -> x' = m2_scale (pow2 e) x.
Proof. intros (S1 & S2 & S3 & S4). destruct x' as [a b c d]. cbn [m11 m12 m21 m22] in *. unfold m2_scale, sc in *. subst. reflexivity. Qed.
Theorem C78_powers_of_two_units : forall a em el et p p', scale_invariant a -> in_units (powers_of_two em el et) p p' ->
  (forall c, snd (fbenchmark_par_to_canonical a p) = Ok c -> snd (fbenchmark_par_to_canonical a p') =
     Ok (mkcanon (m2_scale (pow2 (em + 2 * el)) (cM c)) (m2_scale (pow2 (em + el)) (cC1 c)) (m2_scale (pow2 (em + el)) (cK0 c)) (m2_scale (pow2 em) (cK2 c)))) /\
  (forall v A B, fstate_space a p v = Ok (A, B) -> exists A' B', fstate_space a p' (pow2 (el - et) * v) = Ok (A', B') /\
    (forall i j, (i < 4)%nat -> (j < 4)%nat -> ent A' i j = state_unit (powers_of_two em el et) i / (pow2 et * state_unit (powers_of_two em el et) j) * ent A i j) /\
    (forall i j, (i < 4)%nat -> (j < 2)%nat -> ent B' i j = state_unit (powers_of_two em el et) i / (pow2 et * torque_unit (powers_of_two em el et)) * ent B i j)).
Proof.
  intros a em el et p p' SI U. split.
  - intros c H. destruct (fcanon_units a SI em el et p p' U c H) as (c' & E & S1 & S2 & S3 & S4). rewrite E. f_equal. destruct c' as [M C K0 K2]. cbn [cM cC1 cK0 cK2] in *.
    rewrite (sc2_eqm _ _ _ S1), (sc2_eqm _ _ _ S2), (sc2_eqm _ _ _ S3), (sc2_eqm _ _ _ S4). reflexivity.
  - intros v A B H. destruct (fstate_ok a p v A B H) as (q & c & g & EC & EG & EA). destruct (fcanon_units a SI em el et p p' U c) as (c' & E & S1 & S2 & S3 & S4); [rewrite EC; reflexivity|].
    apply fcanon_snd in E. destruct E as (q' & E). pose proof (pow2_pos em) as PM. pose proof (pow2_pos el) as PL. pose proof (pow2_pos et) as PT.
    assert (EG' : dget p' "g" = Some (pow2 (el - 2 * et) * g)).
    { rewrite (U "g") by (unfold bench_names; cbn; tauto). rewrite EG. cbn [option_map]. rewrite (u_g (powers_of_two em el et) (conj PM (conj PL PT))). unfold gravity_unit. cbn [u_length u_time powers_of_two]. unfold Z.sub. rewrite pow2_plus, pow2_inv, pow2_2. reflexivity. }
    rewrite (fstate_eq a p' _ q' c' _ E EG'). apply fab_ok in EA. destruct EA as (N & -> & ->). rewrite fab_eq by (apply (proj2 (sc_nonzero _ _ _ (s_det a SI em el _ _ S1))); exact N).
    do 2 eexists. split; [reflexivity|]. rewrite (sc2_eqm _ _ _ (s_A21 a SI em el et _ _ _ _ _ _ v g S1 S3 S4)), (sc2_eqm _ _ _ (s_A22 a SI em el et _ _ _ _ v S1 S2)), (sc2_eqm _ _ _ (s_inv a SI em el _ _ S1)).
    set (x := fA21 a (cM c) (cK0 c) (cK2 c) v g). set (y := fA22 a (cM c) (cC1 c) v). set (z := finvm a (cM c)).
    assert (P1 : pow2 (- 2 * et) = / (pow2 et * pow2 et)) by (replace (- 2 * et)%Z with (- et + - et)%Z by ring; rewrite pow2_plus, pow2_inv; field; lra).
    assert (P2 : pow2 (- et) = / pow2 et) by apply pow2_inv. assert (P3 : pow2 (- (em + 2 * el)) = / (pow2 em * pow2 el ^ 2)) by (rewrite pow2_inv, pow2_plus, pow2_2; reflexivity).
    rewrite P1, P2, P3. unfold state_unit, torque_unit. cbn [u_mass u_length u_time powers_of_two]. set (m := pow2 em) in *. set (l := pow2 el) in *. set (t := pow2 et) in *. clearbody x y z m l t. clear - PM PL PT.
    split; intros i j Hi Hj; unfold ent, blocksA, blocksB, vstack, hstack, m2_rows, m2_scale, m2_zero, m2_eye.
    + destruct i as [|[|[|[|]]]]; [| | | |lia]; (destruct j as [|[|[|[|]]]]; [| | | |lia]); cbn [Nat.ltb Nat.leb nth combine map app fst snd m11 m12 m21 m22]; field; lra.
    + destruct i as [|[|[|[|]]]]; [| | | |lia]; (destruct j as [|[|]]; [| |lia]); cbn [Nat.ltb Nat.leb nth combine map app fst snd m11 m12 m21 m22]; field; lra.
Qed.
Print Assumptions C78_powers_of_two_units.

(* ---- rounding errors of the canonical matrices ---- *)
Lemma nonzero3 p : pv p "w" <> 0 -> pv p "rR" <> 0 -> pv p "rF" <> 0 -> forall k, In k ["w"; "rR"; "rF"] -> pv p k <> 0.
Proof. intros N1 N2 N3 k K. cbn [In] in K. destruct K as [<-|[<-|[<-|[]]]]; assumption. Qed.
Lemma fcanon_runs a p p' c : accurate a -> masses_positive p -> benchmark_par_to_canonical p = (p', Ok c) ->
  c = F_canon (pv p) /\ pv p "w" <> 0 /\ pv p "rR" <> 0 /\ pv p "rF" <> 0 /\ fbenchmark_par_to_canonical a p = (p', Ok (FF_canon a (pv p))).
Proof.
  intros AC MP H. apply canon_inversion in H. destruct H as (K & (N1 & N2 & N3 & N4 & N5) & -> & ->). repeat (split; [first [reflexivity|assumption]|]). apply fcanon_forward; [exact K|].
  assert (P1 : 0 < FF_mT a (pv p)) by (apply (close_pos 3 _ (F_mT (pv p))); [apply cl_mT; [exact AC|exact MP]|apply mT_pos; exact MP]).
  assert (P2 : 0 < FF_mA a (pv p)) by (apply (close_pos 1 _ (F_mA (pv p))); [apply cl_mA; [exact AC|exact MP]|apply mA_pos; exact MP]).
  split; [lra|]. split; [lra|]. auto.
Qed.
(* every entry has an error of at most 46 roundoffs of the sizes of the terms it is added up from;
   the calculation succeeds when the exact one does and leaves the same dictionary *)
Theorem C78_canonical_matrices_accurate : forall a p p' c, accurate a -> masses_positive p -> benchmark_par_to_canonical p = (p', Ok c) ->
  exists ch, fbenchmark_par_to_canonical a p = (p', Ok ch) /\
    forall e, In e entries_of_canon -> Rabs (e ch - e c) <= 46 * roundoff * e (magnitudes (pv p)) /\ Rabs (e c) <= e (magnitudes (pv p)).
Proof.
  intros a p p' c AC MP H. destruct (fcanon_runs a p p' c AC MP H) as (-> & N3 & N4 & N5 & E). exists (FF_canon a (pv p)). split; [exact E|].
  destruct (e_canon a AC (pv p) MP (nonzero3 p N3 N4 N5)) as (E1 & E2 & E3 & E4).
  assert (X : forall x y z, err 45 x y z -> Rabs (x - y) <= 46 * roundoff * z /\ Rabs y <= z).
  { intros x y z (Q1 & Q2). split; [|exact Q2]. replace 46 with (INR 46) by (rewrite INR_IZR_INZ; reflexivity). apply (err_abs 45); [lia|split; assumption]. }
  assert (Y : forall x y z e, err2 45 x y z -> In e entries_of2 -> Rabs (e x - e y) <= 46 * roundoff * e z /\ Rabs (e y) <= e z).
  { intros x y z e (Q1 & Q2 & Q3 & Q4) HE. unfold entries_of2 in HE. cbn [In] in HE. destruct HE as [<-|[<-|[<-|[<-|[]]]]]; apply X; assumption. }
  intros e HE. unfold entries_of_canon in HE. rewrite !in_app_iff, !in_map_iff in HE. destruct HE as [(e' & <- & HE)|[(e' & <- & HE)|[(e' & <- & HE)|(e' & <- & HE)]]]; apply Y; assumption.
Qed.
Print Assumptions C78_canonical_matrices_accurate.

(* where nothing cancels the entries are right to a few roundoffs *)
Theorem C78_accurate_entries : forall a p p' c, accurate a -> upright_bicycle (pv p) -> benchmark_par_to_canonical p = (p', Ok c) ->
  exists ch, fbenchmark_par_to_canonical a p = (p', Ok ch) /\
    within 9 (m11 (cM ch)) (m11 (cM c)) /\ within 13 (m11 (cK0 ch)) (m11 (cK0 c)) /\ within 19 (m12 (cK2 ch)) (m12 (cK2 c)) /\ within 10 (m21 (cC1 ch)) (m21 (cC1 c)).
Proof.
  intros a p p' c AC UB H. assert (MP : masses_positive p) by (intros k K; apply (proj1 UB); cbn [In] in *; tauto).
  destruct (fcanon_runs a p p' c AC MP H) as (-> & N3 & N4 & N5 & E). exists (FF_canon a (pv p)). split; [exact E|].
  split; [apply (close_within 8); [lia|apply rel_M11; assumption]|]. split; [apply (close_within 12); [lia|apply rel_K0; assumption]|]. split; [apply (close_within 18); [lia|apply rel_K2; assumption]|]. apply (close_within 9); [lia|apply rel_C1; assumption].
Qed.
Print Assumptions C78_accurate_entries.

(* ---- rounding errors of the state space ---- *)
Lemma ab_exact M C1 K0 K2 v g : m11 M * m22 M - m12 M * m21 M <> 0 ->
  ab_matrix M C1 K0 K2 v g = Ok (blocksA (m2_neg (m2_dot (Jx M) (m2_add (m2_scale g K0) (m2_scale (v ^ 2) K2)))) (m2_neg (m2_dot (Jx M) (m2_scale v C1))), blocksB (Jx M)).
Proof.
  intros N. unfold ab_matrix, inv2. rewrite rdiv_eq by exact N. cbn [bind]. replace (1 / (m11 M * m22 M - m12 M * m21 M)) with (/ (m11 M * m22 M - m12 M * m21 M)) by (unfold Rdiv; ring). reflexivity.
Qed.
Lemma blocks_near eA eB xh x m yh y n zh z o : er2 eA xh x m -> er2 eA yh y n -> er2 eB zh z o ->
  (forall i j, (i < 4)%nat -> (j < 4)%nat -> Rabs (ent (blocksA xh yh) i j - ent (blocksA x y) i j) <= eA * ent (vstack (hstack (m2_rows m2_zero) (m2_rows m2_zero)) (hstack (m2_rows m) (m2_rows n))) i j) /\
  (forall i j, (i < 4)%nat -> (j < 2)%nat -> Rabs (ent (blocksB zh) i j - ent (blocksB z) i j) <= eB * ent (vstack (m2_rows m2_zero) (m2_rows o)) i j).
Proof.
  intros ((_ & X1 & _) & (_ & X2 & _) & (_ & X3 & _) & (_ & X4 & _)) ((_ & Y1 & _) & (_ & Y2 & _) & (_ & Y3 & _) & (_ & Y4 & _)) ((_ & Z1 & _) & (_ & Z2 & _) & (_ & Z3 & _) & (_ & Z4 & _)).
  assert (Q : forall e c, Rabs (c - c) <= e * 0) by (intros e c; replace (c - c) with 0 by ring; rewrite Rabs_R0; lra).
  split; intros i j Hi Hj; unfold ent, blocksA, blocksB, vstack, hstack, m2_rows, m2_zero, m2_eye.
  - destruct i as [|[|[|[|]]]]; [| | | |lia]; (destruct j as [|[|[|[|]]]]; [| | | |lia]); cbn [nth combine map app fst snd m11 m12 m21 m22]; first [assumption|apply Q].
  - destruct i as [|[|[|[|]]]]; [| | | |lia]; (destruct j as [|[|]]; [| |lia]); cbn [nth combine map app fst snd m11 m12 m21 m22]; first [assumption|apply Q].
Qed.
(* ab_matrix on given matrices: k is the factor lost in the determinant *)
Theorem C78_ab_matrix_accurate : forall a k c v g, accurate a -> conditioned k (m2_abs (cM c)) (cM c) -> k * roundoff <= / 100000 ->
  exists Ah Bh A B, fab_matrix a (cM c) (cC1 c) (cK0 c) (cK2 c) v g = Ok (Ah, Bh) /\ ab_matrix (cM c) (cC1 c) (cK0 c) (cK2 c) v g = Ok (A, B) /\
    (forall i j, (i < 4)%nat -> (j < 4)%nat -> Rabs (ent Ah i j - ent A i j) <= 15 * k * roundoff * ent (fst (state_sizes (canon_abs c) (cM c) v g)) i j) /\
    (forall i j, (i < 4)%nat -> (j < 2)%nat -> Rabs (ent Bh i j - ent B i j) <= 5 * k * roundoff * ent (snd (state_sizes (canon_abs c) (cM c) v g)) i j).
Proof.
  intros a k c v g AC CD KU. assert (Z : forall x, er2 (0 * roundoff) x x (m2_abs x)).
  { intros x. unfold er2, m2_abs. cbn [m11 m12 m21 m22]. replace (0 * roundoff) with 0 by ring. split; [|split; [|split]]; apply er_refl. }
  assert (C0 : 0 <= 0 <= 46) by lra.
  destruct (inv_er a AC 0 k (cM c) (cM c) (m2_abs (cM c)) C0 (Z _) CD KU) as (N & J).
  pose proof (A21_er a AC 0 k v g (cM c) (cM c) (m2_abs (cM c)) (cK0 c) (cK0 c) (m2_abs (cK0 c)) (cK2 c) (cK2 c) (m2_abs (cK2 c)) C0 (Z _) (Z _) (Z _) CD KU) as E1.
  pose proof (A22_er a AC 0 k v (cM c) (cM c) (m2_abs (cM c)) (cC1 c) (cC1 c) (m2_abs (cC1 c)) C0 (Z _) (Z _) CD KU) as E2.
  do 4 eexists. split; [apply fab_eq; exact N|]. split; [apply ab_exact; exact (proj1 CD)|].
  replace (4 * (0 * (k * roundoff)) + 5 * (k * roundoff)) with (5 * k * roundoff) in J by ring. replace (6 * (0 * (k * roundoff)) + 15 * (k * roundoff)) with (15 * k * roundoff) in E1, E2 by ring.
  exact (blocks_near _ _ _ _ _ _ _ _ _ _ _ E1 E2 J).
Qed.
Print Assumptions C78_ab_matrix_accurate.

(* from the parameters to the state space *)
Theorem C78_state_space_accurate : forall a k ps p v A B, accurate a -> dget ps "Benchmark" = Some p -> masses_positive p ->
  snd (bicycle_state_space ps v FTrue) = Ok (A, B) ->
  (forall c, snd (benchmark_par_to_canonical p) = Ok c -> conditioned k (cM (magnitudes (pv p))) (cM c)) -> k * roundoff <= / 100000 ->
  exists Ah Bh c g, fstate_space a p v = Ok (Ah, Bh) /\ snd (benchmark_par_to_canonical p) = Ok c /\ dget p "g" = Some g /\
    (forall i j, (i < 4)%nat -> (j < 4)%nat -> Rabs (ent Ah i j - ent A i j) <= 291 * k * roundoff * ent (fst (state_sizes (magnitudes (pv p)) (cM c) v g)) i j) /\
    (forall i j, (i < 4)%nat -> (j < 2)%nat -> Rabs (ent Bh i j - ent B i j) <= 189 * k * roundoff * ent (snd (state_sizes (magnitudes (pv p)) (cM c) v g)) i j).
Proof.
  intros a k ps p v A B AC E MP H CD KU. apply (C60_state_space_is_the_standalone_function ps p FTrue v A B E (or_introl eq_refl)) in H. destruct H as (c & g & EC & EG & EA).
  specialize (CD c EC). destruct (benchmark_par_to_canonical p) as [q r] eqn:EB. cbn [snd] in EC. subst r.
  destruct (fcanon_runs a p q c AC MP EB) as (-> & N3 & N4 & N5 & EF). destruct (e_canon a AC (pv p) MP (nonzero3 p N3 N4 N5)) as (Q1 & Q2 & Q3 & Q4).
  assert (X : forall x y z, err 45 x y z -> er (46 * roundoff) x y z).
  { intros x y z Q. eapply er_le; [apply er_err, Q|]. pose proof (eps_bound 45 ltac:(lia)) as L. rewrite INR_IZR_INZ in L. exact L. }
  assert (Y : forall x y z, err2 45 x y z -> er2 (46 * roundoff) x y z) by (intros x y z (R1 & R2 & R3 & R4); unfold er2; split; [|split; [|split]]; apply X; assumption).
  apply Y in Q1, Q2, Q3, Q4. assert (C0 : 0 <= 46 <= 46) by lra. set (ch := FF_canon a (pv p)) in *. set (c := F_canon (pv p)) in *. set (G := magnitudes (pv p)) in *.
  destruct (inv_er a AC 46 k (cM ch) (cM c) (cM G) C0 Q1 CD KU) as (N & J).
  pose proof (A21_er a AC 46 k v g (cM ch) (cM c) (cM G) (cK0 ch) (cK0 c) (cK0 G) (cK2 ch) (cK2 c) (cK2 G) C0 Q1 Q3 Q4 CD KU) as E1.
  pose proof (A22_er a AC 46 k v (cM ch) (cM c) (cM G) (cC1 ch) (cC1 c) (cC1 G) C0 Q1 Q2 CD KU) as E2.
  do 2 eexists. exists c, g. split; [rewrite (fstate_eq a p v q ch g EF EG); apply fab_eq; exact N|]. split; [reflexivity|]. split; [exact EG|].
  rewrite (ab_exact (cM c) (cC1 c) (cK0 c) (cK2 c) v g (proj1 CD)) in EA. injection EA as <- <-.
  replace (4 * (46 * (k * roundoff)) + 5 * (k * roundoff)) with (189 * k * roundoff) in J by ring. replace (6 * (46 * (k * roundoff)) + 15 * (k * roundoff)) with (291 * k * roundoff) in E1, E2 by ring.
  exact (blocks_near _ _ _ _ _ _ _ _ _ _ _ E1 E2 J).
Qed.
Print Assumptions C78_state_space_accurate.

(* ---- formulas of inertia.py ---- *)
Theorem C78_inertia_formulas : forall a, accurate a ->
  (forall k T, within 12 (ftor_inertia a k T) (tor_inertia k T)) /\
  (forall I T, T <> 0 -> exists kh k, ftorsional_pendulum_stiffness a I T = Ok kh /\ torsional_pendulum_stiffness I T = Ok k /\ within 12 kh k) /\
  (forall l m ro ri, match ftube_inertia a l m ro ri, tube_inertia l m ro ri with (xh, yh, zh), (x, y, z) => within 7 xh x /\ within 9 yh y /\ within 9 zh z end) /\
  (forall m g l T, Rabs (fcompound_pendulum_inertia a m g l T - compound_pendulum_inertia m g l T) <= 14 * roundoff * (Rabs ((T / 2 / PI) ^ 2 * m * g * l) + Rabs (m * l ^ 2))).
Proof.
  intros a AC. pose proof PI_RGT_0 as PI0. assert (P2 : close 5 (fsq a (fpi a)) (PI ^ 2)) by (apply (cl_fsq a AC 1), cl_pi, AC). assert (NP : PI ^ 2 <> 0) by nra.
  assert (SQ : forall x, close 3 (fsq a x) (x ^ 2)) by (intros x; apply (cl_fsq a AC 0), close_refl).
  split; [|split; [|split]].
  - intros k T. apply (close_within 11); [lia|]. unfold ftor_inertia, tor_inertia. change 11%nat with ((((0 + 3 + 1) + 0 + 1) + 5 + 1))%nat.
    apply (cl_fdiv a AC); [|exact P2|exact NP]. apply (cl_fdiv a AC); [|apply close_refl|lra]. apply (cl_fmul a AC); [apply close_refl|apply SQ].
  - intros I T NT. assert (NT2 : T ^ 2 <> 0) by (intros Z; apply NT; nra). assert (NF : fsq a T <> 0).
    { intros Z. destruct (Rle_lt_dec (T ^ 2) 0) as [L|L]; [pose proof (pow2_ge_0 T); apply NT2; lra|]. pose proof (close_pos 3 _ _ (SQ T) L). lra. }
    do 2 eexists. unfold ftorsional_pendulum_stiffness, torsional_pendulum_stiffness. rewrite (fdiv_eq a _ _ NF), (rdiv_eq _ _ NT2). split; [reflexivity|]. split; [reflexivity|].
    apply (close_within 11); [lia|]. change 11%nat with (((0 + 0 + 1) + 5 + 1) + 3 + 1)%nat. apply (cl_fdiv a AC); [|apply SQ|exact NT2]. apply (cl_fmul a AC); [|exact P2]. apply (cl_fmul a AC); apply close_refl.
  - intros l m ro ri. unfold ftube_inertia, tube_inertia. cbv zeta. pose proof (pow2_ge_0 ro). pose proof (pow2_ge_0 ri). pose proof (pow2_ge_0 l).
    assert (Y : within 9 (fmul a (fdivc a m 12) (fadd a (fadd a (fmul a 3 (fsq a ro)) (fmul a 3 (fsq a ri))) (fsq a l))) (m / 12 * (3 * ro ^ 2 + 3 * ri ^ 2 + l ^ 2))).
    { apply (close_within 8); [lia|]. change 8%nat with ((0 + 0 + 1) + (Nat.max (Nat.max (0 + 3 + 1) (0 + 3 + 1) + 1) 3 + 1) + 1)%nat. apply (cl_fmul a AC); [apply (cl_fdiv a AC); [apply close_refl|apply close_refl|lra]|].
      apply (cl_fadd a AC); [|apply SQ|lra|lra]. apply (cl_fadd a AC); [| |lra|lra]; (apply (cl_fmul a AC); [apply close_refl|apply SQ]). }
    split; [|split; exact Y]. apply (close_within 6); [lia|]. change 6%nat with ((0 + 0 + 1) + (Nat.max 3 3 + 1) + 1)%nat. apply (cl_fmul a AC); [apply (cl_fdiv a AC); [apply close_refl|apply close_refl|lra]|].
    apply (cl_fadd a AC); [apply SQ|apply SQ|lra|lra].
  - intros m g l T. replace 14 with (INR 14) by (rewrite INR_IZR_INZ; reflexivity). apply (err_abs 13); [lia|]. unfold fcompound_pendulum_inertia, compound_pendulum_inertia.
    change 13%nat with (Nat.max ((((0 + 0 + 1 + 1 + 1) + (0 + 0 + 1 + 1 + 1) + 3) + 0 + 1 + 0 + 1) + 0 + 1) (0 + 3 + 1) + 1)%nat. apply (err_fsub a AC); apply close_err.
    + apply (cl_fmul a AC); [|apply close_refl]. apply (cl_fmul a AC); [|apply close_refl]. apply (cl_fmul a AC); [|apply close_refl]. apply (cl_fsq a AC). apply (cl_fdiv a AC); [|apply cl_pi, AC|lra]. apply (cl_fdiv a AC); [apply close_refl|apply close_refl|lra].
    + apply (cl_fmul a AC); [apply close_refl|apply SQ].
Qed.
Print Assumptions C78_inertia_formulas.

(* ---- the parallel axis theorem ---- *)
(* symmetric to the last bit; the sign of the offset does not matter to the last bit *)
Theorem C78_parallel_axis_exact : forall a Ic m d,
  (symmetric Ic -> symmetric (fparallel_axis a Ic m d)) /\
  (sign_symmetric a -> fparallel_axis a Ic m (mk3 (- vx d) (- vy d) (- vz d)) = fparallel_axis a Ic m d) /\
  (order_preserving a -> 0 <= m -> forall r c, In (r, c) [(r1, vx); (r2, vy); (r3, vz)] -> is_float a (c (r Ic)) -> c (r Ic) <= c (r (fparallel_axis a Ic m d))).
Proof.
  intros a Ic m d. split; [|split].
  - intros (S1 & S2 & S3). unfold symmetric, fparallel_axis, fm3_add, fm3_scale. cbn [r1 r2 r3 vx vy vz]. rewrite S1, S2, S3. auto.
  - intros (_ & EV & _). unfold fparallel_axis. cbn [vx vy vz]. rewrite !EV. assert (X : forall x y, fmul a (fneg (- x)) (- y) = fmul a (fneg x) y) by (intros x y; unfold fmul, fneg; f_equal; ring). rewrite !X. reflexivity.
  - intros (MO & SQ & Z) PM r c HIn FI.
    assert (X : forall x y i, is_float a i -> i <= fadd a i (fmul a m (fadd a (fsq a x) (fsq a y)))).
    { intros x y i F. unfold fadd at 1. unfold is_float in F. rewrite <- F at 1. apply MO. assert (Y1 : 0 <= fadd a (fsq a x) (fsq a y)) by (rewrite <- Z; apply MO; pose proof (SQ x); pose proof (SQ y); lra).
      assert (Y2 : 0 <= fmul a m (fadd a (fsq a x) (fsq a y))) by (rewrite <- Z at 1; apply MO; apply Rmult_le_pos; assumption). lra. }
    cbn [In] in HIn. destruct HIn as [E|[E|[E|[]]]]; injection E as <- <-; apply X; exact FI.
Qed.
Print Assumptions C78_parallel_axis_exact.
Theorem C78_parallel_axis_accurate : forall a Ic m d, accurate a ->
  (forall r c, In (r, c) [(r1, vx); (r2, vy); (r3, vz)] -> 0 <= m -> 0 <= c (r Ic) -> within 7 (c (r (fparallel_axis a Ic m d))) (c (r (parallel_axis Ic m d)))) /\
  (forall r c x y, In (r, c, x, y) [(r1, vy, vx, vy); (r1, vz, vx, vz); (r2, vx, vx, vy); (r2, vz, vy, vz); (r3, vx, vx, vz); (r3, vy, vy, vz)] ->
    Rabs (c (r (fparallel_axis a Ic m d)) - c (r (parallel_axis Ic m d))) <= 4 * roundoff * (Rabs (c (r Ic)) + Rabs (m * (x d * y d)))).
Proof.
  intros a Ic m d AC. assert (SQ : forall x, close 3 (fsq a x) (x ^ 2)) by (intros x; apply (cl_fsq a AC 0), close_refl). split.
  - intros r c HIn PM PI'. assert (X : forall x y i, 0 <= i -> within 7 (fadd a i (fmul a m (fadd a (fsq a x) (fsq a y)))) (i + m * (x ^ 2 + y ^ 2))).
    { intros x y i P. pose proof (pow2_ge_0 x). pose proof (pow2_ge_0 y). apply (close_within 6); [lia|]. change 6%nat with (Nat.max 0 (0 + (Nat.max 3 3 + 1) + 1) + 1)%nat. apply (cl_fadd a AC); [apply close_refl| |exact P|apply Rmult_le_pos; lra].
      apply (cl_fmul a AC); [apply close_refl|]. apply (cl_fadd a AC); [apply SQ|apply SQ|lra|lra]. }
    cbn [In] in HIn. destruct HIn as [E|[E|[E|[]]]]; injection E as <- <-; apply X; exact PI'.
  - intros r c x y HIn. assert (X : forall p q i, Rabs (fadd a i (fmul a m (fmul a (fneg p) q)) - (i + m * (- p * q))) <= 4 * roundoff * (Rabs i + Rabs (m * (p * q)))).
    { intros p q i. replace (Rabs (m * (p * q))) with (Rabs (m * (- p * q))) by (rewrite <- Rabs_Ropp; f_equal; ring). replace 4 with (INR 4) by (rewrite INR_IZR_INZ; reflexivity). apply (err_abs 3); [lia|].
      change 3%nat with (Nat.max 0 (0 + (0 + 0 + 1) + 1) + 1)%nat. apply (err_fadd a AC); [apply err_refl|]. apply close_err. apply (cl_fmul a AC); [apply close_refl|]. unfold fneg. apply (cl_fmul a AC); apply close_refl. }
    cbn [In] in HIn. destruct HIn as [E|[E|[E|[E|[E|[E|[]]]]]]]; injection E as <- <- <- <-; apply X.
Qed.
Print Assumptions C78_parallel_axis_accurate.

(* ---- the hypotheses hold of double precision and of a bicycle ---- *)
Example C78_arithmetics : accurate double_plain /\ accurate double_fma /\ sign_symmetric double_plain /\ sign_symmetric double_fma /\ sign_symmetric double_underflow /\
  order_preserving double_plain /\ order_preserving double_underflow /\ scale_invariant double_plain.
Proof. exact (conj plain_accurate (conj fma_accurate (conj plain_symmetric (conj fma_symmetric (conj underflow_symmetric (conj plain_order (conj underflow_order plain_scale))))))). Qed.
Ltac no_abs := repeat match goal with |- context [Rabs ?x] => first [rewrite (Rabs_pos_eq x) by lra | rewrite (Rabs_left1 x) by lra] end.
Lemma self_sizes : cM (magnitudes (pv self_bike)) = mk2 4 (15 / 2) (15 / 2) (227 / 2).
Proof.
  assert (L : pv self_bike "lam" = 0) by reflexivity. unfold magnitudes. cbn [cM]. unfold G_IAll, G_IAlx, G_IAlz, G_mu, G_uA. rewrite L, cos_0, sin_0.
  unfold G_ITxx, G_ITxz, G_ITzz, G_IAxx, G_IAxz, G_IAzz, G_xA, G_zA, G_mA, pv, self_bike. cbn [dget String.eqb Ascii.eqb Bool.eqb]. rewrite Rabs_R0. no_abs.
  assert (E4 : forall a b c d a' b' c' d', a = a' -> b = b' -> c = c' -> d = d' -> mk2 a b c d = mk2 a' b' c' d') by (intros; subst; reflexivity). apply E4; field.
Qed.
Example C78_satisfiable : masses_positive self_bike /\ upright_bicycle (pv self_bike) /\
  (forall c, snd (benchmark_par_to_canonical self_bike) = Ok c -> conditioned 200 (cM (magnitudes (pv self_bike))) (cM c)) /\ 200 * roundoff <= / 100000 /\
  exists A B Ah Bh, snd (bicycle_state_space [("Benchmark", self_bike)] 4 FTrue) = Ok (A, B) /\ fstate_space double_fma self_bike 4 = Ok (Ah, Bh).
Proof.
  assert (MP : masses_positive self_bike).
  { intros k K. cbn [In] in K. unfold pv, self_bike. destruct K as [<-|[<-|[<-|[<-|[]]]]]; cbn [dget String.eqb Ascii.eqb Bool.eqb]; lra. }
  assert (CD : forall c, snd (benchmark_par_to_canonical self_bike) = Ok c -> conditioned 200 (cM (magnitudes (pv self_bike))) (cM c)).
  { intros c H. destruct (benchmark_par_to_canonical self_bike) as [q r] eqn:E. cbn [snd] in H. subst r. apply canon_inversion in E. destruct E as (_ & _ & _ & ->). rewrite self_matrices, self_sizes. unfold conditioned. cbn [cM m11 m12 m21 m22].
    split; [lra|]. replace (4 * 1 - 0 * 0) with 4 by ring. rewrite Rabs_pos_eq by lra. lra. }
  assert (KU : 200 * roundoff <= / 100000).
  { unfold roundoff. assert (0 < 2 ^ 53) by (apply pow_lt; lra). apply (Rmult_le_reg_r (2 ^ 53)); [assumption|]. rewrite Rmult_assoc, Rinv_l by lra. assert (IZR 9007199254740992 = 2 ^ 53) by (rewrite pow_IZR; reflexivity). lra. }
  split; [exact MP|]. split.
  { unfold upright_bicycle, pv, self_bike. cbn [dget String.eqb Ascii.eqb Bool.eqb]. rewrite cos_0. split; [|split; [|split; [lra|split; lra]]]; intros k K; cbn [In] in K;
    repeat (destruct K as [<-|K]; [cbn [dget String.eqb Ascii.eqb Bool.eqb]; lra|]); contradiction. }
  split; [exact CD|]. split; [exact KU|]. destruct self_state_space as (p' & c & B & EC & EA).
  assert (H : snd (bicycle_state_space [("Benchmark", self_bike)] 4 FTrue) = Ok (self_A, B)).
  { apply (C60_state_space_is_the_standalone_function [("Benchmark", self_bike)] self_bike FTrue 4 self_A B eq_refl (or_introl eq_refl)). exists c, 10. rewrite EC. auto. }
  destruct (C78_state_space_accurate double_fma 200 [("Benchmark", self_bike)] self_bike 4 self_A B fma_accurate eq_refl MP H CD KU) as (Ah & Bh & _ & _ & EF & _). exists self_A, B, Ah, Bh. auto.
Qed.
