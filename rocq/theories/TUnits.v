(* TUnits.v -- C74: the results do not depend on the units of mass, length and time *)
From Coq Require Import Lra Lia Permutation.
From Verif Require Import Base MString MHeap MBicycle MVec MInertia MModels MModels2 MEig PBase SBicycle PBicycle PBicycle2 SInertia PInertia PInertia2 PInertia3 SModels SModels2 SLean SEig SStab PEig2 PEig TEig TStab PRoots SUnits PUnits.
Local Open Scope string_scope.
Local Open Scope R_scope.

(* the canonical matrices, and whether they can be calculated at all *)
Theorem C74_canonical_matrices : forall u p p', positive_units u -> in_units u p p' ->
  ((exists c, snd (benchmark_par_to_canonical p) = Ok c) <-> (exists c, snd (benchmark_par_to_canonical p') = Ok c)) /\
  forall c, snd (benchmark_par_to_canonical p) = Ok c ->
    snd (benchmark_par_to_canonical p') =
      Ok (mkcanon (m2_scale (u_mass u * u_length u ^ 2) (cM c)) (m2_scale (u_mass u * u_length u) (cC1 c)) (m2_scale (u_mass u * u_length u) (cK0 c)) (m2_scale (u_mass u) (cK2 c))).
Proof. intros u p p' PU U. split; [exact (success_units u p p' PU U)|]. intros c E. exact (canonical_units u p p' PU U c E). Qed.
Print Assumptions C74_canonical_matrices.

(* the state matrix at the same speed: entries times (unit of the row) / (unit of time * unit of the column) *)
Theorem C74_state_space : forall u ps ps' p p' v A B, positive_units u -> dget ps "Benchmark" = Some p -> dget ps' "Benchmark" = Some p' -> in_units u p p' ->
  snd (bicycle_state_space ps v FTrue) = Ok (A, B) ->
  exists A' B', snd (bicycle_state_space ps' (speed_unit u * v) FTrue) = Ok (A', B') /\
    (forall i j, (i < 4)%nat -> (j < 4)%nat -> ent A' i j = state_unit u i / (u_time u * state_unit u j) * ent A i j) /\
    (forall i j, (i < 4)%nat -> (j < 2)%nat -> ent B' i j = state_unit u i / (u_time u * torque_unit u) * ent B i j).
Proof.
  intros u ps ps' p p' v A B PU E E' U H. apply (C60_state_space_is_the_standalone_function ps p FTrue v A B E (or_introl eq_refl)) in H. destruct H as (c & g & EC & EG & EA).
  destruct PU as (PM & PL & PT). destruct (ab_units (u_mass u) (u_length u) (u_time u) _ _ _ _ _ _ _ _ PM PL PT EA) as (A' & B' & EA' & HA & HB).
  exists A', B'. split; [|split; [exact HA|exact HB]].
  apply (C60_state_space_is_the_standalone_function ps' p' FTrue _ A' B' E' (or_introl eq_refl)). eexists _, (gravity_unit u * g). split; [exact (canonical_units u p p' (conj PM (conj PL PT)) U c EC)|]. split; [|exact EA'].
  rewrite (U "g") by (unfold bench_names; cbn; tauto). rewrite EG. cbn [option_map]. rewrite (u_g u (conj PM (conj PL PT))). reflexivity.
Qed.
Print Assumptions C74_state_space.

(* eigenvalues are rates: in the new units each is divided by the unit of time *)
Lemma ab_form M C1 K0 K2 v g A B : ab_matrix M C1 K0 K2 v g = Ok (A, B) -> exists a b c d a' b' c' d', A = [[0; 0; 1; 0]; [0; 0; 0; 1]; [a; b; c; d]; [a'; b'; c'; d']].
Proof.
  intros E. assert (D : det2 M <> 0).
  { intros Z. unfold ab_matrix, inv2 in E. fold (det2 M) in E. unfold rdiv in E. rewrite Z in E. destruct (Req_EM_T 0 0); [discriminate|lra]. }
  rewrite ab_forward in E by exact D. cbv zeta in E. injection E as <- _. do 8 eexists. reflexivity.
Qed.
Lemma det_units t A A' s : 0 < t -> (exists a b c d a' b' c' d', A = [[0; 0; 1; 0]; [0; 0; 0; 1]; [a; b; c; d]; [a'; b'; c'; d']]) ->
  (exists a b c d a' b' c' d', A' = [[0; 0; 1; 0]; [0; 0; 0; 1]; [a; b; c; d]; [a'; b'; c'; d']]) ->
  (forall i j, (i < 4)%nat -> (j < 4)%nat -> ent A' i j = (if Nat.ltb i 2 then 1 else / t) / (t * (if Nat.ltb j 2 then 1 else / t)) * ent A i j) ->
  det 4 (sI_minus s A') = (/ t) ^ 4 * det 4 (sI_minus (t * s) A).
Proof.
  intros PT (a & b & c & d & e & f & g & h & ->) (a' & b' & c' & d' & e' & f' & g' & h' & ->) H.
  pose proof (H 2 0)%nat as X1. pose proof (H 2 1)%nat as X2. pose proof (H 2 2)%nat as X3. pose proof (H 2 3)%nat as X4.
  pose proof (H 3 0)%nat as Y1. pose proof (H 3 1)%nat as Y2. pose proof (H 3 2)%nat as Y3. pose proof (H 3 3)%nat as Y4. clear H.
  unfold ent in *. cbn [nth Nat.ltb Nat.leb] in *. rewrite X1, X2, X3, X4, Y1, Y2, Y3, Y4 by lia. clear - PT.
  unfold sI_minus. cbn [map seq nth Nat.eqb]. cbn [det altsum hd tl map remove_at nth]. field. lra.
Qed.
Lemma cprod_scale k s w : k <> 0 -> cprod (map (fun z : cplx => (s - fst z, - snd z)) (map (cscale (/ k)) w)) = cscale ((/ k) ^ length w) (cprod (map (fun z : cplx => (k * s - fst z, - snd z)) w)).
Proof.
  intros K. induction w as [|z w IH]; [unfold cprod, cscale; cbn [map fold_right length pow fst snd]; apply (f_equal2 (@pair R R)); ring|].
  unfold cprod in *. cbn [map fold_right length]. rewrite IH. unfold cmul, cscale. cbn [fst snd pow]. apply (f_equal2 (@pair R R)); field; exact K.
Qed.
Theorem C74_eigenvalues : forall u eig eig' ps ps' p p' l evs evs', positive_units u -> dget ps "Benchmark" = Some p -> dget ps' "Benchmark" = Some p' -> in_units u p p' ->
  eig_contract eig -> eig_complete eig -> eig_contract eig' -> eig_complete eig' ->
  bicycle_eig eig ps (SpSeq l) = Ok evs -> bicycle_eig eig' ps' (SpSeq (map (Rmult (speed_unit u)) l)) = Ok evs' ->
  length evs = length l /\ length evs' = length l /\
  forall i, (i < length l)%nat -> Permutation (map (cscale (/ u_time u)) (fst (nth i evs ([], [])))) (fst (nth i evs' ([], []))).
Proof.
  intros u eig eig' ps ps' p p' l evs evs' PU E E' U EC CP EC' CP' H H'.
  pose proof (proj1 (eig_rows eig ps l evs EC H)) as L1. pose proof (proj1 (eig_rows eig' ps' _ evs' EC' H')) as L2. rewrite map_length in L2. split; [exact L1|]. split; [exact L2|]. intros i Hi.
  assert (G : exists g, dget p "g" = Some g).
  { apply (eig_iff eig ps l evs p E) in H; [|destruct (eig_none eig ps l evs H) as (p1 & c1 & X1 & X2); assert (p1 = p) as -> by congruence; eauto].
    apply (forall2_nth _ 0 ([], [])) in H. destruct H as (_ & H). destruct (H i Hi) as (A & B & ES & _). apply (C60_state_space_is_the_standalone_function ps p FTrue _ A B E (or_introl eq_refl)) in ES. destruct ES as (_ & g & _ & EG & _). eauto. }
  destruct G as (g & EG). assert (EG' : dget p' "g" = Some (gravity_unit u * g)) by (rewrite (U "g") by (unfold bench_names; cbn; tauto); rewrite EG; cbn [option_map]; rewrite (u_g u PU); reflexivity).
  destruct (row_data eig ps p g l evs i E EG H Hi) as (_ & q & c & A & B & HC & HA & SA & EE).
  assert (Hi' : (i < length (map (Rmult (speed_unit u)) l))%nat) by (rewrite map_length; exact Hi).
  destruct (row_data eig' ps' p' _ _ evs' i E' EG' H' Hi') as (_ & q' & c' & A' & B' & HC' & HA' & SA' & EE').
  destruct (nth i evs ([], [])) as [w V]. destruct (nth i evs' ([], [])) as [w' V']. cbn [fst].
  destruct PU as (PM & PL & PT). pose proof (canonical_units u p p' (conj PM (conj PL PT)) U c) as CU. rewrite HC, HC' in CU. cbn [snd] in CU. specialize (CU eq_refl). match type of CU with Ok _ = Ok ?x => assert (c' = x) as -> by congruence end. cbn [cM cC1 cK0 cK2] in HA'.
  destruct (ab_units (u_mass u) (u_length u) (u_time u) _ _ _ _ _ _ _ _ PM PL PT HA) as (A2 & B2 & EA2 & XA & _).
  assert (ES : nth i (map (Rmult (speed_unit u)) l) 0 = u_length u / u_time u * nth i l 0).
  { rewrite (nth_indep _ 0 (speed_unit u * 0)) by exact Hi'. rewrite (map_nth (Rmult (speed_unit u))). reflexivity. }
  rewrite ES in HA'. unfold gravity_unit in HA'. rewrite EA2 in HA'. injection HA' as <- <-.
  pose proof (CP A w V SA EE) as W. pose proof (CP' A2 w' V' SA' EE') as W'. destruct (EC 4%nat A w V SA EE) as (LW & _).
  apply spectrum_unique. intros s. rewrite cprod_scale by lra. rewrite LW, (W (u_time u * s)), (W' s). rewrite (det_units (u_time u) A A2 s PT (ab_form _ _ _ _ _ _ _ _ HA) (ab_form _ _ _ _ _ _ _ _ EA2) XA).
  unfold cscale. cbn [fst snd]. apply (f_equal2 (@pair R R)); ring.
Qed.
Print Assumptions C74_eigenvalues.

(* ... so they do not depend on the routine that calculates them either *)
Lemma same_units p : in_units (mkunits 1 1 1) p p.
Proof.
  intros k _. assert (B : bench_unit (mkunits 1 1 1) k = 1).
  { unfold bench_unit. destruct (bench_dimension k) as [[a b] d]. cbn [u_mass u_length u_time]. assert (P : forall z, powerRZ 1 z = 1) by (intros [|n|n]; cbn [powerRZ]; rewrite ?pow1; lra). rewrite !P. ring. }
  rewrite B. destruct (dget p k); cbn [option_map]; [f_equal; ring|reflexivity].
Qed.
Theorem C74_eigenvalues_do_not_depend_on_the_routine : forall eig eig' ps l evs evs', eig_contract eig -> eig_complete eig -> eig_contract eig' -> eig_complete eig' ->
  bicycle_eig eig ps (SpSeq l) = Ok evs -> bicycle_eig eig' ps (SpSeq l) = Ok evs' ->
  forall i, (i < length l)%nat -> Permutation (fst (nth i evs ([], []))) (fst (nth i evs' ([], []))).
Proof.
  intros eig eig' ps l evs evs' EC CP EC' CP' H H' i Hi. destruct (eig_none eig ps l evs H) as (p & c & E & _).
  assert (ML : map (Rmult (speed_unit (mkunits 1 1 1))) l = l) by (rewrite <- (map_id l) at 2; apply map_ext; intros x; unfold speed_unit; cbn [u_length u_time]; field).
  assert (PU : positive_units (mkunits 1 1 1)) by (unfold positive_units; cbn; lra).
  rewrite <- ML in H'. destruct (C74_eigenvalues (mkunits 1 1 1) eig eig' ps ps p p l evs evs' PU E E (same_units p) EC CP EC' CP' H H') as (_ & _ & X). specialize (X i Hi). cbn [u_time] in X.
  assert (MW : forall w : list cplx, map (cscale (/ 1)) w = w) by (intros w; rewrite <- (map_id w) at 2; apply map_ext; intros [a b]; unfold cscale; cbn [fst snd]; apply (f_equal2 (@pair R R)); field).
  rewrite MW in X. exact X.
Qed.
Print Assumptions C74_eigenvalues_do_not_depend_on_the_routine.

(* a bicycle k times as long and r times as heavy of the same shape, on the same planet:
   at sqrt k times the speed its motions take sqrt k times as long *)
Definition similar_bicycle (k r : R) (p p' : dict R) : Prop :=
  (forall n, In n lengths -> dget p' n = option_map (Rmult k) (dget p n)) /\ (forall n, In n masses -> dget p' n = option_map (Rmult r) (dget p n)) /\
  (forall n, In n inertias -> dget p' n = option_map (Rmult (r * k ^ 2)) (dget p n)) /\ dget p' "lam" = dget p "lam" /\ dget p' "g" = dget p "g".
Theorem C74_similar_bicycles : forall k r eig eig' ps ps' p p' l evs evs', 0 < k -> 0 < r -> dget ps "Benchmark" = Some p -> dget ps' "Benchmark" = Some p' -> similar_bicycle k r p p' ->
  eig_contract eig -> eig_complete eig -> eig_contract eig' -> eig_complete eig' ->
  bicycle_eig eig ps (SpSeq l) = Ok evs -> bicycle_eig eig' ps' (SpSeq (map (Rmult (sqrt k)) l)) = Ok evs' ->
  forall i, (i < length l)%nat -> Permutation (map (cscale (/ sqrt k)) (fst (nth i evs ([], [])))) (fst (nth i evs' ([], []))).
Proof.
  intros k r eig eig' ps ps' p p' l evs evs' PK PR E E' (S1 & S2 & S3 & S4 & S5) EC CP EC' CP' H H' i Hi.
  set (u := mkunits r k (sqrt k)). assert (Q : 0 < sqrt k) by (apply sqrt_lt_R0, PK). assert (SQ : sqrt k * sqrt k = k) by (apply sqrt_sqrt; lra).
  assert (PU : positive_units u) by (unfold positive_units, u; cbn; lra).
  assert (OM : forall f g (o : option R), (forall x : R, f x = g x :> R) -> option_map f o = option_map g o) by (intros f g [x|] X; cbn [option_map]; [rewrite X|]; reflexivity).
  assert (OI : forall f (o : option R), (forall x : R, f x = x) -> o = option_map f o) by (intros f [x|] X; cbn [option_map]; [rewrite X|]; reflexivity).
  assert (U : in_units u p p').
  { intros n Hn. unfold bench_names in Hn. cbn [app In] in Hn. destruct Hn as [<-|[<-|Hn]].
    - rewrite S4. apply OI. intros x. rewrite (u_lam u). ring.
    - rewrite S5. apply OI. intros x. rewrite (u_g u PU). unfold gravity_unit, u. cbn [u_length u_time]. replace (sqrt k ^ 2) with k by (rewrite <- SQ at 1; ring). field. lra.
    - change (In n (lengths ++ masses ++ inertias)) in Hn. apply in_app_or in Hn. destruct Hn as [Hn|Hn]; [|apply in_app_or in Hn; destruct Hn as [Hn|Hn]].
      + rewrite (S1 n Hn). apply OM. intros x. rewrite u_len; [reflexivity|]. apply smem_spec, Hn.
      + rewrite (S2 n Hn). apply OM. intros x. unfold masses in Hn. cbn [In] in Hn. destruct Hn as [<-|[<-|[<-|[<-|[]]]]]; rewrite u_mas by reflexivity; reflexivity.
      + rewrite (S3 n Hn). apply OM. intros x. unfold inertias in Hn. cbn [In] in Hn. repeat (destruct Hn as [<-|Hn]; [rewrite u_ine by reflexivity; reflexivity|]). contradiction. }
  assert (SU : speed_unit u = sqrt k) by (unfold speed_unit, u; cbn [u_length u_time]; rewrite <- SQ at 1; field; lra).
  rewrite <- SU in H'. exact (proj2 (proj2 (C74_eigenvalues u eig eig' ps ps' p p' l evs evs' PU E E' U EC CP EC' CP' H H')) i Hi).
Qed.
Print Assumptions C74_similar_bicycles.

(* a motion in the new units *)
Lemma ne_units u p p' : positive_units u -> in_units u p p' -> (exists c, snd (benchmark_par_to_canonical p) = Ok c) ->
  forall v g phi phi1 phi2 del del1 del2, newton_euler (bike_of p) v g phi phi1 phi2 del del1 del2 0 0 <->
    newton_euler (bike_of p') (speed_unit u * v) (gravity_unit u * g) phi (phi1 / u_time u) (phi2 / u_time u ^ 2) del (del1 / u_time u) (del2 / u_time u ^ 2) 0 0.
Proof.
  intros PU U (c & E) v g phi phi1 phi2 del del1 del2. pose proof (canonical_units u p p' PU U c E) as E'.
  destruct (benchmark_par_to_canonical p) as [q r] eqn:EQ. cbn [snd] in E. subst r. destruct (benchmark_par_to_canonical p') as [q' r'] eqn:EQ'. cbn [snd] in E'. subst r'.
  rewrite (canonical_newton_euler p q c EQ), (canonical_newton_euler p' q' _ EQ'). destruct PU as (PM & PL & PT). unfold eom, speed_unit, gravity_unit, m2_scale. cbn [cM cC1 cK0 cK2 m11 m12 m21 m22].
  set (m := u_mass u) in *. set (l := u_length u) in *. set (t := u_time u) in *. clearbody m l t.
  assert (S : forall x y, y = m * l ^ 2 / t ^ 2 * x -> (x = 0 <-> y = 0)).
  { intros x y ->. assert (0 < m * l ^ 2 / t ^ 2) by (apply Rdiv_lt_0_compat; [pose proof (pow_lt l 2 PL); nra|apply pow_lt, PT]). split; [intros ->; ring|]. intros X. apply Rmult_integral in X. destruct X; [lra|assumption]. }
  assert (AI : forall a b a' b', (a <-> a') -> (b <-> b') -> (a /\ b <-> a' /\ b')) by tauto.
  apply AI; apply S; field; lra.
Qed.
Lemma deriv_time t f f1 (s : R) : 0 < t -> derivable_pt_lim f (s / t) f1 -> derivable_pt_lim (fun x => f (x / t)) s (f1 / t).
Proof.
  intros PT D. replace (f1 / t) with (f1 * (/ t * 1)) by (field; lra). apply (derivable_pt_lim_comp (fun x => x / t) f s); [|exact D].
  replace (fun x => x / t) with (mult_real_fct (/ t) id) by (apply FunctionalExtensionality.functional_extensionality; intros x; unfold mult_real_fct, id; field; lra). apply derivable_pt_lim_scal, derivable_pt_lim_id.
Qed.
Theorem C74_motions : forall u p p', positive_units u -> in_units u p p' -> (exists c, snd (benchmark_par_to_canonical p) = Ok c) ->
  forall v g phi phi1 del del1, coasts (bike_of p) v g phi phi1 del del1 <->
    coasts (bike_of p') (speed_unit u * v) (gravity_unit u * g) (fun s => phi (s / u_time u)) (fun s => phi1 (s / u_time u) / u_time u) (fun s => del (s / u_time u)) (fun s => del1 (s / u_time u) / u_time u).
Proof.
  intros u p p' PU U C v g phi phi1 del del1. pose proof (ne_units u p p' PU U C) as NE. destruct PU as (_ & _ & PT). set (t := u_time u) in *. clearbody t. split; intros (phi2 & del2 & H).
  - exists (fun s => phi2 (s / t) / t ^ 2), (fun s => del2 (s / t) / t ^ 2). intros s Hs. assert (Hs' : 0 <= s / t) by (apply Rmult_le_pos; [exact Hs|left; apply Rinv_0_lt_compat, PT]).
    destruct (H (s / t) Hs') as (D1 & D2 & D3 & D4 & E). split; [exact (deriv_time t phi _ s PT D1)|]. split.
    + replace (phi2 (s / t) / t ^ 2) with (phi2 (s / t) / t * / t) by (field; lra). replace (fun x => phi1 (x / t) / t) with (mult_real_fct (/ t) (fun x => phi1 (x / t))) by (apply FunctionalExtensionality.functional_extensionality; intros x; unfold mult_real_fct; field; lra).
      rewrite (Rmult_comm _ (/ t)). apply derivable_pt_lim_scal, deriv_time; assumption.
    + split; [exact (deriv_time t del _ s PT D3)|]. split; [|apply NE; exact E].
      replace (del2 (s / t) / t ^ 2) with (del2 (s / t) / t * / t) by (field; lra). replace (fun x => del1 (x / t) / t) with (mult_real_fct (/ t) (fun x => del1 (x / t))) by (apply FunctionalExtensionality.functional_extensionality; intros x; unfold mult_real_fct; field; lra).
      rewrite (Rmult_comm _ (/ t)). apply derivable_pt_lim_scal, deriv_time; assumption.
  - exists (fun s => t ^ 2 * phi2 (t * s)), (fun s => t ^ 2 * del2 (t * s)). intros s Hs. assert (Hs' : 0 <= t * s) by nra.
    assert (PI' : 0 < / t) by (apply Rinv_0_lt_compat, PT). assert (TS : t * s / t = s) by (field; lra).
    assert (BACK : forall f f1 : R -> R, derivable_pt_lim (fun x => f (x / t)) (t * s) (f1 (t * s)) -> derivable_pt_lim f s (t * f1 (t * s))).
    { intros f f1 D. replace f with (fun x => (fun y => f (y / t)) (x / / t)) by (apply FunctionalExtensionality.functional_extensionality; intros x; f_equal; field; lra).
      replace (t * f1 (t * s)) with (f1 (t * s) / / t) by (field; lra). apply (deriv_time (/ t) (fun y => f (y / t))); [exact PI'|]. replace (s / / t) with (t * s) by (field; lra). exact D. }
    assert (HALF : forall f f1 : R -> R, derivable_pt_lim (fun x => f (x / t) / t) (t * s) (f1 (t * s)) -> derivable_pt_lim f s (t ^ 2 * f1 (t * s))).
    { intros f f1 D. replace (t ^ 2 * f1 (t * s)) with (t * ((fun y => t * f1 y) (t * s))) by ring. apply (BACK f (fun y => t * f1 y)). cbn beta.
      replace (fun x => f (x / t)) with (mult_real_fct t (fun x => f (x / t) / t)) by (apply FunctionalExtensionality.functional_extensionality; intros x; unfold mult_real_fct; field; lra). apply derivable_pt_lim_scal, D. }
    destruct (H (t * s) Hs') as (D1 & D2 & D3 & D4 & E). rewrite TS in E.
    split; [pose proof (BACK phi (fun x => phi1 (x / t) / t) D1) as X; cbn beta in X; rewrite TS in X; replace (phi1 s) with (t * (phi1 s / t)) by (field; lra); exact X|]. split; [exact (HALF phi1 phi2 D2)|].
    split; [pose proof (BACK del (fun x => del1 (x / t) / t) D3) as X; cbn beta in X; rewrite TS in X; replace (del1 s) with (t * (del1 s / t)) by (field; lra); exact X|]. split; [exact (HALF del1 del2 D4)|].
    apply NE. replace (t ^ 2 * phi2 (t * s) / t ^ 2) with (phi2 (t * s)) by (field; lra). replace (t ^ 2 * del2 (t * s) / t ^ 2) with (del2 (t * s)) by (field; lra). exact E.
Qed.
Print Assumptions C74_motions.

Definition motion := (R -> R) -> (R -> R) -> (R -> R) -> (R -> R) -> Prop.
Definition decays (P : motion) : Prop := exists C mu, 0 < mu /\ forall phi phi1 del del1, P phi phi1 del del1 -> forall t, 0 <= t ->
    size (phi t) (phi1 t) (del t) (del1 t) <= C * size (phi 0) (phi1 0) (del 0) (del1 0) * exp (- mu * t).
Definition escapes (P : motion) : Prop := forall eps, 0 < eps -> exists phi phi1 del del1, P phi phi1 del del1 /\
    size (phi 0) (phi1 0) (del 0) (del1 0) < eps /\ (unbounded phi \/ unbounded del).
Lemma size_nonneg a b c d : 0 <= size a b c d.
Proof. unfold size. pose proof (Rabs_pos a). pose proof (Rabs_pos b). pose proof (Rabs_pos c). pose proof (Rabs_pos d). lra. Qed.
Lemma size_time t a b c d : 0 < t -> size a (t * b) c (t * d) <= (1 + t) * size a b c d.
Proof.
  intros PT. unfold size. rewrite !Rabs_mult, (Rabs_right t) by lra. pose proof (Rabs_pos a). pose proof (Rabs_pos b). pose proof (Rabs_pos c). pose proof (Rabs_pos d).
  assert (0 <= t * Rabs a) by nra. assert (0 <= t * Rabs c) by nra. lra.
Qed.
Lemma transfer (P Q : motion) t : 0 < t -> (forall phi phi1 del del1, Q phi phi1 del del1 -> P (fun s => phi (t * s)) (fun s => t * phi1 (t * s)) (fun s => del (t * s)) (fun s => t * del1 (t * s))) -> decays P -> decays Q.
Proof.
  intros PT PQ (C & mu & PM & H). assert (PI' : 0 < / t) by (apply Rinv_0_lt_compat, PT). exists ((1 + / t) * (Rabs C * (1 + t))), (mu * / t). split; [nra|]. intros phi phi1 del del1 HQ s Hs.
  assert (Hs' : 0 <= s * / t) by nra. assert (TS : t * (s * / t) = s) by (field; lra).
  pose proof (H _ _ _ _ (PQ _ _ _ _ HQ) (s * / t) Hs') as X. cbn beta in X. rewrite TS, Rmult_0_r in X.
  pose proof (size_time (/ t) (phi s) (t * phi1 s) (del s) (t * del1 s) PI') as Y. replace (/ t * (t * phi1 s)) with (phi1 s) in Y by (field; lra). replace (/ t * (t * del1 s)) with (del1 s) in Y by (field; lra).
  pose proof (size_time t (phi 0) (phi1 0) (del 0) (del1 0) PT) as Z. pose proof (size_nonneg (phi 0) (t * phi1 0) (del 0) (t * del1 0)) as N.
  replace (- (mu * / t) * s) with (- mu * (s * / t)) by ring. set (e := exp (- mu * (s * / t))) in *. assert (E : 0 < e) by apply exp_pos.
  set (S0 := size (phi 0) (phi1 0) (del 0) (del1 0)) in *. set (S1 := size (phi 0) (t * phi1 0) (del 0) (t * del1 0)) in *. set (S2 := size (phi s) (t * phi1 s) (del s) (t * del1 s)) in *. set (S3 := size (phi s) (phi1 s) (del s) (del1 s)) in *. clearbody e S0 S1 S2 S3.
  apply (Rle_trans _ _ _ Y). rewrite !Rmult_assoc. apply Rmult_le_compat_l; [lra|]. apply (Rle_trans _ _ _ X). rewrite Rmult_assoc.
  apply (Rle_trans _ (Rabs C * (S1 * e))); [apply Rmult_le_compat_r; [nra|apply RRle_abs]|]. apply Rmult_le_compat_l; [apply Rabs_pos|]. rewrite <- Rmult_assoc. apply Rmult_le_compat_r; [lra|exact Z].
Qed.
Lemma transfer_escape (P Q : motion) t : 0 < t -> (forall phi phi1 del del1, Q phi phi1 del del1 -> P (fun s => phi (t * s)) (fun s => t * phi1 (t * s)) (fun s => del (t * s)) (fun s => t * del1 (t * s))) -> escapes Q -> escapes P.
Proof.
  intros PT PQ H eps PE. assert (PE' : 0 < eps / (1 + t)) by (apply Rdiv_lt_0_compat; lra). destruct (H _ PE') as (phi & phi1 & del & del1 & HQ & S & UB).
  do 4 eexists. split; [exact (PQ _ _ _ _ HQ)|]. cbn beta. rewrite Rmult_0_r. split.
  - pose proof (size_time t (phi 0) (phi1 0) (del 0) (del1 0) PT) as Z. apply (Rle_lt_trans _ _ _ Z). apply (Rmult_lt_compat_l (1 + t)) in S; [|lra]. replace ((1 + t) * (eps / (1 + t))) with eps in S by (field; lra). exact S.
  - assert (G : forall f, unbounded f -> unbounded (fun s => f (t * s))).
    { intros f UF b. destruct (UF b) as (s & Hs & L). exists (s / t). split; [apply Rmult_le_pos; [exact Hs|left; apply Rinv_0_lt_compat, PT]|]. replace (t * (s / t)) with s by (field; lra). exact L. }
    destruct UB as [UB|UB]; [left|right]; apply G, UB.
Qed.
(* whether a bicycle balances itself does not depend on the units *)
Theorem C74_stability : forall u p p' v g, positive_units u -> in_units u p p' -> (exists c, snd (benchmark_par_to_canonical p) = Ok c) ->
  (balances_itself (bike_of p) v g <-> balances_itself (bike_of p') (speed_unit u * v) (gravity_unit u * g)) /\
  (falls_over (bike_of p) v g <-> falls_over (bike_of p') (speed_unit u * v) (gravity_unit u * g)).
Proof.
  intros u p p' v g PU U C. pose proof (C74_motions u p p' PU U C v g) as M. pose proof PU as (_ & _ & PT). assert (PI' : 0 < / u_time u) by (apply Rinv_0_lt_compat, PT).
  set (P := coasts (bike_of p) v g) in *. set (Q := coasts (bike_of p') (speed_unit u * v) (gravity_unit u * g)) in *.
  assert (QP : forall phi phi1 del del1, Q phi phi1 del del1 -> P (fun s => phi (u_time u * s)) (fun s => u_time u * phi1 (u_time u * s)) (fun s => del (u_time u * s)) (fun s => u_time u * del1 (u_time u * s))).
  { intros phi phi1 del del1 H. apply M. cbn beta.
    replace (fun s => phi (u_time u * (s / u_time u))) with phi by (apply FunctionalExtensionality.functional_extensionality; intros s; f_equal; field; lra).
    replace (fun s => del (u_time u * (s / u_time u))) with del by (apply FunctionalExtensionality.functional_extensionality; intros s; f_equal; field; lra).
    replace (fun s => u_time u * phi1 (u_time u * (s / u_time u)) / u_time u) with phi1 by (apply FunctionalExtensionality.functional_extensionality; intros s; replace (u_time u * (s / u_time u)) with s by (field; lra); field; lra).
    replace (fun s => u_time u * del1 (u_time u * (s / u_time u)) / u_time u) with del1 by (apply FunctionalExtensionality.functional_extensionality; intros s; replace (u_time u * (s / u_time u)) with s by (field; lra); field; lra). exact H. }
  assert (PQ : forall phi phi1 del del1, P phi phi1 del del1 -> Q (fun s => phi (/ u_time u * s)) (fun s => / u_time u * phi1 (/ u_time u * s)) (fun s => del (/ u_time u * s)) (fun s => / u_time u * del1 (/ u_time u * s))).
  { intros phi phi1 del del1 H. apply M in H.
    assert (F1 : forall f : R -> R, (fun s => f (/ u_time u * s)) = (fun s => f (s / u_time u))) by (intros f; apply FunctionalExtensionality.functional_extensionality; intros s; f_equal; unfold Rdiv; ring).
    assert (F2 : forall f : R -> R, (fun s => / u_time u * f (/ u_time u * s)) = (fun s => f (s / u_time u) / u_time u)) by (intros f; apply FunctionalExtensionality.functional_extensionality; intros s; unfold Rdiv; rewrite (Rmult_comm s); ring).
    rewrite !F1, !F2. exact H. }
  split; split.
  - exact (transfer P Q _ PT QP).
  - exact (transfer Q P _ PI' PQ).
  - exact (transfer_escape Q P _ PI' PQ).
  - exact (transfer_escape P Q _ PT QP).
Qed.
Print Assumptions C74_stability.

(* a rider gets on: in the new units the ridden bicycle is the ridden bicycle in the new units *)
Theorem C74_ridden_bicycle : forall u p p' r r', positive_units u -> in_units u p p' -> in_units u r r' ->
  ((exists q, combine_bike_rider p r = Ok q) <-> (exists q', combine_bike_rider p' r' = Ok q')) /\
  forall q q', combine_bike_rider p r = Ok q -> combine_bike_rider p' r' = Ok q' -> in_units u q q'.
Proof.
  intros u p p' r r' PU UP UR. pose proof PU as (PM & PL & PT).
  assert (NM : forall k, In k bike_keys \/ In k rider_keys -> In k bench_names) by (intros k K; unfold bench_names, lengths, masses, inertias; cbn [bike_keys rider_keys In app] in *; tauto).
  assert (MS : pv r' "mB" + pv p' "mB" = u_mass u * (pv r "mB" + pv p "mB")).
  { rewrite (pv_units u p p' UP "mB"), (pv_units u r r' UR "mB") by (unfold bench_names; cbn; tauto). rewrite u_mas by reflexivity. ring. }
  split.
  - rewrite !combine_iff. split; intros (K1 & K2 & K3); (split; [intros k Hk; apply (keys_units u p p' UP k); [apply NM; auto|apply K1, Hk]|split; [intros k Hk; apply (keys_units u r r' UR k); [apply NM; auto|apply K2, Hk]|]]).
    + rewrite MS. apply Rmult_integral_contrapositive. split; [lra|exact K3].
    + intros Z. apply K3. rewrite MS, Z. ring.
  - intros q q' E E'. apply combine_ok in E. apply combine_ok in E'. destruct E as (_ & _ & N & ->). destruct E' as (_ & _ & N' & ->).
    intros k Hk. destruct (in_dec string_dec k ["xB"; "zB"; "yB"; "mB"; "IBxx"; "IBxz"; "IByy"; "IBzz"]) as [I|NI].
    2:{ rewrite !combined_other by exact NI. apply UP, Hk. }
    assert (VP : forall k, In k bench_names -> pv p' k = bench_unit u k * pv p k) by exact (pv_units u p p' UP).
    assert (VR : forall k, In k bench_names -> pv r' k = bench_unit u k * pv r k) by exact (pv_units u r r' UR).
    unfold combined. cbv zeta.
    assert (VM : pv r' "mB" = u_mass u * pv r "mB") by (rewrite VR by (unfold bench_names; cbn; tauto); rewrite u_mas by reflexivity; reflexivity).
    assert (VM2 : pv p' "mB" = u_mass u * pv p "mB") by (rewrite VP by (unfold bench_names; cbn; tauto); rewrite u_mas by reflexivity; reflexivity).
    assert (VL : forall k, In k ["xB"; "yB"; "zB"] -> pv r' k = u_length u * pv r k /\ pv p' k = u_length u * pv p k).
    { intros k' [<-|[<-|[<-|[]]]]; rewrite VR, VP by (unfold bench_names; cbn; tauto); rewrite u_len by reflexivity; auto. }
    assert (VI : forall k, In k ["IBxx"; "IBxz"; "IByy"; "IBzz"] -> pv r' k = u_mass u * u_length u ^ 2 * pv r k /\ pv p' k = u_mass u * u_length u ^ 2 * pv p k).
    { intros k' [<-|[<-|[<-|[<-|[]]]]]; rewrite VR, VP by (unfold bench_names; cbn; tauto); rewrite u_ine by reflexivity; auto. }
    destruct (VL "xB") as (-> & ->); [cbn; tauto|]. destruct (VL "yB") as (-> & _); [cbn; tauto|]. destruct (VL "zB") as (-> & ->); [cbn; tauto|].
    destruct (VI "IBxx") as (-> & ->); [cbn; tauto|]. destruct (VI "IBxz") as (-> & ->); [cbn; tauto|]. destruct (VI "IByy") as (-> & ->); [cbn; tauto|]. destruct (VI "IBzz") as (-> & ->); [cbn; tauto|].
    rewrite VM, VM2 in *. clear VM VM2 VL VI VP VR.
    set (m := u_mass u) in *. set (l := u_length u) in *.
    assert (N2 : m * pv r "mB" + m * pv p "mB" <> 0) by exact N'.
    rewrite !dget_dset. cbn [In] in I.
    destruct I as [<-|[<-|[<-|[<-|[<-|[<-|[<-|[<-|[]]]]]]]]]; cbn [String.eqb Ascii.eqb Bool.eqb option_map]; f_equal;
      first [rewrite u_len by reflexivity | rewrite u_mas by reflexivity | rewrite u_ine by reflexivity]; fold m l; field; repeat split; try exact N; try lra.
Qed.
Print Assumptions C74_ridden_bicycle.

(* ---- examples ---- *)
Definition convert (u : units) (p : dict R) : dict R := map (fun kv => (fst kv, bench_unit u (fst kv) * snd kv)) p.
Lemma convert_in_units u p : in_units u p (convert u p).
Proof.
  intros k _. unfold convert. induction p as [|[a x] p IH]; [reflexivity|]. cbn [map dget fst snd]. destruct (String.eqb k a) eqn:E; [|exact IH]. apply String.eqb_eq in E. subst a. reflexivity.
Qed.
(* grams, centimetres and milliseconds *)
Definition small_units : units := mkunits 1000 100 1000.
Example C74_small_units : positive_units small_units /\ in_units small_units self_bike (convert small_units self_bike) /\ (exists c, snd (benchmark_par_to_canonical self_bike) = Ok c) /\
  (exists A B, snd (bicycle_state_space [("Benchmark", self_bike)] 4 FTrue) = Ok (A, B)) /\ speed_unit small_units * 4 = 4 / 10 /\
  balances_itself (bike_of (convert small_units self_bike)) (4 / 10) (1 / 1000).
Proof.
  assert (PU : positive_units small_units) by (unfold positive_units; cbn; lra).
  destruct self_state_space as (q & c & B & H & HA). assert (C : exists c, snd (benchmark_par_to_canonical self_bike) = Ok c) by (exists c; rewrite H; reflexivity).
  split; [exact PU|]. split; [apply convert_in_units|]. split; [exact C|]. split.
  - exists self_A, B. apply (C60_state_space_is_the_standalone_function [("Benchmark", self_bike)] self_bike FTrue 4 self_A B eq_refl (or_introl eq_refl)). exists c, 10. rewrite H. auto.
  - assert (E1 : speed_unit small_units * 4 = 4 / 10) by (unfold speed_unit; cbn [small_units u_length u_time]; field). assert (E2 : gravity_unit small_units * 10 = 1 / 1000) by (unfold gravity_unit; cbn [small_units u_length u_time]; field).
    split; [exact E1|]. rewrite <- E1, <- E2. apply (C74_stability small_units self_bike _ 4 10 PU (convert_in_units _ _) C). destruct C71_bicycle as (_ & _ & _ & _ & BI & _). exact BI.
Qed.
(* the bicycle four times as long, eight times as heavy *)
Definition big_bike : dict R := convert (mkunits 8 4 2) self_bike.
Definition big_A : marr := [[0; 0; 1; 0]; [0; 0; 0; 1]; [101 / 20; - 864 / 100; 0; - 108 / 25]; [25 / 4; -10; 5 / 2; -7]].
Definition big_w : list cplx := [(-1 / 2, 0); (-1, 0); (-2, 0); (-7 / 2, 0)].
Definition big_V : list (list cplx) :=
  [[(27, 0); (16, 0); (0, 0); (9, 0)]; [(20, 0); (15, 0); (1, 0); (10, 0)]; [(-27 / 2, 0); (-16, 0); (0, 0); (-63 / 2, 0)]; [(-10, 0); (-15, 0); (-2, 0); (-35, 0)]].
Definition big_eig (A : marr) : res eigres := if list_eq_dec (list_eq_dec Req_EM_T) A big_A then Ok (big_w, big_V) else Err RuntimeError.
Lemma big_contract : eig_contract big_eig.
Proof.
  intros n A w V (LA & _) E. unfold big_eig in E. destruct (list_eq_dec _ A big_A) as [->|]; [|discriminate]. injection E as <- <-. assert (n = 4%nat) as -> by (symmetry; exact LA).
  split; [reflexivity|]. split; [reflexivity|]. split; [intros row [<-|[<-|[<-|[<-|[]]]]]; reflexivity|]. intros j Hj. split.
  - exists 1%nat. split; [lia|]. unfold cent, big_V. destruct j as [|[|[|[|]]]]; try lia; cbn [nth]; intros X; injection X; lra.
  - intros i Hi. unfold csum, cent, cmul, rsum, ent, big_V, big_w, big_A.
    destruct j as [|[|[|[|]]]]; try lia; destruct i as [|[|[|[|]]]]; try lia; cbn [nth seq map fst snd fold_right]; apply (f_equal2 (@pair R R)); lra.
Qed.
Lemma big_complete : eig_complete big_eig.
Proof.
  intros A w V _ E. unfold big_eig in E. destruct (list_eq_dec _ A big_A) as [->|]; [|discriminate]. injection E as <- <-. intros s.
  unfold big_w, cprod, cmul, sI_minus, big_A. cbn [fst snd map fold_right seq nth Nat.eqb]. cbn [det altsum hd tl map remove_at nth]. apply (f_equal2 (@pair R R)); field.
Qed.
Example C74_big_bike : similar_bicycle 4 8 self_bike big_bike /\ eig_contract self_eig /\ eig_complete self_eig /\ eig_contract big_eig /\ eig_complete big_eig /\
  bicycle_eig self_eig [("Benchmark", self_bike)] (SpSeq [4]) = Ok [(self_w, self_V)] /\ bicycle_eig big_eig [("Benchmark", big_bike)] (SpSeq (map (Rmult (sqrt 4)) [4])) = Ok [(big_w, big_V)] /\
  map (cscale (/ sqrt 4)) self_w = big_w.
Proof.
  assert (S4 : sqrt 4 = 2) by (replace 4 with (2 * 2) by ring; apply sqrt_square; lra).
  split; [|split; [exact self_contract|split; [exact self_complete|split; [exact big_contract|split; [exact big_complete|split; [exact self_reported|split]]]]]].
  - pose proof (convert_in_units (mkunits 8 4 2) self_bike) as U. assert (PU : positive_units (mkunits 8 4 2)) by (unfold positive_units; cbn; lra). repeat split.
    + intros n Hn. unfold big_bike. rewrite U by (unfold bench_names; apply in_or_app; right; apply in_or_app; left; exact Hn). rewrite u_len by (apply smem_spec, Hn). reflexivity.
    + intros n Hn. unfold big_bike. rewrite U by (unfold bench_names; apply in_or_app; right; apply in_or_app; right; apply in_or_app; left; exact Hn). unfold masses in Hn. cbn [In] in Hn. destruct Hn as [<-|[<-|[<-|[<-|[]]]]]; rewrite u_mas by reflexivity; reflexivity.
    + intros n Hn. unfold big_bike. rewrite U by (unfold bench_names; apply in_or_app; right; apply in_or_app; right; apply in_or_app; right; exact Hn). unfold inertias in Hn. cbn [In] in Hn. repeat (destruct Hn as [<-|Hn]; [rewrite u_ine by reflexivity; reflexivity|]). contradiction.
    + unfold big_bike. rewrite U by (unfold bench_names; cbn; tauto). rewrite u_lam. change (dget self_bike "lam") with (Some 0). cbn [option_map]. f_equal. ring.
    + unfold big_bike. rewrite U by (unfold bench_names; cbn; tauto). rewrite (u_g _ PU). change (dget self_bike "g") with (Some 10). cbn [option_map]. f_equal. unfold gravity_unit. cbn [u_length u_time]. field.
  - rewrite S4. cbn [map]. pose proof (convert_in_units (mkunits 8 4 2) self_bike) as U. fold big_bike in U. assert (PU : positive_units (mkunits 8 4 2)) by (unfold positive_units; cbn; lra).
    destruct self_state_space as (q & c & B & H & HA). assert (SS : snd (bicycle_state_space [("Benchmark", self_bike)] 4 FTrue) = Ok (self_A, B)).
    { apply (C60_state_space_is_the_standalone_function [("Benchmark", self_bike)] self_bike FTrue 4 self_A B eq_refl (or_introl eq_refl)). exists c, 10. rewrite H. auto. }
    destruct (C74_state_space (mkunits 8 4 2) [("Benchmark", self_bike)] [("Benchmark", big_bike)] self_bike big_bike 4 self_A B PU eq_refl eq_refl U SS) as (A' & B' & E' & XA & _).
    assert (SU : speed_unit (mkunits 8 4 2) * 4 = 2 * 4) by (unfold speed_unit; cbn [u_length u_time]; field). rewrite SU in E'.
    assert (CU : exists c', PModels.canonical big_bike = Ok c') by (unfold PModels.canonical; apply (success_units _ self_bike big_bike PU U); exists c; rewrite H; reflexivity).
    apply (eig_iff big_eig [("Benchmark", big_bike)] [2 * 4] [(big_w, big_V)] big_bike eq_refl CU). constructor; [|constructor]. exists A', B'. split; [exact E'|].
    apply (C60_state_space_is_the_standalone_function [("Benchmark", big_bike)] big_bike FTrue _ A' B' eq_refl (or_introl eq_refl)) in E'. destruct E' as (c' & g & _ & _ & EA).
    destruct (ab_form _ _ _ _ _ _ _ _ EA) as (a1 & a2 & a3 & a4 & a5 & a6 & a7 & a8 & ->).
    pose proof (XA 2 0)%nat as X1. pose proof (XA 2 1)%nat as X2. pose proof (XA 2 2)%nat as X3. pose proof (XA 2 3)%nat as X4.
    pose proof (XA 3 0)%nat as Y1. pose proof (XA 3 1)%nat as Y2. pose proof (XA 3 2)%nat as Y3. pose proof (XA 3 3)%nat as Y4. clear XA EA.
    unfold ent, self_A, state_unit in *. cbn [nth Nat.ltb Nat.leb u_time] in *. specialize (X1 ltac:(lia) ltac:(lia)). specialize (X2 ltac:(lia) ltac:(lia)). specialize (X3 ltac:(lia) ltac:(lia)). specialize (X4 ltac:(lia) ltac:(lia)).
    specialize (Y1 ltac:(lia) ltac:(lia)). specialize (Y2 ltac:(lia) ltac:(lia)). specialize (Y3 ltac:(lia) ltac:(lia)). specialize (Y4 ltac:(lia) ltac:(lia)).
    assert (EB : [[0; 0; 1; 0]; [0; 0; 0; 1]; [a1; a2; a3; a4]; [a5; a6; a7; a8]] = big_A).
    { unfold big_A. repeat match goal with |- _ :: _ = _ :: _ => apply f_equal2 | |- [] = [] => reflexivity end; try reflexivity; [rewrite X1|rewrite X2|rewrite X3|rewrite X4|rewrite Y1|rewrite Y2|rewrite Y3|rewrite Y4]; field. }
    rewrite EB. unfold big_eig. destruct (list_eq_dec _ big_A big_A) as [_|N]; [reflexivity|contradiction N; reflexivity].
  - rewrite S4. unfold self_w, big_w, cscale. cbn [map fst snd]. repeat (apply f_equal2; [apply (f_equal2 (@pair R R)); field|]). reflexivity.
Qed.
