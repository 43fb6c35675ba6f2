(* PUnc7.v -- C76: the tilt as an independent number; success of the uncertain calculations *)
From Verif Require Import Base MString MVec MBicycle MInertia MGeometry MMain MEig MUnc SBicycle SUnc PBase PUnc PUnc2 PUnc3 PUnc4 PUnc5 PUnc6.
From Coq Require Import FunctionalExtensionality Lra.
From Coquelicot Require Import Coquelicot.
Local Open Scope string_scope.
Local Open Scope R_scope.

Lemma guess_follows m rF rR a b c t : tilt_inputs (uvars m) = Ok (rF, rR, (a, b, c)) -> udiv c (uadd a b) = Ok t ->
  follows m (Ok (uatan t)) (fun p => Ok (equal_wheel_tilt p)).
Proof.
  intros I T v MP H. generalize (inputs_rr v _ _ H). rewrite I. intros [F [L [F1 [F2 [-> [[f [g [-> [HF HG]]]] [F3 [m1 [-> [[k [l [-> [HA HB]]]] HC]]]]]]]]]]. cbn [fst snd] in *.
  generalize (rr_div v True _ _ _ _ HC (tr_add v _ _ _ _ HA HB)). rewrite T. intros [q [LQ HQ]].
  exists (fun h => atan (q h)). split; [|apply tr_atan, HQ]. generalize (filter_and _ _ L LQ). apply filter_imp. intros h [E1 E2].
  apply plain_inputs_eq in E1. destruct E1 as (E3 & E4 & E5). apply rdiv_ok in E2. destruct E2 as [_ E2]. unfold equal_wheel_tilt. rewrite <- E3, <- E4, <- E5, E2. reflexivity.
Qed.
Lemma tilt_measured m newton par ex : dmem m "w" = false -> ucalculate_benchmark_from_measured (deviations m) newton (uvars m) = Ok (par, ex) ->
  exists t0 st g, propagated (fun p => Ok (equal_wheel_tilt p)) m g st /\ 0 <= st
    /\ calculate_benchmark_from_measured newton (values m) = calculate_benchmark_from_measured (fun _ _ => Ok t0) (values m)
    /\ forall v MP, qd (tr v) (uvars m) MP -> rr True (q2 (qd (tr v)) (qx v)) (Ok (par, ex)) (fun h => calculate_benchmark_from_measured (tilt_family t0 st v h) (MP h)).
Proof.
  intros W H. assert (W' : dmem (uvars m) "w" = false) by (rewrite uvars_dmem; exact W).
  destruct (tilt_success _ _ _ _ _ W' H) as (rF & rR & a & b & c & t & lam0 & I & T & N).
  exists lam0, (ustd (deviations m) (uatan t)), (nom (uatan t)).
  split; [apply (follows_propagated m (Ok (uatan t))); [apply (guess_follows m rF rR a b c t I T)|reflexivity]|].
  split; [apply sqrt_pos|]. split.
  - generalize (inputs_rr None _ _ (values_qd m)). rewrite I. intros E. apply rr_nominal in E. destruct E as [F [E [F1 [F2 [-> [[f [g [-> [[HF _] [HG _]]]]] [F3 [m1 [-> [[k [l [-> [[HA _] [HB _]]]]] [HC _]]]]]]]]]]]. cbn [fst snd] in *. rewrite HF, HG, HA, HB, HC in E.
    apply (measured_newton _ _ _ _ _ _ _ _ (eq_trans (values_dmem m "w") W) E). unfold lambda_from_abc. unfold udiv in T. cbn [nom uadd] in T. unfold rdiv.
    destruct (Req_EM_T (nom a + nom b) 0) as [Z|Z]; [discriminate T|]. cbn [bind]. assert (TT : nom t = nom c / (nom a + nom b)) by (match type of T with Ok ?x = Ok t => assert (x = t) as <- by congruence end; reflexivity).
    cbn [uatan nom] in N. rewrite TT in N. exact N.
  - intros v MP Q. rewrite <- H. apply measured_rr; auto. right. apply tilt_ok; [auto|]. intros rF' rR' a' b' c' t' I' T'. rewrite I in I'. match type of I' with Ok ?x = Ok ?y => assert (HH : x = y) by congruence end. injection HH as <- <- <- <- <-. assert (t = t') as <- by congruence. split; [exact N|reflexivity].
Qed.
Definition tilt_tracks m par ex t0 st : Prop :=
  forall v MP, qd (tr v) (uvars m) MP -> rr True (q2 (qd (tr v)) (qx v)) (Ok (par, ex)) (fun h => calculate_benchmark_from_measured (tilt_family t0 st v h) (MP h)).
Lemma tilt_key_with m par ex key u t0 st : tilt_tracks m par ex t0 st -> dget par key = Some u ->
  propagated_with (fun t mp => r <- calculate_benchmark_from_measured (fun _ _ => Ok t) mp ;; dlook (fst r) key) m t0 st (nom u) (ustd (deviations m) u).
Proof.
  intros K U.
  assert (D : (r <- Ok (par, ex) ;; dlook (fst r) key) = Ok u) by (cbn [bind fst]; unfold dlook; rewrite U; reflexivity).
  assert (FN := par_key None True key _ _ (K None (fun _ => values m) (values_qd m))). rewrite D in FN. destruct FN as [F [L [T0 T1]]]. unfold tilt_family in L.
  split; [|exists (fun k => der u (Some k)), (der u None); split; [|split]].
  - apply locally_singleton in L. rewrite <- T0, <- L. replace (t0 + st * 0) with t0 by ring. reflexivity.
  - intros k _. assert (FK := par_key (Some k) True key _ _ (K (Some k) (changed m k) (changed_qd m k))). rewrite D in FK. destruct FK as [FF [LL [_ T2]]]. exists FF. split; [|apply is_derive_Reals, T2].
    apply locally_eps in LL. destruct LL as (eps & PE & LL). exists eps. split; [exact PE|]. intros h B. specialize (LL h B). unfold tilt_family in LL. rewrite Rmult_0_l, Rplus_0_r in LL. exact LL.
  - exists F. split; [apply locally_eps, L|apply is_derive_Reals, T1].
  - unfold ustd. unfold deviations. rewrite map_map. reflexivity.
Qed.
Lemma flat_frame m : flat m -> frame_c m = 0.
Proof.
  unfold flat, frame_c, frame_a, frame_b. change gv with pv. intros H. match goal with |- sqrt ?x = 0 => replace x with 0; [apply sqrt_0|] end. rewrite <- H. field.
Qed.
Lemma axis_hung m par p : (forall key, In key (kept_keys (is_fork_split m)) -> dget par key = dget p key) -> on_axis (is_fork_split m) m p -> hung_at_centre (is_fork_split m) m par.
Proof.
  set (s := is_fork_split m). clearbody s. intros K H.
  assert (KV : forall key, In key (kept_keys s) -> pv par key = gv p key) by (intros key I; unfold pv, gv; rewrite (K key I); reflexivity). clear K.
  unfold hung_at_centre. unfold on_axis in H. destruct H as [[A B]|H].
  - left. rewrite !KV by (destruct s; cbn; tauto). split; lra.
  - destruct s.
    + destruct H as [[A B]|(l1 & l2 & u1 & u2 & L & U & A & B)]; [right; right; left; rewrite !KV by (cbn; tauto); split; [reflexivity|]; split; lra|].
      right. right. right. rewrite !KV by (cbn; tauto). split; [reflexivity|].
      unfold calculate_l1_l2 in L. cbv zeta in L. apply bind_ok in L. destruct L as (q & Q & L). apply bind_ok in L. destruct L as (ga & GA & L).
      unfold rasin in GA. destruct (Rlt_dec 1 (Rabs q)); [discriminate|]. apply rdiv_ok in Q. destruct Q as [_ Q].
      match type of L with Ok ?x = Ok ?y => assert (HL : x = y) by congruence end. injection HL as <- <-.
      unfold fwheel_to_handlebar_ref, rtan in U. cbv zeta in U. apply bind_ok in U. destruct U as (t & T & U). apply rdiv_ok in T. destruct T as [T1 ->].
      apply bind_ok in U. destruct U as (q1 & Q1 & U). apply rdiv_ok in Q1. destruct Q1 as [Q1 ->].
      apply bind_ok in U. destruct U as (q2 & Q2 & U). apply rdiv_ok in Q2. destruct Q2 as [Q2 ->].
      match type of U with Ok ?x = Ok ?y => assert (HU : x = y) by congruence end. injection HU as E1 E2. clear U L.
      assert (GG : ga = asin q) by congruence. subst ga q. unfold bar_point. cbv zeta. cbn [fst snd]. change gv with pv in *.
      set (l1 := pv m "h7" - pv m "h6" + pv m "d5" / 2 - pv m "d6" / 2) in *. set (l0 := pv m "l" - pv m "d5" / 2 - pv m "d6" / 2) in *.
      set (l2 := l0 * cos (asin (l1 / l0))) in *. set (lam := pv p "lam") in *.
      assert (E3 : u2 = l2 * cos lam + l1 * sin lam).
      { rewrite <- E2. assert (S := sin2_cos2 lam). unfold Rsqr in S. replace (l1 * sin lam) with (l1 * (sin lam * sin lam) / sin lam) by (field; exact Q2). replace (sin lam * sin lam) with (1 - cos lam * cos lam) by lra. field. split; assumption. }
      split; lra.
    + right. left. rewrite !KV by (cbn; tauto). split; [reflexivity|]. split; lra.
Qed.
Lemma measured_success v newton newton' sds m par ex y : rr False (q2 (qd (tr v)) (qx v)) (ucalculate_benchmark_from_measured sds newton (uvars m)) y -> y 0 = calculate_benchmark_from_measured newton' (values m) ->
  calculate_benchmark_from_measured newton' (values m) = Ok (par, ex) ->
  exists upar uex, ucalculate_benchmark_from_measured sds newton (uvars m) = Ok (upar, uex) /\ nominal_par upar = par.
Proof.
  intros H E O. rewrite O in E. destruct (ucalculate_benchmark_from_measured sds newton (uvars m)) as [[upar uex]|e].
  - apply rr_nominal in H. destruct H as [F [E' [P [X [-> [Q _]]]]]]. cbn [fst] in Q. exists upar, uex. split; [reflexivity|]. rewrite E in E'. rewrite <- (qd_nominal v upar P Q). congruence.
  - exfalso. destruct e; cbn in H; try (destruct H as [H|[_ []]]; congruence). apply locally_singleton in H. congruence.
Qed.
Lemma values_split m : is_fork_split (values m) = is_fork_split m.
Proof. unfold is_fork_split. replace (dkeys (values m)) with (dkeys m); [reflexivity|]. unfold dkeys, values. rewrite map_map. reflexivity. Qed.
Lemma geometry_inputs newton mp p : dmem mp "w" = false -> calculate_benchmark_geometry newton mp [] = Ok p ->
  exists rF rR a b c lam, plain_inputs mp = Ok (rF, rR, (a, b, c)) /\ lambda_from_abc newton rF rR a b c = Ok lam.
Proof.
  intros W H. unfold calculate_benchmark_geometry in H. cbv zeta in H. rewrite W in H. do 6 (apply bind_ok in H; let E := fresh "E" in destruct H as (? & E & H)).
  apply bind_ok in H. destruct H as (g & H & _). walk H. destruct y9 as [[a b] c]. apply bind_ok in H. destruct H as (lam & L & _).
  eexists _, _, a, b, c, lam. split; [|exact L]. unfold plain_inputs. repeat match goal with E : _ = Ok _ |- _ => rewrite E; cbn [bind]; clear E end. reflexivity.
Qed.
Lemma tilt_plain newton m p : dmem m "w" = false -> calculate_benchmark_geometry newton (values m) [] = Ok p ->
  exists lam0 sg, (forall rF rR a b c t, tilt_inputs (uvars m) = Ok (rF, rR, (a, b, c)) -> udiv c (uadd a b) = Ok t ->
       newton (fun l => lam_equality l (nom rF) (nom rR) (nom a) (nom b) (nom c)) (nom (uatan t)) = Ok lam0 /\ sg = ustd (deviations m) (uatan t))
       /\ calculate_benchmark_geometry (fun _ _ => Ok lam0) (values m) [] = calculate_benchmark_geometry newton (values m) [].
Proof.
  intros W H. assert (WV := eq_trans (values_dmem m "w") W). destruct (geometry_inputs _ _ _ WV H) as (rF & rR & a & b & c & lam & I & L).
  unfold lambda_from_abc in L. apply bind_ok in L. destruct L as (t & T & L). cbv zeta in L.
  exists lam. assert (G : calculate_benchmark_geometry (fun _ _ => Ok lam) (values m) [] = calculate_benchmark_geometry newton (values m) []).
  { apply (geometry_newton _ _ _ _ _ _ _ _ WV I). unfold lambda_from_abc. rewrite T. cbn [bind]. rewrite L. reflexivity. }
  destruct (tilt_inputs (uvars m)) as [[[rF' rR'] [[a' b'] c']]|e] eqn:TI.
  2: { exists 0. split; [intros; discriminate|exact G]. }
  destruct (udiv c' (uadd a' b')) as [t'|e] eqn:TD.
  2: { exists 0. split; [|exact G]. intros ? ? ? ? ? ? E E'. match type of E with Ok ?x = Ok ?y => assert (HH : x = y) by congruence end. injection HH as <- <- <- <- <-. congruence. }
  exists (ustd (deviations m) (uatan t')). split; [|exact G]. intros ? ? ? ? ? ? E E'. match type of E with Ok ?x = Ok ?y => assert (HH : x = y) by congruence end. injection HH as <- <- <- <- <-. assert (t' = t0) as <- by congruence. split; [|reflexivity].
  generalize (inputs_rr None _ _ (values_qd m)). rewrite TI. intros EI. apply rr_nominal in EI. destruct EI as [F [EI [F1 [F2 [-> [[f [g [-> [[HF _] [HG _]]]]] [F3 [m1 [-> [[k [l [-> [[HA _] [HB _]]]]] [HC _]]]]]]]]]]]. cbn [fst snd] in *. rewrite HF, HG, HA, HB, HC in EI.
  rewrite I in EI. match type of EI with Ok ?x = Ok ?y => assert (HH : x = y) by congruence end. injection HH as -> -> -> -> ->.
  apply rdiv_ok in T. destruct T as [NZ ->]. unfold udiv in TD. cbn [nom uadd] in TD. destruct (Req_EM_T (nom a' + nom b') 0) as [Z|Z]; [discriminate TD|].
  match type of TD with Ok ?x = Ok t' => assert (x = t') as <- by congruence end. cbn [nom uatan]. exact L.
Qed.
Lemma measured_total newton m par ex : calculate_benchmark_from_measured newton (values m) = Ok (par, ex) ->
  ~ (is_fork_split m = true /\ bar_in_line (values m)) -> ~ hung_at_centre (is_fork_split m) (values m) par -> (dmem m "w" = false -> frame_c (values m) <> 0) ->
  exists upar uex, ucalculate_benchmark_from_measured (deviations m) newton (uvars m) = Ok (upar, uex) /\ nominal_par upar = par.
Proof.
  intros O IL HC FC. destruct (tail_keeps _ _ _ _ O) as (p & SF & KP). rewrite values_split in KP.
  assert (AX : on_axis (is_fork_split m) (values m) p -> False). { rewrite <- values_split. intros X. apply HC. rewrite <- values_split. apply (axis_hung (values m) par p); [|exact X]. rewrite values_split. exact KP. }
  assert (IL' : is_fork_split (uvars m) = true -> in_line (values m) -> False). { rewrite uvars_split. intros S I. apply IL. split; [exact S|exact I]. }
  destruct (dmem m "w") eqn:W.
  - apply (measured_success None newton newton _ m par ex (fun _ => calculate_benchmark_from_measured newton (values m))); [|reflexivity|exact O].
    apply (measured_rr None False (deviations m) newton (fun _ => newton)); [apply values_qd|left; rewrite uvars_dmem; exact W|exact IL'|].
    intros p' SF'. cbv beta in SF'. rewrite SF in SF'. assert (p = p') as <- by congruence. rewrite uvars_split. exact AX.
  - assert (N : exists lam0 sg, (forall rF rR a b c t, tilt_inputs (uvars m) = Ok (rF, rR, (a, b, c)) -> udiv c (uadd a b) = Ok t ->
       newton (fun l => lam_equality l (nom rF) (nom rR) (nom a) (nom b) (nom c)) (nom (uatan t)) = Ok lam0 /\ sg = ustd (deviations m) (uatan t))
       /\ calculate_benchmark_geometry (fun _ _ => Ok lam0) (values m) [] = calculate_benchmark_geometry newton (values m) []).
    { unfold calculate_benchmark_from_measured in O. cbv zeta in O. apply bind_ok in O. destruct O as (p0 & O & _). apply (tilt_plain newton m p0 W O). }
    destruct N as (lam0 & sg & N & G).
    apply (measured_success None newton newton _ m par ex (fun h => calculate_benchmark_from_measured (tilt_family lam0 sg None h) (values m))); [|..|exact O].
    + apply measured_rr; [apply values_qd|right; apply tilt_ok; [|exact N]|exact IL'|].
      * intros FL. apply (FC eq_refl). apply flat_frame, FL.
      * intros p' SF'. rewrite uvars_split. assert (p = p') as <-; [|exact AX]. unfold so_far, tilt_family in SF, SF'. cbv zeta in SF, SF'. rewrite Rmult_0_r, Rplus_0_r in SF'. rewrite G in SF'. congruence.
    + unfold calculate_benchmark_from_measured, tilt_family. cbv zeta. rewrite Rmult_0_r, Rplus_0_r, G. reflexivity.
Qed.

(* ---- the tilt itself ---- *)
Lemma changed_dmem m k h x : dmem (changed m k h) x = dmem m x.
Proof. unfold dmem. induction m as [|[n [y s]] m IH]; [reflexivity|]. cbn. destruct (String.eqb x n); [reflexivity|exact IH]. Qed.
Lemma tilt_lam_eq m (newton : (R -> res R) -> R -> res R) par ex u t0 st : dmem m "w" = false -> dget par "lam" = Some u -> 0 <= st -> tilt_tracks m par ex t0 st -> t0 = nom u /\ st = ustd (deviations m) u.
Proof.
  intros W U P K.
  assert (D : (r <- Ok (par, ex) ;; dlook (fst r) "lam") = Ok u) by (cbn [bind fst]; unfold dlook; rewrite U; reflexivity).
  assert (L : forall v MP, qd (tr v) (uvars m) MP -> (forall h, dmem (MP h) "w" = false) -> tr v u (fun h => t0 + match v with None => st | Some _ => 0 end * h)).
  { intros v MP Q WM. assert (F := par_key v True "lam" _ _ (K v MP Q)). rewrite D in F. destruct F as [F [L T]].
    assert (LL : locally 0 (fun h => F h = t0 + match v with None => st | Some _ => 0 end * h)).
    { revert L. apply filter_imp. intros h L. unfold tilt_family in L. apply bind_ok in L. destruct L as ([p x] & C & L). apply lam_const in C; [|apply WM]. cbn [fst] in L. unfold dlook in L. rewrite C in L. congruence. }
    destruct T as [T0 T1]. split; [rewrite <- T0; symmetry; apply (locally_singleton _ _ LL)|]. apply (is_derive_ext_loc F); [exact LL|exact T1]. }
  assert (N := L None _ (values_qd m) (fun _ => eq_trans (values_dmem m "w") W)). destruct N as [N0 N1].
  assert (DN : der u None = st). { apply is_derive_unique in N1. rewrite <- N1. apply is_derive_unique. auto_derive; [exact I|ring]. }
  assert (DS : forall k, der u (Some k) = 0).
  { intros k. destruct (L (Some k) _ (changed_qd m k) (fun h => eq_trans (changed_dmem m k h "w") W)) as [_ S1]. apply is_derive_unique in S1. rewrite <- S1. apply is_derive_unique. auto_derive; [exact I|ring]. }
  split.
  2: { unfold ustd. rewrite DN. symmetry. replace (rsum _) with 0.
    + replace (0 + st ^ 2) with (st * st) by ring. apply sqrt_square, P.
    + symmetry. clear - DS. induction (deviations m) as [|[k s] l IH]; [reflexivity|]. cbn [map rsum fst snd]. unfold rsum in *. cbn [fold_right]. rewrite IH, DS. ring. }
  cbn in N0. rewrite <- N0. ring.
Qed.

(* ---- the true sensitivity of the tilt ---- *)
Lemma eps_locally (P : R -> Prop) eps : 0 < eps -> (forall h, Rabs h < eps -> P h) -> locally 0 P.
Proof.
  intros E H. exists (mkposreal eps E). intros h B. apply H. unfold ball in B; cbn in B; unfold AbsRing_ball, abs, minus, plus, opp in B; cbn in B.
  assert (X : Rabs h = Rabs (Rplus h (Ropp 0))) by (f_equal; rewrite Ropp_0; symmetry; apply Rplus_0_r). rewrite X. exact B.
Qed.
Definition exact_roots (newton : (R -> res R) -> R -> res R) : Prop := forall f x r, newton f x = Ok r -> f r = Ok 0.
Lemma lam_root newton mp par ex L : exact_roots newton -> dmem mp "w" = false -> calculate_benchmark_from_measured newton mp = Ok (par, ex) -> dget par "lam" = Some L ->
  pv mp "nF" <> 0 /\ (frame_a mp + frame_b mp) * sin L = pv mp "dF" / (2 * PI * pv mp "nF") - pv mp "dR" / (2 * PI * pv mp "nR") + frame_c mp * cos L.
Proof.
  intros N W H D. destruct (lam_kept _ _ _ _ H) as (p & G & E). rewrite E in D. destruct (geometry_inputs _ _ _ W G) as (rF' & rR' & a' & b' & c' & lam' & I & _).
  apply PGeometry2.geom_inv in G.
  destruct G as (rF & rR & lam & w & fo & ct & cm & NF & _ & RF & RR & _ & _ & _ & L0 & _ & _ & FR0 & [(W' & _)|(_ & a & b & c & ABC & LA & _)]); [congruence|].
  split; [exact NF|]. assert (L = lam) as -> by congruence. unfold lambda_from_abc in LA. apply bind_ok in LA. destruct LA as (t & T & LA). apply N in LA. unfold lam_equality in LA. apply bind_ok in LA. destruct LA as (q & Q & LA).
  apply rdiv_ok in Q. destruct Q as [NZ Q].
  assert (ABC' : a = frame_a mp /\ b = frame_b mp /\ c = frame_c mp).
  { unfold calculate_abc_geometry in ABC. cbv zeta in ABC. apply bind_ok in ABC. destruct ABC as (c0 & C & ABC). match type of ABC with Ok ?x = Ok ?y => assert (HH : x = y) by congruence end. injection HH as <- <- <-.
    unfold rsqrt in C. destruct (Rlt_dec _ 0); [discriminate|]. match type of C with Ok ?x = Ok ?y => assert (x = y) as <- by congruence end. unfold frame_a, frame_b, frame_c, frame_a, frame_b. split; [lra|]. split; [lra|]. f_equal. simpl. lra. }
  destruct ABC' as (-> & -> & ->). match type of LA with Ok ?x = Ok ?y => assert (HH : x = y) by congruence end. subst q rF rR.
  match type of HH with _ - ?X / _ = _ => set (Y := X) in * end. assert (S : sin lam = Y / (frame_a mp + frame_b mp)) by lra. rewrite S. field. exact NZ.
Qed.
Lemma changed_pv m k h n : pv (changed m k h) n = if String.eqb n k then (if dmem m n then pv (values m) n + h else 0) else pv (values m) n.
Proof.
  unfold pv, dmem. rewrite values_look. induction m as [|[x [y s]] m IH]; [cbn; destruct (String.eqb n k); reflexivity|]. cbn [changed map dget fst snd]. destruct (String.eqb n x) eqn:E; [|exact IH].
  apply String.eqb_eq in E. subst x. destruct (String.eqb n k); reflexivity.
Qed.
Lemma tilt_true newton m par ex s x : exact_roots newton -> dmem m "w" = false -> dmem m "dF" = true ->
  calculate_benchmark_from_measured newton (values m) = Ok (par, ex) ->
  propagated (fun mp => r <- calculate_benchmark_from_measured newton mp ;; dlook (fst r) "lam") m x s ->
  (forall k d, In (k, d) m -> k <> "dF" -> snd d = 0) -> (forall d, In ("dF", d) m -> snd d <> 0) -> s <> 0.
Proof.
  intros N W DF O [_ (d & SE & ->)] OT OD.
  assert (IN : exists xd, In ("dF", xd) m). { unfold dmem in DF. destruct (dget m "dF") as [xd|] eqn:E; [|discriminate]. exists xd. apply dget_in. exact E. }
  destruct IN as [xd IN].
  assert (DN : d "dF" <> 0).
  { intros Z. destruct (SE "dF") as (F & (eps & PE & HE) & DE); [apply (in_map fst) in IN; exact IN|]. rewrite Z in DE.
    set (M := values m) in *.
    assert (RT : forall h, Rabs h < eps -> pv M "nF" <> 0 /\ (frame_a M + frame_b M) * sin (F h) = (pv M "dF" + h) / (2 * PI * pv M "nF") - pv M "dR" / (2 * PI * pv M "nR") + frame_c M * cos (F h)).
    { intros h B. specialize (HE h B). apply bind_ok in HE. destruct HE as ([p q] & C & L). cbn [fst] in L. assert (LD : dget p "lam" = Some (F h)) by (unfold dlook in L; destruct (dget p "lam"); congruence).
      apply (lam_root newton (changed m "dF" h) p q (F h) N (eq_trans (changed_dmem m "dF" h "w") W) C) in LD. unfold frame_c in LD. unfold frame_a, frame_b in LD. rewrite !changed_pv in LD. cbn [String.eqb Ascii.eqb Bool.eqb] in LD. rewrite DF in LD. exact LD. }
    assert (P0 := RT 0). rewrite Rabs_R0 in P0. destruct (P0 PE) as [NF _]. clear P0.
    set (A := frame_a M + frame_b M) in *. set (C := frame_c M) in *.
    assert (D1 : is_derive (fun h => A * sin (F h) - C * cos (F h)) 0 0).
    { apply is_derive_Reals in DE. assert (X : is_derive F 0 0) by exact DE. auto_derive; [split; [exists 0; exact X|split; [exists 0; exact X|exact I]]|]. assert (XU := is_derive_unique F 0 0 X). replace (Derive (fun x : R => F x) 0) with 0 by (rewrite <- XU; reflexivity). ring. }
    assert (D2 : is_derive (fun h => (pv M "dF" + h) / (2 * PI * pv M "nF") - pv M "dR" / (2 * PI * pv M "nR")) 0 (/ (2 * PI * pv M "nF"))).
    { auto_derive; [exact I|]. unfold Rdiv. ring. }
    assert (D3 : is_derive (fun h => A * sin (F h) - C * cos (F h)) 0 (/ (2 * PI * pv M "nF"))).
    { apply (is_derive_ext_loc (fun h => (pv M "dF" + h) / (2 * PI * pv M "nF") - pv M "dR" / (2 * PI * pv M "nR"))); [|exact D2]. apply (eps_locally _ eps PE). intros h B. destruct (RT h B) as [_ E]. match goal with |- @eq _ ?a ?b => change (@eq R a b) end. rewrite E. ring. }
    apply is_derive_unique in D1. apply is_derive_unique in D3. rewrite D1 in D3. symmetry in D3. revert D3. apply Rinv_neq_0_compat. assert (PI > 0) by apply PI_RGT_0. apply Rmult_integral_contrapositive_currified; lra. }
  intros Z. apply sqrt_eq_0 in Z.
  - assert (G : forall l : dict (R * R), In ("dF", xd) l -> rsum (map (fun kv => (d (fst kv) * snd (snd kv)) ^ 2) l) > 0).
    { assert (NN : forall l : dict (R * R), 0 <= rsum (map (fun kv => (d (fst kv) * snd (snd kv)) ^ 2) l)).
      { intros l. induction l as [|kv l IH]; unfold rsum in *; cbn [map fold_right]; [lra|]. assert (Q := pow2_ge_0 (d (fst kv) * snd (snd kv))). lra. }
      intros l. induction l as [|kv l IH]; [contradiction|]. intros [->|I]; unfold rsum in *; cbn [map fold_right fst snd].
      - specialize (NN l). assert (0 < (d "dF" * snd xd) ^ 2); [|lra]. assert (Q : d "dF" * snd xd <> 0) by (apply Rmult_integral_contrapositive_currified; [exact DN|exact (OD _ IN)]). apply pow2_gt_0. exact Q.
      - specialize (IH I). assert (Q := pow2_ge_0 (d (fst kv) * snd (snd kv))). lra. }
    specialize (G m IN). lra.
  - assert (NN : forall l : dict (R * R), 0 <= rsum (map (fun kv => (d (fst kv) * snd (snd kv)) ^ 2) l)); [|apply NN].
    intros l. induction l as [|kv l IH]; unfold rsum in *; cbn [map fold_right]; [lra|]. assert (Q := pow2_ge_0 (d (fst kv) * snd (snd kv))). lra.
Qed.
(* the reported one *)
Lemma tilt_reported newton m par ex u : dmem m "w" = false -> ucalculate_benchmark_from_measured (deviations m) newton (uvars m) = Ok (par, ex) -> dget par "lam" = Some u ->
  (forall k d, In (k, d) m -> ~ In k ["dF"; "dR"; "nF"; "nR"] -> snd d = 0) -> ustd (deviations m) u = 0.
Proof.
  intros W H U OT. destruct (tilt_measured m newton par ex W H) as (t0 & st & g & [_ (d & SE & E)] & P & _ & K). destruct (tilt_lam_eq m newton par ex u t0 st W U P K) as [_ <-]. rewrite E.
  assert (Z : forall kv, In kv m -> (d (fst kv) * snd (snd kv)) ^ 2 = 0).
  { intros [k [x s]] IN. cbn [fst snd]. destruct (in_dec string_dec k ["dF"; "dR"; "nF"; "nR"]) as [IK|NK].
    - assert (DZ : d k = 0).
      { destruct (SE k) as (F & (eps & PE & HE) & DE); [apply (in_map fst) in IN; exact IN|]. apply is_derive_Reals in DE.
        assert (C : is_derive (fun _ : R => equal_wheel_tilt (values m)) 0 (d k)).
        { apply (is_derive_ext_loc F); [|exact DE]. apply (eps_locally _ eps PE). intros h B.
          specialize (HE h B). assert (EE : equal_wheel_tilt (changed m k h) = F h) by congruence. rewrite <- EE. unfold equal_wheel_tilt, frame_c. unfold frame_a, frame_b. rewrite !changed_pv.
          cbn [In] in IK. destruct IK as [<-|[<-|[<-|[<-|[]]]]]; reflexivity. }
        apply is_derive_unique in C. rewrite <- C. apply Derive_const. }
      rewrite DZ. ring.
    - rewrite (OT k (x, s) IN NK : s = 0). ring. }
  replace (rsum _) with 0; [apply sqrt_0|]. symmetry. clear - Z. induction m as [|kv m IH]; [reflexivity|]. unfold rsum in *. cbn [map fold_right]. rewrite IH by (intros; apply Z; right; assumption). rewrite Z by (left; reflexivity). ring.
Qed.
