(* TUnc2.v -- C76: cases that meet the hypotheses *)
From Verif Require Import Base PBase MString MVec MBicycle MInertia MGeometry MMain MEig SBicycle SMain PBicycle PBicycle2 PInertia2 PModels SEnd PUnc8 TBicycle TMain TInertia TEig TStab TEnd TEnd2 TUnc MUnc SUnc.
From Coq Require Import Lra Lia.
Local Open Scope string_scope.
Local Open Scope R_scope.

(* a measured bicycle, every measurement with a standard deviation of 1/100 *)
Definition exm : dict (R * R) := map (fun kv => (fst kv, (snd kv, 1 / 100))) ex_whole.
Lemma exm_values : values exm = ex_whole.
Proof. unfold values, exm. rewrite map_map. cbn [fst snd]. rewrite <- (map_id ex_whole) at 2. apply map_ext. intros []; reflexivity. Qed.
Example C76_benchmark_met : In "w" (map fst exm) /\ exists par ex, ucalculate_benchmark_from_measured (deviations exm) ex_newton (uvars exm) = Ok (par, ex)
  /\ (exists u, dget par "xB" = Some u /\ nom u = 3 / 5) /\ (exists u, dget par "IHxz" = Some u /\ nom u = 5 / 2).
Proof.
  split; [cbn; tauto|]. destruct C47_whole_met as (EX & _ & _ & _ & par & ex & H & A & B).
  assert (F := C47_whole_fork _ _ _ _ _ _ _ EX H).
  destruct (C76_defined ex_newton exm par ex) as (upar & uex & U & N).
  - rewrite exm_values. exact H.
  - intros [S _]. cbn in S. discriminate S.
  - intros [[X _]|[(_ & X & _)|[[X _]|[X _]]]]; [| |discriminate X|discriminate X].
    + unfold pv in X. rewrite B in X. lra.
    + unfold pv in X. rewrite (F "xH" (1 + 3 / 5)), (F "w" 1) in X by (cbn; tauto). lra.
  - intros W. exfalso. apply W. cbn. tauto.
  - exists upar, uex. split; [exact U|]. rewrite <- N in A, B. clear - A B. unfold nominal_par in A, B.
    assert (G : forall k v, dget (map (fun kv : string * unum => (fst kv, nom (snd kv))) upar) k = Some v -> exists u, dget upar k = Some u /\ nom u = v).
    { intros k v. clear A B. induction upar as [|[k' u] l IH]; [discriminate|]. cbn. destruct (String.eqb k k'); [intros E; injection E as <-; eauto|exact IH]. }
    split; apply G; assumption.
Qed.

(* a bicycle whose wheelbase was not measured: only the front wheel's distance is uncertain *)
Definition tilt_common : dict R :=
  [("nF", 1); ("dF", 2 * PI); ("nR", 1); ("dR", 2 * PI); ("g", 13);
   ("lP", 3); ("mP", 1); ("dP", 2); ("TtP1", 2 * PI);
   ("mF", 1); ("lF", 1); ("TcF1", 2 * PI); ("TtF1", 6 * PI);
   ("mR", 1); ("lR", 1); ("TcR1", 2 * PI); ("TtR1", 6 * PI);
   ("h1", 0); ("h2", 0); ("h3", 0); ("h4", ex_s); ("h5", 0); ("d1", 0); ("d2", 0); ("d3", 0); ("d4", 0); ("d", 1)].
Definition tilt_whole : dict R := (tilt_common ++ ex_part "B" ++ ex_part "H")%list.
Definition tilt_newton : (R -> res R) -> R -> res R :=
  fun f g => match f g with Ok y => if Req_EM_T y 0 then Ok g else Err RuntimeError | Err e => Err e end.
Definition tiltm : dict (R * R) := map (fun kv => (fst kv, (snd kv, if String.eqb (fst kv) "dF" then 1 / 100 else 0))) tilt_whole.
Lemma tiltm_values : values tiltm = tilt_whole.
Proof. unfold values, tiltm. rewrite map_map. cbn [fst snd]. rewrite <- (map_id tilt_whole) at 2. apply map_ext. intros []; reflexivity. Qed.
Lemma tilt_newton_root f x r : tilt_newton f x = Ok r -> f r = Ok 0 /\ Rabs (r - x) <= PI / 2.
Proof.
  unfold tilt_newton. destruct (f x) as [y|] eqn:E; [|discriminate]. destruct (Req_EM_T y 0) as [->|]; [|discriminate]. intros H. injection H as <-. split; [exact E|].
  replace (x - x) with 0 by ring. rewrite Rabs_R0. pose proof PI_RGT_0. lra.
Qed.
Lemma ex_s_pos : 0 < ex_s.
Proof. unfold ex_s. apply Rinv_0_lt_compat, sqrt_lt_R0. lra. Qed.
Lemma tilt_abc : calculate_abc_geometry 0 0 0 ex_s 0 0 0 0 0 1 = Ok (0, ex_s, ex_s).
Proof.
  unfold calculate_abc_geometry. replace (0 + 0 - 0 + / 2 * 0 - / 2 * 0) with 0 by ring. replace (ex_s - / 2 * 0 - 0 + / 2 * 0) with ex_s by ring.
  replace (- (0 - ex_s) ^ 2 + (1 + / 2 * (0 + 0)) ^ 2) with (ex_s * ex_s) by (pose proof ex_s2; nra).
  unfold rsqrt. destruct (Rlt_dec (ex_s * ex_s) 0) as [L|_]; [pose proof ex_s2; lra|]. cbn [bind]. rewrite sqrt_square by (left; apply ex_s_pos). reflexivity.
Qed.
Lemma tilt_guess : atan (ex_s / (0 + ex_s)) = PI / 4.
Proof. pose proof ex_s_pos. replace (ex_s / (0 + ex_s)) with 1 by (field; lra). apply atan_1. Qed.
Lemma tilt_root : lam_equality (PI / 4) 1 1 0 ex_s ex_s = Ok 0.
Proof.
  unfold lam_equality. pose proof ex_s_pos. rewrite rdiv_eq by lra. cbn [bind]. f_equal. rewrite sin_PI4, cos_PI4. field. split; [apply Rgt_not_eq, sqrt_lt_R0; lra|lra].
Qed.
Ltac tnames := intros k v K; cbn [tilt_common ex_part In append app] in K; repeat (destruct K as [K|K]; [injection K as <- <-; reflexivity|]); contradiction.
Lemma tilt_hc k v : In (k, v) tilt_common -> dget tilt_whole k = Some v. Proof. revert k v. tnames. Qed.
Lemma tilt_hb k v : In (k, v) (ex_part "B") -> dget tilt_whole k = Some v. Proof. revert k v. tnames. Qed.
Lemma tilt_hh k v : In (k, v) (ex_part "H") -> dget tilt_whole k = Some v. Proof. revert k v. tnames. Qed.
Lemma tilt_pv k v : In (k, v) tilt_common -> pv tilt_whole k = v. Proof. intros I. unfold pv. rewrite (tilt_hc k v I). reflexivity. Qed.
Lemma tilt_no_w : ~ In "w" (dkeys tilt_whole).
Proof. cbn. intuition discriminate. Qed.
Lemma tilt_geometry : exact_geometry tilt_newton tilt_whole ex_bike.
Proof.
  unfold exact_geometry. cbn [ex_bike rb_F rb_R w_r rb_w rb_lam rb_c].
  rewrite (tilt_pv "nF" 1), (tilt_pv "dF" (2 * PI)), (tilt_pv "nR" 1), (tilt_pv "dR" (2 * PI)), (tilt_pv "h1" 0), (tilt_pv "h2" 0), (tilt_pv "h3" 0), (tilt_pv "h4" ex_s), (tilt_pv "h5" 0),
    (tilt_pv "d1" 0), (tilt_pv "d2" 0), (tilt_pv "d3" 0), (tilt_pv "d4" 0), (tilt_pv "d" 1) by (cbn; tauto).
  split; [lra|]. split; [ring|]. split; [lra|]. split; [ring|]. right. split; [exact tilt_no_w|]. exists 0, ex_s, ex_s. pose proof ex_s_pos as SP. destruct ex_pi4 as (C1 & S1 & _ & _).
  split; [exact tilt_abc|]. split; [lra|]. unfold SGeometry.ahead, SGeometry.along. rewrite C1, S1.
  split; [ring|]. split; [ring|]. split; [ring|]. split; [exact tilt_newton_root|]. rewrite tilt_guess. replace (PI / 4 - PI / 4) with 0 by ring. rewrite Rabs_R0. pose proof PI_RGT_0. lra.
Qed.
Lemma tilt_rod : exact_rod tilt_whole 1.
Proof.
  exists 3, 1, 2, (2 * PI), (/ (3 * PI)). pose proof ex_pi as P.
  assert (M : SInertia.tube_integral (/ (3 * PI)) 3 (2 / 2) 0 (fun _ _ _ => 1) = 1) by (rewrite PInertia2.tube_mass; field; exact P).
  repeat split; try (apply tilt_hc; cbn; tauto); [lra | exact M |].
  destruct (tube_inertia 3 1 (2 / 2) 0) as [[Ix Iy] Iz] eqn:E. pose proof (PInertia2.tube_spec _ _ _ _ _ _ _ _ M E) as (_ & <- & _).
  unfold tube_inertia in E. injection E as _ <- _. apply osc; lra.
Qed.
Lemma tilt_wheel X : X = "F" \/ X = "R" -> exact_wheel tilt_whole ex_bike 1 X (mkrwheel 1 1 9 12).
Proof.
  intros HX. pose proof ex_pi as P. split; [apply tilt_hc; destruct HX as [-> | ->]; cbn; tauto|]. exists 1, (2 * PI), (6 * PI). cbn [w_yy w_m w_xx rb_g ex_bike].
  repeat split; try (apply tilt_hc; destruct HX as [-> | ->]; cbn; tauto); try lra; apply osc; lra.
Qed.
Lemma tilt_orientations : orientation_names tilt_whole ["B"; "H"] (fun _ => 3%nat).
Proof.
  split; [|split; [intros; lia|]].
  - cbn [dkeys map fst tilt_whole tilt_common ex_part app append]; repeat constructor; cbn [In]; intuition discriminate.
  - intros key K S; cbn [dkeys map fst tilt_whole tilt_common ex_part app append In] in K;
    repeat (destruct K as [<-|K]; [cbn in S; first [discriminate S |
      match goal with |- context [String _ (String _ (String _ (String _ (String _ (String ?c (String ?d EmptyString))))))] =>
        exists (String c ""); first [exists 1%nat; split; [cbn; tauto | split; [lia | reflexivity]] | exists 2%nat; split; [cbn; tauto | split; [lia | reflexivity]] | exists 3%nat; split; [cbn; tauto | split; [lia | reflexivity]]] end]|]);
    contradiction.
Qed.
Lemma tilt_measured_whole : exact_measurements_whole tilt_newton tilt_whole ex_bike 1 (fun _ => 3%nat).
Proof.
  split; [|split; [|split; [|split; [|split; [|split; [|split; [|split]]]]]]].
  - intros key K. cbn [dkeys map fst tilt_whole tilt_common ex_part app append In] in K. repeat (destruct K as [<-|K]; [cbn; split; discriminate|]). contradiction.
  - apply tilt_geometry.
  - apply tilt_orientations.
  - apply tilt_hc. cbn; tauto.
  - apply tilt_rod.
  - apply tilt_wheel; auto.
  - apply tilt_wheel; auto.
  - apply ex_exact; [exact tilt_hb | reflexivity].
  - apply ex_exact; [exact tilt_hh | reflexivity].
Qed.
Lemma tilt_geometry_ok : exists p, calculate_benchmark_geometry tilt_newton tilt_whole [] = Ok p.
Proof.
  unfold calculate_benchmark_geometry, dlook.
  rewrite (tilt_hc "nF" 1), (tilt_hc "dF" (2 * PI)), (tilt_hc "nR" 1), (tilt_hc "dR" (2 * PI)), (tilt_hc "h1" 0), (tilt_hc "h2" 0), (tilt_hc "h3" 0), (tilt_hc "h4" ex_s), (tilt_hc "h5" 0),
    (tilt_hc "d1" 0), (tilt_hc "d2" 0), (tilt_hc "d3" 0), (tilt_hc "d4" 0), (tilt_hc "d" 1) by (cbn; tauto).
  cbn [bind]. rewrite !rdiv_eq by lra. cbn [bind]. change (dmem tilt_whole "w") with false. cbn iota. rewrite tilt_abc. cbn [bind].
  pose proof PI_neq0. replace (2 * PI / 2 / PI / 1) with 1 by (field; assumption). unfold lambda_from_abc. pose proof ex_s_pos. rewrite rdiv_eq by lra. cbn [bind]. rewrite tilt_guess.
  unfold tilt_newton. rewrite tilt_root. destruct (Req_EM_T 0 0) as [_|N]; [|contradiction]. cbn [bind]. unfold trail. destruct ex_pi4 as (C1 & _). rewrite C1. rewrite rdiv_eq by lra. cbn [bind]. eexists; reflexivity.
Qed.
Lemma nominal_get p k : dget (nominal_par p) k = option_map nom (dget p k).
Proof. unfold nominal_par. induction p as [|[k' u] l IH]; [reflexivity|]. cbn. destruct (String.eqb k k'); [reflexivity|exact IH]. Qed.
Lemma some_inj {A} (a b : A) : Some a = Some b -> a = b.
Proof. congruence. Qed.
Example C76_tilt_met : (forall f x r, tilt_newton f x = Ok r -> f r = Ok 0) /\ ~ In "w" (map fst tiltm)
  /\ (exists par ex t, ucalculate_benchmark_from_measured (deviations tiltm) tilt_newton (uvars tiltm) = Ok (par, ex) /\ dget par "lam" = Some t /\ nom t = PI / 4)
  /\ (forall k d, In (k, d) tiltm -> k <> "dF" -> snd d = 0) /\ (forall d, In ("dF", d) tiltm -> snd d <> 0).
Proof.
  split; [intros f x r H; apply (tilt_newton_root f x r H)|]. split; [|split; [|split]].
  - cbn. intuition discriminate.
  - destruct (C47_whole_fork_defined _ _ _ _ _ tilt_measured_whole tilt_geometry_ok) as [[par ex] E]; [apply ex_hung, tilt_hb|apply ex_hung, tilt_hh|].
    assert (F := C47_whole_fork _ _ _ _ _ _ _ tilt_measured_whole E).
    destruct (C76_defined tilt_newton tiltm par ex) as (upar & uex & U & N).
    + rewrite tiltm_values. exact E.
    + intros [S _]. cbn in S. discriminate S.
    + intros [[X _]|[(_ & X & _)|[[X _]|[X _]]]]; [| |discriminate X|discriminate X].
      * unfold pv in X. rewrite (F "xB" (0 + 3 / 5)) in X by (cbn; tauto). lra.
      * unfold pv in X. rewrite (F "xH" (1 + 3 / 5)), (F "w" 1) in X by (cbn; tauto). lra.
    + intros _. rewrite tiltm_values. unfold frame_c, frame_a, frame_b.
      rewrite (tilt_pv "h1" 0), (tilt_pv "h2" 0), (tilt_pv "h3" 0), (tilt_pv "h4" ex_s), (tilt_pv "h5" 0), (tilt_pv "d1" 0), (tilt_pv "d2" 0), (tilt_pv "d3" 0), (tilt_pv "d4" 0), (tilt_pv "d" 1) by (cbn; tauto).
      apply Rgt_not_eq, sqrt_lt_R0. pose proof ex_s2. nra.
    + assert (L : dget (nominal_par upar) "lam" = Some (PI / 4)) by (rewrite N; apply F; cbn; tauto).
      rewrite nominal_get in L. exists upar, uex. destruct (dget upar "lam") as [t|] eqn:T; [|discriminate L]. exists t. split; [exact U|]. split; [reflexivity|]. apply (some_inj _ _ L).
  - intros k d I N. unfold tiltm in I. apply in_map_iff in I. destruct I as ([k' v] & E & _). cbn in E. injection E as <- <-. cbn [snd]. apply String.eqb_neq in N. rewrite N. reflexivity.
  - intros d I. unfold tiltm in I. apply in_map_iff in I. destruct I as ([k q] & E & _). injection E as -> <-. cbn. lra.
Qed.

(* measurements of the bicycle that balances itself, each with a deviation of 1/100: its linear
   model at the speed 4, without a rider and with one *)
Definition selfm : dict (R * R) := map (fun kv => (fst kv, (snd kv, 1 / 100))) (mp_of self_T).
Lemma selfm_values : values selfm = mp_of self_T.
Proof. unfold values, selfm. rewrite map_map. cbn [fst snd]. rewrite <- (map_id (mp_of self_T)) at 2. apply map_ext. intros []; reflexivity. Qed.
Example C76_chain_met : In "w" (map fst selfm) /\ exists par ex AB u,
  ucalculate_benchmark_from_measured (deviations selfm) no_newton (uvars selfm) = Ok (par, ex)
  /\ urider par None = Ok par /\ ubicycle_state_space par 4 = Ok AB /\ entry (A_or_B true AB) 3 3 = Ok u /\ nom u = - 14.
Proof.
  split; [cbn; tauto|].
  destruct (mp_of_exact no_newton self_T self_solid) as (EX & [par ex] & E).
  assert (D : describes par self_T (rb_part self_T "H")) by exact (C47_whole_fork _ _ _ _ _ _ _ EX E).
  assert (SV : forall k, In k ("g" :: canon_keys) -> pv par k = pv self_bike k) by (intros k K; unfold pv; rewrite (self_values par D k K); reflexivity).
  destruct (C76_defined no_newton selfm par ex) as (upar & uex & U & N).
  - rewrite selfm_values. exact E.
  - intros [S _]. cbn in S. discriminate S.
  - intros [[X _]|[(_ & X & _)|[[X _]|[X _]]]]; [| |discriminate X|discriminate X].
    + rewrite SV in X by (cbn; tauto). unfold pv in X. cbn in X. lra.
    + rewrite !SV in X by (cbn; tauto). unfold pv in X. cbn in X. lra.
  - intros W. exfalso. apply W. cbn. tauto.
  - assert (CN : exists p' c, benchmark_par_to_canonical par = (p', Ok c)).
    { apply canonical_success. split.
      - intros k Hk. assert (K : dget par k = dget self_bike k) by (apply (self_values par D); right; exact Hk). destruct (dget par k) as [v|] eqn:EV; [apply dget_some_in; eauto|].
        exfalso. unfold canon_keys in Hk. cbn [In] in Hk. repeat (destruct Hk as [<-|Hk]; [discriminate K|]). contradiction.
      - unfold canon_nonzero. rewrite !SV by (cbn; tauto). unfold pv, self_bike. cbn [map fst snd dget String.eqb Ascii.eqb Bool.eqb]. repeat split; lra. }
    destruct CN as (p' & c & H).
    assert (EC : c = F_canon (pv self_bike)) by (pose proof (canon_inversion _ _ _ H) as (_ & _ & _ & EC); rewrite EC; apply values_canon; intros k K; apply SV; right; exact K).
    destruct self_state_space as (p2 & c2 & B & H2 & HA). pose proof (canon_inversion _ _ _ H2) as (_ & _ & _ & EC2). rewrite <- EC in EC2. subst c2.
    assert (SS : snd (bicycle_state_space (bench par) 4 FTrue) = Ok (self_A, B)).
    { apply (C60_state_space_is_the_standalone_function (bench par) par FTrue 4 self_A B eq_refl (or_introl eq_refl)). exists c, 10. rewrite H. split; [reflexivity|]. split; [|exact HA]. rewrite (self_values par D "g"); [reflexivity|left; reflexivity]. }
    rewrite <- N, C76_nominal_state_space in SS. destruct (ubicycle_state_space upar 4) as [[A B']|] eqn:US; [|discriminate SS].
    assert (NA : nominal_rows A = self_A) by congruence. clear SS.
    assert (EN : exists u, entry A 3 3 = Ok u /\ nom u = -14).
    { unfold nominal_rows in NA. unfold self_A in NA. destruct A as [|a1 [|a2 [|a3 [|a4 [|]]]]]; try discriminate NA. cbn [map] in NA. assert (N4 : map nom a4 = [25; -40; 5; -14]) by congruence. clear NA.
      destruct a4 as [|u1 [|u2 [|u3 [|u4 [|]]]]]; try discriminate N4. cbn [map] in N4. exists u4. split; [reflexivity|]. congruence. }
    destruct EN as (u & EU & NU). exists upar, uex, (A, B'), u. split; [exact U|]. split; [reflexivity|]. split; [exact US|]. split; [exact EU|exact NU].
Qed.
(* a rider on it, and the steered parts of the bicycle of C48 *)
Definition uncertain (p : dict R) : dict (R * R) := map (fun kv => (fst kv, (snd kv, 1 / 100))) p.
Lemma uncertain_nominal p : nominal_par (uvars (uncertain p)) = p.
Proof. unfold nominal_par, uvars, uncertain. rewrite !map_map. cbn [fst snd nom uvar]. rewrite <- (map_id p) at 2. apply map_ext. intros []; reflexivity. Qed.
Example C76_rider_met : exists par u, ucombine_bike_rider (uvars (uncertain bench07)) (exact rider07) = Ok par /\ dget par "zB" = Some u.
Proof.
  destruct C16_satisfiable as [[q E] _]. assert (M := C16_total_mass_and_centre _ _ _ E eq_refl). rewrite <- (uncertain_nominal bench07), C76_nominal_rider in E.
  destruct (ucombine_bike_rider (uvars (uncertain bench07)) (exact rider07)) as [par|] eqn:U; [|discriminate E]. exists par.
  assert (NP : q = nominal_par par) by congruence. clear E.
  destruct (dget par "zB") as [u|] eqn:Z; [exists u; split; reflexivity|]. exfalso.
  assert (G : dget q "zB" = None) by (rewrite NP, nominal_get, Z; reflexivity).
  destruct M as [_ M]. apply (f_equal vz) in M. replace (pv q "zB") with 0 in M by (unfold pv; rewrite G; reflexivity). unfold SInertia.first_moment in M. cbn in M. lra.
Qed.
Example C76_steer_met : exists J, usteer_assembly (uvars (uncertain ex48)) true true true false = Ok J.
Proof.
  assert (P : exists J, steer_assembly ex48 true true true false = Ok J).
  { apply C48_defined.
    - intros X k HX NF K. cbn in HX. destruct HX as [<-|[<-|[]]]; [|congruence]. cbn in K. cbn. tauto.
    - cbn; tauto.
    - intros _ k K. cbn in K. cbn. tauto.
    - intros _. cbn. unfold SInertia.mass_of, SInertia.sum_over. cbn. unfold pv; cbn. lra.
    - intros _. cbn. tauto. }
  destruct P as [J E]. rewrite <- (uncertain_nominal ex48), C76_nominal_steer_assembly in E. destruct (usteer_assembly (uvars (uncertain ex48)) true true true false) as [U|]; [exists U; reflexivity|discriminate E].
Qed.
Example C76_canonical_met : exists can, ubicycle_canonical (uvars (uncertain ex48c)) = Ok can.
Proof.
  destruct C48_agreement_met as (_ & par' & can & _ & E & _). assert (H : snd (bicycle_canonical (bench ex48c) FTrue) = Ok can) by (unfold bicycle_canonical, bench; cbn [dget String.eqb Ascii.eqb Bool.eqb]; rewrite E; reflexivity).
  rewrite <- (uncertain_nominal ex48c), C76_nominal_canonical in H. destruct (ubicycle_canonical (uvars (uncertain ex48c))) as [c|]; [exists c; reflexivity|discriminate H].
Qed.
