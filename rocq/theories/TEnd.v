(* TEnd.v -- C73: from the measurements of a real bicycle to the stability of that bicycle *)
From Coq Require Import Lra Lia.
From Verif Require Import Base MString MIo MPeriod MMain MState MHeap MBicycle MVec MInertia MModels MModels2 MEig PBase SBicycle SInertia SModels SModels2 SEig PBicycle PEig SStab TStab SMain TMain TInertia
  SIo SState TState PIo SEnd.
Local Open Scope string_scope.
Local Open Scope R_scope.

Lemma dget_noms d k : dget (noms d) k = option_map nom (dget d k).
Proof. induction d as [|[k' v] d IH]; [reflexivity|]. cbn [noms map dget fst snd]. destruct (String.eqb k k'); [reflexivity|exact IH]. Qed.
Lemma dget_sets (d : dict (dict pval)) k : dget (map (fun kv => (fst kv, noms (snd kv))) d) k = option_map noms (dget d k).
Proof. induction d as [|[k' v] d IH]; [reflexivity|]. cbn [map dget fst snd]. destruct (String.eqb k k'); [reflexivity|exact IH]. Qed.
Lemma dget_pv (d : dict R) k v : dget d k = Some v -> pv d k = v.
Proof. intros E. unfold pv. rewrite E. reflexivity. Qed.

Lemma same_coasts k k' v g : (forall phi phi1 phi2 del del1 del2 Tphi Tdel, newton_euler k v g phi phi1 phi2 del del1 del2 Tphi Tdel <-> newton_euler k' v g phi phi1 phi2 del del1 del2 Tphi Tdel) ->
  forall phi phi1 del del1, coasts k v g phi phi1 del del1 <-> coasts k' v g phi phi1 del del1.
Proof.
  intros H phi phi1 del del1. split; intros (phi2 & del2 & C); exists phi2, del2; intros t Ht; destruct (C t Ht) as (A1 & A2 & A3 & A4 & A5); repeat (split; [assumption|]); apply H; exact A5.
Qed.
Lemma same_balances k k' v g : (forall phi phi1 del del1, coasts k v g phi phi1 del del1 <-> coasts k' v g phi phi1 del del1) -> (balances_itself k v g <-> balances_itself k' v g).
Proof.
  intros H. split; intros (C & mu & P & B); exists C, mu; (split; [exact P|]); intros phi phi1 del del1 CO; apply B, H, CO.
Qed.
Lemma same_falls k k' v g : (forall phi phi1 del del1, coasts k v g phi phi1 del del1 <-> coasts k' v g phi phi1 del del1) -> falls_over k v g -> falls_over k' v g.
Proof.
  intros H F e He. destruct (F e He) as (phi & phi1 & del & del1 & CO & REST). exists phi, phi1, del, del1. split; [apply H, CO|exact REST].
Qed.

Lemma tells eig ps p g l evs : eig_contract eig -> eig_complete eig -> dget ps "Benchmark" = Some p -> dget p "g" = Some g -> bicycle_eig eig ps (SpSeq l) = Ok evs -> tells_stability (bike_of p) g l evs.
Proof.
  intros EC CP EP EG E. split.
  - destruct (eig_rows eig ps l evs EC E) as (L & _). exact L.
  - intros i Hi. split; [exact (C71_balances_itself_iff_all_real_parts_are_negative eig ps p g l evs i EC CP EP EG E Hi)|].
    intros (z & Hz & P). exact (C71_positive_real_part_falls_over eig ps p g l evs i z EC EP EG E Hi Hz P).
Qed.
Lemma eig_canonical eig ps p l evs : dget ps "Benchmark" = Some p -> bicycle_eig eig ps (SpSeq l) = Ok evs -> exists p' c, benchmark_par_to_canonical p = (p', Ok c).
Proof.
  intros E H. unfold bicycle_eig, dlook in H. rewrite E in H. cbn [bind] in H. destruct (benchmark_par_to_canonical p) as [p' r]. apply bind_ok in H. destruct H as (c & -> & _). eauto.
Qed.

(* the parameters of the real bicycle *)
Definition describes (p : dict R) (T : rbike) (H : rbody) : Prop :=
  forall key v, In (key, v) (common_entries T ++ body_entries "H" H)%list -> dget p key = Some v.
Ltac find_in := cbn [common_entries wheel_entries body_entries app append In]; repeat (first [left; reflexivity | right]).
Lemma describes_values p T H : describes p T H -> bike_of p = real_bike T H /\ forall r rd, exact_rider r rd -> with_rider p r = ridden_bike T H rd.
Proof.
  intros D.
  assert (E0 : pv p "w" = rb_w T) by (apply dget_pv, D; find_in).
  assert (E1 : pv p "c" = rb_c T) by (apply dget_pv, D; find_in).
  assert (E2 : pv p "lam" = rb_lam T) by (apply dget_pv, D; find_in).
  assert (E3 : pv p "rF" = w_r (rb_F T)) by (apply dget_pv, D; find_in).
  assert (E4 : pv p "mF" = w_m (rb_F T)) by (apply dget_pv, D; find_in).
  assert (E5 : pv p "IFxx" = w_xx (rb_F T)) by (apply dget_pv, D; find_in).
  assert (E6 : pv p "IFyy" = w_yy (rb_F T)) by (apply dget_pv, D; find_in).
  assert (E7 : pv p "rR" = w_r (rb_R T)) by (apply dget_pv, D; find_in).
  assert (E8 : pv p "mR" = w_m (rb_R T)) by (apply dget_pv, D; find_in).
  assert (E9 : pv p "IRxx" = w_xx (rb_R T)) by (apply dget_pv, D; find_in).
  assert (E10 : pv p "IRyy" = w_yy (rb_R T)) by (apply dget_pv, D; find_in).
  assert (E11 : pv p "mB" = b_m (rb_part T "B")) by (apply dget_pv, D; find_in).
  assert (E12 : pv p "xB" = b_x (rb_part T "B")) by (apply dget_pv, D; find_in).
  assert (E13 : pv p "zB" = b_z (rb_part T "B")) by (apply dget_pv, D; find_in).
  assert (E14 : pv p "IBxx" = b_xx (rb_part T "B")) by (apply dget_pv, D; find_in).
  assert (E15 : pv p "IBxz" = b_xz (rb_part T "B")) by (apply dget_pv, D; find_in).
  assert (E16 : pv p "IBzz" = b_zz (rb_part T "B")) by (apply dget_pv, D; find_in).
  assert (E17 : pv p "mH" = b_m H) by (apply dget_pv, D; find_in).
  assert (E18 : pv p "xH" = b_x H) by (apply dget_pv, D; find_in).
  assert (E19 : pv p "zH" = b_z H) by (apply dget_pv, D; find_in).
  assert (E20 : pv p "IHxx" = b_xx H) by (apply dget_pv, D; find_in).
  assert (E21 : pv p "IHxz" = b_xz H) by (apply dget_pv, D; find_in).
  assert (E22 : pv p "IHzz" = b_zz H) by (apply dget_pv, D; find_in).
  split.
  - unfold bike_of, real_bike, rear_wheel, rear_frame, front_frame, front_wheel, rolling, rigid. rewrite E0, E1, E2, E3, E4, E5, E6, E7, E8, E9, E10, E11, E12, E13, E14, E15, E16, E17, E18, E19, E20, E21, E22. reflexivity.
  - intros r rd X.
    assert (R0 : pv r "mB" = b_m rd) by (apply dget_pv, (proj2 X); find_in).
    assert (R1 : pv r "xB" = b_x rd) by (apply dget_pv, (proj2 X); find_in).
    assert (R2 : pv r "zB" = b_z rd) by (apply dget_pv, (proj2 X); find_in).
    assert (R3 : pv r "IBxx" = b_xx rd) by (apply dget_pv, (proj2 X); find_in).
    assert (R4 : pv r "IBxz" = b_xz rd) by (apply dget_pv, (proj2 X); find_in).
    assert (R5 : pv r "IBzz" = b_zz rd) by (apply dget_pv, (proj2 X); find_in).
    unfold with_rider, ridden_bike, rear_wheel, rear_frame, front_frame, front_wheel, rolling, rigid. rewrite E0, E1, E2, E3, E4, E5, E6, E7, E8, E9, E10, E11, E12, E13, E14, E15, E16, E17, E18, E19, E20, E21, E22, R0, R1, R2, R3, R4, R5. reflexivity.
Qed.
Lemma describes_g p T H : describes p T H -> dget p "g" = Some (rb_g T).
Proof. intros D. apply D. find_in. Qed.

(* exact measurements give the parameters of the real bicycle *)
Lemma calculated newton mp T par ex : calculate_benchmark_from_measured newton mp = Ok (par, ex) -> exact_measurements newton mp T ->
  exists H, handlebar_assembly newton mp T H /\ describes par T H.
Proof.
  intros E (k & n & [X|X]).
  - exists (rb_part T "H"). split; [left; split; [eauto|reflexivity]|]. exact (C47_whole_fork newton mp T k n par ex X E).
  - destruct (C47_split_fork newton mp T k n par ex X E) as (H & U & V). exists H. split; [right; eauto|]. intros key v IN. apply V. apply in_app_or in IN. destruct IN as [IN|IN]; [apply in_or_app; left; exact IN|].
    apply in_or_app. right. apply in_or_app. right. apply in_or_app. right. exact IN.
Qed.

Lemma updated_two {V} (d : dict V) a b : dget (updated d [("Measured", a); ("Benchmark", b)]) "Benchmark" = Some b /\ dget (updated d [("Measured", a); ("Benchmark", b)]) "Measured" = Some a.
Proof. unfold updated. cbn [fold_left fst snd]. rewrite !dget_dset. cbn. auto. Qed.

(* the benchmark parameters of a Bicycle object calculated from measurements *)
Lemma object_benchmark (E X : Type) other (calc : dict pval -> res (dict pval * E)) decode str fs name data forceRaw forcePeriod (b : bicycle_obj E X) fs' :
  no_io other -> new_bicycle X other calc decode str fs name data forceRaw forcePeriod = (Ok b, fs') -> from_measurements other fs name data forceRaw ->
  exists m bench ex, let rawDir := os_join (os_join (os_join data "bicycles") name) "RawData" in
    measurements other decode str fs rawDir (os_join rawDir (name ++ "Measured.txt")) forcePeriod m fs' /\ calc m = Ok (bench, ex) /\
    dget (bo_par b) "Benchmark" = Some bench /\ dget (bo_par b) "Measured" = Some m /\ bo_hasRider b = false.
Proof.
  intros NIO K FM. apply C43_decision_table in K; [|exact NIO]. destruct K as [dir rawDir mfile ps par extras -> -> -> _ SS _ -> CASES]. cbn [bo_par bo_hasRider].
  destruct CASES as [(-> & IN & _)|[(_ & m & bench & ex & M & EC & -> & _)|(-> & N & _)]].
  - destruct FM as [(? & _)|(_ & NO)]; [discriminate|]. contradiction (NO ps SS).
  - exists m, bench, ex. split; [exact M|]. split; [exact EC|]. destruct (updated_two ps m bench) as (U1 & U2). auto.
  - destruct FM as [(_ & E1 & E2)|(? & _)]; [|discriminate]. contradiction N. auto.
Qed.

(* ---- the theorems ---- *)
(* A Bicycle object calculated from the exact measurements of a real bicycle: the
   eigenvalues it reports tell at which speeds that bicycle balances itself. *)
Theorem C73_measured_bicycle : forall newton (E X : Type) other (calc : dict pval -> res (dict pval * E)) decode str fs name data forceRaw forcePeriod (b : bicycle_obj E X) fs' eig l evs,
  no_io other -> nominal_calc (calculate_benchmark_from_measured newton) calc -> eig_contract eig -> eig_complete eig ->
  new_bicycle X other calc decode str fs name data forceRaw forcePeriod = (Ok b, fs') -> from_measurements other fs name data forceRaw ->
  bicycle_eig eig (nominal_sets b) (SpSeq l) = Ok evs ->
  exists m, let rawDir := os_join (os_join (os_join data "bicycles") name) "RawData" in
    measurements other decode str fs rawDir (os_join rawDir (name ++ "Measured.txt")) forcePeriod m fs' /\
    forall T, exact_measurements newton (noms m) T -> exists Hb, handlebar_assembly newton (noms m) T Hb /\ tells_stability (real_bike T Hb) (rb_g T) l evs.
Proof.
  intros newton E X other calc decode str fs name data fr fp b fs' eig l evs NIO NC EC CP K FM EV.
  destruct (object_benchmark E X other calc decode str fs name data fr fp b fs' NIO K FM) as (m & bench & ex & M & CM & BB & _ & _).
  exists m. split; [exact M|]. intros T EX. destruct (NC m bench ex CM) as (ex' & CR). destruct (calculated newton (noms m) T (noms bench) ex' CR EX) as (Hb & HA & D).
  exists Hb. split; [exact HA|]. rewrite <- (proj1 (describes_values _ _ _ D)). apply (tells eig (nominal_sets b) (noms bench)); auto.
  - unfold nominal_sets. rewrite dget_sets, BB. reflexivity.
  - exact (describes_g _ _ _ D).
Qed.
Print Assumptions C73_measured_bicycle.

(* ... and after a rider with exactly known parameters got on, the eigenvalues tell at
   which speeds the bicycle with this rider, sitting rigidly on it, balances itself *)
Theorem C73_ridden_bicycle : forall newton (E X : Type) other (calc : dict pval -> res (dict pval * E)) decode str combine configure fs name data forceRaw forcePeriod (b : bicycle_obj E X) fs' c b' eig l evs,
  no_io other -> nominal_calc (calculate_benchmark_from_measured newton) calc -> nominal_combine combine_bike_rider combine -> eig_contract eig -> eig_complete eig ->
  new_bicycle X other calc decode str fs name data forceRaw forcePeriod = (Ok b, fs') -> from_measurements other fs name data forceRaw ->
  add_rider other combine configure b (rc_fs c) (rc_name c) (rc_recalc c) (rc_draw c) = (b', Ok tt) ->
  bicycle_eig eig (nominal_sets b') (SpSeq l) = Ok evs ->
  exists m bench rp human, let rawDir := os_join (os_join (os_join data "bicycles") name) "RawData" in
    measurements other decode str fs rawDir (os_join rawDir (name ++ "Measured.txt")) forcePeriod m fs' /\
    dget (bo_par b) "Benchmark" = Some bench /\ rider_parameters other configure b c bench rp human /\
    forall T rd, exact_measurements newton (noms m) T -> exact_rider (noms rp) rd ->
      exists Hb, handlebar_assembly newton (noms m) T Hb /\ tells_stability (ridden_bike T Hb rd) (rb_g T) l evs.
Proof.
  intros newton E X other calc decode str combine configure fs name data fr fp b fs' c b' eig l evs NIO NC NB EC CP K FM AR EV.
  destruct (object_benchmark E X other calc decode str fs name data fr fp b fs' NIO K FM) as (m & bench & ex & M & CM & BB & _ & NR).
  apply C44_success in AR; [|exact NIO|exact NR]. destruct AR as (bench' & rp & human & both & EB & RP & CO & ->). assert (bench' = bench) as -> by congruence.
  exists m, bench, rp, human. split; [exact M|]. split; [exact EB|]. split; [exact RP|]. intros T rd EX ER.
  destruct (NC m bench ex CM) as (ex' & CR). destruct (calculated newton (noms m) T (noms bench) ex' CR EX) as (Hb & HA & D).
  exists Hb. split; [exact HA|]. rewrite <- (proj2 (describes_values _ _ _ D) (noms rp) rd ER). apply NB in CO.
  set (ps := nominal_sets _) in EV. assert (EP : dget ps "Benchmark" = Some (noms both)).
  { unfold ps, nominal_sets. cbn [bo_par]. rewrite dget_sets. unfold updated. cbn [fold_left fst snd]. rewrite dget_dset_eq. reflexivity. }
  assert (EG : dget (noms both) "g" = Some (rb_g T)).
  { rewrite (C16_nothing_else_changes _ _ _ "g" CO); [exact (describes_g _ _ _ D)|]. cbn. intuition discriminate. }
  pose proof (tells eig ps (noms both) (rb_g T) l evs EC CP EP EG EV) as (TL & TS).
  destruct (eig_canonical eig ps (noms both) l evs EP EV) as (q' & cc & QC).
  assert (SAME : forall v phi phi1 del del1, coasts (bike_of (noms both)) v (rb_g T) phi phi1 del del1 <-> coasts (with_rider (noms bench) (noms rp)) v (rb_g T) phi phi1 del del1).
  { intros v. apply same_coasts. intros. rewrite (canonical_newton_euler _ _ _ QC). symmetry. apply (C16_dynamics_with_rigid_rider (noms bench) (noms rp) (noms both) q' cc CO); [|exact QC]. apply dget_pv, (proj1 ER). }
  split; [exact TL|]. intros i Hi. destruct (TS i Hi) as (T1 & T2). split.
  - rewrite <- T1. apply same_balances. intros. symmetry. apply SAME.
  - intros P. apply (same_falls _ _ _ _ (SAME _)), T2, P.
Qed.
Print Assumptions C73_ridden_bicycle.
