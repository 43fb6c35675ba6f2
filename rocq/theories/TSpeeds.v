(* TSpeeds.v -- C79: the speeds at which a bicycle balances itself; the shipped bicycles *)
From Coq Require Import Lra Lia.
From Verif Require Import Base MString MHeap MBicycle MVec MInertia MModels MModels2 MEig MDicts PBase SBicycle PBicycle PBicycle2 SModels SModels2 SLean SEig SStab TBicycle TEig TStab SRouth PRouth TRouth SSpeeds PSpeeds PNum PDicts PFalls.
Local Open Scope string_scope.
Local Open Scope R_scope.

Lemma canonical_pair p c : snd (benchmark_par_to_canonical p) = Ok c -> exists p', benchmark_par_to_canonical p = (p', Ok c).
Proof. destruct (benchmark_par_to_canonical p) as [q r]. cbn [snd]. intros ->. eauto. Qed.

(* the reported eigenvalues at a speed v all have negative real part, and the bicycle balances
   itself, exactly when four linear conditions and one quadratic condition hold of v^2 and
   v has the sign of the damping coefficient *)
Theorem C79_stable_speeds : forall eig ps p g l evs i c, eig_contract eig -> eig_complete eig -> dget ps "Benchmark" = Some p -> dget p "g" = Some g -> physical_bicycle p ->
  bicycle_eig eig ps (SpSeq l) = Ok evs -> (i < length l)%nat -> snd (benchmark_par_to_canonical p) = Ok c ->
  ((forall z, In z (fst (nth i evs ([], []))) -> fst z < 0) <-> stable_conditions c g (nth i l 0)) /\ (balances_itself (bike_of p) (nth i l 0) g <-> stable_conditions c g (nth i l 0)).
Proof.
  intros eig ps p g l evs i c EC CP E G PH H Hi EB. set (v := nth i l 0). destruct (canonical_pair p c EB) as (p' & EP). pose proof (speed_coefficients p p' c v g EP) as HC.
  destruct (C77_routh_hurwitz eig ps p g l evs i c _ _ _ _ _ EC CP E G PH H Hi EB HC) as (R1 & R2). fold v in R2.
  assert (X : (0 < v * damping_c c /\ 0 < second_c c g (v ^ 2) /\ 0 < v * first_c c g (v ^ 2) /\ 0 < constant_c c g (v ^ 2) /\
    inertia_c c * (v * first_c c g (v ^ 2)) ^ 2 + constant_c c g (v ^ 2) * (v * damping_c c) ^ 2 < v * first_c c g (v ^ 2) * second_c c g (v ^ 2) * (v * damping_c c)) <-> stable_conditions c g v).
  { unfold stable_conditions. pose proof (weave_product c v g) as W. set (L := v * first_c c g (v ^ 2) * second_c c g (v ^ 2) * (v * damping_c c)) in *. set (U := _ + constant_c c g (v ^ 2) * _) in *. clearbody L U. split; intros (X1 & X2 & X3 & X4 & X5); repeat (split; [assumption|]); lra. }
  split; [rewrite R1|rewrite R2]; exact X.
Qed.
Print Assumptions C79_stable_speeds.
(* a bicycle, a speed and eigenvalue routine to which it applies: all five conditions hold *)
Example C79_speed : stable_conditions (F_canon (pv self_bike)) 10 4.
Proof.
  apply (proj2 (C79_stable_speeds self_eig [("Benchmark", self_bike)] self_bike 10 [4] [(self_w, self_V)] 0 _ self_contract self_complete eq_refl eq_refl self_physical self_reported ltac:(cbn; lia) self_canon)).
  exact (proj1 (proj2 (proj2 (proj2 C77_bicycle)))).
Qed.

(* one of the conditions violated: an eigenvalue with positive real part is reported and the
   bicycle falls over *)
Theorem C79_falls_over : forall eig ps p g l evs i c, eig_contract eig -> eig_complete eig -> dget ps "Benchmark" = Some p -> dget p "g" = Some g -> physical_bicycle p ->
  bicycle_eig eig ps (SpSeq l) = Ok evs -> (i < length l)%nat -> snd (benchmark_par_to_canonical p) = Ok c ->
  violated c g (nth i l 0) -> (exists z, In z (fst (nth i evs ([], []))) /\ 0 < fst z) /\ falls_over (bike_of p) (nth i l 0) g.
Proof.
  intros eig ps p g l evs i c EC CP E G PH H Hi EB VI. destruct (canonical_pair p c EB) as (p' & EP). pose proof (speed_coefficients p p' c (nth i l 0) g EP) as HC.
  destruct (spectrum_poly eig ps p g l evs i c _ _ _ _ _ EC CP E G H Hi EB HC) as (A4 & N4 & LW & HP).
  assert (P4 : 0 < inertia_c c) by (rewrite A4; exact (mass_det p p' c EP PH)).
  assert (Z : exists z, In z (fst (nth i evs ([], []))) /\ 0 < fst z).
  { destruct (Exists_dec (fun z : cplx => 0 < fst z) (fst (nth i evs ([], [])))) as [X|X]; [intros z; destruct (Rlt_dec 0 (fst z)); [left|right]; assumption|apply Exists_exists in X; exact X|exfalso].
    assert (N : forall z, In z (fst (nth i evs ([], []))) -> fst z <= 0) by (intros z Hz; apply Rnot_lt_le; intros L; apply X, Exists_exists; exists z; split; assumption).
    destruct (factors_weak _ _ _ _ _ LW HP N) as (P & q & r & t & E3 & E2 & E1 & E0 & W1 & W2 & W3 & W4). destruct (routh_weak P q r t W1 W2 W3 W4) as (B3 & B2 & B1 & B0 & B). rewrite <- E3, <- E2, <- E1, <- E0 in *. clear E3 E2 E1 E0 W1 W2 W3 W4 X N HP LW HC.
    pose proof (weave_product c (nth i l 0) g) as WP. set (a4 := inertia_c c) in *. set (a3 := nth i l 0 * damping_c c) in *. set (a2 := second_c _ _ _) in *. set (a1 := nth i l 0 * first_c c g _) in *. set (a0 := constant_c _ _ _) in *.
    assert (ND : forall x, 0 <= x / a4 -> 0 <= x) by (intros x Y; apply (Rmult_le_compat_r a4) in Y; [|lra]; replace (x / a4 * a4) with x in Y by (field; exact N4); lra).
    apply ND in B3, B2, B1, B0. assert (DD : a1 / a4 * (a2 / a4) * (a3 / a4) - ((a1 / a4) ^ 2 + a0 / a4 * (a3 / a4) ^ 2) = (a1 * a2 * a3 - (a4 * a1 ^ 2 + a0 * a3 ^ 2)) / a4 / a4 / a4) by (field; exact N4).
    assert (B' : 0 <= (a1 * a2 * a3 - (a4 * a1 ^ 2 + a0 * a3 ^ 2)) / a4 / a4 / a4) by lra. do 3 apply ND in B'. rewrite WP in B'. unfold violated in VI. fold a3 a2 a1 a0 in VI. destruct VI as [V|[V|[V|[V|V]]]]; lra. }
  split; [exact Z|]. destruct Z as (z & Hz & PZ). exact (C71_positive_real_part_falls_over eig ps p g l evs i z EC E G H Hi Hz PZ).
Qed.
Print Assumptions C79_falls_over.

(* no bicycle balances itself standing still, and none in both directions *)
Theorem C79_not_standing_still : forall eig ps p g l evs i c, eig_contract eig -> eig_complete eig -> dget ps "Benchmark" = Some p -> dget p "g" = Some g -> physical_bicycle p ->
  bicycle_eig eig ps (SpSeq l) = Ok evs -> (i < length l)%nat -> snd (benchmark_par_to_canonical p) = Ok c ->
  (nth i l 0 = 0 -> ~ balances_itself (bike_of p) (nth i l 0) g) /\
  (forall j, (j < length l)%nat -> nth i l 0 * nth j l 0 < 0 -> balances_itself (bike_of p) (nth i l 0) g -> ~ balances_itself (bike_of p) (nth j l 0) g).
Proof.
  intros eig ps p g l evs i c EC CP E G PH H Hi EB. pose proof (proj2 (C79_stable_speeds eig ps p g l evs i c EC CP E G PH H Hi EB)) as R1. unfold stable_conditions in R1. split.
  - intros Z B. apply R1 in B. destruct B as (B & _). rewrite Z in B. lra.
  - intros j Hj N B1 B2. pose proof (proj2 (C79_stable_speeds eig ps p g l evs j c EC CP E G PH H Hj EB)) as R2. unfold stable_conditions in R2. apply R1 in B1. apply R2 in B2. destruct B1 as (B1 & _). destruct B2 as (B2 & _).
    set (x := nth i l 0) in *. set (y := nth j l 0) in *. set (d := damping_c c) in *. assert (P : 0 < (x * d) * (y * d)) by (apply Rmult_lt_0_compat; assumption). replace (x * d * (y * d)) with (d ^ 2 * (x * y)) in P by ring. pose proof (pow2_ge_0 d). nra.
Qed.
Print Assumptions C79_not_standing_still.

(* the shipped bicycles and the one of the published benchmark *)
Definition published_windows : list (dict R * (R * R) * (R * R)) :=
  [(meijaard2007_browser_jason, (49978 / 10000, 49979 / 10000), (711 / 100, 71101 / 10000));
   (meijaard2007_browser_jasonlegs, (4639 / 1000, 46392 / 10000), (58806 / 10000, 58807 / 10000));
   (bench07, (4292 / 1000, 4293 / 1000), (6024 / 1000, 6025 / 1000))].
Lemma published_ok p w1 w2 : In (p, w1, w2) published_windows -> dget p "g" = Some (981 / 100) /\ physical_bicycle p /\ snd (benchmark_par_to_canonical p) = Ok (F_canon (pv p)).
Proof.
  intros H. unfold published_windows in H. cbn [In] in H. destruct H as [H|[H|[H|[]]]]; injection H as <- _ _.
  all: split; [reflexivity|]; split;
    [unfold physical_bicycle, bike_of, rear_wheel, rear_frame, front_frame, front_wheel, physical, pv, meijaard2007_browser_jason, meijaard2007_browser_jasonlegs, bench07;
     cbn [k_bodies b_m b_Ixx b_Izz b_Ixz dget String.eqb Ascii.eqb Bool.eqb]; split; [repeat constructor; cbn [b_m b_Ixx b_Izz b_Ixz]; lra|lra]
    |rewrite canon_forward; [reflexivity| |]].
  all: try (intros k Hk; unfold canon_keys in Hk; unfold meijaard2007_browser_jason, meijaard2007_browser_jasonlegs, bench07, dkeys; cbn [In map fst] in *; repeat (destruct Hk as [Hk|Hk]; [subst k; tauto|]); contradiction).
  all: unfold canon_nonzero, pv, meijaard2007_browser_jason, meijaard2007_browser_jasonlegs, bench07; cbn [map fst snd dget String.eqb Ascii.eqb Bool.eqb]; repeat split; lra.
Qed.
Lemma published_window p lo hi lo2 hi2 : In (p, (lo, hi), (lo2, hi2)) published_windows -> exists vw vc, lo <= vw < hi /\ lo2 < vc < hi2 /\
  forall v, (stable_conditions (F_canon (pv p)) (981 / 100) v <-> vw < v < vc) /\ (v < vw \/ vc < v -> violated (F_canon (pv p)) (981 / 100) v).
Proof.
  intros H. unfold published_windows in H. cbn [In] in H. destruct H as [H|[H|[H|[]]]]; injection H as <- <- <- <- <-.
  - destruct jason_window as (vw & vc & W1 & W2 & W). exists vw, vc. split; [lra|]. split; [lra|exact W].
  - destruct legs_window as (vw & vc & W1 & W2 & W). exists vw, vc. split; [lra|]. split; [lra|exact W].
  - destruct bench_window as (vw & vc & W1 & W2 & W). exists vw, vc. split; [lra|]. split; [lra|exact W].
Qed.
(* each balances itself exactly between its weave and its capsize speed, which lie in the
   brackets given, and falls over at every other speed (forwards, backwards and standing
   still) except these two *)
Theorem C79_shipped_bicycles : forall p lo hi lo2 hi2, In (p, (lo, hi), (lo2, hi2)) published_windows -> exists vw vc, lo <= vw < hi /\ lo2 < vc < hi2 /\
  forall eig ps l evs i, eig_contract eig -> eig_complete eig -> dget ps "Benchmark" = Some p -> bicycle_eig eig ps (SpSeq l) = Ok evs -> (i < length l)%nat ->
    ((forall z, In z (fst (nth i evs ([], []))) -> fst z < 0) <-> vw < nth i l 0 < vc) /\ (balances_itself (bike_of p) (nth i l 0) (981 / 100) <-> vw < nth i l 0 < vc) /\
    (nth i l 0 < vw \/ vc < nth i l 0 -> (exists z, In z (fst (nth i evs ([], []))) /\ 0 < fst z) /\ falls_over (bike_of p) (nth i l 0) (981 / 100)).
Proof.
  intros p lo hi lo2 hi2 HIn. destruct (published_ok p _ _ HIn) as (G & PH & EB). destruct (published_window p lo hi lo2 hi2 HIn) as (vw & vc & W1 & W2 & W). exists vw, vc. split; [exact W1|]. split; [exact W2|].
  intros eig ps l evs i EC CP E H Hi. destruct (C79_stable_speeds eig ps p _ l evs i _ EC CP E G PH H Hi EB) as (R1 & R2). destruct (W (nth i l 0)) as (V1 & V2). rewrite V1 in R1, R2. split; [exact R1|]. split; [exact R2|].
  intros X. exact (C79_falls_over eig ps p _ l evs i _ EC CP E G PH H Hi EB (V2 X)).
Qed.
Print Assumptions C79_shipped_bicycles.

(* the two shipped dictionaries of the same bicycle exchange the wheels' Ixx and nothing else of the wheels *)
Theorem C79_wheels_exchanged :
  dget meijaard2007_browser_jason "IRxx" = dget meijaard2007_browser_jasonlegs "IFxx" /\ dget meijaard2007_browser_jason "IFxx" = dget meijaard2007_browser_jasonlegs "IRxx" /\
  pv meijaard2007_browser_jason "IRxx" <> pv meijaard2007_browser_jasonlegs "IRxx" /\
  (forall k, In k ["mR"; "mF"; "rR"; "rF"; "IRyy"; "IFyy"; "mH"; "xH"; "zH"; "IHxx"; "IHyy"; "IHzz"; "IHxz"; "w"; "c"; "lam"; "g"] -> dget meijaard2007_browser_jason k = dget meijaard2007_browser_jasonlegs k).
Proof.
  split; [reflexivity|]. split; [reflexivity|]. split; [unfold pv, meijaard2007_browser_jason, meijaard2007_browser_jasonlegs; cbn [dget String.eqb Ascii.eqb Bool.eqb]; lra|].
  intros k K. cbn [In] in K. repeat (destruct K as [<-|K]; [reflexivity|]). contradiction.
Qed.
Print Assumptions C79_wheels_exchanged.
