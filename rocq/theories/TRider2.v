(* TRider2.v -- C54: the bicycle with the configured rider *)
From Coq Require Import Lra.
From Verif Require Import Base PBase MString MVec MInertia MBicycle MRider SBicycle SInertia SRider SRider2 PBicycle PInertia PInertia3 TBicycle TInertia TRider.
Local Open Scope string_scope.
Local Open Scope R_scope.

Lemma pv_some d k v : dget d k = Some v -> pv d k = v.
Proof. unfold pv. intros ->. reflexivity. Qed.

Theorem C54_ridden_bicycle : forall mass com inertia fsolve h measured benchmark par h' p q, numbers measured -> numbers benchmark ->
  rider_parameters mass com inertia fsolve h benchmark measured = Ok (par, h') -> mirror_symmetric (com h') (inertia h') -> combine_bike_rider p par = Ok q ->
  exists rp, bike_lengths rp measured benchmark /\ vy (on_bike rp (com h')) = 0 /\
    (forall o n, bench_moment q "B" o n = bench_moment p "B" o n + rigid_moment (mass h') (on_bike rp (com h')) (figure_moment (inertia h')) o n) /\
    (forall q' c, benchmark_par_to_canonical q = (q', Ok c) -> forall v g phi phi1 phi2 del del1 del2 Tphi Tdel,
       newton_euler (mkbike (pv p "w") (pv p "c") (pv p "lam") [rear_wheel p; rear_frame p; figure_body rp (mass h') (com h') (inertia h'); front_frame p; front_wheel p]) v g phi phi1 phi2 del del1 del2 Tphi Tdel <->
       eom (cM c) (cC1 c) (cK0 c) (cK2 c) v g phi del phi1 del1 phi2 del2 Tphi Tdel).
Proof.
  intros mass com inertia fsolve h m b par h' p q Nm Nb H (S1 & S2 & S3 & S4 & S5 & S6) HC.
  destruct (C54_rider_parameters _ _ _ _ _ _ _ _ _ Nm Nb H) as (_ & (rp & L & X & Y & Z) & M & IX & IY & IZ & IXZ).
  apply pv_some in X, Y, Z, M, IX, IY, IZ, IXZ. assert (Y0 : vy (on_bike rp (com h')) = 0) by (unfold on_bike; cbn [vy]; rewrite S1; unfold hips; cbn [vy]; lra).
  rewrite Y0 in Y. exists rp. split; [exact L|]. split; [exact Y0|]. split.
  - intros o n. rewrite (C16_inertia_about_every_axis p par q o n HC Y). f_equal. unfold bench_moment. cbn [append]. rewrite M, X, Z, IX, IY, IZ, IXZ. unfold rigid_moment. f_equal.
    + unfold figure_moment, in_yeadon, m3_app, v3_dot. cbn [vx vy vz]. rewrite S2, S3, S4, S5, S6. ring.
    + f_equal. f_equal. f_equal. f_equal. rewrite <- Y0. unfold on_bike. reflexivity.
  - intros q' c EC v g phi phi1 phi2 del del1 del2 Tphi Tdel. rewrite <- (C16_dynamics_with_rigid_rider p par q q' c HC Y EC). unfold with_rider, figure_body. rewrite M, X, Z, IX, IZ, IXZ.
    replace (figure_moment (inertia h') (mk3 1 0 0)) with (vy (r2 (inertia h'))) by (unfold figure_moment, in_yeadon, m3_app, v3_dot; cbn [vx vy vz]; ring).
    replace (figure_moment (inertia h') (mk3 0 0 1)) with (vz (r3 (inertia h'))) by (unfold figure_moment, in_yeadon, m3_app, v3_dot; cbn [vx vy vz]; ring).
    replace ((figure_moment (inertia h') (mk3 1 0 1) - vy (r2 (inertia h')) - vz (r3 (inertia h'))) / 2) with (vy (r3 (inertia h'))) by (unfold figure_moment, in_yeadon, m3_app, v3_dot; cbn [vx vy vz]; rewrite S6; field).
    tauto.
Qed.
Print Assumptions C54_ridden_bicycle.

(* the small bicycle of C54_example with its rider *)
Example C54_ridden : exists par h' q, rider_parameters (fun _ => 70) (fun _ => mk3 0 (1 / 10) (1 / 2)) (fun _ => mk33 (mk3 8 0 0) (mk3 0 9 1) (mk3 0 1 2))
    (fun _ _ => Ok (mku 0 0 0 0 0 0 0 1 (-1) 1)) ex_human ex_benchmark ex_measured = Ok (par, h') /\
  mirror_symmetric (mk3 0 (1 / 10) (1 / 2)) (mk33 (mk3 8 0 0) (mk3 0 9 1) (mk3 0 1 2)) /\ combine_bike_rider bench07 par = Ok q.
Proof.
  destruct ex_numbers as [A B]. destruct ex_lengths as [L [_ [CS _]]]. destruct C54_example as (h' & E & _).
  set (c := on_bike ex_par (mk3 0 (1 / 10) (1 / 2))).
  assert (EC : yeadon_vec_to_bicycle_vec (mk3 0 (1 / 10) (1 / 2)) ex_measured ex_benchmark = Ok c) by (apply (C51_value _ _ _ _ A B); exists ex_par; auto).
  unfold rider_parameters. rewrite E. cbn [bind]. rewrite EC. cbn [bind].
  match goal with |- context [Ok (?par, h')] => assert (X : exists q, combine_bike_rider bench07 par = Ok q) end.
  { apply C16_defined_iff. repeat split.
    - intros k Hk. cbn [In bike_keys dkeys map bench07 fst] in *. intuition (subst; auto 30).
    - intros k Hk. cbn [In rider_keys dkeys map fst] in *. intuition.
    - unfold pv, bench07. cbn [dget String.eqb Ascii.eqb Bool.eqb]. lra. }
  destruct X as (q & X). eexists _, h', q. split; [reflexivity|]. split; [unfold mirror_symmetric; cbn [vx vy vz r1 r2 r3]; repeat split; lra|exact X].
Qed.
