(* TDicts.v -- C80: the shipped parameter dictionaries describe the same bicycle *)
From Coq Require Import Lra Lia.
From Verif Require Import Base MString MBicycle MDicts PBase SBicycle SLean2 MInertia MVec PNum PDicts SDicts SInertia TInertia.
Local Open Scope string_scope.
Local Open Scope R_scope.

Lemma close_i e x y : x - y <= e -> y - x <= e -> close e x y.
Proof. intros A B. unfold close. apply Rabs_le. lra. Qed.
Lemma Rabs_def2' x e : Rabs x <= e -> - e <= x <= e.
Proof. intros H. split; [|exact (Rle_trans _ _ _ (RRle_abs x) H)]. pose proof (RRle_abs (- x)) as N. rewrite Rabs_Ropp in N. lra. Qed.
Definition lean_values : string -> R := pv mooreriderlean2012_browser_jason.
Definition legs_lam : R := pv meijaard2007_browser_jasonlegs "lam".

(* the rider lean dictionary without its rider is the bicycle with the rider's legs: same
   wheelbase, trail and bodies up to 1e-10, and both wheels stand on the ground *)
Theorem C80_lean_set_is_the_bicycle_with_legs :
  let k := lean_bike lean_values legs_lam in let b := bike_of meijaard2007_browser_jasonlegs in
  close (1 / 10 ^ 10) (rb_w k) (k_w b) /\ close (1 / 10 ^ 10) (rb_t k) (k_c b * cos (k_lam b)) /\ rb_lam k = k_lam b /\
  Forall2 (body_close (1 / 10 ^ 10)) (rb_bodies k) (k_bodies b) /\
  close (1 / 10 ^ 10) (lean_values "rr" + (lean_values "d1" + lean_values "d3") * sin legs_lam - lean_values "d2" * cos legs_lam) (lean_values "rf") /\
  pv mooreriderlean2012_browser_jason "g" = pv meijaard2007_browser_jasonlegs "g".
Proof.
  pose proof legs_sine as HS. pose proof legs_cosine as HK. unfold lean_bike, lean_bodies, bike_of, rear_wheel, rear_frame, front_frame, front_wheel, body_of, upright, px, pz, lean_values, legs_lam.
  cbv zeta. cbn [rb_w rb_t rb_lam rb_bodies k_w k_c k_lam k_bodies].
  unfold pv, mooreriderlean2012_browser_jason, meijaard2007_browser_jasonlegs. cbn [dget String.eqb Ascii.eqb Bool.eqb].
  revert HS HK. set (s := sin _). set (k := cos _). clearbody s k. intros HS HK.
  assert (H1 : near (3 / 1000000000000) (s * s) (15141744857293 / 100000000000000)) by (apply (near_mul (1 / 1000000000000) (1 / 1000000000000) _ (1 / 2) (1 / 2) _ (1216012344189 / 3125000000000) _ (1216012344189 / 3125000000000) _ HS HS); lra).
  assert (H2 : near (3 / 1000000000000) (s * k) (7169106076509 / 20000000000000)) by (apply (near_mul (1 / 1000000000000) (1 / 1000000000000) _ (1 / 2) 1 _ (1216012344189 / 3125000000000) _ (92118540556561 / 100000000000000) _ HS HK); lra).
  assert (H3 : near (3 / 1000000000000) (k * k) (21214563785677 / 25000000000000)) by (apply (near_mul (1 / 1000000000000) (1 / 1000000000000) _ 1 1 _ (92118540556561 / 100000000000000) _ (92118540556561 / 100000000000000) _ HK HK); lra).
  unfold near in *. replace (1 / 10 ^ 10) with (1 / 10000000000) by field.
  split; [apply close_i; lra|]. split; [apply close_i; lra|]. split; [reflexivity|]. split; [|split; [apply close_i; lra|reflexivity]].
  unfold body_close. repeat apply Forall2_cons; [| | | |apply Forall2_nil]; cbn [b_m b_x b_z b_Ixx b_Ixz b_Izz b_Iyy_over_r b_front]; repeat (split; [apply close_i; lra|]); reflexivity.
Qed.
Print Assumptions C80_lean_set_is_the_bicycle_with_legs.

(* the legs and the upper body of the rider lean dictionary together are the rider of the
   dictionary with the whole rider: exactly in mass, to 1/20 mm and 5e-4 kg m^2 otherwise;
   everything else but the wheels' Ixx is the same *)
Theorem C80_legs_and_upper_body_are_the_whole_rider :
  let whole := rear_frame meijaard2007_browser_jason in
  let sum := joined (rear_frame meijaard2007_browser_jasonlegs) (rb_rider (lean_bike lean_values legs_lam)) in
  b_m sum = b_m whole /\ close (1 / 20000) (b_x sum) (b_x whole) /\ close (1 / 20000) (b_z sum) (b_z whole) /\ body_close (5 / 10000) sum whole /\
  front_frame meijaard2007_browser_jason = front_frame meijaard2007_browser_jasonlegs /\
  (forall k, In k ["w"; "c"; "lam"; "g"; "rR"; "rF"; "mR"; "mF"; "IRyy"; "IFyy"] -> pv meijaard2007_browser_jason k = pv meijaard2007_browser_jasonlegs k).
Proof.
  cbv zeta. assert (SAME : forall k, In k ["w"; "c"; "lam"; "g"; "rR"; "rF"; "mR"; "mF"; "IRyy"; "IFyy"] -> pv meijaard2007_browser_jason k = pv meijaard2007_browser_jasonlegs k).
  { intros k K. cbn [In] in K. unfold pv. repeat (destruct K as [<-|K]; [reflexivity|]). contradiction. }
  enough (X : _ /\ _ /\ _ /\ _ /\ _) by (destruct X as (X1 & X2 & X3 & X4 & X5); exact (conj X1 (conj X2 (conj X3 (conj X4 (conj X5 SAME)))))). clear SAME.
  unfold lean_bike, body_of. cbn [rb_rider]. unfold joined, rear_frame, body_close, lean_values. cbn [b_m b_x b_z b_Ixx b_Ixz b_Izz b_Iyy_over_r b_front]. cbv zeta.
  cbn [b_m b_x b_z b_Ixx b_Ixz b_Izz b_Iyy_over_r b_front]. unfold pv, mooreriderlean2012_browser_jason, meijaard2007_browser_jasonlegs, meijaard2007_browser_jason. cbn [dget String.eqb Ascii.eqb Bool.eqb].
  split; [lra|]. split; [apply close_i; lra|]. split; [apply close_i; lra|]. split; [repeat (split; [apply close_i; lra|]); reflexivity|]. reflexivity.
Qed.
Print Assumptions C80_legs_and_upper_body_are_the_whole_rider.

(* the wheels: the dictionaries with the legs, with the leaning rider and in principal
   values agree; the one with the whole rider has the wheels' Ixx exchanged *)
Theorem C80_wheels : forall b, convert_principal_to_benchmark moore2019_browser_jason = Ok b ->
  close (1 / 50000) (pv b "IRxx") (pv meijaard2007_browser_jasonlegs "IRxx") /\ close (1 / 50000) (pv b "IFxx") (pv meijaard2007_browser_jasonlegs "IFxx") /\
  lean_values "id11" = pv meijaard2007_browser_jasonlegs "IRxx" /\ lean_values "if11" = pv meijaard2007_browser_jasonlegs "IFxx" /\
  lean_values "id22" = pv meijaard2007_browser_jasonlegs "IRyy" /\ lean_values "if22" = pv meijaard2007_browser_jasonlegs "IFyy" /\
  pv meijaard2007_browser_jason "IRxx" = pv meijaard2007_browser_jasonlegs "IFxx" /\ pv meijaard2007_browser_jason "IFxx" = pv meijaard2007_browser_jasonlegs "IRxx" /\
  ~ close (1 / 500) (pv b "IRxx") (pv meijaard2007_browser_jason "IRxx") /\ ~ close (1 / 500) (pv b "IFxx") (pv meijaard2007_browser_jason "IFxx").
Proof.
  intros b H. destruct (C26_wheels _ _ "R" H (or_introl eq_refl)) as (ER & _). destruct (C26_wheels _ _ "F" H (or_intror eq_refl)) as (EF & _). cbn [append] in ER, EF. rewrite ER, EF.
  unfold lean_values, pv, mooreriderlean2012_browser_jason, moore2019_browser_jason, meijaard2007_browser_jasonlegs, meijaard2007_browser_jason. cbn [dget String.eqb Ascii.eqb Bool.eqb].
  split; [apply close_i; lra|]. split; [apply close_i; lra|]. do 6 (split; [reflexivity|]). unfold close. split; intros X; apply Rabs_def2' in X; lra.
Qed.
Print Assumptions C80_wheels.
(* the conversion does succeed on the shipped dictionary *)
Example C80_converts : exists b, convert_principal_to_benchmark moore2019_browser_jason = Ok b.
Proof.
  apply C26_defined_iff. split; [|unfold pv, moore2019_browser_jason; cbn [dget String.eqb Ascii.eqb Bool.eqb]; lra].
  intros k Hk. unfold principal_keys in Hk. unfold moore2019_browser_jason, dkeys. cbn [In map fst] in *. repeat (destruct Hk as [Hk|Hk]; [subst k; tauto|]). contradiction.
Qed.
