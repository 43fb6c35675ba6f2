(* PMain2.v -- the phases of calculate_benchmark_from_measured: what each writes and
   what it leaves alone (C47) *)
From Verif Require Import Base PBase MString MVec MBicycle MInertia MGeometry MPeriod MMain SBicycle SInertia SGeometry SMain
  PBicycle PInertia PInertia2 PInertia3 PString PGeometry PGeometry2 PGeometry3 PPeriod PPeriod2 PPeriod3 PMain.
From Coq Require Import Lra Permutation Sorted.
Local Open Scope string_scope.
Local Open Scope R_scope.

Lemma pv_get (p : dict R) k v : dget p k = Some v -> pv p k = v.
Proof. unfold pv. intros ->. reflexivity. Qed.

(* ---------- geometry ---------- *)
Lemma geom_exact newton mp T p : exact_geometry newton mp T -> calculate_benchmark_geometry newton mp [] = Ok p ->
  dget p "w" = Some (rb_w T) /\ dget p "c" = Some (rb_c T) /\ dget p "lam" = Some (rb_lam T) /\
  dget p "rF" = Some (w_r (rb_F T)) /\ dget p "rR" = Some (w_r (rb_R T)) /\ cos (rb_lam T) <> 0.
Proof.
  intros (NF & DF & NR & DR & G) H. apply geom_inv in H.
  destruct H as (rF & rR & lam & w & fo & ct & cm & _ & _ & EF & ER & TR & P1 & P2 & P3 & P4 & P5 & _ & C).
  pose proof PI_neq0 as PN.
  assert (RF : rF = w_r (rb_F T)) by (rewrite EF, DF; field; auto).
  assert (RR : rR = w_r (rb_R T)) by (rewrite ER, DR; field; auto).
  apply trail_ok in TR. destruct TR as (CL & CT & _).
  assert (DM : dmem mp "w" = true <-> In "w" (dkeys mp)).
  { unfold dmem. rewrite dget_some_in. destruct (dget mp "w"); split; intros; try discriminate; eauto. destruct H as [v H]; discriminate. }
  destruct C as [(B & L & W & FO)|(B & a & b & c & ABC & LA & W & FO)], G as [(Iw & Gw & Gg & Gf)|(Nw & a' & b' & c' & ABC' & P & A1 & A2 & A3 & NE & QT)].
  - assert (LL : lam = rb_lam T) by (rewrite L, Gg; field; auto). clear L. subst lam. rewrite FO, Gf, RF in CT. unfold ahead in CT.
    assert (ct = rb_c T) by (apply (Rmult_eq_reg_r (cos (rb_lam T))); [lra | exact CL]).
    rewrite P1, P2, P3, P4, P5. repeat split; try f_equal; congruence.
  - exfalso. tauto.
  - exfalso. apply DM in Iw. congruence.
  - rewrite ABC in ABC'. injection ABC' as <- <- <-. unfold lambda_from_abc in LA.
    apply bind_ok in LA. destruct LA as (q & Hq & LA). apply rdiv_ok in Hq. destruct Hq as [_ ->]. apply NE in LA. destruct LA as [LA LQ].
    unfold ahead, along in A1, A2, A3. rewrite <- RF, <- RR in *. pose proof (sc1 (rb_lam T)) as S.
    assert (AB : a + b = rb_w T * cos (rb_lam T) + (rF - rR) * sin (rb_lam T)) by lra.
    assert (CC : c = rb_w T * sin (rb_lam T) - (rF - rR) * cos (rb_lam T)) by lra.
    assert (ROOT : lam_equality (rb_lam T) rF rR a b c = Ok 0).
    { apply lam_equality_ok. split; [lra|]. rewrite AB, CC.
      transitivity ((rF - rR) * (sin (rb_lam T) * sin (rb_lam T)+ cos (rb_lam T) * cos (rb_lam T)) + (rb_w T * sin (rb_lam T) - (rF - rR) * cos (rb_lam T)) * cos (rb_lam T)); [ring | rewrite S; ring]. }
    assert (LL : lam = rb_lam T).
    { pose proof (lam_root_unique rF rR a b c P) as [U1 U2]. cbv zeta in U1, U2.
      destruct (Rle_lt_dec (Rabs (rF - rR)) (sqrt ((a + b) ^ 2 + c ^ 2))) as [LE|LT]; [|exfalso; exact (U2 LT _ ROOT)].
      destruct (U1 LE) as (l0 & _ & _ & UN). rewrite (UN lam), (UN (rb_lam T)); auto. }
    subst lam. assert (WW : w = rb_w T).
    { rewrite W, AB, CC. transitivity (rb_w T * (sin (rb_lam T) * sin (rb_lam T)+ cos (rb_lam T) * cos (rb_lam T))); [ring | rewrite S; ring]. }
    assert (ct = rb_c T).
    { apply (Rmult_eq_reg_r (cos (rb_lam T))); [|exact CL]. lra. }
    rewrite P1, P2, P3, P4, P5. repeat split; try f_equal; congruence.
Qed.

(* ---------- phases ---------- *)
Ltac dg := rewrite ?dget_dset; cbn [String.eqb Ascii.eqb Bool.eqb].
Ltac frame := let k := fresh "k" in let K := fresh "K" in
  intros k K; cbn [In] in K; rewrite ?dget_dset_neq by (apply String.eqb_neq; intros ->; tauto); reflexivity.
Ltac looks := repeat match goal with X : dlook _ _ = Ok _ |- _ => apply dlook_inv in X end.
Ltac same_dget := repeat match goal with A : dget ?d ?k = Some ?x, B : dget ?d ?k = Some ?y |- _ => assert (x = y) by congruence; subst y; clear B end.

Lemma pass_keyerror_ok {A} (old : A) r p : pass_keyerror old r = Ok p -> r = Ok p \/ (p = old /\ exists k, r = Err (KeyError k)).
Proof. unfold pass_keyerror. destruct r as [a|[]]; intros H; try discriminate; injection H as <-; eauto. Qed.
Definition opt_sub (a b : option R) (d : option R) : option R :=
  match a, b with Some x, Some y => Some (x - y) | _, _ => d end.

Lemma masses_inv mp par split p : bm_masses mp par split = Ok p ->
  (forall k, ~ In k ["mB"; "mF"; "mR"; "mD"; "mS"; "mG"; "mH"] -> dget p k = dget par k) /\
  dget p "mB" = dget mp "mB" /\ dget p "mF" = dget mp "mF" /\ dget p "mR" = dget mp "mR" /\
  dget p "mD" = opt_sub (dget mp "mD") (dget mp "mF") (dget par "mD") /\
  (if split then dget p "mS" = dget mp "mS" /\ dget p "mG" = dget mp "mG" else dget p "mH" = dget mp "mH").
Proof.
  intros H. unfold bm_masses in H. step_bind H. step_bind H. step_bind H. step_bind H. looks.
  assert (P : x2 = match dget mp "mD" with Some m => dset (dset (dset (dset par "mB" x) "mF" x0) "mR" x1) "mD" (m - x0)
              | None => dset (dset (dset par "mB" x) "mF" x0) "mR" x1 end).
  { unfold pass_keyerror, dlook in E2. destruct (dget mp "mD"); cbn [bind] in E2; [rewrite E0 in E2; cbn [bind] in E2|]; injection E2 as <-; reflexivity. }
  clear E2. unfold opt_sub. rewrite E, E0, E1. destruct split.
  - step_bind H. step_bind H. looks. injection H as <-. rewrite P. split.
    + destruct (dget mp "mD"); frame.
    + destruct (dget mp "mD"); dg; repeat split; congruence.
  - step_bind H. looks. injection H as <-. rewrite P. split.
    + destruct (dget mp "mD"); frame.
    + destruct (dget mp "mD"); dg; repeat split; congruence.
Qed.

Lemma wheels_yy_inv mp par p : bm_wheels_yy mp par = Ok p -> exists g mF lF TF mR lR TR,
  dget mp "g" = Some g /\ dget mp "mF" = Some mF /\ dget mp "lF" = Some lF /\ dget mp "TcF1" = Some TF /\
  dget mp "mR" = Some mR /\ dget mp "lR" = Some lR /\ dget mp "TcR1" = Some TR /\
  (forall k, ~ In k ["g"; "IFyy"; "IRyy"; "IDyy"] -> dget p k = dget par k) /\ dget p "g" = Some g /\
  dget p "IFyy" = Some (compound_pendulum_inertia mF g lF TF) /\ dget p "IRyy" = Some (compound_pendulum_inertia mR g lR TR) /\
  dget p "IDyy" = match dget mp "mD", dget mp "TcD1" with
                  | Some mD, Some TD => Some (compound_pendulum_inertia mD g lF TD - compound_pendulum_inertia mF g lF TF)
                  | _, _ => dget par "IDyy" end.
Proof.
  intros H. unfold bm_wheels_yy in H. do 7 step_bind H. looks. exists x, x0, x1, x2, x3, x4, x5.
  do 7 (split; [assumption|]). unfold pass_keyerror, dlook in H.
  destruct (dget mp "mD") as [mD|]; cbn [bind] in H; [rewrite E, E1 in H; cbn [bind] in H; destruct (dget mp "TcD1") as [TD|]; cbn [bind] in H|].
  - revert H. dg. cbn [bind]. intros H. injection H as <-. split; [frame|]. dg. repeat split; reflexivity.
  - injection H as <-. split; [frame|]. dg. repeat split; reflexivity.
  - injection H as <-. split; [frame|]. dg. repeat split; reflexivity.
Qed.

Lemma frames_yy_whole mp par p : bm_frames_yy mp par false = Ok p -> exists xB zB rR mB g TB hx w hz rF mH TH,
  dget par "xB" = Some xB /\ dget par "zB" = Some zB /\ dget par "rR" = Some rR /\ dget mp "mB" = Some mB /\ dget mp "g" = Some g /\
  dget mp "TcB1" = Some TB /\ dget par "xH" = Some hx /\ dget par "w" = Some w /\ dget par "zH" = Some hz /\ dget par "rF" = Some rF /\
  dget mp "mH" = Some mH /\ dget mp "TcH1" = Some TH /\
  (forall k, ~ In k ["IByy"; "IHyy"] -> dget p k = dget par k) /\
  dget p "IByy" = Some (compound_pendulum_inertia mB g (hyp xB (zB + rR)) TB) /\
  dget p "IHyy" = Some (compound_pendulum_inertia mH g (hyp (hx - w) (hz + rF)) TH).
Proof.
  intros H. unfold bm_frames_yy in H. do 12 step_bind H. looks. injection H as <-.
  repeat match goal with X : dget (dset _ _ _) _ = _ |- _ => rewrite dget_dset in X; cbn [String.eqb Ascii.eqb Bool.eqb] in X end.
  exists x, x0, x1, x2, x3, x4, x5, x6, x7, x8, x9, x10. do 12 (split; [assumption|]). split; [frame|]. dg. split; reflexivity.
Qed.
Lemma frames_yy_split mp par p : bm_frames_yy mp par true = Ok p -> exists xB zB rR mB g TB xS w zS rF mS TS l1 l2 lam u1 u2 xG zG mG TG,
  dget par "xB" = Some xB /\ dget par "zB" = Some zB /\ dget par "rR" = Some rR /\ dget mp "mB" = Some mB /\ dget mp "g" = Some g /\
  dget mp "TcB1" = Some TB /\ dget par "xS" = Some xS /\ dget par "w" = Some w /\ dget par "zS" = Some zS /\ dget par "rF" = Some rF /\
  dget mp "mS" = Some mS /\ dget mp "TcS1" = Some TS /\
  calculate_l1_l2 (pv mp "h6") (pv mp "h7") (pv mp "d5") (pv mp "d6") (pv mp "l") = Ok (l1, l2) /\
  dget par "lam" = Some lam /\ fwheel_to_handlebar_ref lam l1 l2 = Ok (u1, u2) /\
  dget par "xG" = Some xG /\ dget par "zG" = Some zG /\ dget mp "mG" = Some mG /\ dget mp "TcG1" = Some TG /\
  (forall k, ~ In k ["IByy"; "ISyy"; "IGyy"] -> dget p k = dget par k) /\
  dget p "IByy" = Some (compound_pendulum_inertia mB g (hyp xB (zB + rR)) TB) /\
  dget p "ISyy" = Some (compound_pendulum_inertia mS g (hyp (xS - w) (zS + rF)) TS) /\
  dget p "IGyy" = Some (compound_pendulum_inertia mG g (hyp (xG - w + u1) (zG + rF + u2)) TG).
Proof.
  intros H. unfold bm_frames_yy in H. do 12 step_bind H. do 5 step_bind H. step_bind H. destruct x16 as [l1 l2]. cbn [fst snd] in H.
  step_bind H. step_bind H. destruct x17 as [u1 u2]. cbn [fst snd] in H. do 4 step_bind H. looks. injection H as <-.
  repeat match goal with X : dget (dset _ _ _) _ = _ |- _ => rewrite ?dget_dset in X; cbn [String.eqb Ascii.eqb Bool.eqb] in X end.
  do 21 eexists. do 12 (split; [eassumption|]). split; [erewrite !pv_get by eassumption; eassumption|]. split; [eassumption|]. split; [eassumption|]. do 4 (split; [eassumption|]).
  split; [frame|]. dg. repeat split; reflexivity.
Qed.

Lemma stiffness_exact mp k k' : exact_rod mp k -> bm_stiffness mp = Ok k' -> k' = k.
Proof.
  intros (lP & mP & dP & TtP & rho & G1 & G2 & G3 & G4 & TN & M & O) H. unfold bm_stiffness, dlook in H. rewrite G1, G2, G3 in H. cbn [bind] in H.
  destruct (tube_inertia lP mP (dP / 2) 0) as [[Ix Iy] Iz] eqn:TI. rewrite G4 in H. cbn [bind] in H.
  apply (tube_spec _ _ _ _ rho) in TI; [|exact M]. destruct TI as (_ & IY & _).
  apply stiffness_spec in H. destruct H as [_ H]. apply torsional_spec in O; [|exact TN]. rewrite <- IY, <- H in O.
  unfold tor_inertia in O. pose proof PI_neq0 as PN.
  assert (Q : TtP ^ 2 <> 0) by (apply pow_nonzero; exact TN).
  apply (Rmult_eq_reg_r (TtP ^ 2)); [|exact Q]. apply (Rmult_eq_reg_r (/ 4 * / PI ^ 2)).
  - transitivity (k' * TtP ^ 2 / 4 / PI ^ 2); [field; auto | rewrite O; field; auto].
  - apply Rmult_integral_contrapositive. split; apply Rinv_neq_0_compat; [lra | apply pow_nonzero; exact PN].
Qed.
Lemma wheels_xx_inv mp par k p : bm_wheels_xx mp par k = Ok p -> exists TF TR,
  dget mp "TtF1" = Some TF /\ dget mp "TtR1" = Some TR /\
  (forall key, ~ In key ["IFxx"; "IRxx"; "IDxx"] -> dget p key = dget par key) /\
  dget p "IFxx" = Some (tor_inertia k TF) /\ dget p "IRxx" = Some (tor_inertia k TR) /\
  dget p "IDxx" = match dget mp "TtD1" with Some TD => Some (tor_inertia k TD - tor_inertia k TF) | None => dget par "IDxx" end.
Proof.
  intros H. unfold bm_wheels_xx in H. do 2 step_bind H. looks. exists x, x0. do 2 (split; [assumption|]). unfold pass_keyerror, dlook in H.
  destruct (dget mp "TtD1") as [TD|]; cbn [bind] in H.
  - revert H. dg. cbn [bind]. intros H. injection H as <-. split; [frame|]. dg. repeat split; reflexivity.
  - injection H as <-. split; [frame|]. dg. repeat split; reflexivity.
Qed.

(* ---------- the loops over the parts ---------- *)
Lemma loop_keys mp par l1 l2 keys : forall sl ic be sl' ic' be',
  com_lines_loop mp par l1 l2 keys (sl, ic, be) = Ok (sl', ic', be') -> dkeys sl' = dkeys sl /\ dkeys ic' = dkeys ic /\ dkeys be' = dkeys be.
Proof.
  assert (KD : forall (d : dict (list R)) k v l, dget d k = Some l -> dkeys (dset d k v) = dkeys d).
  { intros d k v l. induction d as [|[k' v'] d IH]; cbn [dget dset dkeys map fst]; [discriminate|].
    destruct (String.eqb k k'); [intros; reflexivity|]. intros H. cbn [map fst]. f_equal. apply IH, H. }
  induction keys as [|key keys IH]; intros sl ic be sl' ic' be' H; cbn [com_lines_loop] in H.
  - injection H as <- <- <-. auto.
  - repeat step_bind H. destruct x2 as [[m b] beta]. repeat step_bind H. apply IH in H.
    repeat match goal with X : append_to _ _ _ = Ok _ |- _ => apply append_to_ok in X; destruct X as (? & ? & ->) end.
    erewrite !KD in H by eassumption. exact H.
Qed.
Lemma lines_keys mp par split sl ic be : part_com_lines mp par split = Ok (sl, ic, be) ->
  let parts := if split then ["B"; "G"; "S"] else ["B"; "H"] in dkeys sl = parts /\ dkeys ic = parts /\ dkeys be = parts.
Proof.
  intros H. unfold part_com_lines in H. step_bind H. apply loop_keys in H. destruct split; exact H.
Qed.
Lemma dict2 {V} (d : dict V) a b x y : a <> b -> dkeys d = [a; b] -> dget d a = Some x -> dget d b = Some y -> d = [(a, x); (b, y)].
Proof.
  intros N K A B. destruct d as [|[k1 v1] [|[k2 v2] [|? ?]]]; try discriminate. injection K as -> ->. cbn [dget] in A, B.
  rewrite String.eqb_refl in A. rewrite (proj2 (String.eqb_neq b a)) in B by congruence. rewrite String.eqb_refl in B. congruence.
Qed.
Lemma dict3 {V} (d : dict V) a b c x y z : a <> b -> a <> c -> b <> c -> dkeys d = [a; b; c] ->
  dget d a = Some x -> dget d b = Some y -> dget d c = Some z -> d = [(a, x); (b, y); (c, z)].
Proof.
  intros N1 N2 N3 K A B C. destruct d as [|[k1 v1] [|[k2 v2] [|[k3 v3] [|? ?]]]]; try discriminate. injection K as -> -> ->. cbn [dget] in A, B, C.
  rewrite String.eqb_refl in A. rewrite (proj2 (String.eqb_neq b a)) in B by congruence. rewrite String.eqb_refl in B.
  rewrite (proj2 (String.eqb_neq c a)), (proj2 (String.eqb_neq c b)) in C by congruence. rewrite String.eqb_refl in C. congruence.
Qed.
