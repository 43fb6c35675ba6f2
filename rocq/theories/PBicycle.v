(* PBicycle.v -- lemmas about MBicycle.v: ab_matrix and the canonical matrices *)
From Verif Require Import Base PBase MBicycle SBicycle.
From Coq Require Import Lra Psatz.
Local Open Scope string_scope.
Local Open Scope R_scope.

(* closed form of the canonical matrices in terms of the parameter values *)
Section Formula.
  Variable f : string -> R.
  Let mR := f "mR". Let mB := f "mB". Let mH := f "mH". Let mF := f "mF".
  Let xB := f "xB". Let xH := f "xH". Let zB := f "zB". Let zH := f "zH".
  Let w := f "w". Let c := f "c". Let lam := f "lam". Let rR := f "rR". Let rF := f "rF".
  Definition F_mT := mR + mB + mH + mF.
  Definition F_xT := (xB*mB + xH*mH + w*mF) / F_mT.
  Definition F_zT := (- rR*mR + zB*mB + zH*mH - rF*mF) / F_mT.
  Definition F_ITxx := f "IRxx" + f "IBxx" + f "IHxx" + f "IFxx" + mR*rR^2 + mB*zB^2 + mH*zH^2 + mF*rF^2.
  Definition F_ITxz := f "IBxz" + f "IHxz" - mB*xB*zB - mH*xH*zH + mF*w*rF.
  Definition F_ITzz := f "IRxx" + f "IBzz" + f "IHzz" + f "IFxx" + mB*xB^2 + mH*xH^2 + mF*w^2.
  Definition F_mA := mH + mF.
  Definition F_xA := (xH*mH + w*mF) / F_mA.
  Definition F_zA := (zH*mH - rF*mF) / F_mA.
  Definition F_IAxx := f "IHxx" + f "IFxx" + mH*(zH - F_zA)^2 + mF*(rF + F_zA)^2.
  Definition F_IAxz := f "IHxz" - mH*(xH - F_xA)*(zH - F_zA) + mF*(w - F_xA)*(rF + F_zA).
  Definition F_IAzz := f "IHzz" + f "IFxx" + mH*(xH - F_xA)^2 + mF*(w - F_xA)^2.
  Definition F_uA := (F_xA - w - c)*cos lam - F_zA*sin lam.
  Definition F_IAll := F_mA*F_uA^2 + F_IAxx*sin lam^2 + 2*F_IAxz*sin lam*cos lam + F_IAzz*cos lam^2.
  Definition F_IAlx := - F_mA*F_uA*F_zA + F_IAxx*sin lam + F_IAxz*cos lam.
  Definition F_IAlz := F_mA*F_uA*F_xA + F_IAxz*sin lam + F_IAzz*cos lam.
  Definition F_mu := c / w * cos lam.
  Definition F_SR := f "IRyy" / rR.
  Definition F_SF := f "IFyy" / rF.
  Definition F_ST := F_SR + F_SF.
  Definition F_SA := F_mA*F_uA + F_mu*F_mT*F_xT.
  Definition F_canon : canon := mkcanon
    (mk2 F_ITxx (F_IAlx + F_mu*F_ITxz) (F_IAlx + F_mu*F_ITxz) (F_IAll + 2*F_mu*F_IAlz + F_mu^2*F_ITzz))
    (mk2 0 (F_mu*F_ST + F_SF*cos lam + F_ITxz/w*cos lam - F_mu*F_mT*F_zT)
         (- (F_mu*F_ST + F_SF*cos lam)) (F_IAlz/w*cos lam + F_mu*(F_SA + F_ITzz/w*cos lam)))
    (mk2 (F_mT*F_zT) (- F_SA) (- F_SA) (- F_SA*sin lam))
    (mk2 0 ((F_ST - F_mT*F_zT)/w*cos lam) 0 ((F_SA + F_SF*sin lam)/w*cos lam)).
End Formula.

Lemma dlook_pv p k : In k (dkeys p) -> dlook p k = Ok (pv p k).
Proof.
  intros H. apply dget_some_in in H. destruct H as [v H].
  unfold dlook, pv. rewrite H. reflexivity.
Qed.

Lemma dlook_pv' p k : (exists v, dget p k = Some v) -> dlook p k = Ok (pv p k).
Proof. intros [v H]. unfold dlook, pv. rewrite H. reflexivity. Qed.

Lemma dlook_inv {V} (p : dict V) k v : dlook p k = Ok v -> dget p k = Some v.
Proof. unfold dlook. destruct (dget p k); intros H; inversion H; auto. Qed.

Definition canon_dict (p : dict R) : dict R :=
  dset (dset p "IRzz" (pv p "IRxx")) "IFzz" (pv p "IFxx").

Lemma canon_forward p :
  (forall k, In k canon_keys -> In k (dkeys p)) -> canon_nonzero (pv p) ->
  benchmark_par_to_canonical p = (canon_dict p, Ok (F_canon (pv p))).
Proof.
  intros HK (N1 & N2 & N3 & N4 & N5).
  assert (L : forall k, In k canon_keys -> dlook p k = Ok (pv p k))
    by (intros; apply dlook_pv; auto).
  assert (L2 : forall k, In k canon_keys -> dlook (canon_dict p) k = Ok (pv p k)).
  { intros k Hk. unfold canon_dict, dlook. rewrite !dget_dset.
    assert (E1 : String.eqb k "IFzz" = false).
    { apply String.eqb_neq. intros ->. simpl in Hk. intuition discriminate. }
    assert (E2 : String.eqb k "IRzz" = false).
    { apply String.eqb_neq. intros ->. simpl in Hk. intuition discriminate. }
    rewrite E1, E2. apply (L k Hk). }
  assert (LR : dlook (canon_dict p) "IRzz" = Ok (pv p "IRxx")).
  { unfold canon_dict, dlook. rewrite dget_dset_neq by reflexivity. rewrite dget_dset_eq. reflexivity. }
  assert (LF : dlook (canon_dict p) "IFzz" = Ok (pv p "IFxx")).
  { unfold canon_dict, dlook. rewrite dget_dset_eq. reflexivity. }
  unfold benchmark_par_to_canonical.
  assert (P1 : canon_phase1 p =
    Ok (mkcanon1 (F_mT (pv p)) (F_xT (pv p)) (F_zT (pv p)) (F_ITxx (pv p)) (F_ITxz (pv p))
                 (pv p "IRxx") (pv p "IFxx"))).
  { unfold canon_phase1.
    repeat ((rewrite L by (simpl; tauto); cbn [bind])
            || (rewrite rdiv_eq by assumption; cbn [bind])).
    reflexivity. }
  rewrite P1. cbn [k_IRxx k_IFxx]. fold (canon_dict p). f_equal.
  unfold canon_phase2. rewrite LR, LF; cbn [bind].
  repeat ((rewrite L2 by (simpl; tauto); cbn [bind])
          || (rewrite rdiv_eq by assumption; cbn [bind])).
  reflexivity.
Qed.

Ltac step_bind H :=
  let a := fresh "x" in let E := fresh "E" in
  apply bind_ok in H; destruct H as [a [E H]].

Lemma in_keys_of_dlook (p : dict R) k v : dlook p k = Ok v -> In k (dkeys p).
Proof. intros H. apply dget_some_in. exists v. apply dlook_inv; exact H. Qed.

Lemma pv_of_dlook p k v : dlook p k = Ok v -> pv p k = v.
Proof. intros H. apply dlook_inv in H. unfold pv; rewrite H; reflexivity. Qed.

Lemma canon_inversion p p' c :
  benchmark_par_to_canonical p = (p', Ok c) ->
  (forall k, In k canon_keys -> In k (dkeys p)) /\ canon_nonzero (pv p) /\
  p' = canon_dict p /\ c = F_canon (pv p).
Proof.
  intros H.
  assert (G : (forall k, In k canon_keys -> In k (dkeys p)) /\ canon_nonzero (pv p)).
  { unfold benchmark_par_to_canonical in H.
    destruct (canon_phase1 p) as [k|e] eqn:E1; [|discriminate].
    injection H as Hp' H. clear Hp'.
    unfold canon_phase1 in E1. repeat step_bind E1.
    injection E1 as E1. subst k. cbn [k_IRxx k_IFxx] in H.
    set (q := dset (dset p "IRzz" _) "IFzz" _) in H.
    unfold canon_phase2 in H. cbn [k_mT k_xT k_zT k_ITxx k_ITxz] in H.
    repeat step_bind H. clear H.
    repeat match goal with
           | X : rdiv _ _ = Ok _ |- _ => apply rdiv_ok in X; destruct X as [? _] end.
    assert (Q : forall k v, dlook q k = Ok v -> k <> "IRzz"%string -> k <> "IFzz"%string ->
                dlook p k = Ok v).
    { intros k v X N1 N2. apply String.eqb_neq in N1, N2. unfold dlook, q in X.
      rewrite dget_dset_neq in X by exact N2. rewrite dget_dset_neq in X by exact N1. exact X. }
    repeat match goal with
           | X : dlook q "IRzz" = _ |- _ => clear X
           | X : dlook q "IFzz" = _ |- _ => clear X
           | X : dlook q _ = _ |- _ => apply Q in X; [|discriminate|discriminate]
           end.
    split.
    - intros k Hk. simpl in Hk.
      repeat (destruct Hk as [Hk|Hk]; [subst k; eapply in_keys_of_dlook; eassumption|]).
      contradiction.
    - clear Q.
      repeat match goal with X : dlook p _ = Ok _ |- _ => apply pv_of_dlook in X end.
      unfold canon_nonzero. subst. repeat split; congruence. }
  destruct G as [G1 G2]. rewrite (canon_forward p G1 G2) in H.
  injection H as <- <-. auto.
Qed.

Ltac sumb_simpl :=
  unfold newton_euler, kinetic_energy, front_load, sumb, bike_of; cbn [k_bodies fold_right];
  unfold hx', hz', spin, rot_x, rot_z, lat, fr, arm, rear_wheel, rear_frame, front_frame, front_wheel;
  cbn [b_m b_x b_z b_Ixx b_Ixz b_Izz b_Iyy_over_r b_front k_w k_c k_lam].

Lemma F_mTxT f : F_mT f <> 0 -> F_mT f * F_xT f = f "xB" * f "mB" + f "xH" * f "mH" + f "w" * f "mF".
Proof. intros H; unfold F_xT; field; exact H. Qed.
Lemma F_mTzT f : F_mT f <> 0 -> F_mT f * F_zT f =
  - f "rR" * f "mR" + f "zB" * f "mB" + f "zH" * f "mH" - f "rF" * f "mF".
Proof. intros H; unfold F_zT; field; exact H. Qed.

(* quantities of the front assembly expressed per body *)
Lemma F_front f (u := fun x z => (x - f "w" - f "c") * cos (f "lam") - z * sin (f "lam")) :
  F_mA f <> 0 ->
  let s := sin (f "lam") in let c := cos (f "lam") in
  let uH := u (f "xH") (f "zH") in let uF := u (f "w") (- f "rF") in
  F_mA f * F_uA f = f "mH" * uH + f "mF" * uF /\
  F_IAll f = f "mH" * uH^2 + f "mF" * uF^2 + (f "IHxx" + f "IFxx") * s^2 + 2 * f "IHxz" * s * c
             + (f "IHzz" + f "IFxx") * c^2 /\
  F_IAlx f = - f "mH" * uH * f "zH" + f "mF" * uF * f "rF" + (f "IHxx" + f "IFxx") * s + f "IHxz" * c /\
  F_IAlz f = f "mH" * uH * f "xH" + f "mF" * uF * f "w" + f "IHxz" * s + (f "IHzz" + f "IFxx") * c.
Proof.
  intros H. unfold F_IAll, F_IAlx, F_IAlz, F_IAxx, F_IAxz, F_IAzz, F_uA, F_xA, F_zA, u.
  unfold F_mA in *. cbv zeta. repeat split; field; exact H.
Qed.

Lemma canonical_newton_euler p p' c :
  benchmark_par_to_canonical p = (p', Ok c) ->
  forall v g phi phi1 phi2 del del1 del2 Tphi Tdel,
    newton_euler (bike_of p) v g phi phi1 phi2 del del1 del2 Tphi Tdel <->
    eom (cM c) (cC1 c) (cK0 c) (cK2 c) v g phi del phi1 del1 phi2 del2 Tphi Tdel.
Proof.
  intros H v g phi phi1 phi2 del del1 del2 Tphi Tdel.
  apply canon_inversion in H. destruct H as (_ & (N1 & N2 & N3 & N4 & N5) & _ & ->).
  pose proof (F_front (pv p) N2) as (A1 & A2 & A3 & A4).
  pose proof (F_mTxT (pv p) N1) as A5. pose proof (F_mTzT (pv p) N1) as A6.
  unfold F_canon, eom; cbn [cM cC1 cK0 cK2 m11 m12 m21 m22].
  rewrite A2, A3, A4.
  assert (SA : F_SA (pv p) = F_mA (pv p) * F_uA (pv p) + F_mu (pv p) * (F_mT (pv p) * F_xT (pv p)))
    by (unfold F_SA; ring).
  rewrite SA, A1, A5.
  replace (F_mu (pv p) * F_mT (pv p) * F_zT (pv p)) with (F_mu (pv p) * (F_mT (pv p) * F_zT (pv p))) by ring.
  rewrite A6. clear SA A1 A2 A3 A4 A5 A6.
  unfold F_ITxx, F_ITxz, F_ITzz, F_mu, F_ST, F_SR, F_SF.
  sumb_simpl.
  set (s := sin (pv p "lam")). set (k := cos (pv p "lam")).
  set (ps1 := (v * del + pv p "c" * del1) * k / pv p "w").
  set (ps2 := (v * del1 + pv p "c" * del2) * k / pv p "w").
  split.
  - intros (y1 & y2 & psi & psi1 & psi2 & F & C1 & C2 & C3 & C4 & R1 & R2 & R3).
    assert (E1 : psi1 = ps1).
    { unfold ps1. apply Rmult_eq_reg_l with (pv p "w"); [|exact N3].
      replace (pv p "w" * ((v * del + pv p "c" * del1) * k / pv p "w"))
        with ((v * del + pv p "c" * del1) * k) by (field; exact N3). subst y1. lra. }
    assert (E2 : psi2 = ps2).
    { unfold ps2. apply Rmult_eq_reg_l with (pv p "w"); [|exact N3].
      replace (pv p "w" * ((v * del1 + pv p "c" * del2) * k / pv p "w"))
        with ((v * del1 + pv p "c" * del2) * k) by (field; exact N3). subst y2. lra. }
    subst y2 psi1 psi2.
    match type of R2 with ?L = _ => assert (E3 : F = L / pv p "w") by (rewrite R2; field; exact N3) end.
    clear R2 C1 C3 C4 y1.
    apply Rminus_diag_eq in R1. apply Rminus_diag_eq in R3. rewrite E3 in R3.
    split; apply Rminus_diag_uniq.
    + etransitivity; [|exact R1]. unfold ps1, ps2. field. repeat split; assumption.
    + etransitivity; [|exact R3]. unfold ps1, ps2. field. repeat split; assumption.
  - intros [R1 R3].
    exists (v * 0), (v * ps1), 0, ps1, ps2.
    eexists. split; [reflexivity|]. split; [reflexivity|].
    split; [unfold ps1; field; exact N3|]. split; [unfold ps2; field; exact N3|].
    apply Rminus_diag_eq in R1. apply Rminus_diag_eq in R3.
    split; [|split].
    + apply Rminus_diag_uniq. etransitivity; [|exact R1]. unfold ps1, ps2. field. repeat split; assumption.
    + match goal with |- ?L = _ * _ => instantiate (1 := L / pv p "w") end. field. repeat split; assumption.
    + apply Rminus_diag_uniq. etransitivity; [|exact R3]. unfold ps1, ps2. field. repeat split; assumption.
Qed.
