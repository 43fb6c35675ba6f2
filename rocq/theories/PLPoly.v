(* PLPoly.v -- polynomials in atoms, some of which are invertible and two of which are the
   cosine and sine of an angle, in a normal form; evaluation of straight line programs in them *)
From Coq Require Import Lra Lia ZArith QArith Qreals FMapPositive.
From Verif Require Import Base MString MBicycle MVec MInertia MModels2 PBase MLean PLean PLean5.
Local Open Scope string_scope.
Local Open Scope R_scope.

Definition atom := positive.
Definition mono := list (atom * Z).
Definition poly := list (mono * Q).
Definition at_c : atom := 1%positive.
Definition at_s : atom := 2%positive.
Definition at_q : atom := 3%positive.       (* the angle *)
Definition z_atom (n : positive) : atom := (n + 100)%positive.

Fixpoint mcmp (m n : mono) : comparison :=
  match m, n with
  | [], [] => Eq | [], _ => Lt | _, [] => Gt
  | (a, e) :: m', (b, f) :: n' =>
      match Pos.compare a b with Eq => match Z.compare e f with Eq => mcmp m' n' | x => x end | x => x end
  end.
Fixpoint padd (p q : poly) {struct p} : poly :=
  match p with
  | [] => q
  | (m, k) :: p' =>
      (fix go (q : poly) : poly :=
         match q with
         | [] => p
         | (n, l) :: q' => match mcmp m n with
                           | Lt => (m, k) :: padd p' q
                           | Gt => (n, l) :: go q'
                           | Eq => let s := Qred (k + l) in if qis0 s then padd p' q' else (m, s) :: padd p' q'
                           end
         end) q
  end.
Definition pneg (p : poly) : poly := map (fun t => (fst t, (- snd t)%Q)) p.
Definition psub (p q : poly) : poly := padd p (pneg q).
Definition pconst (k : Q) : poly := if qis0 k then [] else [([], k)].
Definition pvar (a : atom) : poly := [([(a, 1%Z)], 1%Q)].

Section Inv.
  Variable inv : atom -> bool.
  Fixpoint mmul (m n : mono) {struct m} : mono :=
    match m with
    | [] => n
    | (a, e) :: m' =>
        (fix go (n : mono) : mono :=
           match n with
           | [] => m
           | (b, f) :: n' => match Pos.compare a b with
                             | Lt => (a, e) :: mmul m' n
                             | Gt => (b, f) :: go n'
                             | Eq => if (inv a || (Z.leb 0 e && Z.leb 0 f))%bool
                                     then if Z.eqb (e + f) 0 then mmul m' n' else (a, (e + f)%Z) :: mmul m' n'
                                     else (a, e) :: (b, f) :: mmul m' n'
                             end
           end) n
    end.
  (* the monomial without the square of the cosine *)
  Fixpoint csplit (m : mono) : option mono :=
    match m with
    | [] => None
    | (a, e) :: m' => if (Pos.eqb a at_c && Z.eqb e 2)%bool then Some m' else match csplit m' with Some n => Some ((a, e) :: n) | None => None end
    end.
  Definition cred (m : mono) (k : Q) : poly :=
    match csplit m with Some n => padd [(n, k)] [(mmul n [(at_s, 2%Z)], (- k)%Q)] | None => [(m, k)] end.
  Definition tmul (t u : mono * Q) : poly := cred (mmul (fst t) (fst u)) (Qred (snd t * snd u)).
  Fixpoint pairs (l : list poly) : list poly := match l with a :: b :: r => padd a b :: pairs r | _ => l end.
  Fixpoint psum (fuel : nat) (l : list poly) : poly :=
    match fuel with
    | O => fold_right padd [] l
    | S k => match l with [] => [] | [p] => p | _ => psum k (pairs l) end
    end.
  Definition pmul (p q : poly) : poly := psum 30 (flat_map (fun t => map (tmul t) q) p).
  Fixpoint ppow (p : poly) (n : nat) : poly := match n with O => pconst 1 | S k => pmul p (ppow p k) end.
  (* the inverse of a single term of invertible atoms or of atoms of exponent one *)
  Definition pinv (p : poly) : option poly :=
    match p with
    | [(m, k)] => if qis0 k then None else Some [(map (fun x => (fst x, (- snd x)%Z)) m, Qred (/ k))]
    | _ => None
    end.

  Section Values.
    Variable rho : atom -> R.
    Hypothesis inv_ok : forall a, inv a = true -> rho a <> 0.
    Hypothesis trig : rho at_c * rho at_c = 1 - rho at_s * rho at_s.
    Definition meval (m : mono) : R := fold_right (fun t r => powerRZ (rho (fst t)) (snd t) * r) 1 m.
    Definition peval (p : poly) : R := fold_right (fun t r => Q2R (snd t) * meval (fst t) + r) 0 p.

    Lemma mcmp_eq m : forall n, mcmp m n = Eq -> m = n.
    Proof.
      induction m as [|[a e] m IH]; intros [|[b f] n] H; cbn in H; try discriminate; [reflexivity|].
      destruct (Pos.compare_spec a b) as [->|?|?]; try discriminate. destruct (Z.compare_spec e f) as [->|?|?]; try discriminate. f_equal. apply IH, H.
    Qed.
    Lemma padd_ok p : forall q, peval (padd p q) = peval p + peval q.
    Proof.
      induction p as [|[m k] p IH]; intros q; [change (peval q = 0 + peval q); ring|]. induction q as [|[n l] q IHq]; [change (peval ((m, k) :: p) = peval ((m, k) :: p) + 0); ring|].
      cbn [padd]. destruct (mcmp m n) eqn:E.
      - apply mcmp_eq in E. subst n. cbn zeta. pose proof (Q2R_red (k + l)) as QR. rewrite Q2R_plus in QR. destruct (qis0 (Qred (k + l))) eqn:Z0.
        + apply qis0_spec in Z0. rewrite IH. cbn [peval fold_right fst snd]. fold (peval p). fold (peval q). rewrite Z0 in QR.
          replace (Q2R k) with (- Q2R l) by lra. ring.
        + cbn [peval fold_right fst snd]. fold (peval (padd p q)). fold (peval p). fold (peval q). rewrite IH, QR. ring.
      - cbn [peval fold_right fst snd]. fold (peval (padd p ((n, l) :: q))). rewrite IH. cbn [peval fold_right fst snd]. fold (peval p). fold (peval q). ring.
      - cbn [peval fold_right fst snd]. fold (peval p). fold (peval q).
        match goal with |- Q2R l * meval n + ?X = _ => change X with (peval (padd ((m, k) :: p) q)) end. rewrite IHq. cbn [peval fold_right fst snd]. fold (peval p). fold (peval q). ring.
    Qed.
    Lemma pneg_ok p : peval (pneg p) = - peval p.
    Proof. induction p as [|[m k] p IH]; cbn [pneg map peval fold_right fst snd]; [ring|]. fold (peval p). fold (pneg p). fold (peval (pneg p)). rewrite IH, Q2R_opp. ring. Qed.
    Lemma psub_ok p q : peval (psub p q) = peval p - peval q.
    Proof. unfold psub. rewrite padd_ok, pneg_ok. ring. Qed.
    Lemma pconst_ok k : peval (pconst k) = Q2R k.
    Proof. unfold pconst. destruct (qis0 k) eqn:E; cbn; [symmetry; apply qis0_spec, E|ring]. Qed.
    Lemma pvar_ok a : peval (pvar a) = rho a.
    Proof. cbn [pvar peval fold_right fst snd meval]. rewrite RMicromega.Q2R_1, powerRZ_1. ring. Qed.
    Lemma mmul_ok m : forall n, meval (mmul m n) = meval m * meval n.
    Proof.
      induction m as [|[a e] m IH]; intros n; [change (meval n = 1 * meval n); ring|]. induction n as [|[b f] n IHn]; [change (meval ((a, e) :: m) = meval ((a, e) :: m) * 1); ring|].
      cbn [mmul]. destruct (Pos.compare_spec a b) as [->|?|?].
      - destruct (inv b || (Z.leb 0 e && Z.leb 0 f))%bool eqn:C.
        + assert (PA : powerRZ (rho b) (e + f) = powerRZ (rho b) e * powerRZ (rho b) f).
          { apply orb_prop in C. destruct C as [C|C]; [apply powerRZ_add, inv_ok, C|]. apply andb_prop in C. destruct C as [C1 C2]. apply Z.leb_le in C1, C2.
            rewrite <- (Z2Nat.id e), <- (Z2Nat.id f) by assumption. rewrite <- Nat2Z.inj_add, <- !pow_powerRZ. apply pow_add. }
          destruct (Z.eqb_spec (e + f) 0) as [Z0|NZ].
          * rewrite Z0 in PA. cbn [powerRZ] in PA. rewrite IH. cbn [meval fold_right fst snd]. fold (meval m). fold (meval n).
            transitivity (1 * (meval m * meval n)); [ring|]. rewrite PA. ring.
          * cbn [meval fold_right fst snd]. fold (meval (mmul m n)). fold (meval m). fold (meval n). rewrite IH, PA. ring.
        + cbn [meval fold_right fst snd]. fold (meval (mmul m n)). fold (meval m). fold (meval n). rewrite IH. ring.
      - cbn [meval fold_right fst snd]. fold (meval (mmul m ((b, f) :: n))). rewrite IH. cbn [meval fold_right fst snd]. fold (meval m). fold (meval n). ring.
      - cbn [meval fold_right fst snd]. fold (meval m). fold (meval n).
        match goal with |- powerRZ (rho b) f * ?X = _ => change X with (meval (mmul ((a, e) :: m) n)) end. rewrite IHn. cbn [meval fold_right fst snd]. fold (meval m). fold (meval n). ring.
    Qed.
    Lemma csplit_ok m : forall n, csplit m = Some n -> meval m = rho at_c * rho at_c * meval n.
    Proof.
      induction m as [|[a e] m IH]; intros n H; cbn [csplit] in H; [discriminate|].
      destruct (Pos.eqb a at_c && Z.eqb e 2)%bool eqn:E.
      - injection H as <-. apply andb_prop in E. destruct E as [E1 E2]. apply Pos.eqb_eq in E1. apply Z.eqb_eq in E2. subst.
        cbn [meval fold_right fst snd]. fold (meval m). change (powerRZ (rho at_c) 2) with (rho at_c * (rho at_c * 1)). ring.
      - destruct (csplit m) as [n'|]; [|discriminate]. injection H as <-. cbn [meval fold_right fst snd]. fold (meval m). fold (meval n'). rewrite (IH _ eq_refl). ring.
    Qed.
    Lemma cred_ok m k : peval (cred m k) = Q2R k * meval m.
    Proof.
      unfold cred. destruct (csplit m) as [n|] eqn:E.
      - rewrite padd_ok. cbn [peval fold_right fst snd]. rewrite mmul_ok, Q2R_opp, (csplit_ok _ _ E), trig.
        cbn [meval fold_right fst snd]. change (powerRZ (rho at_s) 2) with (rho at_s * (rho at_s * 1)). ring.
      - cbn [peval fold_right fst snd]. ring.
    Qed.
    Lemma tmul_ok t u : peval (tmul t u) = (Q2R (snd t) * meval (fst t)) * (Q2R (snd u) * meval (fst u)).
    Proof. unfold tmul. rewrite cred_ok, mmul_ok, Q2R_red, Q2R_mult. ring. Qed.
    Definition total (l : list poly) : R := fold_right (fun p r => peval p + r) 0 l.
    Lemma pairs_ok l : total (pairs l) = total l.
    Proof.
      assert (H : forall n l, (length l <= n)%nat -> total (pairs l) = total l); [|exact (H _ l (le_n _))].
      induction n as [|n IH]; intros [|a [|b r]] L; cbn [pairs]; try reflexivity; [cbn in L; lia|]. cbn [total fold_right]. fold (total (pairs r)). fold (total r).
      rewrite IH by (cbn in L; lia). rewrite padd_ok. ring.
    Qed.
    Lemma psum_ok fuel : forall l, peval (psum fuel l) = total l.
    Proof.
      induction fuel as [|k IH]; intros l.
      - cbn [psum]. induction l as [|p l IHl]; [reflexivity|]. cbn [fold_right total]. fold (total l). rewrite padd_ok, IHl. reflexivity.
      - cbn [psum]. destruct l as [|p [|q r]]; [reflexivity|change (peval p = peval p + 0); ring|]. rewrite IH, pairs_ok. reflexivity.
    Qed.
    Lemma total_app l l' : total (l ++ l') = total l + total l'.
    Proof. induction l as [|p l IH]; [change (total l' = 0 + total l'); ring|]. change (peval p + total (l ++ l') = (peval p + total l) + total l'). rewrite IH. ring. Qed.
    Lemma pmul_ok p q : peval (pmul p q) = peval p * peval q.
    Proof.
      unfold pmul. rewrite psum_ok. induction p as [|t p IH]; [change (0 = 0 * peval q); ring|]. cbn [flat_map]. rewrite total_app, IH.
      change (peval (t :: p)) with (Q2R (snd t) * meval (fst t) + peval p).
      replace (total (map (tmul t) q)) with (Q2R (snd t) * meval (fst t) * peval q); [ring|]. clear IH.
      induction q as [|u q IH]; [change (Q2R (snd t) * meval (fst t) * 0 = 0); ring|].
      change (Q2R (snd t) * meval (fst t) * (Q2R (snd u) * meval (fst u) + peval q) = peval (tmul t u) + total (map (tmul t) q)). rewrite <- IH, tmul_ok. ring.
    Qed.
    Lemma ppow_ok p n : peval (ppow p n) = peval p ^ n.
    Proof. induction n as [|n IH]; cbn [ppow pow]; [rewrite pconst_ok; apply RMicromega.Q2R_1|rewrite pmul_ok, IH; reflexivity]. Qed.
    Lemma powerRZ_opp x e : powerRZ x (- e) = / powerRZ x e.
    Proof. destruct e; cbn; [symmetry; apply Rinv_1|reflexivity|symmetry; apply Rinv_inv]. Qed.
    Lemma pinv_ok p q : pinv p = Some q -> peval q = / peval p.
    Proof.
      destruct p as [|[m k] [|]]; try discriminate. cbn [pinv]. destruct (qis0 k) eqn:E; [discriminate|]. intros H. apply some_eq in H. subst q.
      apply qis0_false in E. destruct E as (E1 & E2). cbn [peval fold_right fst snd]. rewrite Q2R_red, Q2R_inv by exact E2.
      assert (M : meval (map (fun x => (fst x, (- snd x)%Z)) m) = / meval m).
      { induction m as [|[a e] m IH]; cbn [map meval fold_right fst snd]; [symmetry; apply Rinv_1|]. fold (meval m). fold (meval (map (fun x => (fst x, (- snd x)%Z)) m)).
        rewrite IH, powerRZ_opp, Rinv_mult. reflexivity. }
      rewrite M, !Rplus_0_r, Rinv_mult. reflexivity.
    Qed.
    Definition psame (p q : poly) : bool := match psub p q with [] => true | _ => false end.
    Lemma psame_ok p q : psame p q = true -> peval p = peval q.
    Proof. unfold psame. intros H. pose proof (psub_ok p q) as E. destruct (psub p q); [|discriminate]. cbn in E. lra. Qed.
  End Values.

  (* ---- programs ---- *)
  Record sstate := mksst { ss_names : list (string * poly); ss_z : PositiveMap.t poly; ss_mat : list (mat * nat * nat * poly); ss_cut : list (positive * poly) }.
  Fixpoint seval (st : sstate) (e : expr) : option poly :=
    match e with
    | Nm s => dget (ss_names st) s
    | Zr n => PositiveMap.find n (ss_z st)
    | Lit p q => Some (pconst (Qred (p # q)))
    | Neg a => obind (seval st a) (fun x => Some (pneg x))
    | Add a b => obind (seval st a) (fun x => obind (seval st b) (fun y => Some (padd x y)))
    | Sub a b => obind (seval st a) (fun x => obind (seval st b) (fun y => Some (psub x y)))
    | Mul a b => obind (seval st a) (fun x => obind (seval st b) (fun y => Some (pmul x y)))
    | Div a b => obind (seval st a) (fun x => obind (seval st b) (fun y => obind (pinv y) (fun z => Some (pmul x z))))
    | Sin a => obind (seval st a) (fun x => if psame x [] then Some [] else if psame x (pvar at_q) then Some (pvar at_s) else None)
    | Cos a => obind (seval st a) (fun x => if psame x [] then Some (pconst 1) else if psame x (pvar at_q) then Some (pvar at_c) else None)
    | PowN a n => obind (seval st a) (fun x => Some (ppow x n))
    | PowH a n => obind (seval st a) (fun x => if psame x (pconst 1) then Some (pconst 1) else None)
    end.
  Definition assigns (n : positive) (s : stmt) : bool := match s with SZ k _ => Pos.eqb k n | _ => false end.
  Variable cuts : positive -> bool.
  Fixpoint srun (st : sstate) (p : list stmt) : option sstate :=
    match p with
    | [] => Some st
    | SZ n e :: r =>
        obind (seval st e) (fun x =>
          if cuts n then if existsb (assigns n) r then None
                         else srun (mksst (ss_names st) (PositiveMap.add n (pvar (z_atom n)) (ss_z st)) (ss_mat st) ((n, x) :: ss_cut st)) r
          else srun (mksst (ss_names st) (PositiveMap.add n x (ss_z st)) (ss_mat st) (ss_cut st)) r)
    | SN k e :: r => obind (seval st e) (fun x => srun (mksst (dset (ss_names st) k x) (ss_z st) (ss_mat st) (ss_cut st)) r)
    | SM m i j e :: r => obind (seval st e) (fun x => srun (mksst (ss_names st) (ss_z st) ((m, i, j, x) :: ss_mat st) (ss_cut st)) r)
    end.
  Fixpoint sfind (l : list (mat * nat * nat * poly)) (m : mat) (i j : nat) : option poly :=
    match l with
    | [] => None
    | (m', i', j', a) :: r => if (mat_eqb m m' && Nat.eqb i i' && Nat.eqb j j')%bool then Some a else sfind r m i j
    end.
  Section Run.
    Variable rho : atom -> R.
    Hypothesis inv_ok : forall a, inv a = true -> rho a <> 0.
    Hypothesis cos_ok : rho at_c = cos (rho at_q).
    Hypothesis sin_ok : rho at_s = sin (rho at_q).
    Lemma trig_ok : rho at_c * rho at_c = 1 - rho at_s * rho at_s.
    Proof. rewrite cos_ok, sin_ok. pose proof (sin2_cos2 (rho at_q)) as H. unfold Rsqr in H. lra. Qed.
    Definition srel (st : sstate) (s : lstate) : Prop :=
      (forall k p, dget (ss_names st) k = Some p -> ls_names s k = Some (peval rho p)) /\
      (forall n p, PositiveMap.find n (ss_z st) = Some p -> ls_z s n = peval rho p) /\
      (forall m i j p, sfind (ss_mat st) m i j = Some p -> ls_mat s m i j = peval rho p) /\
      (forall n p, In (n, p) (ss_cut st) -> rho (z_atom n) = peval rho p).
    Lemma seval_sound st s : srel st s -> forall e p x, seval st e = Some p -> leval s e = Ok x -> x = peval rho p.
    Proof.
      intros (HN & HZ & _) e. induction e as [k|n|p q|e IH|e1 IH1 e2 IH2|e1 IH1 e2 IH2|e1 IH1 e2 IH2|e1 IH1 e2 IH2|e IH|e IH|e IH n|e IH n]; intros a x E L; cbn [seval leval] in *.
      - rewrite (HN _ _ E) in L. congruence.
      - rewrite (HZ _ _ E) in L. congruence.
      - apply some_eq in E. subst a. injection L as <-. rewrite pconst_ok, Q2R_red. reflexivity.
      - apply obind_some in E. destruct E as (y & E & F). apply some_eq in F. subst a. destruct (leval s e); cbn [bind] in L; [|discriminate]. injection L as <-.
        rewrite pneg_ok, (IH _ _ E eq_refl). reflexivity.
      - apply obind_some in E. destruct E as (y & E & F). apply obind_some in F. destruct F as (z & F & G). apply some_eq in G. subst a.
        destruct (leval s e1), (leval s e2); cbn [bind] in L; try discriminate. injection L as <-. rewrite padd_ok, (IH1 _ _ E eq_refl), (IH2 _ _ F eq_refl). reflexivity.
      - apply obind_some in E. destruct E as (y & E & F). apply obind_some in F. destruct F as (z & F & G). apply some_eq in G. subst a.
        destruct (leval s e1), (leval s e2); cbn [bind] in L; try discriminate. injection L as <-. rewrite psub_ok, (IH1 _ _ E eq_refl), (IH2 _ _ F eq_refl). reflexivity.
      - apply obind_some in E. destruct E as (y & E & F). apply obind_some in F. destruct F as (z & F & G). apply some_eq in G. subst a.
        destruct (leval s e1), (leval s e2); cbn [bind] in L; try discriminate. injection L as <-. rewrite (pmul_ok rho inv_ok trig_ok), (IH1 _ _ E eq_refl), (IH2 _ _ F eq_refl). reflexivity.
      - apply obind_some in E. destruct E as (y & E & F). apply obind_some in F. destruct F as (z & F & G). apply obind_some in G. destruct G as (i & G & G'). apply some_eq in G'. subst a.
        destruct (leval s e1), (leval s e2); cbn [bind] in L; try discriminate. unfold rdiv in L. destruct (Req_EM_T _ 0); [discriminate|]. injection L as <-.
        rewrite (pmul_ok rho inv_ok trig_ok), (pinv_ok rho _ _ G), (IH1 _ _ E eq_refl), (IH2 _ _ F eq_refl). reflexivity.
      - apply obind_some in E. destruct E as (y & E & F). destruct (leval s e); cbn [bind] in L; [|discriminate]. injection L as <-. specialize (IH _ _ E eq_refl).
        destruct (psame y []) eqn:P1; [|destruct (psame y (pvar at_q)) eqn:P2; [|discriminate]]; apply some_eq in F; subst a.
        + apply (psame_ok rho) in P1. cbn in P1. rewrite IH, P1, sin_0. reflexivity.
        + apply (psame_ok rho) in P2. rewrite IH, P2, !pvar_ok. symmetry. exact sin_ok.
      - apply obind_some in E. destruct E as (y & E & F). destruct (leval s e); cbn [bind] in L; [|discriminate]. injection L as <-. specialize (IH _ _ E eq_refl).
        destruct (psame y []) eqn:P1; [|destruct (psame y (pvar at_q)) eqn:P2; [|discriminate]]; apply some_eq in F; subst a.
        + apply (psame_ok rho) in P1. cbn in P1. rewrite IH, P1, cos_0, pconst_ok, RMicromega.Q2R_1. reflexivity.
        + apply (psame_ok rho) in P2. rewrite IH, P2, !pvar_ok. symmetry. exact cos_ok.
      - apply obind_some in E. destruct E as (y & E & F). apply some_eq in F. subst a. destruct (leval s e); cbn [bind] in L; [|discriminate]. injection L as <-.
        rewrite (ppow_ok rho inv_ok trig_ok), (IH _ _ E eq_refl). reflexivity.
      - apply obind_some in E. destruct E as (y & E & F). destruct (leval s e); cbn [bind] in L; [|discriminate]. specialize (IH _ _ E eq_refl).
        destruct (psame y (pconst 1)) eqn:P1; [|discriminate]. apply some_eq in F. subst a. apply (psame_ok rho) in P1. rewrite pconst_ok, RMicromega.Q2R_1 in *.
        rewrite P1 in IH. subst. unfold half_power in L. destruct (Rltb 1 0) eqn:LT; [discriminate|]. injection L as <-. rewrite pow1, sqrt_1. ring.
    Qed.
    Lemma unassigned n p : forall s sf, lrun s p = Ok sf -> existsb (assigns n) p = false -> ls_z sf n = ls_z s n.
    Proof.
      induction p as [|x p IH]; intros s sf E NA; cbn [lrun existsb] in *; [congruence|]. apply orb_false_elim in NA. destruct NA as [NA NB].
      destruct (lexec s x) as [s1|] eqn:EX; cbn [bind] in E; [|discriminate]. rewrite (IH _ _ E NB). clear -EX NA.
      destruct x as [k e|k e|m i j e]; cbn [lexec assigns] in *; (destruct (leval s e); cbn [bind] in EX; [|discriminate]).
      - destruct (Pos.ltb k z_size); [|discriminate]. injection EX as <-. cbn. rewrite Pos.eqb_sym, NA. reflexivity.
      - injection EX as <-. reflexivity.
      - destruct (_ && _)%bool; [|discriminate]. injection EX as <-. reflexivity.
    Qed.
    Lemma srun_sound p : forall st s st' sf, srel st s -> srun st p = Some st' -> lrun s p = Ok sf ->
      (forall n, cuts n = true -> rho (z_atom n) = ls_z sf n) -> srel st' sf.
    Proof.
      induction p as [|x p IH]; intros st s st' sf HS E L HC; cbn [srun lrun] in *; [congruence|].
      destruct (lexec s x) as [s1|] eqn:EX; cbn [bind] in L; [|discriminate]. pose proof HS as (HN & HZ & HM & HQ).
      destruct x as [n e|k e|m i j e]; cbn [lexec] in EX; (destruct (leval s e) as [y|] eqn:EV; cbn [bind] in EX; [|discriminate]);
        apply obind_some in E; destruct E as (q & EQ & E); pose proof (seval_sound _ _ HS _ _ _ EQ EV) as HV.
      - destruct (Pos.ltb n z_size); [|discriminate]. injection EX as <-. destruct (cuts n) eqn:CN.
        + destruct (existsb (assigns n) p) eqn:NA; [discriminate|].
          assert (RV : rho (z_atom n) = y).
          { rewrite (HC n CN), (unassigned n p _ _ L NA). cbn. rewrite Pos.eqb_refl. reflexivity. }
          eapply IH; [|exact E|exact L|exact HC]. split; [exact HN|]. split; [|split; [exact HM|]].
          * cbn. intros n' p' F. destruct (Pos.eqb_spec n' n) as [->|NE]; [rewrite PositiveMap.gss in F; apply some_eq in F; subst p'; rewrite pvar_ok; symmetry; exact RV|].
            rewrite PositiveMap.gso in F by exact NE. exact (HZ _ _ F).
          * cbn. intros n' p' [F|F]; [injection F as <- <-; rewrite RV; exact HV|exact (HQ _ _ F)].
        + eapply IH; [|exact E|exact L|exact HC]. split; [exact HN|]. split; [|split; [exact HM|exact HQ]].
          cbn. intros n' p' F. destruct (Pos.eqb_spec n' n) as [->|NE]; [rewrite PositiveMap.gss in F; apply some_eq in F; subst p'; exact HV|].
          rewrite PositiveMap.gso in F by exact NE. exact (HZ _ _ F).
      - injection EX as <-. eapply IH; [|exact E|exact L|exact HC]. split; [|split; [exact HZ|split; [exact HM|exact HQ]]].
        cbn. intros k' p' F. rewrite dget_dset in F. destruct (String.eqb k' k); [apply some_eq in F; subst p'; congruence|exact (HN _ _ F)].
      - destruct (Nat.ltb i (fst (mat_shape m)) && Nat.ltb j (snd (mat_shape m)))%bool; [|discriminate]. injection EX as <-.
        eapply IH; [|exact E|exact L|exact HC]. split; [exact HN|]. split; [exact HZ|]. split; [|exact HQ].
        cbn. intros m' i' j' p' F. destruct (mat_eqb m' m && Nat.eqb i' i && Nat.eqb j' j)%bool; [apply some_eq in F; subst p'; exact HV|exact (HM _ _ _ _ F)].
    Qed.
  End Run.
End Inv.
