(* PStab4.v -- modal motions of the coasting bicycle *)
From Coq Require Import Lra Lia.
From Verif Require Import Base MString MHeap MBicycle MVec MInertia MSets MModels MModels2 SBicycle SModels SModels2 MEig SEig SStab PBase PBicycle PBicycle2 PModels8 PStab PStab2 PStab3.
Local Open Scope string_scope.
Local Open Scope R_scope.

Definition eigvec (A : marr) (lam : cplx) (u : nat -> cplx) : Prop :=
  (forall i, (i < 4)%nat -> mv 4 (ent A) (fun k => fst (u k)) i = fst (cmul lam (u i)) /\ mv 4 (ent A) (fun k => snd (u k)) i = snd (cmul lam (u i))).
Lemma pair_eigvec A lam V j : right_eigenpair 4 A lam V j -> eigvec A lam (fun i => cent V i j) /\ exists i, (i < 4)%nat /\ cent V i j <> (0, 0).
Proof.
  intros [NZ E]. split; [|exact NZ]. intros i Hi. specialize (E i Hi). rewrite <- E. unfold csum, mv. cbn [seq map sumn fst snd]. unfold rsum. cbn [fold_right].
  cbn [cmul fst snd]. split; unfold cmul; cbn [fst snd]; ring.
Qed.
Lemma eigvec_times A lam u z : eigvec A lam u -> eigvec A lam (fun i => cmul z (u i)).
Proof.
  intros E i Hi. destruct (E i Hi) as [E1 E2].
  assert (L : forall a b p q, mv 4 (ent A) (fun k => a * p k + b * q k) i = a * mv 4 (ent A) p i + b * mv 4 (ent A) q i) by (intros; unfold mv; cbn [sumn]; ring).
  unfold cmul in *. cbn [fst snd] in *. split.
  - rewrite (mv_ext 4 (ent A) _ (fun k => fst z * fst (u k) + - snd z * snd (u k))) by (intros; ring). rewrite L, E1, E2. ring.
  - rewrite L, E1, E2. ring.
Qed.
Lemma mode_solves A lam u : eigvec A lam u -> forall T, solves 4 (ent A) T (fun t i => mode_re lam (u i) 0 t).
Proof.
  intros E T t i Ht Hi. replace (mv 4 (ent A) (fun i => mode_re lam (u i) 0 t) i) with (mode_re lam (cmul lam (u i)) 0 t); [apply mode_deriv|].
  destruct (E i Hi) as [E1 E2]. unfold mode_re at 1. rewrite <- E1, <- E2. unfold mv, mode_re. cbn [sumn]. ring.
Qed.
(* times at which the mode is back in phase *)
Definition beat (b : R) (n : nat) : R := if Req_EM_T b 0 then INR n else INR n * (2 * PI / Rabs b).
Lemma beat_phase b n : cos (b * beat b n) = 1 /\ sin (b * beat b n) = 0.
Proof.
  unfold beat. destruct (Req_EM_T b 0) as [->|NE]; [rewrite Rmult_0_l, cos_0, sin_0; auto|].
  assert (K : cos (INR n * (2 * PI)) = 1 /\ sin (INR n * (2 * PI)) = 0).
  { pose proof (cos_period 0 n) as C. pose proof (sin_period 0 n) as S. rewrite cos_0 in C. rewrite sin_0 in S. replace (0 + 2 * INR n * PI) with (INR n * (2 * PI)) in C, S by ring. auto. }
  unfold Rabs. destruct (Rcase_abs b).
  - replace (b * (INR n * (2 * PI / - b))) with (- (INR n * (2 * PI))) by (field; lra). rewrite cos_neg, sin_neg. destruct K as [-> ->]. split; lra.
  - replace (b * (INR n * (2 * PI / b))) with (INR n * (2 * PI)) by (field; lra). exact K.
Qed.
Lemma beat_grows b M : exists n, M < beat b n /\ 0 <= beat b n.
Proof.
  assert (K : forall d, 0 < d -> exists n, M < INR n * d /\ 0 <= INR n * d).
  { intros d Hd. destruct (archimed (Rmax (M / d) 0)) as [U _]. assert (Z : (0 <= up (Rmax (M / d) 0))%Z) by (apply le_IZR; pose proof (Rmax_r (M / d) 0); lra).
    exists (Z.to_nat (up (Rmax (M / d) 0))). rewrite INR_IZR_INZ, Z2Nat.id by exact Z. split.
    - pose proof (Rmax_l (M / d) 0). apply (Rmult_lt_reg_r (/ d)); [apply Rinv_0_lt_compat; exact Hd|]. rewrite Rmult_assoc, Rinv_r by lra. unfold Rdiv in *. lra.
    - apply Rmult_le_pos; [apply IZR_le in Z; exact Z|lra]. }
  unfold beat. destruct (Req_EM_T b 0) as [E|NE].
  - destruct (K 1 ltac:(lra)) as (n & H). exists n. rewrite Rmult_1_r in H. exact H.
  - apply K. apply Rdiv_lt_0_compat; [pose proof PI_RGT_0; lra|apply Rabs_pos_lt; exact NE].
Qed.
Lemma mode_beat lam z n : mode_re lam z 0 (beat (snd lam) n) = exp (fst lam * beat (snd lam) n) * fst z.
Proof. unfold mode_re. rewrite !Rminus_0_r. destruct (beat_phase (snd lam) n) as [-> ->]. ring. Qed.
Lemma mode_start lam z : mode_re lam z 0 0 = fst z.
Proof. unfold mode_re. rewrite !Rminus_0_r, !Rmult_0_r, exp_0, cos_0, sin_0. ring. Qed.
Lemma exp_ge t : 1 + t <= exp t.
Proof.
  destruct (Req_dec t 0) as [->|NE]; [rewrite exp_0; lra|].
  destruct (MVT_cor2 (fun t => exp t - (1 + t)) (fun t => exp t - (0 + 1)) (Rmin 0 t) (Rmax 0 t)) as (c & E & I).
  - unfold Rmin, Rmax. destruct (Rle_dec 0 t); lra.
  - intros c _. apply (derivable_pt_lim_minus exp (fun t => 1 + t)); [apply derivable_pt_lim_exp|]. apply (derivable_pt_lim_plus (fun _ => 1) (fun t => t)); [apply derivable_pt_lim_const|apply derivable_pt_lim_id].
  - unfold Rmin, Rmax in *. destruct (Rle_dec 0 t) as [P|P].
    + rewrite exp_0 in E. assert (1 < exp c) by (rewrite <- exp_0; apply exp_increasing; lra). assert (0 <= (exp c - (0 + 1)) * (t - 0)) by (apply Rmult_le_pos; lra). lra.
    + rewrite exp_0 in E. assert (exp c < 1) by (rewrite <- exp_0; apply exp_increasing; lra). assert (0 <= - (exp c - (0 + 1)) * (0 - t)) by (apply Rmult_le_pos; lra). lra.
Qed.
Lemma rotate (z : cplx) : z <> (0, 0) -> exists r : cplx, fst (cmul r z) <> 0.
Proof.
  destruct z as [a b]. intros NE. destruct (Req_dec a 0) as [->|N].
  - exists (0, 1). unfold cmul. cbn [fst snd]. intros E. apply NE. f_equal. lra.
  - exists (1, 0). unfold cmul. cbn [fst snd]. intros E. apply N. lra.
Qed.

Section Bike.
  Variables (p p' : dict R) (c : canon) (v g : R) (A B : marr).
  Hypothesis HC : benchmark_par_to_canonical p = (p', Ok c).
  Hypothesis HA : ab_matrix (cM c) (cC1 c) (cK0 c) (cK2 c) v g = Ok (A, B).
  Lemma eigvec_angle lam u : eigvec A lam u -> (exists i, (i < 4)%nat /\ u i <> (0, 0)) -> exists i, (i < 2)%nat /\ u i <> (0, 0).
  Proof.
    intros E (i & Hi & NZ). destruct (ab_rows _ _ _ _ _ _ _ _ HA) as [_ R0].
    assert (S : forall k, (k < 2)%nat -> u (k + 2)%nat <> (0, 0) -> u k <> (0, 0)).
    { intros k Hk N EQ. apply N. destruct (E k ltac:(lia)) as [E1 E2]. rewrite EQ in E1, E2. unfold cmul in E1, E2. cbn [fst snd] in E1, E2.
      destruct (R0 (fun k => fst (u k))) as [A0 A1]. destruct (R0 (fun k => snd (u k))) as [B0 B1]. destruct k as [|[|]]; [| |lia]; cbn [Nat.add].
      - rewrite A0 in E1. rewrite B0 in E2. apply injective_projections; cbn [fst snd]; lra.
      - rewrite A1 in E1. rewrite B1 in E2. apply injective_projections; cbn [fst snd]; lra. }
    destruct i as [|[|[|[|]]]]; [exists 0%nat; auto|exists 1%nat; auto|exists 0%nat; split; [lia|apply S; [lia|exact NZ]]|exists 1%nat; split; [lia|apply S; [lia|exact NZ]]|lia].
  Qed.
  Lemma unstable_falls lam u : eigvec A lam u -> (exists i, (i < 4)%nat /\ u i <> (0, 0)) -> 0 < fst lam -> falls_over (bike_of p) v g.
  Proof.
    intros E NZ HL eps He. destruct (eigvec_angle lam u E NZ) as (i & Hi & NZi). destruct (rotate _ NZi) as (r & NR).
    set (s := size (fst (cmul r (u 0%nat))) (fst (cmul r (u 2%nat))) (fst (cmul r (u 1%nat))) (fst (cmul r (u 3%nat)))).
    assert (SP : 0 < s). { unfold s, size. destruct i as [|[|]]; [| |lia]; apply Rabs_pos_lt in NR; repeat match goal with |- context [Rabs ?x] => pose proof (Rabs_pos x); generalize dependent (Rabs x) end; intros; lra. }
    set (e := eps / 2 / s). assert (EP : 0 < e) by (unfold e; apply Rdiv_lt_0_compat; lra).
    pose proof (eigvec_times A lam _ (e, 0) (eigvec_times A lam u r E)) as E'. set (u' := fun i => cmul (e, 0) (cmul r (u i))) in *.
    assert (U : forall k, fst (u' k) = e * fst (cmul r (u k))) by (intros k; unfold u'; unfold cmul at 1; cbn [fst snd]; ring).
    pose proof (solves_coasts p p' c v g A B HC HA _ (mode_solves A lam u' E')) as CO. do 4 eexists. split; [exact CO|]. split.
    - cbn beta. rewrite !mode_start, !U. unfold size. rewrite !Rabs_mult, !(Rabs_pos_eq e) by lra. rewrite <- !Rmult_plus_distr_l. fold (size (fst (cmul r (u 0%nat))) (fst (cmul r (u 2%nat))) (fst (cmul r (u 1%nat))) (fst (cmul r (u 3%nat)))). fold s.
      unfold e. replace (eps / 2 / s * s) with (eps / 2) by (field; lra). lra.
    - assert (UB : unbounded (fun t => mode_re lam (u' i) 0 t)).
      { intros b. set (m := Rabs (fst (u' i))). assert (MP : 0 < m) by (unfold m; apply Rabs_pos_lt; rewrite U; apply Rmult_integral_contrapositive_currified; [lra|exact NR]).
        destruct (beat_grows (snd lam) (b / m / fst lam)) as (n & H1 & H2). exists (beat (snd lam) n). split; [exact H2|]. rewrite mode_beat, Rabs_mult. fold m. rewrite (Rabs_pos_eq (exp _)) by (left; apply exp_pos).
        pose proof (exp_ge (fst lam * beat (snd lam) n)) as X. apply (Rlt_le_trans _ ((fst lam * beat (snd lam) n) * m)); [|apply Rmult_le_compat_r; lra].
        replace b with ((fst lam * (b / m / fst lam)) * m) at 1 by (field; lra). apply Rmult_lt_compat_r; [exact MP|]. apply Rmult_lt_compat_l; assumption. }
      destruct i as [|[|]]; [left; exact UB|right; exact UB|lia].
  Qed.
  Lemma nondecreasing_mode lam u : eigvec A lam u -> (exists i, (i < 4)%nat /\ u i <> (0, 0)) -> 0 <= fst lam -> ~ balances_itself (bike_of p) v g.
  Proof.
    intros E NZ HL (C & mu & HM & BI). destruct (eigvec_angle lam u E NZ) as (i & Hi & NZi). destruct (rotate _ NZi) as (r & NR).
    pose proof (eigvec_times A lam u r E) as E'. set (u' := fun i => cmul r (u i)) in *.
    pose proof (solves_coasts p p' c v g A B HC HA _ (mode_solves A lam u' E')) as CO. specialize (BI _ _ _ _ CO). cbn beta in BI.
    set (s := size (mode_re lam (u' 0%nat) 0 0) (mode_re lam (u' 2%nat) 0 0) (mode_re lam (u' 1%nat) 0 0) (mode_re lam (u' 3%nat) 0 0)) in BI.
    set (m := Rabs (fst (u' i))). assert (MP : 0 < m) by (unfold m; apply Rabs_pos_lt; exact NR).
    destruct (beat_grows (snd lam) (C * s / m / mu)) as (n & H1 & H2). specialize (BI (beat (snd lam) n) H2). set (t := beat (snd lam) n) in *.
    assert (LOW : m <= size (mode_re lam (u' 0%nat) 0 t) (mode_re lam (u' 2%nat) 0 t) (mode_re lam (u' 1%nat) 0 t) (mode_re lam (u' 3%nat) 0 t)).
    { assert (X : m <= Rabs (mode_re lam (u' i) 0 t)).
      { unfold t. rewrite mode_beat, Rabs_mult. fold m t. rewrite (Rabs_pos_eq (exp _)) by (left; apply exp_pos). pose proof (exp_ge (fst lam * t)) as X. assert (0 <= fst lam * t) by (apply Rmult_le_pos; assumption).
        rewrite <- (Rmult_1_l m) at 1. apply Rmult_le_compat_r; lra. }
      unfold size. pose proof (Rabs_pos (mode_re lam (u' 0%nat) 0 t)). pose proof (Rabs_pos (mode_re lam (u' 1%nat) 0 t)). pose proof (Rabs_pos (mode_re lam (u' 2%nat) 0 t)). pose proof (Rabs_pos (mode_re lam (u' 3%nat) 0 t)).
      destruct i as [|[|]]; [| |lia]; lra. }
    assert (UP : C * s * exp (- mu * t) < m).
    { pose proof (exp_ge (mu * t)) as X. replace (- mu * t) with (- (mu * t)) by ring. rewrite exp_Ropp. apply (Rmult_lt_reg_r (exp (mu * t))); [apply exp_pos|]. rewrite Rmult_assoc, Rinv_l by (apply Rgt_not_eq, exp_pos).
      rewrite Rmult_1_r. apply (Rlt_le_trans _ (m * (mu * t))); [|apply Rmult_le_compat_l; lra]. replace (C * s) with (m * (mu * (C * s / m / mu))) by (field; lra). apply Rmult_lt_compat_l; [exact MP|]. apply Rmult_lt_compat_l; assumption. }
    lra.
  Qed.
End Bike.
