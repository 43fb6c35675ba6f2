(* PRoots.v -- the eigenvalues of a matrix are determined by its characteristic polynomial,
   with their multiplicities *)
From Coq Require Import Lra Lia Permutation.
From Verif Require Import Base MBicycle MModels2 SModels2 SStab.
Local Open Scope R_scope.

Definition c0 : cplx := (0, 0).
Definition c1 : cplx := (1, 0).
Definition copp (a : cplx) : cplx := (- fst a, - snd a).
Definition csub (a b : cplx) : cplx := (fst a - fst b, snd a - snd b).
Lemma cplx_eq (a b : cplx) : fst a = fst b -> snd a = snd b -> a = b.
Proof. destruct a, b. cbn. intros -> ->. reflexivity. Qed.
Lemma cplx_ring : ring_theory c0 c1 cadd cmul csub copp eq.
Proof. split; intros; apply cplx_eq; unfold c0, c1, cadd, cmul, csub, copp; cbn [fst snd]; ring. Qed.
Add Ring CplxRing : cplx_ring.
Lemma cmul_zero a b : cmul a b = c0 -> a = c0 \/ b = c0.
Proof.
  destruct a as [a1 a2], b as [b1 b2]. unfold cmul, c0. cbn [fst snd]. intros E. injection E as E1 E2.
  destruct (Req_dec (a1 * a1 + a2 * a2) 0) as [Z|N].
  - left. assert (a1 = 0) by nra. assert (a2 = 0) by nra. subst. reflexivity.
  - right. assert (Q : (a1 * a1 + a2 * a2) * (b1 * b1 + b2 * b2) = 0).
    { transitivity ((a1 * b1 - a2 * b2) ^ 2 + (a1 * b2 + a2 * b1) ^ 2); [ring|]. rewrite E1, E2. ring. }
    apply Rmult_integral in Q. destruct Q as [Q|Q]; [contradiction|]. assert (b1 = 0) by nra. assert (b2 = 0) by nra. subst. reflexivity.
Qed.
Lemma csub_zero a b : csub a b = c0 -> a = b.
Proof. intros E. replace a with (cadd (csub a b) b) by ring. rewrite E. ring. Qed.

Fixpoint peval (p : list cplx) (s : cplx) : cplx := match p with [] => c0 | a :: q => cadd a (cmul s (peval q s)) end.
Lemma synth p z : exists q r, (length q <= pred (length p))%nat /\ forall s, peval p s = cadd (cmul (csub s z) (peval q s)) r.
Proof.
  induction p as [|a p (q & r & L & H)]; [exists [], c0; split; [cbn; lia|intros; cbn [peval]; ring]|].
  destruct p as [|b p].
  - exists [], a. split; [cbn; lia|]. intros s. cbn [peval]. ring.
  - exists (r :: q), (cadd a (cmul z r)). split; [cbn [length pred] in *; lia|]. intros s. change (peval (a :: b :: p) s) with (cadd a (cmul s (peval (b :: p) s))). rewrite H. cbn [peval]. ring.
Qed.
Lemma many_roots n : forall p l, (length p <= n)%nat -> NoDup l -> (n <= length l)%nat -> (forall z, In z l -> peval p z = c0) -> forall s, peval p s = c0.
Proof.
  induction n as [|n IH]; intros p l LP ND LL HR s.
  - destruct p; [reflexivity|cbn in LP; lia].
  - destruct l as [|z l]; [cbn in LL; lia|]. inversion ND as [|? ? NI ND']; subst. destruct (synth p z) as (q & r & LQ & H).
    assert (R0 : r = c0) by (pose proof (HR z (or_introl eq_refl)) as X; rewrite H in X; replace r with (cadd (cmul (csub z z) (peval q z)) r) by ring; exact X).
    assert (Q : forall s, peval q s = c0).
    { apply (IH q l); [cbn in *; lia|exact ND'|cbn in LL; lia|]. intros y Hy. pose proof (HR y (or_intror Hy)) as X. rewrite H, R0 in X.
      assert (X' : cmul (csub y z) (peval q y) = c0) by (rewrite <- X; ring). apply cmul_zero in X'. destruct X' as [X'|X']; [|exact X']. apply csub_zero in X'. subst y. contradiction. }
    rewrite H, Q, R0. ring.
Qed.
Fixpoint padd (p q : list cplx) : list cplx := match p, q with [], _ => q | _, [] => p | a :: p', b :: q' => cadd a b :: padd p' q' end.
Lemma padd_eval p : forall q s, peval (padd p q) s = cadd (peval p s) (peval q s).
Proof. induction p as [|a p IH]; intros [|b q] s; cbn [padd peval]; [ring|ring|ring|]. rewrite IH. ring. Qed.
Lemma pscale_eval k p s : peval (map (cmul k) p) s = cmul k (peval p s).
Proof. induction p as [|a p IH]; cbn [map peval]; [ring|]. rewrite IH. ring. Qed.
(* product of the s - z *)
Definition roots (w : list cplx) (s : cplx) : cplx := cprod (map (fun z => csub s z) w).
Lemma roots_poly w : exists p, forall s, peval p s = roots w s.
Proof.
  induction w as [|z w (p & H)]; [exists [c1]; intros s; cbn [peval]; change (roots [] s) with c1; ring|].
  exists (padd (c0 :: p) (map (cmul (copp z)) p)). intros s. rewrite padd_eval, pscale_eval. cbn [peval]. rewrite H. change (roots (z :: w) s) with (cmul (csub s z) (roots w s)). ring.
Qed.
Definition point (n : nat) : cplx := (INR n, 0).
Lemma point_inj a b : point a = point b -> a = b.
Proof. intros E. injection E as E. apply INR_eq, E. Qed.
(* two such products that agree at all but one real number agree everywhere *)
Lemma roots_agree w w' (x : cplx) : (forall s : R, (s, 0) <> x -> roots w (s, 0) = roots w' (s, 0)) -> forall s, roots w s = roots w' s.
Proof.
  intros H s. destruct (roots_poly w) as (p & P). destruct (roots_poly w') as (q & Q).
  set (d := padd p (map (cmul (copp c1)) q)).
  assert (D : forall s, peval d s = csub (roots w s) (roots w' s)) by (intros y; unfold d; rewrite padd_eval, pscale_eval, P, Q; ring).
  assert (Z : peval d s = c0).
  { set (n := length d). set (l := filter (fun z => if Req_EM_T (fst z) (fst x) then false else true) (map point (seq 0 (S n)))).
    assert (ND0 : NoDup (map point (seq 0 (S n)))) by (apply FinFun.Injective_map_NoDup; [intros a b; apply point_inj|apply seq_NoDup]).
    apply (many_roots n d l); [unfold n; lia|apply NoDup_filter; exact ND0| |].
    - assert (G : forall m, NoDup m -> (forall z : cplx, In z m -> snd z = 0) -> (length m <= S (length (filter (fun z : cplx => if Req_EM_T (fst z) (fst x) then false else true) m)))%nat).
      { induction m as [|z m IH]; intros NDm Hm; [cbn; lia|]. inversion NDm as [|? ? NI ND']; subst. cbn [filter]. destruct (Req_EM_T (fst z) (fst x)) as [E|N].
        - cbn [length]. enough (EF : filter (fun z : cplx => if Req_EM_T (fst z) (fst x) then false else true) m = m) by (rewrite EF; lia).
          clear IH. induction m as [|y m IHm]; [reflexivity|]. cbn [filter]. destruct (Req_EM_T (fst y) (fst x)) as [E2|N2].
          + exfalso. apply NI. left. apply cplx_eq; [congruence|]. rewrite !Hm; [reflexivity|left; reflexivity|right; left; reflexivity].
          + f_equal. inversion ND' as [|? ? NI2 ND2]; subst. apply IHm; [constructor; [intros K; apply NI; right; exact K|exact ND2]| |intros K; apply NI; right; exact K|exact ND2]. intros u [<-|Hu]; apply Hm; [left; reflexivity|right; right; exact Hu].
        - cbn [length]. assert (Hm' : forall u : cplx, In u m -> snd u = 0) by (intros u Hu; apply Hm; right; exact Hu). specialize (IH ND' Hm'). lia. }
      specialize (G (map point (seq 0 (S n))) ND0). rewrite map_length, seq_length in G. enough (S n <= S (length l))%nat by lia. apply G. intros z Hz. apply in_map_iff in Hz. destruct Hz as (k & <- & _). reflexivity.
    - intros z Hz. apply filter_In in Hz. destruct Hz as (Hz & F). apply in_map_iff in Hz. destruct Hz as (k & <- & _). rewrite D. unfold point in *. cbn [fst] in F. destruct (Req_EM_T (INR k) (fst x)) as [|N]; [discriminate|].
      rewrite H; [ring|]. intros E. apply N. rewrite <- E. reflexivity. }
  rewrite D in Z. apply csub_zero, Z.
Qed.
Lemma roots_zero w z : roots w z = c0 <-> In z w.
Proof.
  induction w as [|y w IH]; [split; [intros E; injection E; lra|intros []]|]. change (roots (y :: w) z) with (cmul (csub z y) (roots w z)). split.
  - intros E. apply cmul_zero in E. destruct E as [E|E]; [left; symmetry; apply csub_zero, E|right; apply IH, E].
  - intros [->|I]; [ring|]. apply IH in I. rewrite I. ring.
Qed.
Lemma roots_perm w w' s : Permutation w w' -> roots w s = roots w' s.
Proof.
  induction 1 as [|z l l' _ IH|x y l|l1 l2 l3 _ IH1 _ IH2]; [reflexivity| | |congruence].
  - change (cmul (csub s z) (roots l s) = cmul (csub s z) (roots l' s)). rewrite IH. reflexivity.
  - change (cmul (csub s y) (cmul (csub s x) (roots l s)) = cmul (csub s x) (cmul (csub s y) (roots l s))). ring.
Qed.
Lemma same_roots w : forall w', (forall s, roots w s = roots w' s) -> Permutation w w'.
Proof.
  induction w as [|z w IH]; intros w' H.
  - destruct w' as [|y w']; [constructor|]. exfalso. assert (X : roots [] y = c0) by (rewrite H; apply roots_zero; left; reflexivity). injection X; lra.
  - assert (I : In z w') by (apply roots_zero; rewrite <- H; apply roots_zero; left; reflexivity). apply in_split in I. destruct I as (a & b & ->).
    assert (PW : Permutation (a ++ z :: b) (z :: a ++ b)) by (symmetry; apply Permutation_middle). rewrite PW. constructor. apply IH. apply (roots_agree w (a ++ b) z). intros s N.
    pose proof (H (s, 0)) as X. rewrite (roots_perm _ _ _ PW) in X. change (cmul (csub (s, 0) z) (roots w (s, 0)) = cmul (csub (s, 0) z) (roots (a ++ b) (s, 0))) in X.
    assert (Y : cmul (csub (s, 0) z) (csub (roots w (s, 0)) (roots (a ++ b) (s, 0))) = c0).
    { transitivity (csub (cmul (csub (s, 0) z) (roots w (s, 0))) (cmul (csub (s, 0) z) (roots (a ++ b) (s, 0)))); [ring|]. rewrite X. ring. }
    apply cmul_zero in Y. destruct Y as [Y|Y]; [contradiction (N (csub_zero _ _ Y))|apply csub_zero, Y].
Qed.
Lemma roots_real w (s : R) : cprod (map (fun z : cplx => (s - fst z, - snd z)) w) = roots w (s, 0).
Proof. unfold roots. f_equal. apply map_ext. intros z. unfold csub. cbn [fst snd]. apply cplx_eq; cbn [fst snd]; ring. Qed.
(* the spectrum is determined *)
Lemma spectrum_unique w w' : (forall s : R, cprod (map (fun z : cplx => (s - fst z, - snd z)) w) = cprod (map (fun z : cplx => (s - fst z, - snd z)) w')) -> Permutation w w'.
Proof. intros H. apply same_roots, (roots_agree w w' (0, 1)). intros s _. rewrite <- !roots_real. apply H. Qed.
