(* PExist.v -- every state matrix of a bicycle has four eigenvalues and eigenvectors *)
From Coq Require Import Lra Lia Ranalysis5.
From Verif Require Import Base MBicycle MModels2 SBicycle SModels SModels2 SStab PRoots PRouth.
Local Open Scope R_scope.

(* real quadratics: two complex roots *)
Lemma quadratic_roots p q : exists z1 z2 : cplx, forall s : R, cmul (s - fst z1, - snd z1) (s - fst z2, - snd z2) = (s ^ 2 + p * s + q, 0).
Proof.
  destruct (Rle_dec 0 (p ^ 2 - 4 * q)) as [D|D].
  - set (r := sqrt (p ^ 2 - 4 * q)). assert (R2 : r * r = p ^ 2 - 4 * q) by (apply sqrt_sqrt, D). exists ((- p + r) / 2, 0), ((- p - r) / 2, 0). intros s. unfold cmul. cbn [fst snd].
    apply (f_equal2 (@pair R R)); [|field]. replace (_ - _) with (s ^ 2 + p * s + (p ^ 2 - r * r) / 4) by field. rewrite R2. field.
  - set (r := sqrt (4 * q - p ^ 2)). assert (R2 : r * r = 4 * q - p ^ 2) by (apply sqrt_sqrt; lra). exists (- p / 2, r / 2), (- p / 2, - (r / 2)). intros s. unfold cmul. cbn [fst snd].
    apply (f_equal2 (@pair R R)); [|field]. replace (_ - _) with (s ^ 2 + p * s + (p ^ 2 + r * r) / 4) by field. rewrite R2. field.
Qed.
(* a positive root of the resolvent *)
Lemma resolvent p q r : q <> 0 -> exists u, 0 < u /\ u * (p + u) ^ 2 - q ^ 2 = 4 * r * u.
Proof.
  intros NQ. set (f := fun u => u * (p + u) ^ 2 - q ^ 2 - 4 * r * u).
  assert (C : continuity f) by (unfold f; reg).
  set (b := 1 + q ^ 2 + 4 * Rabs r + 2 * Rabs p). assert (Q2 : 0 < q ^ 2) by nra. assert (AR : 0 <= Rabs r) by apply Rabs_pos. assert (AP : 0 <= Rabs p) by apply Rabs_pos. assert (LR : r <= Rabs r) by apply RRle_abs. assert (LP : - p <= Rabs p) by (rewrite <- Rabs_Ropp; apply RRle_abs).
  assert (B1 : 1 < b) by (unfold b; lra).
  assert (F0 : f 0 < 0) by (unfold f; replace (0 * (p + 0) ^ 2 - q ^ 2 - 4 * r * 0) with (- q ^ 2) by ring; lra).
  assert (FB : 0 < f b).
  { unfold f. assert (PB : 1 + q ^ 2 + 4 * Rabs r + Rabs p <= p + b) by (unfold b; lra). set (k := 1 + q ^ 2 + 4 * Rabs r) in *. assert (K : k <= p + b) by lra. assert (K2 : k * k <= (p + b) ^ 2) by (assert (0 <= k) by (unfold k; lra); nra).
    assert (K3 : k <= k * k) by (assert (1 <= k) by (unfold k; lra); nra). assert (X : b * k <= b * (p + b) ^ 2) by (apply Rmult_le_compat_l; lra). assert (Y : 4 * r * b <= 4 * Rabs r * b) by (apply Rmult_le_compat_r; lra).
    assert (Z : q ^ 2 * 1 <= q ^ 2 * b) by (apply Rmult_le_compat_l; lra). unfold k in X. nra. }
  destruct (IVT f 0 b C ltac:(lra) F0 FB) as (u & U & FU). exists u. assert (u <> 0) by (intros ->; lra). split; [lra|]. unfold f in FU. lra.
Qed.
(* every real polynomial of degree four is a product of two real quadratics *)
Lemma depressed p q r : exists a b c, forall x : R, (x ^ 2 + a * x + b) * (x ^ 2 - a * x + c) = x ^ 4 + p * x ^ 2 + q * x + r.
Proof.
  assert (G : forall a b c, b + c - a ^ 2 = p -> a * (c - b) = q -> b * c = r -> forall x : R, (x ^ 2 + a * x + b) * (x ^ 2 - a * x + c) = x ^ 4 + p * x ^ 2 + q * x + r).
  { intros a b c <- <- <- x. ring. }
  destruct (Req_dec q 0) as [->|NQ].
  - destruct (Rle_dec 0 (p ^ 2 - 4 * r)) as [D|D].
    + set (w := sqrt (p ^ 2 - 4 * r)). assert (W2 : w * w = p ^ 2 - 4 * r) by (apply sqrt_sqrt, D). exists 0, ((p + w) / 2), ((p - w) / 2). apply G; [field|ring|]. replace (_ * _) with ((p ^ 2 - w * w) / 4) by field. rewrite W2. field.
    + assert (PR : 0 < r) by (pose proof (pow2_ge_0 p); lra). set (w := sqrt r). assert (W2 : w * w = r) by (apply sqrt_sqrt; lra). assert (W0 : 0 <= w) by apply sqrt_pos.
      assert (U : 0 <= 2 * w - p) by (apply Rnot_lt_le; intros L; assert (2 * w < p) by lra; assert ((2 * w) * (2 * w) < p * p) by nra; nra).
      set (a := sqrt (2 * w - p)). assert (A2 : a * a = 2 * w - p) by (apply sqrt_sqrt, U). exists a, w, w. apply G; [replace (a ^ 2) with (a * a) by ring; rewrite A2; ring|ring|exact W2].
  - destruct (resolvent p q r NQ) as (u & U & E). set (a := sqrt u). assert (A2 : a * a = u) by (apply sqrt_sqrt; lra). assert (NA : a <> 0) by (intros Z; rewrite Z in A2; lra).
    exists a, ((p + u - q / a) / 2), ((p + u + q / a) / 2). apply G.
    + replace (a ^ 2) with (a * a) by ring. rewrite A2. field. exact NA.
    + field. exact NA.
    + replace (_ * _) with ((u * (p + u) ^ 2 - q ^ 2 * (u / (a * a))) / (4 * u)) by (field; split; [exact NA|lra]). rewrite A2. replace (u / u) with 1 by (field; lra). rewrite Rmult_1_r, E. field. lra.
Qed.
Lemma quartic_factors b3 b2 b1 b0 : exists p q r t, forall s : R, (s ^ 2 + p * s + q) * (s ^ 2 + r * s + t) = quartic b3 b2 b1 b0 s.
Proof.
  set (h := b3 / 4). destruct (depressed (b2 - 6 * h ^ 2) (b1 - 2 * b2 * h + 8 * h ^ 3) (b0 - b1 * h + b2 * h ^ 2 - 3 * h ^ 4)) as (a & b & c & H).
  exists (2 * h + a), (h ^ 2 + a * h + b), (2 * h - a), (h ^ 2 - a * h + c). intros s. specialize (H (s + h)). unfold quartic. replace b3 with (4 * h) by (unfold h; field). clearbody h.
  transitivity (((s + h) ^ 2 + a * (s + h) + b) * ((s + h) ^ 2 - a * (s + h) + c)); [ring|]. rewrite H. ring.
Qed.
Lemma quartic_roots b3 b2 b1 b0 : exists w : list cplx, length w = 4%nat /\ forall s : R, cprod (map (lin s) w) = (quartic b3 b2 b1 b0 s, 0).
Proof.
  destruct (quartic_factors b3 b2 b1 b0) as (p & q & r & t & H). destruct (quadratic_roots p q) as (z1 & z2 & E1). destruct (quadratic_roots r t) as (z3 & z4 & E2).
  exists [z1; z2; z3; z4]. split; [reflexivity|]. intros s. unfold cprod. cbn [map fold_right]. specialize (E1 s). specialize (E2 s). rewrite <- H. clear H.
  set (x1 := (s - fst z1, - snd z1)) in *. set (x2 := (s - fst z2, - snd z2)) in *. set (x3 := (s - fst z3, - snd z3)) in *. set (x4 := (s - fst z4, - snd z4)) in *.
  transitivity (cmul (cmul x1 x2) (cmul x3 x4)); [unfold cmul; cbn [fst snd]; apply (f_equal2 (@pair R R)); ring|]. rewrite E1, E2. unfold cmul. cbn [fst snd]. apply (f_equal2 (@pair R R)); ring.
Qed.

(* the state matrices: two rows of the identity above any two rows *)
Definition companion (a b c d e f g h : R) : marr := [[0; 0; 1; 0]; [0; 0; 0; 1]; [a; b; c; d]; [e; f; g; h]].
Lemma companion_det a b c d e f g h s : det 4 (sI_minus s (companion a b c d e f g h)) = quartic (- (c + h)) (c * h - d * g - a - f) (a * h + c * f - b * g - d * e) (a * f - b * e) s.
Proof. unfold sI_minus, companion, quartic. cbn [det altsum hd tl map remove_at nth seq Nat.eqb]. ring. Qed.
Lemma complex_dec (z : cplx) : z = c0 \/ z <> c0.
Proof. unfold c0. destruct z as [x y]. destruct (Req_dec x 0) as [->|N]; [destruct (Req_dec y 0) as [->|N]; [left; reflexivity|]|]; right; intros E; injection E; tauto. Qed.
(* a singular 2 x 2 system has a solution that is not zero *)
Lemma singular (p q r t : cplx) : csub (cmul p t) (cmul q r) = c0 -> exists x y : cplx, (x <> c0 \/ y <> c0) /\ cadd (cmul p x) (cmul q y) = c0 /\ cadd (cmul r x) (cmul t y) = c0.
Proof.
  intros D. assert (Z : forall u : cplx, cmul u (csub (cmul p t) (cmul q r)) = c0) by (intros u; rewrite D; ring).
  destruct (complex_dec p) as [P|P]; [destruct (complex_dec q) as [Q|Q]|].
  - destruct (complex_dec r) as [R0|R0]; [destruct (complex_dec t) as [T|T]|].
    + exists c1, c0. split; [left; unfold c1, c0; intros E; injection E; lra|]. rewrite P, R0. split; ring.
    + exists (copp t), r. split; [left; intros E; apply T; destruct t as [t1 t2]; unfold copp, c0 in *; cbn in E; injection E; intros; f_equal; lra|]. rewrite P, Q. split; ring.
    + exists (copp t), r. split; [right; exact R0|]. rewrite P, Q. split; ring.
  - exists (copp q), p. split; [left; intros E; apply Q; destruct q as [t1 t2]; unfold copp, c0 in *; cbn in E; injection E; intros; f_equal; lra|].
    split; [ring|]. rewrite <- D. ring.
  - exists (copp q), p. split; [right; exact P|]. split; [ring|]. rewrite <- D. ring.
Qed.
Lemma companion_eigenpair a b c d e f g h w (z : cplx) : (forall s : R, cprod (map (lin s) w) = (quartic (- (c + h)) (c * h - d * g - a - f) (a * h + c * f - b * g - d * e) (a * f - b * e) s, 0)) -> In z w ->
  exists x y : cplx, (x <> c0 \/ y <> c0) /\
    cadd (cmul (a, 0) x) (cadd (cmul (b, 0) y) (cadd (cmul (c, 0) (cmul z x)) (cmul (d, 0) (cmul z y)))) = cmul z (cmul z x) /\
    cadd (cmul (e, 0) x) (cadd (cmul (f, 0) y) (cadd (cmul (g, 0) (cmul z x)) (cmul (h, 0) (cmul z y)))) = cmul z (cmul z y).
Proof.
  intros H Hz. set (q := [(a * f - b * e, 0); (a * h + c * f - b * g - d * e, 0); (c * h - d * g - a - f, 0); (- (c + h), 0); (1, 0)] : list cplx).
  assert (Z : peval q z = c0).
  { rewrite <- (poly_agree w q); [apply roots_zero, Hz|]. intros s. rewrite H. unfold q, quartic, cadd, cmul, c0. cbn [peval]. unfold cadd, cmul, c0. cbn [fst snd]. apply (f_equal2 (@pair R R)); ring. }
  destruct (singular (csub (cmul z z) (cadd (a, 0) (cmul (c, 0) z))) (copp (cadd (b, 0) (cmul (d, 0) z))) (copp (cadd (e, 0) (cmul (g, 0) z))) (csub (cmul z z) (cadd (f, 0) (cmul (h, 0) z)))) as (x & y & N & X1 & X2).
  { rewrite <- Z. unfold q. cbn [peval]. destruct z as [z1 z2]. unfold csub, cadd, cmul, copp, c0. cbn [fst snd]. apply (f_equal2 (@pair R R)); ring. }
  exists x, y. split; [exact N|]. split.
  - transitivity (csub (cmul z (cmul z x)) (cadd (cmul (csub (cmul z z) (cadd (a, 0) (cmul (c, 0) z))) x) (cmul (copp (cadd (b, 0) (cmul (d, 0) z))) y))); [ring|]. rewrite X1. ring.
  - transitivity (csub (cmul z (cmul z y)) (cadd (cmul (copp (cadd (e, 0) (cmul (g, 0) z))) x) (cmul (csub (cmul z z) (cadd (f, 0) (cmul (h, 0) z))) y))); [ring|]. rewrite X2. ring.
Qed.
Lemma companion_spectrum a b c d e f g h : exists w V, let A := companion a b c d e f g h in
  all_eigenvalues A w /\ length w = 4%nat /\ length V = 4%nat /\ (forall row, In row V -> length row = 4%nat) /\ forall j, (j < 4)%nat -> right_eigenpair 4 A (nth j w (0, 0)) V j.
Proof.
  destruct (quartic_roots (- (c + h)) (c * h - d * g - a - f) (a * h + c * f - b * g - d * e) (a * f - b * e)) as (w & L & H). destruct w as [|z1 [|z2 [|z3 [|z4 [|]]]]]; try discriminate L.
  destruct (companion_eigenpair a b c d e f g h _ z1 H ltac:(cbn; tauto)) as (x1 & y1 & N1 & P1 & Q1). destruct (companion_eigenpair a b c d e f g h _ z2 H ltac:(cbn; tauto)) as (x2 & y2 & N2 & P2 & Q2).
  destruct (companion_eigenpair a b c d e f g h _ z3 H ltac:(cbn; tauto)) as (x3 & y3 & N3 & P3 & Q3). destruct (companion_eigenpair a b c d e f g h _ z4 H ltac:(cbn; tauto)) as (x4 & y4 & N4 & P4 & Q4).
  exists [z1; z2; z3; z4], [[x1; x2; x3; x4]; [y1; y2; y3; y4]; [cmul z1 x1; cmul z2 x2; cmul z3 x3; cmul z4 x4]; [cmul z1 y1; cmul z2 y2; cmul z3 y3; cmul z4 y4]].
  cbv zeta. split; [intros s; rewrite companion_det; exact (H s)|]. split; [reflexivity|]. split; [reflexivity|]. split; [intros row [<-|[<-|[<-|[<-|[]]]]]; reflexivity|]. clear H L.
  assert (G : forall (z x y : cplx) (V : list (list cplx)) j, (x <> c0 \/ y <> c0) ->
    cadd (cmul (a, 0) x) (cadd (cmul (b, 0) y) (cadd (cmul (c, 0) (cmul z x)) (cmul (d, 0) (cmul z y)))) = cmul z (cmul z x) ->
    cadd (cmul (e, 0) x) (cadd (cmul (f, 0) y) (cadd (cmul (g, 0) (cmul z x)) (cmul (h, 0) (cmul z y)))) = cmul z (cmul z y) ->
    cent V 0 j = x -> cent V 1 j = y -> cent V 2 j = cmul z x -> cent V 3 j = cmul z y -> right_eigenpair 4 (companion a b c d e f g h) z V j).
  { intros z x y V j N P Q E0 E1 E2 E3. split.
    - destruct N as [N|N]; [exists 0%nat|exists 1%nat]; rewrite ?E0, ?E1; split; [lia|exact N|lia|exact N].
    - intros i Hi. destruct i as [|[|[|[|]]]]; [| | | |lia]; cbn [map seq]; rewrite E0, E1, E2, E3; unfold csum, companion, ent; cbn [nth map].
      + set (m := cmul z x). unfold rsum, cmul. cbn [fold_right map fst snd]. destruct m as [m1 m2]. cbn [fst snd]. apply (f_equal2 (@pair R R)); ring.
      + set (m := cmul z y). unfold rsum, cmul. cbn [fold_right map fst snd]. destruct m as [m1 m2]. cbn [fst snd]. apply (f_equal2 (@pair R R)); ring.
      + rewrite <- P. set (m := cmul z x). set (m' := cmul z y). unfold rsum, cmul, cadd. cbn [fold_right map fst snd]. apply (f_equal2 (@pair R R)); ring.
      + rewrite <- Q. set (m := cmul z x). set (m' := cmul z y). unfold rsum, cmul, cadd. cbn [fold_right map fst snd]. apply (f_equal2 (@pair R R)); ring. }
  intros j Hj. destruct j as [|[|[|[|]]]]; [| | | |lia]; cbn [nth];
    [apply (G z1 x1 y1 _ _ N1 P1 Q1)|apply (G z2 x2 y2 _ _ N2 P2 Q2)|apply (G z3 x3 y3 _ _ N3 P3 Q3)|apply (G z4 x4 y4 _ _ N4 P4 Q4)]; reflexivity.
Qed.
