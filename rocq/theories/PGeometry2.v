(* PGeometry2.v -- lemmas behind C08 and C19-C21 *)
From Verif Require Import Base MString PBase MBicycle MVec MInertia MGeometry SBicycle SInertia SGeometry PBicycle PBicycle2 PInertia PGeometry.
From Coq Require Import Lra Permutation ZArith.
Local Open Scope string_scope.
Local Open Scope R_scope.

(* ---------- C08: closure of the geometry ---------- *)
Lemma lam_equality_ok lam rF rR a b c e : lam_equality lam rF rR a b c = Ok e <->
  a + b <> 0 /\ (a + b) * (sin lam - e) = rF - rR + c * cos lam.
Proof.
  unfold lam_equality. split.
  - intros H. apply bind_ok in H. destruct H as [t [Ht H]]. apply rdiv_ok in Ht. destruct Ht as [N ->].
    injection H as <-. split; [exact N|]. field. exact N.
  - intros [N E]. rewrite rdiv_eq by exact N. cbn [bind]. f_equal. rewrite <- E. field. exact N.
Qed.
Lemma trail_ok rF lam fo ct cm : trail rF lam fo = Ok (ct, cm) <->
  cos lam <> 0 /\ ct * cos lam = rF * sin lam - fo /\ cm = rF * sin lam - fo.
Proof.
  unfold trail. split.
  - intros H. apply bind_ok in H. destruct H as [t [Ht H]]. apply rdiv_ok in Ht. destruct Ht as [N ->].
    injection H as <- <-. split; [exact N|]. split; field; exact N.
  - intros (N & E & ->). rewrite rdiv_eq by exact N. cbn [bind]. f_equal. f_equal; [rewrite <- E|]; field; exact N.
Qed.
Lemma closure rF rR a b c lam e ct cm :
  lam_equality lam rF rR a b c = Ok e -> trail rF lam b = Ok (ct, cm) ->
  let w := (a + b) * cos lam + c * sin lam in
  ahead w ct lam w (- rF) = b /\
  ahead w ct lam 0 (- rR) = - a + (a + b) * e * sin lam /\
  along lam w (- rF) - along lam 0 (- rR) = c + (a + b) * e * cos lam.
Proof.
  intros H1 H2. apply lam_equality_ok in H1. apply trail_ok in H2.
  destruct H1 as [N E], H2 as (C & T & _). cbv zeta. unfold ahead, along. pose proof (sc1 lam) as S.
  assert (RF : rF = rR + ((a + b) * (sin lam - e) - c * cos lam)) by lra.
  repeat split.
  - transitivity (- (ct * cos lam) + rF * sin lam); [ring|]. rewrite T. ring.
  - transitivity (- ((a + b) * (cos lam * cos lam) + c * sin lam * cos lam) - ct * cos lam + rR * sin lam); [ring|].
    rewrite T. rewrite RF. transitivity (- (a + b) * (cos lam * cos lam + sin lam * sin lam) + b + (a + b) * e * sin lam); [ring|].
    replace (cos lam * cos lam + sin lam * sin lam) with 1 by lra. ring.
  - rewrite RF. transitivity (c * (sin lam * sin lam + cos lam * cos lam) + (a + b) * e * cos lam); [ring|].
    rewrite S. ring.
Qed.

(* the guess and the roots *)
Lemma guess_sc s c : 0 < s -> let r := sqrt (s ^ 2 + c ^ 2) in
  0 < r /\ r ^ 2 = s ^ 2 + c ^ 2 /\ s = r * cos (atan (c / s)) /\ c = r * sin (atan (c / s)).
Proof.
  intros P r. assert (P2 : 0 < s ^ 2 + c ^ 2) by (pose proof (pow2_ge_0 c); pose proof (pow_lt s 2 P); lra).
  assert (Hr : 0 < r) by (apply sqrt_lt_R0; exact P2).
  assert (R2 : r ^ 2 = s ^ 2 + c ^ 2) by (apply pow2_sqrt; lra).
  assert (Q : sqrt (1 + (c / s)²) = r / s).
  { apply Rsqr_inj; [apply sqrt_pos | apply Rlt_le, Rdiv_lt_0_compat; auto |].
    rewrite Rsqr_sqrt by (pose proof (Rle_0_sqr (c / s)); lra).
    unfold Rsqr. replace (r / s * (r / s)) with (r ^ 2 / s ^ 2) by (field; lra). rewrite R2. field. lra. }
  split; [exact Hr|]. split; [exact R2|]. rewrite cos_atan, sin_atan, Q. split; field; lra.
Qed.
Lemma lam_roots rF rR a b c : 0 < a + b -> 
  let r := sqrt ((a + b) ^ 2 + c ^ 2) in let guess := atan (c / (a + b)) in
  forall lam, lam_equality lam rF rR a b c = Ok 0 <-> r * sin (lam - guess) = rF - rR.
Proof.
  intros P r guess lam. destruct (guess_sc (a + b) c P) as (Hr & R2 & A & B). fold r guess in Hr, R2, A, B.
  rewrite lam_equality_ok. rewrite sin_minus.
  assert (E : r * (sin lam * cos guess - cos lam * sin guess) = (a + b) * sin lam - c * cos lam).
  { transitivity ((r * cos guess) * sin lam - (r * sin guess) * cos lam); [ring|]. rewrite <- A, <- B. reflexivity. }
  rewrite E. split; [intros [_ H]; lra | intros H; split; lra].
Qed.

Lemma Rabs_def2_le x a : Rabs x <= a -> - a <= x <= a.
Proof. unfold Rabs. destruct (Rcase_abs x); lra. Qed.
Lemma lam_root_unique rF rR a b c : 0 < a + b ->
  let r := sqrt ((a + b) ^ 2 + c ^ 2) in let guess := atan (c / (a + b)) in
  (Rabs (rF - rR) <= r ->
     exists lam, lam_equality lam rF rR a b c = Ok 0 /\ Rabs (lam - guess) <= PI / 2 /\
       forall lam', lam_equality lam' rF rR a b c = Ok 0 -> Rabs (lam' - guess) <= PI / 2 -> lam' = lam) /\
  (r < Rabs (rF - rR) -> forall lam, lam_equality lam rF rR a b c <> Ok 0).
Proof.
  intros P r guess. destruct (guess_sc (a + b) c P) as (Hr & _). fold r in Hr.
  pose proof (lam_roots rF rR a b c P) as L. cbv zeta in L. fold r guess in L.
  split.
  - intros B. set (y := (rF - rR) / r).
    assert (Y : -1 <= y <= 1).
    { unfold y. apply Rabs_def2_le in B. split; apply (Rmult_le_reg_r r); auto; unfold Rdiv; rewrite Rmult_assoc, Rinv_l; lra. }
    exists (guess + asin y). assert (E : guess + asin y - guess = asin y) by ring.
    split; [|split].
    + apply L. rewrite E, sin_asin by exact Y. unfold y. field. lra.
    + rewrite E. pose proof (asin_bound y). apply Rabs_le. lra.
    + intros lam' H1 H2. apply L in H1. assert (S : sin (lam' - guess) = y) by (unfold y; rewrite <- H1; field; lra).
      apply Rabs_def2_le in H2. rewrite <- S, asin_sin by lra. ring.
  - intros B lam H. apply L in H. rewrite <- H in B. rewrite Rabs_mult, (Rabs_right r) in B by lra.
    assert (Rabs (sin (lam - guess)) <= 1) by (apply Rabs_le; apply SIN_bound). nra.
Qed.

(* calculate_benchmark_geometry *)
Lemma geom_inv newton mp par p : calculate_benchmark_geometry newton mp par = Ok p ->
  exists rF rR lam w fo ct cm,
    pv mp "nF" <> 0 /\ pv mp "nR" <> 0 /\ rF = pv mp "dF" / (2 * PI * pv mp "nF") /\ rR = pv mp "dR" / (2 * PI * pv mp "nR") /\
    trail rF lam fo = Ok (ct, cm) /\
    dget p "rF" = Some rF /\ dget p "rR" = Some rR /\ dget p "lam" = Some lam /\ dget p "w" = Some w /\ dget p "c" = Some ct /\
    (forall k, ~ In k ["rF"; "rR"; "lam"; "w"; "c"; "xcl"; "zcl"] -> dget p k = dget par k) /\
    ((dmem mp "w" = true /\ lam = PI / 180 * (90 - pv mp "gamma") /\ w = pv mp "w" /\ fo = pv mp "f") \/
     (dmem mp "w" = false /\ exists a b c,
        calculate_abc_geometry (pv mp "h1") (pv mp "h2") (pv mp "h3") (pv mp "h4") (pv mp "h5")
          (pv mp "d1") (pv mp "d2") (pv mp "d3") (pv mp "d4") (pv mp "d") = Ok (a, b, c) /\
        lambda_from_abc newton rF rR a b c = Ok lam /\ w = (a + b) * cos lam + c * sin lam /\ fo = b)).
Proof.
  intros H. unfold calculate_benchmark_geometry in H. step_bind H. step_bind H. step_bind H. step_bind H. step_bind H. step_bind H.
  repeat match goal with X : dlook _ _ = Ok _ |- _ => apply pv_of_dlook in X end.
  subst x x0 x2 x3. apply rdiv_ok in E1, E4. destruct E1 as [N1 X1], E4 as [N2 X2].
  assert (Q1 : x1 = pv mp "dF" / (2 * PI * pv mp "nF")) by (rewrite X1; field; split; [exact N1 | apply PI_neq0]).
  assert (Q2 : x4 = pv mp "dR" / (2 * PI * pv mp "nR")) by (rewrite X2; field; split; [exact N2 | apply PI_neq0]).
  clear X1 X2. step_bind H. destruct x as [[lam w] fo]. step_bind H. destruct x as [ct cm]. cbn [fst] in H.
  exists x1, x4, lam, w, fo, ct, cm.
  assert (D : forall d, (forall k, k <> "xcl" -> k <> "zcl" ->
               dget match dget mp "xcl" with
                    | None => d
                    | Some xcl => match dget mp "zcl" with None => dset d "xcl" xcl | Some zcl => dset (dset d "xcl" xcl) "zcl" zcl end
                    end k = dget d k)).
  { intros d k K1 K2. destruct (dget mp "xcl"), (dget mp "zcl"); rewrite ?dget_dset_neq by (apply String.eqb_neq; congruence); reflexivity. }
  assert (H' : p = match dget mp "xcl" with
                    | None => dset (dset (dset (dset (dset par "rF" x1) "rR" x4) "lam" lam) "w" w) "c" ct
                    | Some xcl => match dget mp "zcl" with None => dset (dset (dset (dset (dset (dset par "rF" x1) "rR" x4) "lam" lam) "w" w) "c" ct) "xcl" xcl | Some zcl => dset (dset (dset (dset (dset (dset (dset par "rF" x1) "rR" x4) "lam" lam) "w" w) "c" ct) "xcl" xcl) "zcl" zcl end
                    end) by congruence.
  clear H. rewrite H'. clear H'.
  split; [exact N1|]. split; [exact N2|]. split; [exact Q1|]. split; [exact Q2|]. split; [exact E0|].
  rewrite !D by discriminate.
  repeat match goal with |- ?A /\ ?B => split end.
  1-5: rewrite !dget_dset; cbn [String.eqb Ascii.eqb Bool.eqb]; reflexivity.
  - intros k K. cbn [In] in K. rewrite D by (intros ->; tauto).
    rewrite !dget_dset_neq by (apply String.eqb_neq; intros ->; tauto). reflexivity.
  - clear D. destruct (dmem mp "w"); repeat step_bind E.
    + left. split; [reflexivity|].
      repeat match goal with X : dlook _ _ = Ok _ |- _ => apply pv_of_dlook in X end. subst.
      injection E; intros; subst; repeat split; reflexivity.
    + right. split; [reflexivity|].
      repeat match goal with X : dlook _ _ = Ok _ |- _ => apply pv_of_dlook in X end. subst.
      match goal with X : calculate_abc_geometry _ _ _ _ _ _ _ _ _ _ = Ok ?y |- _ => destruct y as [[a b] c] end.
      step_bind E. exists a, b, c. injection E; intros; subst. repeat split; assumption.
Qed.

(* ---------- C19: cartesian ---------- *)
Lemma prod_sizes_pos {A} (l : list (list A)) : Forall (fun a => a <> []) l -> (0 < prod_sizes l)%nat.
Proof.
  induction 1 as [|a l N F IH]; [unfold prod_sizes; simpl; lia|]. destruct a; [congruence|]. change (0 < length (a :: a0) * prod_sizes l)%nat. simpl length. nia.
Qed.
Lemma lex_length {A} (l : list (list A)) : length (lex l) = prod_sizes l.
Proof.
  induction l as [|a l IH]; [reflexivity|]. simpl. unfold prod_sizes; simpl. fold (@prod_sizes A l). rewrite <- IH.
  clear IH. induction a as [|x a IHa]; [reflexivity|]. simpl. rewrite app_length, map_length, IHa. reflexivity.
Qed.
Lemma col_length {A} (a : list A) m : length (flat_map (fun x => repeat x m) a) = (length a * m)%nat.
Proof. induction a; simpl; [reflexivity|]. rewrite app_length, repeat_length. lia. Qed.
Lemma map_nth_seq {A} (l : list A) d : map (fun i => nth i l d) (seq 0 (length l)) = l.
Proof.
  induction l as [|x l IH]; [reflexivity|]. simpl. f_equal. rewrite <- seq_shift, map_map. exact IH.
Qed.
Lemma map_ext_seq {A} (f g : nat -> A) n k : (forall i, (n <= i < n + k)%nat -> f i = g i) -> map f (seq n k) = map g (seq n k).
Proof. intros H. apply map_ext_in. intros i Hi. apply in_seq in Hi. apply H. exact Hi. Qed.
Lemma seq_shift_n m n k : map (fun i => m + i)%nat (seq n k) = seq (m + n) k.
Proof. revert n. induction k; intros n; simpl; [reflexivity|]. f_equal. rewrite IHk. f_equal. lia. Qed.
Lemma nth_repeat_lt {A} (x d : A) m i : (i < m)%nat -> nth i (repeat x m) d = x.
Proof. revert i. induction m; intros [|i] Hi; simpl; auto; try lia. apply IHm. lia. Qed.
Lemma glue_core {A} (zero : A) (block : list (list A)) (d : list A) a :
  let m := length block in (0 < m)%nat ->
  map (fun i => nth i (flat_map (fun x => repeat x m) a) zero :: nth (i mod m) block d) (seq 0 (length a * m))
  = flat_map (fun x => map (cons x) block) a.
Proof.
  intros m M. induction a as [|x a IH]; [reflexivity|]. cbn [length]. rewrite Nat.mul_succ_l, Nat.add_comm, seq_app, map_app. cbn [flat_map].
  f_equal.
  - transitivity (map (fun i => x :: nth i block d) (seq 0 m)).
    + apply map_ext_seq. intros i Hi. rewrite app_nth1 by (rewrite repeat_length; lia). rewrite Nat.mod_small by lia.
      f_equal. apply nth_repeat_lt. lia.
    + rewrite <- (map_map (fun i => nth i block d) (cons x)). unfold m. rewrite map_nth_seq. reflexivity.
  - rewrite <- IH. replace (seq (0 + m) (length a * m)) with (map (fun i => m + i)%nat (seq 0 (length a * m))) by (rewrite seq_shift_n; f_equal; lia). rewrite map_map. apply map_ext_seq. intros i Hi.
    rewrite app_nth2 by (rewrite repeat_length; lia). rewrite repeat_length. f_equal.
    + f_equal. lia.
    + f_equal. rewrite <- (Nat.mod_add i 1 m) by lia. f_equal. lia.
Qed.
Lemma cartesian_into_lex {A} (zero : A) l : l <> [] -> Forall (fun a => a <> []) l ->
  cartesian_into zero l (prod_sizes l) = Ok (lex l).
Proof.
  induction l as [|a l IH]; [congruence|]. intros _ F. inversion F as [|? ? Na Fl]; subst.
  cbn [cartesian_into]. assert (La : (0 < length a)%nat) by (destruct a; [congruence | simpl; lia]).
  assert (P : prod_sizes (a :: l) = (length a * prod_sizes l)%nat) by reflexivity.
  rewrite P. replace (length a * prod_sizes l / length a)%nat with (prod_sizes l) by (rewrite Nat.mul_comm, Nat.div_mul; lia).
  unfold assign_col. rewrite col_length, Nat.eqb_refl. cbn [bind].
  pose proof (prod_sizes_pos l Fl) as Pl. destruct l as [|b l'].
  - f_equal. cbn [lex]. simpl (prod_sizes []). clear. induction a; simpl; [reflexivity|]. f_equal. assumption.
  - rewrite Nat.min_l by nia. rewrite IH by (congruence || assumption). cbn [bind]. f_equal. unfold glue_block.
    assert (LL : length (lex (b :: l')) = prod_sizes (b :: l')) by apply lex_length. rewrite <- LL in *.
    change (lex (a :: b :: l')) with (flat_map (fun x => map (cons x) (lex (b :: l'))) a).
    rewrite <- (glue_core zero (lex (b :: l')) (repeat zero (length (b :: l'))) a) by exact Pl.
    apply map_ext_seq. intros i Hi. f_equal. destruct (Nat.ltb_spec i (Nat.max (length (lex (b :: l'))) (length a * length (lex (b :: l'))))); [reflexivity | lia].
Qed.
Lemma lex_in {A} (l : list (list A)) t : In t (lex l) <-> Forall2 (fun x a => In x a) t l.
Proof.
  revert t. induction l as [|a l IH]; intros t; cbn [lex].
  - split; [intros [<-|[]]; constructor | intros H; inversion H; left; reflexivity].
  - rewrite in_flat_map. split.
    + intros (x & Hx & H). apply in_map_iff in H. destruct H as (u & <- & Hu). constructor; [exact Hx | apply IH; exact Hu].
    + intros H. inversion H as [|x ? u ? Hx Hu]; subst. exists x. split; [exact Hx|]. apply in_map, IH, Hu.
Qed.
Lemma nodup_app_s {A} (l l' : list A) : NoDup l -> NoDup l' -> (forall x, In x l -> ~ In x l') -> NoDup (l ++ l')%list.
Proof.
  induction 1 as [|x l N H IH]; intros H' D; [exact H'|]. simpl. constructor.
  - rewrite in_app_iff. intros [K|K]; [contradiction | exact (D x (or_introl eq_refl) K)].
  - apply IH; auto. intros y Hy. apply D. right. exact Hy.
Qed.
Lemma lex_nodup {A} (l : list (list A)) : Forall (@NoDup A) l -> NoDup (lex l).
Proof.
  induction 1 as [|a l N F IH]; cbn [lex]; [repeat constructor; auto|].
  induction N as [|x a Nx Na IHa]; [constructor|]. cbn [flat_map]. apply nodup_app_s; [|exact IHa|].
  - apply FinFun.Injective_map_NoDup; [|exact IH]. intros u v E. congruence.
  - intros t H K. apply in_map_iff in H. destruct H as (u & <- & _). apply in_flat_map in K. destruct K as (y & Hy & K).
    apply in_map_iff in K. destruct K as (v & E & _). injection E as -> _. contradiction.
Qed.
(* position i of the enumeration: mixed-radix digits *)
Lemma lex_positions {A} (d : A) (a : list A) l i j : (i < length a)%nat -> (j < prod_sizes l)%nat ->
  nth (i * prod_sizes l + j) (lex (a :: l)) [] = nth i a d :: nth j (lex l) [].
Proof.
  revert i. induction a as [|x a IH]; intros i Hi Hj; [simpl in Hi; lia|]. cbn [lex flat_map].
  rewrite <- lex_length in *. destruct i as [|i].
  - simpl. rewrite app_nth1 by (rewrite map_length; exact Hj).
    rewrite (nth_indep _ [] (cons x [])) by (rewrite map_length; exact Hj). rewrite map_nth. reflexivity.
  - rewrite app_nth2 by (rewrite map_length; nia). rewrite map_length.
    replace (S i * length (lex l) + j - length (lex l))%nat with (i * length (lex l) + j)%nat by nia.
    cbn [lex] in IH. rewrite IH; [reflexivity | simpl in Hi; lia | exact Hj].
Qed.
