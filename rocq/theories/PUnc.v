(* PUnc.v -- calculations on uncertain numbers follow the calculations on reals to first order *)
From Verif Require Import Base MString MVec MBicycle MInertia MGeometry MMain MUnc PBase.
From Coq Require Import FunctionalExtensionality Lra.
From Coquelicot Require Import Coquelicot.
Local Open Scope string_scope.
Local Open Scope R_scope.

Section Track.
  (* the independent number that is varied *)
  Variable v : source.
  (* whether a deviation may be undefined *)
  Variable allow : Prop.
  (* u is the family f at 0 together with its derivative *)
  Definition tr (u : unum) (f : R -> R) : Prop := f 0 = nom u /\ is_derive f 0 (der u v).

  (* the result x on uncertain numbers and the family of results y on reals *)
  Definition rr {A B} (Q : A -> (R -> B) -> Prop) (x : res A) (y : R -> res B) : Prop :=
    match x with
    | Ok a => exists f, locally 0 (fun h => y h = Ok (f h)) /\ Q a f
    | Err (KeyError k) => locally 0 (fun h => y h = Err (KeyError k))
    | Err e => y 0 = Err e \/ (e = nan_deviation /\ allow)
    end.

  Lemma rr_ret {A B} (Q : A -> (R -> B) -> Prop) a f : Q a f -> rr Q (Ok a) (fun h => Ok (f h)).
  Proof. intros H. exists f. split; [apply filter_forall; reflexivity|exact H]. Qed.
  Lemma rr_err {A B} (Q : A -> (R -> B) -> Prop) e : rr Q (Err e) (fun _ => Err e).
  Proof. destruct e; cbn; try (left; reflexivity). apply filter_forall. reflexivity. Qed.
  Lemma rr_bind {A B A' B'} (P : A -> (R -> B) -> Prop) (Q : A' -> (R -> B') -> Prop) x y k kk :
    rr P x y -> (forall a f, P a f -> rr Q (k a) (fun h => kk h (f h))) -> rr Q (bind x k) (fun h => bind (y h) (kk h)).
  Proof.
    destruct x as [a|e].
    - intros [f [L H]] K. specialize (K a f H). cbn [bind]. destruct (k a) as [b|e].
      + destruct K as [g [L' G]]. exists g. split; [|exact G]. generalize (filter_and _ _ L L'). apply filter_imp. intros h [-> E]. exact E.
      + destruct e; cbn in K |- *; try (destruct K as [K|K]; [left|right; exact K]; rewrite (locally_singleton _ _ L); exact K).
        generalize (filter_and _ _ L K). apply filter_imp. intros h [-> E]. exact E.
    - intros E _. destruct e; cbn in E |- *; try (destruct E as [E|E]; [left; rewrite E; reflexivity|right; exact E]).
      revert E. apply filter_imp. intros h ->. reflexivity.
  Qed.
  (* the same, with the results at hand *)
  Lemma rr_bind0 {A B A' B'} (P : A -> (R -> B) -> Prop) (Q : A' -> (R -> B') -> Prop) x y k kk :
    rr P x y -> (forall a f, x = Ok a -> y 0 = Ok (f 0) -> P a f -> rr Q (k a) (fun h => kk h (f h))) -> rr Q (bind x k) (fun h => bind (y h) (kk h)).
  Proof.
    intros H K. apply (rr_bind (fun a f => x = Ok a /\ y 0 = Ok (f 0) /\ P a f)).
    - destruct x as [a|e]; [|exact H]. destruct H as [f [L H]]. exists f. split; [exact L|]. split; [reflexivity|]. split; [apply locally_singleton in L; exact L|exact H].
    - intros a f [X [Y H1]]. apply K; assumption.
  Qed.
  Lemma rr_mono {A B} (P Q : A -> (R -> B) -> Prop) x y : rr P x y -> (forall a f, P a f -> Q a f) -> rr Q x y.
  Proof. destruct x as [a|e]; [|auto]. intros [f [L H]] K. exists f. auto. Qed.
  Lemma rr_ext {A B} (Q : A -> (R -> B) -> Prop) x y y' : (forall h, y h = y' h) -> rr Q x y -> rr Q x y'.
  Proof. intros E. assert (y = y') as -> by (apply functional_extensionality, E). auto. Qed.
  (* ---- arithmetic ---- *)
  Lemma tr_ext u f g : (forall h, f h = g h) -> tr u f -> tr u g.
  Proof. intros E. assert (f = g) as -> by (apply functional_extensionality, E). auto. Qed.
  Lemma tr_cst r : tr (ucst r) (fun _ => r).
  Proof. split; [reflexivity|]. cbn. apply @is_derive_const. Qed.
  Lemma tr_add x y f g : tr x f -> tr y g -> tr (uadd x y) (fun h => f h + g h).
  Proof. intros [A B] [C D]. split; [cbn; rewrite A, C; reflexivity|]. cbn. apply @is_derive_plus; assumption. Qed.
  Lemma tr_sub x y f g : tr x f -> tr y g -> tr (usub x y) (fun h => f h - g h).
  Proof. intros [A B] [C D]. split; [cbn; rewrite A, C; reflexivity|]. cbn. apply @is_derive_minus; assumption. Qed.
  Lemma tr_mul x y f g : tr x f -> tr y g -> tr (umul x y) (fun h => f h * g h).
  Proof.
    intros [A B] [C D]. split; [cbn; rewrite A, C; reflexivity|]. cbn. rewrite <- A, <- C.
    apply (is_derive_mult f g 0 (der x v) (der y v) B D). intros n m. apply Rmult_comm.
  Qed.
  Lemma tr_neg x f : tr x f -> tr (uneg x) (fun h => - f h).
  Proof. intros [A B]. split; [cbn; rewrite A; reflexivity|]. cbn. apply @is_derive_opp. exact B. Qed.
  Lemma tr_pow x f n : tr x f -> tr (upow x n) (fun h => f h ^ n).
  Proof. intros [A B]. split; [cbn; rewrite A; reflexivity|]. cbn. rewrite <- A. apply is_derive_pow. exact B. Qed.
  Lemma tr_divc x f r : tr x f -> tr (udivc x r) (fun h => f h / r).
  Proof. intros [A B]. split; [cbn; rewrite A; reflexivity|]. cbn. unfold Rdiv. rewrite (Rmult_comm (der x v)). apply (is_derive_ext (fun h => / r * f h)); [intros; apply Rmult_comm|]. apply is_derive_scal. exact B. Qed.
  Lemma tr_comp F F' x f : tr x f -> is_derive F (nom x) F' -> tr (mkU (F (nom x)) (fun w => F' * der x w)) (fun h => F (f h)).
  Proof. intros [A B] D. split; [cbn; rewrite A; reflexivity|]. cbn. rewrite Rmult_comm. apply (is_derive_comp F f 0); [rewrite A; exact D|exact B]. Qed.
  Lemma tr_sin x f : tr x f -> tr (usin x) (fun h => sin (f h)).
  Proof. intros H. apply (tr_comp sin _ x f H). apply is_derive_sin. Qed.
  Lemma tr_cos x f : tr x f -> tr (ucos x) (fun h => cos (f h)).
  Proof. intros H. apply (tr_comp cos _ x f H). apply is_derive_cos. Qed.
  Lemma tr_atan x f : tr x f -> tr (uatan x) (fun h => atan (f h)).
  Proof.
    intros H. apply (tr_comp atan _ x f H). unfold Rdiv. rewrite Rmult_1_l. apply is_derive_Reals, derivable_pt_lim_atan.
  Qed.
  Lemma tr_cont x f : tr x f -> continuous f 0.
  Proof. intros [_ B]. apply (ex_derive_continuous (V := R_NormedModule) f 0). exists (der x v). exact B. Qed.
  Lemma tr_near x f (P : R -> Prop) : tr x f -> open P -> P (nom x) -> locally 0 (fun h => P (f h)).
  Proof. intros H O K. apply (tr_cont x f H). rewrite (proj1 H). apply O, K. Qed.
  Lemma rr_div x y f g : tr x f -> tr y g -> rr tr (udiv x y) (fun h => rdiv (f h) (g h)).
  Proof.
    intros X Y. unfold udiv. destruct (Req_EM_T (nom y) 0) as [E|E].
    - left. unfold rdiv. rewrite (proj1 Y). destruct (Req_EM_T (nom y) 0); [reflexivity|contradiction].
    - exists (fun h => f h / g h). split.
      + generalize (tr_near y g (fun z => z <> 0) Y (open_neq 0) E). apply filter_imp. intros h K. unfold rdiv. destruct (Req_EM_T (g h) 0); [contradiction|reflexivity].
      + destruct X as [A B], Y as [C D]. split; [cbn; rewrite A, C; reflexivity|]. cbn.
        replace (1 / nom y * der x v + - nom x / (nom y * (nom y * 1)) * der y v) with ((der x v * g 0 - f 0 * der y v) / g 0 ^ 2) by (rewrite A, C; field; exact E).
        apply is_derive_div; [exact B|exact D|rewrite C; exact E].
  Qed.
  Lemma rr_tan x f : tr x f -> rr tr (utan x) (fun h => rtan (f h)).
  Proof.
    intros X. unfold utan, rtan. unfold rdiv at 1. destruct (Req_EM_T (cos (nom x)) 0) as [E|E]; cbn [bind].
    - left. rewrite (proj1 X). unfold rdiv. destruct (Req_EM_T (cos (nom x)) 0); [reflexivity|contradiction].
    - exists (fun h => sin (f h) / cos (f h)). split.
      + assert (X' := tr_cos _ _ X). generalize (tr_near _ _ (fun z => z <> 0) X' (open_neq 0) E). apply filter_imp. intros h K. unfold rdiv. destruct (Req_EM_T (cos (f h)) 0); [contradiction|reflexivity].
      + change (tr (mkU (tan (nom x)) (fun w => (1 + tan (nom x) ^ 2) * der x w)) (fun h => tan (f h))). apply (tr_comp tan _ x f X).
        replace (1 + tan (nom x) ^ 2) with (tan (nom x) ^ 2 + 1) by ring. apply is_derive_tan. exact E.
  Qed.
  Lemma rr_sqrt x f : (f 0 = 0 -> allow) -> tr x f -> rr tr (usqrt x) (fun h => rsqrt (f h)).
  Proof.
    intros AL X. unfold usqrt, rsqrt at 1. destruct (Rlt_dec (nom x) 0) as [E|E]; cbn [bind].
    - left. unfold rsqrt. rewrite (proj1 X). destruct (Rlt_dec (nom x) 0); [reflexivity|contradiction].
    - destruct (Req_EM_T (nom x) 0) as [E'|E']; [right; split; [reflexivity|apply AL; rewrite (proj1 X); exact E']|]. assert (P : 0 < nom x) by lra. exists (fun h => sqrt (f h)). split.
      + generalize (tr_near _ _ (fun z => 0 < z) X (open_gt 0) P). apply filter_imp. intros h K. unfold rsqrt. destruct (Rlt_dec (f h) 0); [lra|reflexivity].
      + apply (tr_comp sqrt _ x f X). unfold Rdiv. rewrite Rmult_1_l. apply is_derive_Reals, derivable_pt_lim_sqrt, P.
  Qed.
  (* sqrt whose argument cannot be negative *)
  Lemma rr_sqrt' x f : (f 0 = 0 -> allow) -> tr x f -> 0 <= nom x -> rr tr (usqrt x) (fun h => Ok (sqrt (f h))).
  Proof.
    intros AL X N. generalize (rr_sqrt x f AL X). unfold rr. destruct (usqrt x) as [u|e] eqn:U.
    - intros [g [L T]]. assert (nom x <> 0). { intros Z. unfold usqrt, rsqrt in U. rewrite Z in U. destruct (Rlt_dec 0 0); [lra|]. cbn in U. destruct (Req_EM_T 0 0); [discriminate|lra]. }
      cbn. exists g. split; [|exact T]. assert (P : 0 < nom x) by lra. generalize (filter_and _ _ L (tr_near _ _ (fun z => 0 < z) X (open_gt 0) P)). apply filter_imp. intros h [E K]. unfold rsqrt in E. destruct (Rlt_dec (f h) 0); [lra|exact E].
    - unfold usqrt, rsqrt in U. destruct (Rlt_dec (nom x) 0); [lra|]. cbn in U. destruct (Req_EM_T (nom x) 0) as [Z|Z]; [|discriminate]. injection U as <-. intros _. right. split; [reflexivity|apply AL; rewrite (proj1 X); exact Z].
  Qed.
  Lemma rr_asin x f : (Rabs (f 0) = 1 -> allow) -> tr x f -> rr tr (uasin x) (fun h => rasin (f h)).
  Proof.
    intros AL X. unfold uasin, rasin at 1. destruct (Rlt_dec 1 (Rabs (nom x))) as [E|E]; cbn [bind].
    - left. unfold rasin. rewrite (proj1 X). destruct (Rlt_dec 1 (Rabs (nom x))); [reflexivity|contradiction].
    - destruct (Req_EM_T (Rabs (nom x)) 1) as [E'|E']; [right; split; [reflexivity|apply AL; rewrite (proj1 X); exact E']|]. assert (P : -1 < nom x < 1) by (unfold Rabs in *; destruct (Rcase_abs (nom x)); lra). exists (fun h => asin (f h)). split.
      + assert (O : open (fun z => -1 < z /\ z < 1)) by (apply open_and; [apply open_gt|apply open_lt]).
        generalize (tr_near _ _ _ X O P). apply filter_imp. intros h K. unfold rasin. destruct (Rlt_dec 1 (Rabs (f h))); [|reflexivity]. unfold Rabs in *; destruct (Rcase_abs (f h)); lra.
      + apply (tr_comp asin _ x f X). apply is_derive_Reals. replace (nom x ^ 2) with (Rsqr (nom x)) by (unfold Rsqr; ring). apply (derive_pt_eq_1 _ _ _ (derivable_pt_asin _ P)). apply derive_pt_asin.
  Qed.
End Track.
Arguments rr_ret {allow A B}.
Arguments rr_err {allow A B}.
Arguments rr_bind {allow A B A' B'}.
Arguments rr_bind0 {allow A B A' B'}.
Arguments rr_mono {allow A B}.
Arguments rr_ext {allow A B}.
