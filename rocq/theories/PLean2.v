(* PLean2.v -- the checker run on the generated program: units, mirror image, reversal *)
From Coq Require Import Lra Lia ZArith FMapPositive.
From Verif Require Import Base MString MHeap MBicycle MVec MInertia MSets MModels MModels2 SModels SModels2 PBase MLean MLeanProg MLean2 SLean PLean.
Local Open Scope string_scope.
Local Open Scope R_scope.

(* ---- the two groups of factors ---- *)
Definition W3 : Type := (Z * Z * Z)%type.
Definition w3add (a b : W3) : W3 := match a, b with (x, y, z), (x', y', z') => (x + x', y + y', z + z')%Z end.
Definition w3opp (a : W3) : W3 := match a with (x, y, z) => (- x, - y, - z)%Z end.
Definition w30 : W3 := (0, 0, 0)%Z.
Definition w3eqb (a b : W3) : bool := match a, b with (x, y, z), (x', y', z') => (Z.eqb x x' && Z.eqb y y' && Z.eqb z z')%bool end.
Definition w3half (a : W3) : option W3 := match a with (x, y, z) => if (Z.even x && Z.even y && Z.even z)%bool then Some (Z.div2 x, Z.div2 y, Z.div2 z) else None end.
Definition act3 (u : units) (a : W3) : R := match a with (x, y, z) => powerRZ (u_mass u) x * powerRZ (u_length u) y * powerRZ (u_time u) z end.

Lemma w3eqb_ok a b : w3eqb a b = true -> a = b.
Proof. destruct a as [[x y] z], b as [[x' y'] z']. cbn. intros H. apply andb_prop in H. destruct H as [H H3]. apply andb_prop in H. destruct H as [H1 H2]. apply Z.eqb_eq in H1, H2, H3. congruence. Qed.
Section Units.
  Variable u : units.
  Hypothesis pu : positive_units u.
  Lemma act3_pos a : 0 < act3 u a.
  Proof. destruct pu as (A & B & C). destruct a as [[x y] z]. cbn. repeat apply Rmult_lt_0_compat; apply powerRZ_lt; assumption. Qed.
  Lemma act3_0 : act3 u w30 = 1. Proof. cbn. ring. Qed.
  Lemma act3_add a b : act3 u (w3add a b) = act3 u a * act3 u b.
  Proof. destruct pu as (A & B & C). destruct a as [[x y] z], b as [[x' y'] z']. cbn [w3add act3]. rewrite !powerRZ_add by lra. ring. Qed.
  Lemma act3_opp a : act3 u (w3opp a) = / act3 u a.
  Proof.
    assert (H : act3 u (w3opp a) * act3 u a = 1).
    { rewrite <- act3_add. destruct a as [[x y] z]. cbn [w3add w3opp]. rewrite !Z.add_opp_diag_l. exact act3_0. }
    pose proof (act3_pos a). apply Rmult_eq_reg_r with (act3 u a); [|lra]. rewrite H. field. lra.
  Qed.
  Lemma act3_trig_sin a x : w3eqb a w30 = true -> sin (act3 u a * x) = act3 u a * sin x.
  Proof. intros H. apply w3eqb_ok in H. subst a. rewrite act3_0, !Rmult_1_l. reflexivity. Qed.
  Lemma act3_trig_cos a x : w3eqb a w30 = true -> cos (act3 u a * x) = cos x.
  Proof. intros H. apply w3eqb_ok in H. subst a. rewrite act3_0, !Rmult_1_l. reflexivity. Qed.
  Lemma act3_half a b x : w3half a = Some b -> (act3 u a * x < 0 <-> x < 0) /\ (0 <= x -> sqrt (act3 u a * x) = act3 u b * sqrt x).
  Proof.
    intros H. pose proof (act3_pos a) as PA. pose proof (act3_pos b) as PB. split.
    - split; intros L; [destruct (Rlt_le_dec x 0) as [G|G]; [exact G|]; assert (0 <= act3 u a * x) by (apply Rmult_le_pos; lra); lra|].
      assert (0 < act3 u a * (- x)) by (apply Rmult_lt_0_compat; lra). lra.
    - intros X.
      assert (E : act3 u a = act3 u b * act3 u b).
      { rewrite <- act3_add. f_equal. destruct a as [[p q] r]. cbn in H. destruct (Z.even p) eqn:E1, (Z.even q) eqn:E2, (Z.even r) eqn:E3; cbn in H; try discriminate.
        injection H as <-. cbn. apply Zeven_bool_iff in E1, E2, E3. apply Zeven_div2 in E1, E2, E3.
        rewrite E1 at 1. rewrite E2 at 1. rewrite E3 at 1. f_equal; [f_equal|]; ring. }
      rewrite E, sqrt_mult_alt by (apply Rle_0_sqr). rewrite sqrt_square by lra. reflexivity.
  Qed.
End Units.

Definition act2 (b : bool) : R := if b then -1 else 1.
Definition w2half (b : bool) : option bool := if b then None else Some false.
Lemma act2_0 : act2 false = 1. Proof. reflexivity. Qed.
Lemma act2_add a b : act2 (xorb a b) = act2 a * act2 b. Proof. destruct a, b; cbn; ring. Qed.
Lemma act2_opp a : act2 a = / act2 a. Proof. destruct a; cbn; field. Qed.
Lemma act2_nz a : act2 a <> 0. Proof. destruct a; cbn; lra. Qed.
Lemma act2_eqb a b : Bool.eqb a b = true -> act2 a = act2 b. Proof. intros H. apply Bool.eqb_prop in H. congruence. Qed.
Lemma act2_sin a x : true = true -> sin (act2 a * x) = act2 a * sin x.
Proof. intros _. destruct a; cbn; [replace (-1 * x) with (- x) by ring; rewrite sin_neg; ring|rewrite !Rmult_1_l; reflexivity]. Qed.
Lemma act2_cos a x : true = true -> cos (act2 a * x) = cos x.
Proof. intros _. destruct a; cbn; [replace (-1 * x) with (- x) by ring; apply cos_neg|rewrite !Rmult_1_l; reflexivity]. Qed.
Lemma act2_half a b x : w2half a = Some b -> (act2 a * x < 0 <-> x < 0) /\ (0 <= x -> sqrt (act2 a * x) = act2 b * sqrt x).
Proof. destruct a; [discriminate|]. intros H. injection H as <-. cbn. rewrite !Rmult_1_l. tauto. Qed.

(* ---- the weights of the results ---- *)
Definition row_name (i : nat) : string := nth i full_states "".
Definition in_name (i : nat) : string := nth i full_inputs "".
(* the outputs: the positions and their rates *)
Definition out_name (i : nat) : string := nth (if Nat.ltb i 9 then i else i - 9)%nat full_states "".
Section Expected.
  Variable W : Type.
  Variables (wadd : W -> W -> W) (wopp : W -> W) (w : string -> W) (time : W).
  Definition rate (k : string) : W := wadd (w k) (wopp time).
  Definition wA (i j : nat) : W := wadd (rate (row_name i)) (wopp (w (row_name j))).
  Definition wB (i j : nat) : W := wadd (rate (row_name i)) (wopp (w (in_name j))).
  Definition w_out (i : nat) : W := if Nat.ltb i 9 then w (out_name i) else rate (out_name i).
  Definition wC (i j : nat) : W := wadd (w_out i) (wopp (w (row_name j))).
  Definition wD (i j : nat) : W := wadd (w_out i) (wopp (w (in_name j))).
End Expected.

Definition is_odd (l : list string) (k : string) : bool := smem k l.
Lemma units_checked : weights_ok W3 w3add w3opp w30 w3eqb (fun a => w3eqb a w30) w3half lean_program (fun k => AW (dimension k)) w30
  (wA W3 w3add w3opp dimension (0, 0, 1)%Z) (wB W3 w3add w3opp dimension (0, 0, 1)%Z) (wC W3 w3add w3opp dimension (0, 0, 1)%Z) (wD W3 w3add w3opp dimension (0, 0, 1)%Z) = true.
Proof. vm_cast_no_check (eq_refl true). Qed.
Definition sign_weights (l : list string) (time : bool) : bool :=
  weights_ok bool xorb (fun b => b) false Bool.eqb (fun _ => true) w2half lean_program (fun k => AW (is_odd l k)) false
    (wA bool xorb (fun b => b) (is_odd l) time) (wB bool xorb (fun b => b) (is_odd l) time) (wC bool xorb (fun b => b) (is_odd l) time) (wD bool xorb (fun b => b) (is_odd l) time).
Lemma mirror_checked : sign_weights lateral false = true.
Proof. vm_cast_no_check (eq_refl true). Qed.
Lemma reversal_checked : sign_weights reversed true = true.
Proof. vm_cast_no_check (eq_refl true). Qed.
Lemma plain_checked : sign_weights [] false = true.
Proof. vm_cast_no_check (eq_refl true). Qed.
