(* PTable.v -- lemmas for C49: fixed point formatting and uround *)
From Verif Require Import Base MString MIo SIo MPeriod MTable STable PBase PString PIo PIo2 PIo3 PIo5.
From Coq Require Import ZArith Lra Lia Sorted.
Local Open Scope string_scope.

Lemma Rltb_true x y : Rltb x y = true <-> x < y. Proof. unfold Rltb. destruct (Rlt_dec x y); split; congruence || tauto. Qed.
Lemma Rltb_no x y : Rltb x y = false <-> y <= x. Proof. unfold Rltb. destruct (Rlt_dec x y); split; try congruence; intros; lra. Qed.

Lemma round_even_near x : Rabs (IZR (round_even x) - x) <= 1 / 2.
Proof.
  unfold round_even. destruct (archimed x) as [A B]. assert (F : IZR (up x - 1) = IZR (up x) - 1) by (rewrite minus_IZR; reflexivity).
  cbv zeta. destruct (Rltb (x - IZR (up x - 1)) (1 / 2)) eqn:L1.
  - apply Rltb_true in L1. rewrite F in *. apply Rabs_le. lra.
  - apply Rltb_no in L1. assert (X : IZR (up x - 1 + 1) = IZR (up x)) by (rewrite plus_IZR, F; lra).
    destruct (Rltb (1 / 2) (x - IZR (up x - 1))) eqn:L2.
    + apply Rltb_true in L2. rewrite X. rewrite F in *. apply Rabs_le. lra.
    + apply Rltb_no in L2. rewrite F in *. destruct (Z.even (up x - 1)); [rewrite F|rewrite X]; apply Rabs_le; lra.
Qed.
Lemma Rabs_le_both a b : Rabs a <= b -> - b <= a <= b.
Proof. intros H. unfold Rabs in H. destruct (Rcase_abs a); lra. Qed.
Lemma IZR_lt_half a b : IZR a < IZR b + 1 -> (a <= b)%Z.
Proof. intros H. apply Zlt_succ_le. apply lt_IZR. rewrite succ_IZR. exact H. Qed.
Lemma round_even_int z : round_even (IZR z) = z.
Proof.
  pose proof (round_even_near (IZR z)) as H. apply Rabs_le_both in H. apply Z.le_antisymm; apply IZR_lt_half; lra.
Qed.
Lemma round_even_nonneg x : 0 <= x -> (0 <= round_even x)%Z.
Proof. intros H. pose proof (round_even_near x) as K. apply Rabs_le_both in K. apply IZR_lt_half. lra. Qed.
Lemma round_even_opp_int z : round_even (Rabs (IZR z)) = Z.abs z.
Proof. rewrite <- abs_IZR. apply round_even_int. Qed.

Lemma pow10_pos d : 0 < 10 ^ d. Proof. apply pow_lt. lra. Qed.
Lemma pow10_Z d : IZR (10 ^ Z.of_nat d) = 10 ^ d. Proof. rewrite <- pow_IZR. reflexivity. Qed.
Lemma pow10_Zpos d : (0 < 10 ^ Z.of_nat d)%Z. Proof. apply Z.pow_pos_nonneg; lia. Qed.
Lemma zchar_val z : (0 <= z < 10)%Z -> digit (zchar z) /\ (Z.of_nat (nat_of_ascii (zchar z)) - 48 = z)%Z.
Proof.
  intros H. unfold zchar, digit. rewrite nat_ascii_embedding by lia. lia.
Qed.
Lemma pad_len k z : String.length (pad_digits k z) = k.
Proof. revert z. induction k as [|k IH]; intros z; [reflexivity|]. cbn [pad_digits]. rewrite slen_app, IH. cbn. lia. Qed.
Lemma all_digits_app a b : all_digits (a ++ b) <-> all_digits a /\ all_digits b.
Proof. unfold all_digits. setoid_rewrite chars_app. setoid_rewrite in_app_iff. intuition. Qed.
Lemma all_digits_one c : digit c -> all_digits (String c ""). Proof. intros D x [<-|[]]. exact D. Qed.
Lemma pad_digits_ok k z : all_digits (pad_digits k z).
Proof.
  revert z. induction k as [|k IH]; intros z; [intros c []|]. cbn [pad_digits]. apply all_digits_app. split; [apply IH|]. apply all_digits_one, zchar_val, Z.mod_pos_bound. lia.
Qed.
Lemma int_value_one c : int_value (String c "") = (Z.of_nat (nat_of_ascii c) - 48)%Z.
Proof. cbn [int_value String.length]. change (10 ^ Z.of_nat 0)%Z with 1%Z. lia. Qed.
Lemma pad_value k z : (0 <= z)%Z -> int_value (pad_digits k z) = (z mod 10 ^ Z.of_nat k)%Z.
Proof.
  revert z. induction k as [|k IH]; intros z H.
  - cbn. rewrite Z.mod_1_r. reflexivity.
  - cbn [pad_digits]. rewrite int_value_app, IH by (apply Z.div_pos; lia). rewrite int_value_one. destruct (zchar_val (z mod 10)) as [_ ->]; [apply Z.mod_pos_bound; lia|].
    cbn [String.length]. change (10 ^ Z.of_nat 1)%Z with 10%Z. rewrite Nat2Z.inj_succ, Z.pow_succ_r by lia. pose proof (pow10_Zpos k). rewrite Z.rem_mul_r by lia. ring.
Qed.
Lemma zdigits_ok f z : (0 <= z)%Z -> all_digits (zdigits f z) /\ zdigits f z <> "".
Proof.
  revert z. induction f as [|f IH]; intros z H; cbn [zdigits].
  - split; [apply all_digits_one, zchar_val, Z.mod_pos_bound; lia|discriminate].
  - destruct (z <? 10)%Z eqn:L.
    + apply Z.ltb_lt in L. split; [apply all_digits_one, zchar_val; lia|discriminate].
    + destruct (IH (z / 10)%Z ltac:(apply Z.div_pos; lia)) as [A B]. split; [apply all_digits_app; split; [exact A|]; apply all_digits_one, zchar_val, Z.mod_pos_bound; lia|].
      intros K. apply sapp_eq_nil in K as [_ K]. discriminate.
Qed.
Lemma zdigits_value f z : (0 <= z < 2 * 2 ^ Z.of_nat f)%Z -> int_value (zdigits f z) = z.
Proof.
  revert z. induction f as [|f IH]; intros z H; cbn [zdigits].
  - change (2 * 2 ^ Z.of_nat 0)%Z with 2%Z in H. rewrite int_value_one. rewrite (proj2 (zchar_val (z mod 10) ltac:(apply Z.mod_pos_bound; lia))). apply Z.mod_small. lia.
  - destruct (z <? 10)%Z eqn:L.
    + apply Z.ltb_lt in L. rewrite int_value_one. apply zchar_val. lia.
    + apply Z.ltb_ge in L. rewrite int_value_app, IH.
      * rewrite int_value_one. rewrite (proj2 (zchar_val (z mod 10) ltac:(apply Z.mod_pos_bound; lia))). cbn [String.length]. change (10 ^ Z.of_nat 1)%Z with 10%Z. pose proof (Z.div_mod z 10). lia.
      * rewrite Nat2Z.inj_succ, Z.pow_succ_r in H by lia. split; [apply Z.div_pos; lia|]. apply Z.div_lt_upper_bound; lia.
Qed.
Lemma znat_value z : (0 <= z)%Z -> int_value (znat_str z) = z.
Proof.
  intros H. apply zdigits_value. split; [exact H|]. rewrite Z2Nat.id by apply Z.log2_nonneg. destruct (Z.eq_dec z 0) as [->|N]; [cbn; lia|].
  pose proof (Z.log2_spec z ltac:(lia)) as [_ K]. rewrite Z.pow_succ_r in K by apply Z.log2_nonneg. exact K.
Qed.
Lemma znat_ok z : (0 <= z)%Z -> all_digits (znat_str z) /\ znat_str z <> "".
Proof. apply zdigits_ok. Qed.
Lemma znat_small z : (0 <= z < 10)%Z -> String.length (znat_str z) = 1%nat.
Proof.
  intros H. unfold znat_str. destruct (Z.to_nat (Z.log2 z)); cbn [zdigits]; [reflexivity|]. replace (z <? 10)%Z with true by (symmetry; apply Z.ltb_lt; lia). reflexivity.
Qed.

(* fmt_fixed of a multiple of 10^-d *)
Lemma fmt_exact d z : (1 <= d)%nat ->
  fmt_fixed d (IZR z / 10 ^ d) = (if Rltb (IZR z) 0 then "-" else "") ++ znat_str (Z.abs z / 10 ^ Z.of_nat d) ++ "." ++ pad_digits d (Z.abs z).
Proof.
  intros D. unfold fmt_fixed. cbv zeta. pose proof (pow10_pos d) as P. assert (E : round_even (Rabs (IZR z / 10 ^ d) * 10 ^ d) = Z.abs z).
  { rewrite <- round_even_opp_int. f_equal. unfold Rdiv. rewrite Rabs_mult, (Rabs_pos_eq (/ 10 ^ d)) by (apply Rlt_le, Rinv_0_lt_compat, P). field. lra. }
  rewrite E. assert (S : Rltb (IZR z / 10 ^ d) 0 = Rltb (IZR z) 0).
  { destruct (Rltb (IZR z) 0) eqn:L.
    - apply Rltb_true in L. apply Rltb_true. apply Rmult_lt_reg_r with (10 ^ d); [exact P|]. unfold Rdiv. rewrite Rmult_assoc, Rinv_l by lra. lra.
    - apply Rltb_no in L. apply Rltb_no. apply Rle_mult_inv_pos; assumption. }
  rewrite S. destruct d as [|d]; [lia|]. reflexivity.
Qed.
Definition fixed_decimal (d : nat) (z : Z) : decimal :=
  {| d_sign := if Rltb (IZR z) 0 then "-" else ""; d_int := znat_str (Z.abs z / 10 ^ Z.of_nat d); d_dot := true; d_frac := pad_digits d (Z.abs z); d_exp := None |}.
Lemma fixed_decimal_ok d z : (1 <= d)%nat -> decimal_ok (fixed_decimal d z) /\ decimal_text (fixed_decimal d z) = fmt_fixed d (IZR z / 10 ^ d) /\ decimal_value (fixed_decimal d z) = IZR z / 10 ^ d.
Proof.
  intros D. pose proof (pow10_Zpos d) as PZ. pose proof (pow10_pos d) as P. assert (NN : (0 <= Z.abs z / 10 ^ Z.of_nat d)%Z) by (apply Z.div_pos; lia).
  destruct (znat_ok _ NN) as [O1 O2]. split; [|split].
  - unfold decimal_ok, fixed_decimal. cbn. split; [destruct (Rltb (IZR z) 0); [right; right|left]; reflexivity|]. split; [exact O1|]. split; [apply pad_digits_ok|]. split; [discriminate|]. split; [left; exact O2|exact I].
  - rewrite fmt_exact by exact D. unfold decimal_text, fixed_decimal. cbn [d_sign d_int d_dot d_frac d_exp]. rewrite sapp_nil. reflexivity.
  - unfold decimal_value, fixed_decimal. cbn [d_sign d_int d_dot d_frac d_exp]. rewrite frac_value_int, pad_len, pad_value, znat_value by lia. rewrite Rmult_1_r.
    assert (Q : IZR (Z.abs z) = IZR (Z.abs z / 10 ^ Z.of_nat d) * 10 ^ d + IZR (Z.abs z mod 10 ^ Z.of_nat d)).
    { rewrite <- pow10_Z, <- mult_IZR, <- plus_IZR. f_equal. pose proof (Z.div_mod (Z.abs z) (10 ^ Z.of_nat d)). lia. }
    replace (IZR (Z.abs z / 10 ^ Z.of_nat d) + IZR (Z.abs z mod 10 ^ Z.of_nat d) / 10 ^ d) with (IZR (Z.abs z) / 10 ^ d) by (rewrite Q; field; lra).
    unfold sign_factor. destruct (Rltb (IZR z) 0) eqn:L; cbn [String.eqb Ascii.eqb Bool.eqb].
    + apply Rltb_true in L. rewrite abs_IZR, Rabs_left by exact L. field. lra.
    + apply Rltb_no in L. rewrite abs_IZR, Rabs_pos_eq by exact L. field. lra.
Qed.
Lemma all_digits_nodot s : all_digits s -> free "." s.
Proof. intros D K. apply D in K. unfold digit in K. cbv in K. lia. Qed.
Lemma shows_rounded d x : (1 <= d)%nat -> shows d (fmt_fixed d (round_dec d x)) x.
Proof.
  intros D. unfold round_dec. set (z := round_even (x * 10 ^ d)). pose proof (pow10_pos d) as P. destruct (fixed_decimal_ok d z D) as [A [B C]]. split.
  - exists (IZR z / 10 ^ d). split; [rewrite <- B, <- C; apply decimal_denotes, A|]. pose proof (round_even_near (x * 10 ^ d)) as N. fold z in N.
    replace (IZR z / 10 ^ d - x) with ((IZR z - x * 10 ^ d) / 10 ^ d) by (field; lra). unfold Rdiv at 1. rewrite Rabs_mult, (Rabs_pos_eq (/ 10 ^ d)) by (apply Rlt_le, Rinv_0_lt_compat, P).
    unfold Rdiv at 2. apply Rmult_le_compat_r; [apply Rlt_le, Rinv_0_lt_compat, P|exact N].
  - rewrite fmt_exact by exact D. destruct (znat_ok (Z.abs z / 10 ^ Z.of_nat d)) as [O1 O2]; [apply Z.div_pos; [lia|apply pow10_Zpos]|].
    exists (if Rltb (IZR z) 0 then "-" else ""), (znat_str (Z.abs z / 10 ^ Z.of_nat d)), (pad_digits d (Z.abs z)). split; [reflexivity|]. split; [destruct (Rltb (IZR z) 0); [right|left]; reflexivity|].
    split; [exact O1|]. split; [exact O2|]. split; [apply pad_digits_ok|apply pad_len].
Qed.
