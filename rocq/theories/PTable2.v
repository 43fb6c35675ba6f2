(* PTable2.v -- lemmas for C49: uround and the cells *)
From Verif Require Import Base MString MIo SIo MPeriod MTable STable PBase PString PIo PIo2 PIo3 PIo5 PTable.
From Coq Require Import ZArith Lra Lia Sorted.
Local Open Scope string_scope.

Lemma first_digit_app j a b : (forall c, In c (chars a) -> c = "0"%char \/ c = "."%char) -> first_digit j (a ++ b) = first_digit (j + String.length a) b.
Proof.
  revert j. induction a as [|c a IH]; intros j H; cbn [append first_digit String.length]; [rewrite Nat.add_0_r; reflexivity|].
  destruct (H c (or_introl eq_refl)) as [-> | ->]; cbn [Ascii.eqb Bool.eqb orb]; rewrite IH by (intros; apply H; right; assumption); f_equal; lia.
Qed.
Lemma first_digit_app_some j a b p : first_digit j a = Some p -> first_digit j (a ++ b) = Some p.
Proof.
  revert j. induction a as [|c a IH]; intros j H; cbn [append first_digit] in *; [discriminate|]. destruct (Ascii.eqb c "0" || Ascii.eqb c "."); [apply IH, H|exact H].
Qed.
Lemma pad_zero k c : In c (chars (pad_digits k 0)) -> c = "0"%char.
Proof.
  induction k as [|k IH]; [intros []|]. cbn [pad_digits]. rewrite chars_app, in_app_iff. intros [K|[<-|[]]]; [apply IH, K|reflexivity].
Qed.
Lemma zchar_nz z : (0 < z < 10)%Z -> Ascii.eqb (zchar z) "0" = false /\ Ascii.eqb (zchar z) "." = false.
Proof.
  intros H. split; apply Ascii.eqb_neq; intros K; apply (f_equal nat_of_ascii) in K; unfold zchar in K; rewrite nat_ascii_embedding in K by lia; (change (nat_of_ascii "0") with 48%nat in K || change (nat_of_ascii ".") with 46%nat in K); lia.
Qed.
Lemma first_digit_pad k z j : (0 < z < 10 ^ Z.of_nat k)%Z ->
  exists p, (p < k)%nat /\ first_digit j (pad_digits k z) = Some (j + p)%nat /\ (10 ^ Z.of_nat (k - 1 - p) <= z < 10 ^ Z.of_nat (k - p))%Z.
Proof.
  revert z. induction k as [|k IH]; intros z H; [cbn in H; lia|]. cbn [pad_digits]. rewrite Nat2Z.inj_succ, Z.pow_succ_r in H by lia.
  destruct (Z.eq_dec (z / 10) 0) as [E|N].
  - exists k. split; [lia|]. pose proof (Z.div_mod z 10 ltac:(lia)) as DM. pose proof (Z.mod_pos_bound z 10 ltac:(lia)). split.
    + rewrite E. rewrite first_digit_app by (intros c K; left; eapply pad_zero, K). rewrite pad_len. cbn [first_digit]. destruct (zchar_nz (z mod 10)) as [-> ->]; [lia|]. reflexivity.
    + replace (S k - 1 - k)%nat with 0%nat by lia. replace (S k - k)%nat with 1%nat by lia. cbn. lia.
  - assert (P : (0 <= z / 10)%Z) by (apply Z.div_pos; lia). destruct (IH (z / 10)%Z) as [p [L [F [B1 B2]]]]; [split; [lia|apply Z.div_lt_upper_bound; lia]|].
    exists p. split; [lia|]. split; [apply first_digit_app_some, F|]. replace (S k - 1 - p)%nat with (S (k - 1 - p)) by lia. replace (S k - p)%nat with (S (k - p)) by lia.
    rewrite !Nat2Z.inj_succ, !Z.pow_succ_r by lia. pose proof (Z.div_mod z 10 ltac:(lia)) as DM. pose proof (Z.mod_pos_bound z 10 ltac:(lia)). lia.
Qed.

Lemma znat0 : znat_str 0 = "0". Proof. reflexivity. Qed.
Lemma fmt14 s : 0 <= s -> fmt_fixed 14 s = znat_str (round_even (s * 10 ^ 14) / 10 ^ 14) ++ "." ++ pad_digits 14 (round_even (s * 10 ^ 14)).
Proof. intros H. unfold fmt_fixed. cbv zeta. rewrite (proj2 (Rltb_no s 0) H), Rabs_pos_eq by exact H. reflexivity. Qed.
Lemma first_nz_head z : (10 ^ 14 <= z)%Z -> first_digit 0 (znat_str (z / 10 ^ 14) ++ "." ++ pad_digits 14 z) = Some 0%nat.
Proof.
  intros H. assert (P : (1 <= z / 10 ^ 14)%Z) by (apply Z.div_le_lower_bound; lia). remember (z / 10 ^ 14)%Z as y eqn:Ey.
  assert (Q : forall f y, (1 <= y < 2 * 2 ^ Z.of_nat f)%Z -> first_digit 0 (zdigits f y) = Some 0%nat).
  { clear. induction f as [|f IH]; intros y H; cbn [zdigits].
    - change (2 * 2 ^ Z.of_nat 0)%Z with 2%Z in H. assert (y = 1%Z) as -> by lia. reflexivity.
    - destruct (y <? 10)%Z eqn:L.
      + apply Z.ltb_lt in L. cbn [first_digit]. destruct (zchar_nz y) as [-> ->]; [lia|]. reflexivity.
      + apply Z.ltb_ge in L. apply first_digit_app_some, IH. rewrite Nat2Z.inj_succ, Z.pow_succ_r in H by lia. split; [apply Z.div_le_lower_bound; lia|]. apply Z.div_lt_upper_bound; lia. }
  apply first_digit_app_some. apply Q. split; [exact P|]. rewrite Z2Nat.id by apply Z.log2_nonneg. pose proof (Z.log2_spec y ltac:(lia)) as [_ K]. rewrite Z.pow_succ_r in K by apply Z.log2_nonneg. exact K.
Qed.

Lemma p14 : IZR (10 ^ 14) = 10 ^ 14. Proof. rewrite <- (pow10_Z 14). reflexivity. Qed.
Lemma p15 : 10 ^ 15 = 10 * 10 ^ 14. Proof. reflexivity. Qed.
Lemma scale14 s z : Rabs (IZR z - s * 10 ^ 14) <= 1 / 2 -> IZR z / 10 ^ 14 - 5 / 10 ^ 15 <= s <= IZR z / 10 ^ 14 + 5 / 10 ^ 15.
Proof.
  intros H. apply Rabs_le_both in H. pose proof (pow10_pos 14) as P. rewrite p15. set (q := 10 ^ 14) in *. replace (5 / (10 * q)) with (1 / 2 / q) by (field; lra).
  assert (I0 : 0 < / q) by (apply Rinv_0_lt_compat, P). split.
  - apply Rmult_le_reg_r with q; [exact P|]. replace ((IZR z / q - 1 / 2 / q) * q) with (IZR z - 1 / 2) by (field; lra). lra.
  - apply Rmult_le_reg_r with q; [exact P|]. replace ((IZR z / q + 1 / 2 / q) * q) with (IZR z + 1 / 2) by (field; lra). lra.
Qed.

Lemma round_half : round_even (1 / 2) = 0%Z.
Proof.
  unfold round_even. rewrite <- (up_tech (1 / 2) 0) by (cbn; lra). cbn [Z.add Z.sub Z.pos_sub Z.opp]. change (1 - 1)%Z with 0%Z.
  replace (Rltb (1 / 2 - 0) (1 / 2)) with false by (symmetry; apply Rltb_no; lra). replace (Rltb (1 / 2) (1 / 2 - 0)) with false by (symmetry; apply Rltb_no; lra). reflexivity.
Qed.
Section U.
  Variable str : pval -> string.
  (* the three cases of an uncertain number that is not almost zero *)
  Lemma uround_cases n s : 0 <= s -> 1 / 10 ^ 15 <= Rabs n ->
    (s <= 5 / 10 ^ 15 /\ uround str (PU n s) = Err UnboundLocalError) \/
    (1 - 5 / 10 ^ 15 <= s /\ exists m, uround str (PU n s) = Err (ValueError m)) \/
    (exists d, (1 <= d <= 14)%nat /\ 5 / 10 ^ 15 < s < 1 /\ / 10 ^ d <= s + 5 / 10 ^ 15 /\ s <= 10 / 10 ^ d + 5 / 10 ^ 15 /\
       uround str (PU n s) = Ok (fmt_fixed d (round_dec d n) ++ "+/-" ++ fmt_fixed d (round_dec d s))).
  Proof.
    intros Hs Hn. unfold uround. rewrite (proj2 (Rltb_no _ _) Hn). rewrite fmt14 by exact Hs. set (z := round_even (s * 10 ^ 14)).
    pose proof (round_even_near (s * 10 ^ 14)) as Nr. fold z in Nr. pose proof (scale14 s z Nr) as Sc.
    assert (Z0 : (0 <= z)%Z) by (apply round_even_nonneg; apply Rmult_le_pos; [exact Hs|apply Rlt_le, pow10_pos]).
    destruct (Z.eq_dec z 0) as [E|N].
    - left. split.
      + rewrite E in Sc. unfold Rdiv in Sc at 3. rewrite Rmult_0_l in Sc. lra.
      + rewrite E. replace (0 / 10 ^ 14)%Z with 0%Z by reflexivity. rewrite znat0. reflexivity.
    - destruct (Z_lt_ge_dec z (10 ^ 14)) as [L|G].
      2:{ right. left. split.
          - assert (1 <= IZR z / 10 ^ 14); [|lra]. apply Rmult_le_reg_r with (10 ^ 14); [apply pow10_pos|]. unfold Rdiv. rewrite Rmult_assoc, Rinv_l by (pose proof (pow10_pos 14); lra).
            rewrite Rmult_1_l, Rmult_1_r, <- p14. apply IZR_le. lia.
          - rewrite first_nz_head by lia. eexists. reflexivity. }
      right. right. rewrite Z.div_small by lia. rewrite znat0.
      destruct (first_digit_pad 14 z 2) as [p [Lp [F [B1 B2]]]]; [split; [lia|exact L]|].
      assert (FD : first_digit 0 ("0" ++ "." ++ pad_digits 14 z) = Some (2 + p)%nat).
      { rewrite first_digit_app by (intros c [<-|[]]; left; reflexivity). rewrite first_digit_app by (intros c [<-|[]]; right; reflexivity). exact F. }
      rewrite FD. cbn [Nat.add]. set (d := S p). exists d. assert (D : (1 <= d <= 14)%nat) by (unfold d; lia).
      pose proof (pow10_pos d) as Pd.
      assert (Ex : IZR (10 ^ Z.of_nat (14 - d)) / 10 ^ 14 = / 10 ^ d).
      { rewrite pow10_Z. replace (10 ^ 14) with (10 ^ d * 10 ^ (14 - d)) by (rewrite <- pow_add; f_equal; lia). pose proof (pow10_pos (14 - d)). field. lra. }
      assert (Ex2 : IZR (10 ^ Z.of_nat (14 - p)) / 10 ^ 14 = 10 / 10 ^ d).
      { replace (14 - p)%nat with (S (14 - d)) by (unfold d; lia). rewrite Nat2Z.inj_succ, Z.pow_succ_r, mult_IZR by lia. unfold Rdiv at 1. rewrite Rmult_assoc. fold (IZR (10 ^ Z.of_nat (14 - d)) / 10 ^ 14). rewrite Ex. reflexivity. }
      assert (B1' : / 10 ^ d <= IZR z / 10 ^ 14).
      { rewrite <- Ex. apply Rmult_le_compat_r; [apply Rlt_le, Rinv_0_lt_compat, pow10_pos|]. apply IZR_le. replace (14 - d)%nat with (14 - 1 - p)%nat by (unfold d; lia). exact B1. }
      assert (B2' : IZR z / 10 ^ 14 <= 10 / 10 ^ d).
      { rewrite <- Ex2. apply Rmult_le_compat_r; [apply Rlt_le, Rinv_0_lt_compat, pow10_pos|]. apply IZR_le. lia. }
      assert (Lo : 5 / 10 ^ 15 < s).
      { assert (NE : s <> 5 / 10 ^ 15). { intros Q. apply N. unfold z. rewrite Q, p15. replace (5 / (10 * 10 ^ 14) * 10 ^ 14) with (1 / 2) by (pose proof (pow10_pos 14); field; lra). apply round_half. }
        enough (5 / 10 ^ 15 <= s) by lra.
        assert (1 / 10 ^ 14 <= IZR z / 10 ^ 14) by (apply Rmult_le_compat_r; [apply Rlt_le, Rinv_0_lt_compat, pow10_pos|]; apply IZR_le; lia).
        assert (1 / 10 ^ 14 = 2 * (5 / 10 ^ 15)) by (rewrite p15; pose proof (pow10_pos 14); field; lra). lra. }
      assert (Up : s < 1).
      { assert (IZR z / 10 ^ 14 <= 1 - 1 / 10 ^ 14).
        { apply Rmult_le_reg_r with (10 ^ 14); [apply pow10_pos|]. replace (IZR z / 10 ^ 14 * 10 ^ 14) with (IZR z) by (pose proof (pow10_pos 14); field; lra).
          replace ((1 - 1 / 10 ^ 14) * 10 ^ 14) with (10 ^ 14 - 1) by (pose proof (pow10_pos 14); field; lra). rewrite <- p14, <- minus_IZR. apply IZR_le. lia. }
        assert (1 / 10 ^ 14 = 2 * (5 / 10 ^ 15)) by (rewrite p15; pose proof (pow10_pos 14); field; lra). assert (0 < 5 / 10 ^ 15) by (apply Rdiv_lt_0_compat; [lra|apply pow10_pos]). lra. }
      split; [exact D|]. split; [split; [exact Lo|exact Up]|]. split; [lra|]. split; [lra|].
      set (k := round_even (s * 10 ^ d)).
      assert (K0 : (0 <= k)%Z) by (apply round_even_nonneg; apply Rmult_le_pos; lra).
      assert (K1 : (k <= 11)%Z).
      { pose proof (round_even_near (s * 10 ^ d)) as Nk. fold k in Nk. apply Rabs_le_both in Nk. apply IZR_lt_half.
        assert (s * 10 ^ d <= 10 + 1 / 2); [|lra]. assert (s * 10 ^ d <= (10 / 10 ^ d + 5 / 10 ^ 15) * 10 ^ d) by (apply Rmult_le_compat_r; lra).
        replace ((10 / 10 ^ d + 5 / 10 ^ 15) * 10 ^ d) with (10 + 5 / 10 ^ 15 * 10 ^ d) in H by (field; pose proof (pow10_pos 15); lra).
        assert (10 ^ d <= 10 ^ 14) by (apply Rle_pow; [lra|lia]). assert (5 / 10 ^ 15 * 10 ^ d <= 5 / 10 ^ 15 * 10 ^ 14) by (apply Rmult_le_compat_l; [apply Rlt_le, Rdiv_lt_0_compat; [lra|apply pow10_pos]|exact H0]).
        replace (5 / 10 ^ 15 * 10 ^ 14) with (1 / 2) in H1 by (rewrite p15; pose proof (pow10_pos 14); field; lra). lra. }
      assert (LU : String.length (fmt_fixed d (round_dec d s)) = (d + 2)%nat).
      { unfold round_dec. fold k. rewrite fmt_exact by lia. replace (Rltb (IZR k) 0) with false by (symmetry; apply Rltb_no, IZR_le, K0). rewrite !slen_app, pad_len, znat_small; [cbn; lia|].
        split; [apply Z.div_pos; [lia|apply pow10_Zpos]|]. apply Z.div_lt_upper_bound; [apply pow10_Zpos|]. rewrite Z.abs_eq by exact K0. assert (10 ^ 1 <= 10 ^ Z.of_nat d)%Z by (apply Z.pow_le_mono_r; lia). change (10 ^ 1)%Z with 10%Z in H. lia. }
      rewrite LU. replace (d + 2 - 2)%nat with d by lia.
      assert (LN : (d + 2 <= String.length (fmt_fixed d (round_dec d n)))%nat).
      { unfold round_dec. rewrite fmt_exact by lia. rewrite !slen_app, pad_len. assert (NE : (0 <= Z.abs (round_even (n * 10 ^ d)) / 10 ^ Z.of_nat d)%Z) by (apply Z.div_pos; [lia|apply pow10_Zpos]).
        destruct (znat_ok _ NE) as [_ Q]. destruct (znat_str _); [congruence|]. cbn [String.length]. lia. }
      replace (String.length (fmt_fixed d (round_dec d n)) <? d + 2)%nat with false by (symmetry; apply Nat.ltb_ge; exact LN). reflexivity.
  Qed.

  Lemma fmt_free_slash d x : (1 <= d)%nat -> free "/" (fmt_fixed d (round_dec d x)).
  Proof. intros D. destruct (shows_rounded d x D) as [[v [V _]] _]. eapply denotes_free; [|exact V]. left. reflexivity. Qed.
  Lemma free_no_pm s : free "/" s -> contains "+/-" s = false.
  Proof.
    intros F. destruct (contains "+/-" s) eqn:C; [|reflexivity]. exfalso. apply contains_iff in C as [a [b ->]]. apply free_app in F as [_ F]. apply free_app in F as [F _]. apply F. right. left. reflexivity.
  Qed.
  Lemma unpack_fmt d n s : (1 <= d)%nat -> unpack_pm (fmt_fixed d (round_dec d n) ++ "+/-" ++ fmt_fixed d (round_dec d s)) = Ok (fmt_fixed d (round_dec d n), fmt_fixed d (round_dec d s)).
  Proof. intros D. unfold unpack_pm. rewrite cut_pm by (apply fmt_free_slash, D). rewrite free_no_pm by (apply fmt_free_slash, D). reflexivity. Qed.

  Lemma cells_spec source var b d : dget (tb_par b) source = Some d -> (forall v, dget d var = Some v -> std_ok v) ->
    (forall x, contains "+/-" (str (PF x)) = false) ->
    (exists cs, cells str source var b = Ok cs /\ cell_pair str (dget d var) cs) \/ (unprintable (dget d var) /\ cells str source var b = Err UnboundLocalError).
  Proof.
    intros G SO NP. unfold cells, dlook. rewrite G. cbn [bind]. destruct (dget d var) as [[x|n s]|] eqn:V; cbn [bind].
    - left. cbn [uround bind]. unfold unpack_pm. assert (C : cut_first "+/-" (str (PF x)) = None).
      { apply cut_first_none. intros K. apply contains_iff in K. rewrite NP in K. discriminate. }
      rewrite C. eexists. split; [reflexivity|]. constructor.
    - specialize (SO _ eq_refl). cbn in SO. destruct (Rlt_dec (Rabs n) (1 / 10 ^ 15)) as [L|L].
      + left. cbn [uround]. rewrite (proj2 (Rltb_true _ _) L). cbn [bind]. eexists. split; [reflexivity|]. constructor. exact L.
      + assert (L' : 1 / 10 ^ 15 <= Rabs n) by lra. destruct (uround_cases n s SO L') as [[A B]|[[A [m B]]|[e [A [B [C [D F]]]]]]].
        * right. split; [split; assumption|]. rewrite B. reflexivity.
        * left. rewrite B. cbn [bind]. eexists. split; [reflexivity|]. apply cp_large; assumption.
        * left. rewrite F. cbn [bind]. rewrite unpack_fmt by lia. eexists. split; [reflexivity|]. apply cp_rounded with (d := e); try assumption; [lra|lra|apply shows_rounded; lia|apply shows_rounded; lia].
    - left. eexists. split; [reflexivity|]. constructor.
  Qed.
End U.
