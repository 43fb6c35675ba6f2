(* PIo2.v -- float(text) reads exactly the decimal literals *)
From Verif Require Import Base MString MIo SIo PBase PString PIo.
From Coq Require Import ZArith Lra.
Local Open Scope string_scope.

Definition not_digit_first (s : string) : Prop := match s with String c _ => ~ digit c | "" => True end.
Lemma all_digits_cons c s : all_digits (String c s) <-> digit c /\ all_digits s.
Proof. unfold all_digits, chars. cbn. split; [intros H; split; auto|]. intros [H1 H2] d [<-|H]; auto. Qed.
Lemma all_digits_nil : all_digits "". Proof. intros c []. Qed.

Lemma take_digits_split s a b : take_digits s = (a, b) -> s = a ++ b /\ all_digits a /\ not_digit_first b.
Proof.
  revert a b. induction s as [|c s IH]; intros a b; cbn [take_digits].
  - intros H. injection H as <- <-. split; [reflexivity|]. split; [apply all_digits_nil|exact I].
  - destruct (is_digit c) eqn:E.
    + destruct (take_digits s) as [x y]. intros H. injection H as <- <-. destruct (IH x y eq_refl) as [-> [H1 H2]].
      split; [reflexivity|]. split; [apply all_digits_cons; split; [apply is_digit_spec, E|auto]|auto].
    + intros H. injection H as <- <-. split; [reflexivity|]. split; [apply all_digits_nil|]. cbn. rewrite <- is_digit_spec. congruence.
Qed.
Lemma take_digits_app a b : all_digits a -> not_digit_first b -> take_digits (a ++ b) = (a, b).
Proof.
  intros H1 H2. induction a as [|c a IH]; cbn [append take_digits].
  - destruct b as [|c b]; [reflexivity|]. cbn in *. destruct (is_digit c) eqn:E; [|reflexivity]. apply is_digit_spec in E. tauto.
  - apply all_digits_cons in H1. destruct H1 as [Hc H1]. rewrite (proj2 (is_digit_spec c) Hc). rewrite IH by auto. reflexivity.
Qed.

Definition not_sign_first (s : string) : Prop := match s with String c _ => c <> "-"%char /\ c <> "+"%char | "" => True end.
Lemma take_sign_split s neg r : take_sign s = (neg, r) -> exists sg, s = sg ++ r /\ sign_ok sg /\ neg = String.eqb sg "-".
Proof.
  destruct s as [|c s]; cbn.
  - intros H. injection H as <- <-. exists "". unfold sign_ok. auto.
  - destruct (Ascii.eqb c "-") eqn:E1; [apply Ascii.eqb_eq in E1 as ->|destruct (Ascii.eqb c "+") eqn:E2; [apply Ascii.eqb_eq in E2 as ->|]];
      intros H; injection H as <- <-; [exists "-"|exists "+"|exists ""]; unfold sign_ok; auto.
Qed.
Lemma take_sign_app sg r : sign_ok sg -> not_sign_first r -> take_sign (sg ++ r) = (String.eqb sg "-", r).
Proof.
  intros [->|[->| ->]] H; [|reflexivity|reflexivity]. destruct r as [|c r]; [reflexivity|]. cbn in *. destruct H.
  rewrite !aeqb_neq by auto. reflexivity.
Qed.

Lemma int_value_app a b : int_value (a ++ b) = (int_value a * 10 ^ Z.of_nat (String.length b) + int_value b)%Z.
Proof.
  induction a as [|c a IH]; [reflexivity|]. cbn [append int_value]. rewrite IH, slen_app, Nat2Z.inj_add, Z.pow_add_r by lia. ring.
Qed.
Lemma digits_acc_val acc s : digits_acc acc s = (acc * 10 ^ Z.of_nat (String.length s) + int_value s)%Z.
Proof.
  revert acc. induction s as [|c s IH]; intros acc; [cbn; ring|]. cbn [digits_acc String.length int_value].
  rewrite IH. unfold digit_val. rewrite Nat2Z.inj_succ, Z.pow_succ_r by lia. ring.
Qed.
Lemma frac_value_int s : frac_value s = IZR (int_value s) / 10 ^ String.length s.
Proof.
  induction s as [|c s IH]; [cbn; lra|]. cbn [frac_value int_value String.length]. rewrite IH, plus_IZR, mult_IZR, <- pow_IZR. cbn [pow].
  field. apply pow_nonzero. lra.
Qed.
Lemma p10 z : powerRZ 10 z <> 0. Proof. apply powerRZ_NOR. lra. Qed.
Lemma powerRZ_opp z : powerRZ 10 (- z) = / powerRZ 10 z.
Proof. apply powerRZ_neg'. Qed.
Lemma mantissa ip fp e :
  IZR (digits_acc 0 (ip ++ fp)) * powerRZ 10 (e - Z.of_nat (String.length fp))
  = (IZR (int_value ip) + frac_value fp) * powerRZ 10 e.
Proof.
  rewrite digits_acc_val, int_value_app, frac_value_int. rewrite Z.mul_0_l, Z.add_0_l, plus_IZR, mult_IZR, <- pow_IZR.
  unfold Z.sub. rewrite powerRZ_add by lra. rewrite powerRZ_opp, <- pow_powerRZ. field. apply pow_nonzero. lra.
Qed.

Definition exp_text (e : option (string * string * string)) : string :=
  match e with None => "" | Some (e, s, ds) => e ++ s ++ ds end.
Definition exp_ok (e : option (string * string * string)) : Prop :=
  match e with
  | None => True
  | Some (e, s, ds) => (e = "e" \/ e = "E") /\ sign_ok s /\ all_digits ds /\ ds <> ""
  end.
Definition exp_val (e : option (string * string * string)) : Z :=
  match e with
  | None => 0
  | Some (_, s, ds) => if String.eqb s "-" then - int_value ds else int_value ds
  end%Z.
Lemma digits_acc0 s : digits_acc 0 s = int_value s.
Proof. rewrite digits_acc_val. ring. Qed.
Lemma take_exp_some s z : take_exp s = Some z -> exists e, exp_ok e /\ s = exp_text e /\ z = exp_val e.
Proof.
  destruct s as [|c s]; cbn [take_exp].
  - intros H. injection H as <-. exists None. repeat split.
  - destruct (Ascii.eqb c "e" || Ascii.eqb c "E") eqn:E; [|discriminate].
    destruct (take_sign s) as [neg r] eqn:Es. destruct (take_digits r) as [d r'] eqn:Ed.
    destruct d as [|d0 d]; [discriminate|]. destruct r'; [|discriminate]. rewrite digits_acc0. intros H. injection H as <-.
    apply take_sign_split in Es as [sg [-> [Hsg ->]]]. apply take_digits_split in Ed as [-> [Hd _]].
    exists (Some (String c "", sg, String d0 d)). unfold exp_ok, exp_text, exp_val. split; [|split].
    + split; [|split; [auto|split; [auto|discriminate]]]. apply orb_true_iff in E. rewrite !Ascii.eqb_eq in E. destruct E as [->| ->]; auto.
    + cbn. rewrite sapp_nil. reflexivity.
    + reflexivity.
Qed.
Lemma digit_not_sign c : digit c -> c <> "-"%char /\ c <> "+"%char.
Proof. unfold digit. intros H. split; intros ->; cbv in H; lia. Qed.
Lemma take_exp_text e : exp_ok e -> take_exp (exp_text e) = Some (exp_val e).
Proof.
  destruct e as [[[e s] ds]|]; [|reflexivity]. cbn [exp_ok exp_text exp_val]. intros [He [Hs [Hd N]]].
  assert (T1 : take_sign (s ++ ds) = (String.eqb s "-", ds)).
  { apply take_sign_app; [auto|]. destruct ds as [|c ds]; [exact I|]. apply all_digits_cons in Hd. apply digit_not_sign. tauto. }
  assert (T2 : take_digits ds = (ds, "")) by (rewrite <- (sapp_nil ds) at 1; apply take_digits_app; [auto|exact I]).
  destruct He as [->| ->]; cbn [append take_exp Ascii.eqb Bool.eqb orb]; rewrite T1, T2; destruct ds as [|c ds]; try congruence; rewrite digits_acc0; reflexivity.
Qed.

Lemma exp_pow e : powerRZ 10 (exp_val e) =
  match e with None => 1 | Some (_, s, ds) => if String.eqb s "-" then / powerRZ 10 (int_value ds) else powerRZ 10 (int_value ds) end.
Proof. destruct e as [[[x s] ds]|]; [|reflexivity]. cbn. destruct (String.eqb s "-"); [apply powerRZ_opp|reflexivity]. Qed.
Lemma signed (b : bool) x : (if b then - x else x) = (if b then -1 else 1) * x.
Proof. destruct b; lra. Qed.

Lemma take_frac_split r fp r' : take_frac r = (fp, r') ->
  exists dot, r = (if dot : bool then "." else "") ++ fp ++ r' /\ all_digits fp /\ (dot = false -> fp = "").
Proof.
  destruct r as [|c r]; cbn [take_frac].
  - intros H. injection H as <- <-. exists false. split; [reflexivity|]. split; [apply all_digits_nil|reflexivity].
  - destruct (Ascii.eqb c ".") eqn:E.
    + apply Ascii.eqb_eq in E as ->. intros H. apply take_digits_split in H as [-> [H _]]. exists true. split; [reflexivity|]. split; [auto|discriminate].
    + intros H. injection H as <- <-. exists false. split; [reflexivity|]. split; [apply all_digits_nil|reflexivity].
Qed.

Theorem pfloat_iff s x : pfloat s = Ok x <-> denotes s x.
Proof.
  split.
  - unfold pfloat. destruct (take_sign (strip s)) as [neg r0] eqn:E0. destruct (take_digits r0) as [ip r1] eqn:E1.
    destruct (take_frac r1) as [fp r2] eqn:E2. destruct (ip ++ fp) as [|m0 m] eqn:Em; [discriminate|].
    destruct (take_exp r2) as [z|] eqn:E3; [|discriminate]. intros H.
    apply (f_equal (fun r => match r with Ok a => a | Err _ => 0 end)) in H. cbv beta iota zeta in H. subst x.
    apply take_sign_split in E0 as [sg [E0 [Hsg ->]]]. apply take_digits_split in E1 as [-> [Hip _]].
    apply take_frac_split in E2 as [dot [-> [Hfp Hdot]]]. apply take_exp_some in E3 as [e [He [-> ->]]].
    exists {| d_sign := sg; d_int := ip; d_dot := dot; d_frac := fp; d_exp := e |}. split; [|split].
    + split; [exact Hsg|]. split; [exact Hip|]. split; [exact Hfp|]. split; [exact Hdot|]. cbn. split.
      * destruct ip; [right; cbn in Em; congruence|left; discriminate].
      * destruct e as [[[? ?] ?]|]; exact He.
    + apply strip_trim_of. exact E0.
    + unfold decimal_value, sign_factor. cbn [d_sign d_int d_frac d_exp]. rewrite <- Em, mantissa, signed, <- exp_pow. ring.
  - intros [[sg ip dot fp e] [[Hsg [Hip [Hfp [Hdot [Hne He]]]]] [Ht ->]]]. cbn in Hsg, Hip, Hfp, Hdot, Hne.
    apply strip_trim_of in Ht. unfold decimal_text in Ht. cbn [d_sign d_int d_dot d_frac d_exp] in Ht, He.
    change (exp_ok e) in He. change (match e with None => "" | Some (e0, s0, ds) => e0 ++ s0 ++ ds end) with (exp_text e) in Ht.
    assert (Fexp : not_digit_first (exp_text e)).
    { destruct e as [[[x y] ds]|]; [|exact I]. cbn in He. destruct He as [[->| ->] _]; cbn; unfold digit; cbn; lia. }
    assert (Ffrac : not_digit_first ((if dot then "." else "") ++ fp ++ exp_text e)).
    { destruct dot; cbn; [unfold digit; cbn; lia|]. rewrite Hdot by reflexivity. exact Fexp. }
    assert (E0 : take_sign (strip s) = (String.eqb sg "-", ip ++ (if dot then "." else "") ++ fp ++ exp_text e)).
    { rewrite Ht. apply take_sign_app; [exact Hsg|]. destruct ip as [|c ip].
      - destruct dot; [cbn; split; discriminate|]. rewrite Hdot in Hne by reflexivity. destruct Hne; congruence.
      - cbn. apply digit_not_sign. apply all_digits_cons in Hip. tauto. }
    assert (E1 : take_digits (ip ++ (if dot then "." else "") ++ fp ++ exp_text e) = (ip, (if dot then "." else "") ++ fp ++ exp_text e))
      by (apply take_digits_app; assumption).
    assert (E2 : take_frac ((if dot then "." else "") ++ fp ++ exp_text e) = (fp, exp_text e)).
    { destruct dot.
      - cbn. apply take_digits_app; assumption.
      - rewrite Hdot by reflexivity. cbn [append]. unfold take_frac. destruct e as [[[x y] ds]|]; [|reflexivity].
        cbn in He. destruct He as [[->| ->] _]; reflexivity. }
    unfold pfloat. rewrite E0, E1, E2, (take_exp_text e He).
    assert (Em : ip ++ fp <> "") by (intros K; apply sapp_eq_nil in K; destruct K; subst; destruct Hne; congruence).
    destruct (ip ++ fp) as [|m0 m] eqn:Emm; [congruence|]. f_equal. rewrite <- Emm, mantissa, signed.
    unfold decimal_value, sign_factor. cbn [d_sign d_int d_frac d_exp]. rewrite exp_pow. ring.
Qed.
