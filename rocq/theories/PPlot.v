(* PPlot.v -- lemmas for C50 *)
From Verif Require Import Base PBase MPlot SPlot.
From Coq Require Import ZArith Lra Lia.

Lemma floor_spec x : npfloor x <= x < npfloor x + 1.
Proof. unfold npfloor. rewrite minus_IZR. destruct (archimed x) as [A B]. lra. Qed.
Lemma floor_unique x z : IZR z <= x < IZR z + 1 -> npfloor x = IZR z.
Proof.
  intros H. unfold npfloor. f_equal. rewrite <- (up_tech x z); [lia|lra|rewrite plus_IZR; lra].
Qed.
Lemma ceil_unique x z : IZR z - 1 < x <= IZR z -> npceil x = IZR z.
Proof. intros H. unfold npceil. rewrite (floor_unique (- x) (- z)); rewrite opp_IZR; [lra|lra]. Qed.

(* the number of turns for |first| in [180 (2k-1), 180 (2k+1)) *)
Lemma turns f k : (0 <= k)%Z -> 180 * (2 * IZR k - 1) <= Rabs f < 180 * (2 * IZR k + 1) -> npceil (npfloor (Rabs (f / 180)) / 2) = IZR k.
Proof.
  intros K H. assert (E : Rabs (f / 180) = Rabs f / 180). { unfold Rdiv. rewrite Rabs_mult, (Rabs_pos_eq (/ 180)) by lra. reflexivity. }
  rewrite E. pose proof (Rabs_pos f) as P. pose proof (floor_spec (Rabs f / 180)) as F. unfold npfloor at 1 2 in F.
  set (m := (up (Rabs f / 180) - 1)%Z) in *. assert (M : npfloor (Rabs f / 180) = IZR m) by reflexivity. rewrite M.
  assert (L : (2 * k - 1 <= m)%Z). { apply Z.lt_pred_le. apply lt_IZR. rewrite <- Z.sub_1_r, !minus_IZR, mult_IZR. lra. }
  assert (U : (m <= 2 * k)%Z). { apply Z.lt_succ_r. apply lt_IZR. unfold Z.succ. rewrite plus_IZR, mult_IZR. lra. }
  apply ceil_unique. assert (C : m = (2 * k - 1)%Z \/ m = (2 * k)%Z) by lia. destruct C as [-> | ->]; rewrite ?minus_IZR, mult_IZR; lra.
Qed.
Lemma turns_exist f : exists k, (0 <= k)%Z /\ 180 * (2 * IZR k - 1) <= Rabs f < 180 * (2 * IZR k + 1).
Proof.
  pose proof (floor_spec ((Rabs f + 180) / 360)) as F. unfold npfloor in F. set (k := (up ((Rabs f + 180) / 360) - 1)%Z) in *. exists k. pose proof (Rabs_pos f) as P.
  split; [|lra]. apply Z.lt_succ_r. apply lt_IZR. unfold Z.succ. rewrite plus_IZR. lra.
Qed.
Lemma align_spec f ys : exists k, align_phase (f :: ys) = Ok (map (fun y => y - 360 * IZR k) (f :: ys)) /\
  (0 <= f -> -180 <= f - 360 * IZR k < 180) /\ (f < 0 -> -180 < f - 360 * IZR k <= 180).
Proof.
  destruct (turns_exist f) as [k [K H]]. pose proof (turns f k K H) as T. unfold align_phase. cbv zeta. rewrite T. unfold npsign.
  destruct (Rltb f 0) eqn:L1; [|destruct (Rltb 0 f) eqn:L2].
  - apply Rltb_spec in L1. rewrite Rabs_left in H by exact L1. exists (- k)%Z. rewrite opp_IZR. split; [f_equal; apply map_ext; intros; lra|]. split; intros; lra.
  - apply Rltb_spec in L2. rewrite Rabs_pos_eq in H by lra. exists k. split; [f_equal; apply map_ext; intros; lra|]. split; intros; lra.
  - apply Rltb_false in L1, L2. assert (f = 0) by lra. subst f. exists 0%Z. split; [f_equal; apply map_ext; intros; lra|]. split; intros; lra.
Qed.

Lemma compare_ok l : Forall (fun ys => ys <> []) l -> exists out, mapM align_phase l = Ok out /\
  Forall2 (fun ys ys' => exists k, turned k ys ys' /\ -180 <= hd 0 ys' <= 180) l out.
Proof.
  induction 1 as [|ys l N F IH]; [exists []; split; [reflexivity|constructor]|]. destruct ys as [|f ys]; [congruence|]. destruct IH as [out [E G]]. destruct (align_spec f ys) as [k [A [B C]]].
  exists (map (fun y => y - 360 * IZR k) (f :: ys) :: out). split; [cbn [mapM]; rewrite A; cbn [bind]; rewrite E; reflexivity|]. constructor; [|exact G]. exists k. split; [reflexivity|]. cbn [hd map].
  destruct (Rle_dec 0 f); [specialize (B ltac:(lra))|specialize (C ltac:(lra))]; lra.
Qed.
Lemma turn_unique x j k : -180 < x - 360 * IZR k < 180 -> -180 < x - 360 * IZR j < 180 -> j = k.
Proof.
  intros A B. assert (L1 : IZR j < IZR (k + 1)) by (rewrite plus_IZR; lra). assert (L2 : IZR k < IZR (j + 1)) by (rewrite plus_IZR; lra). apply lt_IZR in L1, L2. lia.
Qed.
Lemma linspace_len a b n : length (linspace a b n) = n.
Proof. destruct n as [|[|n]]; try reflexivity. unfold linspace. rewrite map_length, seq_length. reflexivity. Qed.
Lemma linspace_nth a b n i : (i < n)%nat -> (2 <= n)%nat -> nth i (linspace a b n) 0 = a + INR i * ((b - a) / INR (n - 1)).
Proof.
  intros H N. destruct n as [|[|n]]; [lia|lia|]. unfold linspace. replace (S (S n) - 1)%nat with (S n) by lia.
  rewrite nth_indep with (d' := a + INR 0 * ((b - a) / INR (S n))) by (rewrite map_length, seq_length; exact H). rewrite (map_nth (fun i => a + INR i * ((b - a) / INR (S n)))). rewrite seq_nth by exact H. reflexivity.
Qed.
Lemma linspace_ends a b n : (2 <= n)%nat -> hd 0 (linspace a b n) = a /\ last (linspace a b n) 0 = b.
Proof.
  intros N. split.
  - destruct n as [|[|n]]; [lia|lia|]. cbn [linspace seq map hd INR]. lra.
  - assert (E : forall (l : list R), last l 0 = nth (length l - 1) l 0).
    { clear. induction l as [|x l IH]; [reflexivity|]. destruct l as [|y l]; [reflexivity|]. change (last (x :: y :: l) 0) with (last (y :: l) 0). rewrite IH. cbn [length]. replace (S (S (length l)) - 1)%nat with (S (S (length l) - 1)) by lia. reflexivity. }
    rewrite E, linspace_len, linspace_nth by lia. assert (Q : INR (n - 1) <> 0) by (apply not_0_INR; lia). field. exact Q.
Qed.
Lemma ellipse_point cx cy ax1 ax2 a b t : orthonormal2 ax1 ax2 -> a <> 0 -> b <> 0 ->
  on_ellipse cx cy ax1 ax2 a b (fst ax1 * (a * cos t) + fst ax2 * (b * sin t) + cx, snd ax1 * (a * cos t) + snd ax2 * (b * sin t) + cy).
Proof.
  intros [H1 [H2 H3]] A B. unfold on_ellipse. cbn [fst snd]. set (c := cos t). set (s := sin t). assert (P : s ^ 2 + c ^ 2 = 1) by (unfold s, c; pose proof (sin2_cos2 t) as Q; unfold Rsqr in Q; lra).
  replace ((fst ax1 * (a * c) + fst ax2 * (b * s) + cx - cx) * fst ax1 + (snd ax1 * (a * c) + snd ax2 * (b * s) + cy - cy) * snd ax1) with (a * c * (fst ax1 ^ 2 + snd ax1 ^ 2) + b * s * (fst ax1 * fst ax2 + snd ax1 * snd ax2)) by ring.
  replace ((fst ax1 * (a * c) + fst ax2 * (b * s) + cx - cx) * fst ax2 + (snd ax1 * (a * c) + snd ax2 * (b * s) + cy - cy) * snd ax2) with (b * s * (fst ax2 ^ 2 + snd ax2 ^ 2) + a * c * (fst ax1 * fst ax2 + snd ax1 * snd ax2)) by ring.
  rewrite H1, H2, H3. replace (((a * c * 1 + b * s * 0) / a) ^ 2 + ((b * s * 1 + a * c * 0) / b) ^ 2) with (s ^ 2 + c ^ 2) by (field; auto). exact P.
Qed.
