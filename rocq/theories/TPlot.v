(* TPlot.v -- theorems for C50 and C55 (bicycleparameters/plot.py and
   Bicycle.compare_bode_speeds) *)
From Verif Require Import Base PBase MPlot SPlot PPlot.
From Coq Require Import ZArith Lra Lia.

(* Every curve of the figure, also those the caller's figure already had, is
   moved by whole turns, its first value into [-180, 180]. *)
Theorem C50_figure : forall old new, Forall (fun ys => ys <> []) (old ++ new) ->
  exists out, compare_bode old new = Ok out /\
    Forall2 (fun ys ys' => exists k, turned k ys ys' /\ -180 <= hd 0 ys' <= 180) (old ++ new) out.
Proof. intros old new H. exact (compare_ok (old ++ new) H). Qed.
Print Assumptions C50_figure.
(* All differences between values of a curve are kept. *)
Theorem C50_differences : forall ys ys' i j a b, align_phase ys = Ok ys' -> nth_error ys i = Some a -> nth_error ys j = Some b ->
  exists a' b', nth_error ys' i = Some a' /\ nth_error ys' j = Some b' /\ a' - b' = a - b.
Proof.
  intros [|f ys] ys' i j a b H Hi Hj; [discriminate H|]. destruct (align_spec f ys) as [k [A _]]. rewrite A in H. injection H as <-. exists (a - 360 * IZR k), (b - 360 * IZR k).
  change ((f - 360 * IZR k) :: map (fun y => y - 360 * IZR k) ys) with (map (fun y => y - 360 * IZR k) (f :: ys)). rewrite !nth_error_map, Hi, Hj. split; [reflexivity|]. split; [reflexivity|]. lra.
Qed.
Print Assumptions C50_differences.
(* A curve that starts strictly between -180 and 180 is not moved: aligning again changes nothing. *)
Theorem C50_unmoved : forall f ys, -180 < f < 180 -> align_phase (f :: ys) = Ok (f :: ys).
Proof.
  intros f ys H. destruct (align_spec f ys) as [k [A [B C]]]. rewrite A. assert (k = 0%Z) as ->.
  { destruct (Rle_dec 0 f); [specialize (B ltac:(lra))|specialize (C ltac:(lra))].
    - assert (L1 : IZR k < IZR 1) by lra. assert (L2 : IZR (-1) < IZR k) by lra. apply lt_IZR in L1, L2. lia.
    - assert (L1 : IZR k < IZR 1) by lra. assert (L2 : IZR (-1) < IZR k) by lra. apply lt_IZR in L1, L2. lia. }
  f_equal. rewrite <- map_id. apply map_ext. intros y. lra.
Qed.
Print Assumptions C50_unmoved.
(* Curves whose first values differ by whole turns start at the same value
   afterwards, unless that value is 180 degrees from zero, *)
Theorem C50_matched : forall f g ys zs k ys' zs', g = f + 360 * IZR k -> (forall j, f <> 180 + 360 * IZR j) ->
  align_phase (f :: ys) = Ok ys' -> align_phase (g :: zs) = Ok zs' -> hd 0 ys' = hd 0 zs'.
Proof.
  intros f g ys zs k ys' zs' G N HY HZ. destruct (align_spec f ys) as [m [A [B C]]]. destruct (align_spec g zs) as [n [A' [B' C']]].
  rewrite A in HY. rewrite A' in HZ. injection HY as <-. injection HZ as <-. cbn [hd map].
  assert (F1 : -180 < f - 360 * IZR m < 180).
  { assert (f - 360 * IZR m <> 180) by (intros Q; apply (N m); lra). assert (f - 360 * IZR m <> -180) by (intros Q; apply (N (m - 1)%Z); rewrite minus_IZR; lra). destruct (Rle_dec 0 f); [specialize (B ltac:(lra))|specialize (C ltac:(lra))]; lra. }
  assert (F2 : -180 < g - 360 * IZR n < 180).
  { assert (g - 360 * IZR n <> 180) by (intros Q; apply (N (n - k)%Z); rewrite minus_IZR; lra). assert (g - 360 * IZR n <> -180) by (intros Q; apply (N (n - k - 1)%Z); rewrite !minus_IZR; lra). destruct (Rle_dec 0 g); [specialize (B' ltac:(lra))|specialize (C' ltac:(lra))]; lra. }
  assert (E : m = (n - k)%Z) by (apply (turn_unique f); rewrite ?minus_IZR; lra). rewrite E, minus_IZR. lra.
Qed.
Print Assumptions C50_matched.
(* in which case they end up a whole turn apart, and a second call on the same
   figure moves them again. *)
Theorem C50_half_turn_refuted : align_phase [180] = Ok [-180] /\ align_phase [-180] = Ok [180].
Proof.
  split.
  - destruct (align_spec 180 []) as [k [A [B _]]]. rewrite A. specialize (B ltac:(lra)). assert (k = 1%Z) as ->.
    { assert (L1 : IZR k < IZR 2) by lra. assert (L2 : IZR 0 < IZR k) by lra. apply lt_IZR in L1, L2. lia. }
    cbn [map]. do 2 f_equal. lra.
  - destruct (align_spec (-180) []) as [k [A [_ C]]]. rewrite A. specialize (C ltac:(lra)). assert (k = (-1)%Z) as ->.
    { assert (L1 : IZR k < IZR 0) by lra. assert (L2 : IZR (-2) < IZR k) by lra. apply lt_IZR in L1, L2. lia. }
    cbn [map]. do 2 f_equal. lra.
Qed.
Print Assumptions C50_half_turn_refuted.
(* a curve without points cannot be aligned *)
Theorem C50_no_points : forall old new, In [] (old ++ new) -> compare_bode old new = Err IndexError.
Proof.
  intros old new. unfold compare_bode. induction (old ++ new) as [|ys l IH]; [intros []|]. intros [-> | H]; [reflexivity|]. cbn [mapM]. destruct ys as [|f ys]; [reflexivity|]. destruct (align_spec f ys) as [k [A _]]. rewrite A. cbn [bind]. rewrite IH by exact H. reflexivity.
Qed.
Print Assumptions C50_no_points.
Example C50_example : align_phase [-700; -710] = Ok [20; 10].
Proof.
  destruct (align_spec (-700) [-710]) as [k [A [_ C]]]. rewrite A. specialize (C ltac:(lra)). assert (k = (-2)%Z) as ->.
  { assert (L1 : IZR k < IZR (-1)) by lra. assert (L2 : IZR (-3) < IZR k) by lra. apply lt_IZR in L1, L2. lia. }
  cbn [map]. do 2 f_equal; [lra|]. f_equal. lra.
Qed.

(* ================= C55 ================= *)
(* All points of the drawn ellipse lie on it, *)
Theorem C55_on_ellipse : forall cx cy ax1 ax2 a b N p, orthonormal2 ax1 ax2 -> a <> 0 -> b <> 0 ->
  In p (generate_ellipse_plot_data cx cy ax1 ax2 a b N) -> on_ellipse cx cy ax1 ax2 a b p.
Proof. intros cx cy ax1 ax2 a b N p O A B H. apply in_map_iff in H as [t [<- _]]. apply ellipse_point; assumption. Qed.
Print Assumptions C55_on_ellipse.
(* there are N of them, and the curve is closed: it starts and ends at the end
   of the first half axis. *)
Theorem C55_closed : forall cx cy ax1 ax2 a b N, (2 <= N)%nat ->
  let pts := generate_ellipse_plot_data cx cy ax1 ax2 a b N in
  length pts = N /\ hd (0, 0) pts = (a * fst ax1 + cx, a * snd ax1 + cy) /\ last pts (0, 0) = hd (0, 0) pts.
Proof.
  intros cx cy ax1 ax2 a b N H pts. destruct (linspace_ends 0 (2 * PI) N H) as [E1 E2]. unfold pts, generate_ellipse_plot_data. split; [rewrite map_length; apply linspace_len|].
  assert (NE : linspace 0 (2 * PI) N <> []) by (intros Q; apply (f_equal (@length R)) in Q; rewrite linspace_len in Q; cbn in Q; lia).
  destruct (linspace 0 (2 * PI) N) as [|t0 ts]; [congruence|]. cbn [hd] in E1. subst t0.
  set (f := fun t => let xs := a * cos t in let ys := b * sin t in (fst ax1 * xs + fst ax2 * ys + cx, snd ax1 * xs + snd ax2 * ys + cy)).
  assert (L : forall l d e, l <> [] -> last (map f l) d = f (last l e)).
  { clear. induction l as [|x l IH]; intros d e N; [congruence|]. destruct l as [|y l]; [reflexivity|]. change (last (map f (y :: l)) d = f (last (y :: l) e)). apply IH. discriminate. }
  rewrite (L _ _ 0) by discriminate. rewrite E2. change (hd (0, 0) (map f (0 :: ts))) with (f 0). unfold f. cbv zeta. split.
  - rewrite cos_0, sin_0. f_equal; ring.
  - replace (2 * PI) with (0 + 2 * INR 1 * PI) by (cbn; lra). rewrite cos_period, sin_period. reflexivity.
Qed.
Print Assumptions C55_closed.
Example C55_example : orthonormal2 (3/5, 4/5) (-4/5, 3/5).
Proof. unfold orthonormal2. cbn [fst snd]. repeat split; lra. Qed.
