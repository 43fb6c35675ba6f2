(* PDraw4.v -- geometry, mass centres, person diamond, histories of calls *)
From Coq Require Import Lra.
From Verif Require Import Base MString MHeap MBicycle MVec MInertia MSets MGeometry MRider MDraw PBase SBicycle PBicycle SInertia PInertia SGeometry PGeometry SModels PModels PSets PSets2 PSets3 SDraw PDraw PDraw2 PDraw3.
Local Open Scope string_scope.
Local Open Scope R_scope.

Lemma drawable_geometry_keys c ls p : drawable c ls -> has p (required c) -> forall k, In k ["lam"; "c"; "w"; "rR"; "rF"] -> In k (dkeys p).
Proof.
  intros D HP k Hk. apply (proj1 (has_required _ _) HP). destruct D; cbn [par_strings In] in *;
    (repeat (destruct Hk as [<-|Hk]; [tauto|])); contradiction.
Qed.
Lemma geometry_defined c ls p steer ax : drawable c ls -> has p (required c) ->
  let lam := pv p "lam" in
  ((exists ax', plot_geometry c p steer ax = Ok ax') <->
   cos lam <> 0 /\ (steer = true -> pv p "w" * sin lam + (pv p "rR" - pv p "rF") * cos lam <> 0)).
Proof.
  intros D HP lam. pose proof (drawable_geometry_keys c ls p D HP) as K.
  assert (L : forall k, In k ["lam"; "c"; "w"; "rR"; "rF"] -> dlook p k = Ok (pv p k)) by (intros; apply dlook_pv; auto).
  unfold plot_geometry, plot_geometry_from_benchmark. rewrite (proj2 (drawable_labels c ls D)).
  rewrite !L by (cbn [In]; tauto). cbn [bind].
  destruct (fundamental_geometry_plot_data p) as [pts|e] eqn:FP.
  2:{ cbn [bind]. split; [intros [? ?]; discriminate|]. intros [N _]. exfalso.
      destruct (proj2 (plot_data_defined p) (conj K N)) as [? Q]. congruence. }
  cbn [bind]. assert (CN : cos lam <> 0) by (apply (proj1 (plot_data_defined p)); eauto).
  destruct (plot_data_spec p pts FP) as (p1 & p2 & -> & A1 & A2 & B1 & B2). fold lam in A1, A2, B1, B2.
  destruct steer; [|split; [intros _; split; [exact CN|discriminate]|intros _; eexists; reflexivity]].
  unfold index. cbn [nth_error bind].
  assert (DZ : - snd p1 + snd p2 = (pv p "w" * sin lam + (pv p "rR" - pv p "rF") * cos lam) * cos lam).
  { unfold ahead, along in *. destruct p1 as [x1 z1], p2 as [x2 z2]. cbn [fst snd] in *.
    pose proof (sc1 lam) as S. set (s := sin lam) in *. set (cl := cos lam) in *.
    transitivity (((z2 - z1) * (s * s + cl * cl))); [rewrite S; ring|].
    assert (E1 : (x2 - x1) * cl = (z2 - z1) * s) by lra. assert (E2 : (x2 - x1) * s + (z2 - z1) * cl = pv p "w" * s - pv p "rF" * cl + pv p "rR" * cl) by lra.
    transitivity (((x2 - x1) * s + (z2 - z1) * cl) * cl); [|rewrite E2; ring].
    transitivity ((z2 - z1) * s * s + (z2 - z1) * cl * cl); [ring|]. rewrite <- E1. ring. }
  rewrite DZ. split.
  - intros [ax' H]. split; [exact CN|]. intros _ Z. rewrite Z, Rmult_0_l in H. step_bind H. step_bind E. apply rdiv_ok in E0. destruct E0; contradiction.
  - intros [_ N]. rewrite rdiv_eq; [cbn [bind]; eauto|]. apply Rmult_integral_contrapositive_currified; auto.
Qed.

Lemma each_eval (f : string -> axes -> res axes) (sh : string -> list shape) bs ax :
  (forall b, In b bs -> forall ax, f b ax = Ok (mkaxes (ax_shapes ax ++ sh b) true true)) ->
  exists ax', each_body f bs ax = Ok ax' /\ ax_shapes ax' = (ax_shapes ax ++ flat_map sh bs)%list.
Proof.
  revert ax. induction bs as [|b bs IH]; intros ax H; cbn [each_body flat_map].
  - exists ax. rewrite app_nil_r. auto.
  - rewrite (H b) by (left; reflexivity). cbn [bind].
    destruct (IH (mkaxes (ax_shapes ax ++ sh b) true true)) as (ax' & E & S); [intros; apply H; right; assumption|].
    exists ax'. split; [exact E|]. rewrite S. cbn [ax_shapes]. rewrite <- app_assoc. reflexivity.
Qed.

Lemma unknown_body c ls p X ax : drawable c ls -> ~ In X ls -> has p (required c) ->
  exists k, plot_body_mass_center c p X ax = Err (KeyError k).
Proof.
  intros D HX HP. unfold plot_body_mass_center. rewrite (proj2 (drawable_labels c ls D)).
  assert (HF : exists Y, In Y ls) by (destruct D; eexists; left; reflexivity). destruct HF as [Y HY].
  destruct (place_eval c ls p Y D HY HP) as (ext & DV & _ & _ & LW & LL & _ & _). rewrite DV. cbn [bind].
  assert (KE : forall (q : dict R) k e, dlook q k = Err e -> e = KeyError k) by (intros q k e; unfold dlook; destruct (dget q k); congruence).
  destruct (dlook (dupdate p ext) ("x" ++ X)) as [x|e] eqn:EX; cbn [bind]; [|apply KE in EX; subst; eauto].
  destruct (dlook (dupdate p ext) ("z" ++ X)) as [z|e] eqn:EZ; cbn [bind]; [|apply KE in EZ; subst; eauto].
  rewrite LW. cbn [bind].
  assert (CB : body_color c X = Err (KeyError X)).
  { unfold body_color. rewrite (proj1 (drawable_labels c ls D)). destruct (smem X ls) eqn:S; [|reflexivity]. exfalso. apply HX. apply smem_spec. exact S. }
  rewrite CB. exists X. destruct c; try reflexivity. rewrite (LL eq_refl). reflexivity.
Qed.

Lemma diamond_drawn p show ax : has p (required CMoore2019) ->
  let o := (pv p "xP", pv p "zP") in let al := pv p "alphaP" in
  let a := (cos al, - sin al) in let b := (sin al, cos al) in
  let A := times2 (pv p "wP" / 2) a in let B := times2 (pv p "lP" / 2) b in
  plot_person_diamond CMoore2019 p show ax =
    Ok (mkaxes (ax_shapes ax ++ [Poly [plus2 o A; plus2 o (times2 (-1) B); plus2 o (times2 (-1) A); plus2 o B; plus2 o A] "P"]
                ++ (if show then [Poly (centred o A) "black"; Poly (centred o B) "black"] else [])) true true).
Proof.
  intros HP o al a b A B. unfold plot_person_diamond.
  assert (L : forall k, In k ["wP"; "alphaP"; "lP"; "xP"; "zP"] -> dlook p k = Ok (pv p k)).
  { intros k Hk. apply dlook_pv. apply (proj1 (has_required _ _) HP). cbn [par_strings In app] in *.
    repeat (destruct Hk as [<-|Hk]; [tauto|]). contradiction. }
  rewrite !L by (cbn [In]; tauto). cbn [bind]. change (body_color CMoore2019 "P") with (@Ok string "P"). cbn [bind]. cbv zeta. fold al.
  assert (C2 : cos (- al + PI / 2) = sin al) by (replace (- al + PI / 2) with (PI / 2 - al) by ring; apply cos_shift).
  assert (S2 : sin (- al + PI / 2) = cos al) by (replace (- al + PI / 2) with (PI / 2 - al) by ring; apply sin_shift).
  rewrite C2, S2, cos_neg, sin_neg.
  assert (E : forall l, finalize_plot (add ax l) = mkaxes (ax_shapes ax ++ l) true true) by (intros; apply finalize_add).
  assert (P1 : [(pv p "xP" + pv p "wP" / 2 * cos al, pv p "zP" + pv p "wP" / 2 * - sin al);
      (pv p "xP" + - (pv p "lP" / 2 * sin al), pv p "zP" + - (pv p "lP" / 2 * cos al));
      (pv p "xP" + - (pv p "wP" / 2 * cos al), pv p "zP" + - (pv p "wP" / 2 * - sin al));
      (pv p "xP" + pv p "lP" / 2 * sin al, pv p "zP" + pv p "lP" / 2 * cos al);
      (pv p "xP" + pv p "wP" / 2 * cos al, pv p "zP" + pv p "wP" / 2 * - sin al)] =
      [plus2 o A; plus2 o (times2 (-1) B); plus2 o (times2 (-1) A); plus2 o B; plus2 o A]).
  { unfold plus2, times2, A, B, a, b, o. cbn [fst snd]. repeat (f_equal; try (apply pt_eq; unfold times2; cbn [fst snd]; ring)). }
  rewrite P1. destruct show.
  - rewrite !add_add, finalize_add.
    assert (Q1 : [(pv p "xP" - pv p "wP" / 2 * cos al, pv p "zP" - pv p "wP" / 2 * - sin al); (pv p "xP" + pv p "wP" / 2 * cos al, pv p "zP" + pv p "wP" / 2 * - sin al)] = centred o A).
    { unfold centred, plus2, times2, A, a, o. cbn [fst snd]. repeat (f_equal; try (apply pt_eq; unfold times2; cbn [fst snd]; ring)). }
    assert (Q2 : [(pv p "xP" - pv p "lP" / 2 * sin al, pv p "zP" - pv p "lP" / 2 * cos al); (pv p "xP" + pv p "lP" / 2 * sin al, pv p "zP" + pv p "lP" / 2 * cos al)] = centred o B).
    { unfold centred, plus2, times2, B, b, o. cbn [fst snd]. repeat (f_equal; try (apply pt_eq; unfold times2; cbn [fst snd]; ring)). }
    rewrite Q1, Q2. reflexivity.
  - rewrite finalize_add. reflexivity.
Qed.

(* histories *)
Lemma calls_on_axes eig2 calls ax ax' :
  run_calls eig2 calls ax = Ok ax' <->
  exists ls, Forall2 (fun c l => figure_of eig2 (fst (fst c)) (snd (fst c)) (snd c) l) calls ls /\
    ax' = match calls with [] => ax | _ => mkaxes (ax_shapes ax ++ concat ls) true true end.
Proof.
  revert ax. induction calls as [|[[c p] call] calls IH]; intros ax; cbn [run_calls].
  - split; [intros H; exists []; split; [constructor|congruence]|]. intros (ls & _ & ->). reflexivity.
  - destruct (call_on_any_axes eig2 c p call ax) as [CA _]. split.
    + intros H. apply bind_ok in H. destruct H as (a & H & H'). apply CA in H. destruct H as (l & F & ->).
      apply IH in H'. destruct H' as (ls & FF & ->). exists (l :: ls). split; [constructor; assumption|].
      cbn [concat ax_shapes]. destruct calls; [inversion FF; subst; cbn [concat]; rewrite app_nil_r; reflexivity|]. rewrite app_assoc. reflexivity.
    + intros (ls & FF & ->). inversion FF as [|? l ? ls' F FF' E1 E2]; subst. cbn [fst snd] in F.
      assert (H : run_call eig2 c p call ax = Ok (mkaxes (ax_shapes ax ++ l) true true)) by (apply CA; eauto).
      rewrite H. cbn [bind]. apply IH. exists ls'. split; [exact FF'|]. cbn [ax_shapes concat].
      destruct calls; [inversion FF'; subst; cbn [concat]; rewrite app_nil_r; reflexivity|]. rewrite app_assoc. reflexivity.
Qed.
Lemma run_calls_app eig2 l1 l2 ax : run_calls eig2 (l1 ++ l2) ax = (a <- run_calls eig2 l1 ax ;; run_calls eig2 l2 a).
Proof.
  revert ax. induction l1 as [|[[c p] call] l1 IH]; intros ax; cbn [app run_calls]; [reflexivity|].
  destruct (run_call eig2 c p call ax); cbn [bind]; [apply IH|reflexivity].
Qed.
(* drawing a list of bodies is the sequence of the single drawings *)
Lemma each_is_calls eig2 c p f (mk : string -> draw_call) bs ax :
  (forall b ax, run_call eig2 c p (mk b) ax = f b ax) ->
  each_body f bs ax = run_calls eig2 (map (fun b => (c, p, mk b)) bs) ax.
Proof.
  intros H. revert ax. induction bs as [|b bs IH]; intros ax; cbn [each_body map run_calls]; [reflexivity|].
  rewrite H. destruct (f b ax); cbn [bind]; [apply IH|reflexivity].
Qed.
(* after at least one call, finishing the plot again changes nothing *)
Lemma finalize_after_calls eig2 calls ax : calls <> [] ->
  (a <- run_calls eig2 calls ax ;; Ok (finalize_plot a)) = run_calls eig2 calls ax.
Proof.
  intros NE. destruct (run_calls eig2 calls ax) as [a|e] eqn:R; cbn [bind]; [|reflexivity].
  apply calls_on_axes in R. destruct R as (ls & _ & ->). destruct calls; [contradiction|]. rewrite finalize_eq. reflexivity.
Qed.
