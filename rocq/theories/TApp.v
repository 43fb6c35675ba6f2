(* TApp.v -- theorems for C52 (bicycleparameters/app.py) *)
From Verif Require Import Base PBase MString MIo MSets MPlot PPlot PSets2 MApp SApp PApp.
From Coq Require Import ZArith Lra Lia.
Local Open Scope string_scope.
Local Open Scope R_scope.

Lemma some_inj {A} (a b : A) : Some a = Some b -> a = b.
Proof. intros H. injection H as H. exact H. Qed.
(* the stored steer axis tilt *)
Definition stored_lam (p : dict pval) (l : R) : Prop := dget p "lam" = Some (PF l) \/ exists s, dget p "lam" = Some (PU l s).

(* Selecting a bicycle (or reset) fills the tables: every cell shows its
   parameter's nominal value, blank if the set has none; only the steer axis
   tilt is shown as a whole number of degrees, cut off towards zero. *)
Theorem C52_populate : forall load bike tb, populate_wheel_data load bike = Ok tb ->
  exists ps p l z, load bike = Ok ps /\ dget ps "Benchmark" = Some p /\ stored_lam p l /\ truncated z (l * (180 / PI)) /\
    full_tables tb /\
    (forall t i s, nth_error (row_labels t) i = Some s -> cell_at tb t i "label" = Some (CText s)) /\
    (forall t i col k, In (t, i, col, k) locations -> k <> "lam" -> cell_at tb t i col = Some (nominal_cell p k)) /\
    number_in (cell_at tb General 2 "data") (IZR z).
Proof.
  intros load b tb H. rewrite populate_eq in H. apply bind_ok in H as [ps [HP H]]. apply bind_ok in H as [p [HB H]]. apply bind_ok in H as [l [HL H]]. injection H as <-.
  unfold dlook in HB. destruct (dget ps "Benchmark") as [p'|] eqn:E; [|discriminate]. injection HB as ->. exists ps, p, l, (pyint (rad2deg l)). split; [exact HP|]. split; [exact E|]. split.
  - unfold lam_of in HL. unfold stored_lam. destruct (dget p "lam") as [[x|n s]|]; [injection HL as ->; auto|injection HL as ->; right; eexists; reflexivity|discriminate].
  - split; [apply pyint_trunc|]. split; [|split; [|split]].
    + repeat split. intros t i col k I. rewrite (filled_cells _ _ _ _ _ _ I). discriminate.
    + intros t i s I. destruct t; cbn [row_labels] in I; repeat (destruct i as [|i]; [injection I as <-; reflexivity|]); cbn in I; destruct i; discriminate.
    + intros t i col k I N. rewrite (filled_cells _ _ _ _ _ _ I). destruct (String.eqb_spec k "lam"); [congruence|reflexivity].
    + reflexivity.
Qed.
Print Assumptions C52_populate.
(* It works for every bicycle that loads and has a steer axis tilt. *)
Theorem C52_populate_defined : forall load bike ps p l, load bike = Ok ps -> dget ps "Benchmark" = Some p -> stored_lam p l -> exists tb, populate_wheel_data load bike = Ok tb.
Proof.
  intros load b ps p l HP HB HL. rewrite populate_eq, HP. cbn [bind]. unfold dlook. rewrite HB. cbn [bind]. assert (E : lam_of p = Ok l) by (unfold lam_of; destruct HL as [-> | [s ->]]; reflexivity). rewrite E. eexists. reflexivity.
Qed.
Print Assumptions C52_populate_defined.

(* Unless the bicycle was just selected, the figures are drawn for the bicycle's
   parameters with all 26 parameters of the tables replaced by the cells'
   content, the tilt converted from degrees; the other entries stay. *)
Theorem C52_plotted : forall load trigger bike tb B, trigger <> "bike-dropdown.value" ->
  plotted_parameters load trigger bike tb = Ok B -> full_tables tb ->
  exists ps p q, load bike = Ok ps /\ dget ps "Benchmark" = Some p /\ dget B "Benchmark" = Some q /\
    (forall k, k <> "Benchmark" -> dget B k = option_map (map (fun e => (fst e, CNum (snd e)))) (dget ps k)) /\
    (forall t i col k, In (t, i, col, k) locations -> k <> "lam" -> dget q k = cell_at tb t i col) /\
    (forall x, reads_as (cell_at tb General 2 "data") x -> dget q "lam" = Some (CNum (PF (x * (PI / 180))))) /\
    (forall k, (forall t i col, ~ In (t, i, col, k) locations) -> dget q k = option_map CNum (dget p k)).
Proof.
  intros load tr b tb B NT H FT. apply (plotted_iff load tr b tb B NT) in H as [ps [p [x [HP [HB [HX [W [F [G ->]]]]]]]]].
  exists ps, p. eexists. split; [exact HP|]. split; [exact HB|]. split; [rewrite dget_dset, String.eqb_refl; reflexivity|]. split; [|split; [|split]].
  - intros k N. rewrite dget_dset. destruct (String.eqb_spec k "Benchmark"); [congruence|]. unfold bike_par. exact (dget_map_snd (fun d : dict pval => map (fun e => (fst e, CNum (snd e))) d) ps k).
  - intros t i col k I N. rewrite dget_dupdate by apply new_nodup. rewrite (new_get _ t i col k I). unfold read.
    rewrite edit_cell by (cbn [the_table]; lia).
    assert (S : same_cell t i col General 2 "data" = false). { destruct (same_cell t i col General 2 "data") eqn:S; [|reflexivity]. apply same_cell_spec in S as [-> [-> ->]]. exfalso. apply N. cbn in I. repeat (destruct I as [I|I]; [congruence|]). destruct I. }
    rewrite S. destruct FT as [_ [_ [_ FT]]]. specialize (FT _ _ _ _ I). destruct (cell_at tb t i col); [reflexivity|congruence].
  - intros y Y. rewrite dget_dupdate by apply new_nodup. rewrite (new_get _ General 2 "data" "lam") by (cbn; tauto). unfold read. rewrite edit_cell by (cbn [the_table]; lia). cbn [same_cell andb Nat.eqb String.eqb]. unfold read in HX. assert (XY : x = y) by (destruct Y as [Y|(s & Y & PS)]; rewrite Y in HX; cbn [pyfloat] in HX; congruence). rewrite XY. reflexivity.
  - intros k N. rewrite dget_dupdate by apply new_nodup. rewrite new_none; [apply (dget_map_snd CNum)|]. intros I. cbn in I. repeat (destruct I as [I|I]; [subst k; eapply N; cbn; tauto|]). destruct I.
Qed.
Print Assumptions C52_plotted.
(* The drawing happens whenever the tilt cell holds a number or a text that float() reads as
   one; with a blank or another text it fails. *)
Theorem C52_plotted_defined : forall load trigger bike tb ps p, trigger <> "bike-dropdown.value" -> full_tables tb ->
  load bike = Ok ps -> dget ps "Benchmark" = Some p ->
  ((exists x, reads_as (cell_at tb General 2 "data") x) -> exists B, plotted_parameters load trigger bike tb = Ok B) /\
  (cell_at tb General 2 "data" = Some CNone -> plotted_parameters load trigger bike tb = Err TypeError) /\
  (forall s e, cell_at tb General 2 "data" = Some (CText s) -> pfloat s = Err e -> plotted_parameters load trigger bike tb = Err e).
Proof.
  intros load tr b tb ps p NT [W [F [G FT]]] HP HB. split.
  - intros [x X]. eexists. apply (plotted_iff load tr b tb _ NT). exists ps, p, x. repeat split; auto; try lia. unfold read. destruct X as [X|(s & X & PS)]; rewrite X; [reflexivity|exact PS].
  - split; [|intros s e C PS; unfold plotted_parameters; rewrite HP; cbn [bind]; cbv zeta; destruct (String.eqb_spec tr "bike-dropdown.value"); [congruence|]; unfold cell_at in C; cbn [the_table] in C; destruct (nth_error (t_general tb) 2) as [r|]; [|discriminate]; cbn [bind]; unfold getc; rewrite C; cbn [pyfloat]; rewrite PS; reflexivity].
    intros C. unfold plotted_parameters. rewrite HP. cbn [bind]. cbv zeta. destruct (String.eqb_spec tr "bike-dropdown.value"); [congruence|]. unfold cell_at in C. cbn [the_table] in C. destruct (nth_error (t_general tb) 2) as [r|]; [|discriminate]. cbn [bind]. unfold getc. rewrite C. reflexivity.
Qed.
Print Assumptions C52_plotted_defined.
(* Right after selecting a bicycle its stored parameters are plotted. *)
Theorem C52_selected : forall load bike tb ps, load bike = Ok ps -> plotted_parameters load "bike-dropdown.value" bike tb = Ok (map (fun kv => (fst kv, map (fun e => (fst e, CNum (snd e))) (snd kv))) ps).
Proof. intros load b tb ps H. unfold plotted_parameters. rewrite H. reflexivity. Qed.
Print Assumptions C52_selected.

(* Editing one cell changes exactly that parameter of what is plotted. *)
Theorem C52_one_edit : forall load trigger bike tb t i col k x B B' q q', trigger <> "bike-dropdown.value" -> full_tables tb ->
  In (t, i, col, k) locations ->
  plotted_parameters load trigger bike tb = Ok B -> dget B "Benchmark" = Some q ->
  plotted_parameters load trigger bike (edit tb t i col (CNum (PF x))) = Ok B' -> dget B' "Benchmark" = Some q' ->
  (forall k', k' <> k -> dget q' k' = dget q k') /\
  dget q' k = Some (CNum (PF (if String.eqb k "lam" then x * (PI / 180) else x))) /\
  (forall s, s <> "Benchmark" -> dget B' s = dget B s).
Proof.
  intros load tr b tb t i col k x B B' q q' NT FT I H Q H' Q'. pose proof FT as [L1 [L2 [L3 FT4]]]. assert (Li : (i < length (the_table tb t))%nat) by (apply (loc_len t i col k tb I); auto).
  apply (plotted_iff load tr b _ _ NT) in H as [ps [p [y [HP [HB [HY [_ [_ [_ ->]]]]]]]]]. apply (plotted_iff load tr b _ _ NT) in H' as [ps' [p' [y' [HP' [HB' [HY' [_ [_ [_ ->]]]]]]]]].
  rewrite HP in HP'. injection HP' as <-. rewrite HB in HB'. injection HB' as <-. rewrite dget_dset, String.eqb_refl in Q, Q'. apply some_inj in Q, Q'. subst q q'.
  set (tb' := edit tb t i col (CNum (PF x))) in *.
  assert (CE : forall t' i' col', cell_at tb' t' i' col' = if same_cell t' i' col' t i col then Some (CNum (PF x)) else cell_at tb t' i' col') by (intros; apply edit_cell; exact Li).
  assert (L' : forall u, length (the_table tb' u) = length (the_table tb u)) by (intros; apply edit_len). pose proof (L' General) as LG. cbn [the_table] in LG.
  assert (R0 : forall tbl z t' i' col' k', In (t', i', col', k') locations -> length (t_general tbl) = 4%nat -> read (edit tbl General 2 "data" z) t' i' col' = if String.eqb k' "lam" then z else read tbl t' i' col').
  { intros tbl z t' i' col' k' I' LL. unfold read. rewrite edit_cell by (cbn [the_table]; lia). cbn in I'. repeat (destruct I' as [I'|I']; [injection I' as <- <- <- <-; reflexivity|]). destruct I'. }
  assert (U : forall t' i' col' k', In (t', i', col', k') locations -> same_cell t' i' col' t i col = String.eqb k' k).
  { intros t' i' col' k' I'. clear -I I'. cbn in I, I'. repeat (destruct I as [I|I]; [injection I as <- <- <- <-; repeat (destruct I' as [I'|I']; [injection I' as <- <- <- <-; reflexivity|]); destruct I'|]). destruct I. }
  assert (DG : forall k', (exists t' i' col', In (t', i', col', k') locations) \/ (forall t' i' col', ~ In (t', i', col', k') locations)).
  { intros k'. destruct (existsb (fun l => String.eqb (snd l) k') locations) eqn:E.
    - apply existsb_exists in E as [[[[t' i'] col'] k''] [I' E]]. cbn [snd] in E. apply String.eqb_eq in E. subst k''. left. eauto.
    - right. intros t' i' col' I'. assert (existsb (fun l => String.eqb (snd l) k') locations = true) by (apply existsb_exists; exists (t', i', col', k'); split; [exact I'|apply String.eqb_refl]). congruence. }
  split; [|split].
  - intros k' N. rewrite !dget_dupdate by apply new_nodup. destruct (DG k') as [[t' [i' [col' I']]]|NI].
    + rewrite !(new_get _ t' i' col' k' I'). rewrite (R0 _ _ _ _ _ _ I' L3), (R0 _ _ _ _ _ _ I') by lia. destruct (String.eqb_spec k' "lam") as [->|NL].
      * assert (EY : y' = y). { unfold read in HY, HY'. rewrite CE in HY'. rewrite (U General 2%nat "data" "lam") in HY' by (cbn; tauto). destruct (String.eqb_spec "lam" k); [congruence|]. congruence. } rewrite EY. reflexivity.
      * unfold read. rewrite CE, (U _ _ _ _ I'). destruct (String.eqb_spec k' k); [congruence|reflexivity].
    + rewrite !new_none by (intros X; cbn in X; repeat (destruct X as [X|X]; [subst k'; eapply NI; cbn; tauto|]); destruct X). reflexivity.
  - rewrite dget_dupdate by apply new_nodup. rewrite (new_get _ _ _ _ _ I), (R0 _ _ _ _ _ _ I) by lia. destruct (String.eqb_spec k "lam") as [->|NL].
    + assert (EY : y' = x). { unfold read in HY'. rewrite CE, (U General 2%nat "data" "lam") in HY' by (cbn; tauto). rewrite String.eqb_refl in HY'. injection HY' as ->. reflexivity. } rewrite EY. reflexivity.
    + unfold read. rewrite CE, (U _ _ _ _ I), String.eqb_refl. reflexivity.
  - intros s N. rewrite !dget_dset. destruct (String.eqb_spec s "Benchmark"); [congruence|reflexivity].
Qed.
Print Assumptions C52_one_edit.

(* Any history: a cell shows what was typed last since the tables were filled,
   otherwise the parameter of the selected bicycle. *)
Theorem C52_history : forall load s0 es s, populate_wheel_data load (se_bike s0) = Ok (se_tables s0) -> run load s0 es = Ok s ->
  se_bike s = last_bike (se_bike s0) es /\ se_options s = last_options (se_options s0) es /\ se_slider s = last_slider (se_slider s0) es /\
  full_tables (se_tables s) /\
  exists fresh, populate_wheel_data load (se_bike s) = Ok fresh /\
    forall t i col k, In (t, i, col, k) locations ->
      cell_at (se_tables s) t i col = match last_edit t i col es with Some c => Some c | None => cell_at fresh t i col end.
Proof.
  intros load s0 es s P0. revert s. induction es as [|e es IH] using rev_ind; intros s H.
  - injection H as <-. destruct (C52_populate _ _ _ P0) as [ps [p [l [z [_ [_ [_ [_ [FT _]]]]]]]]]. repeat split; try apply FT. exists (se_tables s0). split; [exact P0|]. reflexivity.
  - assert (RA : forall a b c, run load a (b ++ [c]) = (x <- run load a b ;; act load x c)).
    { clear. intros a b. revert a. induction b as [|d b IH]; intros a c; cbn [app run bind]; [destruct (act load a c); reflexivity|]. destruct (act load a d); [cbn [bind]; apply IH|reflexivity]. }
    rewrite RA in H. apply bind_ok in H as [s1 [H1 H]]. destruct (IH s1 H1) as [I1 [I2 [I3 [FT [fr [PF IC]]]]]]. clear IH RA H1.
    unfold last_bike, last_options, last_slider, last_edit in *. setoid_rewrite fold_left_app. cbn [fold_left]. destruct e as [b| |t i col c|o|r]; cbn [act] in H.
    + apply bind_ok in H as [tb [HT H]]. injection H as <-. cbn [se_bike se_options se_slider se_tables]. destruct (C52_populate _ _ _ HT) as [ps [p [l [z [_ [_ [_ [_ [FT' _]]]]]]]]]. repeat split; auto; try apply FT'. exists tb. auto.
    + apply bind_ok in H as [tb [HT H]]. injection H as <-. cbn [se_bike se_options se_slider se_tables]. destruct (C52_populate _ _ _ HT) as [ps [p [l [z [_ [_ [_ [_ [FT' _]]]]]]]]]. repeat split; auto; try apply FT'. exists tb. auto.
    + injection H as <-. cbn [se_bike se_options se_slider se_tables]. split; [exact I1|]. split; [exact I2|]. split; [exact I3|].
      assert (CE : forall t' i' col' k', In (t', i', col', k') locations -> cell_at (edit (se_tables s1) t i col c) t' i' col' = if same_cell t' i' col' t i col then Some c else cell_at (se_tables s1) t' i' col').
      { intros t' i' col' k' I'. destruct (Nat.lt_ge_cases i (length (the_table (se_tables s1) t))) as [L|L]; [apply edit_cell; exact L|]. rewrite (edit_out _ _ _ _ _ L). destruct (same_cell t' i' col' t i col) eqn:S; [|reflexivity]. apply same_cell_spec in S as [-> [-> ->]].
        destruct FT as [A1 [A2 [A3 _]]]. pose proof (loc_len _ _ _ _ (se_tables s1) I' (conj A1 (conj A2 A3))). lia. }
      split.
      * destruct FT as [A1 [A2 [A3 A4]]]. pose proof (edit_len (se_tables s1) t i col c) as EL. pose proof (EL Wheel). pose proof (EL Frame). pose proof (EL General). cbn [the_table] in *. repeat split; try congruence. intros t' i' col' k' I'. rewrite (CE _ _ _ _ I'). destruct (same_cell t' i' col' t i col); [discriminate|]. exact (A4 _ _ _ _ I').
      * exists fr. split; [exact PF|]. intros t' i' col' k' I'. rewrite (CE _ _ _ _ I'). destruct (same_cell t' i' col' t i col); [reflexivity|]. exact (IC _ _ _ _ I').
    + injection H as <-. cbn [se_bike se_options se_slider se_tables]. repeat split; auto; try apply FT. exists fr. auto.
    + injection H as <-. cbn [se_bike se_options se_slider se_tables]. repeat split; auto; try apply FT. exists fr. auto.
Qed.
Print Assumptions C52_history.

(* What is drawn without any edit: the nominal values, except for the tilt,
   which loses its fraction of a degree.  Ticking a box, moving the slider or
   resetting the tables therefore redraws another bicycle than the selected one
   unless the tilt is a whole number of degrees. *)
Theorem C52_unedited : forall load trigger bike tb B, trigger <> "bike-dropdown.value" ->
  populate_wheel_data load bike = Ok tb -> plotted_parameters load trigger bike tb = Ok B ->
  exists ps p q l z, load bike = Ok ps /\ dget ps "Benchmark" = Some p /\ dget B "Benchmark" = Some q /\ stored_lam p l /\ truncated z (l * (180 / PI)) /\
    (forall t i col k, In (t, i, col, k) locations -> k <> "lam" -> dget q k = Some (nominal_cell p k)) /\
    dget q "lam" = Some (CNum (PF (IZR z * (PI / 180)))) /\
    Rabs (IZR z * (PI / 180) - l) < PI / 180 /\
    (IZR z * (PI / 180) = l <-> exists n, l = IZR n * (PI / 180)).
Proof.
  intros load tr b tb B NT HP HB. destruct (C52_populate _ _ _ HP) as [ps [p [l [z [A1 [A2 [A3 [A4 [A5 [_ [A6 A7]]]]]]]]]]].
  destruct (C52_plotted _ _ _ _ _ NT HB A5) as [ps' [p' [q [B1 [B2 [B3 [_ [B4 [B5 _]]]]]]]]]. rewrite A1 in B1. injection B1 as <-. rewrite A2 in B2. injection B2 as <-.
  exists ps, p, q, l, z. repeat (split; [assumption|]). split; [intros t i col k I N; rewrite (B4 _ _ _ _ I N); apply (A6 _ _ _ _ I N)|]. split; [apply B5; left; exact A7|].
  pose proof PI_RGT_0 as PP. assert (LE : l = (l * (180 / PI)) * (PI / 180)) by (field; lra). set (y := l * (180 / PI)) in *.
  assert (D : Rabs (IZR z - y) < 1).
  { destruct A4 as [[T1 T2] T3]. destruct (Rle_dec 0 y) as [G|G].
    - rewrite (Rabs_pos_eq y) in * by lra. destruct (Rle_dec 0 (IZR z)) as [GZ|GZ]; [rewrite (Rabs_pos_eq (IZR z)) in * by lra; rewrite Rabs_left1 by lra; lra|]. rewrite (Rabs_left (IZR z)) in * by lra. assert (y = 0) by nra. subst y. assert (IZR z = 0) by lra. lra.
    - rewrite (Rabs_left y) in * by lra. destruct (Rle_dec 0 (IZR z)) as [GZ|GZ]; [assert (IZR z = 0) by nra; rewrite H in *; rewrite Rabs_R0 in *; rewrite Rabs_pos_eq by lra; lra|]. rewrite (Rabs_left (IZR z)) in * by lra. rewrite Rabs_pos_eq by lra. lra. }
  split.
  - rewrite LE. replace (IZR z * (PI / 180) - y * (PI / 180)) with ((IZR z - y) * (PI / 180)) by ring. rewrite Rabs_mult, (Rabs_pos_eq (PI / 180)) by lra. nra.
  - split; [intros <-; eexists; reflexivity|]. intros [n E]. assert (Y : y = IZR n) by (unfold y; rewrite E; field; lra). rewrite Y in D. assert (z = n).
    { apply Rabs_def2 in D. assert (L1 : IZR z < IZR (n + 1)) by (rewrite plus_IZR; lra). assert (L2 : IZR n < IZR (z + 1)) by (rewrite plus_IZR; lra). apply lt_IZR in L1, L2. lia. } subst z. symmetry. exact E.
Qed.
Print Assumptions C52_unedited.

(* The two figures are in each other's place: the component named for the
   geometry gets the eigenvalue figure and the other way round; both are drawn
   for the same parameters, with the options ticked and the chosen speeds. *)
Theorem C52_containers_refuted : forall F load geometry eigenvalues trigger bike tb options slider (out : dict F),
  plot_update F load geometry eigenvalues trigger bike tb options slider = Ok out ->
  exists B sp geo eig, plotted_parameters load trigger bike tb = Ok B /\ speeds slider = Ok sp /\
    (exists c e, geometry B c e = Ok geo /\ (c = true <-> In "centers" options) /\ (e = true <-> In "ellipse" options)) /\
    (exists r, eigenvalues B sp r = Ok eig /\ (r = true <-> In "stability" options)) /\
    dget out "geometry-plot" = Some eig /\ dget out "eigen-plot" = Some geo.
Proof.
  intros F load g e tr b tb o sl out H. unfold plot_update in H. apply bind_ok in H as [sp [H1 H]]. apply bind_ok in H as [B [H2 H]]. apply bind_ok in H as [ge [H3 H]]. apply bind_ok in H as [ei [H4 H]]. injection H as <-.
  exists B, sp, ge, ei. split; [exact H2|]. split; [exact H1|]. split; [exists (smem "centers" o), (smem "ellipse" o); split; [exact H3|]; split; apply smem_spec|]. split; [exists (smem "stability" o); split; [exact H4|apply smem_spec]|]. split; reflexivity.
Qed.
Print Assumptions C52_containers_refuted.

(* The figures shown after any history: the last event of it was not a
   selection, so what is drawn is the selected bicycle with every cell's last
   typed content, or else the nominal value; ticked boxes and slider are the
   last ones chosen. *)
Theorem C52_session_figures : forall F load geometry eigenvalues s0 es e s (out : dict F),
  populate_wheel_data load (se_bike s0) = Ok (se_tables s0) -> run load s0 (es ++ [e]) = Ok s ->
  show F load geometry eigenvalues s e = Ok out -> (forall b, e <> Select b) ->
  exists ps p B q sp geo eig c el r,
    load (last_bike (se_bike s0) (es ++ [e])) = Ok ps /\ dget ps "Benchmark" = Some p /\ dget B "Benchmark" = Some q /\
    (forall k, k <> "Benchmark" -> dget B k = option_map (map (fun x => (fst x, CNum (snd x)))) (dget ps k)) /\
    (forall t i col k, In (t, i, col, k) locations -> k <> "lam" ->
      dget q k = Some (match last_edit t i col (es ++ [e]) with Some x => x | None => nominal_cell p k end)) /\
    (forall x, match last_edit General 2 "data" (es ++ [e]) with
               | Some y => reads_as (Some y) x
               | None => exists l z, stored_lam p l /\ truncated z (l * (180 / PI)) /\ x = IZR z
               end -> dget q "lam" = Some (CNum (PF (x * (PI / 180))))) /\
    (forall k, (forall t i col, ~ In (t, i, col, k) locations) -> dget q k = option_map CNum (dget p k)) /\
    speeds (last_slider (se_slider s0) (es ++ [e])) = Ok sp /\
    (c = true <-> In "centers" (last_options (se_options s0) (es ++ [e]))) /\
    (el = true <-> In "ellipse" (last_options (se_options s0) (es ++ [e]))) /\
    (r = true <-> In "stability" (last_options (se_options s0) (es ++ [e]))) /\
    geometry B c el = Ok geo /\ eigenvalues B sp r = Ok eig /\
    dget out "geometry-plot" = Some eig /\ dget out "eigen-plot" = Some geo.
Proof.
  intros F load g ev s0 es e s out P0 RU SH NS.
  destruct (C52_history _ _ _ _ P0 RU) as [H1 [H2 [H3 [FT [fr [PF HC]]]]]].
  unfold show in SH. destruct (C52_containers_refuted _ _ _ _ _ _ _ _ _ _ SH) as [B [sp [geo [eig [HB [HS [[c [el [HG [HCc HE]]]] [[r [HR HRr]] [O1 O2]]]]]]]]].
  assert (NT : trigger_of e <> "bike-dropdown.value") by (destruct e as [b| |[] i col c0|o|sl]; cbn [trigger_of]; [exfalso; exact (NS b eq_refl)|discriminate..]).
  destruct (C52_plotted _ _ _ _ _ NT HB FT) as [ps [p [q [L1 [L2 [L3 [L4 [L5 [L6 L7]]]]]]]]].
  destruct (C52_populate _ _ _ PF) as [ps' [p' [l [z [A1 [A2 [A3 [A4 [_ [_ [A6 A7]]]]]]]]]]]. rewrite L1 in A1. injection A1 as <-. rewrite L2 in A2. injection A2 as <-.
  rewrite H1 in L1. rewrite H2 in HCc, HE, HRr. rewrite H3 in HS.
  exists ps, p, B, q, sp, geo, eig, c, el, r.
  split; [exact L1|]. split; [exact L2|]. split; [exact L3|]. split; [exact L4|]. split.
  - intros t i col k I N. rewrite (L5 _ _ _ _ I N), (HC _ _ _ _ I). destruct (last_edit t i col (es ++ [e])); [reflexivity|]. exact (A6 _ _ _ _ I N).
  - split; [|split; [exact L7|repeat (split; [assumption|]); assumption]].
    intros x X. apply L6. rewrite (HC General 2%nat "data" "lam") by (cbn; tauto). destruct (last_edit General 2 "data" (es ++ [e])) as [y|]; [exact X|].
    destruct X as [l' [z' [S' [T' ->]]]]. assert (EL : l' = l). { destruct S' as [S'|[u S']], A3 as [A3|[v A3]]; rewrite S' in A3; congruence. } subst l'.
    rewrite (trunc_unique _ _ _ T' A4). left. exact A7.
Qed.
Print Assumptions C52_session_figures.
(* The figures shown when a bicycle has just been selected: its stored
   parameters, whatever was typed before, with the last options and slider. *)
Theorem C52_session_selected : forall F load geometry eigenvalues s0 es b s (out : dict F),
  populate_wheel_data load (se_bike s0) = Ok (se_tables s0) -> run load s0 (es ++ [Select b]) = Ok s ->
  show F load geometry eigenvalues s (Select b) = Ok out ->
  exists ps B sp geo eig c el r, load b = Ok ps /\
    (forall k, dget B k = option_map (map (fun x => (fst x, CNum (snd x)))) (dget ps k)) /\
    speeds (last_slider (se_slider s0) es) = Ok sp /\
    (c = true <-> In "centers" (last_options (se_options s0) es)) /\
    (el = true <-> In "ellipse" (last_options (se_options s0) es)) /\
    (r = true <-> In "stability" (last_options (se_options s0) es)) /\
    geometry B c el = Ok geo /\ eigenvalues B sp r = Ok eig /\
    dget out "geometry-plot" = Some eig /\ dget out "eigen-plot" = Some geo.
Proof.
  intros F load g ev s0 es b s out P0 RU SH.
  destruct (C52_history _ _ _ _ P0 RU) as [H1 [H2 [H3 [FT [fr [PF HC]]]]]].
  unfold show in SH. destruct (C52_containers_refuted _ _ _ _ _ _ _ _ _ _ SH) as [B [sp [geo [eig [HB [HS [[c [el [HG [HCc HE]]]] [[r [HR HRr]] [O1 O2]]]]]]]]].
  destruct (C52_populate _ _ _ PF) as [ps [p [l [z [A1 _]]]]].
  cbn [trigger_of] in HB. rewrite (C52_selected _ _ _ _ A1) in HB. injection HB as HB.
  unfold last_bike, last_options, last_slider in *. rewrite fold_left_app in H1, H2, H3. cbn [fold_left] in H1, H2, H3.
  rewrite H1 in A1. rewrite H2 in HCc, HE, HRr. rewrite H3 in HS.
  exists ps, B, sp, geo, eig, c, el, r. split; [exact A1|]. split; [|repeat (split; [assumption|]); assumption].
  intros k. rewrite <- HB. exact (dget_map_snd (fun d : dict pval => map (fun x => (fst x, CNum (snd x))) d) ps k).
Qed.
Print Assumptions C52_session_selected.

(* The eigenvalue figure's speeds: for slider ends a whole number of 5 m/s
   apart, n steps of 5 give 50 n speeds from the first to the second end; equal
   ends give no speed at all, exchanged ends an error. *)
Theorem C52_speeds : forall a n rest, (1 <= n)%nat ->
  exists sp, speeds (a :: (a + 5 * INR n) :: rest) = Ok sp /\ length sp = (50 * n)%nat /\ hd 0 sp = a /\ last sp 0 = a + 5 * INR n /\
    (forall i, (i < 50 * n)%nat -> nth i sp 0 = a + INR i * (5 * INR n / INR (50 * n - 1))) /\
  speeds (a :: a :: rest) = Ok [] /\
  speeds ((a + 5 * INR n) :: a :: rest) = Err (ValueError "Number of samples must be non-negative.").
Proof.
  intros a n rest N.
  assert (PI1 : forall z, (0 <= z)%Z -> pyint (IZR z) = z).
  { intros z Z. apply (trunc_unique (IZR z)); [apply pyint_trunc|]. unfold truncated. split; [lra|]. apply IZR_le in Z. nra. }
  assert (E1 : pyint ((a + 5 * INR n - a) / (1 / 10)) = Z.of_nat (50 * n)).
  { replace ((a + 5 * INR n - a) / (1 / 10)) with (IZR (Z.of_nat (50 * n))); [apply PI1; lia|]. rewrite <- INR_IZR_INZ, mult_INR. replace (INR 50) with 50 by (rewrite INR_IZR_INZ; reflexivity). field. }
  exists (linspace a (a + 5 * INR n) (50 * n)). unfold speeds. rewrite E1. cbv zeta. replace (Z.ltb (Z.of_nat (50 * n)) 0) with false by (symmetry; apply Z.ltb_ge; lia). rewrite Nat2Z.id. split; [reflexivity|]. split; [apply linspace_len|].
  destruct (linspace_ends a (a + 5 * INR n) (50 * n) ltac:(lia)) as [A B]. split; [exact A|]. split; [exact B|]. split.
  - intros i Hi. rewrite linspace_nth by lia. do 3 f_equal. ring.
  - split.
    + replace ((a - a) / (1 / 10)) with (IZR 0) by field. rewrite PI1 by lia. reflexivity.
    + assert (EN : pyint ((a - (a + 5 * INR n)) / (1 / 10)) = (- Z.of_nat (50 * n))%Z).
      { assert (V : (a - (a + 5 * INR n)) / (1 / 10) = IZR (- Z.of_nat (50 * n))) by (rewrite opp_IZR, <- INR_IZR_INZ, mult_INR; replace (INR 50) with 50 by (rewrite INR_IZR_INZ; reflexivity); field).
        rewrite V. apply (trunc_unique (IZR (- Z.of_nat (50 * n)))); [apply pyint_trunc|]. unfold truncated. split; [split; [lra|lra]|]. nra. }
      rewrite EN. replace (Z.ltb (- Z.of_nat (50 * n)) 0) with true by (symmetry; apply Z.ltb_lt; lia). reflexivity.
Qed.
Print Assumptions C52_speeds.

(* a small bicycle: a session with an edit *)
Definition ex_load (b : string) : res (dict (dict pval)) :=
  if String.eqb b "Yellow" then Ok [("Benchmark", map (fun k => (k, PU 1 (1/10))) par_list)] else Err IOError.
Example C52_example : exists tb s, populate_wheel_data ex_load "Yellow" = Ok tb /\
  run ex_load (mksession "Yellow" tb ["centers"] [0; 10]) [EditCell Frame 2 "rB" (CNum (PF 7)); Slider [0; 20]] = Ok s /\
  cell_at (se_tables s) Frame 2 "rB" = Some (CNum (PF 7)) /\ cell_at (se_tables s) Frame 2 "fA" = Some (CNum (PF 1)).
Proof.
  destruct (C52_populate_defined ex_load "Yellow" _ (map (fun k => (k, PU 1 (1/10))) par_list) 1 eq_refl eq_refl) as [tb H]; [right; eexists; reflexivity|].
  exists tb. eexists. split; [exact H|]. split; [reflexivity|]. cbn [se_tables].
  destruct (C52_populate _ _ _ H) as [ps [p [l [z [A1 [A2 [_ [_ [FT [_ [C _]]]]]]]]]]]. injection A1 as <-. injection A2 as <-. rewrite !edit_cell by (destruct FT as [_ [FT _]]; cbn [the_table]; lia). split; [reflexivity|].
  change (cell_at tb Frame 2 "fA" = Some (CNum (PF 1))). rewrite (C _ _ _ "mH") by (cbn; tauto || discriminate). reflexivity.
Qed.
(* the same session's figures are drawn: the hypotheses of C52_session_figures can be met *)
Example C52_session_example : exists tb s out, populate_wheel_data ex_load "Yellow" = Ok tb /\
  run ex_load (mksession "Yellow" tb ["centers"] [0; 10]) ([EditCell General 2 "data" (CNum (PF 7))] ++ [Slider [0; 20]]) = Ok s /\
  show bool ex_load (fun _ c _ => Ok c) (fun _ _ r => Ok r) s (Slider [0; 20]) = Ok out /\
  dget out "eigen-plot" = Some true /\ dget out "geometry-plot" = Some false.
Proof.
  destruct (C52_populate_defined ex_load "Yellow" _ (map (fun k => (k, PU 1 (1/10))) par_list) 1 eq_refl eq_refl) as [tb H]; [right; eexists; reflexivity|].
  destruct (C52_populate _ _ _ H) as [ps [p [l [z [A1 [A2 [_ [_ [FT _]]]]]]]]].
  exists tb. do 2 eexists. split; [exact H|]. split; [reflexivity|]. unfold show, plot_update. cbn [se_bike se_tables se_options se_slider trigger_of].
  destruct (C52_speeds 0 4 [] ltac:(lia)) as [sp [SP _]]. replace (0 + 5 * INR 4) with 20 in SP by (cbn; ring). rewrite SP. cbn [bind].
  set (tb' := edit tb General 2 "data" (CNum (PF 7))) in *.
  assert (FT' : full_tables tb').
  { destruct FT as [F1 [F2 [F3 F4]]]. pose proof (edit_len tb General 2 "data" (CNum (PF 7))) as EL. pose proof (EL Wheel). pose proof (EL Frame). pose proof (EL General). cbn [the_table] in *. repeat split; try (unfold tb'; congruence).
    intros t i col k I. unfold tb'. rewrite edit_cell by (cbn [the_table]; lia). destruct (same_cell t i col General 2 "data"); [discriminate|exact (F4 _ _ _ _ I)]. }
  destruct (C52_plotted_defined ex_load "range-slider.value" "Yellow" tb' ps p ltac:(discriminate) FT' A1 A2) as [D _].
  destruct D as [B HB]. { exists 7. left. unfold number_in, tb'. rewrite edit_cell by (destruct FT as [_ [_ [F3 _]]]; cbn [the_table]; lia). reflexivity. }
  rewrite HB. cbn [bind]. split; [reflexivity|]. split; reflexivity.
Qed.
