(* PApp.v -- lemmas for C52 *)
From Verif Require Import Base PBase MString MIo MSets MPlot PPlot PSets2 MApp SApp.
From Coq Require Import ZArith Lra Lia.
Local Open Scope string_scope.
Local Open Scope R_scope.

Lemma dget_map_snd {V W} (f : V -> W) (d : dict V) k : dget (map (fun e => (fst e, f (snd e))) d) k = option_map f (dget d k).
Proof. induction d as [|[k' v] d IH]; [reflexivity|]. cbn [map dget fst snd]. destruct (String.eqb k k'); [reflexivity|exact IH]. Qed.
Lemma getp_pure p k : getp (pure p) k = nominal_cell p k.
Proof. unfold getp, pure, nominal_cell. rewrite dget_map_snd. destruct (dget p k) as [[x|n s]|]; reflexivity. Qed.
Lemma pyint_trunc x : truncated (pyint x) x.
Proof.
  unfold truncated, pyint. destruct (Rltb x 0) eqn:E.
  - apply Rltb_spec in E. destruct (archimed (- x)) as [A B]. assert (L : (1 <= up (- x))%Z) by (apply Zlt_le_succ with (n := 0%Z), lt_IZR; lra). apply IZR_le in L. rewrite opp_IZR, minus_IZR. rewrite Rabs_Ropp, (Rabs_pos_eq (_ - 1)), (Rabs_left x) by lra. split; [lra|]. nra.
  - apply Rltb_false in E. destruct (archimed x) as [A B]. assert (L : (1 <= up x)%Z) by (apply Zlt_le_succ with (n := 0%Z), lt_IZR; lra). apply IZR_le in L. rewrite minus_IZR. rewrite !Rabs_pos_eq by lra. split; [lra|]. nra.
Qed.
Lemma trunc_unique x a b : truncated a x -> truncated b x -> a = b.
Proof.
  intros [[A1 A2] A3] [[B1 B2] B3].
  destruct (Rtotal_order x 0) as [L|[E|G]].
  - assert (IZR a <= 0) by nra. assert (IZR b <= 0) by nra. rewrite (Rabs_left1 (IZR a)), (Rabs_left1 (IZR b)) in * by lra.
    assert (L1 : IZR a < IZR (b + 1)) by (rewrite plus_IZR; lra). assert (L2 : IZR b < IZR (a + 1)) by (rewrite plus_IZR; lra). apply lt_IZR in L1, L2. lia.
  - subst x. rewrite Rabs_R0 in *. assert (Rabs (IZR a) = 0) by (pose proof (Rabs_pos (IZR a)); lra). assert (Rabs (IZR b) = 0) by (pose proof (Rabs_pos (IZR b)); lra).
    assert (IZR a = 0) by (destruct (Req_dec (IZR a) 0); auto; apply Rabs_no_R0 in H1; congruence). assert (IZR b = 0) by (destruct (Req_dec (IZR b) 0); auto; apply Rabs_no_R0 in H2; congruence). apply eq_IZR. lra.
  - assert (0 <= IZR a) by nra. assert (0 <= IZR b) by nra. rewrite (Rabs_pos_eq (IZR a)), (Rabs_pos_eq (IZR b)) in * by lra.
    assert (L1 : IZR a < IZR (b + 1)) by (rewrite plus_IZR; lra). assert (L2 : IZR b < IZR (a + 1)) by (rewrite plus_IZR; lra). apply lt_IZR in L1, L2. lia.
Qed.

(* the filled tables *)
Definition filled (p : dict pval) (z : Z) : tables :=
  let c := nominal_cell p in
  mktables
    [[("label", CText "Radius [m]:"); ("fW", c "rF"); ("rW", c "rR")];
     [("label", CText "Mass [kg]:"); ("fW", c "mF"); ("rW", c "mR")];
     [("label", CText "Moment Ixx [kg*m2]:"); ("fW", c "IFxx"); ("rW", c "IRxx")];
     [("label", CText "Moment Iyy [kg*m2]:"); ("fW", c "IFyy"); ("rW", c "IRyy")]]
    [[("label", CText "Center of Mass X [m]:"); ("rB", c "xB"); ("fA", c "xH")];
     [("label", CText "Center of Mass Z [m]:"); ("rB", c "zB"); ("fA", c "zH")];
     [("label", CText "Total Mass [kg]:"); ("rB", c "mB"); ("fA", c "mH")];
     [("label", CText "Moment Ixx [kg*m2]:"); ("rB", c "IBxx"); ("fA", c "IHxx")];
     [("label", CText "Moment Iyy [kg*m2]:"); ("rB", c "IByy"); ("fA", c "IHyy")];
     [("label", CText "Moment Izz [kg*m2]:"); ("rB", c "IBzz"); ("fA", c "IHzz")];
     [("label", CText "Moment Ixz [kg*m2]:"); ("rB", c "IBxz"); ("fA", c "IHxz")]]
    [[("label", CText "Wheel Base [m]:"); ("data", c "w")];
     [("label", CText "Trail [m]:"); ("data", c "c")];
     [("label", CText "Steer Axis Tilt [degrees]:"); ("data", CNum (PF (IZR z)))];
     [("label", CText "Gravity [N/kg]:"); ("data", c "g")]].
Definition lam_of (p : dict pval) : res R := match dget p "lam" with Some (PF x) => Ok x | Some (PU n _) => Ok n | None => Err TypeError end.
Lemma populate_eq load b : populate_wheel_data load b =
  (ps <- load b ;; p <- dlook ps "Benchmark" ;; l <- lam_of p ;; Ok (filled p (pyint (rad2deg l)))).
Proof.
  unfold populate_wheel_data, new_par. destruct (load b) as [ps|e]; [|reflexivity]. cbn [bind]. destruct (dlook ps "Benchmark") as [p|e]; [|reflexivity]. cbn [bind].
  assert (L : (match getc (nth 2 (column (pure p) "data" (range 8 12)) []) "data" with CNum (PF x) => Ok x | _ => Err TypeError end) = lam_of p).
  { change (getc (nth 2 (column (pure p) "data" (range 8 12)) []) "data") with (getp (pure p) "lam"). rewrite getp_pure. unfold nominal_cell, lam_of. destruct (dget p "lam") as [[x|n s]|]; reflexivity. }
  rewrite L. destruct (lam_of p) as [l|e]; [|reflexivity]. cbn [bind]. f_equal. unfold filled. cbv zeta. rewrite <- !getp_pure. reflexivity.
Qed.

(* reading the tables *)
Lemma row_get_iff tb t i col c : row_get (the_table tb t) i col = Ok c <-> (i < length (the_table tb t))%nat /\ match cell_at tb t i col with Some c' => c' = c | None => c = CNone end.
Proof.
  unfold row_get, cell_at, getc. destruct (nth_error (the_table tb t) i) as [r|] eqn:E.
  - assert (i < length (the_table tb t))%nat by (apply nth_error_Some; congruence). destruct (dget r col) as [c'|]; split; intros H0; try (split; [assumption|]); try congruence; destruct H0 as [_ H0]; congruence.
  - apply nth_error_None in E. split; [discriminate|lia].
Qed.
Definition read (tb : tables) (t : table_id) (i : nat) (col : string) : cell := match cell_at tb t i col with Some c => c | None => CNone end.
Lemma row_get_read tb t i col : (i < length (the_table tb t))%nat -> row_get (the_table tb t) i col = Ok (read tb t i col).
Proof. intros H. apply row_get_iff. split; [exact H|]. unfold read. destruct (cell_at tb t i col); reflexivity. Qed.
Definition new_list (tb : tables) : list (string * cell) :=
  (map (fun l => (snd l, read tb (fst (fst (fst l))) (snd (fst (fst l))) (snd (fst l)))) (firstn 8 locations ++ skipn 12 locations ++ firstn 4 (skipn 8 locations)))%list.
Lemma newP_ok tb : (length (t_wheel tb) >= 4)%nat -> (length (t_frame tb) >= 7)%nat -> (length (t_general tb) >= 4)%nat -> newP tb = Ok (new_list tb).
Proof.
  intros W F G. unfold newP.
  assert (RW : forall i col, (i < 4)%nat -> row_get (t_wheel tb) i col = Ok (read tb Wheel i col)) by (intros i col L; apply (row_get_read tb Wheel); cbn [the_table]; lia).
  assert (RF : forall i col, (i < 7)%nat -> row_get (t_frame tb) i col = Ok (read tb Frame i col)) by (intros i col L; apply (row_get_read tb Frame); cbn [the_table]; lia).
  assert (RG : forall i col, (i < 4)%nat -> row_get (t_general tb) i col = Ok (read tb General i col)) by (intros i col L; apply (row_get_read tb General); cbn [the_table]; lia).
  change (range 0 8) with [0;1;2;3;4;5;6;7]%nat. change (range 12 (length par_list)) with [12;13;14;15;16;17;18;19;20;21;22;23;24;25]%nat. change (range 8 12) with [8;9;10;11]%nat.
  cbn [mapM Nat.ltb Nat.leb Nat.sub nth_par nth par_list]. rewrite !RW, !RF, !RG by lia. cbn [bind]. rewrite ?RW, ?RF, ?RG by lia. reflexivity.
Qed.
Lemma newP_short tb : ~ ((length (t_wheel tb) >= 4)%nat /\ (length (t_frame tb) >= 7)%nat /\ (length (t_general tb) >= 4)%nat) -> forall new, newP tb <> Ok new.
Proof.
  intros N new H. apply N. clear N. unfold newP in H. apply bind_ok in H as [a [HA H]]. apply bind_ok in H as [b [HB H]]. apply bind_ok in H as [g [HG H]].
  assert (E : forall {A B} (f : A -> res B) l ys x, mapM f l = Ok ys -> In x l -> exists y, f x = Ok y).
  { clear. intros A B f l ys x H I. apply mapM_ok in H. induction H; [destruct I|]. destruct I as [->|I]; [eexists; eassumption|auto]. }
  assert (LR : forall (t : table) i col c, row_get t i col = Ok c -> (i < length t)%nat) by (intros t i col c Q; unfold row_get in Q; destruct (nth_error t i) eqn:EN; [apply nth_error_Some; congruence|discriminate]).
  destruct (E _ _ _ _ _ 3%nat HA ltac:(cbn; tauto)) as [y1 Y1]. destruct (E _ _ _ _ _ 18%nat HB ltac:(cbn; tauto)) as [y2 Y2]. destruct (E _ _ _ _ _ 11%nat HG ltac:(cbn; tauto)) as [y3 Y3].
  cbn [Nat.ltb Nat.leb Nat.sub] in Y1, Y2, Y3. apply bind_ok in Y1 as [c1 [Y1 _]]. apply bind_ok in Y2 as [c2 [Y2 _]]. apply bind_ok in Y3 as [c3 [Y3 _]]. apply LR in Y1, Y2, Y3. lia.
Qed.
Lemma new_keys tb : dkeys (new_list tb) = (firstn 8 par_list ++ skipn 12 par_list ++ firstn 4 (skipn 8 par_list))%list.
Proof. reflexivity. Qed.
Lemma new_nodup tb : NoDup (dkeys (new_list tb)).
Proof. rewrite new_keys. cbn. repeat constructor; cbn; intuition discriminate. Qed.
Lemma new_get tb t i col k : In (t, i, col, k) locations -> dget (new_list tb) k = Some (read tb t i col).
Proof. intros H. cbn in H. repeat (destruct H as [H|H]; [injection H as <- <- <- <-; reflexivity|]). destruct H. Qed.
Lemma new_none tb k : ~ In k par_list -> dget (new_list tb) k = None.
Proof.
  intros H. destruct (dget (new_list tb) k) eqn:E; [|reflexivity]. exfalso. apply H. assert (E' : In k (dkeys (new_list tb))) by (apply dget_some_in; eexists; exact E). clear E. rename E' into E. rewrite new_keys in E. cbn in E. cbn. tauto.
Qed.
(* an edited cell *)
Lemma nth_error_upd {A} (l : list A) i j x : nth_error (upd l i x) j = if Nat.eqb i j then (if Nat.ltb i (length l) then Some x else None) else nth_error l j.
Proof.
  revert i j. induction l as [|y l IH]; intros [|i] [|j]; cbn [upd nth_error length]; try reflexivity.
  - destruct (Nat.eqb (S i) (S j)); reflexivity.
  - rewrite IH. change (Nat.eqb (S i) (S j)) with (Nat.eqb i j). destruct (Nat.eqb i j); [|reflexivity]. change (Nat.ltb (S i) (S (length l))) with (Nat.ltb i (length l)). reflexivity.
Qed.
Lemma edit_cell tb t i col c t' i' col' : (i < length (the_table tb t))%nat ->
  cell_at (edit tb t i col c) t' i' col' = if same_cell t' i' col' t i col then Some c else cell_at tb t' i' col'.
Proof.
  intros L. unfold cell_at.
  assert (T : forall tab, (i < length tab)%nat -> match nth_error (edit_table tab i col c) i' with Some r => dget r col' | None => None end = if Nat.eqb i' i && String.eqb col' col then Some c else match nth_error tab i' with Some r => dget r col' | None => None end).
  { intros tab Lt. unfold edit_table. destruct (nth_error tab i) as [r|] eqn:E; [|apply nth_error_None in E; lia]. rewrite nth_error_upd. rewrite Nat.eqb_sym. destruct (Nat.eqb_spec i' i) as [->|NE]; [|reflexivity]. rewrite E. replace (Nat.ltb i (length tab)) with true by (symmetry; apply Nat.ltb_lt; exact Lt). cbn [andb]. rewrite dget_dset. reflexivity. }
  destruct t, t'; cbn [edit the_table t_wheel t_frame t_general same_cell] in *; try reflexivity; apply T; exact L.
Qed.
Lemma edit_len tb t i col c t' : length (the_table (edit tb t i col c) t') = length (the_table tb t').
Proof.
  assert (T : forall tab, length (edit_table tab i col c) = length tab) by (intros tab; unfold edit_table; destruct (nth_error tab i); [apply upd_length|reflexivity]).
  destruct t, t'; cbn [edit the_table t_wheel t_frame t_general]; auto.
Qed.
Lemma edit_out tb t i col c : (length (the_table tb t) <= i)%nat -> edit tb t i col c = tb.
Proof.
  intros L. assert (T : forall tab, (length tab <= i)%nat -> edit_table tab i col c = tab). { intros tab Lt. unfold edit_table. destruct (nth_error tab i) eqn:E; [|reflexivity]. assert (i < length tab)%nat by (apply nth_error_Some; congruence). lia. }
  destruct tb as [tw tf tg], t; cbn [edit the_table t_wheel t_frame t_general] in *; rewrite T by exact L; reflexivity.
Qed.
Lemma same_cell_spec t i col t' i' col' : same_cell t i col t' i' col' = true <-> t = t' /\ i = i' /\ col = col'.
Proof.
  destruct t, t'; cbn [same_cell]; split; intros H; try discriminate H; try (destruct H as [H H0]; discriminate H).
  all: first [apply andb_prop in H as [A B]; apply Nat.eqb_eq in A; apply String.eqb_eq in B; auto | destruct H as [_ [-> ->]]; rewrite Nat.eqb_refl, String.eqb_refl; reflexivity].
Qed.

(* what is plotted *)
Lemma plotted_iff load trigger v tb B : trigger <> "bike-dropdown.value" ->
  plotted_parameters load trigger v tb = Ok B <->
  exists ps p x, load v = Ok ps /\ dget ps "Benchmark" = Some p /\ pyfloat (read tb General 2 "data") = Ok x /\
    (length (t_wheel tb) >= 4)%nat /\ (length (t_frame tb) >= 7)%nat /\ (length (t_general tb) >= 4)%nat /\
    B = dset (bike_par ps) "Benchmark" (dupdate (map (fun e => (fst e, CNum (snd e))) p) (new_list (edit tb General 2 "data" (CNum (PF (deg2rad x)))))).
Proof.
  intros NT. unfold plotted_parameters. destruct (String.eqb_spec trigger "bike-dropdown.value") as [E|_]; [congruence|].
  assert (DB : forall ps, dlook (bike_par ps) "Benchmark" = match dget ps "Benchmark" with Some p => Ok (map (fun e => (fst e, CNum (snd e))) p) | None => Err (KeyError "Benchmark") end).
  { intros ps. unfold dlook, bike_par. rewrite (dget_map_snd (fun d : dict pval => map (fun e => (fst e, CNum (snd e))) d)). destruct (dget ps "Benchmark"); reflexivity. }
  assert (RD : forall r, nth_error (t_general tb) 2 = Some r -> getc r "data" = read tb General 2 "data") by (intros r E; unfold read, cell_at, getc; cbn [the_table]; rewrite E; reflexivity).
  assert (ED : forall r c, nth_error (t_general tb) 2 = Some r -> mktables (t_wheel tb) (t_frame tb) (upd (t_general tb) 2 (dset r "data" c)) = edit tb General 2 "data" c) by (intros r c E; unfold edit, edit_table; rewrite E; reflexivity).
  split.
  - intros H. apply bind_ok in H as [ps [HP H]]. cbv zeta in H. apply bind_ok in H as [r [HR H]]. apply bind_ok in H as [x [HX H]]. apply bind_ok in H as [new [HN H]]. apply bind_ok in H as [b [HB H]]. injection H as <-.
    destruct (nth_error (t_general tb) 2) as [r'|] eqn:ER; [|discriminate]. injection HR as ->. rewrite (RD _ eq_refl) in HX. rewrite (ED _ _ eq_refl) in HN. rewrite DB in HB. destruct (dget ps "Benchmark") as [p|] eqn:EP; [|discriminate]. injection HB as <-.
    set (tb' := edit tb General 2 "data" (CNum (PF (deg2rad x)))) in *.
    assert (L : forall t, length (the_table tb' t) = length (the_table tb t)) by (intros t; apply edit_len). pose proof (L Wheel) as L1. pose proof (L Frame) as L2. pose proof (L General) as L3. cbn [the_table] in L1, L2, L3.
    destruct (Nat.le_gt_cases 4 (length (t_wheel tb'))) as [W|W]; [|exfalso; apply (newP_short tb' ltac:(lia) new HN)]. destruct (Nat.le_gt_cases 7 (length (t_frame tb'))) as [F|F]; [|exfalso; apply (newP_short tb' ltac:(lia) new HN)]. destruct (Nat.le_gt_cases 4 (length (t_general tb'))) as [G|G]; [|exfalso; apply (newP_short tb' ltac:(lia) new HN)].
    rewrite (newP_ok tb' W F G) in HN. injection HN as <-. exists ps, p, x. repeat split; auto; try lia.
  - intros [ps [p [x [HP [EP [HX [W [F [G ->]]]]]]]]]. rewrite HP. cbn [bind]. cbv zeta. destruct (nth_error (t_general tb) 2) as [r|] eqn:ER; [|apply nth_error_None in ER; lia]. cbn [bind]. rewrite (RD _ eq_refl), HX. cbn [bind]. rewrite (ED _ _ eq_refl).
    set (tb' := edit tb General 2 "data" (CNum (PF (deg2rad x)))) in *. assert (L : forall t, length (the_table tb' t) = length (the_table tb t)) by (intros t; apply edit_len). pose proof (L Wheel) as L1. pose proof (L Frame) as L2. pose proof (L General) as L3. cbn [the_table] in L1, L2, L3.
    rewrite newP_ok by lia. cbn [bind]. rewrite DB, EP. reflexivity.
Qed.

(* the session invariant *)
Lemma filled_cells p z t i col k : In (t, i, col, k) locations -> cell_at (filled p z) t i col = Some (if String.eqb k "lam" then CNum (PF (IZR z)) else nominal_cell p k).
Proof. intros H. cbn in H. repeat (destruct H as [H|H]; [injection H as <- <- <- <-; reflexivity|]). destruct H. Qed.
Lemma filled_len p z : length (t_wheel (filled p z)) = 4%nat /\ length (t_frame (filled p z)) = 7%nat /\ length (t_general (filled p z)) = 4%nat.
Proof. auto. Qed.
Lemma loc_len t i col k tb : In (t, i, col, k) locations -> (length (t_wheel tb) = 4 /\ length (t_frame tb) = 7 /\ length (t_general tb) = 4)%nat -> (i < length (the_table tb t))%nat.
Proof. intros H [A [B C]]. cbn in H. repeat (destruct H as [H|H]; [injection H as <- <- <- <-; cbn [the_table]; lia|]). destruct H. Qed.
