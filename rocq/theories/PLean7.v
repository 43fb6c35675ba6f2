(* PLean7.v -- the balances of the leaning rider's bicycle as polynomials *)
From Coq Require Import Lra Lia ZArith QArith Qreals FMapPositive.
From Verif Require Import Base MString MHeap MBicycle MVec MInertia MSets MModels MModels2 SModels SModels2 PBase MLean MLeanProg MLean2 SLean PLean PLean3 PLean4 PLean5 PLPoly SBicycle SLean2 PLean6.
Local Open Scope string_scope.
Local Open Scope R_scope.

Section Residuals.
  Variables e ex : string -> R.
  Variable lam : R.
  Let k := lean_bike e lam.
  Definition fwd : R := - e "u6" * e "rr".
  Definition yaw1 : R := (fwd * cos lam * ex "q7" + rb_t k * ex "u7") / rb_w k.
  Definition yaw2 : R := (fwd * cos lam * ex "u7" + rb_t k * ex "a7") / rb_w k.
  Definition sidefrc : R :=
    total k (fun l b => turning_z k fwd l b (ex "a4") yaw2 (ex "a7") (ex "a9") (ex "u4") (ex "u7") (ex "u9") + b_x b * (b_m b * sideways k l b (fwd * yaw1) (ex "a4") yaw2 (ex "a7") (ex "a9"))) / rb_w k.
  Definition res_roll : R :=
    total k (fun l b => turning_x k fwd l b (ex "a4") yaw2 (ex "a7") (ex "a9") yaw1 (ex "u7") - b_z b * (b_m b * sideways k l b (fwd * yaw1) (ex "a4") yaw2 (ex "a7") (ex "a9")))
    - (ex "T4" + total k (fun l b => b_m b * e "g" * (sideways k l b 0 (ex "q4") 0 (ex "q7") (ex "q9"))) + load k (e "g") * (rb_t k * ex "q7")).
  Definition res_steer : R :=
    total k (fun l b => fr b * (sin lam * turning_x k fwd l b (ex "a4") yaw2 (ex "a7") (ex "a9") yaw1 (ex "u7") + cos lam * turning_z k fwd l b (ex "a4") yaw2 (ex "a7") (ex "a9") (ex "u4") (ex "u7") (ex "u9")
                              + ahead k b * (b_m b * sideways k l b (fwd * yaw1) (ex "a4") yaw2 (ex "a7") (ex "a9"))))
    - (ex "T7" - rb_t k * sidefrc + (ex "q4" + sin lam * ex "q7") * (e "g" * total k (fun _ b => fr b * (b_m b * ahead k b)) + load k (e "g") * rb_t k)).
  Definition res_lean : R :=
    total k (fun l b => l * (turning_x k fwd l b (ex "a4") yaw2 (ex "a7") (ex "a9") yaw1 (ex "u7") - below k b * (b_m b * sideways k l b (fwd * yaw1) (ex "a4") yaw2 (ex "a7") (ex "a9"))))
    - (ex "T9" - rb_stiff k * ex "q9" - rb_damp k * ex "u9" + total k (fun l b => l * (b_m b * e "g" * (- below k b * (ex "q4" + ex "q9"))))).
End Residuals.

Record good (e ex : string -> R) (lam : R) (rho : atom -> R) : Prop := mkgood {
  g_up : upright_point e lam; g_inv : forall a, use_inv a = true -> rho a <> 0;
  g_val : exists zs, rho = valuation e lam ex zs }.
Section Leaves.
  Variables (e ex : string -> R) (lam : R) (rho : atom -> R).
  Hypothesis G : good e ex lam rho.
  Lemma g_trig : rho at_c * rho at_c = 1 - rho at_s * rho at_s.
  Proof. destruct G as [_ _ (zs & ->)]. change (cos lam * cos lam = 1 - sin lam * sin lam). pose proof (sin2_cos2 lam) as H. unfold Rsqr in H. lra. Qed.
  Lemma ev_add x y p q : x = peval rho p -> y = peval rho q -> x + y = peval rho (padd p q).
  Proof. intros -> ->. symmetry. apply padd_ok. Qed.
  Lemma ev_sub x y p q : x = peval rho p -> y = peval rho q -> x - y = peval rho (psub p q).
  Proof. intros -> ->. symmetry. apply psub_ok. Qed.
  Lemma ev_mul x y p q : x = peval rho p -> y = peval rho q -> x * y = peval rho (pmul use_inv p q).
  Proof. intros -> ->. symmetry. apply (pmul_ok _ _ (g_inv _ _ _ _ G) g_trig). Qed.
  Lemma ev_opp x p : x = peval rho p -> - x = peval rho (pneg p).
  Proof. intros ->. symmetry. apply pneg_ok. Qed.
  Lemma ev_pow x n p : x = peval rho p -> x ^ n = peval rho (ppow use_inv p n).
  Proof. intros ->. symmetry. apply (ppow_ok _ _ (g_inv _ _ _ _ G) g_trig). Qed.
  Definition invp (p : poly) : poly := match pinv p with Some q => q | None => [] end.
  Lemma ev_div x y p q : match pinv q with Some _ => true | None => false end = true -> x = peval rho p -> y = peval rho q -> x / y = peval rho (pmul use_inv p (invp q)).
  Proof.
    intros H -> ->. unfold invp, Rdiv. destruct (pinv q) as [r|] eqn:E; [|discriminate]. rewrite (pmul_ok _ _ (g_inv _ _ _ _ G) g_trig), (pinv_ok _ _ _ E). reflexivity.
  Qed.
  Lemma ev_num z : IZR z = peval rho (pconst (z # 1)).
  Proof. rewrite pconst_ok. unfold Q2R. cbn [Qnum Qden]. field. Qed.
  Lemma ev_cos : cos lam = peval rho pC.
  Proof. destruct G as [_ _ (zs & ->)]. unfold pC. rewrite pvar_ok. reflexivity. Qed.
  Lemma ev_sin : sin lam = peval rho pS.
  Proof. destruct G as [_ _ (zs & ->)]. unfold pS. rewrite pvar_ok. reflexivity. Qed.
  Lemma ev_par k : smem k (["u6"] ++ p_names)%list = true -> e k = peval rho (start_poly k).
  Proof.
    intros H. destruct G as [U _ (zs & ->)]. symmetry. apply start_value; [exact U|]. apply smem_spec in H. cbn [app In] in H. destruct H as [<-|H]; [apply smem_spec; reflexivity|].
    unfold lean_names. rewrite !in_app_iff. tauto.
  Qed.
  Lemma ev_ex k : smem k extras = true -> ex k = peval rho (X k).
  Proof. intros H. destruct G as [U _ (zs & ->)]. unfold X. rewrite pvar_ok. pose proof (val_x e lam ex zs) as F. rewrite Forall_forall in F. symmetry. apply F, smem_spec, H. Qed.
End Leaves.
Ltac evp G :=
  lazymatch goal with
  | |- _ + _ = _ => eapply ev_add; [evp G|evp G]
  | |- _ - _ = _ => eapply ev_sub; [evp G|evp G]
  | |- _ * _ = _ => eapply (ev_mul _ _ _ _ G); [evp G|evp G]
  | |- - _ = _ => eapply ev_opp; evp G
  | |- _ ^ _ = _ => eapply (ev_pow _ _ _ _ G); evp G
  | |- _ / _ = _ => eapply (ev_div _ _ _ _ G); [|evp G|evp G]; [vm_compute; reflexivity]
  | |- IZR _ = _ => apply ev_num
  | |- cos _ = _ => apply (ev_cos _ _ _ _ G)
  | |- sin _ = _ => apply (ev_sin _ _ _ _ G)
  | |- ?f ?k = _ => first [apply (ev_par _ _ _ _ G); reflexivity|apply (ev_ex _ _ _ _ G); reflexivity]
  end.
Ltac open_spec := unfold res_roll, res_steer, res_lean, sidefrc, yaw2, yaw1, fwd, load, total, everyone, turning_x, turning_z, turn_x, turn_z, sideways, ahead, below, lean_bike, lean_bodies, body_of, upright, px, pz, fr, spin;
  cbn [rb_w rb_t rb_lam rb_bodies rb_rider rb_hinge rb_stiff rb_damp map app fold_right fst snd b_m b_x b_z b_Ixx b_Ixz b_Izz b_Iyy_over_r b_front].
Definition roll_sig : {p | forall e ex lam rho, good e ex lam rho -> res_roll e ex lam = peval rho p}.
Proof. eexists. intros e ex lam rho G. open_spec. evp G. Defined.
Definition steer_sig : {p | forall e ex lam rho, good e ex lam rho -> res_steer e ex lam = peval rho p}.
Proof. eexists. intros e ex lam rho G. open_spec. evp G. Defined.
Definition lean_sig : {p | forall e ex lam rho, good e ex lam rho -> res_lean e ex lam = peval rho p}.
Proof. eexists. intros e ex lam rho G. open_spec. evp G. Defined.
Definition yaw_sig : {p | forall e ex lam rho, good e ex lam rho -> yaw1 e ex lam = peval rho p}.
Proof. eexists. intros e ex lam rho G. open_spec. evp G. Defined.

Definition residuals : list poly := [proj1_sig roll_sig; proj1_sig steer_sig; proj1_sig lean_sig].
Definition acc_atoms : list atom := map at_x ["a4"; "a7"; "a9"].
Definition rest (p : poly) : poly := filter (fun t => negb (existsb (fun a => existsb (fun x => Pos.eqb (fst x) a) (fst t)) acc_atoms)) p.
Definition lat_rows : list nat := [9; 11; 12]%nat.
Definition lat_cols : list nat := [0; 2; 3]%nat.
Definition psumr (l : list poly) : poly := fold_right padd [] l.
Definition one_poly (st : sstate) : poly := pmul use_inv (cut_poly st 1001) [([(z_atom 1001, (-1)%Z)], 1%Q)].
Definition mass_ij (i j : nat) : positive := nth j (nth i mass_z []) 1%positive.
Definition b_ij (st : sstate) (i j : nat) : poly := match sfind (ss_mat st) MB (nth i lat_rows 0%nat) (nth j lat_cols 0%nat) with Some p => p | None => [] end.
Definition idx3 : list nat := [0; 1; 2]%nat.
Definition check_res (st : sstate) (i : nat) : bool :=
  psame (nth i residuals []) (padd (psumr (map (fun j => pmul use_inv (cut_poly st (mass_ij i j)) (pvar (nth j acc_atoms 1%positive))) idx3)) (rest (nth i residuals []))).
Definition check_rows (st : sstate) (i : nat) : bool :=
  psame (psumr (map (fun j => pmul use_inv (pvar (z_atom (mass_ij i j))) (row_poly st (nth j lat_rows 0%nat))) idx3))
        (pneg (pmul use_inv (one_poly st) (rest (nth i residuals [])))).
Definition check_inv (st : sstate) (i j : nat) : bool :=
  psame (psumr (map (fun l => pmul use_inv (b_ij st i l) (pvar (z_atom (mass_ij l j)))) idx3)) (if Nat.eqb i j then one_poly st else []).
Definition kin_rows : list (nat * poly) :=
  [(0%nat, pneg (pmul use_inv (V "rr") (X "u6"))); (1%nat, pneg (pmul use_inv (pmul use_inv (pvar at_u) (V "rr")) (X "q3")));
   (2%nat, proj1_sig yaw_sig); (3%nat, X "u4"); (5%nat, X "u6"); (6%nat, X "u7"); (7%nat, pmul use_inv (pmul use_inv (V "rr") (invp (V "rf"))) (X "u6")); (8%nat, X "u9"); (10%nat, [])].
Definition check_kin (st : sstate) : bool := forallb (fun t => psame (row_poly st (fst t)) (snd t)) kin_rows.
Definition check_found (st : sstate) : bool :=
  forallb (fun i => (forallb (fun j => match sfind (ss_mat st) MA i j with Some _ => true | None => false end) a_idxs
                 && forallb (fun j => match sfind (ss_mat st) MB i j with Some _ => true | None => false end) b_idxs)%bool) a_idxs.
Definition check_cuts (st : sstate) : bool := forallb (fun n => existsb (fun c => Pos.eqb (fst c) n) (ss_cut st)) (1001%positive :: concat mass_z).
Definition all_checks (p : list stmt) : bool :=
  (divisors_ok p && match srun use_inv lean_cuts sstart p with
   | Some st => check_found st && check_cuts st && check_kin st && forallb (check_res st) idx3 && forallb (check_rows st) idx3 && forallb (fun i => forallb (check_inv st i) idx3) idx3
   | None => false end)%bool.
Lemma lean_checked : all_checks lean_program = true.
Proof. vm_cast_no_check (eq_refl true). Qed.

(* a row of A times the states plus the row of B times the torques *)
Definition row_value (sf : lstate) (ex : string -> R) (i : nat) : R :=
  fold_right Rplus 0 (map (fun t => ls_mat sf MA i (fst t) * ex (snd t)) (combine a_idxs lean_states) ++ map (fun t => ls_mat sf MB i (fst t) * ex (snd t)) (combine b_idxs lean_inputs)).

Section Core.
  Variables (p : list stmt) (mem : memory) (e : string -> R) (lam : R) (sf : lstate).
  Hypothesis CH : all_checks p = true.
  Hypothesis UP : upright_point e lam.
  Hypothesis RUN : lrun (lam_names mem e lam) p = Ok sf.
  Lemma lengths_core : px lam (e "d1" + e "d3") (e "d2") <> 0 /\ e "rf" <> 0.
  Proof. unfold all_checks in CH. apply andb_prop in CH. destruct CH as [C1 _]. destruct (lengths_nz _ _ _ _ _ C1 UP RUN) as (A & B & _). split; assumption. Qed.
  Section Ex.
    Variable ex : string -> R.
    Let rho := valuation e lam ex (ls_z sf).
    Lemma core_facts : exists st, good e ex lam rho /\ srel rho st sf /\ ls_z sf 1001 <> 0 /\ check_found st = true /\ check_cuts st = true /\ check_kin st = true /\
      forallb (check_res st) idx3 = true /\ forallb (check_rows st) idx3 = true /\ forallb (fun i => forallb (check_inv st i) idx3) idx3 = true.
    Proof.
      unfold all_checks in CH. apply andb_prop in CH. destruct CH as [C1 C2]. destruct (srun use_inv lean_cuts sstart p) as [st|] eqn:S; [|discriminate].
      destruct (run_rel _ _ _ _ ex _ _ C1 UP RUN S) as (IN & HS & Z). exists st.
      do 5 (apply andb_prop in C2; let H := fresh in destruct C2 as [C2 H]).
      split; [constructor; [exact UP|exact IN|exists (ls_z sf); reflexivity]|]. repeat (split; [assumption|]). assumption.
    Qed.
    Lemma row_ok st i : good e ex lam rho -> srel rho st sf -> check_found st = true -> In i a_idxs -> row_value sf ex i = peval rho (row_poly st i).
    Proof.
      intros G (_ & _ & HM & _) CF Hi. unfold check_found in CF. rewrite forallb_forall in CF. specialize (CF i Hi). apply andb_prop in CF. destruct CF as [CA CB]. rewrite forallb_forall in CA, CB.
      unfold row_value, row_poly. cbn zeta.
      assert (K : forall m js ks, (forall j, In j js -> match sfind (ss_mat st) m i j with Some _ => true | None => false end = true) -> (forall k, In k ks -> smem k extras = true) ->
        forall r q, r = peval rho q ->
        fold_right Rplus r (map (fun t => ls_mat sf m i (fst t) * ex (snd t)) (combine js ks)) =
        peval rho (fold_right padd q (map (fun t => pmul use_inv match sfind (ss_mat st) m i (fst t) with Some p0 => p0 | None => [] end (X (snd t))) (combine js ks)))).
      { intros m js. induction js as [|j js IH]; intros ks HJ HK r q RQ; [exact RQ|]. destruct ks as [|k ks]; [exact RQ|]. cbn [combine map fold_right fst snd].
        apply (ev_add rho); [|apply IH; [intros; apply HJ; right; assumption|intros; apply HK; right; assumption|exact RQ]].
        apply (ev_mul _ _ _ _ G); [|apply (ev_ex _ _ _ _ G), HK; left; reflexivity].
        pose proof (HJ j (or_introl eq_refl)) as F. destruct (sfind (ss_mat st) m i j) as [q'|] eqn:SF; [|discriminate]. exact (HM _ _ _ _ SF). }
      rewrite !fold_right_app. apply K; [exact CA| |apply K; [exact CB| |reflexivity]];
        (intros k Hk; cbn in Hk; repeat (destruct Hk as [<-|Hk]; [reflexivity|]); destruct Hk).
    Qed.
    (* the rows of the coordinates and of the wheel rate *)
    Lemma kin_ok : row_value sf ex 0 = - e "rr" * ex "u6" /\ row_value sf ex 1 = fwd e * ex "q3" /\ row_value sf ex 2 = yaw1 e ex lam /\ row_value sf ex 3 = ex "u4" /\
      row_value sf ex 5 = ex "u6" /\ row_value sf ex 6 = ex "u7" /\ row_value sf ex 7 = e "rr" / e "rf" * ex "u6" /\ row_value sf ex 8 = ex "u9" /\ row_value sf ex 10 = 0.
    Proof.
      destruct core_facts as (st & G & HS & _ & CF & _ & CK & _). unfold check_kin in CK. rewrite forallb_forall in CK.
      assert (K : forall i q, In i a_idxs -> In (i, q) kin_rows -> row_value sf ex i = peval rho q).
      { intros i q Hi Hq. rewrite (row_ok st i G HS CF Hi). apply (psame_ok rho), (CK _ Hq). }
      assert (VE : forall k, smem k (["u6"] ++ p_names)%list = true -> e k = peval rho (start_poly k)) by (apply (ev_par _ _ _ _ G)).
      assert (XE : forall k, smem k extras = true -> ex k = peval rho (X k)) by (apply (ev_ex _ _ _ _ G)).
      assert (PM : forall p q, peval rho (pmul use_inv p q) = peval rho p * peval rho q) by (apply (pmul_ok _ _ (g_inv _ _ _ _ G) (g_trig _ _ _ _ G))).
      assert (RR : e "rr" = peval rho (V "rr")) by exact (VE "rr" eq_refl). assert (RF : e "rf" = peval rho (V "rf")) by exact (VE "rf" eq_refl).
      assert (U6 : e "u6" = peval rho (pvar at_u)) by exact (VE "u6" eq_refl).
      assert (KI : forall n i q, nth_error a_idxs n = Some i -> forall m, nth_error kin_rows m = Some (i, q) -> row_value sf ex i = peval rho q).
      { intros n i q Hn m Hm. apply K; eapply nth_error_In; eassumption. }
      split; [rewrite (KI 0%nat _ _ eq_refl 0%nat eq_refl), pneg_ok, PM, <- RR, <- (XE "u6" eq_refl); ring|].
      split; [rewrite (KI 1%nat _ _ eq_refl 1%nat eq_refl), pneg_ok, !PM, <- RR, <- U6, <- (XE "q3" eq_refl); unfold fwd; ring|].
      split; [rewrite (KI 2%nat _ _ eq_refl 2%nat eq_refl); symmetry; apply (proj2_sig yaw_sig), G|].
      split; [rewrite (KI 3%nat _ _ eq_refl 3%nat eq_refl), <- (XE "u4" eq_refl); reflexivity|].
      split; [rewrite (KI 4%nat _ _ eq_refl 4%nat eq_refl), <- (XE "u6" eq_refl); reflexivity|].
      split; [rewrite (KI 5%nat _ _ eq_refl 5%nat eq_refl), <- (XE "u7" eq_refl); reflexivity|].
      split; [rewrite (KI 6%nat _ _ eq_refl 6%nat eq_refl), !PM, <- RR, <- (XE "u6" eq_refl); f_equal; unfold Rdiv; f_equal; rewrite RF; unfold V; apply pinv_ok; reflexivity|].
      split; [rewrite (KI 7%nat _ _ eq_refl 7%nat eq_refl), <- (XE "u9" eq_refl); reflexivity|].
      rewrite (KI 9%nat _ _ eq_refl 8%nat eq_refl). reflexivity.
    Qed.
    (* the residuals are mass matrix times accelerations plus the rest *)
    Definition resid_R (i : nat) : R := nth i [res_roll e ex lam; res_steer e ex lam; res_lean e ex lam] 0.
    Definition Mz (i j : nat) : R := ls_z sf (mass_ij i j).
    Definition acc (j : nat) : R := nth j [ex "a4"; ex "a7"; ex "a9"] 0.
    Definition lat_row (j : nat) : R := row_value sf ex (nth j lat_rows 0%nat).
    Definition sum3 (f : nat -> R) : R := f 0%nat + f 1%nat + f 2%nat.
    Lemma psumr_ok f g : (forall j, (j < 3)%nat -> f j = peval rho (g j)) -> sum3 f = peval rho (psumr (map g idx3)).
    Proof.
      intros H. unfold sum3, psumr, idx3. cbn [map fold_right]. rewrite !padd_ok, <- !H by lia. change (peval rho []) with 0. ring.
    Qed.
    Lemma lateral_ok : exists rst : nat -> R,
      (forall i, (i < 3)%nat -> resid_R i = sum3 (fun j => Mz i j * acc j) + rst i) /\
      (forall i, (i < 3)%nat -> sum3 (fun j => Mz i j * lat_row j) = - rst i) /\
      exists Bz, forall i j, (i < 3)%nat -> (j < 3)%nat -> sum3 (fun l => Bz i l * Mz l j) = if Nat.eqb i j then 1 else 0.
    Proof.
      destruct core_facts as (st & G & HS & ZD & CF & CC & _ & CR & CW & CI). pose proof HS as (_ & _ & HM & HQ).
      assert (PM : forall p q, peval rho (pmul use_inv p q) = peval rho p * peval rho q) by (apply (pmul_ok _ _ (g_inv _ _ _ _ G) (g_trig _ _ _ _ G))).
      unfold check_cuts in CC. rewrite forallb_forall in CR, CW, CI, CC.
      assert (IX : forall i, (i < 3)%nat -> In i idx3) by (intros [|[|[|i]]] H; cbn; lia || tauto).
      assert (CUT : forall n, In n (1001%positive :: concat mass_z) -> ls_z sf n = peval rho (cut_poly st n)).
      { intros n Hn. specialize (CC n Hn). unfold cut_poly. destruct (find (fun c => Pos.eqb (fst c) n) (ss_cut st)) as [[n' q]|] eqn:F.
        - apply find_some in F. destruct F as [F1 F2]. cbn [fst] in F2. apply Pos.eqb_eq in F2. subst n'. rewrite <- (HQ _ _ F1). symmetry. apply val_z.
        - apply existsb_exists in CC. destruct CC as (c & C1 & C2). pose proof (find_none _ _ F c C1) as C3. cbn beta in C3. congruence. }
      assert (CUTM : forall i j, (i < 3)%nat -> (j < 3)%nat -> Mz i j = peval rho (cut_poly st (mass_ij i j))).
      { intros i j Hi Hj. apply CUT. unfold mass_ij. right. destruct i as [|[|[|i]]]; try lia; (destruct j as [|[|[|j]]]; try lia); cbn; tauto. }
      assert (ONE : peval rho (one_poly st) = 1).
      { unfold one_poly. rewrite PM, <- (CUT 1001%positive (or_introl eq_refl)). cbn [peval fold_right fst snd meval]. unfold rho. rewrite val_z, RMicromega.Q2R_1. cbn [powerRZ]. change (Pos.to_nat 1) with 1%nat. rewrite pow_1. field. exact ZD. }
      assert (RES : forall i, (i < 3)%nat -> resid_R i = peval rho (nth i residuals [])).
      { intros [|[|[|i]]] Hi; try lia; unfold resid_R, residuals; cbn [nth]; [apply (proj2_sig roll_sig), G|apply (proj2_sig steer_sig), G|apply (proj2_sig lean_sig), G]. }
      exists (fun i => peval rho (rest (nth i residuals []))). split; [|split].
      - intros i Hi. pose proof (CR i (IX i Hi)) as C. apply (psame_ok rho) in C. rewrite RES, C, padd_ok by exact Hi. f_equal. symmetry. apply psumr_ok. intros j Hj.
        rewrite PM, <- (CUTM i j Hi Hj), pvar_ok. f_equal. pose proof (val_x e lam ex (ls_z sf)) as F. rewrite Forall_forall in F. unfold rho. destruct j as [|[|[|j]]]; try lia; cbn [acc nth acc_atoms map]; symmetry; apply F, smem_spec; reflexivity.
      - intros i Hi. pose proof (CW i (IX i Hi)) as C. apply (psame_ok rho) in C. rewrite pneg_ok, PM, ONE, Rmult_1_l in C. rewrite <- C. apply psumr_ok. intros j Hj.
        rewrite PM, pvar_ok. f_equal; [symmetry; apply val_z|]. apply row_ok; try assumption. destruct j as [|[|[|j]]]; try lia; cbn; tauto.
      - exists (fun i l => peval rho (b_ij st i l)). intros i j Hi Hj. pose proof (CI i (IX i Hi)) as C. rewrite forallb_forall in C. specialize (C j (IX j Hj)). apply (psame_ok rho) in C.
        transitivity (peval rho (if Nat.eqb i j then one_poly st else [])); [|destruct (Nat.eqb i j); [exact ONE|reflexivity]]. rewrite <- C. apply psumr_ok. intros l Hl.
        rewrite PM, pvar_ok. f_equal. symmetry. apply val_z.
    Qed.
    (* the balances hold exactly for the accelerations of the rows *)
    Lemma lateral_iff : (res_roll e ex lam = 0 /\ res_steer e ex lam = 0 /\ res_lean e ex lam = 0) <->
      (ex "a4" = row_value sf ex 9 /\ ex "a7" = row_value sf ex 11 /\ ex "a9" = row_value sf ex 12).
    Proof.
      destruct lateral_ok as (rst & H1 & H2 & Bz & H3).
      change (res_roll e ex lam) with (resid_R 0). change (res_steer e ex lam) with (resid_R 1). change (res_lean e ex lam) with (resid_R 2).
      change (row_value sf ex 9) with (lat_row 0). change (row_value sf ex 11) with (lat_row 1). change (row_value sf ex 12) with (lat_row 2).
      change (ex "a4") with (acc 0). change (ex "a7") with (acc 1). change (ex "a9") with (acc 2).
      rewrite !H1 by lia. pose proof (H2 0%nat ltac:(lia)) as E0. pose proof (H2 1%nat ltac:(lia)) as E1. pose proof (H2 2%nat ltac:(lia)) as E2. split.
      - intros (A0 & A1 & A2).
        assert (Z : forall i, (i < 3)%nat -> sum3 (fun j => Mz i j * (acc j - lat_row j)) = 0).
        { intros [|[|[|i]]] Hi; try lia; unfold sum3 in *; lra. }
        assert (Y : forall i, (i < 3)%nat -> acc i - lat_row i = 0).
        { intros i Hi. transitivity (sum3 (fun l => Bz i l * sum3 (fun j => Mz l j * (acc j - lat_row j)))).
          - transitivity (sum3 (fun j => sum3 (fun l => Bz i l * Mz l j) * (acc j - lat_row j))); [|unfold sum3; ring].
            unfold sum3 at 1. rewrite !H3 by lia. destruct i as [|[|[|i]]]; try lia; cbn [Nat.eqb]; ring.
          - unfold sum3 at 1. rewrite !Z by lia. ring. }
        pose proof (Y 0%nat ltac:(lia)). pose proof (Y 1%nat ltac:(lia)). pose proof (Y 2%nat ltac:(lia)). repeat split; lra.
      - intros (A0 & A1 & A2). unfold sum3 in *. rewrite A0, A1, A2. repeat split; lra.
    Qed.
  End Ex.
End Core.
