(* PUnc8.v -- C76: the theorems' last steps *)
From Verif Require Import Base PBase MString MVec MBicycle MInertia MGeometry MMain MEig MUnc SBicycle SUnc PUnc PUnc2 PUnc3 PUnc4 PUnc5 PUnc6 PUnc7.
From Coq Require Import Lra FunctionalExtensionality.
From Coquelicot Require Import Coquelicot.
Local Open Scope string_scope.
Local Open Scope R_scope.

Lemma dmem_true {V} (m : dict V) k : In k (map fst m) -> dmem m k = true.
Proof. intros W. unfold dmem; destruct (dget m k) eqn:E; [reflexivity|apply dget_none in E; contradiction]. Qed.
Lemma dmem_false {V} (m : dict V) k : ~ In k (map fst m) -> dmem m k = false.
Proof. intros W. unfold dmem; destruct (dget m k) eqn:E; [|reflexivity]. exfalso. apply W. apply (dget_some_in m k). eauto. Qed.
Lemma key_present m newton par ex : dmem m "w" = false -> ucalculate_benchmark_from_measured (deviations m) newton (uvars m) = Ok (par, ex) -> exists t, dget par "lam" = Some t.
Proof.
  intros W H. destruct (tilt_measured m newton par ex W H) as (t0 & st & g & G & P & E & K). assert (N := K None _ (values_qd m)). apply rr_nominal in N. destruct N as [F [N [PP [X [-> [Q _]]]]]]. cbn [fst snd] in *.
  unfold tilt_family in N. apply lam_const in N; [|rewrite values_dmem; exact W].
  generalize (qd_dget (tr None) par PP "lam" Q). destruct (dget par "lam") as [u|]; [intros _; exists u; reflexivity|]. intros Z. rewrite Z in N. discriminate.
Qed.
Lemma tilt_apart newton m par ex : ~ In "w" (map fst m) ->
  ucalculate_benchmark_from_measured (deviations m) newton (uvars m) = Ok (par, ex) ->
  exists t, dget par "lam" = Some t
    /\ (exists g, propagated (fun p => Ok (equal_wheel_tilt p)) m g (ustd (deviations m) t))
    /\ calculate_benchmark_from_measured newton (values m) = calculate_benchmark_from_measured (fun _ _ => Ok (nom t)) (values m)
    /\ forall key u, dget par key = Some u ->
       propagated_with (fun lam mp => r <- calculate_benchmark_from_measured (fun _ _ => Ok lam) mp ;; dlook (fst r) key) m (nom t) (ustd (deviations m) t) (nom u) (ustd (deviations m) u).
Proof.
  intros W H. apply dmem_false in W. destruct (key_present m newton par ex W H) as [t T]. exists t. split; [exact T|].
  destruct (tilt_measured m newton par ex W H) as (t0 & st & g & G & P & E & K).
  destruct (tilt_lam_eq m newton par ex t t0 st W T P K) as [-> ->]. split; [exists g; exact G|]. split; [exact E|].
  intros key u U. apply (tilt_key_with m par ex key u _ _ K U).
Qed.
Lemma tilt_refuted newton m par ex t : (forall f x r, newton f x = Ok r -> f r = Ok 0) -> ~ In "w" (map fst m) ->
  ucalculate_benchmark_from_measured (deviations m) newton (uvars m) = Ok (par, ex) -> dget par "lam" = Some t ->
  (forall k d, In (k, d) m -> k <> "dF" -> snd d = 0) -> (forall d, In ("dF", d) m -> snd d <> 0) ->
  ustd (deviations m) t = 0
  /\ forall s, propagated (fun mp => r <- calculate_benchmark_from_measured newton mp ;; dlook (fst r) "lam") m (nom t) s -> s <> 0.
Proof.
  intros N W H T O D. apply dmem_false in W. split.
  - apply (tilt_reported newton m par ex t W H T). intros k d I NI. apply (O k d I). intros ->. apply NI. left. reflexivity.
  - intros s P. assert (P' := P). destruct P' as [V _]. apply bind_ok in V. destruct V as ([p x] & C & _).
    apply (tilt_true newton m p x s (nom t) N W); try assumption.
    destruct (tilt_success _ _ _ _ _ (eq_trans (uvars_dmem m "w") W) H) as (? & ? & ? & ? & ? & ? & ? & I & _).
    unfold tilt_inputs in I. apply bind_ok in I. destruct I as (dF & I & _). rewrite <- uvars_dmem. unfold dlook in I. unfold dmem. destruct (dget (uvars m) "dF"); [reflexivity|discriminate].
Qed.
Lemma state_space_entries m speed AB which i j u : ubicycle_state_space (uvars m) speed = Ok AB -> entry (A_or_B which AB) i j = Ok u ->
  propagated (fun p => ab <- snd (bicycle_state_space (bench p) speed FFalse) ;; entry (A_or_B which ab) i j) m (nom u) (ustd (deviations m) u).
Proof.
  intros H E. apply (follows_propagated m (ab <- ubicycle_state_space (uvars m) speed ;; entry (A_or_B which ab) i j)); [|rewrite H; exact E].
  intros v MP Q. eapply rr_bind; [apply state_space_rr, Q|]. intros [A B] F [FA [FB [-> [X Y]]]]. cbn [fst snd] in *. destruct which; apply entry_rr; assumption.
Qed.
Lemma rider_rr v allow par P rider : qd (tr v) par P -> rr allow (qd (tr v)) (urider par rider) (fun h => with_rider (P h) rider).
Proof. intros Q. destruct rider as [r|]; [|apply rr_ret, Q]. apply (combine_rr v allow _ _ _ (fun _ => r) Q). apply cst_qd. Qed.
Lemma rider_key m r par key u : ucombine_bike_rider (uvars m) (exact r) = Ok par -> dget par key = Some u ->
  propagated (fun p => p' <- combine_bike_rider p r ;; dlook p' key) m (nom u) (ustd (deviations m) u).
Proof.
  intros H U. apply (follows_propagated m (p' <- ucombine_bike_rider (uvars m) (exact r) ;; dlook p' key)); [|rewrite H; cbn [bind]; unfold dlook; rewrite U; reflexivity].
  intros v MP Q. eapply rr_bind; [apply (combine_rr v True _ _ _ (fun _ => r) Q), cst_qd|]. intros p P QP. apply rr_look, QP.
Qed.
Lemma chain newton m rider speed par ex par' AB which i j u : In "w" (map fst m) ->
  ucalculate_benchmark_from_measured (deviations m) newton (uvars m) = Ok (par, ex) -> urider par rider = Ok par' ->
  ubicycle_state_space par' speed = Ok AB -> entry (A_or_B which AB) i j = Ok u ->
  propagated (fun mp => r <- calculate_benchmark_from_measured newton mp ;; p <- with_rider (fst r) rider ;;
                        ab <- snd (bicycle_state_space (bench p) speed FFalse) ;; entry (A_or_B which ab) i j) m (nom u) (ustd (deviations m) u).
Proof.
  intros W H R0 S E. apply (follows_propagated m (r <- ucalculate_benchmark_from_measured (deviations m) newton (uvars m) ;; p <- urider (fst r) rider ;; ab <- ubicycle_state_space p speed ;; entry (A_or_B which ab) i j));
    [|rewrite H; cbn [bind fst]; rewrite R0; cbn [bind]; rewrite S; exact E].
  intros v MP Q. eapply rr_bind; [apply measured_w; [apply dmem_true, W|exact Q]|]. intros [p x] F [P [X [-> [QP _]]]]. cbn [fst snd] in *.
  eapply rr_bind; [apply rider_rr, QP|]. intros p' P' QP'. eapply rr_bind; [apply state_space_rr, QP'|]. intros [A B] F [FA [FB [-> [XA XB]]]]. cbn [fst snd] in *. destruct which; apply entry_rr; assumption.
Qed.
Lemma steer_entries m hb fk wh ab J ro co : usteer_assembly (uvars m) hb fk wh ab = Ok J -> In ro rows3 -> In co columns3 ->
  propagated (fun p => K <- steer_assembly p hb fk wh ab ;; Ok (fst co (fst ro K))) m (nom (snd co (snd ro J))) (ustd (deviations m) (snd co (snd ro J))).
Proof.
  intros H RO CO. apply (follows_propagated m (K <- usteer_assembly (uvars m) hb fk wh ab ;; Ok (snd co (snd ro K)))); [|rewrite H; reflexivity].
  intros v MP Q. apply (steer_entry v True); auto.
Qed.
(* ---- nominal values ---- *)
Lemma rr_same {A B} (Q : A -> (R -> B) -> Prop) x y (g : A -> B) : rr False Q x y -> (forall a F, Q a F -> F 0 = g a) -> y 0 = match x with Ok a => Ok (g a) | Err e => Err e end.
Proof.
  intros H K. destruct x as [a|e]; [apply rr_nominal in H; destruct H as [F [E Q']]; rewrite E, (K a F Q'); reflexivity|].
  destruct e; cbn in H; try (destruct H as [H|[_ []]]; exact H). apply locally_singleton in H. exact H.
Qed.
Lemma qm2_nominal v a F : qm2 v a F -> F 0 = nominal2 a.
Proof. intros [[A _] [[B _] [[C _] [D _]]]]. unfold nominal2. rewrite <- A, <- B, <- C, <- D. destruct (F 0); reflexivity. Qed.
(* any uncertain numbers, followed along a line *)
Definition along_line (v : source) (p : dict unum) (h : R) : dict R := map (fun kv => (fst kv, nom (snd kv) + der (snd kv) v * h)) p.
Lemma line_qd v p : qd (tr v) p (along_line v p).
Proof.
  exists (map (fun kv => (fst kv, fun h => nom (snd kv) + der (snd kv) v * h)) p). split.
  - apply functional_extensionality. intros h. unfold along_line. rewrite map_map. reflexivity.
  - induction p as [|[n u] p IH]; cbn; constructor; [|exact IH]. split; [reflexivity|]. cbn [snd]. split; [ring|]. auto_derive; [exact I|ring].
Qed.
Lemma line_0 v p : along_line v p 0 = nominal_par p.
Proof. apply (qd_nominal v), line_qd. Qed.
Lemma canonical_nominal p : snd (bicycle_canonical (bench (nominal_par p)) FTrue) = match ubicycle_canonical p with Ok c => Ok (nominal_canon c) | Err e => Err e end.
Proof.
  transitivity (snd (benchmark_par_to_canonical (nominal_par p))).
  { unfold bicycle_canonical, bench. cbn [dget String.eqb Ascii.eqb Bool.eqb]. destruct (benchmark_par_to_canonical (nominal_par p)) as [q [c|e]]; reflexivity. }
  rewrite <- (line_0 None). apply (rr_same (qc None) (ubicycle_canonical p) (fun h => snd (benchmark_par_to_canonical (along_line None p h)))); [apply (canonical_rr None False _ _), line_qd|].
  intros c F [A [B [C D]]]. unfold nominal_canon. rewrite <- (qm2_nominal _ _ _ A), <- (qm2_nominal _ _ _ B), <- (qm2_nominal _ _ _ C), <- (qm2_nominal _ _ _ D). destruct (F 0); reflexivity.
Qed.
Lemma ql2_nominal v a F : ql (ql (tr v)) a F -> F 0 = nominal_rows a.
Proof.
  intros [fs [-> H]]. unfold nominal_rows. induction H as [|r f a fs [gs [-> G]] H IH]; [reflexivity|]. cbn [map]. f_equal; [|exact IH]. clear - G. induction G as [|u g r gs [T _] G IH]; [reflexivity|]. cbn [map]. rewrite T, IH. reflexivity.
Qed.
Lemma state_space_nominal p speed : snd (bicycle_state_space (bench (nominal_par p)) speed FTrue) =
  match ubicycle_state_space p speed with Ok (A, B) => Ok (nominal_rows A, nominal_rows B) | Err e => Err e end.
Proof.
  transitivity (snd (bicycle_state_space (bench (nominal_par p)) speed FFalse)); [reflexivity|].
  rewrite <- (line_0 None). rewrite (rr_same _ (ubicycle_state_space p speed) (fun h => snd (bicycle_state_space (bench (along_line None p h)) speed FFalse)) (fun ab => (nominal_rows (fst ab), nominal_rows (snd ab))) (state_space_rr None False speed _ _ (line_qd None p))).
  - destruct (ubicycle_state_space p speed) as [[A B]|e]; reflexivity.
  - intros [A B] F [FA [FB [-> [X Y]]]]. cbn [fst snd] in *. rewrite (ql2_nominal _ _ _ X), (ql2_nominal _ _ _ Y). reflexivity.
Qed.
Lemma rider_nominal p r : combine_bike_rider (nominal_par p) r = match ucombine_bike_rider p (exact r) with Ok p => Ok (nominal_par p) | Err e => Err e end.
Proof.
  rewrite <- (line_0 None). apply (rr_same (qd (tr None)) (ucombine_bike_rider p (exact r)) (fun h => combine_bike_rider (along_line None p h) r)); [apply (combine_rr None False _ _ _ (fun _ => r)); [apply line_qd|apply cst_qd]|].
  intros p' P Q. apply (qd_nominal None), Q.
Qed.
Lemma qm_nominal v J F : qm v J F -> F 0 = nominal3 J.
Proof. intros [[[A1 _] [[A2 _] [A3 _]]] [[[B1 _] [[B2 _] [B3 _]]] [[C1 _] [[C2 _] [C3 _]]]]]. unfold nominal3. rewrite <- A1, <- A2, <- A3, <- B1, <- B2, <- B3, <- C1, <- C2, <- C3. destruct (F 0) as [[? ? ?] [? ? ?] [? ? ?]]; reflexivity. Qed.
Lemma steer_nominal p hb fk wh : steer_assembly (nominal_par p) hb fk wh false = match usteer_assembly p hb fk wh false with Ok J => Ok (nominal3 J) | Err e => Err e end.
Proof.
  rewrite <- (line_0 None). apply (rr_same (qm None) (usteer_assembly p hb fk wh false) (fun h => steer_assembly (along_line None p h) hb fk wh false)); [apply (steer_rr None False); [discriminate|apply line_qd]|].
  intros J F Q. apply (qm_nominal None), Q.
Qed.
Lemma measured_nominal newton m par ex : ucalculate_benchmark_from_measured (deviations m) newton (uvars m) = Ok (par, ex) ->
  exists ex', calculate_benchmark_from_measured newton (values m) = Ok (nominal_par par, ex').
Proof.
  intros H. destruct (dmem m "w") eqn:W.
  - assert (N := measured_w None newton m _ W (values_qd m)). rewrite H in N. apply rr_nominal in N. destruct N as [F [N [P [X [-> [Q _]]]]]]. cbn [fst] in Q. rewrite (qd_nominal None par P Q) in N. eauto.
  - destruct (tilt_measured m newton par ex W H) as (t0 & st & g & G & PS & E & K). assert (N := K None _ (values_qd m)). apply rr_nominal in N. destruct N as [F [N [P [X [-> [Q _]]]]]]. cbn [fst] in Q. rewrite (qd_nominal None par P Q) in N.
    rewrite E. unfold tilt_family in N. rewrite Rmult_0_r, Rplus_0_r in N. eauto.
Qed.
Lemma measured_failure newton m e : In "w" (map fst m) -> ucalculate_benchmark_from_measured (deviations m) newton (uvars m) = Err e ->
  calculate_benchmark_from_measured newton (values m) = Err e \/ e = nan_deviation.
Proof.
  intros W H. assert (N := measured_w None newton m _ (dmem_true m "w" W) (values_qd m)). rewrite H in N. destruct e; cbn in N; try (destruct N as [N|[N _]]; auto). left. apply locally_singleton in N. exact N.
Qed.
