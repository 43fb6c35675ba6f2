(* PUnc4.v -- from the derivatives kept by the library to standard deviations *)
From Verif Require Import Base MString MVec MBicycle MInertia MGeometry MMain MEig MUnc SBicycle SUnc PBase PUnc PUnc2 PUnc3.
From Coq Require Import FunctionalExtensionality Lra.
From Coquelicot Require Import Coquelicot.
Local Open Scope string_scope.
Local Open Scope R_scope.

Lemma changed_qd m k : qd (tr (Some k)) (uvars m) (changed m k).
Proof.
  exists (map (fun kv => (fst kv, fun h => if String.eqb (fst kv) k then fst (snd kv) + h else fst (snd kv))) m). split.
  - apply functional_extensionality. intros h. unfold changed. rewrite map_map. reflexivity.
  - induction m as [|[n [x s]] m IH]; cbn; constructor; [|exact IH]. split; [reflexivity|]. cbn [snd fst]. destruct (String.eqb n k) eqn:E.
    + split; cbn [nom der uvar]; [apply Rplus_0_r|]. cbn [veqb]. rewrite String.eqb_sym, E. auto_derive; [exact I|ring].
    + split; cbn [nom der uvar]; [reflexivity|]. cbn [veqb]. rewrite String.eqb_sym, E. apply @is_derive_const.
Qed.
Lemma values_qd m : qd (tr None) (uvars m) (fun _ => values m).
Proof.
  exists (map (fun kv => (fst kv, fun _ => fst (snd kv))) m). split.
  - apply functional_extensionality. intros h. unfold values. rewrite map_map. reflexivity.
  - induction m as [|[n [x s]] m IH]; cbn; constructor; [|exact IH]. split; [reflexivity|]. split; [reflexivity|]. apply @is_derive_const.
Qed.
Lemma changed_0 m k : changed m k 0 = values m.
Proof. unfold changed, values. apply map_ext. intros [n [x s]]. cbn. rewrite Rplus_0_r. destruct (String.eqb n k); reflexivity. Qed.
Lemma locally_eps (P : R -> Prop) : locally 0 P -> exists eps, 0 < eps /\ forall h, Rabs h < eps -> P h.
Proof.
  intros [e H]. exists e. split; [apply e|]. intros h K. apply H. unfold ball; cbn; unfold AbsRing_ball, abs, minus, plus, opp; cbn. replace (h + - 0) with h by ring. exact K.
Qed.
Lemma rr_nominal {A B} allow (Q : A -> (R -> B) -> Prop) a y : rr allow Q (Ok a) y -> exists F, y 0 = Ok (F 0) /\ Q a F.
Proof. intros [F [L H]]. exists F. split; [apply (locally_singleton _ _ L)|exact H]. Qed.

(* what is calculated with uncertain numbers follows the quantity f, whatever is varied *)
Definition follows (m : dict (R * R)) (X : res unum) (f : dict R -> res R) : Prop :=
  forall v MP, qd (tr v) (uvars m) MP -> rr True (tr v) X (fun h => f (MP h)).
Lemma follows_none m X f u : follows m X f -> X = Ok u -> f (values m) = Ok (nom u) /\ der u None = 0.
Proof.
  intros H ->. destruct (H None (fun _ => values m) (values_qd m)) as [F [L [T0 T1]]].
  assert (E := locally_singleton _ _ L). cbn in E. split; [rewrite E, T0; reflexivity|].
  assert (C : is_derive (fun _ : R => F 0) 0 (der u None)). { apply (is_derive_ext_loc F); [|exact T1]. revert L. apply filter_imp. intros h K. cbn in K. congruence. }
  generalize (is_derive_unique _ _ _ C). rewrite Derive_const. auto.
Qed.
Lemma follows_propagated m X f u : follows m X f -> X = Ok u -> propagated f m (nom u) (ustd (deviations m) u).
Proof.
  intros H E. destruct (follows_none m X f u H E) as [N Z]. subst X. split; [exact N|].
  exists (fun k => der u (Some k)). split.
  - intros k _. destruct (H (Some k) (changed m k) (changed_qd m k)) as [F [L [T0 T1]]]. exists F. split; [apply locally_eps in L; exact L|]. apply is_derive_Reals, T1.
  - unfold ustd. rewrite Z. unfold deviations. rewrite map_map. cbn [fst snd]. f_equal. ring.
Qed.
Lemma qd_nominal v p P : qd (tr v) p P -> P 0 = nominal_par p.
Proof. intros [df [-> F]]. unfold nominal_par. induction F as [|a b p df [E [T _]] F IH]; [reflexivity|]. cbn. rewrite IH, E, T. reflexivity. Qed.

(* ---- measured bicycles ---- *)
Lemma uvars_dmem m k : dmem (uvars m) k = dmem m k.
Proof. unfold dmem. induction m as [|[n [x s]] m IH]; [reflexivity|]. cbn. destruct (String.eqb k n); [reflexivity|exact IH]. Qed.
Lemma uvars_split m : is_fork_split (uvars m) = is_fork_split m.
Proof. unfold is_fork_split. replace (dkeys (uvars m)) with (dkeys m); [reflexivity|]. unfold dkeys, uvars. rewrite map_map. reflexivity. Qed.
Lemma measured_w v newton m MP : dmem m "w" = true -> qd (tr v) (uvars m) MP ->
  rr True (q2 (qd (tr v)) (qx v)) (ucalculate_benchmark_from_measured (deviations m) newton (uvars m)) (fun h => calculate_benchmark_from_measured newton (MP h)).
Proof. intros W H. apply (measured_rr v True (deviations m) newton (fun _ => newton)); auto. left. rewrite uvars_dmem. exact W. Qed.
Lemma par_key v allow key (X : res (dict unum * uextras)) Y :
  rr allow (q2 (qd (tr v)) (qx v)) X Y -> rr allow (tr v) (r <- X ;; dlook (fst r) key) (fun h => r <- Y h ;; dlook (fst r) key).
Proof. intros H. apply (rr_bind _ _ _ _ _ (fun _ r => dlook (fst r) key) H). intros [p x] F [P [G [-> [A B]]]]. cbn [fst snd] in *. apply rr_look, A. Qed.
Lemma par_canonical v allow (mt : (canon -> mat2) * (ucanon -> umat2)) (en : (mat2 -> R) * (umat2 -> unum)) p P : In mt matrices4 -> In en entries2 -> qd (tr v) p P ->
  rr allow (tr v) (c <- ubicycle_canonical p ;; Ok (snd en (snd mt c))) (fun h => c <- snd (bicycle_canonical (bench (P h)) FFalse) ;; Ok (fst en (fst mt c))).
Proof.
  intros M E H.
  apply (rr_ext _ _ (fun h => c <- snd (benchmark_par_to_canonical (P h)) ;; Ok (fst en (fst mt c)))).
  { intros h. unfold bicycle_canonical, bench. cbn [dget String.eqb Ascii.eqb Bool.eqb]. destruct (benchmark_par_to_canonical (P h)) as [p' [c|e]]; reflexivity. }
  eapply rr_bind; [apply canonical_rr, H|]. intros c F [A [B [C D]]].
  cbn in M, E. destruct M as [<-|[<-|[<-|[<-|[]]]]]; destruct E as [<-|[<-|[<-|[<-|[]]]]]; cbn [fst snd]; apply (rr_ret _ _ (fun h => _)).
  all: first [apply A | apply B | apply C | apply D].
Qed.

Lemma plain_state_space P speed : snd (bicycle_state_space (bench P) speed FFalse) =
  (c <- snd (benchmark_par_to_canonical P) ;; g <- dlook P "g" ;; ab_matrix (cM c) (cC1 c) (cK0 c) (cK2 c) speed g).
Proof.
  unfold bicycle_state_space, bicycle_canonical, bench. cbn [dget String.eqb Ascii.eqb Bool.eqb]. unfold benchmark_par_to_canonical. destruct (canon_phase1 P) as [k|e]; [|reflexivity].
  destruct (canon_phase2 _ k) as [c|e] eqn:E; cbn [snd bind check_flag]; [|reflexivity]. cbn [bind check_flag dset String.eqb Ascii.eqb Bool.eqb]. unfold dlook at 1. cbn [dget String.eqb Ascii.eqb Bool.eqb bind]. unfold dlook. rewrite !dget_dset_neq by reflexivity.
  destruct (dget P "g"); [|reflexivity]. cbn [bind]. destruct (ab_matrix _ _ _ _ _ _); reflexivity.
Qed.
Lemma entry_rr v allow M F i j : ql (ql (tr v)) M F -> rr allow (tr v) (entry M i j) (fun h => entry (F h) i j).
Proof.
  intros H. assert (E : forall A (N : list (list A)), entry N i j = (r <- index N i ;; index r j)).
  { intros A N. unfold entry, index. destruct (nth_error N i) as [r|]; [|reflexivity]. cbn. destruct (nth_error r j); reflexivity. }
  rewrite E. eapply rr_ext; [intros h; symmetry; apply E|]. eapply rr_bind; [apply ql_index, H|]. intros r f K. apply ql_index, K.
Qed.
Lemma state_space_rr v allow speed p P : qd (tr v) p P ->
  rr allow (q2 (ql (ql (tr v))) (ql (ql (tr v)))) (ubicycle_state_space p speed) (fun h => snd (bicycle_state_space (bench (P h)) speed FFalse)).
Proof.
  intros H. eapply rr_ext; [intros h; symmetry; apply plain_state_space|]. unfold ubicycle_state_space, ubicycle_canonical.
  eapply rr_bind; [apply canonical_rr, H|]. intros c F [A [B [C D]]]. eapply rr_bind; [apply rr_look, H|]. intros g f G. apply (ab_rr v allow _ _ _ _ _ _ _ _ _ _ (fun _ => speed)); try assumption. apply tr_cst.
Qed.
Lemma steer_entry v (allow : Prop) hb fk wh ab (ro : (mat3 -> vec3) * (umat3 -> uvec3)) (co : (vec3 -> R) * (uvec3 -> unum)) p P : (ab = true -> allow) -> In ro rows3 -> In co columns3 -> qd (tr v) p P ->
  rr allow (tr v) (J <- usteer_assembly p hb fk wh ab ;; Ok (snd co (snd ro J))) (fun h => J <- steer_assembly (P h) hb fk wh ab ;; Ok (fst co (fst ro J))).
Proof.
  intros AL RO C H. eapply rr_bind; [apply steer_rr; eassumption|]. intros J F [A1 [A2 A3]].
  cbn in RO, C. destruct RO as [<-|[<-|[<-|[]]]]; destruct C as [<-|[<-|[<-|[]]]]; cbn [fst snd]; apply (rr_ret _ _ (fun h => _)).
  all: first [apply A1 | apply A2 | apply A3].
Qed.
Lemma cst_qd v (r : dict R) : qd (tr v) (map (fun kv => (fst kv, ucst (snd kv))) r) (fun _ => r).
Proof.
  exists (map (fun kv => (fst kv, fun _ => snd kv)) r). split.
  - apply functional_extensionality. intros h. rewrite map_map. cbn. rewrite <- (map_id r) at 1. apply map_ext. intros [n x]. reflexivity.
  - induction r as [|[n x] r IH]; cbn; constructor; [|exact IH]. split; [reflexivity|apply tr_cst].
Qed.
