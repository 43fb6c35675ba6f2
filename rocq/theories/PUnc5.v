(* PUnc5.v -- the steer axis tilt from the frame's measurements; where deviations are not defined *)
From Verif Require Import Base MString MVec MBicycle MInertia MGeometry MMain MEig MUnc SBicycle SUnc PBase PUnc PUnc2 PUnc3 PUnc4.
From Coq Require Import FunctionalExtensionality Lra.
From Coquelicot Require Import Coquelicot.
Local Open Scope string_scope.
Local Open Scope R_scope.

Definition plain_inputs (mp : dict R) : res (R * R * (R * R * R)) :=
  dF <- dlook mp "dF" ;; nF <- dlook mp "nF" ;; rF <- rdiv (dF / 2 / PI) nF ;;
  dR <- dlook mp "dR" ;; nR <- dlook mp "nR" ;; rR <- rdiv (dR / 2 / PI) nR ;;
  h1 <- dlook mp "h1" ;; h2 <- dlook mp "h2" ;; h3 <- dlook mp "h3" ;; h4 <- dlook mp "h4" ;; h5 <- dlook mp "h5" ;;
  d1 <- dlook mp "d1" ;; d2 <- dlook mp "d2" ;; d3 <- dlook mp "d3" ;; d4 <- dlook mp "d4" ;; d_ <- dlook mp "d" ;;
  abc <- calculate_abc_geometry h1 h2 h3 h4 h5 d1 d2 d3 d4 d_ ;; Ok (rF, rR, abc).
Lemma inputs_rr v mp MP : qd (tr v) mp MP -> rr True (q2 (q2 (tr v) (tr v)) (q2 (q2 (tr v) (tr v)) (tr v))) (tilt_inputs mp) (fun h => plain_inputs (MP h)).
Proof.
  intros A. unfold tilt_inputs, plain_inputs.
  do 2 (eapply rr_bind; [apply rr_look, A|intros ? ? ?]; eapply rr_bind; [apply rr_look, A|intros ? ? ?]; eapply rr_bind; [apply rr_div; [apply tr_divc, tr_divc; eassumption|eassumption]|intros ? ? ?]).
  do 10 (eapply rr_bind; [apply rr_look, A|intros ? ? ?]). eapply rr_bind; [apply (abc_rr v True); auto; eassumption|]. intros abc F HF. apply (rr_ret _ _ (fun h => (_, F h))). apply q2_mk; [|exact HF]. apply q2_mk; eassumption.
Qed.
(* the plain inputs, in closed form *)
Lemma plain_inputs_eq mp rF rR a b c : plain_inputs mp = Ok (rF, rR, (a, b, c)) -> a = frame_a mp /\ b = frame_b mp /\ c = frame_c mp.
Proof.
  unfold plain_inputs. intros H.
  repeat match type of H with bind ?x _ = Ok _ => let E := fresh "E" in let y := fresh "y" in destruct x as [y|] eqn:E; [cbn [bind] in H; try apply gv_look in E|discriminate H] end.
  match type of H with Ok ?x = Ok ?y => assert (HH : x = y) by congruence end. clear H. match goal with E : calculate_abc_geometry _ _ _ _ _ _ _ _ _ _ = _ |- _ => rename E into EA end.
  unfold calculate_abc_geometry in EA. cbv zeta in EA. unfold rsqrt in EA. destruct (Rlt_dec _ 0); [discriminate|]. cbn [bind] in EA.
  match type of EA with Ok ?x = Ok ?y => assert (EB : x = y) by congruence end. subst.
  injection HH as <- <- <- <- <-.
  unfold frame_a, frame_b, frame_c. unfold frame_a, frame_b. change gv with pv. split; [lra|]. split; [lra|]. f_equal. simpl. lra.
Qed.
Ltac walk H := repeat match type of H with bind ?x _ = Ok _ => let E := fresh "E" in let y := fresh "y" in destruct x as [y|] eqn:E; [cbn [bind] in H|discriminate H] end.
Lemma geometry_newton newton newton' mp rF rR a b c : dmem mp "w" = false -> plain_inputs mp = Ok (rF, rR, (a, b, c)) ->
  lambda_from_abc newton rF rR a b c = lambda_from_abc newton' rF rR a b c -> calculate_benchmark_geometry newton mp [] = calculate_benchmark_geometry newton' mp [].
Proof.
  intros W I L. unfold plain_inputs in I. walk I. match type of I with Ok ?x = Ok ?y => assert (HH : x = y) by congruence end. injection HH as -> -> ->.
  unfold calculate_benchmark_geometry. cbv zeta. rewrite W. repeat match goal with E : _ = Ok _ |- _ => rewrite E; cbn [bind]; clear E end.
  rewrite L. reflexivity.
Qed.
Lemma measured_newton newton newton' mp rF rR a b c : dmem mp "w" = false -> plain_inputs mp = Ok (rF, rR, (a, b, c)) ->
  lambda_from_abc newton rF rR a b c = lambda_from_abc newton' rF rR a b c -> calculate_benchmark_from_measured newton mp = calculate_benchmark_from_measured newton' mp.
Proof. intros W I L. unfold calculate_benchmark_from_measured. cbv zeta. rewrite (geometry_newton newton newton' mp rF rR a b c W I L). reflexivity. Qed.
Lemma tilt_success sds newton mp par ex : dmem mp "w" = false -> ucalculate_benchmark_from_measured sds newton mp = Ok (par, ex) ->
  exists rF rR a b c t lam0, tilt_inputs mp = Ok (rF, rR, (a, b, c)) /\ udiv c (uadd a b) = Ok t
    /\ newton (fun l => lam_equality l (nom rF) (nom rR) (nom a) (nom b) (nom c)) (nom (uatan t)) = Ok lam0.
Proof.
  intros W H. unfold ucalculate_benchmark_from_measured in H. cbv zeta in H. apply bind_ok in H. destruct H as (p & H & _).
  unfold ucalculate_benchmark_geometry in H. cbv zeta in H. rewrite W in H. do 6 (apply bind_ok in H; let E := fresh "E" in destruct H as (? & E & H)).
  apply bind_ok in H. destruct H as (g & H & _). walk H. destruct y9 as [[a b] c]. apply bind_ok in H. destruct H as (lam & L & _).
  unfold ulambda_from_abc in L. cbv zeta in L. apply bind_ok in L. destruct L as (t & T & L). apply bind_ok in L. destruct L as (lam0 & N & _).
  eexists _, _, a, b, c, t, lam0. split; [|split; [exact T|exact N]]. unfold tilt_inputs. repeat match goal with E : _ = Ok _ |- _ => rewrite E; cbn [bind]; clear E end. reflexivity.
Qed.
Definition tilt_family (lam0 sg : R) (v : source) (h : R) : (R -> res R) -> R -> res R :=
  fun _ _ => Ok (lam0 + match v with None => sg | Some _ => 0 end * h).
Lemma tilt_ok v (allow : Prop) sds newton mp m0 sg lam0 : (flat m0 -> allow) ->
  (forall rF rR a b c t, tilt_inputs mp = Ok (rF, rR, (a, b, c)) -> udiv c (uadd a b) = Ok t ->
     newton (fun l => lam_equality l (nom rF) (nom rR) (nom a) (nom b) (nom c)) (nom (uatan t)) = Ok lam0 /\ sg = ustd sds (uatan t)) ->
  tilt_follows v allow sds newton (tilt_family lam0 sg v) mp m0.
Proof.
  intros AL N. split; [exact AL|]. intros rF rR a b c f g k l m I F G K L M.
  unfold ulambda_from_abc, lambda_from_abc. cbv zeta. eapply rr_bind0; [apply rr_div; [exact M|apply tr_add; eassumption]|]. intros t ft ET _ HT.
  destruct (N _ _ _ _ _ _ I ET) as [-> ->]. cbn [bind]. unfold tilt_family. apply (rr_ret _ _ (fun h => lam0 + match v with None => ustd sds (uatan t) | Some _ => 0 end * h)).
  split; cbn [nom der]; [ring|]. destruct v as [n|]; cbn; auto_derive; trivial; ring.
Qed.
Lemma values_look m k : dget (values m) k = match dget m k with Some x => Some (fst x) | None => None end.
Proof. induction m as [|[n [x s]] m IH]; [reflexivity|]. cbn. destruct (String.eqb k n); [reflexivity|exact IH]. Qed.
Lemma values_dmem m k : dmem (values m) k = dmem m k.
Proof. unfold dmem. rewrite values_look. destruct (dget m k); reflexivity. Qed.
