(* TUnc.v -- C76: standard deviations are propagated to first order *)
From Verif Require Import Base PBase MString MVec MBicycle MInertia MGeometry MMain MEig MUnc SBicycle SUnc PUnc PUnc2 PUnc3 PUnc4 PUnc5 PUnc6 PUnc7 PUnc8.
From Coq Require Import Lra FunctionalExtensionality.
Local Open Scope string_scope.
Local Open Scope R_scope.

(* ---- the parameters of a measured bicycle ---- *)
Theorem C76_benchmark : forall newton m par ex key u, In "w" (map fst m) ->
  ucalculate_benchmark_from_measured (deviations m) newton (uvars m) = Ok (par, ex) -> dget par key = Some u ->
  propagated (fun mp => r <- calculate_benchmark_from_measured newton mp ;; dlook (fst r) key) m (nom u) (ustd (deviations m) u).
Proof.
  intros newton m par ex key u W H U. assert (W' : dmem m "w" = true) by (unfold dmem; destruct (dget m "w") eqn:E; [reflexivity|apply dget_none in E; contradiction]).
  apply (follows_propagated m (r <- ucalculate_benchmark_from_measured (deviations m) newton (uvars m) ;; dlook (fst r) key)).
  - intros v MP Q. apply par_key, measured_w; assumption.
  - rewrite H. cbn [bind fst]. unfold dlook. rewrite U. reflexivity.
Qed.
Print Assumptions C76_benchmark.
(* without a measured wheelbase the tilt is found by iteration: it is a number of its own,
   of the deviation that the tilt would have with wheels of equal size *)
Theorem C76_tilt_apart : forall newton m par ex, ~ In "w" (map fst m) ->
  ucalculate_benchmark_from_measured (deviations m) newton (uvars m) = Ok (par, ex) ->
  exists t, dget par "lam" = Some t
    /\ (exists g, propagated (fun p => Ok (equal_wheel_tilt p)) m g (ustd (deviations m) t))
    /\ calculate_benchmark_from_measured newton (values m) = calculate_benchmark_from_measured (fun _ _ => Ok (nom t)) (values m)
    /\ forall key u, dget par key = Some u ->
       propagated_with (fun lam mp => r <- calculate_benchmark_from_measured (fun _ _ => Ok lam) mp ;; dlook (fst r) key) m (nom t) (ustd (deviations m) t) (nom u) (ustd (deviations m) u).
Proof. exact tilt_apart. Qed.
Print Assumptions C76_tilt_apart.
(* so the deviation of the tilt is not the propagated one: an uncertain wheel does not show in it *)
Theorem C76_tilt_not_propagated : forall newton m par ex t, (forall f x r, newton f x = Ok r -> f r = Ok 0) -> ~ In "w" (map fst m) ->
  ucalculate_benchmark_from_measured (deviations m) newton (uvars m) = Ok (par, ex) -> dget par "lam" = Some t ->
  (forall k d, In (k, d) m -> k <> "dF" -> snd d = 0) -> (forall d, In ("dF", d) m -> snd d <> 0) ->
  ustd (deviations m) t = 0
  /\ forall s, propagated (fun mp => r <- calculate_benchmark_from_measured newton mp ;; dlook (fst r) "lam") m (nom t) s -> s <> 0.
Proof. exact tilt_refuted. Qed.
Print Assumptions C76_tilt_not_propagated.
(* ---- the matrices ---- *)
Theorem C76_canonical : forall m can mt en, ubicycle_canonical (uvars m) = Ok can -> In mt matrices4 -> In en entries2 ->
  let u := snd en (snd mt can) in
  propagated (fun p => c <- snd (bicycle_canonical (bench p) FFalse) ;; Ok (fst en (fst mt c))) m (nom u) (ustd (deviations m) u).
Proof.
  intros m can mt en H M E. cbv zeta. apply (follows_propagated m (c <- ubicycle_canonical (uvars m) ;; Ok (snd en (snd mt c)))).
  - intros v MP Q. apply par_canonical; assumption.
  - rewrite H. reflexivity.
Qed.
Print Assumptions C76_canonical.
Theorem C76_state_space : forall m speed AB which i j u, ubicycle_state_space (uvars m) speed = Ok AB -> entry (A_or_B which AB) i j = Ok u ->
  propagated (fun p => ab <- snd (bicycle_state_space (bench p) speed FFalse) ;; entry (A_or_B which ab) i j) m (nom u) (ustd (deviations m) u).
Proof. exact state_space_entries. Qed.
Print Assumptions C76_state_space.
(* all the way: from the measurements, with or without a rider, to the linear model *)
Theorem C76_measured_to_state_space : forall newton m rider speed par ex par' AB which i j u, In "w" (map fst m) ->
  ucalculate_benchmark_from_measured (deviations m) newton (uvars m) = Ok (par, ex) -> urider par rider = Ok par' ->
  ubicycle_state_space par' speed = Ok AB -> entry (A_or_B which AB) i j = Ok u ->
  propagated (fun mp => r <- calculate_benchmark_from_measured newton mp ;; p <- with_rider (fst r) rider ;;
                        ab <- snd (bicycle_state_space (bench p) speed FFalse) ;; entry (A_or_B which ab) i j) m (nom u) (ustd (deviations m) u).
Proof. exact chain. Qed.
Print Assumptions C76_measured_to_state_space.
(* ---- the rider and the steered parts ---- *)
Theorem C76_rider : forall m r par key u, ucombine_bike_rider (uvars m) (exact r) = Ok par -> dget par key = Some u ->
  propagated (fun p => p' <- combine_bike_rider p r ;; dlook p' key) m (nom u) (ustd (deviations m) u).
Proof. exact rider_key. Qed.
Print Assumptions C76_rider.
Theorem C76_steer_assembly : forall m handlebar fork wheel about J ro co, usteer_assembly (uvars m) handlebar fork wheel about = Ok J -> In ro rows3 -> In co columns3 ->
  propagated (fun p => K <- steer_assembly p handlebar fork wheel about ;; Ok (fst co (fst ro K))) m (nom (snd co (snd ro J))) (ustd (deviations m) (snd co (snd ro J))).
Proof. exact steer_entries. Qed.
Print Assumptions C76_steer_assembly.
(* ---- the nominal values and the failures are those of the calculation with plain numbers ---- *)
Theorem C76_nominal_benchmark : forall newton m par ex, ucalculate_benchmark_from_measured (deviations m) newton (uvars m) = Ok (par, ex) ->
  exists ex', calculate_benchmark_from_measured newton (values m) = Ok (nominal_par par, ex').
Proof. exact measured_nominal. Qed.
Print Assumptions C76_nominal_benchmark.
Theorem C76_defined : forall newton m par ex, calculate_benchmark_from_measured newton (values m) = Ok (par, ex) ->
  ~ (is_fork_split m = true /\ bar_in_line (values m)) -> ~ hung_at_centre (is_fork_split m) (values m) par ->
  (~ In "w" (map fst m) -> frame_c (values m) <> 0) ->
  exists upar uex, ucalculate_benchmark_from_measured (deviations m) newton (uvars m) = Ok (upar, uex) /\ nominal_par upar = par.
Proof.
  intros newton m par ex H A B C. apply (measured_total newton m par ex H A B). intros W. apply C. intros I. apply dmem_true in I. congruence.
Qed.
Print Assumptions C76_defined.
Theorem C76_failure : forall newton m e, In "w" (map fst m) -> ucalculate_benchmark_from_measured (deviations m) newton (uvars m) = Err e ->
  calculate_benchmark_from_measured newton (values m) = Err e \/ e = nan_deviation.
Proof. exact measured_failure. Qed.
Print Assumptions C76_failure.
(* Bicycle.canonical(nominal=True) returns the nominal parts of the uncertain matrices, and so
   does the state space; the same exceptions are raised *)
Theorem C76_nominal_canonical : forall p, snd (bicycle_canonical (bench (nominal_par p)) FTrue) = match ubicycle_canonical p with Ok c => Ok (nominal_canon c) | Err e => Err e end.
Proof. exact canonical_nominal. Qed.
Print Assumptions C76_nominal_canonical.
Theorem C76_nominal_state_space : forall p speed, snd (bicycle_state_space (bench (nominal_par p)) speed FTrue) =
  match ubicycle_state_space p speed with Ok (A, B) => Ok (nominal_rows A, nominal_rows B) | Err e => Err e end.
Proof. exact state_space_nominal. Qed.
Print Assumptions C76_nominal_state_space.
Theorem C76_nominal_rider : forall p r, combine_bike_rider (nominal_par p) r = match ucombine_bike_rider p (exact r) with Ok p => Ok (nominal_par p) | Err e => Err e end.
Proof. exact rider_nominal. Qed.
Print Assumptions C76_nominal_rider.
Theorem C76_nominal_steer_assembly : forall p handlebar fork wheel, steer_assembly (nominal_par p) handlebar fork wheel false =
  match usteer_assembly p handlebar fork wheel false with Ok J => Ok (nominal3 J) | Err e => Err e end.
Proof. exact steer_nominal. Qed.
Print Assumptions C76_nominal_steer_assembly.
