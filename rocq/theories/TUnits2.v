(* TUnits2.v -- C74: measurements taken in other units give the same bicycle in other units *)
From Coq Require Import Lra Lia Permutation.
From Verif Require Import Base MString MHeap MBicycle MVec MInertia MGeometry MMain MModels MModels2 MEig PBase SBicycle SModels SModels2 SLean SEig SStab SUnits SUnits2 PUnits PUnits2 TUnits TMain.
Local Open Scope string_scope.
Local Open Scope R_scope.

(* whatever the measurements: the calculation succeeds for both or fails in the same way, and
   its results are the same quantities in the new units *)
Theorem C74_measurements : forall u newton mp, positive_units u ->
  (forall e, calculate_benchmark_from_measured newton mp = Err e -> calculate_benchmark_from_measured newton (converted (measured_unit u) mp) = Err e) /\
  forall par ex, calculate_benchmark_from_measured newton mp = Ok (par, ex) ->
    calculate_benchmark_from_measured newton (converted (measured_unit u) mp) =
      Ok (converted (parameter_unit u) par,
          mkextras (ex_slopes ex) (all_times (u_length u) (ex_intercepts ex)) (ex_betas ex) (all_times (u_mass u * u_length u ^ 2) (ex_pendulum ex))).
Proof.
  intros u newton mp PU. rewrite (calculate_units u PU newton mp). split; [intros e ->; reflexivity|intros par ex ->; reflexivity].
Qed.
Print Assumptions C74_measurements.

Lemma converted_in_units u p : positive_units u -> in_units u p (converted (parameter_unit u) p).
Proof.
  intros PU k Hk. rewrite dget_conv. assert (E : parameter_unit u k = bench_unit u k).
  { unfold bench_names in Hk. cbn [app In] in Hk. destruct Hk as [<-|[<-|Hk]].
    - rewrite u_lam. reflexivity.
    - rewrite (u_g u PU). reflexivity.
    - change (In k (lengths ++ masses ++ inertias)) in Hk. apply in_app_or in Hk. destruct Hk as [Hk|Hk]; [|apply in_app_or in Hk; destruct Hk as [Hk|Hk]].
      + rewrite u_len by (apply smem_spec, Hk). unfold lengths in Hk. cbn [In] in Hk. repeat (destruct Hk as [<-|Hk]; [reflexivity|]). contradiction.
      + unfold masses in Hk. cbn [In] in Hk. repeat (destruct Hk as [<-|Hk]; [rewrite u_mas by reflexivity; reflexivity|]). contradiction.
      + unfold inertias in Hk. cbn [In] in Hk. repeat (destruct Hk as [<-|Hk]; [rewrite u_ine by reflexivity; reflexivity|]). contradiction. }
  rewrite E. reflexivity.
Qed.
(* ... so the motions of the measured bicycle do not depend on the units of the measurements *)
Theorem C74_measured_eigenvalues : forall u newton mp par ex par' ex' eig eig' ps ps' speeds evs evs', positive_units u ->
  calculate_benchmark_from_measured newton mp = Ok (par, ex) -> calculate_benchmark_from_measured newton (converted (measured_unit u) mp) = Ok (par', ex') ->
  dget ps "Benchmark" = Some par -> dget ps' "Benchmark" = Some par' ->
  eig_contract eig -> eig_complete eig -> eig_contract eig' -> eig_complete eig' ->
  bicycle_eig eig ps (SpSeq speeds) = Ok evs -> bicycle_eig eig' ps' (SpSeq (map (Rmult (speed_unit u)) speeds)) = Ok evs' ->
  forall i, (i < length speeds)%nat -> Permutation (map (cscale (/ u_time u)) (fst (nth i evs ([], [])))) (fst (nth i evs' ([], []))).
Proof.
  intros u newton mp par ex par' ex' eig eig' ps ps' speeds evs evs' PU H H' E E' EC CP EC' CP' V V'.
  destruct (C74_measurements u newton mp PU) as (_ & X). specialize (X par ex H). rewrite X in H'.
  assert (EP : par' = converted (parameter_unit u) par) by congruence. subst par'.
  apply (C74_eigenvalues u eig eig' ps ps' par _ speeds evs evs' PU E E' (converted_in_units u par PU) EC CP EC' CP' V V').
Qed.
Print Assumptions C74_measured_eigenvalues.

(* the bicycle of TMain.v measured in grams, centimetres and milliseconds *)
Example C74_measurements_met : positive_units small_units /\ (exists par ex, calculate_benchmark_from_measured ex_newton ex_whole = Ok (par, ex) /\ dget par "IHxz" = Some (5 / 2) /\ dget par "xB" = Some (3 / 5)) /\
  exists par ex, calculate_benchmark_from_measured ex_newton (converted (measured_unit small_units) ex_whole) = Ok (par, ex) /\ dget par "IHxz" = Some 25000000 /\ dget par "xB" = Some 60.
Proof.
  assert (PU : positive_units small_units) by (unfold positive_units, small_units; cbn; lra). split; [exact PU|].
  destruct C47_whole_met as (_ & _ & _ & _ & par & ex & H & I & X). split; [eauto|].
  destruct (C74_measurements small_units ex_newton ex_whole PU) as (_ & Y). eexists _, _. split; [apply Y, H|]. rewrite !dget_conv, I, X. cbn [option_map]. split; f_equal; unfold parameter_unit, small_units; cbn; lra.
Qed.
