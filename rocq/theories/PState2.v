(* PState2.v -- lemmas for C44 and C45 *)
From Verif Require Import Base MString MIo MPeriod MMain SIo MState SState PBase PString PIo PIo3 PIo4 PIo5 PIo6 PState.
Local Open Scope string_scope.

Lemma slast_snoc a c : slast (a ++ String c "") = Ok (String c "").
Proof. induction a as [|x a IH]; [reflexivity|]. cbn [append slast]. rewrite IH. destruct a; reflexivity. Qed.
Lemma plain_ends d : plain d -> d <> "" /\ ends_slash d = false.
Proof.
  intros [a [c [-> N]]]. split; [destruct a; discriminate|]. unfold ends_slash. rewrite slast_snoc. apply String.eqb_neq. intros K. injection K. exact N.
Qed.
Lemma os_join_plain d n : plain d -> starts_with "/" n = false -> os_join d n = d ++ "/" ++ n.
Proof.
  intros P N. apply plain_ends in P as [P1 P2]. unfold os_join. rewrite N, P2. apply String.eqb_neq in P1. rewrite P1. reflexivity.
Qed.
Lemma free_slash_start n : free slash n -> starts_with "/" n = false.
Proof. destruct n as [|c n]; [reflexivity|]. intros F. apply free_cons in F as [F _]. unfold starts_with. destruct (Ascii.eqb "/" c) eqn:E; [apply Ascii.eqb_eq in E; subst c; exfalso; apply F; reflexivity|reflexivity]. Qed.
Lemma split_last_app a n : free slash n -> split_last_slash (a ++ String slash n) = Some (a ++ String slash "", n).
Proof.
  intros F. induction a as [|c a IH]; cbn [append split_last_slash].
  - rewrite split_last_none by exact F. rewrite Ascii.eqb_refl. reflexivity.
  - rewrite IH. reflexivity.
Qed.
Lemma rstrip_slash_snoc a c : c <> slash -> rstrip_slash (a ++ String c "") = a ++ String c "".
Proof.
  intros N. induction a as [|x a IH]; cbn [append rstrip_slash].
  - rewrite aeqb_neq by exact N. reflexivity.
  - rewrite IH. destruct a; reflexivity.
Qed.
Lemma rstrip_slash_slash a : rstrip_slash (a ++ String slash "") = rstrip_slash a.
Proof. induction a as [|x a IH]; [reflexivity|]. cbn [append rstrip_slash]. rewrite IH. reflexivity. Qed.
Lemma os_split_plain d n : plain d -> free slash n -> os_split (d ++ "/" ++ n) = (d, n).
Proof.
  intros [a [c [-> N]]] F. unfold os_split. change ("/" ++ n) with (String slash n). rewrite split_last_app by exact F.
  rewrite rstrip_slash_slash, rstrip_slash_snoc by exact N. destruct a; reflexivity.
Qed.
Lemma plain_snoc d n : plain n -> plain (d ++ n).
Proof. intros [a [c [-> N]]]. exists (d ++ a), c. split; [rewrite sapp_assoc; reflexivity|exact N]. Qed.

Lemma exn_eq_io e : e = IOError \/ e <> IOError.
Proof. destruct e; (left; reflexivity) || (right; discriminate). Qed.

(* ---- add_rider ---- *)
Section Rider.
  Variables E H : Type.
  Variable other : string -> res (R * R).
  Variable combine : dict pval -> dict pval -> res (dict pval).
  Variable configure : string -> string -> dict pval -> dict pval -> bool -> res (dict pval * H).
  Notation bike := (bicycle_obj E H).
  Definition call (b : bike) (c : rider_call) : bike * res unit := add_rider other combine configure b (rc_fs c) (rc_name c) (rc_recalc c) (rc_draw c).
  Lemma dlook_some {V} (d : dict V) k v : dlook d k = Ok v <-> dget d k = Some v.
  Proof. unfold dlook. destruct (dget d k); split; congruence. Qed.

  Definition rider_data (b : bike) (c : rider_call) :=
      (bicyclePar <- dlook (bo_par b) "Benchmark" ;;
       let compute :=
         measuredPar <- dlook (bo_par b) "Measured" ;;
         '(riderPar, human) <- configure (rider_dir b (rc_name c)) (bo_name b) bicyclePar measuredPar (rc_draw c) ;;
         both <- combine bicyclePar riderPar ;;
         Ok (riderPar, Some human, both) in
       if rc_draw c || rc_recalc c then compute
       else
         match load_file other (rc_fs c) (rider_file b (rc_name c)) with
         | Ok riderPar => both <- combine bicyclePar riderPar ;; Ok (riderPar, None, both)
         | Err IOError => compute
         | Err e => Err e
         end).
  Lemma rider_data_iff b c rp human both : no_io other ->
    rider_data b c = Ok (rp, human, both) <-> exists bench, dget (bo_par b) "Benchmark" = Some bench /\ rider_parameters other configure b c bench rp human /\ combine bench rp = Ok both.
  Proof.
    intros NIO. unfold rider_data. destruct (dlook (bo_par b) "Benchmark") as [bench|e] eqn:B; cbn [bind].
    2:{ split; [discriminate|]. intros [bench [K _]]. apply dlook_some in K. congruence. }
    apply dlook_some in B. cbv zeta.
    assert (CI : (measuredPar <- dlook (bo_par b) "Measured" ;;
         '(riderPar, human) <- configure (rider_dir b (rc_name c)) (bo_name b) bench measuredPar (rc_draw c) ;;
         both <- combine bench riderPar ;; Ok (riderPar, Some human, both)) = Ok (rp, human, both) <->
       (exists m h, dget (bo_par b) "Measured" = Some m /\ configure (rider_dir b (rc_name c)) (bo_name b) bench m (rc_draw c) = Ok (rp, h) /\ human = Some h) /\ combine bench rp = Ok both).
    { split.
      - intros K. apply bind_ok in K as [m [K1 K]]. apply bind_ok in K as [[rp' h] [K2 K]]. apply bind_ok in K as [bo [K3 K]]. injection K as -> <- ->. apply dlook_some in K1. split; [|exact K3]. eauto.
      - intros [[m [h [K1 [K2 ->]]]] K3]. apply dlook_some in K1. rewrite K1. cbn [bind]. rewrite K2. cbn [bind]. rewrite K3. reflexivity. }
    assert (BB : (exists b0, dget (bo_par b) "Benchmark" = Some b0 /\ rider_parameters other configure b c b0 rp human /\ combine b0 rp = Ok both) <->
                 rider_parameters other configure b c bench rp human /\ combine bench rp = Ok both).
    { split; [intros [b0 [K1 K2]]; assert (b0 = bench) by congruence; subst; exact K2|]. intros K. exists bench. split; [exact B|exact K]. }
    rewrite BB. unfold rider_parameters. cbv zeta. destruct (rc_draw c || rc_recalc c) eqn:G.
    - rewrite CI. assert (A : rc_recalc c = true \/ rc_draw c = true) by (apply orb_true_iff in G; tauto). tauto.
    - assert (A : ~ (rc_recalc c = true \/ rc_draw c = true)) by (apply orb_false_iff in G; destruct G; intros [K|K]; congruence).
      destruct (load_file other (rc_fs c) (rider_file b (rc_name c))) as [rp0|e] eqn:L.
      + apply load_file_iff in L. split.
        * intros K. apply bind_ok in K as [bo [K1 K]]. injection K as -> <- ->. split; [|exact K1]. left. auto.
        * intros [[[_ [K1 ->]]|[[K|K] _]] K2]; [|tauto|].
          -- apply load_file_iff in K1, L. assert (rp0 = rp) by congruence. subst. rewrite K2. reflexivity.
          -- exfalso. apply K. destruct L as [t [L _]]. apply dget_some_in. eauto.
      + assert (NR : ~ reads other (rc_fs c) (rider_file b (rc_name c)) rp) by (intros K; apply load_file_iff in K; congruence).
        destruct (exn_eq_io e) as [->|N].
        * apply load_file_io in L; [|exact NIO]. rewrite CI. tauto.
        * replace (match e with IOError => _ | _ => Err e end) with (@Err (dict pval * option H * dict pval) e) by (destruct e; congruence).
          split; [discriminate|]. intros [[K|[[K|K] _]] _]; [tauto|tauto|]. apply (load_file_io other) in K; [|exact NIO]. congruence.
  Qed.

  Lemma call_eq b c : bo_hasRider b = false -> call b c =
    match rider_data b c with
    | Err e => (b, Err e)
    | Ok (rp, human, both) =>
        (mkbike (bo_name b) (bo_dir b) true (Some (rc_name c)) (updated (bo_riderPar b) [("Benchmark", rp)]) human (updated (bo_par b) [("Benchmark", both)]) (bo_extras b), Ok tt)
    end.
  Proof. intros N. unfold call, add_rider. rewrite N. reflexivity. Qed.
  Lemma call_ok_iff b c b' : no_io other -> bo_hasRider b = false -> (call b c = (b', Ok tt) <-> ridden other combine configure b c b').
  Proof.
    intros NIO N. rewrite call_eq by exact N. unfold ridden. destruct (rider_data b c) as [[[rp human] both]|e] eqn:D.
    - apply rider_data_iff in D as [bench [D1 [D2 D3]]]; [|exact NIO]. split.
      + intros K. injection K as <-. exists bench, rp, human, both. auto.
      + intros [bench' [rp' [human' [both' [K1 [K2 [K3 ->]]]]]]]. assert (X : rider_data b c = Ok (rp', human', both')) by (apply rider_data_iff; [exact NIO|eauto]).
        assert (Y : rider_data b c = Ok (rp, human, both)) by (apply rider_data_iff; [exact NIO|eauto]). rewrite X in Y. injection Y as -> -> ->. reflexivity.
    - split; [discriminate|]. intros [bench' [rp' [human' [both' [K1 [K2 [K3 ->]]]]]]]. assert (X : rider_data b c = Ok (rp', human', both')) by (apply rider_data_iff; [exact NIO|eauto]). congruence.
  Qed.
  Lemma call_again b c : bo_hasRider b = true -> call b c = (b, Ok tt).
  Proof. intros K. unfold call, add_rider. rewrite K. reflexivity. Qed.
  Lemma call_fails b c e b' : call b c = (b', Err e) -> b' = b /\ bo_hasRider b = false.
  Proof.
    destruct (bo_hasRider b) eqn:N; [rewrite call_again by exact N; discriminate|]. rewrite call_eq by exact N. destruct (rider_data b c) as [[[? ?] ?]|]; [discriminate|].
    intros K. injection K as <- _. auto.
  Qed.
  Lemma calls_after b cs : bo_hasRider b = true -> after_calls (fun b c => fst (call b c)) b cs = b.
  Proof. unfold after_calls. induction cs as [|c cs IH]; [reflexivity|]. cbn [fold_left]. intros K. rewrite call_again by exact K. cbn [fst]. apply IH, K. Qed.
  Lemma history b cs : no_io other -> bo_hasRider b = false ->
    (after_calls (fun b c => fst (call b c)) b cs = b /\ forall c, In c cs -> forall b', ~ ridden other combine configure b c b') \/
    (exists pre c post b', cs = (pre ++ c :: post)%list /\ (forall q, In q pre -> forall b'', ~ ridden other combine configure b q b'') /\
       ridden other combine configure b c b' /\ after_calls (fun b c => fst (call b c)) b cs = b').
  Proof.
    intros NIO N. induction cs as [|c cs IH]; [left; split; [reflexivity|intros c []]|].
    destruct (call b c) as [b1 [[]|e]] eqn:K.
    - right. exists [], c, cs, b1. split; [reflexivity|]. split; [intros q []|]. apply call_ok_iff in K as R; [|exact NIO|exact N]. split; [exact R|].
      unfold after_calls. cbn [fold_left]. rewrite K. cbn [fst]. apply calls_after. destruct R as [? [? [? [? [_ [_ [_ ->]]]]]]]. reflexivity.
    - assert (F : forall b', ~ ridden other combine configure b c b') by (intros b' R; apply call_ok_iff in R; [congruence|exact NIO|exact N]).
      apply call_fails in K as K'. destruct K' as [-> _]. assert (S : after_calls (fun b c => fst (call b c)) b (c :: cs) = after_calls (fun b c => fst (call b c)) b cs) by (unfold after_calls; cbn [fold_left]; rewrite K; reflexivity).
      rewrite S. destruct IH as [[I1 I2]|[pre [d [post [b' [-> [I1 [I2 I3]]]]]]]].
      + left. split; [exact I1|]. intros q [<-|Q]; [exact F|apply I2, Q].
      + right. exists (c :: pre), d, post, b'. split; [reflexivity|]. split; [intros q [<-|Q]; [exact F|apply I1, Q]|]. split; [exact I2|exact I3].
  Qed.
End Rider.

(* ---- saving ---- *)
Lemma write_new_full {V} (str : V -> string) fs answers dir n d : plain dir -> has_dir fs dir -> free slash n -> n <> "" ->
  isdir fs (dir ++ "/" ++ n) = false -> dget (fs_files fs) (dir ++ "/" ++ n) = None ->
  write_parameter_text_file str fs answers (dir ++ "/" ++ n) d =
  (Ok true, {| fs_dirs := fs_dirs fs; fs_files := app (fs_files fs) [(dir ++ "/" ++ n, par_text str d)] |}, answers).
Proof.
  intros P D F N ND NF. unfold write_parameter_text_file. rewrite os_split_plain by assumption. apply isdir_iff in D. rewrite D. unfold open_r. rewrite NF.
  unfold open_w. rewrite ND, os_split_plain by assumption. cbn [snd]. apply String.eqb_neq in N. rewrite N. cbn [orb]. rewrite dset_fresh; [reflexivity|]. intros K. apply dget_some_in in K as [v K]. congruence.
Qed.

Definition grow (fileName pset : string) : string := fileName ++ pset ++ ".txt".
Lemma grown_cons fileName s sets i : grown_name fileName (s :: sets) (S i) = grown_name (grow fileName s) sets i.
Proof. unfold grown_name, grow. cbn [firstn map fold_right]. rewrite !sapp_assoc. reflexivity. Qed.
Lemma grown_0 fileName s sets : grown_name fileName (s :: sets) 0 = grow fileName s.
Proof. unfold grown_name, grow. cbn [firstn map fold_right]. rewrite sapp_nil. reflexivity. Qed.
Lemma sconcat_len l : String.length (fold_right append "" l) = fold_right (fun s a => String.length s + a)%nat 0%nat l.
Proof. induction l as [|x l IH]; [reflexivity|]. cbn [fold_right]. rewrite slen_app, IH. reflexivity. Qed.
Lemma grown_len name sets i : (i < length sets)%nat -> (String.length name + 4 * (i + 1) <= String.length (grown_name name sets i))%nat.
Proof.
  revert name i. induction sets as [|s sets IH]; intros name i L; [cbn in L; lia|]. destruct i as [|i].
  - rewrite grown_0. unfold grow. rewrite !slen_app. cbn [String.length]. lia.
  - rewrite grown_cons. cbn [length] in L. specialize (IH (grow name s) i ltac:(lia)). unfold grow in IH at 1. rewrite !slen_app in IH. cbn [String.length] in IH. lia.
Qed.

Section Save.
  Variable str : pval -> string.
  Lemma save_sets_new fs answers parDir fileName psets sets comb :
    plain parDir -> has_dir fs parDir -> free slash fileName -> (forall s, In s psets -> free slash s /\ In s (dkeys sets)) ->
    (forall i, (i < length psets)%nat -> no_file fs (parDir ++ "/" ++ grown_name fileName psets i) /\ ~ has_dir fs (parDir ++ "/" ++ grown_name fileName psets i)) ->
    exists fs', save_sets str fs answers parDir None fileName psets sets comb = (Ok tt, fs', answers) /\ fs_dirs fs' = fs_dirs fs /\
      (forall i s d, nth_error psets i = Some s -> dget sets s = Some d -> dget (fs_files fs') (parDir ++ "/" ++ grown_name fileName psets i) = Some (par_text str d)) /\
      (forall q, (forall i, (i < length psets)%nat -> q <> parDir ++ "/" ++ grown_name fileName psets i) -> dget (fs_files fs') q = dget (fs_files fs) q) /\
      exists new, fs_files fs' = (fs_files fs ++ new)%list /\ map fst new = map (fun i => parDir ++ "/" ++ grown_name fileName psets i) (seq 0 (length psets)).
  Proof.
    revert fs fileName. induction psets as [|s psets IH]; intros fs fileName P D F S N; cbn [save_sets].
    - exists fs. split; [reflexivity|]. split; [reflexivity|]. split; [intros [|i] ? ? K; discriminate|]. split; [reflexivity|]. exists []. rewrite app_nil_r. split; reflexivity.
    - destruct (S s (or_introl eq_refl)) as [Fs Ks]. apply dget_some_in in Ks as [d Gd]. unfold dlook. rewrite Gd. fold (grow fileName s).
      assert (Fg : free slash (grow fileName s)) by (unfold grow; rewrite !free_app; split; [exact F|split; [exact Fs|]]; intros [K|[K|[K|[K|[]]]]]; discriminate).
      assert (Ng : grow fileName s <> "") by (unfold grow; intros K; apply sapp_eq_nil in K as [_ K]; apply sapp_eq_nil in K as [_ K]; discriminate).
      destruct (N 0%nat ltac:(cbn; lia)) as [N1 N2]. rewrite grown_0 in N1, N2.
      rewrite os_join_plain by (assumption || apply free_slash_start, Fg).
      rewrite write_new_full; try assumption.
      2:{ destruct (isdir fs (parDir ++ "/" ++ grow fileName s)) eqn:K; [|reflexivity]. apply isdir_iff in K. tauto. }
      2:{ destruct (dget (fs_files fs) (parDir ++ "/" ++ grow fileName s)) eqn:K; [|reflexivity]. exfalso. apply N1, dget_some_in. eauto. }
      set (fs1 := {| fs_dirs := fs_dirs fs; fs_files := (app (fs_files fs) [(parDir ++ "/" ++ grow fileName s, par_text str d)]) |}).
      assert (NE : forall i, (i < length psets)%nat -> parDir ++ "/" ++ grown_name (grow fileName s) psets i <> parDir ++ "/" ++ grow fileName s).
      { intros i L K. apply sapp_inj_l in K. apply sapp_inj_l in K. pose proof (grown_len (grow fileName s) psets i L) as G. rewrite K in G. lia. }
      assert (GA : forall q, dget (fs_files fs1) q = if String.eqb q (parDir ++ "/" ++ grow fileName s) then Some (par_text str d) else dget (fs_files fs) q).
      { intros q. unfold fs1. cbn [fs_files]. replace (app (fs_files fs) [(parDir ++ "/" ++ grow fileName s, par_text str d)]) with (dset (fs_files fs) (parDir ++ "/" ++ grow fileName s) (par_text str d)) by (apply dset_fresh; exact N1).
        apply dget_dset. }
      destruct (IH fs1 (grow fileName s)) as [fs' [W [Dr [Ct [Ot [new [En Mn]]]]]]]; try assumption.
      + intros x Hx. apply S. right. exact Hx.
      + intros i L. destruct (N (Datatypes.S i)) as [A B]; [cbn; lia|]. rewrite grown_cons in A, B. split; [|exact B]. intros K. apply dget_some_in in K as [v K].
        rewrite GA in K. pose proof (NE i L) as Q. apply String.eqb_neq in Q. rewrite Q in K. apply A, dget_some_in. eauto.
      + exists fs'. split; [exact W|]. split; [rewrite Dr; reflexivity|]. split; [|split].
        * intros [|i] s' d' K1 K2.
          -- rewrite grown_0. cbn in K1. injection K1 as <-. assert (d' = d) by congruence. subst d'. rewrite Ot.
             ++ rewrite GA, String.eqb_refl. reflexivity.
             ++ intros i L K. symmetry in K. exact (NE i L K).
          -- rewrite grown_cons. cbn in K1. eapply Ct; eassumption.
        * intros q Hq. rewrite Ot.
          -- rewrite GA. pose proof (Hq 0%nat ltac:(cbn; lia)) as Q. rewrite grown_0 in Q. apply String.eqb_neq in Q. rewrite Q. reflexivity.
          -- intros i L. rewrite <- grown_cons. apply Hq. cbn. lia.
        * exists ((parDir ++ "/" ++ grow fileName s, par_text str d) :: new). split; [rewrite En; unfold fs1; cbn [fs_files]; rewrite <- app_assoc; reflexivity|].
          cbn [map fst length seq]. rewrite grown_0. f_equal. rewrite Mn, <- seq_shift, map_map. apply map_ext. intros i. rewrite grown_cons. reflexivity.
  Qed.
End Save.
