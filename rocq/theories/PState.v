(* PState.v -- lemmas for C43-C45 *)
From Verif Require Import Base MString MIo MPeriod MMain SIo MState SState PBase PString PIo PIo3 PIo4 PIo6.
Local Open Scope string_scope.

Lemma entry_of_iff d p n : entry_of d p = Some n <-> p = d ++ "/" ++ n /\ n <> "" /\ free slash n.
Proof.
  unfold entry_of. split.
  - destruct (starts_with (d ++ "/") p) eqn:S; [|discriminate]. apply starts_with_iff in S as [r ->].
    replace (String.length d + 1)%nat with (String.length (d ++ "/")) by (rewrite slen_app; reflexivity). rewrite sdrop_app.
    destruct (String.eqb r "") eqn:E1; [discriminate|]. destruct (contains "/" r) eqn:E2; [discriminate|]. cbn [orb]. intros H. injection H as <-.
    apply String.eqb_neq in E1. split; [apply sapp_assoc|]. split; [exact E1|]. apply free_occurs. intros K. apply contains_iff in K. change (String slash "") with "/" in K. congruence.
  - intros [-> [N F]]. rewrite <- sapp_assoc. replace (starts_with (d ++ "/") ((d ++ "/") ++ n)) with true by (symmetry; apply starts_with_iff; eauto).
    replace (String.length d + 1)%nat with (String.length (d ++ "/")) by (rewrite slen_app; reflexivity). rewrite sdrop_app.
    apply String.eqb_neq in N. rewrite N. replace (contains "/" n) with false; [reflexivity|]. symmetry. destruct (contains "/" n) eqn:C; [|reflexivity].
    exfalso. apply contains_iff in C. apply free_occurs in F. apply F. exact C.
Qed.

Lemma isdir_iff fs d : isdir fs d = true <-> has_dir fs d.
Proof. unfold isdir, has_dir. apply smem_spec. Qed.

Lemma listdir_ok fs d names : listdir fs d = Ok names -> has_dir fs d /\ forall n, In n names <-> has_entry fs d n.
Proof.
  unfold listdir. destruct (isdir fs d) eqn:D; [|discriminate]. intros H. injection H as <-. split; [apply isdir_iff, D|]. intros n.
  rewrite in_flat_map. unfold has_entry. split.
  - intros [p [P Q]]. destruct (entry_of d p) as [m|] eqn:E; [|destruct Q]. destruct Q as [->|[]]. apply entry_of_iff in E as [-> [N F]].
    rewrite in_app_iff in P. tauto.
  - intros [N [F H]]. exists (d ++ "/" ++ n). split; [apply in_app_iff; exact H|]. rewrite (proj2 (entry_of_iff d (d ++ "/" ++ n) n)) by auto. left. reflexivity.
Qed.
Lemma listdir_dir fs d : has_dir fs d -> exists names, listdir fs d = Ok names.
Proof. intros H. apply isdir_iff in H. unfold listdir. rewrite H. eauto. Qed.
Lemma listdir_nodir fs d : ~ has_dir fs d -> listdir fs d = Err IOError.
Proof. intros H. unfold listdir. destruct (isdir fs d) eqn:D; [|reflexivity]. apply isdir_iff in D. tauto. Qed.

Lemma load_file_iff other fs p d : load_file other fs p = Ok d <-> reads other fs p d.
Proof.
  unfold load_file, reads, open_r. destruct (dget (fs_files fs) p) as [t|]; cbn [bind].
  - split; [eauto|]. intros [t' [H1 H2]]. congruence.
  - split; [discriminate|]. intros [t' [H1 _]]. discriminate.
Qed.
Lemma pfloat_no_io x : pfloat x <> Err IOError.
Proof.
  unfold pfloat. destruct (take_sign (strip x)) as [n0 a]. destruct (take_digits a) as [n1 n2]. destruct (take_frac n2) as [n3 n4].
  match goal with |- match ?z with _ => _ end <> _ => destruct z; [discriminate|] end. destruct (take_exp n4); discriminate.
Qed.
Lemma load_text_not_io other t : load_text other t = Err IOError -> (exists s, ufloat_fromstr other s = Err IOError).
Proof.
  unfold load_text. generalize (file_lines (univ_nl t)) as ls. intros ls. generalize (@nil (string * pval)) as d. revert ls.
  fix IH 1. intros [|l ls] d; cbn [load_lines]; [discriminate|]. destruct (starts_with "#" l); [apply IH|].
  destruct (parse_line other l) as [kv|e] eqn:P; cbn [bind]; [apply IH|]. intros H. injection H as ->. clear IH.
  unfold parse_line in P. destruct (nth_error _ 1); cbn [bind] in P; [|discriminate]. destruct (contains "+/-" s).
  - destruct (mapM _ _) as [us|e] eqn:M in P; cbn [bind] in P; [discriminate|]. injection P as ->. clear -M. revert M.
    generalize (split_on "," (strip s)) as l'. induction l' as [|x l' IH]; cbn [mapM]; [discriminate|]. destruct (ufloat_fromstr other x) as [u|e] eqn:U; cbn [bind].
    + destruct (mapM _ l') eqn:M; cbn [bind]; [discriminate|]. exact IH.
    + intros H. injection H as ->. eauto.
  - destruct (mapM _ _) as [us|e] eqn:M in P; cbn [bind] in P; [discriminate|]. injection P as ->. exfalso. clear -M. revert M.
    generalize (split_on "," (strip s)) as l'. induction l' as [|x l' IH]; cbn [mapM]; [discriminate|]. destruct (pfloat x) as [u|e] eqn:U; cbn [bind].
    + destruct (mapM _ l') eqn:M; cbn [bind]; [discriminate|]. exact IH.
    + intros H. injection H as ->. exact (pfloat_no_io _ U).
Qed.
Lemma ufloat_no_io other s : no_io other -> ufloat_fromstr other s <> Err IOError.
Proof.
  pose proof pfloat_no_io as P.
  intros N. unfold ufloat_fromstr. destruct (contains "(" s); [apply N|]. destruct (cut_first "+/-" s) as [[a b]|]; [|apply N].
  destruct (pfloat a) eqn:A; cbn [bind]; [|intros K; injection K as ->; exact (P _ A)]. destruct (pfloat b) eqn:B; cbn [bind]; [|intros K; injection K as ->; exact (P _ B)].
  unfold mk_ufloat. destruct (Rlt_dec _ _); discriminate.
Qed.
Lemma load_file_io other fs p : no_io other -> (load_file other fs p = Err IOError <-> no_file fs p).
Proof.
  intros N. unfold load_file, no_file, open_r. destruct (dget (fs_files fs) p) as [t|] eqn:G; cbn [bind].
  - split; [intros H; apply load_text_not_io in H as [s H]; exfalso; exact (ufloat_no_io _ _ N H)|]. intros H. exfalso. apply H. apply dget_some_in. eauto.
  - split; [|reflexivity]. intros _ K. apply dget_some_in in K as [v K]. congruence.
Qed.

Lemma updated_app {V} (d : dict V) r1 r2 : updated d (r1 ++ r2) = updated (updated d r1) r2.
Proof. unfold updated. apply fold_left_app. Qed.

Section Load.
  Variable other : string -> res (R * R).
  Lemma load_sets_iff fs parDir files ps ps' :
    load_sets other fs parDir files ps = Ok ps' <-> exists rows, Forall2 (set_file other fs parDir) files rows /\ ps' = updated ps rows.
  Proof.
    revert ps. induction files as [|f files IH]; intros ps; cbn [load_sets].
    - split; [intros H; injection H as <-; exists []; split; [constructor|reflexivity]|]. intros [rows [F ->]]. inversion F. reflexivity.
    - split.
      + intros H. apply bind_ok in H as [w [H1 H]]. destruct w as [s|[|w [|p [|z l]]]]; try discriminate. apply bind_ok in H as [par [H2 H]].
        apply load_file_iff in H2. apply IH in H as [rows [F ->]]. exists ((p, par) :: rows). split; [|reflexivity]. constructor; [|exact F]. split; [exists w; exact H1|exact H2].
      + intros [rows [F ->]]. inversion F as [|f' [p par] fl rows' [[w H1] H2] F' E1 E2]. subst. rewrite H1. cbn [bind fst snd] in *.
        apply load_file_iff in H2. rewrite H2. cbn [bind]. apply IH. eauto.
  Qed.
End Load.

Section New.
  Variables E H : Type.
  Variable other : string -> res (R * R).
  Variable calc : dict pval -> res (dict pval * E).
  Variable decode : string -> res (dict string * res (R * R)).
  Variable str : pval -> string.

  Lemma open_r_iff fs p t : open_r fs p = Ok t <-> dget (fs_files fs) p = Some t.
  Proof. unfold open_r. destruct (dget (fs_files fs) p); split; congruence. Qed.

  Lemma raw_periods_iff fs rawDir split periods : raw_periods decode fs rawDir split = Ok periods <-> recorded_periods decode fs rawDir split periods.
  Proof.
    assert (EQ : forall n r, (t <- open_r fs (os_join rawDir n) ;; decode t) = Ok r <-> exists t, dget (fs_files fs) (os_join rawDir n) = Some t /\ decode t = Ok r).
    { intros n r. split; [intros K; apply bind_ok in K as [t [A B]]; apply open_r_iff in A; eauto|]. intros [t [A B]]. apply open_r_iff in A. rewrite A. exact B. }
    unfold raw_periods, recorded_periods, listing. split.
    - intros K. apply bind_ok in K as [names [K1 K]]. cbv zeta in K. apply bind_ok in K as [files [K2 K]]. apply bind_ok in K as [ps [K3 K]]. injection K as <-.
      exists names, files, ps. split; [exact K1|]. split; [|split; [exact K3|reflexivity]]. apply mapM_iff in K2. exact (proj1 (Forall2_iff _ _ _ _ EQ) K2).
    - intros [names [files [ps [K1 [K2 [K3 ->]]]]]]. rewrite K1. cbn [bind]. cbv zeta.
      match goal with |- bind ?m _ = _ => replace m with (@Ok (list (dict string * res (R * R))) files) end.
      + cbn [bind]. rewrite K3. reflexivity.
      + symmetry. apply mapM_iff. exact (proj2 (Forall2_iff _ _ _ _ EQ) K2).
  Qed.

  Lemma calc_measured_iff (b : bicycle_obj E H) fs force b' fs' bench ex :
    calculate_from_measured other calc decode str b fs force = (b', fs', Ok (bench, ex)) <->
    exists m, measurements other decode str fs (os_join (bo_dir b) "RawData") (os_join (os_join (bo_dir b) "RawData") (bo_name b ++ "Measured.txt")) force m fs'
      /\ calc m = Ok (bench, ex) /\ b' = with_par b (dset (bo_par b) "Measured" m).
  Proof.
    unfold calculate_from_measured, measurements. cbv zeta. destruct (load_file other fs _) as [m0|e] eqn:L.
    2:{ split; [discriminate|]. intros [m [[m0 [R _]] _]]. apply load_file_iff in R. congruence. }
    apply load_file_iff in L. assert (U : forall m1, reads other fs (os_join (os_join (bo_dir b) "RawData") (bo_name b ++ "Measured.txt")) m1 -> m1 = m0).
    { intros m1 [t [A B]]. destruct L as [t' [A' B']]. congruence. }
    destruct (force || check_for_period m0 (is_fork_split m0)) eqn:C.
    - destruct (raw_periods decode fs _ _) as [ps|e] eqn:P.
      2:{ split; [discriminate|]. intros [m [[m1 [R K]] _]]. apply U in R. subst m1. apply orb_true_iff in C. destruct K as [[K1 [K2 _]]|[_ [ps [K _]]]]; [rewrite K1, K2 in C; destruct C; discriminate|].
          apply raw_periods_iff in K. congruence. }
      apply raw_periods_iff in P. assert (UP : forall q, recorded_periods decode fs (os_join (bo_dir b) "RawData") (is_fork_split m0) q -> q = ps).
      { intros q Q. apply raw_periods_iff in Q. apply raw_periods_iff in P. congruence. }
      destruct (write_periods_to_file str fs _ ps) as [fs1|e] eqn:W.
      + split.
        * intros K. injection K as <- <- K. exists (updated m0 ps). split; [|split; [exact K|reflexivity]]. exists m0. split; [exact L|]. right. split; [apply orb_true_iff, C|]. eauto.
        * intros [m [[m1 [R K]] [K2 ->]]]. apply U in R. subst m1. apply orb_true_iff in C. destruct K as [[K1 [K3 _]]|[_ [q [Q [-> K]]]]]; [rewrite K1, K3 in C; destruct C; discriminate|].
          apply UP in Q. subst q. rewrite W in K. injection K as ->. fold (updated m0 ps). rewrite K2. reflexivity.
      + split; [discriminate|]. intros [m [[m1 [R K]] [K2 _]]]. apply U in R. subst m1. apply orb_true_iff in C. destruct K as [[K1 [K3 _]]|[_ [q [Q [-> K]]]]]; [rewrite K1, K3 in C; destruct C; discriminate|].
        apply UP in Q. subst q. congruence.
    - apply orb_false_iff in C as [C1 C2]. split.
      + intros K. injection K as <- <- K. exists m0. split; [|split; [exact K|reflexivity]]. exists m0. split; [exact L|]. left. auto.
      + intros [m [[m1 [R K]] [K2 ->]]]. apply U in R. subst m1. destruct K as [[_ [_ [-> ->]]]|[[K|K] _]]; [rewrite K2; reflexivity|congruence|congruence].
  Qed.

  (* the three facts established before the decision *)
  Definition prelude (fs : fsys) (name dir : string) : res (list string * dict (dict pval) * bool) :=
    (entries <- listdir fs dir ;;
     ps <- (if smem "Parameters" entries then
              parFiles <- listdir fs (os_join dir "Parameters") ;;
              load_sets other fs (os_join dir "Parameters") parFiles []
            else Ok []) ;;
     isMeasuredFile <- (if smem "RawData" entries then
                          raw <- listdir fs (os_join dir "RawData") ;; Ok (smem (name ++ "Measured.txt") raw)
                        else Ok false) ;;
     Ok (entries, ps, isMeasuredFile)).
  Lemma prelude_ok fs name dir entries ps isM : prelude fs name dir = Ok (entries, ps, isM) ->
    has_dir fs dir /\ saved_sets other fs dir ps /\ (smem "RawData" entries = true <-> has_entry fs dir "RawData") /\
    (has_entry fs dir "RawData" -> has_dir fs (os_join dir "RawData")) /\
    (isM = true <-> has_entry fs dir "RawData" /\ has_entry fs (os_join dir "RawData") (name ++ "Measured.txt")).
  Proof.
    unfold prelude. intros K. apply bind_ok in K as [en [K1 K]]. apply bind_ok in K as [ps1 [K2 K]]. apply bind_ok in K as [im [K3 K]]. injection K as -> -> ->.
    apply listdir_ok in K1 as [D L]. split; [exact D|]. split; [|split; [|split]].
    - unfold saved_sets. destruct (smem "Parameters" entries) eqn:S.
      + apply smem_spec in S. apply L in S. left. split; [exact S|]. apply bind_ok in K2 as [names [K2 K2']]. apply load_sets_iff in K2' as [rows [F ->]]. exists names, rows. auto.
      + injection K2 as <-. right. split; [|reflexivity]. intros C. apply L in C. apply smem_spec in C. congruence.
    - rewrite smem_spec. apply L.
    - intros C. apply L in C. apply smem_spec in C. rewrite C in K3. apply bind_ok in K3 as [raw [K3 _]]. apply listdir_ok in K3. tauto.
    - destruct (smem "RawData" entries) eqn:S.
      + apply smem_spec in S. apply L in S. apply bind_ok in K3 as [raw [K3 K3']]. injection K3' as <-. apply listdir_ok in K3 as [_ L2]. rewrite smem_spec, L2. tauto.
      + injection K3 as <-. split; [discriminate|]. intros [C _]. apply L in C. apply smem_spec in C. congruence.
  Qed.
  Lemma prelude_intro fs name dir ps : has_dir fs dir -> saved_sets other fs dir ps -> (has_entry fs dir "RawData" -> has_dir fs (os_join dir "RawData")) ->
    exists entries isM, prelude fs name dir = Ok (entries, ps, isM).
  Proof.
    intros D S R. destruct (listdir_dir fs dir D) as [entries L]. exists entries. unfold prelude. rewrite L. cbn [bind]. apply listdir_ok in L as [_ L].
    assert (P : (if smem "Parameters" entries then parFiles <- listdir fs (os_join dir "Parameters") ;; load_sets other fs (os_join dir "Parameters") parFiles [] else Ok []) = Ok ps).
    { destruct S as [[S [names [rows [K1 [K2 ->]]]]]|[S ->]].
      - apply L in S. apply smem_spec in S. rewrite S. unfold listing in K1. rewrite K1. cbn [bind]. apply load_sets_iff. eauto.
      - destruct (smem "Parameters" entries) eqn:M; [|reflexivity]. apply smem_spec in M. apply L in M. tauto. }
    rewrite P. cbn [bind]. destruct (smem "RawData" entries) eqn:M; [|cbn [bind]; eexists; reflexivity]. apply smem_spec in M. apply L, R, listdir_dir in M as [raw M]. rewrite M. cbn [bind]. eexists. reflexivity.
  Qed.

  Lemma saved_sets_fun fs dir ps ps' : saved_sets other fs dir ps -> saved_sets other fs dir ps' -> ps = ps'.
  Proof.
    intros [[A [n [r [B [C ->]]]]]|[A ->]] [[A' [n' [r' [B' [C' ->]]]]]|[A' ->]]; try tauto; try reflexivity. unfold listing in *. assert (n = n') by congruence. subst n'. f_equal.
    clear -C C'. revert r' C'. induction C as [|f [k v] l l' [[w P] Q] F IH]; intros r' C'; inversion C' as [|f' [k' v'] l2 l2' [[w' P'] Q'] F' E1 E2]; [reflexivity|]. subst. cbn [fst snd] in *.
    rewrite (IH _ F'). apply load_file_iff in Q, Q'. congruence.
  Qed.

  Theorem new_bicycle_iff fs name data fr fp (b : bicycle_obj E H) fs' : no_io other ->
    new_bicycle H other calc decode str fs name data fr fp = (Ok b, fs') <-> builds other calc decode str fs name data fr fp b fs'.
  Proof.
    intros NIO. unfold new_bicycle. cbv zeta. set (dir := os_join (os_join data "bicycles") name). fold (prelude fs name dir).
    destruct (isdir fs dir) eqn:D; cbn [negb].
    2:{ split; [discriminate|]. intros [d r m ps par ex -> -> -> K _]. apply isdir_iff in K. fold dir in K. congruence. }
    destruct (prelude fs name dir) as [[[entries ps] isM]|e] eqn:P.
    2:{ split; [discriminate|]. intros [d r m ps par ex -> -> -> K1 K2 K3 _ _]. destruct (prelude_intro fs name dir ps K1 K2 K3) as [en [im Q]]. congruence. }
    apply prelude_ok in P as [P1 [P2 [P3 [P4 P5]]]].
    set (b0 := mkbike name dir false None [] None ps None).
    assert (PB : dmem ps "Benchmark" = true <-> In "Benchmark" (dkeys ps)).
    { rewrite dget_some_in. unfold dmem. destruct (dget ps "Benchmark"); split; intros K; [eauto|reflexivity|discriminate|destruct K; discriminate]. }
    destruct (fr && smem "RawData" entries && isM || negb fr && negb (dmem ps "Benchmark")) eqn:C.
    - assert (CC : (fr = true /\ has_entry fs dir "RawData" /\ has_entry fs (os_join dir "RawData") (name ++ "Measured.txt")) \/ (fr = false /\ ~ In "Benchmark" (dkeys ps))).
      { apply orb_true_iff in C as [C|C]; apply andb_true_iff in C as [C1 C2].
        - apply andb_true_iff in C1 as [C1 C3]. left. split; [exact C1|]. apply P5, C2.
        - right. apply negb_true_iff in C1, C2. split; [exact C1|]. rewrite <- PB. congruence. }
      destruct (calculate_from_measured other calc decode str b0 fs fp) as [[b' fs1] [[bench ex]|e]] eqn:K.
      + apply calc_measured_iff in K as [m [K1 [K2 ->]]]. split.
        * intros Q. injection Q as <- <-. eapply builds_intro with (ps := ps); [reflexivity|reflexivity|reflexivity|exact P1|exact P2|exact P4|reflexivity|]. right. left. split; [exact CC|]. exists m, bench, ex. split; [exact K1|]. split; [exact K2|]. split; reflexivity.
        * intros [d r mf ps' par ex' -> -> -> Q1 Q2 Q3 -> Q4]. pose proof (saved_sets_fun _ _ _ _ P2 Q2). subst ps'. destruct Q4 as [Q4|[[_ [m' [bench' [ex2 [Q5 [Q6 [-> ->]]]]]]]|Q4]].
          -- exfalso. intuition congruence.
          -- cbn [bo_dir bo_name] in K1. assert (m' = m /\ fs' = fs1) as [-> ->].
             { assert (X : calculate_from_measured other calc decode str b0 fs fp = (with_par b0 (dset ps "Measured" m), fs1, Ok (bench, ex))) by (apply calc_measured_iff; exists m; auto).
               assert (Y : calculate_from_measured other calc decode str b0 fs fp = (with_par b0 (dset ps "Measured" m'), fs', Ok (bench', ex2))) by (apply calc_measured_iff; exists m'; auto).
               rewrite X in Y. injection Y as Y1 Y2 _ _. split; [|congruence]. assert (Z : dget (dset ps "Measured" m) "Measured" = dget (dset ps "Measured" m') "Measured") by (rewrite Y1; reflexivity).
               rewrite !dget_dset_eq in Z. congruence. }
             rewrite K2 in Q6. injection Q6 as -> ->. reflexivity.
          -- exfalso. intuition congruence.
      + split; [discriminate|]. intros [d r mf ps' par ex' -> -> -> Q1 Q2 Q3 -> Q4]. pose proof (saved_sets_fun _ _ _ _ P2 Q2). subst ps'. destruct Q4 as [Q4|[[_ [m' [bench' [ex2 [Q5 [Q6 _]]]]]]|Q4]]; [exfalso; intuition congruence| |exfalso; intuition congruence].
        assert (Y : calculate_from_measured other calc decode str b0 fs fp = (with_par b0 (dset ps "Measured" m'), fs', Ok (bench', ex2))) by (apply calc_measured_iff; exists m'; auto). congruence.
    - apply orb_false_iff in C as [C1 C2]. destruct (negb fr && dmem ps "Benchmark") eqn:C3.
      + apply andb_true_iff in C3 as [C3 C4]. apply negb_true_iff in C3. apply PB in C4.
        destruct (load_file other fs _) as [m|e] eqn:L.
        * apply load_file_iff in L. split.
          -- intros Q. injection Q as <- <-. eapply builds_intro with (ps := ps); [reflexivity|reflexivity|reflexivity|exact P1|exact P2|exact P4|reflexivity|]. left. repeat (split; [assumption||reflexivity|]). right. exists m. split; [exact L|reflexivity].
          -- intros [d r mf ps' par ex' -> -> -> Q1 Q2 Q3 -> Q4]. pose proof (saved_sets_fun _ _ _ _ P2 Q2). subst ps'. destruct Q4 as [[_ [_ [-> [-> [[Q4 _]|[m' [Q4 ->]]]]]]]|[Q4|Q4]].
             ++ exfalso. apply Q4. destruct L as [t [L _]]. apply dget_some_in. eauto.
             ++ apply load_file_iff in Q4, L. fold dir in Q4. assert (m' = m) by congruence. subst. reflexivity.
             ++ exfalso. destruct Q4 as [[[Q4 _]|[_ Q4]] _]; [congruence|tauto].
             ++ destruct Q4. congruence.
        * assert (X : e = IOError -> no_file fs (os_join (os_join dir "RawData") (name ++ "Measured.txt"))) by (intros ->; apply load_file_io in L; assumption).
          assert (Y : forall ps' par, no_file fs (os_join (os_join dir "RawData") (name ++ "Measured.txt")) /\ par = ps' \/ (exists m, reads other fs (os_join (os_join dir "RawData") (name ++ "Measured.txt")) m /\ par = updated ps' [("Measured", m)]) -> e = IOError /\ par = ps').
          { intros ps' par [[Y ->]|[m [Y _]]]; [|apply load_file_iff in Y; congruence]. apply (load_file_io other) in Y; [|assumption]. split; congruence. }
          split.
          -- intros Q. assert (e = IOError /\ b = b0 /\ fs' = fs) as [-> [-> ->]] by (destruct e; try discriminate; injection Q; auto).
             eapply builds_intro with (ps := ps); [reflexivity|reflexivity|reflexivity|exact P1|exact P2|exact P4|reflexivity|]. left. repeat (split; [assumption||reflexivity|]). left. split; [apply X; reflexivity|reflexivity].
          -- intros [d r mf ps' par ex' -> -> -> Q1 Q2 Q3 -> Q4]. pose proof (saved_sets_fun _ _ _ _ P2 Q2). subst ps'. destruct Q4 as [[_ [_ [-> [-> Q4]]]]|[Q4|Q4]].
             ++ apply Y in Q4 as [-> ->]. reflexivity.
             ++ exfalso. destruct Q4 as [[[Q4 _]|[_ Q4]] _]; [congruence|tauto].
             ++ destruct Q4. congruence.
      + destruct fr; cbn [negb andb] in *.
        2:{ exfalso. destruct (dmem ps "Benchmark"); discriminate. }
        assert (N : ~ (has_entry fs dir "RawData" /\ has_entry fs (os_join dir "RawData") (name ++ "Measured.txt"))).
        { intros K. pose proof (proj2 P5 K). destruct K as [K _]. apply P3 in K. rewrite K, H0 in C1. discriminate. }
        split.
        * intros Q. injection Q as <- <-. eapply builds_intro with (ps := ps); [reflexivity|reflexivity|reflexivity|exact P1|exact P2|exact P4|reflexivity|]. right. right. repeat (split; [assumption||reflexivity|]). reflexivity.
        * intros [d r mf ps' par ex' -> -> -> Q1 Q2 Q3 -> Q4]. pose proof (saved_sets_fun _ _ _ _ P2 Q2). subst ps'. destruct Q4 as [[Q4 _]|[[[Q4|[Q4 _]] _]|[_ [_ [-> [-> ->]]]]]]; [discriminate|tauto|discriminate|reflexivity].
  Qed.
End New.
