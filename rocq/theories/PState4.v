(* PState4.v -- lemmas for C45: saving and loading again *)
From Verif Require Import Base MString MIo MPeriod MMain SIo MState SState PBase PString PIo PIo3 PIo4 PIo5 PIo6 PState PState2 PState3.
Local Open Scope string_scope.

Lemma printable_loads other str d : printable other str d -> exists d', load_text other (par_text str d) = Ok d' /\ forall k, dget d' k = dget d k.
Proof.
  intros [N P]. exists (map (fun kv => (fst kv, snd kv)) (sorted_items d)). split; [apply (load_par_text other str (fun v => v)); assumption|].
  intros k. rewrite <- (sorted_items_get d k N). induction (sorted_items d) as [|[q v] l IH]; [reflexivity|]. cbn [map dget fst snd]. destruct (String.eqb k q); [reflexivity|exact IH].
Qed.

Section S.
  Variables E H : Type.
  Variable other : string -> res (R * R).
  Variable calc : dict pval -> res (dict pval * E).
  Variable decode : string -> res (dict string * res (R * R)).
  Variable str : pval -> string.
  Notation bike := (bicycle_obj E H).

  Lemma save_text (b : bike) fs answers : bo_hasRider b = false ->
    save_parameters str b fs answers "text" = save_sets str fs answers (os_join (bo_dir b) "Parameters") None (bo_name b) (not_measured (bo_par b)) (bo_par b) (bo_par b).
  Proof. intros N. unfold save_parameters. cbv zeta. rewrite N. cbn [String.eqb Ascii.eqb Bool.eqb]. reflexivity. Qed.

  Lemma not_measured_in {V} (d : dict V) s : In s (not_measured d) <-> In s (dkeys d) /\ s <> "Measured".
  Proof. unfold not_measured. rewrite filter_In, negb_true_iff, String.eqb_neq. reflexivity. Qed.

  Lemma bike_dir_plain data name : camel_word name -> plain (os_join (os_join data "bicycles") name).
  Proof.
    intros C. unfold os_join at 1. rewrite free_slash_start by apply camel_free_slash, C. pose proof (camel_plain name C) as P.
    destruct (_ || _); [apply plain_snoc, P|]. apply plain_snoc. apply (plain_snoc "/"), P.
  Qed.
  Lemma params_plain d : plain d -> os_join d "Parameters" = d ++ "/Parameters" /\ plain (d ++ "/Parameters").
  Proof.
    intros P. split; [apply os_join_plain; [exact P|reflexivity]|]. apply plain_snoc. exists "/Parameter", "s"%char. split; [reflexivity|discriminate].
  Qed.
  Lemma listing_none fs d : has_dir fs d -> (forall n, ~ has_entry fs d n) -> listdir fs d = Ok [].
  Proof.
    intros D N. destruct (listdir_dir fs d D) as [[|n names] L]; [exact L|]. exfalso. apply listdir_ok in L as [_ L]. apply (N n), L. left. reflexivity.
  Qed.
  Lemma listing_new fs fs' d n t : has_dir fs d -> (forall m, ~ has_entry fs d m) -> n <> "" -> free slash n ->
    fs_dirs fs' = fs_dirs fs -> fs_files fs' = app (fs_files fs) [(d ++ "/" ++ n, t)] -> listdir fs' d = Ok [n].
  Proof.
    intros D N1 N2 F E1 E2. pose proof (listing_none fs d D N1) as L. unfold listdir, isdir in *. rewrite E1, E2. destruct (smem d (fs_dirs fs)); [|discriminate]. injection L as L.
    unfold dkeys in *. rewrite map_app, app_assoc, flat_map_app, L. cbn [map fst flat_map app]. rewrite (proj2 (entry_of_iff d (d ++ "/" ++ n) n)) by auto. reflexivity.
  Qed.

  (* saving one parameter set and building the bicycle again *)
  Lemma save_load_one (b : bike) fs answers data d fp : no_io other -> camel_word (bo_name b) -> bo_hasRider b = false ->
    bo_dir b = os_join (os_join data "bicycles") (bo_name b) ->
    not_measured (bo_par b) = ["Benchmark"] -> dget (bo_par b) "Benchmark" = Some d -> printable other str d ->
    has_dir fs (bo_dir b) -> has_dir fs (bo_dir b ++ "/Parameters") -> (forall n, ~ has_entry fs (bo_dir b ++ "/Parameters") n) -> ~ has_entry fs (bo_dir b) "RawData" ->
    no_file fs (os_join (os_join (bo_dir b) "RawData") (bo_name b ++ "Measured.txt")) ->
    exists fs' d', save_parameters str b fs answers "text" = (Ok tt, fs', answers) /\
      new_bicycle H other calc decode str fs' (bo_name b) data false fp = (Ok (mkbike (bo_name b) (bo_dir b) false None [] None [("Benchmark", d')] None), fs') /\
      forall k, dget d' k = dget d k.
  Proof.
    intros NIO C NR Ed NM Gd Pr D Dp Ne Nr Nf. pose proof (bike_dir_plain data (bo_name b) C) as PD. rewrite <- Ed in PD. destruct (params_plain _ PD) as [Ej Pp].
    rewrite save_text by exact NR. rewrite NM, Ej.
    set (fname := bo_name b ++ "Benchmark" ++ ".txt"). assert (G0 : grown_name (bo_name b) ["Benchmark"] 0 = fname) by (apply grown_0).
    assert (Ff : free slash fname) by (unfold fname; rewrite free_app; split; [apply camel_free_slash, C|]; intros K; cbn in K; repeat (destruct K as [K|K]; [discriminate|]); exact K).
    assert (Nn : fname <> "") by (unfold fname; intros K; apply sapp_eq_nil in K as [_ K]; discriminate).
    assert (Fresh : no_file fs (bo_dir b ++ "/Parameters" ++ "/" ++ fname) /\ ~ has_dir fs (bo_dir b ++ "/Parameters" ++ "/" ++ fname)).
    { split; intros K; apply (Ne fname); (split; [exact Nn|]; split; [exact Ff|]); rewrite sapp_assoc; [right|left]; exact K. }
    destruct (save_sets_new str fs answers (bo_dir b ++ "/Parameters") (bo_name b) ["Benchmark"] (bo_par b) (bo_par b)) as [fs' [W [Dr [Ct [Ot [new [En Mn]]]]]]]; try assumption.
    { apply camel_free_slash, C. }
    { intros s [<-|[]]. split; [intros K; cbn in K; repeat (destruct K as [K|K]; [discriminate|]); exact K|]. apply dget_some_in. eauto. }
    { intros i L. cbn in L. replace i with 0%nat by lia. rewrite G0, sapp_assoc. exact Fresh. }
    exists fs'. pose proof (Ct 0%nat "Benchmark" d eq_refl Gd) as Fc. rewrite G0 in Fc.
    cbn [length seq map] in Mn. rewrite G0 in Mn. destruct new as [|[k t] [|? ?]]; try discriminate. injection Mn as ->.
    assert (t = par_text str d) as ->.
    { rewrite En in Fc. rewrite <- dset_fresh in Fc by (rewrite sapp_assoc; apply Fresh). rewrite dget_dset_eq in Fc. congruence. }
    destruct (printable_loads other str d Pr) as [d' [L1 L2]]. exists d'. split; [exact W|]. split; [|exact L2].
    assert (DR : has_entry fs' (bo_dir b) "RawData" -> False).
    { intros [_ [_ K]]. rewrite Dr, En in K. unfold dkeys in K. rewrite map_app, in_app_iff in K. cbn [map fst In] in K. destruct K as [K|[K|[K|[]]]].
      - apply Nr. split; [discriminate|]. split; [|left; exact K]. intros Q; cbn in Q; repeat (destruct Q as [Q|Q]; [discriminate|]); exact Q.
      - apply Nr. split; [discriminate|]. split; [|right; exact K]. intros Q; cbn in Q; repeat (destruct Q as [Q|Q]; [discriminate|]); exact Q.
      - rewrite sapp_assoc in K. apply sapp_inj_l in K. discriminate. }
    apply new_bicycle_iff; [exact NIO|]. eapply builds_intro with (ps := [("Benchmark", d')]); [exact Ed|reflexivity|reflexivity| | | |reflexivity|].
    - unfold has_dir. rewrite Dr. exact D.
    - left. split.
      + split; [discriminate|]. split; [intros Q; cbn in Q; repeat (destruct Q as [Q|Q]; [discriminate|]); exact Q|]. left. rewrite Dr. exact Dp.
      + exists [fname], [("Benchmark", d')]. rewrite Ej. split; [|split; [|reflexivity]].
        * eapply listing_new with (fs := fs); try eassumption.
        * constructor; [|constructor]. split.
          -- exists (bo_name b). apply two_words; [exact C| |intros K; cbn in K; repeat (destruct K as [K|K]; [discriminate|]); exact K].
             exists "B"%char, "e"%char, "nchmark". split; [reflexivity|]. split; [unfold upper; cbv; lia|]. split; [unfold lower; cbv; lia|]. intros x K. cbn in K. unfold lower. repeat (destruct K as [<-|K]; [cbv; lia|]). destruct K.
          -- exists (par_text str d). split; [|exact L1]. rewrite os_join_plain; [exact Fc|exact Pp|apply free_slash_start, Ff].
    - intros K. destruct (DR K).
    - left. split; [reflexivity|]. split; [left; reflexivity|]. split; [reflexivity|]. split; [reflexivity|]. left. split; [|reflexivity].
      intros K. apply dget_some_in in K as [v K]. rewrite Ot in K.
      + apply Nf, dget_some_in. eauto.
      + intros i _ Q. assert (X : os_join (bo_dir b) "RawData" = bo_dir b ++ "/RawData") by (apply os_join_plain; [exact PD|reflexivity]). rewrite X in Q. rewrite os_join_plain in Q.
        * rewrite !sapp_assoc in Q. apply sapp_inj_l in Q. discriminate.
        * apply plain_snoc. exists "/RawDat", "a"%char. split; [reflexivity|discriminate].
        * apply free_slash_start. rewrite free_app. split; [apply camel_free_slash, C|]. intros Z; cbn in Z; repeat (destruct Z as [Z|Z]; [discriminate|]); exact Z.
  Qed.

  Lemma ancestors_mid a b : In a (ancestors (a ++ "/" ++ b)).
  Proof.
    induction a as [|c a IH]; [left; reflexivity|]. cbn [append ancestors]. apply in_or_app. right. apply in_map. exact IH.
  Qed.
  Lemma makedirs_full fs a b fs1 : a <> "" -> makedirs fs (a ++ "/" ++ b) = Ok fs1 -> fs_files fs1 = fs_files fs /\ has_dir fs1 a /\ has_dir fs1 (a ++ "/" ++ b) /\
    (forall q, has_dir fs1 q -> has_dir fs q \/ q = a ++ "/" ++ b \/ In q (ancestors (a ++ "/" ++ b))) /\ (forall q, has_dir fs q -> has_dir fs1 q).
  Proof.
    intros N. unfold makedirs. destruct (String.eqb _ ""); [discriminate|]. destruct (existsb _ _); [discriminate|]. intros K. injection K as <-. split; [reflexivity|]. unfold has_dir. cbn [fs_dirs]. split; [|split; [|split]].
    - destruct (isdir fs a) eqn:D.
      + right. apply in_or_app. right. apply isdir_iff in D. exact D.
      + right. apply in_or_app. left. apply filter_In. split; [apply ancestors_mid|]. rewrite D. apply String.eqb_neq in N. rewrite N. reflexivity.
    - left. reflexivity.
    - intros q [<-|K]; [auto|]. apply in_app_or in K as [K|K]; [|auto]. apply filter_In in K as [K _]. auto.
    - intros q K. right. apply in_or_app. right. exact K.
  Qed.
  Lemma ancestors_len p q : In q (ancestors p) -> (String.length q < String.length p)%nat.
  Proof.
    revert q. induction p as [|c p IH]; intros q K; [destruct K|]. cbn [ancestors] in K. apply in_app_or in K as [K|K].
    - destruct (Ascii.eqb c slash); [|destruct K]. destruct K as [<-|[]]. cbn. lia.
    - apply in_map_iff in K as [r [<- K]]. apply IH in K. cbn. lia.
  Qed.

  (* with a rider: two files for the one set *)
  Lemma save_rider (b : bike) fs fs1 answers rn set rp both : bo_hasRider b = true -> bo_riderName b = Some rn ->
    camel_word rn -> camel_word (bo_name b) -> camel_word set -> bo_riderPar b = [(set, rp)] -> set <> "Measured" -> dget (bo_par b) set = Some both ->
    let parDir := os_join (rider_dir b rn) "Parameters" in let fname := rn ++ bo_name b ++ set ++ ".txt" in
    (has_dir fs parDir /\ has_dir fs (parDir ++ "/Combined") /\ fs1 = fs \/
     ~ has_dir fs (parDir ++ "/Combined") /\ no_file fs (parDir ++ "/Combined") /\ makedirs fs (parDir ++ "/Combined") = Ok fs1) ->
    no_file fs (parDir ++ "/" ++ fname) -> ~ has_dir fs1 (parDir ++ "/" ++ fname) ->
    no_file fs (parDir ++ "/Combined/" ++ fname) -> ~ has_dir fs1 (parDir ++ "/Combined/" ++ fname) ->
    exists fs', save_parameters str b fs answers "text" = (Ok tt, fs', answers) /\ fs_dirs fs' = fs_dirs fs1 /\
      dget (fs_files fs') (parDir ++ "/" ++ fname) = Some (par_text str rp) /\
      dget (fs_files fs') (parDir ++ "/Combined/" ++ fname) = Some (par_text str both) /\
      forall q, q <> parDir ++ "/" ++ fname -> q <> parDir ++ "/Combined/" ++ fname -> dget (fs_files fs') q = dget (fs_files fs) q.
  Proof.
    intros HR HN Crn Cn Cs RP NM GB parDir fname Dirs F1 D1 F2 D2.
    assert (Pr : plain (rider_dir b rn)).
    { unfold rider_dir. unfold os_join at 1. rewrite free_slash_start by apply camel_free_slash, Crn. pose proof (camel_plain rn Crn) as P. destruct (_ || _); [apply plain_snoc, P|]. apply plain_snoc, (plain_snoc "/"), P. }
    destruct (params_plain _ Pr) as [Ej Pp]. fold parDir in Ej. rewrite <- Ej in Pp.
    assert (Ec : os_join parDir "Combined" = parDir ++ "/Combined") by (apply os_join_plain; [exact Pp|reflexivity]).
    assert (Pc : plain (parDir ++ "/Combined")) by (apply plain_snoc; exists "/Combine", "d"%char; split; [reflexivity|discriminate]).
    assert (Hfs : fs_files fs1 = fs_files fs /\ has_dir fs1 parDir /\ has_dir fs1 (parDir ++ "/Combined")).
    { destruct Dirs as [[A [B ->]]|[A [B C]]]; [auto|]. change (parDir ++ "/Combined") with (parDir ++ "/" ++ "Combined") in C. apply makedirs_full in C as [C1 [C2 [C3 _]]]; [auto|]. apply plain_ends in Pp as [Pp _]. exact Pp. }
    destruct Hfs as [Hf [Hp Hc]].
    assert (Ff : free slash fname) by (unfold fname; rewrite !free_app; repeat split; try (apply camel_free_slash; assumption); intros K; cbn in K; repeat (destruct K as [K|K]; [discriminate|]); exact K).
    assert (Nn : fname <> "") by (unfold fname; intros K; apply sapp_eq_nil in K as [_ K]; apply sapp_eq_nil in K as [_ K]; apply sapp_eq_nil in K as [_ K]; discriminate).
    assert (NoF : forall fs0 p, no_file fs0 p -> dget (fs_files fs0) p = None) by (intros fs0 p K; destruct (dget (fs_files fs0) p) eqn:G; [exfalso; apply K, dget_some_in; eauto|reflexivity]).
    assert (NoD : forall fs0 p, ~ has_dir fs0 p -> isdir fs0 p = false) by (intros fs0 p K; destruct (isdir fs0 p) eqn:G; [apply isdir_iff in G; tauto|reflexivity]).
    unfold save_parameters. cbv zeta. rewrite HR, HN. fold (data_dir b) (rider_dir b rn). fold parDir. rewrite Ec.
    assert (M : (if path_exists fs (parDir ++ "/Combined") then Ok fs else makedirs fs (parDir ++ "/Combined")) = Ok fs1).
    { unfold path_exists. destruct Dirs as [[A [B ->]]|[A [B C]]].
      - apply isdir_iff in B. rewrite B. reflexivity.
      - rewrite NoD by exact A. unfold dmem. rewrite NoF by exact B. exact C. }
    rewrite M. cbn [String.eqb Ascii.eqb Bool.eqb]. rewrite RP. cbn [dkeys map fst filter]. replace (negb (String.eqb set "Measured")) with true by (symmetry; apply negb_true_iff, String.eqb_neq, NM).
    cbn [save_sets]. unfold dlook. cbn [dget]. rewrite String.eqb_refl. rewrite GB.
    replace ((rn ++ bo_name b) ++ set ++ ".txt") with fname by (unfold fname; rewrite sapp_assoc; reflexivity).
    rewrite !os_join_plain by (assumption || apply free_slash_start, Ff).
    rewrite write_new_full; try assumption; [|apply NoD, D1|rewrite Hf; apply NoF, F1].
    set (fs2 := {| fs_dirs := fs_dirs fs1; fs_files := app (fs_files fs1) [(parDir ++ "/" ++ fname, par_text str rp)] |}).
    assert (Ne : parDir ++ "/Combined/" ++ fname <> parDir ++ "/" ++ fname).
    { intros K. apply sapp_inj_l in K. apply (f_equal String.length) in K. rewrite !slen_app in K. cbn in K. lia. }
    assert (G2 : forall q, dget (fs_files fs2) q = if String.eqb q (parDir ++ "/" ++ fname) then Some (par_text str rp) else dget (fs_files fs) q).
    { intros q. unfold fs2. cbn [fs_files]. rewrite Hf. rewrite <- dset_fresh by exact F1. apply dget_dset. }
    assert (X : (parDir ++ "/Combined") ++ "/" ++ fname = parDir ++ "/Combined/" ++ fname) by (rewrite sapp_assoc; reflexivity).
    assert (F2' : dget (fs_files fs2) (parDir ++ "/Combined/" ++ fname) = None).
    { rewrite G2. apply String.eqb_neq in Ne. rewrite Ne. apply NoF, F2. }
    rewrite (write_new_full str fs2 answers (parDir ++ "/Combined") fname both); [|exact Pc|exact Hc|exact Ff|exact Nn|rewrite X; apply (NoD fs1), D2|rewrite X; exact F2'].
    eexists. split; [reflexivity|]. cbn [fs_dirs fs_files]. split; [reflexivity|]. rewrite X.
    assert (G3 : forall q, dget (app (fs_files fs2) [(parDir ++ "/Combined/" ++ fname, par_text str both)]) q = if String.eqb q (parDir ++ "/Combined/" ++ fname) then Some (par_text str both) else dget (fs_files fs2) q).
    { intros q. rewrite <- dset_fresh; [apply dget_dset|]. intros K. apply dget_some_in in K as [v K]. congruence. }
    split; [|split].
    - rewrite G3. assert (Q : parDir ++ "/" ++ fname <> parDir ++ "/Combined/" ++ fname) by (intros K; apply Ne; symmetry; exact K). apply String.eqb_neq in Q. rewrite Q, G2, String.eqb_refl. reflexivity.
    - rewrite G3, String.eqb_refl. reflexivity.
    - intros q Q1 Q2. rewrite G3, G2. apply String.eqb_neq in Q1, Q2. rewrite Q1, Q2. reflexivity.
  Qed.
End S.
