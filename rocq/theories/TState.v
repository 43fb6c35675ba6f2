(* TState.v -- theorems for C43-C45 (class Bicycle of bicycleparameters/main.py) *)
From Verif Require Import Base MString MIo MPeriod MMain SIo MState SState PBase PString PIo PIo3 PIo4 PIo5 PIo6 SIo3 PIo7 PState PState2 PState3 PState4.
From Coq Require Import Lra.
Local Open Scope string_scope.

(* ================= C43 ================= *)

(* The decision table: Bicycle(...) returns b and leaves the files fs' exactly in
   the cases of [builds] (SState.v).  [calc] is the calculation from measurements,
   [decode] the content of a data file, [other] the other notations of the
   uncertainties package (no_io: it opens no files), [str] Python's str(). *)
Theorem C43_decision_table : forall (E H : Type) other (calc : dict pval -> res (dict pval * E)) decode str fs name data forceRaw forcePeriod (b : bicycle_obj E H) fs',
  no_io other ->
  new_bicycle H other calc decode str fs name data forceRaw forcePeriod = (Ok b, fs') <->
  builds other calc decode str fs name data forceRaw forcePeriod b fs'.
Proof. intros. apply new_bicycle_iff. assumption. Qed.
Print Assumptions C43_decision_table.

(* Without a directory for the bicycle: ValueError, nothing is touched. *)
Theorem C43_no_directory : forall (E H : Type) other (calc : dict pval -> res (dict pval * E)) decode str fs name data forceRaw forcePeriod,
  ~ has_dir fs (os_join (os_join data "bicycles") name) ->
  new_bicycle H other calc decode str fs name data forceRaw forcePeriod = (Err (ValueError "Are you nuts?!"), fs).
Proof. intros. apply no_dir_raises. assumption. Qed.
Print Assumptions C43_no_directory.

(* Nothing to load and nothing to calculate from: an exception, not an empty bicycle. *)
Theorem C43_nothing_available_raises : forall (E H : Type) other (calc : dict pval -> res (dict pval * E)) decode str fs name data forcePeriod dir ps,
  no_io other -> dir = os_join (os_join data "bicycles") name -> has_dir fs dir -> saved_sets other fs dir ps -> ~ In "Benchmark" (dkeys ps) ->
  no_file fs (os_join (os_join dir "RawData") (name ++ "Measured.txt")) ->
  exists e, new_bicycle H other calc decode str fs name data false forcePeriod = (Err e, fs).
Proof.
  intros E H other calc decode str fs name data fp dir ps NIO -> D S NB NF.
  destruct (new_bicycle H other calc decode str fs name data false fp) as [[b|e] fs'] eqn:K.
  - exfalso. apply new_bicycle_iff in K; [|exact NIO]. destruct K as [d r m ps' par ex -> -> -> _ S' _ _ C].
    pose proof (saved_sets_fun other decode fs _ _ _ S S'). subst ps'. destruct C as [C|[C|C]]; [tauto| |destruct C; discriminate].
    destruct C as [_ [m [bench [ex2 [[m0 [[t [G _]] _]] _]]]]]. apply NF, dget_some_in. eauto.
  - exists e. f_equal. revert K. unfold new_bicycle. cbv zeta. apply isdir_iff in D. rewrite D. cbn [negb]. fold (prelude other fs name (os_join (os_join data "bicycles") name)).
    destruct (prelude other fs name (os_join (os_join data "bicycles") name)) as [[[en ps'] im]|e'] eqn:P; [|intros K; congruence]. apply (prelude_ok other decode) in P as [_ [S' _]].
    pose proof (saved_sets_fun other decode fs _ _ _ S S'). subst ps'. replace (dmem ps "Benchmark") with false.
    2:{ symmetry. unfold dmem. destruct (dget ps "Benchmark") eqn:G; [|reflexivity]. exfalso. apply NB, dget_some_in. eauto. }
    cbn [negb andb orb]. unfold calculate_from_measured. cbv zeta. cbn [bo_dir bo_name]. rewrite (proj2 (load_file_io other fs _ NIO) NF). intros K. congruence.
Qed.
Print Assumptions C43_nothing_available_raises.

(* A file in Parameters whose name does not consist of two words makes every
   construction fail. *)
Theorem C43_bad_file_name_raises : forall (E H : Type) other (calc : dict pval -> res (dict pval * E)) decode str fs name data forceRaw forcePeriod dir n,
  dir = os_join (os_join data "bicycles") name -> has_dir fs dir -> has_entry fs dir "Parameters" -> has_entry fs (os_join dir "Parameters") n ->
  (forall a b, space_out_camel_case (splitext0 n) "list" <> Ok (CList [a; b])) ->
  exists e, new_bicycle H other calc decode str fs name data forceRaw forcePeriod = (Err e, fs).
Proof. intros. eapply bad_name_raises; eassumption. Qed.
Print Assumptions C43_bad_file_name_raises.
(* and this is how the set is taken from the name *)
Theorem C43_file_name : forall bike set, camel_word bike -> camel_word set ->
  space_out_camel_case (splitext0 (bike ++ set ++ ".txt")) "list" = Ok (CList [bike; set]).
Proof. intros. apply two_words; try assumption. intros [K|[K|[K|[]]]]; discriminate. Qed.
Print Assumptions C43_file_name.

(* Whatever happens, no file but the file of measurements changes. *)
Theorem C43_only_measurements_file_changes : forall (E H : Type) other (calc : dict pval -> res (dict pval * E)) decode str fs name data forceRaw forcePeriod out fs',
  new_bicycle H other calc decode str fs name data forceRaw forcePeriod = (out, fs') ->
  fs_dirs fs' = fs_dirs fs /\
  forall q, q <> os_join (os_join (os_join (os_join data "bicycles") name) "RawData") (name ++ "Measured.txt") -> dget (fs_files fs') q = dget (fs_files fs) q.
Proof. intros. eapply new_files. eassumption. Qed.
Print Assumptions C43_only_measurements_file_changes.

(* listings are what they should be *)
Theorem C43_listing : forall fs d names, listing fs d names -> has_dir fs d /\ forall n, In n names <-> has_entry fs d n.
Proof. exact listdir_ok. Qed.
Print Assumptions C43_listing.

Definition nl := String NL "".
Definition demo_files : fsys :=
  {| fs_dirs := ["d"; "d/bicycles"; "d/bicycles/Stratos"; "d/bicycles/Stratos/Parameters"; "d/bicycles/Stratos/RawData"; "d/bicycles/Pista"; "d/bicycles/Pista/RawData"];
     fs_files := [("d/bicycles/Stratos/Parameters/StratosBenchmark.txt", "w = 1" ++ nl); ("d/bicycles/Stratos/RawData/StratosMeasured.txt", "mB = 2" ++ nl)] |}.
Definition demo_other (s : string) : res (R * R) := Err (ValueError "").
Definition demo_calc (m : dict pval) : res (dict pval * unit) := Ok (m, tt).
Definition demo_decode (t : string) : res (dict string * res (R * R)) := Err (ValueError "").
Definition demo_str (v : pval) : string := "1".
Example C43_example : exists b,
  new_bicycle unit demo_other demo_calc demo_decode demo_str demo_files "Stratos" "d" false false = (Ok b, demo_files)
  /\ dkeys (bo_par b) = ["Benchmark"; "Measured"] /\ bo_extras b = None.
Proof. cbv -[Rmult Rdiv Rplus Rinv IZR powerRZ INR]. eexists. split; [reflexivity|]. split; reflexivity. Qed.
Example C43_example_missing :
  new_bicycle unit demo_other demo_calc demo_decode demo_str demo_files "Pista" "d" false false = (Err IOError, demo_files)
  /\ exists b, new_bicycle unit demo_other demo_calc demo_decode demo_str demo_files "Pista" "d" true false = (Ok b, demo_files) /\ bo_par b = [].
Proof. split; [reflexivity|]. eexists. split; reflexivity. Qed.

(* ================= C44 ================= *)

(* add_rider succeeds exactly when the rider's parameters can be read or
   calculated and combined, and then the bicycle is the ridden one. *)
Theorem C44_success : forall (E H : Type) other combine (configure : string -> string -> dict pval -> dict pval -> bool -> res (dict pval * H)) (b : bicycle_obj E H) c b',
  no_io other -> bo_hasRider b = false ->
  add_rider other combine configure b (rc_fs c) (rc_name c) (rc_recalc c) (rc_draw c) = (b', Ok tt) <-> ridden other combine configure b c b'.
Proof. intros. apply call_ok_iff; assumption. Qed.
Print Assumptions C44_success.

(* what the ridden bicycle is *)
Theorem C44_ridden_bicycle : forall (E H : Type) other combine (configure : string -> string -> dict pval -> dict pval -> bool -> res (dict pval * H)) (b : bicycle_obj E H) c b',
  ridden other combine configure b c b' ->
  bo_hasRider b' = true /\ bo_riderName b' = Some (rc_name c) /\ bo_name b' = bo_name b /\ bo_dir b' = bo_dir b /\
  (exists bench rp both, dget (bo_par b) "Benchmark" = Some bench /\ combine bench rp = Ok both /\ dget (bo_par b') "Benchmark" = Some both /\ dget (bo_riderPar b') "Benchmark" = Some rp) /\
  forall k, k <> "Benchmark" -> dget (bo_par b') k = dget (bo_par b) k.
Proof.
  intros E H other combine configure b c b' [bench [rp [hu [both [A [B [C ->]]]]]]]. cbn [bo_hasRider bo_riderName bo_name bo_dir bo_par bo_riderPar]. repeat (split; [reflexivity|]). split.
  - exists bench, rp, both. split; [exact A|]. split; [exact C|]. unfold updated. cbn [fold_left fst snd]. rewrite !dget_dset_eq. split; reflexivity.
  - intros k N. unfold updated. cbn [fold_left fst snd]. rewrite dget_dset. apply String.eqb_neq in N. rewrite N. reflexivity.
Qed.
Print Assumptions C44_ridden_bicycle.

(* A second rider is not put on: nothing changes and nothing is raised. *)
Theorem C44_second_rider_ignored : forall (E H : Type) other combine (configure : string -> string -> dict pval -> dict pval -> bool -> res (dict pval * H)) (b : bicycle_obj E H) c,
  bo_hasRider b = true -> add_rider other combine configure b (rc_fs c) (rc_name c) (rc_recalc c) (rc_draw c) = (b, Ok tt).
Proof. intros. apply call_again. assumption. Qed.
Print Assumptions C44_second_rider_ignored.

(* Failing calls leave the object as it was. *)
Theorem C44_failure_leaves_bicycle : forall (E H : Type) other combine (configure : string -> string -> dict pval -> dict pval -> bool -> res (dict pval * H)) (b : bicycle_obj E H) c b' e,
  add_rider other combine configure b (rc_fs c) (rc_name c) (rc_recalc c) (rc_draw c) = (b', Err e) -> b' = b /\ bo_hasRider b = false.
Proof. intros. eapply call_fails. eassumption. Qed.
Print Assumptions C44_failure_leaves_bicycle.

(* Any history of calls, the failing ones caught: the state is that of the first
   call that succeeds, or the initial one. *)
Theorem C44_history : forall (E H : Type) other combine (configure : string -> string -> dict pval -> dict pval -> bool -> res (dict pval * H)) (b : bicycle_obj E H) cs,
  no_io other -> bo_hasRider b = false ->
  let final := after_calls (fun b c => fst (add_rider other combine configure b (rc_fs c) (rc_name c) (rc_recalc c) (rc_draw c))) b cs in
  (final = b /\ forall c, In c cs -> forall b', ~ ridden other combine configure b c b') \/
  (exists pre c post, cs = (pre ++ c :: post)%list /\ (forall q, In q pre -> forall b', ~ ridden other combine configure b q b') /\ ridden other combine configure b c final).
Proof.
  intros E H other combine configure b cs NIO N final. destruct (history E H other combine configure b cs NIO N) as [K|[pre [c [post [b' [A [B [C D]]]]]]]]; [left; exact K|].
  right. exists pre, c, post. split; [exact A|]. split; [exact B|]. unfold final. unfold call in D. rewrite D. exact C.
Qed.
Print Assumptions C44_history.

Definition demo_bike : bicycle_obj unit unit := mkbike "Stratos" "d/bicycles/Stratos" false None [] None [("Benchmark", [("w", PF 1)])] None.
Definition demo_rider_files : fsys := {| fs_dirs := []; fs_files := [("d/riders/Jason/Parameters/JasonStratosBenchmark.txt", "mB = 7" ++ nl)] |}.
Definition demo_combine (a b : dict pval) : res (dict pval) := Ok (a ++ b)%list.
Definition demo_configure (_ _ : string) (a b : dict pval) (_ : bool) : res (dict pval * unit) := Err RuntimeError.
Example C44_example :
  let call n := mkcall demo_rider_files n false false in
  exists b', ridden demo_other demo_combine demo_configure demo_bike (call "Jason") b' /\
    after_calls (fun b c => fst (add_rider demo_other demo_combine demo_configure b (rc_fs c) (rc_name c) (rc_recalc c) (rc_draw c))) demo_bike [call "Luke"; call "Jason"; call "Luke"] = b'
    /\ bo_riderName b' = Some "Jason".
Proof.
  cbv zeta. eexists. split; [|split].
  - apply C44_success; [intros s; discriminate|reflexivity|]. cbv -[Rmult Rdiv Rplus Rinv IZR powerRZ INR]. reflexivity.
  - cbv -[Rmult Rdiv Rplus Rinv IZR powerRZ INR]. reflexivity.
  - reflexivity.
Qed.

(* ================= C45 ================= *)

Lemma files_written : forall (E H : Type) str (b : bicycle_obj E H) fs answers data,
  camel_word (bo_name b) -> bo_hasRider b = false -> bo_dir b = os_join (os_join data "bicycles") (bo_name b) ->
  has_dir fs (bo_dir b ++ "/Parameters") -> (forall s, In s (not_measured (bo_par b)) -> free slash s) ->
  let sets := not_measured (bo_par b) in let path i := bo_dir b ++ "/Parameters/" ++ grown_name (bo_name b) sets i in
  (forall i, (i < length sets)%nat -> no_file fs (path i) /\ ~ has_dir fs (path i)) ->
  exists fs', save_parameters str b fs answers "text" = (Ok tt, fs', answers) /\
    (forall i s d, nth_error sets i = Some s -> dget (bo_par b) s = Some d -> dget (fs_files fs') (path i) = Some (par_text str d)) /\
    (forall q, (forall i, (i < length sets)%nat -> q <> path i) -> dget (fs_files fs') q = dget (fs_files fs) q) /\ fs_dirs fs' = fs_dirs fs.
Proof.
  intros E H str b fs answers data C NR Ed Dp Sl sets path Nw. pose proof (bike_dir_plain data (bo_name b) C) as PD. rewrite <- Ed in PD. destruct (params_plain _ PD) as [Ej Pp].
  rewrite save_text by exact NR. rewrite Ej. fold sets.
  assert (PE : forall i, path i = (bo_dir b ++ "/Parameters") ++ "/" ++ grown_name (bo_name b) sets i) by (intros i; unfold path; rewrite sapp_assoc; reflexivity).
  destruct (save_sets_new str fs answers (bo_dir b ++ "/Parameters") (bo_name b) sets (bo_par b) (bo_par b)) as [fs' [W [Dr [Ct [Ot _]]]]]; try assumption.
  - apply camel_free_slash, C.
  - intros s Hs. split; [apply Sl, Hs|]. apply not_measured_in in Hs. tauto.
  - intros i L. rewrite <- PE. apply Nw, L.
  - exists fs'. split; [exact W|]. split; [|split; [|exact Dr]].
    + intros i s d K1 K2. rewrite PE. eapply Ct; eassumption.
    + intros q Q. apply Ot. intros i L. rewrite <- PE. apply Q, L.
Qed.

(* Saving a bicycle without rider: the set number i goes to the file
   <name><set 0>.txt<set 1>.txt...<set i>.txt (file names grow, see [grown_name]),
   other files are unchanged. *)
Theorem C45_files_written : forall (E H : Type) str (b : bicycle_obj E H) fs answers data,
  camel_word (bo_name b) -> bo_hasRider b = false -> bo_dir b = os_join (os_join data "bicycles") (bo_name b) ->
  has_dir fs (bo_dir b ++ "/Parameters") -> (forall s, In s (not_measured (bo_par b)) -> free slash s) ->
  let sets := not_measured (bo_par b) in let path i := bo_dir b ++ "/Parameters/" ++ grown_name (bo_name b) sets i in
  (forall i, (i < length sets)%nat -> no_file fs (path i) /\ ~ has_dir fs (path i)) ->
  exists fs', save_parameters str b fs answers "text" = (Ok tt, fs', answers) /\
    (forall i s d, nth_error sets i = Some s -> dget (bo_par b) s = Some d -> NoDup (dkeys d) -> exists t, dget (fs_files fs') (path i) = Some t /\ saved_text str d t) /\
    (forall q, (forall i, (i < length sets)%nat -> q <> path i) -> dget (fs_files fs') q = dget (fs_files fs) q) /\ fs_dirs fs' = fs_dirs fs.
Proof.
  intros E H str b fs answers data C NR Ed Dp Sl sets path Nw. destruct (files_written E H str b fs answers data C NR Ed Dp Sl Nw) as (fs' & W & Ct & Ot & Dr). exists fs'. split; [exact W|]. split; [|split; [exact Ot|exact Dr]].
  intros i s d K1 K2 ND. exists (par_text str d). split; [eapply Ct; eassumption|apply saved_text_iff; [exact ND|reflexivity]].
Qed.
Print Assumptions C45_files_written.

(* One set: saved under its own name and found again by Bicycle(...) with the
   same values. *)
Theorem C45_one_set_round_trip : forall (E H : Type) other (calc : dict pval -> res (dict pval * E)) decode str (b : bicycle_obj E H) fs answers data d forcePeriod,
  no_io other -> camel_word (bo_name b) -> bo_hasRider b = false -> bo_dir b = os_join (os_join data "bicycles") (bo_name b) ->
  not_measured (bo_par b) = ["Benchmark"] -> dget (bo_par b) "Benchmark" = Some d -> printable other str d ->
  has_dir fs (bo_dir b) -> has_dir fs (bo_dir b ++ "/Parameters") -> (forall n, ~ has_entry fs (bo_dir b ++ "/Parameters") n) ->
  ~ has_entry fs (bo_dir b) "RawData" -> no_file fs (os_join (os_join (bo_dir b) "RawData") (bo_name b ++ "Measured.txt")) ->
  exists fs' d', save_parameters str b fs answers "text" = (Ok tt, fs', answers) /\
    new_bicycle H other calc decode str fs' (bo_name b) data false forcePeriod = (Ok (mkbike (bo_name b) (bo_dir b) false None [] None [("Benchmark", d')] None), fs') /\
    forall k, dget d' k = dget d k.
Proof. intros. apply save_load_one; assumption. Qed.
Print Assumptions C45_one_set_round_trip.

(* Refutation: with two or more sets every set but the first is not saved under
   its own name (that file stays as it was), and afterwards Bicycle(...) raises. *)
Theorem C45_later_sets_misnamed : forall (E H : Type) other (calc : dict pval -> res (dict pval * E)) decode str (b : bicycle_obj E H) fs answers data s0 s1 more forceRaw forcePeriod,
  camel_word (bo_name b) -> bo_hasRider b = false -> bo_dir b = os_join (os_join data "bicycles") (bo_name b) ->
  not_measured (bo_par b) = s0 :: s1 :: more -> NoDup (s0 :: s1 :: more) -> (forall s, In s (s0 :: s1 :: more) -> camel_word s) ->
  has_dir fs (bo_dir b) -> has_dir fs (bo_dir b ++ "/Parameters") -> (forall n, ~ has_entry fs (bo_dir b ++ "/Parameters") n) ->
  exists fs' e, save_parameters str b fs answers "text" = (Ok tt, fs', answers) /\
    (forall s, In s (s1 :: more) -> dget (fs_files fs') (bo_dir b ++ "/Parameters/" ++ bo_name b ++ s ++ ".txt") = dget (fs_files fs) (bo_dir b ++ "/Parameters/" ++ bo_name b ++ s ++ ".txt")) /\
    new_bicycle H other calc decode str fs' (bo_name b) data forceRaw forcePeriod = (Err e, fs').
Proof.
  intros E H other calc decode str b fs answers data s0 s1 more fr fp C NR Ed NM ND CW D Dp Ne.
  pose proof (bike_dir_plain data (bo_name b) C) as PD. rewrite <- Ed in PD. destruct (params_plain _ PD) as [Ej Pp].
  assert (FG : forall i, free slash (grown_name (bo_name b) (s0 :: s1 :: more) i)).
  { intros i. unfold grown_name. rewrite free_app. split; [apply camel_free_slash, C|]. assert (Q : forall l, (forall s, In s l -> camel_word s) -> free slash (fold_right append "" (map (fun s => s ++ ".txt") l))).
    { induction l as [|x l IH]; intros K; [apply free_nil|]. cbn [map fold_right]. rewrite !free_app. split; [split; [apply camel_free_slash, K; left; reflexivity|intros [X|[X|[X|[X|[]]]]]; discriminate]|]. apply IH. intros s Hs. apply K. right. exact Hs. }
    apply Q. intros s Hs. apply CW. rewrite <- (firstn_skipn (S i)). apply in_or_app. left. exact Hs. }
  assert (NG : forall i, (i < length (s0 :: s1 :: more))%nat -> grown_name (bo_name b) (s0 :: s1 :: more) i <> "").
  { intros i L K. pose proof (grown_len (bo_name b) _ i L) as G. rewrite K in G. cbn in G. lia. }
  destruct (files_written E H str b fs answers data C NR Ed Dp) as [fs' [W [Ct [Ot Dr]]]].
  - rewrite NM. intros s Hs. apply camel_free_slash, CW, Hs.
  - rewrite NM. intros i L. split; intros K; apply (Ne (grown_name (bo_name b) (s0 :: s1 :: more) i)); (split; [apply NG, L|]; split; [apply FG|]); rewrite sapp_assoc; [right|left]; exact K.
  - rewrite NM in Ct, Ot.
    assert (NE : exists e, new_bicycle H other calc decode str fs' (bo_name b) data fr fp = (Err e, fs')).
    { eapply bad_name_raises with (n := grow (grow (bo_name b) s0) s1); [reflexivity| | | |].
      - rewrite <- Ed. unfold has_dir. rewrite Dr. exact D.
      - rewrite <- Ed. split; [discriminate|]. split; [intros Q; cbn in Q; repeat (destruct Q as [Q|Q]; [discriminate|]); exact Q|]. left. rewrite Dr. exact Dp.
      - rewrite <- Ed, Ej. pose proof (FG 1%nat) as F1. pose proof (NG 1%nat ltac:(cbn; lia)) as N1. rewrite grown_cons, grown_0 in F1, N1. split; [exact N1|]. split; [exact F1|]. right.
        assert (K1 : In s1 (dkeys (bo_par b))). { assert (X : In s1 (not_measured (bo_par b))) by (rewrite NM; right; left; reflexivity). apply not_measured_in in X. tauto. }
        apply dget_some_in in K1 as [d Gd]. pose proof (Ct 1%nat s1 d eq_refl Gd) as X. rewrite grown_cons, grown_0 in X. apply dget_some_in. exists (par_text str d). rewrite sapp_assoc. exact X.
      - intros x y K. rewrite three_words in K; [discriminate|exact C|apply CW; left; reflexivity|apply CW; right; left; reflexivity]. }
    destruct NE as [e NE]. exists fs', e. split; [exact W|]. split; [|exact NE].
    intros s Hs. apply Ot. intros i L K. apply sapp_inj_l in K. apply sapp_inj_l in K. revert K. apply proper_name_unused; [apply CW; right; exact Hs|exact CW| |exact L].
    cbn [hd]. intros ->. inversion ND. contradiction.
Qed.
Print Assumptions C45_later_sets_misnamed.

(* With a rider (add_rider leaves one set, "Benchmark"): the rider's parameters and
   the combined ones go to files of the same name in two directories... *)
Theorem C45_rider_files : forall (E H : Type) str (b : bicycle_obj E H) fs fs1 answers rn rp both,
  bo_hasRider b = true -> bo_riderName b = Some rn -> camel_word rn -> camel_word (bo_name b) ->
  bo_riderPar b = [("Benchmark", rp)] -> dget (bo_par b) "Benchmark" = Some both -> NoDup (dkeys rp) -> NoDup (dkeys both) ->
  let parDir := os_join (rider_dir b rn) "Parameters" in let fname := rn ++ bo_name b ++ "Benchmark.txt" in
  (has_dir fs parDir /\ has_dir fs (parDir ++ "/Combined") /\ fs1 = fs \/
   ~ has_dir fs (parDir ++ "/Combined") /\ no_file fs (parDir ++ "/Combined") /\ makedirs fs (parDir ++ "/Combined") = Ok fs1) ->
  no_file fs (parDir ++ "/" ++ fname) -> ~ has_dir fs1 (parDir ++ "/" ++ fname) ->
  no_file fs (parDir ++ "/Combined/" ++ fname) -> ~ has_dir fs1 (parDir ++ "/Combined/" ++ fname) ->
  exists fs', save_parameters str b fs answers "text" = (Ok tt, fs', answers) /\
    (exists t, dget (fs_files fs') (parDir ++ "/" ++ fname) = Some t /\ saved_text str rp t) /\
    (exists t, dget (fs_files fs') (parDir ++ "/Combined/" ++ fname) = Some t /\ saved_text str both t) /\
    forall q, q <> parDir ++ "/" ++ fname -> q <> parDir ++ "/Combined/" ++ fname -> dget (fs_files fs') q = dget (fs_files fs) q.
Proof.
  intros E H str b fs fs1 answers rn rp both HR HN C1 C2 RP GB N1 N2 parDir fname Dirs F1 D1 F2 D2.
  destruct (save_rider E H (fun _ => Err IOError) (fun _ => Err IOError) (fun _ => Err IOError) str b fs fs1 answers rn "Benchmark" rp both HR HN C1 C2) as [fs' [A [_ B]]]; try assumption; [|discriminate|].
  2:{ exists fs'. destruct B as (B1 & B2 & B3). split; [exact A|]. split; [eexists; split; [exact B1|apply saved_text_iff; [exact N1|reflexivity]]|]. split; [eexists; split; [exact B2|apply saved_text_iff; [exact N2|reflexivity]]|exact B3]. }
  exists "B"%char, "e"%char, "nchmark". split; [reflexivity|]. split; [unfold upper; cbv; lia|]. split; [unfold lower; cbv; lia|]. intros x K. cbn in K. unfold lower. repeat (destruct K as [<-|K]; [cbv; lia|]). destruct K.
Qed.
Print Assumptions C45_rider_files.

(* ... and the rider's file is the one add_rider reads later, giving the same values. *)
Theorem C45_rider_round_trip : forall (E H : Type) other combine (configure : string -> string -> dict pval -> dict pval -> bool -> res (dict pval * H)) str
    (b b0 : bicycle_obj E H) fs rn rp bench t,
  no_io other -> printable other str rp -> camel_word rn -> camel_word (bo_name b) ->
  dget (fs_files fs) (os_join (rider_dir b rn) "Parameters" ++ "/" ++ rn ++ bo_name b ++ "Benchmark.txt") = Some t -> saved_text str rp t ->
  bo_hasRider b0 = false -> bo_name b0 = bo_name b -> bo_dir b0 = bo_dir b -> dget (bo_par b0) "Benchmark" = Some bench ->
  exists rp', (forall k, dget rp' k = dget rp k) /\
    forall both, combine bench rp' = Ok both ->
      exists b', add_rider other combine configure b0 fs rn false false = (b', Ok tt) /\ dget (bo_riderPar b') "Benchmark" = Some rp' /\ dget (bo_par b') "Benchmark" = Some both.
Proof.
  intros E H other combine configure str b b0 fs rn rp bench t NIO Pr C1 C2 G ST NR En Ed GB. apply (saved_text_iff _ _ _ (proj1 Pr)) in ST. subst t. destruct (printable_loads other str rp Pr) as [rp' [L1 L2]]. exists rp'. split; [exact L2|].
  intros both Cb. eexists. split; [|split].
  - apply (C44_success E H other combine configure b0 (mkcall fs rn false false)); [exact NIO|exact NR|]. exists bench, rp', None, both. split; [exact GB|]. split; [|split; [exact Cb|reflexivity]].
    left. cbn [rc_recalc rc_draw rc_fs rc_name]. split; [intros [K|K]; discriminate|]. split; [|reflexivity]. exists (par_text str rp). split; [|exact L1].
    unfold rider_file. replace (rider_dir b0 rn) with (rider_dir b rn) by (unfold rider_dir, data_dir; rewrite Ed; reflexivity). rewrite En.
    assert (Pr2 : plain (rider_dir b rn)).
    { unfold rider_dir. unfold os_join at 1. rewrite free_slash_start by apply camel_free_slash, C1. pose proof (camel_plain rn C1) as P. destruct (_ || _); [apply plain_snoc, P|]. apply plain_snoc, (plain_snoc "/"), P. }
    destruct (params_plain _ Pr2) as [Ej Pp]. rewrite os_join_plain; [exact G|rewrite Ej; exact Pp|]. apply free_slash_start. rewrite !free_app. repeat split; try (apply camel_free_slash; assumption).
    intros K; cbn in K; repeat (destruct K as [K|K]; [discriminate|]); exact K.
  - cbn [bo_riderPar]. unfold updated. cbn [fold_left fst snd]. apply dget_dset_eq.
  - cbn [bo_par]. unfold updated. cbn [fold_left fst snd]. apply dget_dset_eq.
Qed.
Print Assumptions C45_rider_round_trip.

(* The other formats: announced ones raise before anything is written, unknown
   ones silently do nothing. *)
Theorem C45_other_formats : forall (E H : Type) str (b : bicycle_obj E H) fs answers filetype,
  filetype <> "text" -> bo_hasRider b = false ->
  save_parameters str b fs answers filetype =
  (if String.eqb filetype "matlab" || String.eqb filetype "pickle" then Err (OtherError "NotImplementedError") else Ok tt, fs, answers).
Proof.
  intros E H str b fs answers ft N NR. unfold save_parameters. cbv zeta. rewrite NR. apply String.eqb_neq in N. rewrite N. destruct (_ || _); reflexivity.
Qed.
Print Assumptions C45_other_formats.

Definition two_sets : bicycle_obj unit unit := mkbike "Stratos" "d/bicycles/Stratos" false None [] None [("Benchmark", [("w", PF 1)]); ("Meijaard", [("w", PF 1)])] None.
Definition empty_dirs : fsys := {| fs_dirs := ["d/bicycles/Stratos"; "d/bicycles/Stratos/Parameters"]; fs_files := [] |}.
Example C45_example :
  fst (fst (save_parameters demo_str two_sets empty_dirs [] "text")) = Ok tt /\
  dkeys (fs_files (snd (fst (save_parameters demo_str two_sets empty_dirs [] "text")))) =
    ["d/bicycles/Stratos/Parameters/StratosBenchmark.txt"; "d/bicycles/Stratos/Parameters/StratosBenchmark.txtMeijaard.txt"] /\
  fst (new_bicycle unit demo_other demo_calc demo_decode demo_str (snd (fst (save_parameters demo_str two_sets empty_dirs [] "text"))) "Stratos" "d" false false) = Err (ValueError "unpack").
Proof. repeat split; cbv -[Rmult Rdiv Rplus Rinv IZR powerRZ INR]; reflexivity. Qed.
