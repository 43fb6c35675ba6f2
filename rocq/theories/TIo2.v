(* TIo2.v -- C34: the directory of the written file *)
From Verif Require Import Base MString MIo SIo PBase PString PIo PIo2 PIo3 PIo4 PIo5 PIo6 SState PState2 SIo2 TIo.
From Coq Require Import Bool Lia.
Local Open Scope string_scope.

Lemma app_nil_s a : a ++ "" = a.
Proof. induction a as [|c a IH]; [reflexivity|]. cbn [append]. rewrite IH. reflexivity. Qed.
Lemma length_app_s a b : String.length (a ++ b) = (String.length a + String.length b)%nat.
Proof. induction a as [|c a IH]; [reflexivity|]. cbn [append String.length]. rewrite IH. reflexivity. Qed.
Lemma slashes_snoc n : slashes (Datatypes.S n) = slashes n ++ String slash "".
Proof. induction n as [|n IH]; [reflexivity|]. cbn [slashes append] in *. rewrite <- IH. reflexivity. Qed.
Lemma rstrip_slashes a n : rstrip_slash (a ++ slashes n) = rstrip_slash a.
Proof.
  induction n as [|n IH]; [rewrite app_nil_s; reflexivity|]. rewrite slashes_snoc, <- sapp_assoc, rstrip_slash_slash. exact IH.
Qed.
Lemma located_split path dir name : located path dir name -> os_split path = (dir, name).
Proof.
  intros (F & [(P & n & ->)|(n & -> & ->)]); unfold os_split.
  - rewrite slashes_snoc. replace (dir ++ (slashes n ++ String slash "") ++ name) with ((dir ++ slashes n) ++ String slash name) by (rewrite !sapp_assoc; reflexivity).
    rewrite split_last_app by exact F. rewrite sapp_assoc, <- slashes_snoc, rstrip_slashes. destruct P as (a & c & -> & N). rewrite rstrip_slash_snoc by exact N. destruct a; reflexivity.
  - rewrite slashes_snoc, sapp_assoc. cbn [append]. rewrite split_last_app by exact F. rewrite <- slashes_snoc. change (slashes (Datatypes.S n)) with ("" ++ slashes (Datatypes.S n)). rewrite rstrip_slashes. reflexivity.
Qed.

(* a file of an existing directory: written without asking if new, overwritten exactly after
   the first proper answer y, kept after n *)
Theorem C34_existing_directory : forall (V : Type) (str : V -> string) fs path dir name d rest junk,
  located path dir name -> name <> "" -> isdir fs dir = true -> isdir fs path = false ->
  (forall x, In x junk -> x <> "y" /\ x <> "n") ->
  (dget (fs_files fs) path = None -> exists fs', write_parameter_text_file str fs rest path d = (Ok true, fs', rest))
  /\ (forall old, dget (fs_files fs) path = Some old ->
     (exists fs', write_parameter_text_file str fs (junk ++ "y" :: rest) path d = (Ok true, fs', rest))
     /\ write_parameter_text_file str fs (junk ++ "n" :: rest) path d = (Ok false, fs, rest)
     /\ write_parameter_text_file str fs junk path d = (Err (OtherError "EOFError"), fs, [])).
Proof.
  intros V str fs path dir name d rest junk L N D P J. apply located_split in L. apply C34_decision; rewrite ?L; assumption.
Qed.
Print Assumptions C34_existing_directory.

Lemma ancestors_above q dir : In q (ancestors dir) <-> above q dir.
Proof.
  revert q. induction dir as [|c dir IH]; intros q; cbn [ancestors].
  - split; [intros []|]. intros (r & E). destruct q; discriminate.
  - rewrite in_app_iff, in_map_iff. split.
    + intros [H|(x & <- & H)].
      * destruct (Ascii.eqb c slash) eqn:E; [|destruct H]. apply Ascii.eqb_eq in E as ->. destruct H as [<-|[]]. exists dir. reflexivity.
      * apply IH in H as (r & ->). exists r. reflexivity.
    + intros (r & E). destruct q as [|x q].
      * left. cbn [append] in E. injection E as -> _. left. reflexivity.
      * cbn [append] in E. injection E as -> E. right. exists q. split; [reflexivity|]. apply IH. exists r. exact E.
Qed.
Lemma located_longer path dir name : located path dir name -> name <> "" -> (String.length dir < String.length path)%nat.
Proof.
  intros (_ & [(_ & n & ->)|(n & _ & ->)]) N; rewrite !length_app_s; [cbn [slashes String.length]; lia|]. destruct name; [contradiction|cbn [String.length]; lia].
Qed.
Lemma above_shorter q dir : above q dir -> (String.length q < String.length dir)%nat.
Proof. intros (r & ->). rewrite length_app_s. cbn [append String.length]. lia. Qed.
Lemma located_not_empty path dir name : located path dir name -> dir <> "".
Proof. intros (_ & [((a & c & -> & _) & _)|(n & -> & _)]); [destruct a; discriminate|discriminate]. Qed.
Lemma dmem_none (l : dict string) q : dmem l q = true <-> dget l q <> None.
Proof. unfold dmem. destruct (dget l q); split; congruence. Qed.
(* a directory that is not there is made, with every directory above it; a file in the way of
   one of them is an error that changes nothing *)
Theorem C34_directory_created : forall (V : Type) (str : V -> string) fs path dir name d answers,
  located path dir name -> name <> "" -> isdir fs dir = false -> isdir fs path = false -> dget (fs_files fs) path = None ->
  ((forall q, q = dir \/ above q dir -> dget (fs_files fs) q = None) ->
     exists fs', write_parameter_text_file str fs answers path d = (Ok true, fs', answers)
       /\ forall q, isdir fs' q = true <-> isdir fs q = true \/ q = dir \/ (above q dir /\ q <> ""))
  /\ ((exists q, (q = dir \/ above q dir) /\ dget (fs_files fs) q <> None) -> write_parameter_text_file str fs answers path d = (Err IOError, fs, answers)).
Proof.
  intros V str fs path dir name d answers L N D P F. pose proof (located_longer _ _ _ L N) as LL. pose proof (located_not_empty _ _ _ L) as NE. pose proof (located_split _ _ _ L) as LS.
  apply String.eqb_neq in NE. split.
  - intros C. unfold write_parameter_text_file. rewrite LS. cbv beta iota. rewrite D. unfold makedirs. rewrite NE.
    assert (X : existsb (fun q => dmem (fs_files fs) q) (dir :: ancestors dir) = false).
    { destruct (existsb _ _) eqn:X; [|reflexivity]. apply existsb_exists in X as (q & Q & X). apply dmem_none in X. exfalso. apply X. apply C. destruct Q as [<-|Q]; [left; reflexivity|right; apply ancestors_above, Q]. }
    rewrite X. unfold open_r. cbn [fs_files]. rewrite F. unfold open_w.
    assert (Y : forall q, isdir {| fs_dirs := dir :: filter (fun q => negb (isdir fs q) && negb (String.eqb q "")) (ancestors dir) ++ fs_dirs fs; fs_files := fs_files fs |} q = true <-> isdir fs q = true \/ q = dir \/ (above q dir /\ q <> "")).
    { intros q. unfold isdir at 1. cbn [fs_dirs]. rewrite smem_spec. cbn [In]. rewrite in_app_iff, filter_In, ancestors_above, andb_true_iff, !negb_true_iff, String.eqb_neq.
      unfold isdir at 2. rewrite smem_spec. unfold isdir. split.
      - intros [H|[H|H]]; [auto|tauto|auto].
      - intros [H|[H|H]]; [auto|auto|]. destruct (smem q (fs_dirs fs)) eqn:S; [apply smem_spec in S; auto|]. right. left. tauto. }
    destruct (isdir {| fs_dirs := _; fs_files := _ |} path) eqn:Z.
    { exfalso. apply Y in Z as [Z|[Z|(Z & _)]]; [congruence|subst; lia|apply above_shorter in Z; lia]. }
    rewrite LS. cbn [snd orb]. apply String.eqb_neq in N. rewrite N. eexists. split; [reflexivity|]. exact Y.
  - intros (q & Q & X). unfold write_parameter_text_file. rewrite LS. cbv beta iota. rewrite D. unfold makedirs. rewrite NE.
    assert (Y : existsb (fun q => dmem (fs_files fs) q) (dir :: ancestors dir) = true).
    { apply existsb_exists. exists q. split; [|apply dmem_none, X]. destruct Q as [->|Q]; [left; reflexivity|right; apply ancestors_above, Q]. }
    rewrite Y. reflexivity.
Qed.
Print Assumptions C34_directory_created.

(* a file of the root directory, and one for which two directories are made *)
Example C34_paths : located "/pars.txt" "/" "pars.txt" /\ located "data//pars.txt" "data" "pars.txt" /\ located "data/Bike/pars.txt" "data/Bike" "pars.txt" /\ above "data" "data/Bike".
Proof.
  assert (F : free slash "pars.txt") by (unfold free; cbn; intuition discriminate).
  split; [|split; [|split]].
  - split; [exact F|]. right. exists O. split; reflexivity.
  - split; [exact F|]. left. split; [exists "dat", "a"%char; split; [reflexivity|discriminate]|]. exists 1%nat. reflexivity.
  - split; [exact F|]. left. split; [exists "data/Bik", "e"%char; split; [reflexivity|discriminate]|]. exists O. reflexivity.
  - exists "Bike". reflexivity.
Qed.
