(* TPack.v -- C81: the archives of the measured data (utils/package_data.py) *)
From Verif Require Import Base MString MIo MPeriod MMain SIo MState SState MPack SPack PBase PString PIo PState PState2 PPack PPack2.
Local Open Scope string_scope.

Lemma wanted_ok kind name folder f : wanted kind name folder f -> kinds kind /\ entry_ok name folder.
Proof.
  intros [(-> & N & C)|(-> & N & C)]; (split; [unfold kinds; auto|]); (split; [apply in_or_app; auto|]); repeat destruct C as [[-> C]|C]; try (destruct C as [-> C]); cbn; tauto.
Qed.
(* the members are exactly the wanted files that exist, whatever the name of the data folder *)
Theorem C81_members : forall fs data, plain data -> exists members, package_data fs data = Ok members /\
  forall p, (exists n, In (n, p) members) <->
    exists kind name folder f, wanted kind name folder f /\ has_dir fs (folder_of data kind name folder) /\ has_entry fs (folder_of data kind name folder) f /\ p = file_of data kind name folder f.
Proof.
  intros fs data P. destruct (package_members fs data P) as [l [E M]]. exists l. split; [exact E|]. intros p. split.
  - intros [n H]. apply M in H as (kind & name & folder & f & _ & _ & W & HD & HE & -> & _). exists kind, name, folder, f. auto.
  - intros (kind & name & folder & f & W & HD & HE & ->). destruct (wanted_ok _ _ _ _ W) as [K EO]. destruct (arcname_some data kind name folder f K EO) as [n Q]. exists n. apply M. exists kind, name, folder, f. auto 10.
Qed.
Print Assumptions C81_members.

(* ... each once *)
Theorem C81_once : forall fs data members, NoDup (fs_dirs fs ++ dkeys (fs_files fs))%list -> plain data -> package_data fs data = Ok members -> NoDup (map snd members).
Proof. exact package_once. Qed.
Print Assumptions C81_once.

Lemma same_kind data kind name folder f kind' name' folder' f' : kinds kind -> kinds kind' -> file_of data kind name folder f = file_of data kind' name' folder' f' -> kind = kind'.
Proof.
  intros K K' E. unfold file_of, folder_of in E. rewrite !sapp_assoc in E. induction data as [|c data IH]; cbn [append] in E; [|injection E as E; apply IH, E]. destruct K as [-> | ->], K' as [-> | ->]; try reflexivity; discriminate.
Qed.
(* a member is stored under its path below the data folder, if and only if the word bicycles
   (riders) is in no other place of its path: a file with the word in its name is cut short *)
Theorem C81_names : forall fs data members kind name folder f n, plain data -> package_data fs data = Ok members ->
  wanted kind name folder f -> In (n, file_of data kind name folder f) members -> ~ occurs kind data ->
  (n = "data/" ++ kind ++ "/" ++ name ++ "/" ++ folder ++ "/" ++ f <-> ~ occurs kind f).
Proof.
  intros fs data members kind name folder f n P H W I ND. destruct (package_members fs data P) as [l [E M]]. rewrite H in E. injection E as <-. apply M in I as (kind' & name' & folder' & f' & K' & _ & _ & _ & _ & E & A).
  destruct (wanted_ok _ _ _ _ W) as [K EO]. apply same_kind in E; [|assumption..]. subst kind'. split.
  - intros -> O. destruct (arcname_short data kind name folder f K EO ND O) as (a & b & F & Q). rewrite A in Q. injection Q as Q.
    assert (X : forall p u v, p ++ u = p ++ v -> u = v) by (clear; induction p as [|c p IH]; intros u v E; [exact E|injection E as E; apply IH, E]).
    do 3 (apply X in Q; injection Q as Q). assert (L : String.length f = String.length a) by (rewrite Q; reflexivity). rewrite F, !slen_app in L. destruct (kind_free kind K) as [_ N]. destruct kind; [contradiction|cbn in L; Lia.lia].
  - intros NF. rewrite (arcname_good data kind name folder f K EO ND NF) in A. congruence.
Qed.
Print Assumptions C81_names.
(* Defect: if the path of the data folder itself has the word, all files of the bicycles
   (riders) are stored under one and the same name *)
Theorem C81_refuted_names_of_members : forall fs data members kind, plain data -> package_data fs data = Ok members -> kind = "bicycles" \/ kind = "riders" -> occurs kind data ->
  exists n0, forall n name folder f, In (n, file_of data kind name folder f) members -> n = n0.
Proof.
  intros fs data members kind P H K O. destruct (package_members fs data P) as [l [E M]]. rewrite H in E. injection E as <-. destruct (arcname_same data kind K O) as [n0 Q]. exists n0. intros n name folder f I. apply M in I as (kind' & name' & folder' & f' & K' & _ & _ & _ & _ & E & A).
  apply same_kind in E; [|assumption..]. subst kind'. rewrite Q in A. congruence.
Qed.
Print Assumptions C81_refuted_names_of_members.
Definition two_bikes (data : string) : fsys :=
  Build_fsys [data ++ "/bicycles/Pista/RawData"; data ++ "/bicycles/Rigid/Photos"; data ++ "/riders/Luke/Parameters"]
    [(data ++ "/bicycles/Pista/RawData/PistaMeasured.txt", ""); (data ++ "/bicycles/Pista/RawData/notes.txt", ""); (data ++ "/bicycles/Rigid/Photos/Rigid.jpg", ""); (data ++ "/riders/Luke/Parameters/LukePista.txt", "")].
Example C81_two_bikes : package_data (two_bikes "/home/me") "/home/me" =
  Ok [("data/bicycles/Pista/RawData/PistaMeasured.txt", "/home/me/bicycles/Pista/RawData/PistaMeasured.txt"); ("data/bicycles/Rigid/Photos/Rigid.jpg", "/home/me/bicycles/Rigid/Photos/Rigid.jpg"); ("data/riders/Luke/Parameters/LukePista.txt", "/home/me/riders/Luke/Parameters/LukePista.txt")].
Proof. vm_compute. reflexivity. Qed.
Example C81_one_name : package_data (two_bikes "/bicycles-data") "/bicycles-data" =
  Ok [("data/bicycles/data/", "/bicycles-data/bicycles/Pista/RawData/PistaMeasured.txt"); ("data/bicycles/data/", "/bicycles-data/bicycles/Rigid/Photos/Rigid.jpg"); ("data/riders/Luke/Parameters/LukePista.txt", "/bicycles-data/riders/Luke/Parameters/LukePista.txt")].
Proof. vm_compute. reflexivity. Qed.
Example C81_hypotheses_met : let fs := two_bikes "/home/me" in NoDup (fs_dirs fs ++ dkeys (fs_files fs))%list /\ plain "/home/me" /\ ~ occurs "bicycles" "/home/me" /\ ~ occurs "riders" "/home/me" /\
  plain "/bicycles-data" /\ occurs "bicycles" "/bicycles-data" /\ wanted "bicycles" "Pista" "RawData" "PistaMeasured.txt" /\ ~ occurs "bicycles" "PistaMeasured.txt".
Proof.
  cbv zeta. rewrite <- !contains_iff. split; [vm_compute; repeat constructor; cbn; intuition discriminate|]. split; [exists "/home/m", "e"%char; split; [reflexivity|discriminate]|]. split; [discriminate|]. split; [discriminate|]. split; [exists "/bicycles-dat", "a"%char; split; [reflexivity|discriminate]|]. split; [reflexivity|].
  split; [|discriminate]. left. split; [reflexivity|]. split; [cbn; tauto|]. left. split; [reflexivity|]. right. exists "Pista". reflexivity.
Qed.
