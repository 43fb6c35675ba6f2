(* PPack.v -- lemmas for C81 *)
From Coq Require Import Lia.
From Verif Require Import Base MString MIo MPeriod MMain SIo MState SState MPack SPack PBase PString PIo PState PState2.
Local Open Scope string_scope.

Lemma ends_text_iff suf s : ends_text suf s = true <-> ends s suf.
Proof.
  unfold ends_text. rewrite String.eqb_eq. split.
  - intros E. exists (substring 0 (String.length s - String.length suf) s). rewrite <- E at 2. clear E. generalize (String.length s - String.length suf)%nat as n. induction s as [|c s IH]; intros [|n]; try reflexivity. cbn. f_equal. apply IH.
  - intros [a ->]. rewrite slen_app. replace (String.length a + String.length suf - String.length suf)%nat with (String.length a) by lia. apply sdrop_app.
Qed.
Lemma prefix_slash k : free slash k -> forall a b r, a ++ String slash b = k ++ r -> exists r', a = k ++ r'.
Proof.
  induction k as [|c k IH]; intros F a b r E; [exists a; reflexivity|]. apply free_cons in F as [N F]. destruct a as [|x a]; cbn [append] in E; injection E as E1 E2; [exfalso; apply N; congruence|].
  destruct (IH F a b r E2) as [r' ->]. subst x. exists r'. reflexivity.
Qed.
Lemma cut_at k a b : free slash k -> ~ occurs k a -> cut_first k (a ++ String slash (k ++ b)) = Some (a ++ "/", b).
Proof.
  intros F. induction a as [|c a IH]; intros N.
  - cbn [append]. destruct k as [|x k]; [exfalso; apply N; exists "", ""; reflexivity|]. cbn [cut_first]. destruct (starts_with _ (String slash _)) eqn:S.
    { apply starts_with_iff in S as [r E]. injection E as E1 E2. exfalso. apply free_cons in F as [F _]. apply F. congruence. }
    change (match cut_first (String x k) (String x k ++ b) with Some (a0, b0) => Some (String slash a0, b0) | None => None end = Some ("/", b)). destruct (String x k ++ b) eqn:E; [discriminate|]. rewrite <- E. 
    assert (cut_first (String x k) (String x k ++ b) = Some ("", b)) as ->.
    { rewrite E at 1. cbn [cut_first]. rewrite <- E. assert (starts_with (String x k) (String x k ++ b) = true) as -> by (apply starts_with_iff; exists b; reflexivity). rewrite sdrop_app. reflexivity. }
    reflexivity.
  - cbn [append cut_first]. destruct (starts_with k (String c (a ++ String slash (k ++ b)))) eqn:S.
    { apply starts_with_iff in S as [r E]. destruct (prefix_slash k F (String c a) (k ++ b) r E) as [r' E']. exfalso. apply N. exists "", r'. exact E'. }
    rewrite IH; [reflexivity|]. intros [u [v E]]. apply N. exists (String c u), v. cbn. f_equal. exact E.
Qed.
Lemma starts_shorter k s t : starts_with k (s ++ t) = true -> (String.length k <= String.length s)%nat -> starts_with k s = true.
Proof. revert s. induction k as [|c k IH]; intros [|d s] H L; try reflexivity; cbn [String.length] in L; try lia. cbn [append starts_with] in *. apply andb_prop in H as [-> H]. cbn. apply IH; [exact H|lia]. Qed.
Lemma starts_longer k s t : starts_with k s = true -> starts_with k (s ++ t) = true.
Proof. rewrite !starts_with_iff. intros [r ->]. exists (r ++ t). rewrite sapp_assoc. reflexivity. Qed.
Lemma cut_app k s t a b : cut_first k s = Some (a, b) -> cut_first k (s ++ t) = Some (a, b ++ t).
Proof.
  revert a b. induction s as [|c s IH]; intros a b H.
  - cbn [cut_first] in H. destruct (starts_with k "") eqn:S; [|discriminate]. destruct k; [|discriminate]. injection H as <- <-. destruct t; reflexivity.
  - cbn [append cut_first] in *. change (String c (s ++ t)) with (String c s ++ t). destruct (starts_with k (String c s)) eqn:S.
    + injection H as <- <-. rewrite starts_longer by exact S. apply starts_with_iff in S as [r E]. rewrite E, sapp_assoc, !sdrop_app. reflexivity.
    + destruct (cut_first k s) as [[a' b']|] eqn:C; [|discriminate]. injection H as <- <-. destruct (starts_with k (String c s ++ t)) eqn:S2.
      * apply cut_first_some in C. rewrite (starts_shorter k (String c s) t S2) in S; [discriminate|]. rewrite C. cbn [String.length]. rewrite !slen_app. lia.
      * rewrite (IH a' b' eq_refl). reflexivity.
Qed.
Lemma occurs_slash k a b : free slash k -> occurs k (a ++ String slash b) -> occurs k a \/ occurs k b.
Proof.
  intros F. induction a as [|c a IH]; intros [u [v E]].
  - cbn [append] in E. destruct u as [|x u]; cbn [append] in E.
    + destruct k as [|y k]; [left; exists "", ""; reflexivity|]. injection E as E1 E2. exfalso. apply free_cons in F as [F _]. apply F. congruence.
    + injection E as _ E. right. exists u, v. exact E.
  - destruct u as [|x u].
    + destruct (prefix_slash k F (String c a) b v E) as [r' E']. left. exists "", r'. exact E'.
    + cbn [append] in E. injection E as _ E. destruct IH as [[p [q Q]]|H]; [exists u, v; exact E| |right; exact H]. left. exists (String c p), q. cbn. f_equal. exact Q.
Qed.
Lemma occurs_dec k s : {occurs k s} + {~ occurs k s}.
Proof. destruct (contains k s) eqn:E; [left|right; intros H]; apply contains_iff in E || apply contains_iff in H; [exact E|congruence]. Qed.

(* the path of a file in the listing *)
Definition kinds (kind : string) : Prop := kind = "bicycles" \/ kind = "riders".
Lemma kind_free kind : kinds kind -> free slash kind /\ kind <> "".
Proof. intros [-> | ->]; (split; [|discriminate]); unfold free; cbn; intuition discriminate. Qed.
(* names and folders of the lists *)
Definition entry_ok (name folder : string) : Prop := In name (bicycles ++ riders) /\ In folder ["RawData"; "Parameters"; "Photos"].
Lemma word_plain d w : plain d -> w <> "" -> free slash w -> plain (d ++ "/" ++ w).
Proof.
  intros _ N F. revert N F. intros N F. assert (exists a c, w = a ++ String c "" /\ c <> slash) as [a [c [-> H]]].
  { clear d. induction w as [|x w IH]; [contradiction|]. apply free_cons in F as [F1 F2]. destruct w as [|y w]; [exists "", x; split; [reflexivity|congruence]|]. destruct IH as [a [c [E H]]]; [discriminate|exact F2|]. exists (String x a), c. split; [rewrite E; reflexivity|exact H]. }
  exists (d ++ "/" ++ a), c. split; [rewrite !sapp_assoc; reflexivity|exact H].
Qed.
Lemma names_free name folder : entry_ok name folder -> free slash name /\ name <> "" /\ free slash folder /\ folder <> "" /\ ~ occurs "bicycles" name /\ ~ occurs "bicycles" folder /\ ~ occurs "riders" name /\ ~ occurs "riders" folder.
Proof.
  intros [N F]. assert (A : free slash name /\ name <> "" /\ ~ occurs "bicycles" name /\ ~ occurs "riders" name).
  { repeat (destruct N as [<-|N]; [split; [unfold free; cbn; intuition discriminate|]; split; [discriminate|]; rewrite <- !contains_iff; split; discriminate|]). destruct N. }
  assert (B : free slash folder /\ folder <> "" /\ ~ occurs "bicycles" folder /\ ~ occurs "riders" folder).
  { repeat (destruct F as [<-|F]; [split; [unfold free; cbn; intuition discriminate|]; split; [discriminate|]; rewrite <- !contains_iff; split; discriminate|]). destruct F. }
  tauto.
Qed.
Lemma join_word d w : plain d -> w <> "" -> free slash w -> os_join d w = d ++ "/" ++ w /\ plain (d ++ "/" ++ w).
Proof. intros P N F. split; [apply os_join_plain; [exact P|apply free_slash_start, F]|apply word_plain; assumption]. Qed.
Lemma folder_path data kind name folder : plain data -> kinds kind -> entry_ok name folder ->
  os_join (os_join (os_join data kind) name) folder = folder_of data kind name folder /\ plain (folder_of data kind name folder).
Proof.
  intros P K E. destruct (kind_free kind K) as [K1 K2]. destruct (names_free name folder E) as (N1 & N2 & N3 & N4 & _).
  destruct (join_word data kind P K2 K1) as [-> P1]. destruct (join_word _ name P1 N2 N1) as [-> P2]. destruct (join_word _ folder P2 N4 N3) as [-> P3].
  unfold folder_of. rewrite !sapp_assoc in *. cbn [append] in *. split; [reflexivity|exact P3].
Qed.
(* the name in the archive *)
Lemma arcname_good data kind name folder f : kinds kind -> entry_ok name folder -> ~ occurs kind data -> ~ occurs kind f ->
  arcname kind (file_of data kind name folder f) = Ok ("data/" ++ kind ++ "/" ++ name ++ "/" ++ folder ++ "/" ++ f).
Proof.
  intros K E ND NF. destruct (kind_free kind K) as [K1 K2]. destruct (names_free name folder E) as (N1 & N2 & N3 & N4 & O1 & O2 & O3 & O4).
  unfold arcname, split_1, file_of, folder_of. rewrite !sapp_assoc. change ("/" ++ kind ++ "/" ++ name ++ "/" ++ folder ++ "/" ++ f) with (String slash (kind ++ "/" ++ name ++ "/" ++ folder ++ "/" ++ f)). rewrite cut_at by assumption.
  assert (cut_first kind ("/" ++ name ++ "/" ++ folder ++ "/" ++ f) = None) as ->.
  { apply cut_first_none. intros H. change ("/" ++ name ++ "/" ++ folder ++ "/" ++ f) with ("" ++ String slash (name ++ String slash (folder ++ String slash f))) in H.
    apply (occurs_slash kind) in H as [H|H]; [destruct K as [-> | ->]; apply contains_iff in H; discriminate| |exact K1].
    apply (occurs_slash kind) in H as [H|H]; [destruct K as [-> | ->]; contradiction| |exact K1].
    apply (occurs_slash kind) in H as [H|H]; [destruct K as [-> | ->]; contradiction|contradiction|exact K1]. }
  cbn [bind]. change (sdrop 1 ("/" ++ name ++ "/" ++ folder ++ "/" ++ f)) with (name ++ "/" ++ folder ++ "/" ++ f).
  assert (S : starts_with "/" (name ++ "/" ++ folder ++ "/" ++ f) = false) by (destruct name as [|c n]; [contradiction|]; pose proof (free_slash_start _ N1) as Q; exact Q).
  destruct K as [-> | ->]; unfold os_join at 1; rewrite S; reflexivity.
Qed.
(* ... is the same for every file if the data folder's own path has the word *)
Lemma arcname_same data kind : kinds kind -> occurs kind data -> exists n0, forall name folder f, arcname kind (file_of data kind name folder f) = Ok n0.
Proof.
  intros K O. destruct (kind_free kind K) as [K1 K2]. destruct (cut_first kind data) as [[u v]|] eqn:C; [|apply cut_first_none in C; contradiction].
  assert (M : exists mid, forall w, exists z, cut_first kind (v ++ String slash (kind ++ w)) = Some (mid, z)).
  { destruct (cut_first kind v) as [[m z]|] eqn:CV; [exists m; intros w; exists (z ++ String slash (kind ++ w)); apply cut_app, CV|]. apply cut_first_none in CV. exists (v ++ "/"). intros w. exists w. apply cut_at; assumption. }
  destruct M as [mid M]. exists (os_join (os_join "data" kind) (sdrop 1 mid)). intros name folder f. unfold arcname, split_1, file_of, folder_of. rewrite !sapp_assoc. rewrite (cut_app kind data _ u v C).
  destruct (M ("/" ++ name ++ "/" ++ folder ++ "/" ++ f)) as [z E]. change ("/" ++ kind ++ "/" ++ name ++ "/" ++ folder ++ "/" ++ f) with (String slash (kind ++ "/" ++ name ++ "/" ++ folder ++ "/" ++ f)). rewrite E. reflexivity.
Qed.
Lemma cut_after k p f a b : free slash k -> k <> "" -> ~ occurs k p -> cut_first k f = Some (a, b) -> cut_first k (p ++ String slash f) = Some (p ++ String slash a, b).
Proof.
  intros F NE. induction p as [|c p IH]; intros N C.
  - cbn [append cut_first]. destruct (starts_with k (String slash f)) eqn:S; [|rewrite C; reflexivity]. apply starts_with_iff in S as [r E]. destruct k as [|x k]; [contradiction|]. injection E as E1 E2. exfalso. apply free_cons in F as [F _]. apply F. congruence.
  - cbn [append cut_first]. destruct (starts_with k (String c (p ++ String slash f))) eqn:S.
    { apply starts_with_iff in S as [r E]. destruct (prefix_slash k F (String c p) f r E) as [r' E']. exfalso. apply N. exists "", r'. exact E'. }
    rewrite IH; [reflexivity| |exact C]. intros [u [v E]]. apply N. exists (String c u), v. cbn. f_equal. exact E.
Qed.
Lemma arcname_short data kind name folder f : kinds kind -> entry_ok name folder -> ~ occurs kind data -> occurs kind f ->
  exists a b, f = a ++ kind ++ b /\ arcname kind (file_of data kind name folder f) = Ok ("data/" ++ kind ++ "/" ++ name ++ "/" ++ folder ++ "/" ++ a).
Proof.
  intros K E ND OF. destruct (kind_free kind K) as [K1 K2]. destruct (names_free name folder E) as (N1 & N2 & N3 & N4 & O1 & O2 & O3 & O4).
  destruct (cut_first kind f) as [[a b]|] eqn:C; [|apply cut_first_none in C; contradiction]. exists a, b. split; [apply cut_first_some, C|].
  unfold arcname, split_1, file_of, folder_of. rewrite !sapp_assoc. change ("/" ++ kind ++ "/" ++ name ++ "/" ++ folder ++ "/" ++ f) with (String slash (kind ++ "/" ++ name ++ "/" ++ folder ++ "/" ++ f)). rewrite cut_at by assumption.
  assert (C' : cut_first kind ("/" ++ name ++ "/" ++ folder ++ "/" ++ f) = Some ("/" ++ name ++ "/" ++ folder ++ "/" ++ a, b)).
  { change ("/" ++ name ++ "/" ++ folder ++ "/" ++ f) with ("" ++ String slash (name ++ String slash (folder ++ String slash f))).
    apply (cut_after kind "" _ (name ++ String slash (folder ++ String slash a)) b K1 K2); [destruct K as [-> | ->]; intros H; apply contains_iff in H; discriminate|].
    apply cut_after; [exact K1|exact K2|destruct K as [-> | ->]; assumption|]. apply cut_after; [exact K1|exact K2|destruct K as [-> | ->]; assumption|exact C]. }
  rewrite C'. cbn [bind]. change (sdrop 1 ("/" ++ name ++ "/" ++ folder ++ "/" ++ a)) with (name ++ "/" ++ folder ++ "/" ++ a).
  assert (S : starts_with "/" (name ++ "/" ++ folder ++ "/" ++ a) = false) by (destruct name as [|c n]; [contradiction|]; pose proof (free_slash_start _ N1) as Q; exact Q).
  destruct K as [-> | ->]; unfold os_join at 1; rewrite S; reflexivity.
Qed.
Lemma arcname_some data kind name folder f : kinds kind -> entry_ok name folder -> exists n, arcname kind (file_of data kind name folder f) = Ok n.
Proof.
  intros K E. destruct (occurs_dec kind data) as [O|O]; [destruct (arcname_same data kind K O) as [n H]; exists n; apply H|].
  destruct (occurs_dec kind f) as [P|P]; [destruct (arcname_short data kind name folder f K E O P) as (a & b & _ & H)|pose proof (arcname_good data kind name folder f K E O P) as H]; eexists; exact H.
Qed.
Lemma mapM_total {A B} (g : A -> res B) l : (forall x, In x l -> exists y, g x = Ok y) -> exists ys, mapM g l = Ok ys /\ forall y, In y ys <-> exists x, In x l /\ g x = Ok y.
Proof.
  induction l as [|x l IH]; intros H; [exists []; split; [reflexivity|]; intros y; split; [intros []|intros (x & [] & _)]|]. destruct (H x (or_introl eq_refl)) as [y E]. destruct IH as [ys [E2 I]]; [intros z Z; apply H; right; exact Z|]. exists (y :: ys). cbn [mapM]. rewrite E. cbn [bind]. rewrite E2. split; [reflexivity|].
  intros z. split; [intros [<-|Z]; [exists x; split; [left; reflexivity|exact E]|apply I in Z as (w & W & Q); exists w; split; [right; exact W|exact Q]]|]. intros (w & [<-|W] & Q); [left; congruence|right; apply I; exists w; split; assumption].
Qed.
Lemma folder_members fs data kind name fr : plain data -> kinds kind -> entry_ok name (fst fr) -> exists l, pack_folder fs data kind name fr = Ok l /\
  forall n p, In (n, p) l <-> exists f, snd fr f name = true /\ has_dir fs (folder_of data kind name (fst fr)) /\ has_entry fs (folder_of data kind name (fst fr)) f /\ p = file_of data kind name (fst fr) f /\ arcname kind p = Ok n.
Proof.
  intros P K E. unfold pack_folder. destruct (folder_path data kind name (fst fr) P K E) as [-> PF]. set (d := folder_of data kind name (fst fr)) in *. cbv zeta. destruct (listdir fs d) as [files|e] eqn:L.
  - destruct (listdir_ok fs d files L) as [HD HE].
    assert (J : forall f, In f files -> os_join d f = file_of data kind name (fst fr) f) by (intros f I; apply HE in I as (_ & F & _); apply os_join_plain; [exact PF|apply free_slash_start, F]).
    destruct (mapM_total (fun f => n <- arcname kind (os_join d f) ;; Ok (n, os_join d f)) (filter (fun f => snd fr f name) files)) as [l [EL I]].
    { intros f HF. apply filter_In in HF as [HF _]. rewrite (J f HF). destruct (arcname_some data kind name (fst fr) f K E) as [n ->]. eexists. reflexivity. }
    exists l. split; [exact EL|]. intros n p. rewrite I. split.
    + intros (f & HF & Q). apply filter_In in HF as [HF R]. rewrite (J f HF) in Q. apply bind_ok in Q as (n' & Q & Q2). injection Q2 as <- <-. exists f. split; [exact R|]. split; [exact HD|]. split; [apply HE, HF|]. split; [reflexivity|exact Q].
    + intros (f & R & _ & HF & -> & Q). apply HE in HF. exists f. split; [apply filter_In; split; assumption|]. rewrite (J f HF), Q. reflexivity.
  - exists []. split; [reflexivity|]. intros n p. split; [intros []|]. intros (f & _ & HD & _). destruct (listdir_dir fs d HD) as [names X]. congruence.
Qed.
Lemma concat_total {A B} (g : A -> res (list B)) l : (forall x, In x l -> exists y, g x = Ok y) -> exists ys, mapM g l = Ok ys /\ forall y, In y (concat ys) <-> exists x k, In x l /\ g x = Ok k /\ In y k.
Proof.
  intros H. destruct (mapM_total g l H) as [ys [E I]]. exists ys. split; [exact E|]. intros y. rewrite in_concat. split.
  - intros (k & K & Y). apply I in K as (x & X & Q). exists x, k. auto.
  - intros (x & k & X & Q & Y). exists k. split; [apply I; exists x; auto|exact Y].
Qed.
Lemma all_members fs data kind names rules : plain data -> kinds kind -> (forall name fr, In name names -> In fr rules -> entry_ok name (fst fr)) -> exists l, pack_all fs data kind names rules = Ok l /\
  forall n p, In (n, p) l <-> exists name fr f, In name names /\ In fr rules /\ snd fr f name = true /\ has_dir fs (folder_of data kind name (fst fr)) /\ has_entry fs (folder_of data kind name (fst fr)) f /\ p = file_of data kind name (fst fr) f /\ arcname kind p = Ok n.
Proof.
  intros P K EO. unfold pack_all.
  assert (A : forall name, In name names -> exists y, (k <- mapM (pack_folder fs data kind name) rules ;; Ok (concat k)) = Ok y /\ forall n p, In (n, p) y <-> exists fr f, In fr rules /\ snd fr f name = true /\ has_dir fs (folder_of data kind name (fst fr)) /\ has_entry fs (folder_of data kind name (fst fr)) f /\ p = file_of data kind name (fst fr) f /\ arcname kind p = Ok n).
  { intros name HN. destruct (concat_total (pack_folder fs data kind name) rules) as [ys [E I]].
    { intros fr HR. destruct (folder_members fs data kind name fr P K (EO name fr HN HR)) as [l [Q _]]. exists l. exact Q. }
    exists (concat ys). rewrite E. split; [reflexivity|]. intros n p. rewrite I. split.
    - intros (fr & k & HR & Q & IK). destruct (folder_members fs data kind name fr P K (EO name fr HN HR)) as [l [Q2 M]]. rewrite Q in Q2. injection Q2 as <-. apply M in IK as (f & IK). exists fr, f. split; [exact HR|exact IK].
    - intros (fr & f & HR & X). destruct (folder_members fs data kind name fr P K (EO name fr HN HR)) as [l [Q2 M]]. exists fr, l. split; [exact HR|]. split; [exact Q2|]. apply M. exists f. exact X. }
  destruct (concat_total (fun name => k <- mapM (pack_folder fs data kind name) rules ;; Ok (concat k)) names) as [ys [E I]].
  { intros name HN. destruct (A name HN) as [y [Q _]]. exists y. exact Q. }
  exists (concat ys). rewrite E. split; [reflexivity|]. intros n p. rewrite I. split.
  - intros (name & k & HN & Q & IK). destruct (A name HN) as [y [Q2 M]]. rewrite Q in Q2. injection Q2 as <-. apply M in IK as (fr & f & IK). exists name, fr, f. split; [exact HN|exact IK].
  - intros (name & fr & f & HN & X). destruct (A name HN) as [y [Q2 M]]. exists name, y. split; [exact HN|]. split; [exact Q2|]. apply M. exists fr, f. exact X.
Qed.
Lemma package_members fs data : plain data -> exists l, package_data fs data = Ok l /\
  forall n p, In (n, p) l <-> exists kind name folder f, kinds kind /\ entry_ok name folder /\ wanted kind name folder f /\ has_dir fs (folder_of data kind name folder) /\ has_entry fs (folder_of data kind name folder) f /\ p = file_of data kind name folder f /\ arcname kind p = Ok n.
Proof.
  intros P. assert (E1 : forall name fr, In name bicycles -> In fr bicycle_rules -> entry_ok name (fst fr)) by (intros name fr N [<-|[<-|[<-|[]]]]; (split; [apply in_or_app; left; exact N|cbn; tauto])).
  assert (E2 : forall name fr, In name riders -> In fr rider_rules -> entry_ok name (fst fr)) by (intros name fr N [<-|[<-|[]]]; (split; [apply in_or_app; right; exact N|cbn; tauto])).
  destruct (all_members fs data "bicycles" bicycles bicycle_rules P (or_introl eq_refl) E1) as [b [Q1 M1]]. destruct (all_members fs data "riders" riders rider_rules P (or_intror eq_refl) E2) as [r [Q2 M2]].
  exists (b ++ r)%list. unfold package_data. rewrite Q1. cbn [bind]. rewrite Q2. split; [reflexivity|]. intros n p. rewrite in_app_iff, M1, M2.
  assert (BG : forall s t, starts_with s t = true <-> begins t s) by (intros s t; apply starts_with_iff).
  split.
  - intros [(name & fr & f & N & R & C & HD & HE & Q)|(name & fr & f & N & R & C & HD & HE & Q)].
    + exists "bicycles", name, (fst fr), f. split; [left; reflexivity|]. split; [apply E1; assumption|]. split; [|split; [exact HD|split; [exact HE|exact Q]]]. left. split; [reflexivity|]. split; [exact N|].
      destruct R as [<-|[<-|[<-|[]]]]; cbn [fst snd] in *; unfold raw_file_check, par_file_check, photo_file_check in C; [left|right; left|right; right]; (split; [reflexivity|]).
      * apply orb_prop in C. rewrite !ends_text_iff in C. exact C.
      * apply andb_prop in C. rewrite ends_text_iff, BG in C. exact C.
      * apply andb_prop in C. rewrite ends_text_iff, BG in C. exact C.
    + exists "riders", name, (fst fr), f. split; [right; reflexivity|]. split; [apply E2; assumption|]. split; [|split; [exact HD|split; [exact HE|exact Q]]]. right. split; [reflexivity|]. split; [exact N|].
      destruct R as [<-|[<-|[]]]; cbn [fst snd] in *; unfold rider_raw_check, par_file_check in C; [left|right]; (split; [reflexivity|]); apply andb_prop in C as [C1 C2]; apply BG in C1; (split; [exact C1|]).
      * apply ends_text_iff, C2.
      * apply orb_prop in C2. rewrite !ends_text_iff in C2. exact C2.
  - intros (kind & name & folder & f & _ & _ & W & X). destruct W as [(-> & N & C)|(-> & N & C)].
    + left. destruct C as [[-> C]|[[-> C]|[-> C]]].
      * exists name, ("RawData", raw_file_check), f. split; [exact N|]. split; [cbn; tauto|]. split; [|exact X]. cbn [snd]. unfold raw_file_check. apply orb_true_intro. rewrite !ends_text_iff. exact C.
      * exists name, ("Parameters", par_file_check), f. split; [exact N|]. split; [cbn; tauto|]. split; [|exact X]. cbn [snd]. unfold par_file_check. apply andb_true_intro. rewrite ends_text_iff, BG. exact C.
      * exists name, ("Photos", photo_file_check), f. split; [exact N|]. split; [cbn; tauto|]. split; [|exact X]. cbn [snd]. unfold photo_file_check. apply andb_true_intro. rewrite ends_text_iff, BG. exact C.
    + right. destruct C as [[-> [C1 C2]]|[-> [C1 C2]]].
      * exists name, ("Parameters", par_file_check), f. split; [exact N|]. split; [cbn; tauto|]. split; [|exact X]. cbn [snd]. unfold par_file_check. apply andb_true_intro. rewrite ends_text_iff, BG. auto.
      * exists name, ("RawData", rider_raw_check), f. split; [exact N|]. split; [cbn; tauto|]. split; [|exact X]. cbn [snd]. unfold rider_raw_check. apply andb_true_intro. split; [apply BG, C1|]. apply orb_true_intro. rewrite !ends_text_iff. exact C2.
Qed.
