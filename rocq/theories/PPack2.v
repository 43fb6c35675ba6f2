(* PPack2.v -- no file is packed twice *)
From Coq Require Import Lia.
From Verif Require Import Base MString MIo MPeriod MMain SIo MState SState MPack SPack PBase PString PIo PState PState2 PPack.
Local Open Scope string_scope.

Lemma app_inj p u v : p ++ u = p ++ v -> u = v.
Proof. induction p as [|c p IH]; intros E; [exact E|injection E as E; apply IH, E]. Qed.
Lemma slash_inj a a' b b' : free slash a -> free slash a' -> a ++ String slash b = a' ++ String slash b' -> a = a' /\ b = b'.
Proof.
  revert a'. induction a as [|c a IH]; intros [|c' a'] F F' E; cbn [append] in E.
  - injection E as E. auto.
  - injection E as E1 E2. exfalso. apply free_cons in F' as [F' _]. apply F'. congruence.
  - injection E as E1 E2. exfalso. apply free_cons in F as [F _]. apply F. congruence.
  - injection E as E1 E2. apply free_cons in F as [_ F]. apply free_cons in F' as [_ F']. destruct (IH a' F F' E2) as [-> ->]. subst. auto.
Qed.
Lemma file_inj data kind n1 o1 f1 n2 o2 f2 : entry_ok n1 o1 -> entry_ok n2 o2 -> file_of data kind n1 o1 f1 = file_of data kind n2 o2 f2 -> n1 = n2 /\ o1 = o2 /\ f1 = f2.
Proof.
  intros E1 E2 E. destruct (names_free n1 o1 E1) as (A1 & _ & A2 & _). destruct (names_free n2 o2 E2) as (B1 & _ & B2 & _). unfold file_of, folder_of in E. rewrite !sapp_assoc in E. apply app_inj in E. injection E as E. apply app_inj in E. injection E as E.
  apply slash_inj in E as [-> E]; [|assumption..]. apply slash_inj in E as [-> ->]; auto.
Qed.
Lemma nodup_options {A B} (e : A -> option B) l : NoDup l -> (forall p q n, e p = Some n -> e q = Some n -> p = q) -> NoDup (flat_map (fun p => match e p with Some n => [n] | None => [] end) l).
Proof.
  intros ND I. induction ND as [|x l N ND IH]; [constructor|]. cbn [flat_map]. destruct (e x) as [n|] eqn:E; [|exact IH]. cbn [app]. constructor; [|exact IH]. intros H. apply in_flat_map in H as (q & Q & H). destruct (e q) as [m|] eqn:E2; [|destruct H]. destruct H as [->|[]]. rewrite (I x q n E E2) in N. contradiction.
Qed.
Lemma listdir_nodup fs d names : NoDup (fs_dirs fs ++ dkeys (fs_files fs))%list -> listdir fs d = Ok names -> NoDup names.
Proof.
  intros ND. unfold listdir. destruct (isdir fs d); [|discriminate]. intros H. injection H as <-. apply nodup_options; [exact ND|]. intros p q n P Q. apply entry_of_iff in P as [-> _]. apply entry_of_iff in Q as [-> _]. reflexivity.
Qed.
Lemma nodup_concat {A B C} (g : A -> res (list (B * C))) l ys : mapM g l = Ok ys -> NoDup l -> (forall x y, In x l -> g x = Ok y -> NoDup (map snd y)) ->
  (forall x x' y y' n n' p, In x l -> In x' l -> g x = Ok y -> g x' = Ok y' -> In (n, p) y -> In (n', p) y' -> x = x') -> NoDup (map snd (concat ys)).
Proof.
  intros M ND. revert ys M. induction ND as [|x l N ND IH]; intros ys M H D; cbn [mapM] in M; [injection M as <-; constructor|]. apply bind_ok in M as (y & E & M). apply bind_ok in M as (zs & M & Q). injection Q as <-. cbn [concat]. rewrite map_app.
  assert (R : NoDup (map snd (concat zs))) by (apply IH; [exact M|intros; eapply H; [right|]; eassumption|intros; eapply D; try (right; eassumption); eassumption]).
  pose proof (H x y (or_introl eq_refl) E) as HY. clear IH.
  assert (X : forall p, In p (map snd y) -> ~ In p (map snd (concat zs))).
  { intros p P1 P2. apply in_map_iff in P1 as ([n p1] & Z1 & P1). apply in_map_iff in P2 as ([n' p2] & Z2 & P2). cbn in Z1, Z2. subst p1 p2. apply in_concat in P2 as (y' & P2 & P3). apply mapM_ok in M.
    assert (exists x', In x' l /\ g x' = Ok y') as (x' & I' & E').
    { clear -M P2. induction M as [|a b l zs Q M IH]; [destruct P2|]. destruct P2 as [<-|P2]; [exists a; split; [left; reflexivity|exact Q]|]. destruct (IH P2) as (x' & I & E). exists x'. split; [right; exact I|exact E]. }
    apply N. rewrite (D x x' y y' n n' p (or_introl eq_refl) (or_intror I') E E' P1 P3). exact I'. }
  clear -HY R X. induction (map snd y) as [|p k IH]; [exact R|]. inversion HY; subst. cbn [app]. constructor; [rewrite in_app_iff; intros [Q|Q]; [contradiction|exact (X p (or_introl eq_refl) Q)]|]. apply IH; [assumption|intros q Q; apply X; right; exact Q].
Qed.
Lemma folder_once fs data kind name fr l : NoDup (fs_dirs fs ++ dkeys (fs_files fs))%list -> plain data -> kinds kind -> entry_ok name (fst fr) -> pack_folder fs data kind name fr = Ok l -> NoDup (map snd l).
Proof.
  intros ND P K E. unfold pack_folder. destruct (folder_path data kind name (fst fr) P K E) as [-> PF]. set (d := folder_of data kind name (fst fr)) in *. cbv zeta. destruct (listdir fs d) as [files|e] eqn:L; [|intros H; injection H as <-; constructor].
  intros H. pose proof (listdir_nodup fs d files ND L) as NF. destruct (listdir_ok fs d files L) as [_ HE].
  assert (S : map snd l = map (os_join d) (filter (fun f => snd fr f name) files)).
  { revert l H. generalize (filter (fun f => snd fr f name) files). clear. intros k. induction k as [|f k IH]; intros l H; cbn [mapM] in H; [injection H as <-; reflexivity|]. apply bind_ok in H as (y & E & H). apply bind_ok in H as (zs & M & Q). injection Q as <-. apply bind_ok in E as (n & _ & E). injection E as <-. cbn. f_equal. apply IH, M. }
  rewrite S. assert (NK : NoDup (filter (fun f => snd fr f name) files)) by (apply NoDup_filter, NF). assert (IK : forall f, In f (filter (fun f => snd fr f name) files) -> os_join d f = d ++ "/" ++ f) by (intros f I; apply filter_In in I as [I _]; apply HE in I as (_ & F & _); apply os_join_plain; [exact PF|apply free_slash_start, F]).
  clear -NK IK. induction NK as [|f k N NK IH]; [constructor|]. cbn [map]. constructor; [|apply IH; intros g G; apply IK; right; exact G]. intros H. apply in_map_iff in H as (g & E & G). rewrite (IK f (or_introl eq_refl)), (IK g (or_intror G)) in E. apply app_inj, app_inj in E. subst g. contradiction.
Qed.
Lemma all_once fs data kind names rules l : NoDup (fs_dirs fs ++ dkeys (fs_files fs))%list -> plain data -> kinds kind -> NoDup names -> NoDup rules -> (forall name fr, In name names -> In fr rules -> entry_ok name (fst fr)) ->
  (forall fr fr', In fr rules -> In fr' rules -> fst fr = fst fr' -> fr = fr') -> pack_all fs data kind names rules = Ok l -> NoDup (map snd l).
Proof.
  intros ND P K NN NR EO UR H. unfold pack_all in H. apply bind_ok in H as (ys & M & Q). injection Q as <-.
  assert (A : forall name y, In name names -> (k <- mapM (pack_folder fs data kind name) rules ;; Ok (concat k)) = Ok y -> NoDup (map snd y) /\ forall n p, In (n, p) y -> exists fr f, In fr rules /\ p = file_of data kind name (fst fr) f).
  { intros name y HN Q. apply bind_ok in Q as (k & Q & E). injection E as <-.
    assert (FM : forall fr z, In fr rules -> pack_folder fs data kind name fr = Ok z -> forall n p, In (n, p) z -> exists f, p = file_of data kind name (fst fr) f).
    { intros fr z HR Z n p I. destruct (folder_members fs data kind name fr P K (EO name fr HN HR)) as [z' [Z' MM]]. rewrite Z in Z'. injection Z' as <-. apply MM in I as (f & _ & _ & _ & -> & _). exists f. reflexivity. }
    split.
    - apply (nodup_concat _ _ _ Q NR); [intros fr z HR Z; eapply folder_once; eauto|]. intros fr fr' z z' n n' p HR HR' Z Z' I I'. destruct (FM fr z HR Z n p I) as [f ->]. destruct (FM fr' z' HR' Z' n' _ I') as [f' E]. apply file_inj in E as (_ & E & _); [|apply EO; assumption..]. apply UR; assumption.
    - intros n p I. apply in_concat in I as (z & Z & I). apply mapM_ok in Q. assert (exists fr, In fr rules /\ pack_folder fs data kind name fr = Ok z) as (fr & HR & E).
      { clear -Q Z. induction Q as [|a b l zs E M IH]; [destruct Z|]. destruct Z as [<-|Z]; [exists a; split; [left; reflexivity|exact E]|]. destruct (IH Z) as (x & I & X). exists x. split; [right; exact I|exact X]. }
      destruct (FM fr z HR E n p I) as [f F]. exists fr, f. split; [exact HR|exact F]. }
  apply (nodup_concat _ _ _ M NN); [intros name y HN Q; apply (A name y HN Q)|]. intros name name' y y' n n' p HN HN' Q Q' I I'. destruct (A name y HN Q) as [_ B]. destruct (A name' y' HN' Q') as [_ B']. destruct (B n p I) as (fr & f & HR & ->). destruct (B' n' _ I') as (fr' & f' & HR' & E). apply file_inj in E as (E & _); [exact E|apply EO; assumption..].
Qed.
Lemma package_once fs data l : NoDup (fs_dirs fs ++ dkeys (fs_files fs))%list -> plain data -> package_data fs data = Ok l -> NoDup (map snd l).
Proof.
  intros ND P H. unfold package_data in H. apply bind_ok in H as (b & Hb & H). apply bind_ok in H as (r & Hr & H). injection H as <-.
  assert (E1 : forall name fr, In name bicycles -> In fr bicycle_rules -> entry_ok name (fst fr)) by (intros name fr N [<-|[<-|[<-|[]]]]; (split; [apply in_or_app; left; exact N|cbn; tauto])).
  assert (E2 : forall name fr, In name riders -> In fr rider_rules -> entry_ok name (fst fr)) by (intros name fr N [<-|[<-|[]]]; (split; [apply in_or_app; right; exact N|cbn; tauto])).
  assert (Nb : NoDup bicycles) by (unfold bicycles; repeat constructor; cbn; intuition discriminate). assert (Nr : NoDup riders) by (unfold riders; repeat constructor; cbn; intuition discriminate).
  assert (F : forall rules : list (string * (string -> string -> bool)), NoDup (map fst rules) -> NoDup rules /\ forall fr fr', In fr rules -> In fr' rules -> fst fr = fst fr' -> fr = fr').
  { clear. intros rules. induction rules as [|x k IH]; intros N; [split; [constructor|intros ? ? []]|]. cbn [map] in N. inversion N as [|? ? N1 N2]; subst. destruct (IH N2) as [I1 I2]. split; [constructor; [intros Q; apply N1, in_map, Q|exact I1]|].
    intros fr fr' [<-|A] [<-|B] E; auto; exfalso; apply N1; [rewrite E|rewrite <- E]; apply in_map; assumption. }
  destruct (F bicycle_rules) as [F1 F2]; [cbn; repeat constructor; cbn; intuition discriminate|]. destruct (F rider_rules) as [G1 G2]; [cbn; repeat constructor; cbn; intuition discriminate|].
  pose proof (all_once fs data "bicycles" bicycles bicycle_rules b ND P (or_introl eq_refl) Nb F1 E1 F2 Hb) as Q1. pose proof (all_once fs data "riders" riders rider_rules r ND P (or_intror eq_refl) Nr G1 E2 G2 Hr) as Q2.
  rewrite map_app. destruct (all_members fs data "bicycles" bicycles bicycle_rules P (or_introl eq_refl) E1) as [b' [B1 B2]]. destruct (all_members fs data "riders" riders rider_rules P (or_intror eq_refl) E2) as [r' [R1 R2]]. rewrite Hb in B1. injection B1 as <-. rewrite Hr in R1. injection R1 as <-.
  assert (X : forall p, In p (map snd b) -> ~ In p (map snd r)).
  { intros p P1 P2. apply in_map_iff in P1 as ([n p1] & Z1 & P1). apply in_map_iff in P2 as ([n' p2] & Z2 & P2). cbn in Z1, Z2. subst p1 p2. apply B2 in P1 as (n1 & f1 & g1 & _ & _ & _ & _ & _ & -> & _). apply R2 in P2 as (n2 & f2 & g2 & _ & _ & _ & _ & _ & E & _). unfold file_of, folder_of in E. rewrite !sapp_assoc in E. apply app_inj in E. discriminate. }
  clear -Q1 Q2 X. induction (map snd b) as [|p k IH]; [exact Q2|]. inversion Q1; subst. cbn [app]. constructor; [rewrite in_app_iff; intros [Q|Q]; [contradiction|exact (X p (or_introl eq_refl) Q)]|]. apply IH; [assumption|intros q Q; apply X; right; exact Q].
Qed.
