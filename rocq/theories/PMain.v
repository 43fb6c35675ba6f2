(* PMain.v -- lemmas for C46, C47: names of orientations, mass centres and in-plane
   inertias from exact measurements *)
From Verif Require Import Base PBase MString MVec MBicycle MInertia MGeometry MPeriod MMain SBicycle SInertia SGeometry SMain
  PBicycle PInertia PInertia2 PInertia3 PString PGeometry PGeometry2 PGeometry3 PPeriod PPeriod2 PPeriod3.
From Coq Require Import Lra Permutation Sorted.
Local Open Scope string_scope.
Local Open Scope R_scope.

(* ---------- is_fork_split ---------- *)
Lemma fork_split_iff {V} (mp : dict V) : is_fork_split mp = true <->
  exists key, In key (dkeys mp) /\ (stake 1 key = "S" \/ stake 1 (sdrop 1 key) = "S").
Proof.
  unfold is_fork_split. assert (G : forall l b, fold_left (fun acc key =>
      if String.eqb (stake 1 key) "S" || String.eqb (stake 1 (sdrop 1 key)) "S" then true else acc) l b = true <->
      b = true \/ exists key, In key l /\ (stake 1 key = "S" \/ stake 1 (sdrop 1 key) = "S")).
  { induction l as [|x l IH]; intros b; cbn [fold_left].
    - split; [auto | intros [H|(k & [] & _)]; exact H].
    - rewrite IH. destruct (String.eqb_spec (stake 1 x) "S") as [E|E], (String.eqb_spec (stake 1 (sdrop 1 x)) "S") as [F|F]; cbn [orb]; split.
      all: try (intros _; right; exists x; cbn [In]; tauto).
      all: try (intros _; left; reflexivity).
      + intros [H|(k & H & K)]; [auto|]. right. exists k. cbn [In]. tauto.
      + intros [H|(k & [<-|H] & K)]; [auto | tauto | right; exists k; tauto]. }
  rewrite G. split; [intros [H|H]; [discriminate | exact H] | auto].
Qed.
Lemma stake1 s c : stake 1 s = String c "" <-> exists t, s = String c t.
Proof.
  destruct s as [|a s]; cbn [stake]; split.
  - discriminate.
  - intros [t H]; discriminate.
  - intros H. injection H as ->. eauto.
  - intros [t H]. injection H as -> ->. reflexivity.
Qed.
Lemma fork_split_spec {V} (mp : dict V) : is_fork_split mp = true <->
  exists key rest, In key (dkeys mp) /\ (key = ("S" ++ rest)%string \/ exists c, key = String c ("S" ++ rest)).
Proof.
  rewrite fork_split_iff. split.
  - intros (key & I & H). destruct H as [H|H]; apply stake1 in H; destruct H as [t H].
    + exists key, t. split; [exact I|]. left. exact H.
    + destruct key as [|c key]; cbn [sdrop] in H; [discriminate|]. exists (String c key), t. split; [exact I|]. right. exists c. f_equal. exact H.
  - intros (key & rest & I & [H|[c H]]); exists key; (split; [exact I|]); subst key; [left | right]; reflexivity.
Qed.

(* ---------- names ---------- *)
Definition part_letter (X : string) : Prop := In X ["B"; "G"; "S"; "H"].
Definition alpha_name (X : string) (i : nat) : string := "alpha" ++ X ++ nat_str i.
Lemma small_cases i : (1 <= i <= 9)%nat -> In i [1; 2; 3; 4; 5; 6; 7; 8; 9]%nat.
Proof. intros H. cbn [In]. lia. Qed.
Ltac part_cases H := cbn [In part_letter] in H; unfold part_letter in H; cbn [In] in H;
  repeat (destruct H as [<-|H]); [..|contradiction].
Lemma alpha_part X i : part_letter X -> (1 <= i <= 9)%nat -> schar 5 (alpha_name X i) = Ok X /\
  sdrop 5 (alpha_name X i) = X ++ nat_str i /\ starts_with "alpha" (alpha_name X i) = true.
Proof.
  intros HX Hi. apply small_cases in Hi. part_cases HX; cbn [In] in Hi;
  repeat (destruct Hi as [<-|Hi]); try contradiction; repeat split; reflexivity.
Qed.
Lemma sle_compute s t : String.ltb t s = false -> sle s t. Proof. exact (fun H => H). Qed.
Lemma alpha_sorted9 X : part_letter X -> StronglySorted sle (map (alpha_name X) (seq 1 9)).
Proof.
  intros HX. part_cases HX; cbn [seq map];
  repeat (apply SSorted_cons; [|repeat (apply Forall_cons; [reflexivity|]); apply Forall_nil]); apply SSorted_nil.
Qed.
Lemma alpha_nodup9 X : part_letter X -> NoDup (map (alpha_name X) (seq 1 9)).
Proof.
  intros HX. part_cases HX; cbn [seq map];
  repeat (apply NoDup_cons; [intros K; cbn [In] in K; repeat (destruct K as [K|K]; [discriminate K|]); exact K|]); apply NoDup_nil.
Qed.
Lemma SSorted_app_l {A} (P : A -> A -> Prop) l l' : StronglySorted P (l ++ l') -> StronglySorted P l.
Proof.
  induction l as [|x l IH]; intros H; [constructor|]. inversion H as [|? ? H1 H2]; subst. constructor; [apply IH, H1|].
  apply Forall_app in H2. tauto.
Qed.
Lemma NoDup_app_l {A} (l l' : list A) : NoDup (l ++ l') -> NoDup l.
Proof.
  induction l as [|x l IH]; intros H; [constructor|]. inversion H as [|? ? H1 H2]; subst. constructor; [|apply IH, H2].
  intros K. apply H1. apply in_app_iff. auto.
Qed.
Lemma seq_9 n : (n <= 9)%nat -> exists l, map (fun i => i) (seq 1 9) = (seq 1 n ++ l)%list.
Proof. intros H. exists (seq (1 + n) (9 - n)). rewrite map_id, <- seq_app. f_equal. lia. Qed.
Lemma alpha_sorted X n : part_letter X -> (n <= 9)%nat ->
  StronglySorted sle (map (alpha_name X) (seq 1 n)) /\ NoDup (map (alpha_name X) (seq 1 n)).
Proof.
  intros HX Hn. destruct (seq_9 n Hn) as [l E]. rewrite map_id in E.
  pose proof (alpha_sorted9 X HX) as A. pose proof (alpha_nodup9 X HX) as B. rewrite E, map_app in A, B.
  split; [eapply SSorted_app_l; exact A | eapply NoDup_app_l; exact B].
Qed.
Lemma SSorted_filter {A} (P : A -> A -> Prop) f l : StronglySorted P l -> StronglySorted P (filter f l).
Proof.
  induction 1 as [|x l H IH F]; [constructor|]. cbn [filter]. destruct (f x); [|exact IH]. constructor; [exact IH|].
  apply Forall_forall. intros y Hy. apply filter_In in Hy. rewrite Forall_forall in F. apply F. tauto.
Qed.
Definition is_part (X key : string) : bool := match schar 5 key with Ok Y => String.eqb X Y | Err _ => false end.
Lemma alpha_keys mp parts n X : orientation_names mp parts n -> (forall Y, In Y parts -> part_letter Y) -> In X parts ->
  (forall i, (1 <= i <= n X)%nat -> In (alpha_name X i) (dkeys mp)) ->
  filter (is_part X) (ssort (filter (starts_with "alpha") (dkeys mp))) = map (alpha_name X) (seq 1 (n X)).
Proof.
  intros (ND & N9 & NM) PL HX PR. destruct (alpha_sorted X (n X) (PL X HX) (N9 X HX)) as [S1 S2].
  apply sorted_unique; [apply SSorted_filter, ssort_sorted | exact S1 |].
  apply NoDup_Permutation; [apply NoDup_filter, ssort_nodup, NoDup_filter, ND | exact S2 |].
  intros key. rewrite filter_In, ssort_in, filter_In, in_map_iff. split.
  - intros [[K1 K2] K3]. destruct (NM key K1 K2) as (Y & i & HY & Hi & ->).
    pose proof (N9 Y HY). destruct (alpha_part Y i (PL Y HY)) as (A & _ & _); [lia|].
    unfold is_part in K3. change (schar 5 (alpha_name Y i)) with (schar 5 ("alpha" ++ Y ++ nat_str i)) in A. rewrite A in K3.
    apply String.eqb_eq in K3. subst Y. exists i. split; [reflexivity|]. apply in_seq. lia.
  - intros (i & <- & Hi). apply in_seq in Hi. pose proof (N9 X HX).
    destruct (alpha_part X i (PL X HX)) as (A & _ & B); [lia|]. split; [split; [apply PR; lia | exact B]|].
    unfold is_part. rewrite A. apply String.eqb_refl.
Qed.
Lemma Forall2_filter {A B} (P : A -> B -> Prop) f g l l' :
  (forall a b, P a b -> f a = g b) -> Forall2 P l l' -> Forall2 P (filter f l) (filter g l').
Proof.
  intros H. induction 1 as [|a b l l' Hab F IH]; [constructor|]. cbn [filter]. rewrite (H a b Hab).
  destruct (g b); [constructor; assumption | exact IH].
Qed.
Lemma Forall2_map_l {A B C} (P : A -> B -> Prop) (f : C -> A) l l' : Forall2 P (map f l) l' <-> Forall2 (fun c b => P (f c) b) l l'.
Proof.
  split.
  - revert l'. induction l as [|x l IH]; intros l' H; inversion H; subst; constructor; auto.
  - induction 1; constructor; auto.
Qed.
Lemma Forall2_map_r {A B C} (P : A -> B -> Prop) (f : C -> B) l l' : Forall2 P l (map f l') <-> Forall2 (fun a c => P a (f c)) l l'.
Proof.
  split.
  - revert l. induction l' as [|x l' IH]; intros l H; inversion H; subst; constructor; auto.
  - induction 1; constructor; auto.
Qed.
Lemma Forall2_weaken {A B} (P Q : A -> B -> Prop) l l' : (forall a b, In a l -> In b l' -> P a b -> Q a b) -> Forall2 P l l' -> Forall2 Q l l'.
Proof.
  intros H F. induction F as [|a b l l' Hab F IH]; constructor.
  - apply H; cbn [In]; auto.
  - apply IH. intros a' b' Ia Ib. apply H; right; assumption.
Qed.

(* lines of the part X: one per orientation, in order *)
Lemma part_lines mp par parts n X l1 l2 es :
  orientation_names mp parts n -> (forall Y, In Y parts -> part_letter Y) -> In X parts ->
  (forall i, (1 <= i <= n X)%nat -> In (alpha_name X i) (dkeys mp)) ->
  Forall2 (com_entry mp par l1 l2) (ssort (filter (starts_with "alpha") (dkeys mp))) es ->
  Forall2 (fun i e => exists alpha a, dget mp ("alpha" ++ X ++ nat_str i) = Some alpha /\ dget mp ("a" ++ X ++ nat_str i) = Some a /\
             com_line alpha a par X l1 l2 = Ok e) (seq 1 (n X)) (of_part X es).
Proof.
  intros ON PL HX PR F. pose proof (alpha_keys mp parts n X ON PL HX PR) as E.
  apply (Forall2_filter _ (is_part X) (fun e => String.eqb X (fst e))) in F.
  2:{ intros key e (al & a & _ & _ & S & _). unfold is_part. rewrite S. reflexivity. }
  rewrite E in F. apply (proj1 (Forall2_map_l _ _ _ _)) in F. unfold of_part. apply Forall2_map_r.
  eapply Forall2_weaken; [|exact F]. intros i e Hi He (al & a & A1 & A2 & A3 & A4). cbn beta in *.
  apply in_seq in Hi. destruct ON as (_ & N9 & _). pose proof (N9 X HX).
  destruct (alpha_part X i (PL X HX)) as (B1 & B2 & _); [lia|]. exists al, a.
  rewrite B2 in A2. apply dlook_inv in A1, A2. rewrite B1 in A3. injection A3 as A3.
  split; [exact A1|]. split; [exact A2|]. rewrite A3. exact A4.
Qed.

(* ---------- a hanging part ---------- *)
Lemma hanging_unique lam alpha r u : hanging_directions lam alpha r u ->
  r = (- sin (lam - alpha), - cos (lam - alpha)) /\ u = (- cos (lam - alpha), sin (lam - alpha)).
Proof.
  destruct r as [r1 r2], u as [u1 u2]. unfold hanging_directions, dot2; cbn [fst snd]. intros (A & B & _ & D & E).
  assert (Z : (u1 - r2) ^ 2 + (u2 + r1) ^ 2 = 0).
  { transitivity ((r1 * r1 + r2 * r2) + (u1 * u1 + u2 * u2) - 2 * (r1 * - u2 - - r2 * u1)); [ring | rewrite A, B, D; ring]. }
  pose proof (pow2_ge_0 (u1 - r2)). pose proof (pow2_ge_0 (u2 + r1)).
  assert (Q : forall t, t ^ 2 = 0 -> t = 0) by (intros t T; apply Rsqr_0_uniq; unfold Rsqr; lra).
  assert (U1 : u1 = r2) by (apply Rminus_diag_uniq, Q; lra). assert (U2 : u2 = - r1) by (assert (u2 + r1 = 0) by (apply Q; lra); lra).
  subst u1 u2. injection E as E1 E2. rewrite sin_minus, cos_minus. pose proof (sc1 alpha) as S.
  assert (R1 : r1 = cos alpha * - sin lam - sin alpha * - cos lam).
  { rewrite E1, E2. transitivity (r1 * (sin alpha * sin alpha + cos alpha * cos alpha)); [rewrite S; ring | ring]. }
  assert (R2 : r2 = sin alpha * - sin lam + cos alpha * - cos lam).
  { rewrite E1, E2. transitivity (r2 * (sin alpha * sin alpha + cos alpha * cos alpha)); [rewrite S; ring | ring]. }
  split; f_equal; lra.
Qed.
Lemma up_moment b beta : moment (tensor_of b) (mk3 (- cos beta) 0 (sin beta)) = moment (planar (mk3 (b_xx b) (b_xz b) (b_zz b))) (axis_dir beta).
Proof. unfold moment, tensor_of, planar, axis_dir. vsimpl. ring. Qed.

(* the mass centre and the planar inertia of a part *)
Section Part.
Variables (mp par : dict R) (T : rbike) (k : R) (X : string) (ref : R * R) (n : nat) (l1 l2 : R) (es : list (R * R * R)).
Hypothesis Hlam : dget par "lam" = Some (rb_lam T).
Hypothesis Href : reference_point (pv par "w") (pv par "rR") (pv par "rF") (pv par "lam") X l1 l2 = ref.
Hypothesis EP : exact_part mp T k X ref n.
Hypothesis ES : Forall2 (fun i e => exists alpha a, dget mp ("alpha" ++ X ++ nat_str i) = Some alpha /\ dget mp ("a" ++ X ++ nat_str i) = Some a /\
             com_line alpha a par X l1 l2 = Ok e) (seq 1 n) es.
Let b := rb_part T X.
Lemma part_line_facts : Forall2 (fun i e => match e with (m, c, beta) =>
    on2 m c (b_x b, b_z b) /\
    (exists Tt, dget mp ("Tt" ++ X ++ nat_str i) = Some Tt /\
       tor_inertia k Tt = moment (planar (mk3 (b_xx b) (b_xz b) (b_zz b))) (axis_dir beta)) end) (seq 1 n) es.
Proof.
  destruct EP as (_ & EO & _). eapply Forall2_weaken; [|exact ES].
  intros i [[m c] beta] Hi _ (alpha & a & A1 & A2 & A3). apply in_seq in Hi.
  destruct (EO i) as (alpha' & a' & Tt & rr & u & B1 & B2 & B3 & HD & DA & TN & OS); [lia|].
  replace alpha' with alpha in * by congruence. replace a' with a in * by congruence.
  apply com_line_spec in A3. cbv zeta in A3. rewrite Href in A3. destruct A3 as (_ & BE & _ & _ & L).
  assert (PL : pv par "lam" = rb_lam T) by (unfold pv; rewrite Hlam; reflexivity). rewrite PL in BE.
  apply hanging_unique in HD. rewrite <- BE in HD. destruct HD as [-> ->]. split.
  - apply L. cbn [fst snd]. unfold dot2 in DA. cbn [fst snd] in DA. fold b in DA. lra.
  - exists Tt. split; [exact B3|]. apply torsional_spec in OS; [|exact TN]. cbn [fst snd] in OS. fold b in OS. rewrite up_moment in OS. symmetry. exact OS.
Qed.
Lemma in_lines sl ic (e : list (R * R * R)) : sl = map (fun t => fst (fst t)) e -> ic = map (fun t => snd (fst t)) e ->
  forall s c, In (s, c) (combine sl ic) -> exists beta, In (s, c, beta) e.
Proof.
  intros -> ->. induction e as [|[[s0 c0] b0] e IH]; cbn [map combine In fst snd]; [tauto|].
  intros s c [H|H]; [injection H as -> ->; exists b0; auto|]. destruct (IH s c H) as [be Hb]. exists be. auto.
Qed.
Lemma Forall2_in_r {A B} (P : A -> B -> Prop) l l' y : Forall2 P l l' -> In y l' -> exists x, In x l /\ P x y.
Proof.
  induction 1 as [|x y' l l' H F IH]; cbn [In]; [tauto|]. intros [->|I]; [exists x; auto|]. destruct (IH I) as (x' & I' & P'). exists x'. auto.
Qed.
Lemma part_centre q : center_of_mass (map (fun t => fst (fst t)) es) (map (fun t => snd (fst t)) es) = Ok q -> q = (b_x b, b_z b).
Proof.
  intros H. set (sl := map (fun t => fst (fst t)) es) in *. set (ic := map (fun t => snd (fst t)) es) in *.
  assert (L : length sl = length ic) by (unfold sl, ic; rewrite !map_length; reflexivity).
  destruct (proj1 (com_defined sl ic L) (ex_intro _ q H)) as [L2 ND].
  assert (C : center_of_mass sl ic = Ok (b_x b, b_z b)).
  { apply com_exact; auto. intros s c I. destruct (in_lines sl ic es eq_refl eq_refl s c I) as [be Ib].
    destruct (Forall2_in_r _ _ _ _ part_line_facts Ib) as (i & _ & F & _). exact F. }
  rewrite C in H. injection H as <-. reflexivity.
Qed.
Lemma seq_S_map (m c : nat) : seq (S c) m = map (fun i => (i + 1)%nat) (seq c m).
Proof. revert c. induction m as [|m IH]; intros c; cbn [seq map]; [reflexivity|]. f_equal; [lia | apply IH]. Qed.
Lemma part_pendulum pen : bm_part_inertias mp k X (length (map (fun t => fst (fst t)) es)) = Ok pen ->
  pen = map (fun be => moment (planar (mk3 (b_xx b) (b_xz b) (b_zz b))) (axis_dir be)) (map snd es).
Proof.
  rewrite map_length. unfold bm_part_inertias.
  assert (LN : length es = n) by (rewrite <- (Forall2_len _ _ _ part_line_facts), seq_length; reflexivity).
  pose proof part_line_facts as F. rewrite LN.
  assert (SQ : seq 1 n = map (fun i => (i + 1)%nat) (seq 0 n)).
  { exact (seq_S_map n 0). }
  rewrite SQ in F. apply (proj1 (Forall2_map_l _ _ _ _)) in F. clear SQ LN ES. revert pen. induction F as [|i [[m c] be] l e Hi F IH]; intros pen H; cbn [mapM] in H.
  - injection H as <-. reflexivity.
  - step_bind H. step_bind E. apply dlook_inv in E0. destruct Hi as (_ & Tt & G & Q). rewrite G in E0. injection E0 as ->. injection E as <-.
    step_bind H. injection H as <-. rewrite (IH _ E). cbn [map snd]. rewrite Q. reflexivity.
Qed.
Lemma part_inertia pen J : bm_part_inertias mp k X (length (map (fun t => fst (fst t)) es)) = Ok pen ->
  inertia_components pen (map snd es) = Ok J -> J = mk3 (b_xx b) (b_xz b) (b_zz b).
Proof. intros H K. apply part_pendulum in H. subst pen. exact (components_exact _ _ _ K). Qed.
End Part.
