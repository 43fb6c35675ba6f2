(* PGeometry3.v -- lemmas behind C20 and C21 *)
From Verif Require Import Base MString PBase MBicycle MVec MInertia MGeometry SBicycle SInertia SGeometry PBicycle PBicycle2 PInertia PString PGeometry PGeometry2.
From Coq Require Import Lra Permutation ZArith Sorted.
Local Open Scope string_scope.
Local Open Scope R_scope.

(* ---------- ordered pairs ---------- *)
Lemma ordered_pairs_map {A B} (f : A -> B) l :
  ordered_pairs (map f l) = map (fun p => (f (fst p), f (snd p))) (ordered_pairs l).
Proof.
  induction l as [|x l IH]; [reflexivity|]. cbn [map ordered_pairs]. rewrite !map_app, !map_map, IH. reflexivity.
Qed.
Lemma ordered_pairs_in {A} (l : list A) p : In p (ordered_pairs l) -> In (fst p) l /\ In (snd p) l.
Proof.
  induction l as [|x l IH]; cbn [ordered_pairs]; [tauto|]. rewrite !in_app_iff, !in_map_iff.
  intros [(y & <- & H)|[(y & <- & H)|H]]; cbn [fst snd In]; auto. apply IH in H. tauto.
Qed.
Lemma ordered_pairs_in_nodup {A} (l : list A) p : NoDup l ->
  (In p (ordered_pairs l) <-> In (fst p) l /\ In (snd p) l /\ fst p <> snd p).
Proof.
  destruct p as [a b]. induction 1 as [|x l N H IH]; cbn [ordered_pairs]; [simpl; tauto|].
  rewrite !in_app_iff, !in_map_iff, IH. cbn [fst snd In]. split.
  - intros [(y & E & K)|[(y & E & K)|K]].
    + injection E as <- <-. repeat split; auto. intros ->; contradiction.
    + injection E as <- <-. repeat split; auto. intros ->; contradiction.
    + tauto.
  - intros ([<-|Ha] & [<-|Hb] & D); try congruence.
    + left. eauto.
    + right; left. eauto.
    + tauto.
Qed.
Lemma ordered_pairs_nodup {A} (l : list A) : NoDup l -> NoDup (ordered_pairs l).
Proof.
  induction 1 as [|x l N H IH]; cbn [ordered_pairs]; [constructor|].
  apply nodup_app_s; [|apply nodup_app_s; [|exact IH|]|].
  - apply FinFun.Injective_map_NoDup; [|exact H]. intros u v E; congruence.
  - apply FinFun.Injective_map_NoDup; [|exact H]. intros u v E; congruence.
  - intros p P Q. apply in_map_iff in P. destruct P as (y & <- & _). apply ordered_pairs_in in Q. cbn [snd] in Q. tauto.
  - intros p P Q. apply in_map_iff in P. destruct P as (y & <- & Y). apply in_app_iff in Q. destruct Q as [Q|Q].
    + apply in_map_iff in Q. destruct Q as (z & E & Z). injection E as -> ->. contradiction.
    + apply ordered_pairs_in in Q. cbn [fst] in Q. tauto.
Qed.
Lemma ordered_pairs_perm {A} (l l' : list A) : Permutation l l' -> Permutation (ordered_pairs l) (ordered_pairs l').
Proof.
  induction 1 as [|x l l' P IH|x y l|l l' l'' P1 IH1 P2 IH2]; cbn [ordered_pairs map].
  - constructor.
  - apply Permutation_app; [apply Permutation_map; exact P|]. apply Permutation_app; [apply Permutation_map; exact P | exact IH].
  - set (X1 := map (fun z => (x, z)) l). set (X2 := map (fun z => (z, x)) l). set (Y1 := map (fun z => (y, z)) l). set (Y2 := map (fun z => (z, y)) l).
    simpl app. rewrite !app_assoc.
    (* (y,x) :: Y1 ++ (x,y) :: Y2 ++ X1 ++ X2 ++ rest *)
    transitivity ((y, x) :: (x, y) :: (Y1 ++ Y2 ++ X1 ++ X2) ++ ordered_pairs l)%list.
    + constructor. rewrite <- !app_assoc. symmetry. apply Permutation_cons_app. reflexivity.
    + rewrite perm_swap. constructor. rewrite <- !app_assoc. apply Permutation_cons_app.
      rewrite !app_assoc. apply Permutation_app_tail. rewrite <- !app_assoc.
      rewrite (Permutation_app_comm Y1). rewrite <- !app_assoc.
      transitivity ((X1 ++ X2) ++ (Y2 ++ Y1))%list.
      { rewrite <- !app_assoc. rewrite (app_assoc X1 X2). rewrite (app_assoc X1 X2). rewrite app_assoc. rewrite (Permutation_app_comm Y2). rewrite <- !app_assoc. reflexivity. }
      rewrite <- app_assoc. apply Permutation_app_head, Permutation_app_head, Permutation_app_comm.
  - etransitivity; eassumption.
Qed.

(* ---------- center_of_mass ---------- *)
Lemma line_intersection_ok s0 s1 b0 b1 q :
  line_intersection s0 s1 b0 b1 = Ok q <-> s0 <> s1 /\ meets (s0, b0) (s1, b1) q.
Proof.
  unfold line_intersection, meets, on2; cbn [fst snd]. set (det := - s0 * 1 - 1 * - s1). split.
  - intros H. repeat step_bind H. repeat match goal with X : rdiv _ _ = Ok _ |- _ => apply rdiv_ok in X; destruct X as [? ->] end.
    injection H as <-. cbn [fst snd]. assert (D : s1 - s0 <> 0) by (unfold det in *; lra).
    split; [lra|]. unfold det. split; field; lra.
  - intros (N & A & B). assert (D : det <> 0) by (unfold det; lra). rewrite !rdiv_eq by exact D. cbn [bind]. f_equal.
    destruct q as [x z]; cbn [fst snd] in *. assert (B0 : b0 = z - s0 * x) by lra. assert (B1 : b1 = z - s1 * x) by lra.
    rewrite B0, B1. unfold det. f_equal; field; lra.
Qed.
Definition com_rows (n : nat) : list (list nat) :=
  filter (fun row => negb (Nat.eqb (nth 0 row 0%nat) (nth 1 row 0%nat))) (lex [seq 0 n; seq 0 n]).
Lemma com_rows_perm n :
  Permutation (map (fun row => (nth 0 row 0%nat, nth 1 row 0%nat)) (com_rows n)) (ordered_pairs (seq 0 n)).
Proof.
  assert (SH : forall row, In row (lex [seq 0 n; seq 0 n]) -> exists i j, row = [i; j] /\ In i (seq 0 n) /\ In j (seq 0 n)).
  { intros row H. apply lex_in in H. inversion H as [|i ? t ? Hi T]; subst. inversion T as [|j ? t' ? Hj T']; subst. inversion T'; subst. eauto. }
  apply NoDup_Permutation.
  - unfold com_rows. assert (ND : NoDup (lex [seq 0 n; seq 0 n])).
    { apply lex_nodup. repeat constructor; apply seq_NoDup. }
    pose proof (NoDup_filter (fun row => negb (Nat.eqb (nth 0 row 0%nat) (nth 1 row 0%nat))) ND) as NF.
    revert NF. fold (com_rows n).
    assert (IN : forall row, In row (com_rows n) -> In row (lex [seq 0 n; seq 0 n])) by (intros row H; apply filter_In in H; tauto).
    revert IN. generalize (com_rows n). intros l IN. induction 1 as [|r l N H IH]; simpl; constructor.
    + intros K. apply in_map_iff in K. destruct K as (r' & E & K). apply N.
      destruct (SH r (IN r (or_introl eq_refl))) as (i & j & -> & _). destruct (SH r' (IN r' (or_intror K))) as (i' & j' & -> & _).
      cbn [nth] in E. injection E as -> ->. exact K.
    + apply IH. intros row Hr. apply IN. right. exact Hr.
  - apply ordered_pairs_nodup, seq_NoDup.
  - intros [i j]. rewrite ordered_pairs_in_nodup by apply seq_NoDup. cbn [fst snd]. rewrite in_map_iff. split.
    + intros (row & E & H). unfold com_rows in H. apply filter_In in H. destruct H as [H B].
      destruct (SH row H) as (i' & j' & -> & Hi & Hj). cbn [nth] in E, B. injection E as <- <-.
      repeat split; auto. intros ->. rewrite Nat.eqb_refl in B. discriminate.
    + intros (Hi & Hj & D). exists [i; j]. split; [reflexivity|]. unfold com_rows. apply filter_In. split.
      * apply lex_in. repeat constructor; assumption.
      * cbn [nth]. apply negb_true_iff, Nat.eqb_neq. exact D.
Qed.
Lemma rsum_perm l l' : Permutation l l' -> rsum l = rsum l'.
Proof. induction 1; simpl; lra. Qed.
Lemma mean_perm l l' : Permutation l l' -> mean l = mean l'.
Proof. intros P. unfold mean. rewrite (rsum_perm _ _ P), (Permutation_length P). reflexivity. Qed.
Lemma index_combine (sl ic : list R) i : length sl = length ic -> (i < length sl)%nat ->
  index sl i = Ok (fst (nth i (combine sl ic) (0, 0))) /\ index ic i = Ok (snd (nth i (combine sl ic) (0, 0))).
Proof.
  intros L Hi. rewrite combine_nth by exact L. cbn [fst snd]. unfold index.
  rewrite (nth_error_nth' sl 0 Hi). rewrite (nth_error_nth' ic 0) by lia. auto.
Qed.
Lemma Forall2_map_l {A B C} (f : A -> B) (P : B -> C -> Prop) l l' : Forall2 P (map f l) l' <-> Forall2 (fun a c => P (f a) c) l l'.
Proof.
  split; revert l'; induction l as [|x l IH]; intros l' H; inversion H; subst; constructor; auto.
Qed.
Lemma Forall2_iff_in {A B} (P Q : A -> B -> Prop) l l' : (forall a b, In a l -> (P a b <-> Q a b)) -> Forall2 P l l' <-> Forall2 Q l l'.
Proof.
  revert l'. induction l as [|x l IH]; intros l' H; split; intros F; inversion F; subst; constructor.
  - apply H; simpl; auto.
  - apply (IH l'0); auto. intros a b Ha; apply H; simpl; auto.
  - apply H; simpl; auto.
  - apply (IH l'0); auto. intros a b Ha; apply H; simpl; auto.
Qed.
Lemma com_mean slopes intercepts x z : length slopes = length intercepts ->
  (center_of_mass slopes intercepts = Ok (x, z) <->
   exists pts, Forall2 meet_at (ordered_pairs (combine slopes intercepts)) pts /\ pts <> [] /\
     x = mean (map fst pts) /\ z = mean (map snd pts)).
Proof.
  intros L. set (n := length slopes). set (lines := combine slopes intercepts).
  set (at_ := fun i => nth i lines (0, 0)).
  assert (LL : lines = map at_ (seq 0 n)).
  { unfold at_. replace n with (length lines); [symmetry; apply map_nth_seq|]. unfold lines. rewrite combine_length. lia. }
  set (g := fun row : list nat => (at_ (nth 0 row 0%nat), at_ (nth 1 row 0%nat))).
  assert (PP : Permutation (map g (com_rows n)) (ordered_pairs lines)).
  { rewrite LL, ordered_pairs_map. rewrite <- (Permutation_map _ (com_rows_perm n)). rewrite map_map. reflexivity. }
  assert (F : forall pts, mapM (fun row =>
      s0 <- index slopes (nth 0 row 0%nat) ;; s1 <- index slopes (nth 1 row 0%nat) ;;
      b0 <- index intercepts (nth 0 row 0%nat) ;; b1 <- index intercepts (nth 1 row 0%nat) ;;
      line_intersection s0 s1 b0 b1) (com_rows n) = Ok pts <-> Forall2 meet_at (map g (com_rows n)) pts).
  { intros pts. rewrite Forall2_map_l. split; [intros H; apply mapM_ok in H | intros H; apply mapM_intro]; revert H; apply Forall2_iff_in.
    all: intros row q Hr; unfold com_rows in Hr; apply filter_In in Hr; destruct Hr as [Hr _]; apply lex_in in Hr;
      inversion Hr as [|i ? t ? Hi T]; subst; inversion T as [|j ? t' ? Hj T']; subst; inversion T'; subst;
      cbn [nth] in *; apply in_seq in Hi, Hj;
      destruct (index_combine slopes intercepts i L) as [A1 A2]; [unfold n in *; lia|];
      destruct (index_combine slopes intercepts j L) as [B1 B2]; [unfold n in *; lia|];
      rewrite A1, A2, B1, B2; cbn [bind]; rewrite line_intersection_ok; unfold meet_at, g, at_, meets; cbn [nth fst snd]; fold lines;
      destruct (nth i lines (0,0)), (nth j lines (0,0)); cbn [fst snd]; tauto. }
  unfold center_of_mass. fold n. destruct n as [|n'] eqn:N0.
  { (* no lines *)
    assert (E0 : lines = []) by (rewrite LL; reflexivity). rewrite E0. cbn [seq ordered_pairs]. split.
    - intros H. exfalso. apply bind_ok in H. destruct H as [all [H1 H]]. cbv in H1. injection H1 as <-.
      cbn [filter mapM bind map rsum fold_right length INR] in H. apply bind_ok in H. destruct H as [t [H _]].
      apply rdiv_ok in H. destruct H as [H _]. apply H. reflexivity.
    - intros (pts & H & NE & _). inversion H; subst. congruence. }
  rewrite <- N0 in *. unfold cartesian. rewrite cartesian_into_lex; [| congruence | rewrite N0; repeat constructor; discriminate].
  cbn [bind]. fold (com_rows n). split.
  - intros H. apply bind_ok in H. destruct H as [pts [H1 H]]. apply F in H1.
    apply bind_ok in H. destruct H as [x' [Hx H]]. apply bind_ok in H. destruct H as [z' [Hz H]]. injection H as -> ->.
    apply rdiv_ok in Hx, Hz. destruct Hx as [NL ->], Hz as [_ ->].
    destruct (Permutation_Forall2 PP H1) as (pts' & Pp & F'). exists pts'. split; [exact F'|]. split.
    + intros ->. apply Permutation_sym, Permutation_nil in Pp. subst. apply NL. reflexivity.
    + split; [rewrite <- (mean_perm _ _ (Permutation_map fst Pp)) | rewrite <- (mean_perm _ _ (Permutation_map snd Pp))]; unfold mean; rewrite map_length; reflexivity.
  - intros (pts & H & NE & -> & ->). destruct (Permutation_Forall2 (Permutation_sym PP) H) as (pts' & Pp & F').
    apply F in F'. rewrite F'. cbn [bind].
    assert (NL : INR (length pts') <> 0).
    { rewrite <- (Permutation_length Pp). destruct pts; [congruence|]. apply not_0_INR. discriminate. }
    rewrite rdiv_eq by exact NL. cbn [bind]. rewrite rdiv_eq by exact NL. cbn [bind].
    rewrite (mean_perm _ _ (Permutation_map fst Pp)), (mean_perm _ _ (Permutation_map snd Pp)). unfold mean. rewrite !map_length. reflexivity.
Qed.
Lemma com_unique_point pr q q' : meet_at pr q -> meet_at pr q' -> q = q'.
Proof.
  destruct pr as [[s0 b0] [s1 b1]], q as [x z], q' as [x' z']. unfold meet_at, meets, on2; cbn [fst snd].
  intros (N & A & B) (_ & A' & B').
  assert (E : (s0 - s1) * (x - x') = 0) by lra. apply Rmult_integral in E. destruct E as [E|E]; [lra|].
  assert (x = x') by lra. subst x'. f_equal. lra.
Qed.
Lemma ordered_pairs_forall {A} (P : A -> A -> Prop) l : ForallOrdPairs (fun a b => P a b /\ P b a) l ->
  Forall (fun p => P (fst p) (snd p)) (ordered_pairs l).
Proof.
  induction 1 as [|x l F H IH]; cbn [ordered_pairs]; [constructor|].
  rewrite Forall_forall in F. apply Forall_app. split; [|apply Forall_app; split; [|exact IH]];
    apply Forall_forall; intros p Hp; apply in_map_iff in Hp; destruct Hp as (y & <- & Hy); cbn [fst snd]; apply F, Hy.
Qed.
Lemma rsum_repeat x n : rsum (repeat x n) = INR n * x.
Proof. induction n; [simpl; ring|]. rewrite S_INR. simpl. rewrite IHn. ring. Qed.
Lemma mean_repeat x n : n <> 0%nat -> mean (repeat x n) = x.
Proof. intros N. unfold mean. rewrite rsum_repeat, repeat_length. field. apply not_0_INR, N. Qed.
Lemma ordered_pairs_nil {A} (l : list A) : (length l < 2)%nat <-> ordered_pairs l = [].
Proof. destruct l as [|x [|y l]]; simpl; split; intros; try lia; try reflexivity; discriminate. Qed.
Lemma map_repeat {A B} (f : A -> B) x n : map f (repeat x n) = repeat (f x) n.
Proof. induction n; simpl; congruence. Qed.
Lemma com_exact slopes intercepts p : length slopes = length intercepts -> (2 <= length slopes)%nat -> NoDup slopes ->
  (forall s b, In (s, b) (combine slopes intercepts) -> on2 s b p) ->
  center_of_mass slopes intercepts = Ok p.
Proof.
  intros L N2 ND H. destruct p as [x z]. apply com_mean; [exact L|].
  set (lines := combine slopes intercepts). exists (repeat (x, z) (length (ordered_pairs lines))).
  assert (NE : length (ordered_pairs lines) <> 0%nat).
  { intros E. apply length_zero_iff_nil in E. apply ordered_pairs_nil in E. unfold lines in E. rewrite combine_length in E. lia. }
  split; [|split].
  - assert (F : Forall (fun pr => fst (fst pr) <> fst (snd pr)) (ordered_pairs lines)).
    { assert (FO : ForallOrdPairs (fun a b : R * R => fst a <> fst b /\ fst b <> fst a) lines).
      { unfold lines. clear H lines NE N2. revert intercepts L. induction ND as [|s sl Ns ND IH]; intros [|b ic] L; cbn [combine]; try discriminate; constructor.
        - apply Forall_forall. intros [s' b'] K. apply in_combine_l in K. cbn [fst]. split; intros ->; contradiction.
        - apply IH. simpl in L. lia. }
      apply (ordered_pairs_forall (fun a b : R * R => fst a <> fst b)). exact FO. }
    assert (I : forall pr, In pr (ordered_pairs lines) -> meet_at pr (x, z)).
    { intros [[s0 b0] [s1 b1]] I. rewrite Forall_forall in F. specialize (F _ I). apply ordered_pairs_in in I. cbn [fst snd] in *.
      split; [exact F|]. split; apply H; tauto. }
    clear - I. induction (ordered_pairs lines); cbn [length repeat]; constructor; [apply I; left; reflexivity|].
    apply IHl. intros pr Hp. apply I. right. exact Hp.
  - destruct (length (ordered_pairs lines)); [congruence | discriminate].
  - rewrite !map_repeat. cbn [fst snd]. rewrite !mean_repeat by exact NE. auto.
Qed.
Lemma com_perm sl ic sl' ic' q : length sl = length ic -> length sl' = length ic' ->
  Permutation (combine sl ic) (combine sl' ic') -> center_of_mass sl ic = Ok q -> center_of_mass sl' ic' = Ok q.
Proof.
  intros L L' P H. destruct q as [x z]. apply com_mean in H; [|exact L]. apply com_mean; [exact L'|].
  destruct H as (pts & F & NE & -> & ->).
  destruct (Permutation_Forall2 (ordered_pairs_perm _ _ P) F) as (pts' & Pp & F').
  exists pts'. split; [exact F'|]. split.
  - intros ->. apply Permutation_sym, Permutation_nil in Pp. congruence.
  - rewrite (mean_perm _ _ (Permutation_map fst Pp)), (mean_perm _ _ (Permutation_map snd Pp)). auto.
Qed.
Lemma com_defined sl ic : length sl = length ic ->
  ((exists q, center_of_mass sl ic = Ok q) <-> (2 <= length sl)%nat /\ NoDup sl).
Proof.
  intros L. set (lines := combine sl ic).
  assert (LS : sl = map fst lines).
  { unfold lines. clear lines. revert ic L. induction sl as [|s sl IH]; intros [|b ic] L; try discriminate; [reflexivity|]. cbn [combine map fst]. f_equal. apply IH. simpl in L; lia. }
  split.
  - intros [[x z] H]. apply com_mean in H; [|exact L]. destruct H as (pts & F & NE & _). split.
    + destruct (Nat.lt_ge_cases (length sl) 2) as [K|K]; [|exact K]. exfalso.
      assert (E : ordered_pairs lines = []). { apply ordered_pairs_nil. unfold lines. rewrite combine_length. lia. }
      fold lines in F. rewrite E in F. inversion F. congruence.
    + fold lines in F. rewrite LS. clear - F.
      revert pts F. induction lines as [|l ls IH]; intros pts F; cbn [map]; [constructor|]. cbn [ordered_pairs] in F.
      apply Forall2_app_inv_l in F. destruct F as (p1 & p2 & F1 & F2 & _).
      apply Forall2_app_inv_l in F2. destruct F2 as (p3 & p4 & _ & F4 & _). constructor; [|apply (IH _ F4)].
      intros K. apply in_map_iff in K. destruct K as (l' & E & K).
      apply Forall2_map_l in F1. clear - F1 E K. revert p1 F1. induction ls as [|y ls IHl]; intros p1 F1; [destruct K|].
      inversion F1 as [|? q ? ? M F]; subst. destruct K as [->|K]; [|exact (IHl K _ F)].
      destruct M as [M _]. cbn [fst snd] in M. congruence.
  - intros [N2 ND].
    assert (FO : Forall (fun pr : (R*R)*(R*R) => fst (fst pr) <> fst (snd pr)) (ordered_pairs lines)).
    { apply (ordered_pairs_forall (fun a b : R * R => fst a <> fst b)). rewrite LS in ND. clear - ND. induction lines as [|l ls IH]; constructor; inversion ND; subst.
      - apply Forall_forall. intros y Hy. assert (fst l <> fst y) by (intros E; apply H1; rewrite E; apply in_map, Hy). split; congruence.
      - auto. }
    assert (EX : exists pts, Forall2 meet_at (ordered_pairs lines) pts).
    { induction FO as [|pr prs N FO IH]; [exists []; constructor|]. destruct IH as [pts IH].
      destruct pr as [[s0 b0] [s1 b1]]. cbn [fst snd] in N.
      exists (((b1 - b0) / (s0 - s1), s0 * ((b1 - b0) / (s0 - s1)) + b0) :: pts). constructor; [|exact IH].
      unfold meet_at, meets, on2; cbn [fst snd]. repeat split; [exact N|]. field. lra. }
    destruct EX as [pts F]. exists (mean (map fst pts), mean (map snd pts)). apply com_mean; [exact L|]. exists pts.
    repeat split; auto. intros ->. inversion F as [E|]. symmetry in E. apply ordered_pairs_nil in E. unfold lines in E. rewrite combine_length in E. lia.
Qed.

(* ---------- com_line ---------- *)
Lemma com_line_spec alpha a par part l1 l2 m b beta : com_line alpha a par part l1 l2 = Ok (m, b, beta) ->
  let r := reference_point (pv par "w") (pv par "rR") (pv par "rF") (pv par "lam") part l1 l2 in
  In part ["B"; "S"; "H"; "G"] /\ beta = pv par "lam" - alpha * PI / 180 /\ cos beta <> 0 /\ m = - tan beta /\
  forall q, on2 m b q <-> (fst q - fst r) * sin beta + (snd q - snd r) * cos beta = - a.
Proof.
  intros H. unfold com_line in H. step_bind H. apply pv_of_dlook in E. subst x. set (lam := pv par "lam") in *.
  set (bt := lam - alpha * PI / 180) in *. step_bind H. apply rtan_ok in E. destruct E as [C ->].
  assert (T : tan bt * cos bt = sin bt) by (unfold tan; field; exact C).
  assert (G : forall r (q : R * R), on2 (- tan bt) (- a / cos bt + snd r + fst r * tan bt) q <->
            (fst q - fst r) * sin bt + (snd q - snd r) * cos bt = - a).
  { intros [xr zr] [x z]. unfold on2; cbn [fst snd]. rewrite <- T. split.
    - intros ->. field. exact C.
    - intros K. apply (Rmult_eq_reg_r (cos bt)); [|exact C].
      transitivity (- (x * (tan bt * cos bt)) + (- a + zr * cos bt + xr * (tan bt * cos bt))); [lra | field; exact C]. }
  unfold reference_point.
  destruct (String.eqb_spec part "B") as [->|NB].
  { step_bind H. apply rdiv_ok in E. destruct E as [_ ->]. step_bind H. apply pv_of_dlook in E. subst x.
    injection H as <- <- <-. split; [simpl; auto|]. repeat (split; [reflexivity || exact C|]).
    intros q. rewrite <- G. cbn [fst snd]. replace (- a / cos bt - pv par "rR") with (- a / cos bt + - pv par "rR" + 0 * tan bt) by ring. reflexivity. }
  destruct (String.eqb_spec part "S") as [->|NS]; [cbn [String.eqb Ascii.eqb Bool.eqb]; cbn [orb] in H|
  destruct (String.eqb_spec part "H") as [->|NH]; [cbn [String.eqb Ascii.eqb Bool.eqb]; cbn [orb] in H|
  cbn [orb] in H; destruct (String.eqb_spec part "G") as [->|NG]; [|discriminate]]].
  1,2: step_bind H; apply rdiv_ok in E; destruct E as [_ ->]; step_bind H; apply pv_of_dlook in E; subst x; step_bind H; apply pv_of_dlook in E; subst x;
    injection H as <- <- <-; split; [simpl; auto|]; repeat (split; [reflexivity || exact C|]); intros q; rewrite <- G; cbn [fst snd]; reflexivity.
  step_bind H. destruct x as [u1 u2]. apply handlebar_spec in E. destruct E as (_ & _ & -> & ->).
  step_bind H; apply rdiv_ok in E; destruct E as [_ ->]; step_bind H; apply pv_of_dlook in E; subst x; step_bind H; apply pv_of_dlook in E; subst x.
  injection H as <- <- <-; split; [simpl; auto|]; repeat (split; [reflexivity || exact C|]); intros q; rewrite <- G; cbn [fst snd].
  match goal with |- on2 _ ?x _ <-> on2 _ ?y _ => replace x with y by ring end. reflexivity.
Qed.
Lemma com_line_defined alpha a par part l1 l2 : 
  let beta := pv par "lam" - alpha * PI / 180 in
  (exists r, com_line alpha a par part l1 l2 = Ok r) <->
  In "lam" (dkeys par) /\ cos beta <> 0 /\
  ((part = "B" /\ In "rR" (dkeys par)) \/
   (In part ["S"; "H"] /\ In "rF" (dkeys par) /\ In "w" (dkeys par)) \/
   (part = "G" /\ In "rF" (dkeys par) /\ In "w" (dkeys par) /\ sin (pv par "lam") <> 0 /\ cos (pv par "lam") <> 0)).
Proof.
  cbv zeta. split.
  - intros [r H]. unfold com_line in H. step_bind H. pose proof (in_keys_of_dlook _ _ _ E) as KL. apply pv_of_dlook in E. subst x.
    step_bind H. apply rtan_ok in E. destruct E as [C ->]. split; [exact KL|]. split; [exact C|].
    destruct (String.eqb_spec part "B") as [->|NB].
    { repeat step_bind H. left. split; [reflexivity|]. eapply in_keys_of_dlook; eassumption. }
    destruct (String.eqb_spec part "S") as [->|NS]; [cbn [orb] in H|
    destruct (String.eqb_spec part "H") as [->|NH]; [cbn [orb] in H|
    cbn [orb] in H; destruct (String.eqb_spec part "G") as [->|NG]; [|discriminate]]].
    1,2: repeat step_bind H; right; left; split; [simpl; auto|]; split; eapply in_keys_of_dlook; eassumption.
    repeat step_bind H. right; right. split; [reflexivity|]. 
    destruct x as [u1 u2]. match goal with X : fwheel_to_handlebar_ref _ _ _ = Ok _ |- _ => apply handlebar_spec in X; destruct X as (S1 & S2 & _) end.
    repeat split; try assumption; eapply in_keys_of_dlook; eassumption.
  - intros (KL & C & H). unfold com_line. rewrite (dlook_pv _ _ KL). cbn [bind]. unfold rtan. rewrite rdiv_eq by exact C. cbn [bind].
    rewrite rdiv_eq by exact C. destruct H as [[-> K]|[(P & K1 & K2)|(-> & K1 & K2 & S1 & S2)]].
    + cbn [String.eqb Ascii.eqb Bool.eqb bind]. rewrite (dlook_pv _ _ K). cbn [bind]. eauto.
    + rewrite (dlook_pv _ _ K1), (dlook_pv _ _ K2). destruct P as [<-|[<-|[]]]; cbn [String.eqb Ascii.eqb Bool.eqb bind orb]; eauto.
    + rewrite (dlook_pv _ _ K1), (dlook_pv _ _ K2). cbn [String.eqb Ascii.eqb Bool.eqb bind orb].
      rewrite (proj2 (handlebar_spec (pv par "lam") l1 l2 _ _) (conj S1 (conj S2 (conj eq_refl eq_refl)))). cbn [bind]. eauto.
Qed.
Lemma com_line_unknown alpha a par part l1 l2 : ~ In part ["B"; "S"; "H"; "G"] ->
  (forall r, com_line alpha a par part l1 l2 <> Ok r) /\
  (In "lam" (dkeys par) -> cos (pv par "lam" - alpha * PI / 180) <> 0 -> com_line alpha a par part l1 l2 = Err (KeyError "")).
Proof.
  intros N. split.
  - intros r H. apply N. destruct r as [[m b] beta]. apply com_line_spec in H. tauto.
  - intros KL C. unfold com_line. rewrite (dlook_pv _ _ KL). cbn [bind]. unfold rtan. rewrite rdiv_eq by exact C. cbn [bind].
    simpl in N. destruct (String.eqb_spec part "B"); [subst; tauto|]. destruct (String.eqb_spec part "S"); [subst; tauto|].
    destruct (String.eqb_spec part "H"); [subst; tauto|]. destruct (String.eqb_spec part "G"); [subst; tauto|]. reflexivity.
Qed.
(* distance and direction of the line (x-xr) sin + (z-zr) cos = -a *)
Lemma implicit_line_distance r a beta (P : R * R -> Prop) :
  (forall q, P q <-> (fst q - fst r) * sin beta + (snd q - snd r) * cos beta = - a) ->
  (forall q, P q -> Rabs a <= sqrt (sqdist2 q r)) /\ (exists q, P q /\ sqrt (sqdist2 q r) = Rabs a) /\
  (forall q t, P q -> P (fst q + t * - cos beta, snd q + t * sin beta)).
Proof.
  intros H. destruct r as [xr zr]. cbn [fst snd] in *. pose proof (sc1 beta) as S. split; [|split].
  - intros [x z] Q. apply H in Q. cbn [fst snd] in *. rewrite <- sqrt_Rsqr_abs. apply sqrt_le_1_alt.
    unfold sqdist2; cbn [fst snd]. set (dx := x - xr) in *. set (dz := z - zr) in *.
    assert (E : dx ^ 2 + dz ^ 2 = a² + (dx * cos beta - dz * sin beta) ^ 2).
    { replace a² with ((- a) * (- a)) by (unfold Rsqr; ring). rewrite <- Q.
      transitivity ((dx ^ 2 + dz ^ 2) * (sin beta * sin beta + cos beta * cos beta)); [rewrite S; ring | ring]. }
    rewrite E. pose proof (pow2_ge_0 (dx * cos beta - dz * sin beta)). lra.
  - exists (xr - a * sin beta, zr - a * cos beta). split.
    + apply H. cbn [fst snd]. transitivity (- a * (sin beta * sin beta + cos beta * cos beta)); [ring | rewrite S; ring].
    + rewrite <- sqrt_Rsqr_abs. f_equal. unfold sqdist2; cbn [fst snd].
      transitivity (a² * (sin beta * sin beta + cos beta * cos beta)); [unfold Rsqr; ring | rewrite S; ring].
  - intros [x z] t Q. apply H in Q. apply H. cbn [fst snd] in *. rewrite <- Q. ring.
Qed.

(* ---------- part_com_lines ---------- *)
Lemma append_to_ok d k x d' : append_to d k x = Ok d' <-> exists l, dget d k = Some l /\ d' = dset d k (l ++ [x])%list.
Proof.
  unfold append_to, dlook. destruct (dget d k) as [l|]; cbn [bind]; split.
  - intros E. injection E as <-. eauto.
  - intros (l' & E & ->). injection E as ->. reflexivity.
  - discriminate.
  - intros (l' & E & _). discriminate.
Qed.
Lemma com_lines_loop_ok mp par l1 l2 keys : forall sl ic be sl' ic' be',
  com_lines_loop mp par l1 l2 keys (sl, ic, be) = Ok (sl', ic', be') ->
  exists es, Forall2 (com_entry mp par l1 l2) keys es /\
    (forall e, In e es -> In (fst e) (dkeys sl) /\ In (fst e) (dkeys ic) /\ In (fst e) (dkeys be)) /\
    (forall part l, dget sl part = Some l -> dget sl' part = Some (l ++ map (fun t => fst (fst t)) (of_part part es))%list) /\
    (forall part l, dget ic part = Some l -> dget ic' part = Some (l ++ map (fun t => snd (fst t)) (of_part part es))%list) /\
    (forall part l, dget be part = Some l -> dget be' part = Some (l ++ map snd (of_part part es))%list) /\
    (forall part, dget sl part = None -> dget sl' part = None) /\ (forall part, dget ic part = None -> dget ic' part = None) /\
    (forall part, dget be part = None -> dget be' part = None).
Proof.
  induction keys as [|key keys IH]; intros sl ic be sl' ic' be' H; cbn [com_lines_loop] in H.
  - injection H as <- <- <-. exists []. split; [constructor|]. split; [intros e []|].
    repeat split; intros; cbn [of_part filter map]; rewrite ?app_nil_r; assumption.
  - repeat step_bind H. destruct x2 as [[m b] beta]. repeat step_bind H.
    apply IH in H. destruct H as (es & F & K & A1 & A2 & A3 & N1 & N2 & N3).
    repeat match goal with X : append_to _ _ _ = Ok _ |- _ => apply append_to_ok in X; destruct X as (? & ? & ->) end.
    exists ((x1, (m, b, beta)) :: es). split; [|split].
    + constructor; [|exact F]. exists x, x0. cbn [fst snd]. auto.
    + assert (KD : forall (d : dict (list R)) l v k, dget d x1 = Some l -> In k (dkeys (dset d x1 v)) -> In k (dkeys d)).
      { intros d l v k G I. apply dget_some_in in I. destruct I as [u I]. rewrite dget_dset in I. apply dget_some_in.
        destruct (String.eqb_spec k x1) as [->|]; eauto. }
      intros e [<-|He]; cbn [fst].
      * repeat split; apply dget_some_in; eauto.
      * destruct (K e He) as (I1 & I2 & I3). repeat split; eapply KD; eassumption.
    + assert (AP : forall (d d' : dict (list R)) l x (f : R * R * R -> R), f (m, b, beta) = x -> dget d x1 = Some l ->
          (forall part l0, dget (dset d x1 (l ++ [x])%list) part = Some l0 -> dget d' part = Some (l0 ++ map f (of_part part es))%list) ->
          forall part l0, dget d part = Some l0 -> dget d' part = Some (l0 ++ map f (of_part part ((x1, (m, b, beta)) :: es)))%list).
      { intros d d' l y f Fy G A part l0 G0. unfold of_part. cbn [filter fst].
        destruct (String.eqb_spec part x1) as [->|NE].
        - assert (l0 = l) by congruence. subst l0. rewrite (A x1 (l ++ [y])%list) by apply dget_dset_eq.
          cbn [map snd]. rewrite Fy, <- app_assoc. reflexivity.
        - apply A. rewrite dget_dset_neq by (apply String.eqb_neq; exact NE). exact G0. }
      assert (AN : forall (d d' : dict (list R)) l x, dget d x1 = Some l -> (forall part, dget (dset d x1 (l ++ [x])%list) part = None -> dget d' part = None) ->
          forall part, dget d part = None -> dget d' part = None).
      { intros d d' l y G A part Nn. apply A. rewrite dget_dset. destruct (String.eqb_spec part x1) as [->|]; [congruence | exact Nn]. }
      repeat split.
      * eapply AP; [|eassumption|exact A1]. reflexivity.
      * eapply AP; [|eassumption|exact A2]. reflexivity.
      * eapply AP; [|eassumption|exact A3]. reflexivity.
      * eapply AN; [eassumption|exact N1].
      * eapply AN; [eassumption|exact N2].
      * eapply AN; [eassumption|exact N3].
Qed.

Lemma dget_init k (l : list string) : dget (map (fun p => (p, @nil R)) l) k = if smem k l then Some [] else None.
Proof. induction l as [|x l IH]; [reflexivity|]. cbn [map dget smem existsb]. destruct (String.eqb k x); [reflexivity | exact IH]. Qed.
Lemma part_com_lines_ok mp par split sl ic be : part_com_lines mp par split = Ok (sl, ic, be) ->
  let parts := if split then ["B"; "G"; "S"] else ["B"; "H"] in
  exists l1 l2 es,
    (if split then calculate_l1_l2 (pv mp "h6") (pv mp "h7") (pv mp "d5") (pv mp "d6") (pv mp "l") = Ok (l1, l2) else l1 = 0 /\ l2 = 0) /\
    Forall2 (com_entry mp par l1 l2) (ssort (filter (starts_with "alpha") (dkeys mp))) es /\
    (forall e, In e es -> In (fst e) parts) /\
    (forall part, In part parts ->
       dget sl part = Some (map (fun t => fst (fst t)) (of_part part es)) /\
       dget ic part = Some (map (fun t => snd (fst t)) (of_part part es)) /\
       dget be part = Some (map snd (of_part part es))).
Proof.
  intros H. cbv zeta. unfold part_com_lines in H. apply bind_ok in H. destruct H as [[l1 l2] [H1 H]]. cbn [fst snd] in H.
  set (parts := if split then ["B"; "G"; "S"] else ["B"; "H"]).
  assert (I : (if split then [("B", []); ("G", []); ("S", [])] else [("B", []); ("H", [])]) = map (fun p => (p, @nil R)) parts)
    by (unfold parts; destruct split; reflexivity).
  rewrite I in H. apply com_lines_loop_ok in H. destruct H as (es & F & K & A1 & A2 & A3 & _).
  exists l1, l2, es. split; [|split; [exact F|split]].
  - destruct split; [|injection H1 as <- <-; auto]. do 5 step_bind H1.
    repeat match goal with X : dlook _ _ = Ok _ |- _ => apply pv_of_dlook in X end. subst. exact H1.
  - intros e He. destruct (K e He) as [I1 _]. unfold dkeys in I1. rewrite map_map in I1. cbn [fst] in I1. rewrite map_id in I1. exact I1.
  - intros part Hp. assert (G : dget (map (fun p => (p, @nil R)) parts) part = Some []).
    { rewrite dget_init. rewrite (proj2 (smem_spec _ _) Hp). reflexivity. }
    rewrite (A1 _ _ G), (A2 _ _ G), (A3 _ _ G). auto.
Qed.
(* com_line in terms of the directions seen when the part hangs *)
Lemma com_line_hanging alpha a par part l1 l2 m b beta : com_line alpha a par part l1 l2 = Ok (m, b, beta) ->
  let r := reference_point (pv par "w") (pv par "rR") (pv par "rF") (pv par "lam") part l1 l2 in
  exists right up : R * R,
    hanging_directions (pv par "lam") (alpha * PI / 180) right up /\
    (forall q, on2 m b q <-> dot2 (fst q - fst r, snd q - snd r) right = a).
Proof.
  intros H. apply com_line_spec in H. cbv zeta in *. destruct H as (_ & B & C & _ & L).
  exists (- sin beta, - cos beta), (- cos beta, sin beta). split.
  - unfold hanging_directions, dot2; cbn [fst snd]. pose proof (sc1 beta) as S.
    assert (AL : alpha * PI / 180 = pv par "lam" - beta) by lra. rewrite AL, cos_minus, sin_minus.
    repeat split; try lra; f_equal.
    + transitivity (- sin (pv par "lam") * (sin beta * sin beta + cos beta * cos beta)); [rewrite S; ring | ring].
    + transitivity (- cos (pv par "lam") * (sin beta * sin beta + cos beta * cos beta)); [rewrite S; ring | ring].
  - intros q. rewrite L. unfold dot2; cbn [fst snd]. split; intros; lra.
Qed.
