(* TComp.v -- C72: figures that compare the eigenvalues of several bicycles *)
From Coq Require Import Lra Lia Permutation Sorting.Sorted.
From Verif Require Import Base MString MHeap MBicycle MVec MInertia MSets MModels MModels2 PBase SBicycle SModels SModels2 PModels2 PModels3
  MEig SEig PEig PEig2 PEig3 TEig SStab TStab MComp SComp.
Local Open Scope string_scope.
Local Open Scope R_scope.

Lemma zero_curve sp : zero_line sp (curve_of sp (map (fun _ => 0) sp)).
Proof.
  destruct (curve_over sp (map (fun _ => 0) sp) (map_length _ _)) as (O & V). split; [exact O|]. intros i Hi. rewrite (V i Hi). apply (nth_map (fun _ : R => 0) sp i 0 0 Hi).
Qed.
Lemma plot_eight eig ps sp cs : eig_contract eig -> plot_eigenvalues eig ps sp false = Ok cs ->
  exists i1 i2 i3 i4 r1 r2 r3 r4, cs = [i1; i2; i3; i4; r1; r2; r3; r4] /\ shows_spectrum ps (rsort sp) [r1; r2; r3; r4] [i1; i2; i3; i4].
Proof.
  intros EC E. destruct (plot_drawn eig ps sp cs EC E) as (evs & m4 & D & ->). pose proof (drawn_shows _ _ _ _ _ D) as SH.
  destruct m4 as [|a [|b [|c [|d [|]]]]]; try (pose proof (dr_m4 _ _ _ _ _ D); discriminate). cbn [map app] in *. do 8 eexists. split; [reflexivity|exact SH].
Qed.

(* ---- one bicycle ---- *)
(* not largest: four dashed lines of imaginary parts, the axis, four solid lines of real
   parts; the two lines of one mode have the same colour; generic figures use the given
   colour and name the bicycle once; the linestyle argument has no effect *)
Theorem C72_lines_of_one_bicycle : forall eig b sp speeds c ls sl f, eig_contract eig -> sorted_copy sp speeds ->
  eigenvalues_vs_speed eig b sp None true c false ls sl = Ok f ->
  exists re im axis, shows_spectrum (nb_par b) speeds re im /\ zero_line speeds axis /\
    map ln_pts (fg_lines f) = (im ++ [axis] ++ re)%list /\
    map look (fg_lines f) = [(c, "--", "_nolegend_"); (c, "--", "_nolegend_"); (c, "--", "_nolegend_"); (c, "--", "_nolegend_"); (Named "k", "-", "_nolegend_");
                             (c, "-", "_nolegend_"); (c, "-", "_nolegend_"); (c, "-", "_nolegend_"); (c, "-", nb_name b)] /\
    fg_title f = "Eigenvalues vs Speed" /\ fg_ylabel f = "Real and Imaginary Parts of the Eigenvalue [1/s]" /\ fg_legend f = false.
Proof.
  intros eig b sp speeds c ls sl f EC SC E. apply rsort_unique in SC. subst speeds. unfold eigenvalues_vs_speed in E. apply bind_ok in E. destruct E as (cs & EP & E).
  destruct (plot_eight eig _ sp cs EC EP) as (i1 & i2 & i3 & i4 & r1 & r2 & r3 & r4 & -> & SH). cbn [bind negb andb orb] in E. injection E as <-.
  exists [r1; r2; r3; r4], [i1; i2; i3; i4]. eexists. split; [exact SH|]. split; [apply zero_curve|]. repeat split; reflexivity.
Qed.
Print Assumptions C72_lines_of_one_bicycle.

Theorem C72_modes_of_one_bicycle : forall eig b sp speeds c ls sl f, eig_contract eig -> sorted_copy sp speeds ->
  eigenvalues_vs_speed eig b sp None false c false ls sl = Ok f ->
  exists re im axis, shows_spectrum (nb_par b) speeds re im /\ zero_line speeds axis /\
    map ln_pts (fg_lines f) = (im ++ [axis] ++ re)%list /\
    map look (fg_lines f) =
      [(Named "blue", "--", "Imaginary Weave"); (Named "blue", "--", "Imaginary Weave"); (Named "red", "--", "Imaginary Capsize"); (Named "green", "--", "Imaginary Caster");
       (Named "k", "-", "_nolegend_");
       (Named "blue", "-", "Real Weave"); (Named "blue", "-", "Real Weave"); (Named "red", "-", "Real Capsize"); (Named "green", "-", "Real Caster")] /\
    fg_title f = nb_name b ++ newline ++ "Eigenvalues vs Speed" /\ fg_ylabel f = "Real and Imaginary Parts of the Eigenvalue [1/s]" /\ fg_legend f = sl.
Proof.
  intros eig b sp speeds c ls sl f EC SC E. apply rsort_unique in SC. subst speeds. unfold eigenvalues_vs_speed in E. apply bind_ok in E. destruct E as (cs & EP & E).
  destruct (plot_eight eig _ sp cs EC EP) as (i1 & i2 & i3 & i4 & r1 & r2 & r3 & r4 & -> & SH). cbn [bind negb andb orb] in E. injection E as <-.
  exists [r1; r2; r3; r4], [i1; i2; i3; i4]. eexists. split; [exact SH|]. split; [apply zero_curve|]. repeat split; reflexivity.
Qed.
Print Assumptions C72_modes_of_one_bicycle.

(* largest: one line of the greatest real parts in the given colour and style with the
   name of the bicycle, whether or not the figure is generic, and the axis *)
Theorem C72_largest_of_one_bicycle : forall eig b sp speeds gen c ls sl f, eig_contract eig -> sorted_copy sp speeds ->
  eigenvalues_vs_speed eig b sp None gen c true ls sl = Ok f ->
  exists l axis, shows_greatest (nb_par b) speeds l /\ zero_line speeds axis /\
    map ln_pts (fg_lines f) = [l; axis] /\ map look (fg_lines f) = [(c, ls, nb_name b); (Named "k", "-", "_nolegend_")] /\
    fg_title f = "Eigenvalues vs Speed" /\ fg_ylabel f = "Real Part of the Largest Eigenvalue [1/s]" /\ fg_legend f = false.
Proof.
  intros eig b sp speeds gen c ls sl f EC SC E. pose proof SC as SC'. apply rsort_unique in SC. subst speeds. unfold eigenvalues_vs_speed in E. apply bind_ok in E. destruct E as (cs & EP & E).
  destruct (C61_largest_is_the_greatest_real_part eig (nb_par b) sp cs (rsort sp) EC SC' EP) as (l & -> & SG). cbn [bind negb andb orb] in E. injection E as <-.
  exists l. eexists. split; [exact SG|]. split; [apply zero_curve|]. repeat split; reflexivity.
Qed.
Print Assumptions C72_largest_of_one_bicycle.

(* drawing into an existing figure adds the lines of the bicycle behind those already there *)
Theorem C72_added_to_a_figure : forall eig b sp f0 gen c lg ls sl f,
  eigenvalues_vs_speed eig b sp (Some f0) gen c lg ls sl = Ok f <->
  exists f1, eigenvalues_vs_speed eig b sp None gen c lg ls sl = Ok f1 /\ fg_lines f = (fg_lines f0 ++ fg_lines f1)%list /\
    fg_title f = fg_title f1 /\ fg_ylabel f = fg_ylabel f1 /\ fg_legend f = orb (fg_legend f0) (fg_legend f1).
Proof.
  intros. unfold eigenvalues_vs_speed. destruct (plot_eigenvalues eig (nb_par b) sp lg) as [cs|e]; cbn [bind].
  2:{ split; [discriminate|]. intros (f1 & E & _). discriminate. }
  match goal with |- context [bind ?x _] => destruct x as [[new yl]|e] end; cbn [bind].
  2:{ split; [discriminate|]. intros (f1 & E & _). discriminate. }
  split.
  - intros E. injection E as <-. eexists. split; [reflexivity|]. cbn [fg_lines fg_title fg_ylabel fg_legend blank app orb]. auto.
  - intros (f1 & E & A & B & C & D). injection E as <-. destruct f as [a b' c' d]. cbn [fg_lines fg_title fg_ylabel fg_legend blank app orb] in *. subst. reflexivity.
Qed.
Print Assumptions C72_added_to_a_figure.

(* ---- several bicycles ---- *)
Lemma fresh_or_added eig b sp fig gen c lg ls sl f : eigenvalues_vs_speed eig b sp fig gen c lg ls sl = Ok f <->
  exists f1, eigenvalues_vs_speed eig b sp None gen c lg ls sl = Ok f1 /\ fg_lines f = ((match fig with Some f0 => fg_lines f0 | None => [] end) ++ fg_lines f1)%list /\
    fg_title f = fg_title f1 /\ fg_ylabel f = fg_ylabel f1 /\ fg_legend f = orb (match fig with Some f0 => fg_legend f0 | None => false end) (fg_legend f1).
Proof.
  destruct fig as [f0|]; [apply C72_added_to_a_figure|]. cbn [app orb]. split.
  - intros E. exists f. auto.
  - intros (f1 & E & A & B & C & D). destruct f as [a1 a2 a3 a4], f1 as [b1 b2 b3 b4]. cbn [fg_lines fg_title fg_ylabel fg_legend] in *. subst. exact E.
Qed.
Lemma index_ok {A} (l : list A) i d x : index l i = Ok x <-> (i < length l)%nat /\ x = nth i l d.
Proof.
  unfold index. destruct (nth_error l i) as [y|] eqn:N.
  - pose proof (nth_error_nth l i d N) as H. assert (i < length l)%nat by (apply nth_error_Some; congruence). split.
    + intros E. injection E as <-. auto.
    + intros (_ & ->). congruence.
  - apply nth_error_None in N. split; [discriminate|]. intros (H & _). lia.
Qed.

Lemma loop_iff eig sp lg colors styles : forall bikes i fig r,
  compare_loop eig sp lg colors styles i fig bikes = Ok r <->
  exists figs, Forall2 (fun ib f => exists c s, index colors (fst ib) = Ok c /\ index styles (fst ib) = Ok s /\ eigenvalues_vs_speed eig (snd ib) sp None true c lg s true = Ok f)
    (List.combine (seq i (length bikes)) bikes) figs /\
    r = match List.rev figs with
        | [] => fig
        | lst :: _ => Some (mkfigure ((if Nat.eqb i 0 then [] else match fig with Some f0 => fg_lines f0 | None => [] end) ++ flat_map fg_lines figs)%list (fg_title lst) (fg_ylabel lst) true)
        end.
Proof.
  induction bikes as [|b bikes IH]; intros i fig r; cbn [compare_loop length seq List.combine].
  - split.
    + intros E. injection E as <-. exists []. split; [constructor|reflexivity].
    + intros (figs & F & ->). inversion F; subst. reflexivity.
  - split.
    + intros E. apply bind_ok in E. destruct E as (c & E1 & E). apply bind_ok in E. destruct E as (s & E2 & E). apply bind_ok in E. destruct E as (f & E3 & E).
      apply fresh_or_added in E3. destruct E3 as (f1 & E3 & LN & TT & YL & LG).
      apply IH in E. destruct E as (figs & F & ->). exists (f1 :: figs). split.
      * constructor; [|exact F]. exists c, s. auto.
      * cbn [List.rev]. cbn [Nat.eqb fg_lines flat_map]. rewrite LN, TT, YL.
        assert (X : (match (if Nat.eqb i 0 then None else fig) with Some f0 => fg_lines f0 | None => [] end) = if Nat.eqb i 0 then [] else match fig with Some f0 => fg_lines f0 | None => [] end) by (destruct (Nat.eqb i 0); reflexivity).
        rewrite X. destruct (List.rev figs) as [|lst t] eqn:RV; cbn [app].
        { assert (figs = []) as -> by (rewrite <- (rev_involutive figs), RV; reflexivity). cbn [flat_map]. rewrite app_nil_r. reflexivity. }
        rewrite <- app_assoc. reflexivity.
    + intros (figs & F & ->). inversion F as [|ib f1 l figs' (c & s & E1 & E2 & E3) F' EQ1 EQ2]. subst. cbn [fst snd] in *. rewrite E1. cbn [bind]. rewrite E2. cbn [bind].
      set (fig' := if Nat.eqb i 0 then None else fig).
      set (f := mkfigure ((match fig' with Some f0 => fg_lines f0 | None => [] end) ++ fg_lines f1)%list (fg_title f1) (fg_ylabel f1) (orb (match fig' with Some f0 => fg_legend f0 | None => false end) (fg_legend f1))).
      assert (EF : eigenvalues_vs_speed eig b sp fig' true c lg s true = Ok f) by (apply fresh_or_added; exists f1; repeat split; try reflexivity; exact E3).
      rewrite EF. cbn [bind]. apply IH. exists figs'. split; [exact F'|].
      assert (X : (match fig' with Some f0 => fg_lines f0 | None => [] end) = if Nat.eqb i 0 then [] else match fig with Some f0 => fg_lines f0 | None => [] end) by (unfold fig'; destruct (Nat.eqb i 0); reflexivity).
      cbn [List.rev Nat.eqb fg_lines flat_map]. unfold f. cbn [fg_lines fg_title fg_ylabel]. rewrite X. destruct (List.rev figs') as [|lst t] eqn:RV; cbn [app].
      { assert (figs' = []) as -> by (rewrite <- (rev_involutive figs'), RV; reflexivity). cbn [flat_map]. rewrite app_nil_r. reflexivity. }
      rewrite <- app_assoc. reflexivity.
Qed.
Definition no_bike : named_bike := mknamed "" [].
Lemma alone_look eig cmap bikes sp colors styles lg i b f : alone eig cmap bikes sp colors styles lg i b f ->
  fg_title f = "Eigenvalues vs Speed" /\ fg_ylabel f = (if lg then "Real Part of the Largest Eigenvalue [1/s]" else "Real and Imaginary Parts of the Eigenvalue [1/s]") /\
  filter in_legend (fg_lines f) = filter in_legend (match List.rev (fg_lines f) with last :: _ => if lg then match fg_lines f with a :: _ => [a] | [] => [] end else [last] | [] => [] end) /\
  exists l, (if lg then hd_error (fg_lines f) else hd_error (List.rev (fg_lines f))) = Some l /\
    look l = (colour_of cmap colors (length bikes) i, (if lg then style_of styles i else "-"), nb_name b).
Proof.
  unfold alone, eigenvalues_vs_speed. intros E. apply bind_ok in E. destruct E as (cs & EP & E). destruct lg; cbn [negb andb orb] in E.
  - destruct cs as [|c [|]]; cbn [bind] in E; try discriminate. injection E as <-. cbn [fg_title fg_ylabel fg_lines blank app List.rev hd_error]. split; [reflexivity|]. split; [reflexivity|]. split.
    + cbn [filter in_legend ln_label]. destruct (in_legend _) eqn:I; [|reflexivity]. reflexivity.
    + eexists. split; reflexivity.
  - destruct cs as [|i1 [|i2 [|i3 [|i4 [|r1 [|r2 [|r3 [|r4 [|]]]]]]]]]; cbn [bind] in E; try discriminate. injection E as <-. cbn [fg_title fg_ylabel fg_lines blank app List.rev hd_error]. split; [reflexivity|]. split; [reflexivity|]. split.
    + reflexivity.
    + eexists. split; reflexivity.
Qed.

Lemma chosen_colours cmap colors n i c : (i < n)%nat ->
  (index (match colors with [] => map (fun i => cmap (INR i / INR n)) (seq 0 n) | _ => colors end) i = Ok c <->
   (colors = [] \/ (i < length colors)%nat) /\ c = colour_of cmap colors n i).
Proof.
  intros Hi. destruct colors as [|c0 cs].
  - rewrite (index_ok _ _ (cmap 0)). rewrite map_length, seq_length. rewrite (nth_map _ (seq 0 n) i 0%nat) by (rewrite seq_length; exact Hi). rewrite seq_nth by exact Hi. cbn [Nat.add colour_of]. tauto.
  - rewrite (index_ok _ _ (Named "")). cbn [colour_of]. split; [intros (A & B); auto|]. intros ([A|A] & B); [discriminate|auto].
Qed.
Lemma chosen_styles styles n i s : (i < n)%nat ->
  (index (match styles with [] => repeat "-" n | _ => styles end) i = Ok s <-> (styles = [] \/ (i < length styles)%nat) /\ s = style_of styles i).
Proof.
  intros Hi. destruct styles as [|c0 cs].
  - rewrite (index_ok _ _ "-"). rewrite repeat_length. assert (nth i (repeat "-" n) "-" = "-") as -> by (apply nth_repeat). cbn [style_of]. tauto.
  - rewrite (index_ok _ _ ""). cbn [style_of]. split; [intros (A & B); auto|]. intros ([A|A] & B); [discriminate|auto].
Qed.
Lemma enough_iff {A} (l : list A) n : (0 < n)%nat -> (enough l n <-> forall i, (i < n)%nat -> l = [] \/ (i < length l)%nat).
Proof.
  intros N. unfold enough. split.
  - intros [->|H] i Hi; [auto|right; lia].
  - intros H. destruct (H (n - 1)%nat ltac:(lia)) as [E|E]; [auto|right; lia].
Qed.
Lemma Forall2_combine {A B} (P : nat * A -> B -> Prop) (da : A) (db : B) : forall l k fs,
  Forall2 P (List.combine (seq k (length l)) l) fs <-> length fs = length l /\ forall i, (i < length l)%nat -> P ((k + i)%nat, nth i l da) (nth i fs db).
Proof.
  induction l as [|a l IH]; intros k fs; cbn [length seq List.combine].
  - split.
    + intros F. inversion F. split; [reflexivity|]. intros i Hi. lia.
    + intros (L & _). destruct fs; [constructor|discriminate].
  - split.
    + intros F. inversion F as [|x y l' fs' H F' E1 E2]. subst. apply IH in F'. destruct F' as (L & H'). split; [cbn; lia|]. intros i Hi. destruct i as [|i]; cbn [nth].
      * rewrite Nat.add_0_r. exact H.
      * rewrite <- Nat.add_succ_comm. apply H'. lia.
    + intros (L & H). destruct fs as [|f fs]; [discriminate|]. constructor.
      * specialize (H 0%nat ltac:(lia)). rewrite Nat.add_0_r in H. exact H.
      * apply IH. split; [cbn in L; lia|]. intros i Hi. specialize (H (S i) ltac:(lia)). cbn [nth] in H. rewrite <- Nat.add_succ_comm in H. exact H.
Qed.

(* the comparison is drawn exactly when there is a bicycle, there are enough colours and
   styles (or none at all) and each bicycle can be drawn alone; it consists of the lines
   of those figures, bicycle after bicycle *)
Theorem C72_comparison_is_the_single_figures : forall eig cmap bikes sp colors styles lg f,
  compare_eigenvalues eig cmap bikes sp colors styles lg = Ok f <->
  bikes <> [] /\ enough colors (length bikes) /\ enough styles (length bikes) /\
  exists figs, length figs = length bikes /\
    (forall i, (i < length bikes)%nat -> alone eig cmap bikes sp colors styles lg i (nth i bikes no_bike) (nth i figs blank)) /\
    fg_lines f = flat_map fg_lines figs /\ fg_title f = "Eigenvalues vs Speed" /\
    fg_ylabel f = (if lg then "Real Part of the Largest Eigenvalue [1/s]" else "Real and Imaginary Parts of the Eigenvalue [1/s]") /\ fg_legend f = true.
Proof.
  intros eig cmap bikes sp colors styles lg f. unfold compare_eigenvalues.
  assert (LAST : forall figs, (0 < length figs)%nat -> (forall i, (i < length figs)%nat -> alone eig cmap bikes sp colors styles lg i (nth i bikes no_bike) (nth i figs blank)) ->
    exists lst t, List.rev figs = lst :: t /\ fg_title lst = "Eigenvalues vs Speed" /\ fg_ylabel lst = (if lg then "Real Part of the Largest Eigenvalue [1/s]" else "Real and Imaginary Parts of the Eigenvalue [1/s]")).
  { intros figs N H. destruct (List.rev figs) as [|lst t] eqn:RV.
    { apply (f_equal (@length figure)) in RV. rewrite rev_length in RV. cbn in RV. lia. }
    exists lst, t. split; [reflexivity|]. assert (EL : nth (length figs - 1) figs blank = lst).
    { rewrite <- (rev_involutive figs), RV. cbn [List.rev]. rewrite app_length. cbn [length]. rewrite Nat.add_sub. rewrite app_nth2, Nat.sub_diag; [reflexivity|lia]. }
    specialize (H (length figs - 1)%nat ltac:(lia)). rewrite EL in H. apply alone_look in H. tauto. }
  split.
  - intros E. apply bind_ok in E. destruct E as (r & E & ER). apply loop_iff in E. destruct E as (figs & F & ->).
    apply (Forall2_combine _ no_bike blank) in F. destruct F as (L & H). cbn [Nat.add fst snd] in H.
    assert (NE : (0 < length bikes)%nat).
    { destruct bikes; [|cbn; lia]. destruct figs; [|discriminate]. discriminate. }
    assert (H' : forall i, (i < length bikes)%nat -> (colors = [] \/ (i < length colors)%nat) /\ (styles = [] \/ (i < length styles)%nat) /\ alone eig cmap bikes sp colors styles lg i (nth i bikes no_bike) (nth i figs blank)).
    { intros i Hi. destruct (H i Hi) as (c & s & E1 & E2 & E3). apply (chosen_colours cmap colors _ i c Hi) in E1. apply (chosen_styles styles _ i s Hi) in E2.
      destruct E1 as (A1 & ->). destruct E2 as (A2 & ->). auto. }
    destruct (LAST figs ltac:(lia)) as (lst & t & RV & TT & YL). { intros i Hi. apply H'. lia. }
    rewrite RV in ER. injection ER as <-. cbn [Nat.eqb app fg_lines fg_title fg_ylabel fg_legend].
    split; [intros ->; cbn in NE; lia|]. split; [apply enough_iff; [exact NE|]; intros i Hi; apply H', Hi|]. split; [apply enough_iff; [exact NE|]; intros i Hi; apply H', Hi|].
    exists figs. split; [exact L|]. split; [intros i Hi; apply H', Hi|]. auto.
  - intros (NE & EC & ES & figs & L & H & LN & TT & YL & LG).
    assert (N : (0 < length bikes)%nat) by (destruct bikes; [congruence|cbn; lia]).
    rewrite (enough_iff colors) in EC by exact N. rewrite (enough_iff styles) in ES by exact N.
    destruct (LAST figs ltac:(lia)) as (lst & t & RV & TT' & YL'). { intros i Hi. apply H. lia. }
    match goal with |- bind ?x _ = _ => assert (X : x = Ok (Some f)) end; [|rewrite X; reflexivity].
    apply loop_iff. exists figs. split.
    + apply (Forall2_combine _ no_bike blank). split; [exact L|]. intros i Hi. cbn [Nat.add fst snd]. exists (colour_of cmap colors (length bikes) i), (style_of styles i).
      split; [apply chosen_colours; auto|]. split; [apply chosen_styles; auto|]. apply H, Hi.
    + rewrite RV. cbn [Nat.eqb app]. destruct f as [f1 f2 f3 f4]. cbn [fg_lines fg_title fg_ylabel fg_legend] in *. congruence.
Qed.
Print Assumptions C72_comparison_is_the_single_figures.

Lemma in_legend_proper l : proper_name (ln_label l) -> in_legend l = true.
Proof. intros (A & B). unfold in_legend. rewrite B. destruct (String.eqb_spec (ln_label l) ""); [contradiction|reflexivity]. Qed.
Lemma flat_map_nth {A B} (g : A -> list B) d : forall l, flat_map g l = flat_map (fun i => g (nth i l d)) (seq 0 (length l)).
Proof.
  induction l as [|a l IH]; [reflexivity|]. cbn [flat_map length seq nth]. f_equal. rewrite <- seq_shift. rewrite (flat_map_concat_map _ (map S _)), map_map, <- flat_map_concat_map. exact IH.
Qed.
Lemma filter_flat_map {A B} (p : B -> bool) (g : A -> list B) : forall l, filter p (flat_map g l) = flat_map (fun a => filter p (g a)) l.
Proof. induction l as [|a l IH]; [reflexivity|]. cbn [flat_map]. rewrite filter_app, IH. reflexivity. Qed.
Lemma flat_map_single {A B} (g : A -> list B) (h : A -> B) : forall l, (forall a, In a l -> g a = [h a]) -> flat_map g l = map h l.
Proof. induction l as [|a l IH]; intros H; [reflexivity|]. cbn [flat_map map]. rewrite (H a) by (left; reflexivity). cbn [app]. f_equal. apply IH. intros; apply H; right; assumption. Qed.
Lemma map_flat_map {A B C} (h : B -> C) (g : A -> list B) : forall l, map h (flat_map g l) = flat_map (fun a => map h (g a)) l.
Proof. induction l as [|a l IH]; [reflexivity|]. cbn [flat_map]. rewrite map_app, IH. reflexivity. Qed.

(* the legend has one entry for each bicycle, in their order, with its name and colour;
   the given line style shows only with largest *)
Theorem C72_legend_names_each_bicycle_once : forall eig cmap bikes sp colors styles lg f,
  compare_eigenvalues eig cmap bikes sp colors styles lg = Ok f -> (forall b, In b bikes -> proper_name (nb_name b)) ->
  legend_of f = map (fun i => (nb_name (nth i bikes no_bike), colour_of cmap colors (length bikes) i, if lg then style_of styles i else "-")) (seq 0 (length bikes)).
Proof.
  intros eig cmap bikes sp colors styles lg f E PN. apply C72_comparison_is_the_single_figures in E. destruct E as (_ & _ & _ & figs & L & H & LN & _ & _ & LG).
  unfold legend_of. rewrite LG, LN, filter_flat_map, map_flat_map, (flat_map_nth _ blank figs), L. apply flat_map_single. intros i Hi. apply in_seq in Hi. cbn [Nat.add] in Hi.
  destruct (alone_look _ _ _ _ _ _ _ _ _ _ (H i (proj2 Hi))) as (_ & _ & FL & l & HD & LK). rewrite FL.
  assert (PR : in_legend l = true).
  { apply in_legend_proper. injection LK as _ _ ->. apply PN, nth_In. lia. }
  assert (X : filter in_legend (match List.rev (fg_lines (nth i figs blank)) with last :: _ => if lg then match fg_lines (nth i figs blank) with a :: _ => [a] | [] => [] end else [last] | [] => [] end) = [l]).
  { destruct (List.rev (fg_lines (nth i figs blank))) as [|lst t] eqn:RV.
    - destruct lg; [|discriminate]. apply (f_equal (@List.rev line)) in RV. rewrite rev_involutive in RV. rewrite RV in HD. discriminate.
    - destruct lg.
      + destruct (fg_lines (nth i figs blank)) as [|a r]; [discriminate|]. injection HD as ->. cbn [filter]. rewrite PR. reflexivity.
      + injection HD as ->. cbn [filter]. rewrite PR. reflexivity. }
  rewrite X. cbn [map]. injection LK as -> -> ->. reflexivity.
Qed.
Print Assumptions C72_legend_names_each_bicycle_once.
Lemma flat_map_split {A B} (g : A -> list B) d : forall l i, (i < length l)%nat ->
  flat_map g l = (flat_map g (firstn i l) ++ g (nth i l d) ++ flat_map g (skipn (S i) l))%list.
Proof.
  intros l i Hi. rewrite <- (firstn_skipn i l) at 1. rewrite flat_map_app. f_equal.
  assert (X : skipn i l = nth i l d :: skipn (S i) l). { clear -Hi. revert l Hi. induction i as [|i IH]; intros [|a l] Hi; cbn in Hi; try lia; [reflexivity|]. cbn [skipn nth]. apply IH. lia. }
  rewrite X. reflexivity.
Qed.
Lemma flat_map_const_length {A B} (g : A -> list B) k : forall l, (forall a, In a l -> length (g a) = k) -> length (flat_map g l) = (k * length l)%nat.
Proof. induction l as [|a l IH]; intros H; cbn [flat_map length]; [lia|]. rewrite app_length, (H a), IH; [lia| |left; reflexivity]. intros; apply H; right; assumption. Qed.

(* bicycle i's part of the comparison: its lines follow those of the i bicycles before it
   and all of them except the axis have its colour; they show its eigenvalues *)
Theorem C72_eigenvalues_of_each_bicycle : forall eig cmap bikes sp speeds colors styles f i, eig_contract eig -> sorted_copy sp speeds ->
  compare_eigenvalues eig cmap bikes sp colors styles false = Ok f -> (i < length bikes)%nat ->
  let b := nth i bikes no_bike in let c := colour_of cmap colors (length bikes) i in
  exists before mine after re im axis, fg_lines f = (before ++ mine ++ after)%list /\ length before = (9 * i)%nat /\ length (fg_lines f) = (9 * length bikes)%nat /\
    map ln_pts mine = (im ++ [axis] ++ re)%list /\ shows_spectrum (nb_par b) speeds re im /\ zero_line speeds axis /\
    map ln_colour mine = [c; c; c; c; Named "k"; c; c; c; c] /\ map ln_style mine = ["--"; "--"; "--"; "--"; "-"; "-"; "-"; "-"; "-"].
Proof.
  intros eig cmap bikes sp speeds colors styles f i EC SC E Hi b c. apply C72_comparison_is_the_single_figures in E. destruct E as (_ & _ & _ & figs & L & H & LN & _).
  assert (L9 : forall g, In g figs -> length (fg_lines g) = 9%nat).
  { intros g Hg. apply (In_nth _ _ blank) in Hg. destruct Hg as (j & Hj & <-). specialize (H j ltac:(lia)). unfold alone in H.
    destruct (C72_lines_of_one_bicycle _ _ _ _ _ _ _ _ EC SC H) as (_ & _ & _ & _ & _ & _ & LK & _). apply (f_equal (@length _)) in LK. rewrite map_length in LK. exact LK. }
  destruct (C72_lines_of_one_bicycle _ _ _ _ _ _ _ _ EC SC (H i Hi)) as (re & im & axis & SH & ZL & PT & LK & _).
  exists (flat_map fg_lines (firstn i figs)), (fg_lines (nth i figs blank)), (flat_map fg_lines (skipn (S i) figs)), re, im, axis.
  split; [rewrite LN; apply flat_map_split; lia|]. split.
  { rewrite (flat_map_const_length _ 9) by (intros a Ha; apply L9; rewrite <- (firstn_skipn i figs); apply in_or_app; auto). rewrite firstn_length. lia. }
  split; [rewrite LN, (flat_map_const_length _ 9) by exact L9; lia|].
  split; [exact PT|]. split; [exact SH|]. split; [exact ZL|]. fold c in LK.
  split; [transitivity (map (fun t => fst (fst t)) (map look (fg_lines (nth i figs blank))))|transitivity (map (fun t => snd (fst t)) (map look (fg_lines (nth i figs blank))))].
  all: try (rewrite map_map; reflexivity). all: rewrite LK; reflexivity.
Qed.
Print Assumptions C72_eigenvalues_of_each_bicycle.

(* with largest: bicycle i has the line of its greatest real parts in its colour and
   style, and an axis line.  Where the line is below the axis the bicycle balances itself
   and where it is above it falls over (C71). *)
Theorem C72_largest_of_each_bicycle : forall eig cmap bikes sp speeds colors styles f i, eig_contract eig -> sorted_copy sp speeds ->
  compare_eigenvalues eig cmap bikes sp colors styles true = Ok f -> (i < length bikes)%nat ->
  let b := nth i bikes no_bike in
  exists before mine axis after, fg_lines f = (before ++ mine :: axis :: after)%list /\ length before = (2 * i)%nat /\ length (fg_lines f) = (2 * length bikes)%nat /\
    look mine = (colour_of cmap colors (length bikes) i, style_of styles i, nb_name b) /\ look axis = (Named "k", "-", "_nolegend_") /\
    shows_greatest (nb_par b) speeds (ln_pts mine) /\ zero_line speeds (ln_pts axis) /\
    forall p g j, eig_complete eig -> dget (nb_par b) "Benchmark" = Some p -> dget p "g" = Some g -> (j < length speeds)%nat ->
      (snd (pt (ln_pts mine) j) < snd (pt (ln_pts axis) j) <-> balances_itself (bike_of p) (nth j speeds 0) g) /\
      (snd (pt (ln_pts axis) j) < snd (pt (ln_pts mine) j) -> falls_over (bike_of p) (nth j speeds 0) g).
Proof.
  intros eig cmap bikes sp speeds colors styles f i EC SC E Hi b. apply C72_comparison_is_the_single_figures in E. destruct E as (_ & _ & _ & figs & L & H & LN & _).
  assert (L2 : forall g, In g figs -> length (fg_lines g) = 2%nat).
  { intros g Hg. apply (In_nth _ _ blank) in Hg. destruct Hg as (j & Hj & <-). specialize (H j ltac:(lia)). unfold alone in H.
    destruct (C72_largest_of_one_bicycle _ _ _ _ _ _ _ _ _ EC SC H) as (l0 & a0 & _ & _ & PT & _). apply (f_equal (@length _)) in PT. rewrite map_length in PT. exact PT. }
  pose proof (H i Hi) as HI. destruct (C72_largest_of_one_bicycle _ _ _ _ _ _ _ _ _ EC SC HI) as (l & ax & SG & ZL & PT & LK & _).
  destruct (fg_lines (nth i figs blank)) as [|mine [|axis [|]]] eqn:FL; try discriminate. cbn [map] in PT, LK. injection PT as PT1 PT2. pose proof (f_equal (fun l => nth 0 l (look mine)) LK) as LK1. pose proof (f_equal (fun l => nth 1 l (look axis)) LK) as LK2. cbn [nth] in LK1, LK2.
  exists (flat_map fg_lines (firstn i figs)), mine, axis, (flat_map fg_lines (skipn (S i) figs)).
  split; [rewrite LN, (flat_map_split fg_lines blank figs i) by lia; rewrite FL; reflexivity|]. split.
  { rewrite (flat_map_const_length _ 2) by (intros a Ha; apply L2; rewrite <- (firstn_skipn i figs); apply in_or_app; auto). rewrite firstn_length. lia. }
  split; [rewrite LN, (flat_map_const_length _ 2) by exact L2; lia|].
  split; [exact LK1|]. split; [exact LK2|]. rewrite PT1, PT2. split; [exact SG|]. split; [exact ZL|].
  intros p g j CP EP EG Hj. destruct ZL as (_ & Z0). rewrite (Z0 j Hj).
  unfold alone, eigenvalues_vs_speed in HI. apply bind_ok in HI. destruct HI as (cs & EPL & HI).
  destruct (C71_largest_real_part_curve eig (nb_par b) p g sp speeds cs EC CP EP EG SC EPL) as (l' & -> & _ & ST). cbn [bind negb andb orb] in HI. injection HI as HI.
  rewrite <- HI in FL. cbn [fg_lines blank app] in FL. injection FL as FL1 FL2. assert (l' = l) as -> by (rewrite <- PT1, <- FL1; reflexivity). apply ST, Hj.
Qed.
Print Assumptions C72_largest_of_each_bicycle.

(* the default colours differ from bicycle to bicycle if the colour map tells apart the
   fractions of [0, 1) *)
Theorem C72_default_colours_are_distinct : forall cmap (bikes : list named_bike) i j, (forall x y, 0 <= x < 1 -> 0 <= y < 1 -> cmap x = cmap y -> x = y) ->
  (i < length bikes)%nat -> (j < length bikes)%nat -> colour_of cmap [] (length bikes) i = colour_of cmap [] (length bikes) j -> i = j.
Proof.
  intros cmap bikes i j INJ Hi Hj E. cbn [colour_of] in E. assert (N : 0 < INR (length bikes)) by (apply lt_0_INR; lia).
  assert (R : forall k, (k < length bikes)%nat -> 0 <= INR k / INR (length bikes) < 1).
  { intros k Hk. apply lt_INR in Hk. pose proof (pos_INR k). unfold Rdiv. pose proof (Rinv_0_lt_compat _ N). split; [nra|]. apply (Rmult_lt_reg_r (INR (length bikes))); [exact N|]. field_simplify; lra. }
  apply INJ in E; [|apply R, Hi|apply R, Hj]. apply INR_eq. apply (Rmult_eq_reg_r (/ INR (length bikes))); [exact E|]. apply Rinv_neq_0_compat. lra.
Qed.
Print Assumptions C72_default_colours_are_distinct.

(* "A list of matplotlib linestyles for each bicycle": unless largest is chosen the
   styles have no effect, but a list that is too short is still an error; and an empty
   list of bicycles is an error *)
Theorem C72_refuted_linestyles_are_used : forall eig cmap bikes sp colors s1 s2 f, eig_contract eig ->
  compare_eigenvalues eig cmap bikes sp colors s1 false = Ok f -> enough s2 (length bikes) -> compare_eigenvalues eig cmap bikes sp colors s2 false = Ok f.
Proof.
  intros eig cmap bikes sp colors s1 s2 f EC E EN. apply C72_comparison_is_the_single_figures in E. destruct E as (NE & E1 & _ & figs & L & H & REST).
  apply C72_comparison_is_the_single_figures. split; [exact NE|]. split; [exact E1|]. split; [exact EN|]. exists figs. split; [exact L|]. split; [|exact REST].
  intros i Hi. specialize (H i Hi). unfold alone, eigenvalues_vs_speed in *. exact H.
Qed.
Print Assumptions C72_refuted_linestyles_are_used.

Theorem C72_rejected_calls : forall eig cmap sp colors styles lg,
  compare_eigenvalues eig cmap [] sp colors styles lg = Err UnboundLocalError /\
  forall bikes f, (0 < length colors < length bikes)%nat \/ (0 < length styles < length bikes)%nat -> compare_eigenvalues eig cmap bikes sp colors styles lg <> Ok f.
Proof.
  intros. split; [reflexivity|]. intros bikes f H E. apply C72_comparison_is_the_single_figures in E. destruct E as (_ & E1 & E2 & _).
  destruct H as [H|H]; [destruct E1 as [->|E1]|destruct E2 as [->|E2]]; cbn in *; lia.
Qed.
Print Assumptions C72_rejected_calls.

(* a comparison of two bicycles *)
Example C72_satisfiable : exists f, compare_eigenvalues self_eig (fun x => Rgba x 0 0 1) [mknamed "Rigid" [("Benchmark", self_bike)]; mknamed "Rigidcl" [("Benchmark", self_bike)]] [4] [] [":"; "--"] true = Ok f /\
  legend_of f = [("Rigid", Rgba (0 / 2) 0 0 1, ":"); ("Rigidcl", Rgba (1 / 2) 0 0 1, "--")].
Proof.
  destruct (proj1 C71_plots) as (cs & E).
  assert (X : exists c, cs = [c]).
  { unfold plot_eigenvalues in E. apply bind_ok in E. destruct E as (evs & EE & E). apply bind_ok in E. destruct E as (ys & EY & E). apply bind_ok in E. destruct E as (lo & _ & E). injection E as <-. eauto. }
  destruct X as (c & ->).
  eexists. split.
  { unfold compare_eigenvalues. cbn [length seq map compare_loop Nat.eqb index nth_error bind]. unfold eigenvalues_vs_speed at 1. cbn [nb_par]. rewrite E. cbn [bind fg_lines fg_title fg_ylabel nb_name negb andb orb].
    unfold eigenvalues_vs_speed at 1. cbn [nb_par]. rewrite E. cbn [bind fg_lines fg_title fg_ylabel nb_name negb andb orb]. reflexivity. }
  unfold legend_of. cbn [fg_legend fg_lines blank app filter in_legend ln_label negb andb String.eqb Ascii.eqb Bool.eqb starts_with map ln_colour ln_style]. cbn. replace (1 + 1) with 2 by ring. reflexivity.
Qed.
