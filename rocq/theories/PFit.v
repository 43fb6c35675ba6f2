(* PFit.v -- lemmas for C75: figures of the period estimation *)
From Verif Require Import Base MString MIo SIo MPeriod SPeriod MTable STable MPeriod2 SPeriod2 MMain MState SState MFit SFit
  PBase PString PIo PIo3 PIo4 PIo5 PIo6 PPeriod PPeriod2 PPeriod3 PPeriod4 PPeriod5 PPeriod6 PTable PSets4 PState PState2.
From Coq Require Import ZArith Lra Lia.
Local Open Scope string_scope.
Local Open Scope R_scope.

Lemma times_nonempty h data rt x rate p : times_and_rate (length data) rt = Ok (x, rate) -> make_guess h data rate = Ok p -> length x = length data -> x <> [].
Proof.
  intros _ G L. assert (N : ~ (length data < 11)%nat). { intros K. apply (make_guess_short h data rate) in K. congruence. }
  destruct x; [cbn in L; lia|discriminate].
Qed.
Lemma plot_osfit_blank ustr x y f p rsq T m : length x = length y -> length x = length f ->
  plot_osfit ustr x y f p rsq T m (Some empty_fig)
  = Ok (mkff [mkfl (combine x y) "."; mkfl (combine x f) "k-"] "Time [s]" "Amplitude [V]" (fit_title ustr p rsq T)
          [("Measured", mkfl (combine x y) "."); ("Fit", mkfl (combine x f) "k-")] (match m with Some m => Some (0, m) | None => None end)).
Proof. intros A B. unfold plot_osfit, draw. rewrite (proj2 (Nat.eqb_eq _ _) A). cbn [bind]. rewrite (proj2 (Nat.eqb_eq _ _) B). reflexivity. Qed.

Section F.
  Variable ustr : R * R -> string.
  Variable leastsq : (list R -> list R) -> list R -> res (list R).
  Variable inv : list (list R) -> res (list (list R)).
  Variable honours : bool.
  Notation gp := (get_period leastsq inv honours).
  Notation gpf := (get_period_fig ustr leastsq inv honours).

  Lemma get_period_fig_period data rt : gp data rt = (r <- gpf data rt ;; Ok (snd r)).
  Proof.
    unfold get_period, get_period_fig.
    destruct (times_and_rate (length data) rt) as [[x rate]|] eqn:E1; [cbn [bind]|reflexivity].
    destruct (make_guess honours data rate) as [p0|] eqn:E2; [cbn [bind]|reflexivity].
    destruct (Nat.eqb_spec (length x) (length data)) as [LX|LX]; [|reflexivity].
    destruct (leastsq _ p0) as [p1|]; [cbn [bind]|reflexivity].
    destruct (if Rltb 0 (1 - par p1 3 ^ 2) then Ok tt else Err (OtherError "nan")) as [?|]; [cbn [bind]|reflexivity].
    cbv zeta. destruct (fit_goodness data (map (fitfunc p1) x)) as [[[[rsq SSE] SST] SSR]|]; [cbn [bind]|reflexivity].
    destruct (root (SSE / _)) as [sg|]; [cbn [bind]|reflexivity].
    destruct (inv _) as [H|]; [cbn [bind]|reflexivity].
    destruct (root (sg ^ 2 * nth 4 (nth 4 H []) 0)) as [sw|]; [cbn [bind]|reflexivity].
    destruct (root (sg ^ 2 * nth 3 (nth 3 H []) 0)) as [sz|]; [cbn [bind]|reflexivity].
    destruct (Req_EM_T _ 0); [reflexivity|].
    destruct (argmax_ok x (times_nonempty _ _ _ _ _ _ E1 E2 LX)) as [[i m] M]. rewrite M. cbn [bind].
    rewrite plot_osfit_blank by (rewrite ?map_length; congruence). reflexivity.
  Qed.

  Hypothesis LS_len : forall f p0 p1, leastsq f p0 = Ok p1 -> length p1 = length p0.
  Hypothesis LS_ext : forall f g p0, (forall p, length p = length p0 -> f p = g p) -> leastsq f p0 = leastsq g p0.

  Lemma title_ok a b c z w rsq T : title_shows ustr (fit_title ustr [a; b; c; z; w] rsq T) [a; b; c; z; w] rsq T.
  Proof.
    exists a, b, c, z, w. split; [reflexivity|].
    exists (fmt_fixed 2 a), (fmt_fixed 2 b), (fmt_fixed 2 c), (fmt_fixed 3 z), (fmt_fixed 1 w), (fmt_fixed 3 rsq).
    repeat (split; [apply fmt_shows; lia|]). reflexivity.
  Qed.
  Lemma get_period_fig_ok data rt fig T sd : gpf data rt = Ok (fig, (T, sd)) ->
    exists x rate p0 p, sample_times (length data) rt x rate /\ length x = length data /\ first_guess honours data rate p0
      /\ leastsq (misfits x data) p0 = Ok p /\ fit_figure ustr x data p (r_squared x data p) (T, sd) fig.
  Proof.
    intros H. unfold get_period_fig in H.
    apply bind_ok in H as [[x rate] [H1 H]]. apply bind_ok in H as [p0 [H2 H]].
    apply bind_ok in H as [p1 [H3 H]]. destruct (Nat.eqb_spec (length x) (length data)) as [LX|LX]; [|discriminate].
    pose proof (times_nonempty _ _ _ _ _ _ H1 H2 LX) as NE. apply times_iff in H1. apply make_guess_iff in H2. pose proof (guess_five honours _ _ _ H2) as L0.
    pose proof (LS_len _ _ _ H3) as L1. rewrite L0 in L1. rewrite (LS_ext _ (misfits x data)) in H3 by (intros p Lp; apply misfits_model; congruence).
    destruct p1 as [|a [|b [|c [|z [|w [|]]]]]]; try discriminate L1. clear L1.
    apply bind_ok in H as [? [H4 H]]. clear H4 x0.
    cbv zeta in H. apply bind_ok in H as [[[[rsq SSE] SST] SSR] [H4 H]]. apply fit_goodness_ok in H4 as [N4 E4].
    assert (EC : map (fitfunc [a; b; c; z; w]) x = map (oscillation [a; b; c; z; w]) x) by (apply map_ext; intros t; apply fitfunc_osc; reflexivity). rewrite EC in *.
    apply bind_ok in H as [sg [_ H]]. apply bind_ok in H as [Hi [_ H]]. apply bind_ok in H as [sw [_ H]]. apply bind_ok in H as [sz [_ H]].
    destruct (Req_EM_T _ 0) as [F|F]; [discriminate|]. clear F.
    apply bind_ok in H as [[i m] [HM H]]. apply bind_ok in H as [fg [HP H]].
    rewrite plot_osfit_blank in HP by (rewrite ?map_length; congruence).
    match type of H with Ok (_, ?t) = Ok (_, ?u) => assert (HT : t = u) by congruence; assert (HF : fg = fig) by congruence end. rewrite HT in HP. clear H HT. subst fg.
    assert (RS : rsq = r_squared x data [a; b; c; z; w]) by (unfold r_squared; congruence). clear E4. subst rsq.
    match type of HP with Ok ?g = Ok _ => assert (fig = g) as -> by congruence end. clear HP.
    exists x, rate, p0, [a; b; c; z; w]. repeat (split; [assumption|]).
    eexists (mkfl _ _), (mkfl _ _), m. split; [reflexivity|]. split; [reflexivity|]. split; [reflexivity|]. split; [reflexivity|]. cbn [fl_pts].
    split; [rewrite combine_length, LX; apply Nat.min_id|]. split; [rewrite combine_length, map_length; apply Nat.min_id|].
    split.
    - intros k t v A B. split.
      + apply nth_error_combine'; assumption.
      + apply nth_error_combine'; [exact A|]. rewrite nth_error_map, A. reflexivity.
    - split; [apply (argmax_largest _ _ _ HM)|]. split; [reflexivity|]. split; [reflexivity|]. split; [reflexivity|]. apply title_ok.
  Qed.
End F.

(* ---- names ---- *)
Lemma split_snoc c d r : free c r -> split_on c (d ++ String c r) = (split_on c d ++ [r])%list.
Proof.
  intros F. induction d as [|x d IH]; cbn [append split_on].
  - rewrite Ascii.eqb_refl, split_on_free by exact F. reflexivity.
  - rewrite IH. destruct (Ascii.eqb x c); [reflexivity|]. pose proof (split_on_ne c d) as NE. destruct (split_on c d); [congruence|reflexivity].
Qed.
Lemma plot_dir_raw d : plain d -> plot_dir (d ++ "/RawData") = d ++ "/Plots/PendulumFit".
Proof.
  intros P. unfold plot_dir. change ("/RawData") with (String slash "RawData"). rewrite split_snoc by (cbv; intuition discriminate). rewrite removelast_last.
  destruct (split_on_fields slash d) as [_ [E _]]. change "/"%string with (String slash ""). rewrite <- E.
  rewrite (os_join_plain d) by (exact P || reflexivity). rewrite os_join_plain by (reflexivity || (apply plain_snoc; exists "/Plot", "s"%char; split; [reflexivity|discriminate])).
  rewrite !sapp_assoc. reflexivity.
Qed.
Lemma all_dots_not s : (exists c, In c (list_ascii_of_string s) /\ c <> "."%char) -> all_dots s = false.
Proof.
  intros [c [I N]]. induction s as [|x s IH]; [destruct I|]. cbn in I |- *. destruct I as [->|I]; [rewrite aeqb_neq by exact N; reflexivity|]. rewrite IH by exact I. apply Bool.andb_false_r.
Qed.
Lemma splitext_mat s : (exists c, In c (list_ascii_of_string s) /\ c <> "."%char) -> splitext0 (s ++ ".mat") = s.
Proof.
  intros H. unfold splitext0. change ".mat" with (String "." "mat"). rewrite cut_last_dot_app by (cbv; intuition discriminate). rewrite all_dots_not by exact H. reflexivity.
Qed.
Definition slashless (s : string) : Prop := ~ In "/"%char (list_ascii_of_string s).
Lemma slashless_start s t : slashless s -> (exists c, In c (list_ascii_of_string s) /\ c <> "."%char) -> starts_with "/" (s ++ t) = false.
Proof.
  intros F [c [I _]]. destruct s as [|x s]; [destruct I|]. cbn [append]. unfold starts_with. destruct (Ascii.eqb "/" x) eqn:E; [|reflexivity]. apply Ascii.eqb_eq in E. subst x. exfalso. apply F. left. reflexivity.
Qed.
Lemma plot_file_raw d s : plain d -> slashless s -> (exists c, In c (list_ascii_of_string s) /\ c <> "."%char) ->
  plot_file (d ++ "/RawData") (s ++ ".mat") = figure_path d s.
Proof.
  intros P F N. unfold plot_file. rewrite plot_dir_raw by exact P. rewrite splitext_mat by exact N.
  rewrite os_join_plain; [|apply plain_snoc; exists "/Plots/PendulumFi", "t"%char; split; [reflexivity|discriminate]|apply slashless_start; assumption].
  unfold figure_path. rewrite !sapp_assoc. reflexivity.
Qed.
Lemma raw_file d s : plain d -> slashless s -> (exists c, In c (list_ascii_of_string s) /\ c <> "."%char) ->
  os_join (d ++ "/RawData") (s ++ ".mat") = d ++ "/RawData/" ++ s ++ ".mat".
Proof.
  intros P F N. rewrite os_join_plain; [|apply plain_snoc; exists "/RawDat", "a"%char; split; [reflexivity|discriminate]|apply slashless_start; assumption].
  rewrite sapp_assoc. reflexivity.
Qed.
Lemma sapp_inv_head a b c : a ++ b = a ++ c -> b = c.
Proof. induction a as [|x a IH]; cbn; intros H; [exact H|]. injection H as H. auto. Qed.
Lemma chars_app a b : list_ascii_of_string (a ++ b) = (list_ascii_of_string a ++ list_ascii_of_string b)%list.
Proof. induction a as [|x a IH]; cbn; [reflexivity|]. rewrite IH. reflexivity. Qed.
Lemma chars_inj a b : list_ascii_of_string a = list_ascii_of_string b -> a = b.
Proof. intros H. rewrite <- (string_of_list_ascii_of_string a), H. apply string_of_list_ascii_of_string. Qed.
Lemma sapp_inv_tail a b c : a ++ c = b ++ c -> a = b.
Proof. intros H. apply (f_equal list_ascii_of_string) in H. rewrite !chars_app in H. apply app_inv_tail in H. apply chars_inj, H. Qed.
Lemma figure_path_inj d s s' : figure_path d s = figure_path d s' -> s = s'.
Proof. unfold figure_path. intros H. apply sapp_inv_head in H. apply sapp_inv_head in H. apply sapp_inv_tail in H. exact H. Qed.
Lemma mat_not_png a b : a ++ ".mat" <> b ++ ".png".
Proof.
  intros H. apply (f_equal (fun s => rev (list_ascii_of_string s))) in H. rewrite !chars_app, !rev_app_distr in H. discriminate.
Qed.

Lemma Forall2_impl_in' {A B} (P Q : A -> B -> Prop) l m : (forall a b, In a l -> In b m -> P a b -> Q a b) -> Forall2 P l m -> Forall2 Q l m.
Proof. intros H F. induction F as [|a b l m F1 F2 IH]; constructor; [apply H; [left|left|]; auto|]. apply IH. intros x y X Y. apply H; right; assumption. Qed.

Section Files.
  Variable ustr : R * R -> string.
  Variable leastsq : (list R -> list R) -> list R -> res (list R).
  Variable inv : list (list R) -> res (list (list R)).
  Variable honours : bool.
  Variable loadmat : string -> res (dict matv).
  Variable render : fitfig -> string.
  Notation fpf := (file_period_fig ustr leastsq inv honours).
  Notation fp := (file_period leastsq inv honours).
  Lemma truncated_fig_period d rt : get_period_from_truncated leastsq inv honours d rt = (r <- get_period_from_truncated_fig ustr leastsq inv honours d rt ;; Ok (snd r)).
  Proof.
    unfold get_period_from_truncated, get_period_from_truncated_fig. destruct rt; cbn [bind]; try apply get_period_fig_period;
      (destruct (select_good_data d (1 / 10)); cbn [bind]; [apply get_period_fig_period|reflexivity]).
  Qed.
  Lemma file_fig_period mat : fp mat = (r <- fpf mat ;; Ok (snd r)).
  Proof.
    unfold file_period, file_period_fig. destruct (dget mat "time") as [t|].
    - destruct (data_entry mat); cbn [bind]; [apply truncated_fig_period|reflexivity].
    - destruct (get_sample_rate mat); cbn [bind]; [|reflexivity]. destruct (data_entry mat); cbn [bind]; [apply truncated_fig_period|reflexivity].
  Qed.

  (* the decoded measurement of the file at a path *)
  Definition decoded (fs : fsys) (path : string) (c : dict matv) : Prop :=
    exists t raw, dget (fs_files fs) path = Some t /\ loadmat t = Ok raw /\ clean_mat raw = Ok c.
  Variable d : string.
  Hypothesis Pd : plain d.
  Notation dir := (d ++ "/RawData").
  Lemma names_ok f : mat_name f -> exists s, f = s ++ ".mat" /\ os_join dir f = d ++ "/RawData/" ++ s ++ ".mat" /\ plot_file dir f = figure_path d s.
  Proof. intros [s [-> [A B]]]. exists s. split; [reflexivity|]. split; [apply raw_file|apply plot_file_raw]; assumption. Qed.
  Lemma raw_not_figure f g : mat_name f -> mat_name g -> os_join dir f <> plot_file dir g.
  Proof.
    intros F G. destruct (names_ok f F) as [s [_ [-> _]]]. destruct (names_ok g G) as [s' [_ [_ ->]]]. unfold figure_path.
    replace (d ++ "/RawData/" ++ s ++ ".mat") with ((d ++ "/RawData/" ++ s) ++ ".mat") by (rewrite !sapp_assoc; reflexivity).
    replace (d ++ "/Plots/PendulumFit/" ++ s' ++ ".png") with ((d ++ "/Plots/PendulumFit/" ++ s') ++ ".png") by (rewrite !sapp_assoc; reflexivity). apply mat_not_png.
  Qed.
  Lemma figures_differ f g : mat_name f -> mat_name g -> plot_file dir f = plot_file dir g -> f = g.
  Proof.
    intros F G H. destruct (names_ok f F) as [s [-> [_ E]]]. destruct (names_ok g G) as [s' [-> [_ E']]]. rewrite E, E' in H. apply figure_path_inj in H. congruence.
  Qed.

  Notation ff := (fit_files ustr leastsq inv honours loadmat render).
  Lemma collect_snoc split acc mat T k fs : get_period_key mat split = Ok k ->
    collect_periods split acc ((mat, Ok T) :: fs) = collect_periods split (match dget acc k with Some l => dset acc k (l ++ [T])%list | None => dset acc k [T] end) fs.
  Proof. intros H. cbn [collect_periods]. rewrite H. reflexivity. Qed.
  Lemma fit_files_effect split files : Forall mat_name files -> NoDup files -> forall fs acc r fs', ff fs dir split acc files = (r, fs') ->
    fs_dirs fs' = fs_dirs fs /\ (forall q, (forall f, In f files -> q <> plot_file dir f) -> dget (fs_files fs') q = dget (fs_files fs) q)
    /\ forall acc', r = Ok acc' -> exists cs, Forall2 (fun f c => decoded fs (os_join dir f) c) files cs
         /\ collect_periods split acc (map (fun c => (texts c, fp c)) cs) = Ok acc'
         /\ Forall2 (fun f c => exists fig T, fpf c = Ok (fig, T) /\ dget (fs_files fs') (plot_file dir f) = Some (render fig)) files cs.
  Proof.
    induction files as [|f files IH]; intros A N fs acc r fs' H.
    - cbn in H. injection H as <- <-. split; [reflexivity|]. split; [reflexivity|]. intros acc' E. injection E as <-. exists []. repeat split; constructor.
    - inversion A as [|? ? A1 A2]; subst. inversion N as [|? ? N1 N2]; subst. cbn [fit_files] in H.
      destruct (t <- open_r fs (os_join dir f) ;; _) as [[[k T] fs1]|e] eqn:E.
      2: { injection H as <- <-. split; [reflexivity|]. split; [reflexivity|]. intros ? K. discriminate. }
      apply bind_ok in E as [t [E1 E]]. apply bind_ok in E as [raw [E2 E]]. apply bind_ok in E as [mat [E3 E]]. apply bind_ok in E as [k' [E4 E]].
      apply bind_ok in E as [[fig T'] [E5 E]]. apply bind_ok in E as [fs1' [E6 E]]. cbn [fst snd] in *. injection E as -> -> ->.
      unfold savefig in E6. destruct (isdir fs (plot_dir dir)) eqn:ID; [|discriminate]. apply open_w_ok in E6 as [W1 [W2 W3]].
      apply open_r_iff in E1.
      destruct (IH A2 N2 _ _ _ _ H) as [B1 [B2 B3]]. split; [congruence|]. split.
      + intros q Q. rewrite B2 by (intros g G; apply Q; right; exact G). apply W3, Q. left. reflexivity.
      + intros acc' R. destruct (B3 acc' R) as [cs [C1 [C2 C3]]]. exists (mat :: cs). split; [|split].
        * constructor; [exists t, raw; auto|]. revert C1. apply Forall2_impl_in'. intros g c G _ [t' [raw' [D1 D2]]]. exists t', raw'. split; [|exact D2]. rewrite <- D1. symmetry. apply W3. apply raw_not_figure; [|exact A1]. apply (proj1 (Forall_forall _ _) A2 g G).
        * cbn [map]. rewrite file_fig_period, E5. cbn [bind snd]. rewrite (collect_snoc _ _ _ _ k) by exact E4. exact C2.
        * constructor; [|exact C3]. exists fig, T. split; [exact E5|]. rewrite B2; [exact W2|]. intros g G K. apply figures_differ in K; [subst g; contradiction|exact A1|]. apply (proj1 (Forall_forall _ _) A2 g G).
  Qed.
  (* and it succeeds when every file has a period and the figures can be written *)
  Lemma fit_files_total split files : Forall mat_name files -> forall fs acc cs acc',
    isdir fs (plot_dir dir) = true -> (forall f, In f files -> isdir fs (plot_file dir f) = false) ->
    Forall2 (fun f c => decoded fs (os_join dir f) c) files cs -> collect_periods split acc (map (fun c => (texts c, fp c)) cs) = Ok acc' ->
    exists fs', ff fs dir split acc files = (Ok acc', fs').
  Proof.
    induction files as [|f files IH]; intros A fs acc cs acc' D1 D2 C1 C2; inversion C1 as [|? mat ? cs' [t [raw [E1 [E2 E3]]]] C1']; subst.
    - cbn in C2. injection C2 as <-. exists fs. reflexivity.
    - inversion A as [|? ? A1 A2]; subst. cbn [map collect_periods] in C2. apply bind_ok in C2 as [k [K C2]]. apply bind_ok in C2 as [T [ET C2]].
      rewrite file_fig_period in ET. apply bind_ok in ET as [[fig T'] [ET ET']]. cbn [snd] in ET'. injection ET' as ->.
      cbn [fit_files]. unfold open_r at 1. rewrite E1. cbn [bind]. rewrite E2. cbn [bind]. rewrite E3. cbn [bind]. rewrite K. cbn [bind]. rewrite ET. cbn [bind fst snd].
      unfold savefig. rewrite D1. unfold open_w. rewrite D2 by (left; reflexivity). destruct (names_ok f A1) as [s [-> [_ P]]].
      assert (SP : String.eqb (snd (os_split (plot_file dir (s ++ ".mat")))) "" = false).
      { rewrite P. destruct A1 as [s' [Es [S1 S2]]]. apply sapp_inv_tail in Es. subst s'. unfold figure_path.
        replace (d ++ "/Plots/PendulumFit/" ++ s ++ ".png") with ((d ++ "/Plots/PendulumFit") ++ "/" ++ (s ++ ".png")) by (rewrite !sapp_assoc; reflexivity).
        rewrite os_split_plain; [destruct s; [destruct S2 as [? [[] _]]|reflexivity]| |].
        - apply plain_snoc. exists "/Plots/PendulumFi", "t"%char. split; [reflexivity|discriminate].
        - unfold free, chars. rewrite chars_app. intros K'. apply in_app_or in K' as [K'|K']; [apply S1, K'|]. cbv in K'. intuition discriminate. }
      rewrite SP. cbn [orb bind]. eapply IH; [exact A2|exact D1|intros g G; apply D2; right; exact G| |exact C2].
      revert C1'. apply Forall2_impl_in'. intros g c G _ [t' [raw' [F1 F2]]]. exists t', raw'. split; [|exact F2]. cbn [fs_files]. rewrite dget_dset_neq; [exact F1|]. apply String.eqb_neq. intros K'. apply (raw_not_figure g (s ++ ".mat")); auto. apply (proj1 (Forall_forall _ _) A2 g G).
  Qed.
End Files.
