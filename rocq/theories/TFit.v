(* TFit.v -- property C75: the figures the period estimation leaves behind *)
From Verif Require Import Base MString MIo SIo MPeriod SPeriod MTable STable MPeriod2 SPeriod2 MMain MState SState MFit SFit
  PBase PString PIo PIo3 PIo4 PIo5 PIo6 PPeriod PPeriod2 PPeriod3 PPeriod4 PPeriod5 PPeriod6 PTable PSets4 PState PState2 PFit TPeriod2.
From Coq Require Import ZArith Lra Lia.
Local Open Scope string_scope.
Local Open Scope R_scope.

(* ---- one record ---- *)
(* Drawing never changes the estimate and never makes it fail. *)
Theorem C75_drawing_is_harmless : forall ustr leastsq inv honours data rt,
  (forall T, get_period leastsq inv honours data rt = Ok T <-> exists fig, get_period_fig ustr leastsq inv honours data rt = Ok (fig, T))
  /\ (forall e, get_period leastsq inv honours data rt = Err e <-> get_period_fig ustr leastsq inv honours data rt = Err e).
Proof.
  intros ustr ls inv h data rt. rewrite (get_period_fig_period ustr ls inv h data rt). destruct (get_period_fig ustr ls inv h data rt) as [[fig T]|e]; cbn [bind snd]; split; intros X; split; intros H.
  - injection H as <-. exists fig. reflexivity.
  - destruct H as [f H]. congruence.
  - discriminate.
  - discriminate.
  - discriminate.
  - destruct H as [f H]. discriminate.
  - congruence.
  - congruence.
Qed.
Print Assumptions C75_drawing_is_harmless.

(* The figure shows the record, the fitted oscillation whose damped period is the one
   returned, and a title with the fitted parameters, r squared and that period. *)
Theorem C75_figure : forall ustr leastsq inv honours data rt fig T sd, fits_vectors leastsq ->
  get_period_fig ustr leastsq inv honours data rt = Ok (fig, (T, sd)) ->
  exists x rate p0 a b c z w, sample_times (length data) rt x rate /\ length x = length data /\ first_guess honours data rate p0
    /\ leastsq (misfits x data) p0 = Ok [a; b; c; z; w] /\ T = 2 * PI / (w * sqrt (1 - z * z))
    /\ fit_figure ustr x data [a; b; c; z; w] (r_squared x data [a; b; c; z; w]) (T, sd) fig.
Proof.
  intros ustr ls inv h data rt fig T sd [L E] H. assert (G : get_period ls inv h data rt = Ok (T, sd)) by (rewrite (get_period_fig_period ustr), H; reflexivity).
  destruct (get_period_fig_ok ustr ls inv h L E data rt fig T sd H) as [x [rate [p0 [p [A1 [A2 [A3 [A4 A5]]]]]]]].
  apply (C67_estimate ls inv h (conj L E)) in G. inversion G as [x' rate' p0' a b c z w Hi Gm vw vz B1 B2 B3 B4 B5 B6]; subst T sd.
  apply times_iff in A1. apply times_iff in B1. rewrite A1 in B1. injection B1 as <- <-. apply make_guess_iff in A3. apply make_guess_iff in B3. rewrite A3 in B3. injection B3 as <-.
  rewrite A4 in B4. injection B4 as ->. exists x, rate, p0, a, b, c, z, w. apply times_iff in A1. apply make_guess_iff in A3. repeat (split; [assumption|]). split; [reflexivity|exact A5].
Qed.
Print Assumptions C75_figure.
Example C75_figure_example : exists fig, get_period_fig (fun _ => "2.0+/-0") ls0 (fun G => Ok G) true (map (oscillation wave) wave_times) (MvInt 1) = Ok (fig, (2 * PI / (PI * sqrt (1 - 0 * 0)), 0)).
Proof. apply C75_drawing_is_harmless. apply C67_estimate_example. Qed.

(* plot_osfit on a figure that already has two lines: the legend names the old ones *)
Theorem C75_second_plot : forall ustr t ym yf p rsq T m f l1 l2 rest g, ff_lines f = l1 :: l2 :: rest ->
  plot_osfit ustr t ym yf p rsq T m (Some f) = Ok g -> ff_legend g = [("Measured", l1); ("Fit", l2)] /\ ff_lines g = (ff_lines f ++ [mkfl (combine t ym) "."; mkfl (combine t yf) "k-"])%list.
Proof.
  intros ustr t ym yf p rsq T m f l1 l2 rest g E H. unfold plot_osfit, draw in H. destruct (Nat.eqb _ _); [|discriminate]. cbn [bind] in H. destruct (Nat.eqb _ _); [|discriminate]. cbn [bind ff_lines] in H.
  match type of H with Ok ?x = Ok g => assert (g = x) as -> by congruence end. cbn [ff_legend ff_lines]. rewrite E. split; [reflexivity|]. cbn [app]. rewrite <- app_assoc. reflexivity.
Qed.
Print Assumptions C75_second_plot.
Example C75_second_plot_example : exists f g, plot_osfit (fun _ => "T") [0] [1] [1] [0; 0; 0; 0; 0] 1 (1, 0) None None = Ok f /\ length (ff_lines f) = 2%nat /\ plot_osfit (fun _ => "T") [0] [2] [2] [0; 0; 0; 0; 0] 1 (1, 0) None (Some f) = Ok g.
Proof. eexists _, _. split; [reflexivity|]. split; reflexivity. Qed.

(* ---- all files of a bicycle ---- *)
Section AllFiles.
  Variable ustr : R * R -> string.
  Variable leastsq : (list R -> list R) -> list R -> res (list R).
  Variable inv : list (list R) -> res (list (list R)).
  Variable honours : bool.
  Variable loadmat : string -> res (dict matv).
  Variable render : fitfig -> string.
  Notation run := (calc_periods_fig ustr leastsq inv honours loadmat render).

  (* Whatever happens, only the figures of the given files are written and only the
     directory of the figures, with its parents, is created. *)
  Theorem C75_only_figures : forall d fs files split r fs', plain d -> Forall mat_name files -> NoDup files ->
    run fs (d ++ "/RawData") files split = (r, fs') ->
    (forall q, (forall stem, In (stem ++ ".mat") files -> q <> figure_path d stem) -> dget (fs_files fs') q = dget (fs_files fs) q)
    /\ (forall q, isdir fs q = true -> isdir fs' q = true)
    /\ (forall q, isdir fs' q = true -> isdir fs q = true \/ exists rest, (d ++ "/Plots/PendulumFit") = q ++ rest).
  Proof.
    intros d fs files split r fs' P A N H. unfold calc_periods_fig in H. rewrite plot_dir_raw in H by exact P.
    assert (NM : forall q, (forall stem, In (stem ++ ".mat") files -> q <> figure_path d stem) -> forall f, In f files -> q <> plot_file (d ++ "/RawData") f).
    { intros q Q f F. destruct (names_ok d P f (proj1 (Forall_forall _ _) A f F)) as [s [-> [_ ->]]]. apply Q, F. }
    assert (ANC : forall s q, In q (ancestors s) -> exists rest, s = q ++ rest).
    { clear. induction s as [|c s IH]; intros q; [intros []|]. cbn [ancestors]. intros I. apply in_app_or in I as [I|I].
      - destruct (Ascii.eqb c slash); [destruct I as [<-|[]]; exists (String c s); reflexivity|destruct I].
      - apply in_map_iff in I as [q' [<- I]]. destruct (IH q' I) as [rest ->]. exists rest. reflexivity. }
    assert (MD : forall fs0, (if path_exists fs (d ++ "/Plots/PendulumFit") then Ok fs else makedirs fs (d ++ "/Plots/PendulumFit")) = Ok fs0 ->
      fs_files fs0 = fs_files fs /\ (forall q, isdir fs q = true -> isdir fs0 q = true) /\ (forall q, isdir fs0 q = true -> isdir fs q = true \/ exists rest, (d ++ "/Plots/PendulumFit") = q ++ rest)).
    { intros fs0 E. destruct (path_exists fs _); [injection E as <-; auto|]. pose proof (makedirs_files _ _ _ E) as [M1 [M2 M3]]. split; [exact M1|]. split; [exact M3|].
      intros q Q. unfold makedirs in E. destruct (String.eqb _ ""); [discriminate|]. destruct (existsb _ _); [discriminate|]. match type of E with Ok ?x = Ok _ => assert (fs0 = x) as -> by congruence end.
      unfold isdir in Q. cbn [fs_dirs] in Q. apply smem_spec in Q as [Q|Q]; [right; exists ""; rewrite sapp_nil; exact Q|]. apply in_app_or in Q as [Q|Q].
      - apply filter_In in Q as [Q _]. right. apply ANC, Q.
      - left. apply smem_spec, Q. }
    destruct (if path_exists fs (d ++ "/Plots/PendulumFit") then Ok fs else makedirs fs (d ++ "/Plots/PendulumFit")) as [fs0|e] eqn:E0.
    2: { injection H as _ <-. auto. }
    destruct (MD fs0 eq_refl) as [M1 [M2 M3]].
    destruct (fit_files ustr leastsq inv honours loadmat render fs0 (d ++ "/RawData") split [] files) as [r1 fs1] eqn:E1.
    destruct (fit_files_effect ustr leastsq inv honours loadmat render d P split files A N _ _ _ _ E1) as [B1 [B2 _]].
    assert (fs' = fs1) as -> by (destruct r1; congruence). unfold isdir in *. rewrite B1. split; [|split; [exact M2|exact M3]].
    intros q Q. rewrite B2 by (apply NM, Q). rewrite M1. reflexivity.
  Qed.

  (* On success every file has its figure, made from its own contents, and the periods are
     those of C67: the mean over the files of each name. *)
  Theorem C75_every_file_has_its_figure : forall d fs files split out fs', plain d -> Forall mat_name files -> NoDup files ->
    run fs (d ++ "/RawData") files split = (Ok out, fs') ->
    exists texts raws, Forall2 (fun f t => dget (fs_files fs) (d ++ "/RawData/" ++ f) = Some t) files texts
      /\ Forall2 (fun t raw => loadmat t = Ok raw) texts raws
      /\ calc_periods_for_mat leastsq inv honours split raws = Ok out
      /\ forall i stem raw, nth_error files i = Some (stem ++ ".mat") -> nth_error raws i = Some raw ->
           exists mat fig T, clean_mat raw = Ok mat /\ file_period_fig ustr leastsq inv honours mat = Ok (fig, T)
             /\ file_period leastsq inv honours mat = Ok T
             /\ dget (fs_files fs') (figure_path d stem) = Some (render fig).
  Proof.
    intros d fs files split out fs' P A N H. unfold calc_periods_fig in H. rewrite plot_dir_raw in H by exact P.
    destruct (if path_exists fs (d ++ "/Plots/PendulumFit") then Ok fs else makedirs fs (d ++ "/Plots/PendulumFit")) as [fs0|e] eqn:E0; [|discriminate].
    assert (M1 : fs_files fs0 = fs_files fs) by (destruct (path_exists fs _); [congruence|apply (makedirs_files _ _ _ E0)]).
    destruct (fit_files ustr leastsq inv honours loadmat render fs0 (d ++ "/RawData") split [] files) as [[acc|e] fs1] eqn:E1; [|discriminate].
    match type of H with (Ok ?x, _) = _ => assert (EO : out = x) by congruence; assert (fs' = fs1) as -> by congruence end. clear H.
    destruct (fit_files_effect ustr leastsq inv honours loadmat render d P split files A N _ _ _ _ E1) as [_ [_ B]]. destruct (B acc eq_refl) as [cs [C1 [C2 C3]]]. clear B E1.
    assert (D : exists ts raws, Forall2 (fun f t => dget (fs_files fs) (d ++ "/RawData/" ++ f) = Some t) files ts /\ Forall2 (fun t raw => loadmat t = Ok raw) ts raws /\ Forall2 (fun raw c => clean_mat raw = Ok c) raws cs).
    { clear C2 C3 N. revert A. induction C1 as [|f c files cs [t [raw [D1 [D2 D3]]]] C1 IH]; intros A; [exists [], []; repeat split; constructor|].
      inversion A as [|? ? A1 A2]; subst. destruct (IH A2) as [ts [raws [I1 [I2 I3]]]]. exists (t :: ts), (raw :: raws). split; [|split; constructor; assumption]. constructor; [|exact I1].
      destruct (names_ok d P f A1) as [s [-> [E _]]]. rewrite E, M1 in D1. exact D1. }
    destruct D as [ts [raws [D1 [D2 D3]]]]. exists ts, raws. split; [exact D1|]. split; [exact D2|]. split.
    - apply (C67_all_files leastsq inv honours). exists cs. split; [exact D3|]. unfold calc_periods_for_files. rewrite C2. cbn [bind]. rewrite EO. reflexivity.
    - intros i stem raw F R.
      assert (K : exists mat, nth_error cs i = Some mat /\ clean_mat raw = Ok mat).
      { clear - D3 R. revert i R. induction D3 as [|r c raws cs X D3 IH]; intros [|i] R; try discriminate; cbn in R |- *; [exists c; split; congruence|apply IH, R]. }
      destruct K as [mat [K1 K2]].
      assert (L : exists fig T, file_period_fig ustr leastsq inv honours mat = Ok (fig, T) /\ dget (fs_files fs1) (plot_file (d ++ "/RawData") (stem ++ ".mat")) = Some (render fig)).
      { clear - C3 F K1. revert i F K1. induction C3 as [|f c files cs X C3 IH]; intros [|i] F K1; try discriminate; cbn in F, K1; [injection F as ->; injection K1 as ->; exact X|]. eapply IH; eassumption. }
      destruct L as [fig [T [L1 L2]]]. exists mat, fig, T. split; [exact K2|]. split; [exact L1|]. split; [rewrite (file_fig_period ustr), L1; reflexivity|].
      assert (MN : mat_name (stem ++ ".mat")) by (apply (proj1 (Forall_forall _ _) A), (nth_error_In _ _ F)). destruct (names_ok d P _ MN) as [s [E [_ E']]]. apply sapp_inv_tail in E. subst s. rewrite <- E'. exact L2.
  Qed.

  (* It succeeds whenever the periods can be computed and the figures can be written. *)
  Theorem C75_succeeds : forall d fs files contents raws split out, plain d -> Forall mat_name files -> NoDup files ->
    isdir fs (d ++ "/Plots/PendulumFit") = true -> (forall stem, isdir fs (figure_path d stem) = false) ->
    Forall2 (fun f t => dget (fs_files fs) (d ++ "/RawData/" ++ f) = Some t) files contents ->
    Forall2 (fun t raw => loadmat t = Ok raw) contents raws -> calc_periods_for_mat leastsq inv honours split raws = Ok out ->
    exists fs', run fs (d ++ "/RawData") files split = (Ok out, fs').
  Proof.
    intros d fs files ts raws split out P A N D1 D2 F1 F2 H. apply C67_all_files in H as [cs [F3 H]]. unfold calc_periods_for_files in H. apply bind_ok in H as [acc [H1 H]].
    unfold calc_periods_fig. rewrite plot_dir_raw by exact P. unfold path_exists. rewrite D1. cbn [orb].
    assert (C : Forall2 (fun f c => decoded loadmat fs (os_join (d ++ "/RawData") f) c) files cs).
    { clear - A P F1 F2 F3. revert raws cs F2 F3 A. induction F1 as [|f t files ts X F1 IH]; intros raws cs F2 F3 A; inversion F2; subst; inversion F3; subst; [constructor|]. inversion A as [|? ? A1 A2]; subst. constructor; [|eapply IH; eassumption].
      exists t, y. split; [|split; assumption]. destruct (names_ok d P f A1) as [s [E [E' _]]]. rewrite E'. rewrite E in X. exact X. }
    edestruct (fit_files_total ustr leastsq inv honours loadmat render d P split files A fs [] cs acc) as [fs' E]; [rewrite plot_dir_raw by exact P; exact D1| |exact C|exact H1|].
    - intros f F. destruct (names_ok d P f (proj1 (Forall_forall _ _) A f F)) as [s [_ [_ ->]]]. apply D2.
    - exists fs'. rewrite E. match type of H with Ok ?x = Ok _ => assert (out = x) as -> by congruence end. reflexivity.
  Qed.
End AllFiles.
Print Assumptions C75_only_figures.
Print Assumptions C75_every_file_has_its_figure.
Print Assumptions C75_succeeds.
(* two files of a bicycle *)
Definition fit_fs : fsys := {| fs_dirs := ["data/bicycles/Bike/Plots/PendulumFit"; "data/bicycles/Bike/RawData"];
  fs_files := [("data/bicycles/Bike/RawData/a1.mat", "x"); ("data/bicycles/Bike/RawData/a2.mat", "y")] |}.
Example C75_files_example : exists out fs', calc_periods_fig (fun _ => "T") ls0 (fun G => Ok G) true (fun _ => Ok raw2) (fun f => ff_title f) fit_fs "data/bicycles/Bike/RawData" ["a1.mat"; "a2.mat"] false = (Ok out, fs')
  /\ plain "data/bicycles/Bike" /\ Forall mat_name ["a1.mat"; "a2.mat"] /\ NoDup ["a1.mat"; "a2.mat"].
Proof.
  destruct C67_files_example as [out [H _]].
  assert (P : plain "data/bicycles/Bike") by (exists "data/bicycles/Bik", "e"%char; split; [reflexivity|discriminate]).
  assert (A : Forall mat_name ["a1.mat"; "a2.mat"]).
  { constructor; [exists "a1"|constructor; [exists "a2"|constructor]]; (split; [reflexivity|]; split; [cbn; intuition discriminate|exists "a"%char; split; [left; reflexivity|discriminate]]). }
  assert (N : NoDup ["a1.mat"; "a2.mat"]) by (constructor; [cbn; intuition discriminate|constructor; [intros []|constructor]]).
  destruct (C75_succeeds (fun _ => "T") ls0 (fun G => Ok G) true (fun _ => Ok raw2) (fun f => ff_title f) "data/bicycles/Bike" fit_fs ["a1.mat"; "a2.mat"] ["x"; "y"] [raw2; raw2] false out) as [fs' E]; [exact P|exact A|exact N|reflexivity| | |repeat constructor|exact H|].
  - intros stem. unfold isdir. apply Bool.not_true_iff_false. intros K. apply smem_spec in K as [K|[K|[]]]; [|discriminate K].
    change "data/bicycles/Bike/Plots/PendulumFit" with ("data/bicycles/Bike" ++ "/Plots/PendulumFit") in K. unfold figure_path in K. apply sapp_inv_head in K.
    change ("/Plots/PendulumFit/" ++ stem ++ ".png") with ("/Plots/PendulumFit" ++ ("/" ++ stem ++ ".png")) in K. discriminate K.
  - repeat constructor.
  - exists out, fs'. auto.
Qed.
(* names of which only dots precede ".mat" share a figure with another file *)
Example C75_dot_names : plot_file "d/RawData" ".mat" = plot_file "d/RawData" ".mat.mat".
Proof. reflexivity. Qed.

(* The periods Bicycle.calculate_from_measured uses are these. *)
Theorem C75_periods_of_a_bicycle : forall ustr leastsq inv honours loadmat render d fs split names out fs', plain d ->
  listdir fs (d ++ "/RawData") = Ok names ->
  let files := ssort (filter (fun n => String.eqb (sdrop (String.length n - 4) n) ".mat") names) in
  Forall mat_name files -> NoDup files ->
  calc_periods_fig ustr leastsq inv honours loadmat render fs (d ++ "/RawData") files split = (Ok out, fs') ->
  raw_periods (fun t => raw <- loadmat t ;; c <- clean_mat raw ;; Ok (texts c, file_period leastsq inv honours c)) fs (d ++ "/RawData") split
  = Ok (flat_map (fun kv => match snd kv with PerMean v => [(fst kv, v)] | PerList _ => [] end) out).
Proof.
  intros ustr ls inv h loadmat render d fs split names out fs' P L files A N H.
  destruct (C75_every_file_has_its_figure ustr ls inv h loadmat render d fs files split out fs' P A N H) as [ts [raws [F1 [F2 [F3 _]]]]].
  unfold raw_periods. rewrite L. cbn [bind]. fold files. apply C67_all_files in F3 as [cs [F3 F4]].
  match goal with |- context [mapM ?f files] => assert (E : mapM f files = Ok (map (fun c => (texts c, file_period ls inv h c)) cs)) end.
  { apply mapM_intro. clear - A P F1 F2 F3. revert raws cs F2 F3 A. induction F1 as [|f t files ts X F1 IH]; intros raws cs F2 F3 A; inversion F2; subst; inversion F3; subst; cbn [map]; [constructor|]. inversion A as [|? ? A1 A2]; subst. constructor; [|eapply IH; eassumption].
    destruct (names_ok d P f A1) as [s [E [E' _]]]. rewrite E'. rewrite E in X. unfold open_r. rewrite X. cbn [bind]. match goal with L : loadmat t = Ok _ |- _ => rewrite L end. cbn [bind]. match goal with L : clean_mat _ = Ok _ |- _ => rewrite L end. reflexivity. }
  rewrite E. cbn [bind]. rewrite F4. reflexivity.
Qed.
Print Assumptions C75_periods_of_a_bicycle.
