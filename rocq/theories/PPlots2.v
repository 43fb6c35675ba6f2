(* PPlots2.v -- plot_eigenvalue_parts *)
From Coq Require Import Lra Lia.
From Verif Require Import Base MString MHeap MBicycle MVec MInertia MSets MSets2 MModels MModels2 MEig PBase SBicycle PBicycle PHeap SModels SModels2 SSort PSort
  PModels PModels2 PModels3 PModels4 PSets3 PModels5 PModels6 PModels7 PModels8 PModels9 PModels10 PModels11 PEig3 MPlots SPlots PPlots.
Local Open Scope string_scope.
Local Open Scope R_scope.

Ltac lens := unfold eigres, marr in *; lia.
Definition modes_list (n : nat) (colors : option (list string)) := combine (combine (seq 0 n) (palette colors n)) (map mode_label (seq 0 n)).
Lemma modes_list_length n colors : length (modes_list n colors) = match colors with None => n | Some l => Nat.min n (length l) end.
Proof.
  unfold modes_list. rewrite !combine_length, map_length, !seq_length. destruct colors as [l|]; cbn [palette].
  - lia.
  - rewrite map_length, seq_length. lia.
Qed.
Lemma modes_list_nth n colors j : (j < length (modes_list n colors))%nat ->
  nth_error (modes_list n colors) j = Some (j, nth j (palette colors n) "", mode_label j).
Proof.
  intros H. unfold modes_list in *. rewrite !combine_length, map_length, !seq_length in H.
  rewrite (nth_error_nth' _ ((0%nat, ""), "")) by (rewrite !combine_length, map_length, !seq_length; exact H). f_equal.
  assert (G : forall (A B : Type) (l : list A) (l' : list B) (a : A) (b : B) i, (i < length l)%nat -> (i < length l')%nat -> nth i (combine l l') (a, b) = (nth i l a, nth i l' b)).
  { clear. intros A B. induction l as [|x l IH]; intros [|y l'] a b [|i] H1 H2; cbn in *; try lia; auto. apply IH; lia. }
  rewrite G, G; rewrite ?combine_length, ?map_length, ?seq_length; try lia. rewrite seq_nth by lia. cbn [plus]. f_equal.
  rewrite (nth_map mode_label (seq 0 n) j 0%nat) by (rewrite seq_length; lia). rewrite seq_nth by lia. reflexivity.
Qed.

(* ---- a figure that was drawn ---- *)
Lemma parts_figure_ok c par keys ev colors show hz sort fig : parts_figure c par keys ev colors show hz sort = Ok fig ->
  exists evs rows k xs x0 lab, ev = Stack evs /\
    (if sort then s <- sort_eigenmodes (with_columns evs) ;; Ok (map fst s) else Ok (map fst evs)) = Ok rows /\
    x_values par keys = Ok (k, xs) /\ par_label c k = Ok lab /\ index xs 0 = Ok x0 /\
    pf_xlim fig = (x0, last xs x0) /\ pf_xlabel fig = "$" ++ lab ++ "$" /\ pf_legend fig = sort /\
    (let n := length (hd [] rows) in
     let f j := map (fun z : cplx => masked (1 / 10 ^ 14) hz (Rabs (snd z))) (mode_seq rows j) in
     let g j := map (fun z : cplx => masked (1 / 10 ^ 14) hz (fst z)) (mode_seq rows j) in
     pf_lines fig = (map (fun jcl : nat * string * string => mkline xs (f (fst (fst jcl))) (snd jcl) (if sort then snd (fst jcl) else "C1") (if sort then "--" else "none")) (modes_list n colors) ++
                     map (fun jcl : nat * string * string => mkline xs (g (fst (fst jcl))) (snd jcl) (if sort then snd (fst jcl) else "black") (if sort then "-" else "none")) (modes_list n colors))%list /\
     (modes_list n colors <> [] -> length xs = length rows)) /\
    match pf_band fig with
    | None => show = false
    | Some b => show = true /\ bd_x b = xs /\ length xs = length rows /\ bd_where b = map (forallb (fun z : cplx => Rleb (fst z) 0)) rows /\
        exists lo1 lo2 hi1 hi2, lmin (map fst (concat rows)) = Ok lo1 /\ lmin (map snd (concat rows)) = Ok lo2 /\ lmin [lo1; lo2] = Ok (bd_lo b) /\
          lmax (map fst (concat rows)) = Ok hi1 /\ lmax (map snd (concat rows)) = Ok hi2 /\ lmax [hi1; hi2] = Ok (bd_hi b)
    end.
Proof.
  intros E. unfold parts_figure in E.
  apply bind_ok in E. destruct E as ([rows b] & ER & E). cbn [fst snd] in E.
  apply bind_ok in E. destruct E as (bd & EB & E).
  destruct b; cbn [negb] in E; [|discriminate].
  apply bind_ok in E. destruct E as (im & EI & E). apply bind_ok in E. destruct E as (re & EE & E).
  apply bind_ok in E. destruct E as ([k xs] & EX & E). cbn [fst snd] in E.
  apply bind_ok in E. destruct E as (x0 & E0 & E). apply bind_ok in E. destruct E as (lab & EL & E).
  injection E as <-. cbn [pf_xlim pf_xlabel pf_legend pf_lines pf_band].
  destruct ev as [e|evs]; [discriminate|]. apply bind_ok in ER. destruct ER as (rows' & ER & E1). injection E1 as ->.
  exists evs, rows, k, xs, x0, lab. split; [reflexivity|]. split; [exact ER|]. split; [exact EX|]. split; [exact EL|]. split; [exact E0|].
  do 3 (split; [reflexivity|]).
  split.
  - cbn zeta. fold (modes_list (length (hd [] rows)) colors) in EI, EE.
    apply (mapM_lines par keys k xs _ _ (fun color => if sort then color else "C1")) in EI; [|exact EX]. destruct EI as (-> & HL).
    apply (mapM_lines par keys k xs _ _ (fun color => if sort then color else "black")) in EE; [|exact EX]. destruct EE as (-> & _). split; [reflexivity|].
    intros NE. destruct (modes_list _ colors) as [|jcl r]; [congruence|]. specialize (HL jcl (or_introl eq_refl)). unfold mode_seq in HL. rewrite !map_length in HL. exact HL.
  - destruct show; [|injection EB as <-; reflexivity].
    apply bind_ok in EB. destruct EB as ([k1 xs1] & EX1 & EB). rewrite EX in EX1. injection EX1 as <- <-. cbn [snd] in EB.
    apply bind_ok in EB. destruct EB as (lo1 & A1 & EB). apply bind_ok in EB. destruct EB as (lo2 & A2 & EB). apply bind_ok in EB. destruct EB as (lo & A3 & EB).
    apply bind_ok in EB. destruct EB as (hi1 & A4 & EB). apply bind_ok in EB. destruct EB as (hi2 & A5 & EB). apply bind_ok in EB. destruct EB as (hi & A6 & EB).
    destruct (Nat.eqb (length xs) (length rows)) eqn:EN; [|discriminate]. injection EB as <-. apply Nat.eqb_eq in EN. cbn [bd_x bd_where bd_lo bd_hi].
    do 4 (split; [auto|]). exists lo1, lo2, hi1, hi2. auto 10.
Qed.

Lemma band_meaning rows b xs : length xs = length rows -> bd_x b = xs -> bd_where b = map (forallb (fun z : cplx => Rleb (fst z) 0)) rows ->
  (exists lo1 lo2 hi1 hi2, lmin (map fst (concat rows)) = Ok lo1 /\ lmin (map snd (concat rows)) = Ok lo2 /\ lmin [lo1; lo2] = Ok (bd_lo b) /\
          lmax (map fst (concat rows)) = Ok hi1 /\ lmax (map snd (concat rows)) = Ok hi2 /\ lmax [hi1; hi2] = Ok (bd_hi b)) -> band_drawn xs rows b.
Proof.
  intros EL EX EW (lo1 & lo2 & hi1 & hi2 & A1 & A2 & A3 & A4 & A5 & A6).
  apply lmin_spec in A1, A2, A3. apply lmax_spec in A4, A5, A6. destruct A1 as (A1 & B1), A2 as (A2 & B2), A3 as (A3 & B3), A4 as (A4 & B4), A5 as (A5 & B5), A6 as (A6 & B6).
  pose proof (B3 lo1 (or_introl eq_refl)). pose proof (B3 lo2 (or_intror (or_introl eq_refl))).
  pose proof (B6 hi1 (or_introl eq_refl)). pose proof (B6 hi2 (or_intror (or_introl eq_refl))).
  split; [exact EX|]. split; [rewrite EW, map_length; congruence|]. split; [|split; [|split]].
  - intros i Hi. rewrite EW, (nth_map _ rows i [] false) by lia. rewrite forallb_forall. split; intros HH z Hz; [apply Rleb_spec, HH, Hz | apply Rleb_spec, HH, Hz].
  - intros z Hz. pose proof (B1 _ (in_map fst _ _ Hz)). pose proof (B2 _ (in_map snd _ _ Hz)). pose proof (B4 _ (in_map fst _ _ Hz)). pose proof (B5 _ (in_map snd _ _ Hz)). lra.
  - destruct A3 as [<-|[<-|[]]].
    + apply in_map_iff in A1. destruct A1 as (z & <- & Hz). exists z. auto.
    + apply in_map_iff in A2. destruct A2 as (z & <- & Hz). exists z. auto.
  - destruct A6 as [<-|[<-|[]]].
    + apply in_map_iff in A4. destruct A4 as (z & <- & Hz). exists z. auto.
    + apply in_map_iff in A5. destruct A5 as (z & <- & Hz). exists z. auto.
Qed.

Lemma lines_meaning n colors (sort : bool) hz xs rows nc lines : nrows n rows -> rows <> [] -> length xs = length rows ->
  nc = match colors with None => n | Some l => Nat.min n (length l) end ->
  lines = (map (fun jcl : nat * string * string => mkline xs (map (fun z : cplx => masked (1 / 10 ^ 14) hz (Rabs (snd z))) (mode_seq rows (fst (fst jcl)))) (snd jcl) (if sort then snd (fst jcl) else "C1") (if sort then "--" else "none")) (modes_list n colors) ++
           map (fun jcl : nat * string * string => mkline xs (map (fun z : cplx => masked (1 / 10 ^ 14) hz (fst z)) (mode_seq rows (fst (fst jcl)))) (snd jcl) (if sort then snd (fst jcl) else "black") (if sort then "-" else "none")) (modes_list n colors))%list ->
  lines_drawn nc sort hz xs rows lines.
Proof.
  intros HR NE EL -> ->. rewrite <- (modes_list_length n colors). split; [rewrite app_length, !map_length; reflexivity|].
  intros j Hj. pose proof (modes_list_nth n colors j Hj) as EN. do 2 eexists. split; [|split].
  - rewrite nth_error_app1 by (rewrite map_length; exact Hj). apply map_nth_error, EN.
  - rewrite nth_error_app2 by (rewrite map_length; lia). rewrite map_length. replace (length (modes_list n colors) + j - length (modes_list n colors))%nat with j by lia. apply map_nth_error, EN.
  - cbn [fst snd ln_x ln_y ln_label ln_color]. unfold mode_seq. rewrite !map_length. do 3 (split; [reflexivity|]). split; [intros ->; reflexivity|].
    do 2 (split; [congruence|]). intros i Hi. rewrite !map_map.
    rewrite (nth_map (fun x => masked (1 / 10 ^ 14) hz (Rabs (snd (nth j x (0, 0))))) rows i [] None) by lia.
    rewrite (nth_map (fun x => masked (1 / 10 ^ 14) hz (fst (nth j x (0, 0)))) rows i [] None) by lia. split; apply masked_shows.
Qed.

Lemma stack_abs eig m s ov h d evs : fit m s h d -> NoDup (dkeys ov) -> sound_equations m -> eig_contract eig -> snd (calc_eigen eig (state_space m s) false ov h) = Ok (Stack evs) ->
  exists abs, snd (state_space m s ov h) = Ok (Stack abs) /\ length evs = length abs /\
    (forall e, In e evs -> length (fst e) = n_states m /\ length (snd e) = n_states m) /\
    forall i, (i < length abs)%nat -> eigenpairs false (n_states m) (fst (nth i abs ([], []))) (fst (nth i evs ([], []))) (snd (nth i evs ([], []))).
Proof.
  intros F N SE EC E. destruct (eigen_stack eig m s false ov h d evs EC SE F N E) as (abs & EA & LE & EP). exists abs. split; [exact EA|]. split; [exact LE|]. split.
  - intros e IN. destruct (In_nth evs e ([], []) IN) as (i & Hi & <-). destruct (EP i Hi) as (L1 & L2 & _). auto.
  - intros i Hi. apply EP. lia.
Qed.
(* the number of rows is the length of the arrays *)
Lemma sst_stack_length m s ov h d n abs : fit m s h d -> NoDup (dkeys ov) -> same_lengths d ov n -> snd (state_space m s ov h) = Ok (Stack abs) -> length abs = n.
Proof.
  intros (E & C) N HS.
  destruct m as [| |pitch body]; cbn [state_space].
  - destruct (form_ss_eq s ov h d n E N HS) as (h' & r & _ & -> & HR). cbn [snd]. intros X.
    destruct (ss_varies d ov); [|exfalso; exact (proj1 HR abs X)]. destruct HR as (_ & R2 & _). apply R2, mapM_seq_ok in X. apply X.
  - destruct (form_fb_eq s ov h d n E N HS) as (h' & r & _ & -> & HR). cbn [snd]. intros X.
    destruct (match array_keys_of d ov with [] => false | _ => true end); [|exfalso; exact (proj1 HR abs X)]. destruct HR as (_ & R2 & _). apply R2, mapM_seq_ok in X. apply X.
  - destruct (form_rl_eq pitch body s ov h d n E N HS (complete_no_array_v d C)) as (h' & _ & ->). cbn [snd]. unfold rl_pure.
    destruct (array_keys_of d ov); [destruct (rl_row _ _ _); discriminate|]. destruct (dget d "v"); [|discriminate].
    destruct (mapM _ (seq 0 n)) as [ll|] eqn:EM; cbn [map_res]; [|discriminate]. intros X. injection X as <-. apply mapM_seq_ok in EM. apply EM.
Qed.
Lemma first_len_rows m s ov h d abs k xs : fit m s h d -> NoDup (dkeys ov) -> snd (state_space m s ov h) = Ok (Stack abs) -> first_array d ov k xs -> length xs = length abs.
Proof.
  intros F N EA FA. destruct (lens_agree_dec d ov) as [LA|NA].
  2:{ rewrite (sst_bad m s ov h d F N NA) in EA. discriminate. }
  apply lens_agree_iff in LA. destruct LA as (n & SL). rewrite (sst_stack_length m s ov h d n abs F N SL EA).
  destruct (first_array_get d ov k xs N FA) as (G & I & _). apply SL, in_array_lengths; eauto.
Qed.
Lemma index0_hd {A} (l : list A) x : index l 0 = Ok x -> hd_error l = Some x.
Proof. destruct l; cbn; [discriminate|]. unfold index. cbn. congruence. Qed.

Lemma parts_meaning eig m s colors show hz sort ov h d fig : eig_contract eig -> sound_equations m -> fit m s h d -> NoDup (dkeys ov) ->
  snd (plot_eigenvalue_parts eig m s colors show hz sort ov h) = Ok fig ->
  exists k xs x0 lab abs evs zs, first_array d ov k xs /\ hd_error xs = Some x0 /\ label_of (ps_class s) k lab /\
    snd (state_space m s ov h) = Ok (Stack abs) /\ snd (calc_eigen eig (state_space m s) false ov h) = Ok (Stack evs) /\ length abs = length xs /\ length evs = length xs /\ length zs = length xs /\
    (forall i, (i < length xs)%nat -> eigenpairs false (n_states m) (fst (nth i abs ([], []))) (fst (nth i evs ([], []))) (snd (nth i evs ([], [])))) /\
    arranged sort evs zs /\
    (forall i, (i < length xs)%nat -> length (nth i zs []) = n_states m /\ (forall z, In z (nth i zs []) -> In z (fst (nth i evs ([], [])))) /\
       (i = 0%nat \/ sort = false -> nth i zs [] = fst (nth i evs ([], [])))) /\
    lines_drawn (n_lines m colors) sort hz xs zs (pf_lines fig) /\
    match pf_band fig with None => show = false | Some b => show = true /\ band_drawn xs zs b end /\
    pf_xlim fig = (x0, last xs x0) /\ pf_xlabel fig = "$" ++ lab ++ "$" /\ pf_legend fig = sort.
Proof.
  intros EC SE F N E. destruct (plot_parts_eq eig m s colors show hz sort ov h d F N) as (_ & EQ). rewrite EQ in E. clear EQ.
  apply bind_ok in E. destruct E as (ev & EV & E).
  destruct (eigen_ok_lens eig m s false ov h d ev F N EV) as (d' & ks & len & _ & Ed & _ & _ & HD). rewrite <- Ed in E.
  destruct (parts_figure_ok _ _ _ _ _ _ _ _ _ E) as (evs & rows & k & xs & x0 & lab & -> & ER & EX & EL & E0 & XL & XB & LG & (EN & _) & BD).
  pose proof (x_values_eq d ov d' N HD) as XV. rewrite EX in XV. destruct XV as (FA & _).
  destruct (stack_abs eig m s ov h d evs F N SE EC EV) as (abs & EA & LE & HW & EP).
  destruct (arranged_rows (n_states m) sort evs rows HW ER) as (AR & LR & NR & PK).
  pose proof (first_len_rows m s ov h d abs k xs F N EA FA) as LX.
  assert (NE : rows <> []).
  { intros ->. apply index0_hd in E0. destruct xs; [discriminate|]. cbn in LR, LX. unfold eigres in *. lia. }
  assert (HN : length (hd [] rows) = n_states m) by (destruct rows as [|w r]; [congruence|]; apply NR; left; reflexivity).
  exists k, xs, x0, lab, abs, evs, rows. split; [exact FA|]. split; [apply index0_hd, E0|]. split; [apply par_label_of, EL|]. split; [exact EA|]. split; [exact EV|].
  split; [lens|]. split; [lens|]. split; [lens|]. split; [intros i Hi; apply EP; lens|]. split; [exact AR|]. split.
  { intros i Hi. split; [apply NR, nth_In; lens|]. apply PK. lens. }
  split.
  { cbn zeta in EN. rewrite HN in EN. eapply (lines_meaning (n_states m) colors sort hz xs rows); auto. lens. }
  split; [|auto].
  destruct (pf_band fig) as [b|]; [|exact BD]. destruct BD as (S1 & S2 & S3 & S4 & S5). split; [exact S1|]. apply band_meaning; auto.
Qed.

(* ---- figures exist ---- *)
Lemma parts_exist eig m s colors show hz sort ov h d evs k xs lab : eig_contract eig -> sound_equations m -> fit m s h d -> NoDup (dkeys ov) ->
  snd (calc_eigen eig (state_space m s) false ov h) = Ok (Stack evs) -> evs <> [] -> first_array d ov k xs -> label_of (ps_class s) k lab ->
  exists fig, snd (plot_eigenvalue_parts eig m s colors show hz sort ov h) = Ok fig.
Proof.
  intros EC SE F N EV NE FA LB. destruct (plot_parts_eq eig m s colors show hz sort ov h d F N) as (_ & ->). rewrite EV. cbn [bind].
  destruct (eigen_ok_lens eig m s false ov h d _ F N EV) as (d' & ks & len & _ & Ed & _ & _ & HD). rewrite <- Ed.
  pose proof (x_values_eq d ov d' N HD) as XV. destruct (x_values d' (array_keys_of d ov)) as [[k' xs']|e] eqn:EX.
  2:{ exfalso. destruct XV as (_ & _ & XV). apply (XV k). apply (first_array_get d ov k xs N FA). }
  destruct XV as (FA' & _). destruct (first_array_unique d ov k xs k' xs' FA FA') as (<- & <-).
  destruct (stack_abs eig m s ov h d evs F N SE EC EV) as (abs & EA & LE & HW & EP).
  pose proof (first_len_rows m s ov h d abs k xs F N EA FA) as LX.
  assert (ER : exists rows, (if sort then s <- sort_eigenmodes (with_columns evs) ;; Ok (map fst s) else Ok (map fst evs)) = Ok rows).
  { destruct sort; [|eauto]. destruct evs as [|e0 rest]; [congruence|].
    assert (RC : rect (n_states m) (with_columns (e0 :: rest))).
    { unfold rect, with_columns. rewrite Forall_forall. intros r Hr. apply in_map_iff in Hr. destruct Hr as (e & <- & He). destruct (HW e He) as (L1 & L2).
      cbn [fst snd]. unfold columns_of. rewrite map_length, seq_length. auto. }
    cbn [with_columns map] in *. destruct (sort_eigenmodes_spec (n_states m) _ _ RC) as (out & -> & _). cbn [bind]. eauto. }
  destruct ER as (rows & ER). destruct (arranged_rows (n_states m) sort evs rows HW ER) as (AR & LR & NR & PK).
  unfold parts_figure. rewrite ER. cbn [bind fst snd negb].
  assert (CN : concat rows <> []).
  { destruct rows as [|w r]; [destruct evs; [congruence|discriminate]|]. cbn [concat]. pose proof (NR w (or_introl eq_refl)) as LW. pose proof (n_states_pos m). destruct w; [cbn in LW; lia|discriminate]. }
  assert (MN : forall (f : cplx -> R), map f (concat rows) <> []) by (intros f X; apply map_eq_nil in X; contradiction).
  assert (EB : exists bd, (if show then
           kx <- x_values d' (array_keys_of d ov) ;;
           lo1 <- lmin (map fst (concat rows)) ;; lo2 <- lmin (map snd (concat rows)) ;; lo <- lmin [lo1; lo2] ;;
           hi1 <- lmax (map fst (concat rows)) ;; hi2 <- lmax (map snd (concat rows)) ;; hi <- lmax [hi1; hi2] ;;
           if Nat.eqb (length (snd kx)) (length rows) then
             Ok (Some (mkband (snd kx) (map (forallb (fun z : cplx => Rleb (fst z) 0)) rows) lo hi))
           else Err (ValueError "where size does not match")
         else Ok None) = Ok bd).
  { destruct show; [|eauto]. rewrite EX. cbn [bind snd].
    destruct (lmin_ok _ (MN fst)) as (? & ->). destruct (lmin_ok _ (MN snd)) as (? & ->). destruct (lmax_ok _ (MN fst)) as (? & ->). destruct (lmax_ok _ (MN snd)) as (? & ->).
    cbn [bind]. cbn [lmin lmax bind]. replace (length xs) with (length rows) by lens. rewrite Nat.eqb_refl. eauto. }
  destruct EB as (bd & ->). cbn [bind].
  fold (modes_list (length (hd [] rows)) colors).
  match goal with |- exists fig, bind ?a _ = _ => assert (EI : exists im, a = Ok im) end.
  { apply (mapM_lines_ok d' (array_keys_of d ov) k xs _ (fun j => map (fun z : cplx => masked (1 / 10 ^ 14) hz (Rabs (snd z))) (mode_seq rows j)) (fun color => if sort then color else "C1")); [exact EX|].
    intros j. unfold mode_seq. rewrite !map_length. lens. }
  destruct EI as (im & ->). cbn [bind].
  match goal with |- exists fig, bind ?a _ = _ => assert (EI : exists re, a = Ok re) end.
  { apply (mapM_lines_ok d' (array_keys_of d ov) k xs _ (fun j => map (fun z : cplx => masked (1 / 10 ^ 14) hz (fst z)) (mode_seq rows j)) (fun color => if sort then color else "black")); [exact EX|].
    intros j. unfold mode_seq. rewrite !map_length. lens. }
  destruct EI as (re & ->). cbn [bind]. rewrite EX. cbn [bind fst snd].
  destruct xs as [|x0 xs]; [destruct abs; [destruct evs; [congruence|discriminate]|discriminate]|].
  rewrite (label_of_intro _ _ _ LB). unfold index. cbn [nth_error bind]. eauto.
Qed.

(* ---- calls without an array ---- *)
Lemma parts_single eig m s colors show hz sort ov h d e : fit m s h d -> NoDup (dkeys ov) ->
  snd (calc_eigen eig (state_space m s) false ov h) = Ok (Single e) -> (forall k, ~ array_given d ov k) ->
  snd (plot_eigenvalue_parts eig m s colors show hz sort ov h) = Err (if show then IndexError else UnboundLocalError).
Proof.
  intros F N EV NA. destruct (plot_parts_eq eig m s colors show hz sort ov h d F N) as (_ & ->). rewrite EV. cbn [bind].
  assert (EK : array_keys_of d ov = []).
  { destruct (array_keys_of d ov) as [|k r] eqn:EK; [reflexivity|]. exfalso. apply (NA k). apply (in_array_keys d ov k N). rewrite EK. left; reflexivity. }
  rewrite EK. unfold parts_figure. cbn [bind fst snd]. destruct show; reflexivity.
Qed.
