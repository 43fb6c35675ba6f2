(* TPlots.v -- C68: the figures of the models, and the part of C10 that concerns them *)
From Coq Require Import Lra Lia.
From Verif Require Import Base MString MHeap MBicycle MVec MInertia MSets MSets2 MModels MModels2 MEig PBase SBicycle PBicycle PHeap SModels SModels2 SSort PSort
  PModels PModels2 PModels3 PModels4 PSets3 PModels5 PModels6 PModels7 PModels8 PModels9 PModels10 PModels11 PModels12 PEig3 MPlots SPlots
  PPlots PPlots2 PPlots3 PPlots4 PPlots5 PPlots6 PPlots7 TModels TModels2.
Local Open Scope string_scope.
Local Open Scope R_scope.

(* ---------------- eigenvalue parts ---------------- *)
Theorem C68_eigenvalue_curves : forall eig m s colors show hz sort ov h d fig, eig_contract eig -> sound_equations m -> fit m s h d -> NoDup (dkeys ov) ->
  snd (plot_eigenvalue_parts eig m s colors show hz sort ov h) = Ok fig ->
  exists k xs x0 lab abs evs zs, first_array d ov k xs /\ hd_error xs = Some x0 /\ label_of (ps_class s) k lab /\
    snd (state_space m s ov h) = Ok (Stack abs) /\ snd (calc_eigen eig (state_space m s) false ov h) = Ok (Stack evs) /\
    length abs = length xs /\ length evs = length xs /\ length zs = length xs /\
    (forall i, (i < length xs)%nat -> eigenpairs false (n_states m) (fst (nth i abs ([], []))) (fst (nth i evs ([], []))) (snd (nth i evs ([], [])))) /\
    arranged sort evs zs /\
    (forall i, (i < length xs)%nat -> length (nth i zs []) = n_states m /\ (forall z, In z (nth i zs []) -> In z (fst (nth i evs ([], [])))) /\
       (i = 0%nat \/ sort = false -> nth i zs [] = fst (nth i evs ([], [])))) /\
    lines_drawn (n_lines m colors) sort hz xs zs (pf_lines fig) /\
    match pf_band fig with None => show = false | Some b => show = true /\ band_drawn xs zs b end /\
    pf_xlim fig = (x0, last xs x0) /\ pf_xlabel fig = "$" ++ lab ++ "$" /\ pf_legend fig = sort.
Proof. exact parts_meaning. Qed.
Print Assumptions C68_eigenvalue_curves.

Theorem C68_eigenvalue_figure_exists : forall eig m s colors show hz sort ov h d evs k xs lab, eig_contract eig -> sound_equations m -> fit m s h d -> NoDup (dkeys ov) ->
  snd (calc_eigen eig (state_space m s) false ov h) = Ok (Stack evs) -> evs <> [] -> first_array d ov k xs -> label_of (ps_class s) k lab ->
  exists fig, snd (plot_eigenvalue_parts eig m s colors show hz sort ov h) = Ok fig.
Proof. exact parts_exist. Qed.
Print Assumptions C68_eigenvalue_figure_exists.

(* without an array the method fails, whatever the options *)
Theorem C68_refuted_scalar_call_draws_a_figure : forall eig m s colors show hz sort ov h d e, fit m s h d -> NoDup (dkeys ov) ->
  snd (calc_eigen eig (state_space m s) false ov h) = Ok (Single e) -> (forall k, ~ array_given d ov k) ->
  snd (plot_eigenvalue_parts eig m s colors show hz sort ov h) = Err (if show then IndexError else UnboundLocalError).
Proof. exact parts_single. Qed.
Print Assumptions C68_refuted_scalar_call_draws_a_figure.

(* the shading is drawn between the least and the greatest eigenvalue part, but as
   fractions of the height of the axes: when no part is positive it is below them *)
Theorem C68_refuted_stable_regions_are_visible : forall eig m s colors hz sort ov h d evs fig b, eig_contract eig -> sound_equations m -> fit m s h d -> NoDup (dkeys ov) ->
  snd (plot_eigenvalue_parts eig m s colors true hz sort ov h) = Ok fig -> pf_band fig = Some b ->
  snd (calc_eigen eig (state_space m s) false ov h) = Ok (Stack evs) -> (forall e z, In e evs -> In z (fst e) -> fst z <= 0 /\ snd z = 0) ->
  (forall i, (i < length evs)%nat -> nth i (bd_where b) false = true) /\ bd_hi b <= 0.
Proof.
  intros eig m s colors hz sort ov h d evs fig b EC SE F N E EB EV HZ.
  destruct (parts_meaning eig m s colors true hz sort ov h d fig EC SE F N E) as (k & xs & x0 & lab & abs & evs' & zs & _ & _ & _ & _ & EV' & _ & LV & LZ & _ & _ & HP & _ & BD & _).
  assert (evs' = evs) as -> by congruence. rewrite EB in BD. destruct BD as (_ & _ & _ & BW & _ & _ & (z & Iz & Hz)).
  assert (ALL : forall i z, (i < length xs)%nat -> In z (nth i zs []) -> fst z <= 0 /\ snd z = 0).
  { intros i y Hi Iy. destruct (HP i Hi) as (_ & H2 & _). apply (HZ (nth i evs ([], []))); [apply nth_In; lens|apply H2, Iy]. }
  split.
  - intros i Hi. apply BW; [lens|]. intros y Iy. apply (ALL i y); [lens|exact Iy].
  - apply in_concat in Iz. destruct Iz as (row & Ir & Iz). apply (In_nth _ _ []) in Ir. destruct Ir as (i & Hi & <-).
    destruct (ALL i z ltac:(lens) Iz) as (A1 & A2). destruct Hz as [->| ->]; [exact A1|rewrite A2; lra].
Qed.
Print Assumptions C68_refuted_stable_regions_are_visible.

(* an eigenvalue that is farther from every eigenvalue of the first row than two others
   of its own row is left out of the second row *)
Theorem C10_far_eigenvalue_is_lost : forall V m (r0 r1 : list (R * R) * list V) rows out k x, rect m (r0 :: r1 :: rows) -> sort_eigenmodes (r0 :: r1 :: rows) = Ok out ->
  nth_error (fst r1) k = Some x -> (forall j, nth_error (fst r1) j = Some x -> j = k) ->
  (forall e, In e (fst r0) -> exists a b xa xb, a <> b /\ a <> k /\ b <> k /\ nth_error (fst r1) a = Some xa /\ nth_error (fst r1) b = Some xb /\
     edist e xa < edist e x /\ edist e xb < edist e x) ->
  exists o0 o1 rest, out = o0 :: o1 :: rest /\ ~ In x (fst o1).
Proof.
  intros V m r0 r1 rows out k x RC E EX U HB. destruct (sort_eigenmodes_spec m r0 (r1 :: rows) RC) as (out' & E' & _ & _ & CH). rewrite E' in E. injection E as <-.
  destruct out' as [|o1 rest]; [destruct CH|]. exists r0, o1, rest. split; [reflexivity|]. cbn [chained] in CH. destruct CH as ((ks & G & RA) & _).
  apply (sorted_beaten r1 o1 (fst r0) ks k x G RA EX U). intros e He. destruct (HB e He) as (a & b & xa & xb & H1 & H2 & H3 & H4 & H5 & H6 & H7).
  exists x, a, b, xa, xb. auto 10.
Qed.
Print Assumptions C10_far_eigenvalue_is_lost.

Definition speeds : dict oval := [("v", OArray [0; 1])].
Definition sweep_point (u : R) (k : string) : R := if smem k lean_parameters then 1 else if String.eqb k "u6" then u else 0.
Lemma sweep_op x : operating_point level (with_scalars lean_dict [("v", OScalar x)]) (sweep_point (- x)).
Proof.
  split; [|split; [|split]].
  - apply Forall_forall. repeat (constructor; [reflexivity|]). constructor.
  - exists x. split; [reflexivity|]. change (sweep_point (- x) "rr") with 1. change (sweep_point (- x) "u6") with (- x). split; lra.
  - reflexivity.
  - refine (proj1 (Forall_forall (fun k => k <> "u6" -> k <> "q5" -> sweep_point (- x) k = 0) motion_symbols) _). repeat (constructor; [intros; first [reflexivity | congruence]|]). constructor.
Qed.
Lemma speeds_nodup : NoDup (dkeys speeds). Proof. repeat constructor; intros []. Qed.
Lemma speeds_len : same_lengths lean_dict speeds 2.
Proof.
  intros j Hj. change (array_lengths lean_dict speeds) with [2%nat] in Hj. destruct Hj as [<-|[]]. reflexivity.
Qed.
Lemma lean_fit : fit (MRiderLean level sweep) lean_set [lean_dict] lean_dict.
Proof. split; [reflexivity | exact lean_complete]. Qed.
Definition zB : marr := map (fun _ => [0; 0; 0]) (seq 0 12).
Lemma sweep_row i : (i < 2)%nat -> rl_row level sweep (rowd lean_dict speeds i) = Ok (dg (entries (- INR i)) 12, zB).
Proof.
  intros Hi. rewrite (rl_row_ext level sweep _ (with_scalars lean_dict [("v", OScalar (INR i))])).
  - rewrite (rl_row_named level sweep _ _ sweep_linear (sweep_op (INR i))). unfold sweep. cbn [bind fst snd]. rewrite sweep_picked. reflexivity.
  - apply Forall_forall. destruct i as [|[|i]]; [| |lia]; repeat (constructor; [reflexivity|]); constructor.
Qed.
Lemma sweep_matrices : snd (state_space (MRiderLean level sweep) lean_set speeds [lean_dict]) = Ok (Stack [(dg (entries (- 0)) 12, zB); (dg (entries (- 1)) 12, zB)]).
Proof.
  destruct (form_rl_eq level sweep lean_set speeds [lean_dict] lean_dict 2 eq_refl speeds_nodup speeds_len) as (h' & _ & E).
  { intros l X. discriminate. }
  cbn [state_space]. rewrite E. cbn [snd]. unfold rl_pure. change (array_keys_of lean_dict speeds) with ["v"]. change (dget lean_dict "v") with (Some (VNum 1)). cbn [map_res].
  cbn [seq mapM bind]. rewrite (sweep_row 0), (sweep_row 1) by lia. reflexivity.
Qed.
Lemma eigen_stack_of (eig : marr -> res eigres) m s (left : bool) ov h abs evs : snd (state_space m s ov h) = Ok (Stack abs) ->
  mapM (fun x : marr * marr => eig (if left then transpose (fst x) else fst x)) abs = Ok evs -> snd (calc_eigen eig (state_space m s) left ov h) = Ok (Stack evs).
Proof.
  intros E M. unfold calc_eigen, hbind. destruct (state_space m s ov h) as [h' r]. cbn [snd] in E. subst r. unfold lift. rewrite M. reflexivity.
Qed.
Lemma edist_re a b : edist (a, 0) (b, 0) = Rabs (a - b).
Proof. unfold edist. cbn [fst snd]. replace ((a - b) ^ 2 + (0 - 0) ^ 2) with (Rsqr (a - b)) by (unfold Rsqr; ring). apply sqrt_Rsqr_abs. Qed.
Lemma shading_hides : exists fig b, snd (plot_eigenvalue_parts eigd (MRiderLean level sweep) lean_set None true HideNo true speeds [lean_dict]) = Ok fig /\
  pf_band fig = Some b /\ nth 1 (bd_where b) false = true.
Proof.
  set (m := MRiderLean level sweep).
  destruct (eigd_dg (entries (- 0)) 12) as (V0 & E0). destruct (eigd_dg (entries (- 1)) 12) as (V1 & E1).
  set (w0 := map (fun i => (entries (- 0) i, 0)) (seq 0 12)) in *. set (w1 := map (fun i => (entries (- 1) i, 0)) (seq 0 12)) in *.
  assert (EV : snd (calc_eigen eigd (state_space m lean_set) false speeds [lean_dict]) = Ok (Stack [(w0, V0); (w1, V1)])).
  { eapply eigen_stack_of; [exact sweep_matrices|]. cbn [mapM bind fst]. rewrite E0, E1. reflexivity. }
  assert (FA : first_array lean_dict speeds "v" [0; 1]).
  { exists [], []. split; [reflexivity|]. split; [apply dmem_in; reflexivity|intros ? ? []]. }
  assert (LB : exists lab, label_of (ps_class lean_set) "v" lab).
  { destruct (label_of_par (ps_class lean_set) "v") as (lab & EL); [cbv; tauto|]. exists lab. apply par_label_of, EL. }
  destruct LB as (lab & LB).
  destruct (parts_exist eigd m lean_set None true HideNo true speeds [lean_dict] lean_dict _ "v" [0; 1] lab eigd_contract sweep_linear lean_fit speeds_nodup EV ltac:(discriminate) FA LB) as (fig & EF).
  destruct (parts_meaning eigd m lean_set None true HideNo true speeds [lean_dict] lean_dict fig eigd_contract sweep_linear lean_fit speeds_nodup EF)
    as (k & xs & x0 & lab' & abs & evs & zs & FA' & _ & _ & _ & EV' & _ & _ & LZ & _ & AR & HZ & _ & BD & _).
  destruct (first_array_unique _ _ _ _ _ _ FA FA') as (<- & <-). assert (evs = [(w0, V0); (w1, V1)]) as -> by congruence.
  exists fig. destruct (pf_band fig) as [b|]; [|discriminate]. exists b. split; [exact EF|]. split; [reflexivity|].
  destruct BD as (_ & _ & _ & BW & _). apply (BW 1%nat ltac:(cbn; lia)). intros z Iz.
  destruct (HZ 1%nat ltac:(cbn; lia)) as (_ & PK & _). specialize (PK z Iz). cbn [nth fst] in PK.
  destruct AR as (e0 & rest & out & EE & -> & CH). injection EE as <- <-. cbn [fst map] in CH.
  destruct out as [|o out]; [destruct CH|]. cbn [chained] in CH. destruct CH as ((ks & G & RA) & _). cbn [map nth] in Iz.
  assert (NI : ~ In (20, 0) (fst o)).
  { apply (sorted_beaten _ o w0 ks 2 (20, 0) G RA).
    - cbn [fst]. unfold w1. cbn [seq map nth_error entries]. f_equal. f_equal. lra.
    - cbn [fst]. intros j Hj. destruct (Nat.eq_dec j 2) as [->|NE]; [reflexivity|exfalso].
      do 12 (destruct j as [|j]; [cbn [w1 seq map nth_error entries] in Hj; first [congruence | injection Hj as Hj; lra]|]). destruct j; discriminate.
    - cbn [fst]. intros e He. exists (entries (- 1) 2, 0), 0%nat, 1%nat, (-11, 0), (-1, 0).
      do 6 (split; [first [reflexivity | discriminate]|]). cbn [w0 seq map] in He. rewrite <- and_assoc || idtac.
      assert (EX : exists r, e = (r, 0) /\ -11 <= r <= -1).
      { repeat (destruct He as [<-|He]; [eexists; split; [reflexivity|cbn [entries]; lra]|]). destruct He. }
      destruct EX as (r & -> & B). rewrite !edist_re. cbn [entries].
      split; unfold Rabs; repeat destruct Rcase_abs; lra. }
  unfold w1 in PK. cbn [seq map] in PK.
  repeat (destruct PK as [<-|PK]; [cbn [entries fst] in *; try lra; exfalso; apply NI; replace 20 with (-10 - 30 * - 1) by lra; exact Iz|]). destruct PK.
Qed.
(* at the second speed the eigenvalue 20 is an eigenvalue of the model, and the speed is
   shaded as stable *)
Theorem C68_refuted_shaded_regions_are_stable : exists eig m s ov h d fig b abs V, eig_contract eig /\ sound_equations m /\ fit m s h d /\ NoDup (dkeys ov) /\
  snd (plot_eigenvalue_parts eig m s None true HideNo true ov h) = Ok fig /\ pf_band fig = Some b /\ nth 1 (bd_where b) false = true /\
  snd (state_space m s ov h) = Ok (Stack abs) /\ right_eigenpair (n_states m) (fst (nth 1 abs ([], []))) (20, 0) V 2.
Proof.
  destruct shading_hides as (fig & b & E1 & E2 & E3). destruct (eigd_dg (entries (- 1)) 12) as (V1 & EV).
  exists eigd, (MRiderLean level sweep), lean_set, speeds, [lean_dict], lean_dict, fig, b. eexists. exists V1.
  split; [exact eigd_contract|]. split; [exact sweep_linear|]. split; [exact lean_fit|]. split; [exact speeds_nodup|]. split; [exact E1|]. split; [exact E2|]. split; [exact E3|].
  split; [exact sweep_matrices|]. cbn [nth fst n_states].
  assert (SH : shape 12 12 (dg (entries (- 1)) 12)).
  { unfold dg. split; [rewrite map_length, seq_length; reflexivity|]. intros row Hr. apply in_map_iff in Hr. destruct Hr as (i & <- & _). rewrite map_length, seq_length. reflexivity. }
  destruct (eigd_contract 12%nat _ _ _ SH EV) as (_ & _ & _ & EP). specialize (EP 2%nat ltac:(lia)). cbn [seq map nth entries] in EP. replace (-10 - 30 * - 1) with 20 in EP by lra. exact EP.
Qed.
Print Assumptions C68_refuted_shaded_regions_are_stable.

(* ---------------- eigenvectors ---------------- *)
Theorem C68_eigenvector_panels : forall eig m s hz ov h d w V, eig_contract eig -> sound_equations m -> fit m s h d -> NoDup (dkeys ov) -> (forall k, ~ array_given d ov k) ->
  snd (calc_eigen eig (state_space m s) false ov h) = Ok (Single (w, V)) ->
  exists js, shown_modes (1 / 10 ^ 14) hz w js /\
    (js = [] -> snd (plot_eigenvectors eig m s (n_states m) hz ov h) = Err (ValueError "Number of columns must be a positive integer")) /\
    (js <> [] -> exists ps, snd (plot_eigenvectors eig m s (n_states m) hz ov h) = Ok (ps, []) /\ length ps = length js /\
       forall a, (a < length js)%nat -> exists p, nth_error ps a = Some p /\ pn_row p = 0%nat /\ pn_col p = a /\
         pn_title p = nth (nth a js 0%nat) w (0, 0) /\ (pn_red p = true <-> 0 <= fst (nth (nth a js 0%nat) w (0, 0))) /\
         shows_vector (ccol V (nth a js 0%nat)) (pn_lines p)).
Proof. exact vectors_single. Qed.
Print Assumptions C68_eigenvector_panels.

(* with arrays, the panel in row i that is titled with an eigenvalue j of row i shows the
   component j of the i-th eigenvector along the rows, not the j-th eigenvector of row i *)
Theorem C68_refuted_panels_of_arrays_show_eigenvectors : forall eig m s hz ov h d evs k xs, eig_contract eig -> sound_equations m -> fit m s h d -> NoDup (dkeys ov) ->
  first_array d ov k xs -> snd (calc_eigen eig (state_space m s) false ov h) = Ok (Stack evs) ->
  let r := snd (plot_eigenvectors eig m s (n_states m) hz ov h) in
  (length xs = 0%nat -> r = Err IndexError) /\
  ((10 < length xs)%nat -> r = Err (ValueError "Plots will be too large, use fewer than 11 values in the varied parameter.")) /\
  exists js, shown_modes (1 / 10 ^ 14) hz (fst (last evs ([], []))) js /\
    ((0 < length xs <= 10)%nat -> js = [] -> r = Err (ValueError "Number of columns must be a positive integer")) /\
    ((0 < length xs <= 10)%nat -> js <> [] -> (n_states m < length xs)%nat \/ (length js = 1%nat /\ (1 < length xs)%nat) -> r = Err IndexError) /\
    ((0 < length xs <= 10)%nat -> js <> [] -> (length xs <= n_states m)%nat -> (length js = 1%nat -> length xs = 1%nat) ->
       exists ps, r = Ok (ps, map (fun i => (i, k, nth i xs 0)) (seq 0 (length xs))) /\ length ps = (length xs * length js)%nat /\
       forall i a, (i < length xs)%nat -> (a < length js)%nat -> exists p, nth_error ps (i * length js + a) = Some p /\ pn_row p = i /\ pn_col p = a /\
         pn_title p = nth (nth a js 0%nat) (fst (nth i evs ([], []))) (0, 0) /\ (pn_red p = true <-> 0 <= fst (pn_title p)) /\
         length (pn_lines p) = length xs /\
         let drawn := map (fun e : eigres => cent (snd e) (nth a js 0%nat) i) evs in
         ((exists z, In z drawn /\ z <> (0, 0)) -> shows_vector drawn (pn_lines p)) /\
         ((forall z, In z drawn -> z = (0, 0)) -> forall q, In q (pn_lines p) -> po_radius q = None)).
Proof. exact vectors_stack. Qed.
Print Assumptions C68_refuted_panels_of_arrays_show_eigenvectors.

(* ---------------- simulations ---------------- *)
Theorem C68_simulation_curves : forall solve m s times x0 inp ov h d st us, solver_contract solve -> m = MMeijaard \/ m = MFeedback -> increasing times -> fit m s h d -> NoDup (dkeys ov) ->
  snd (simulate solve s (state_space m s) times x0 inp ov h) = Ok (st, us) ->
  exists A B t0 x u, snd (state_space m s ov h) = Ok (Single (A, B)) /\ hd_error times = Some t0 /\ x t0 = x0 /\ motion 4 2 A B inp t0 (last times t0) x /\
    (forall k, (k < length times)%nat -> input_at inp 2 (nth k times 0) (x (nth k times 0)) (u k)) /\
    snd (plot_simulation solve m s times x0 inp ov h) = Ok
      (let state i := samples times (fun k => in_degrees (nth i (x (nth k times 0)) 0)) in
       let input i := samples times (fun k => nth i (u k) 0) in
       [("Torque [Nm]", [("$T_\phi$", input 0%nat); ("$T_\delta$", input 1%nat)]);
        ("Angle [deg]", [("$\phi$", state 0%nat); ("$\delta$", state 1%nat)]);
        ("Angluar Rate [deg/s]", [("$\dot{\phi}$", state 2%nat); ("$\dot{\delta}$", state 3%nat)])]).
Proof. exact plot_sim_meaning. Qed.
Print Assumptions C68_simulation_curves.

Theorem C68_simulation_errors : forall solve m s times x0 inp ov h d e, fit m s h d -> NoDup (dkeys ov) ->
  snd (simulate solve s (state_space m s) times x0 inp ov h) = Err e -> snd (plot_simulation solve m s times x0 inp ov h) = Err e.
Proof. intros solve m s times x0 inp ov h d e F N. apply (plot_sim_heap solve m s times x0 inp ov h d F N). Qed.
Print Assumptions C68_simulation_errors.

(* the rider lean model: which state is on which axes, and the caller's initial conditions
   are changed as in simulate *)
Theorem C68_rider_lean_curves : forall solve pitch body s times x0 inp ov h d x0' figs, solver_contract solve -> linear_equations body -> increasing times ->
  fit (MRiderLean pitch body) s h d -> NoDup (dkeys ov) -> snd (plot_simulation_rl solve pitch body s times x0 inp ov h) = Ok (x0', Ok figs) ->
  exists v rr A B t0 x u, dget (with_scalars d ov) "v" = Some (VNum v) /\ dget (with_scalars d ov) "rr" = Some (VNum rr) /\ rr <> 0 /\ x0' = upd x0 9 (- v / rr) /\
    snd (form_state_space_matrices_rl pitch body s ov h) = Ok (Single (A, B)) /\ hd_error times = Some t0 /\ x t0 = x0' /\ motion 12 3 A B inp t0 (last times t0) x /\
    (forall k, (k < length times)%nat -> input_at inp 3 (nth k times 0) (x (nth k times 0)) (u k)) /\
    figs = (let state i := samples times (fun k => nth i (x (nth k times 0)) 0) in
            let degrees i := samples times (fun k => in_degrees (nth i (x (nth k times 0)) 0)) in
            let input i := samples times (fun k => nth i (u k) 0) in
            [("Torque [Nm]", [("$T_4$", input 0%nat); ("$T_7$", input 1%nat); ("$T_9$", input 2%nat)]);
             ("Distance [m]", [("$q_1$", state 0%nat); ("$q_2$", state 1%nat)]);
             ("Angle [deg]", [("$q_6$", degrees 4%nat); ("$q_8$", degrees 6%nat)]);
             ("Angle [deg]", [("$q_4$", degrees 3%nat); ("$q_7$", degrees 5%nat); ("$q_9$", degrees 7%nat)]);
             ("$q_3$ [deg]", [("$q_3$", degrees 2%nat)]);
             ("Angluar Rate [deg/s]", [("$u_4$", degrees 8%nat); ("$u_7$", degrees 10%nat); ("$u_9$", degrees 11%nat)]);
             ("$u_6$ [deg/s]", [("$u_6$", degrees 9%nat)])]).
Proof. exact plot_rl_meaning. Qed.
Print Assumptions C68_rider_lean_curves.

(* ---------------- modes ---------------- *)
(* one row of axes per shown mode, each state the real part of its eigenvector component
   times the exponential; the angles are drawn in degrees on axes labelled in radians
   (mode_axes), and the last state of the rider lean model is not drawn *)
Theorem C68_mode_curves : forall solve eig m s times hz ov h d results, solver_contract solve -> eig_contract eig -> sound_equations m -> increasing times -> fit m s h d -> NoDup (dkeys ov) ->
  snd (simulate_modes solve eig s (state_space m s) times ov h) = Ok results ->
  exists A B w V t0 js, snd (state_space m s ov h) = Ok (Single (A, B)) /\ eigenpairs false (n_states m) A w V /\ hd_error times = Some t0 /\ shown_modes (1 / 10 ^ 12) hz w js /\
    (js = [] -> snd (plot_mode_simulations solve eig m s times hz ov h) = Err (ValueError "Number of rows must be a positive integer")) /\
    (length js = 1%nat -> snd (plot_mode_simulations solve eig m s times hz ov h) = Err IndexError) /\
    ((2 <= length js)%nat -> exists rows, snd (plot_mode_simulations solve eig m s times hz ov h) = Ok rows /\ length rows = length js /\
       forall a, (a < length js)%nat -> exists row, nth_error rows a = Some row /\
         mr_title row = nth (nth a js 0%nat) w (0, 0) /\ (mr_red row = true <-> 0 <= fst (nth (nth a js 0%nat) w (0, 0))) /\
         mr_axes row = (let value i k := mode_re (nth (nth a js 0%nat) w (0, 0)) (cent V i (nth a js 0%nat)) t0 (nth k times 0) in
                        mode_axes m (fun i => samples times (value i)) (fun i => samples times (fun k => in_degrees (value i k))))).
Proof. exact plot_modes_meaning. Qed.
Print Assumptions C68_mode_curves.

Theorem C68_mode_errors : forall solve eig m s times hz ov h d e, fit m s h d -> NoDup (dkeys ov) ->
  snd (simulate_modes solve eig s (state_space m s) times ov h) = Err e -> snd (plot_mode_simulations solve eig m s times hz ov h) = Err e.
Proof. intros solve eig m s times hz ov h d e F N. apply (plot_modes_heap solve eig m s times hz ov h d F N). Qed.
Print Assumptions C68_mode_errors.

(* ---------------- modal controllability ---------------- *)
Theorem C68_controllability_curves : forall eig m s acute ov h d abs evs k xs, eig_contract eig -> m = MMeijaard \/ m = MFeedback -> fit m s h d -> NoDup (dkeys ov) ->
  snd (state_space m s ov h) = Ok (Stack abs) -> snd (calc_eigen eig (state_space m s) true ov h) = Ok (Stack evs) -> first_array d ov k xs -> xs <> [] ->
  exists axes (beta : nat -> nat -> nat -> R), snd (plot_modal_controllability eig m s acute ov h) = Ok (axes, k) /\ length axes = 4%nat /\
    (forall i, (i < 4)%nat -> length (nth i axes []) = 2%nat) /\
    forall i j, (i < 4)%nat -> (j < 2)%nat -> nth j (nth i axes []) [] = samples xs (fun r => in_degrees (beta r i j)) /\
      forall r, (r < length xs)%nat -> exists c, (c < 4)%nat /\ (r = 0%nat -> c = i) /\
        modal_angle acute (ccol (snd (nth r evs ([], []))) c) (rcol (snd (nth r abs ([], []))) j) (beta r i j).
Proof. exact plot_modal_meaning. Qed.
Print Assumptions C68_controllability_curves.

(* ---------------- gains ---------------- *)
Theorem C68_gain_curves : forall s ov h d n, ps_class s = CMeijaard2007WithFeedback -> fit MFeedback s h d -> NoDup (dkeys ov) -> same_lengths d ov n ->
  ((forall k, array_given d ov k -> In k gain_names) ->
     snd (plot_gains s ov h) = Err (ValueError "No x axis key. Set one parameter other than the gains as an array.")) /\
  (forall k xs, first_array d (filter (fun e => negb (smem (fst e) gain_names)) ov) k xs ->
     exists cs, snd (plot_gains s ov h) = Ok (cs, k) /\ length cs = length gain_names /\
       forall i name, nth_error gain_names i = Some name -> exists lab g, nth_error cs i = Some ("$" ++ lab ++ "$", samples xs g) /\ label_of (ps_class s) name lab /\
         forall j, (j < length xs)%nat -> row_value d ov name j (g j)).
Proof. exact gains_meaning. Qed.
Print Assumptions C68_gain_curves.

(* ---------------- no figure changes the parameters ---------------- *)
Theorem C68_parameters_untouched : forall eig solve m s n colors show hz sort acute times x0 inp ov h d, fit m s h d -> NoDup (dkeys ov) ->
  preserved h (fst (plot_eigenvalue_parts eig m s colors show hz sort ov h)) /\ preserved h (fst (plot_eigenvectors eig m s n hz ov h)) /\
  preserved h (fst (plot_simulation solve m s times x0 inp ov h)) /\ preserved h (fst (plot_mode_simulations solve eig m s times hz ov h)) /\
  preserved h (fst (plot_modal_controllability eig m s acute ov h)) /\ preserved h (fst (plot_gains s ov h)) /\
  forall pitch body, m = MRiderLean pitch body -> preserved h (fst (plot_simulation_rl solve pitch body s times x0 inp ov h)).
Proof.
  intros eig solve m s n colors show hz sort acute times x0 inp ov h d F N.
  split; [apply (plot_parts_eq eig m s colors show hz sort ov h d F N)|]. split; [apply (plot_vectors_eq eig m s n hz ov h d F N)|].
  split; [apply (plot_sim_heap solve m s times x0 inp ov h d F N)|]. split; [apply (plot_modes_heap solve eig m s times hz ov h d F N)|].
  split; [apply (plot_modal_eq eig m s acute ov h d F N)|]. split; [apply (plot_gains_eq s ov h d (proj1 F))|].
  intros pitch body ->. apply (plot_rl_preserves solve pitch body s times x0 inp ov h d F N).
Qed.
Print Assumptions C68_parameters_untouched.

(* ---------------- concrete cases that meet the hypotheses ---------------- *)
Definition gain_set : pset := mkset CMeijaard2007WithFeedback 0 (Some true).
Definition gain_dict : pdict := (nums bike ++ map (fun k => (k, VNum 0)) gain_names)%list.
Definition gain_ov : dict oval := [("kTphi_phi", OArray [1; 2]); ("v", OArray [3; 4]); ("w", OScalar 1)].

Lemma gain_fit : fit MFeedback gain_set [gain_dict] gain_dict.
Proof.
  split; [reflexivity|]. apply (complete_required CMeijaard2007WithFeedback). intros k Hk. cbn [par_strings In] in Hk.
  repeat (destruct Hk as [<-|Hk]; [eexists; reflexivity|]). contradiction.
Qed.
Lemma all_modes_shown : forall tol w js, shown_modes tol HideNo w js -> length js = length w.
Proof.
  intros tol w js (H1 & H2). assert (N : NoDup js).
  { apply (NoDup_nth js 0%nat). intros i j Hi Hj E. destruct (Nat.lt_trichotomy i j) as [L|[L|L]]; [pose proof (H1 _ _ L Hj); lia|exact L|pose proof (H1 _ _ L Hi); lia]. }
  rewrite <- (seq_length (length w) 0). apply Nat.le_antisymm; apply NoDup_incl_length; [exact N| |apply seq_NoDup|].
  - intros j Hj. apply H2 in Hj. apply in_seq. lia.
  - intros j Hj. apply in_seq in Hj. apply H2. split; [lia|exact I].
Qed.

(* the benchmark bicycle at rest: every figure of a scalar call, and the controllability of
   an array call; and the gains of a controlled bicycle *)
Example C68_satisfiable :
  snd (plot_eigenvalue_parts eig0 MMeijaard bike_set None true HideNo true rest [nums bike]) = Err IndexError /\
  (exists ps, snd (plot_eigenvectors eig0 MMeijaard bike_set 4 HideNo rest [nums bike]) = Ok (ps, []) /\ length ps = 4%nat) /\
  (exists figs, snd (plot_simulation rest_solver MMeijaard bike_set [0; 1; 2] [1; 2; 0; 0] None rest [nums bike]) = Ok figs) /\
  (exists rows, snd (plot_mode_simulations rest_solver eig0 MMeijaard bike_set [0; 1; 2] HideNo rest [nums bike]) = Ok rows /\ length rows = 4%nat) /\
  (exists axes, snd (plot_modal_controllability eig0 MMeijaard bike_set true rest_array [nums bike]) = Ok (axes, "v")) /\
  exists cs, snd (plot_gains gain_set gain_ov [gain_dict]) = Ok (cs, "v") /\ nth_error cs 0 = Some ("$k_{T_{\phi}\phi}$", [(3, 1); (4, 2)]).
Proof.
  destruct C57_satisfiable as (EC & w & V & EV & EP). destruct C58_satisfiable as (SC & INC & (st & us & ES & _) & (res & EM)).
  destruct C59_satisfiable as (abs & evs & NA & N & EA & EL).
  assert (NG : forall k, ~ array_given (nums bike) rest k).
  { intros k (_ & l & H). unfold rest in H. cbn [dget] in H. destruct (String.eqb k "v"); [discriminate|]. destruct (String.eqb k "g"); discriminate. }
  split; [exact (C68_refuted_scalar_call_draws_a_figure eig0 MMeijaard bike_set None true HideNo true rest [nums bike] (nums bike) _ bike_fit rest_nodup EV NG)|].
  split.
  { destruct (C68_eigenvector_panels eig0 MMeijaard bike_set HideNo rest [nums bike] (nums bike) w V EC Logic.I bike_fit rest_nodup NG EV) as (js & SJ & _ & H).
    apply all_modes_shown in SJ. destruct EP as (LW & _). rewrite LW in SJ. destruct H as (ps & E & L & _); [intros ->; discriminate|].
    exists ps. split; [exact E|congruence]. }
  split.
  { destruct (C68_simulation_curves rest_solver MMeijaard bike_set [0; 1; 2] [1; 2; 0; 0] None rest [nums bike] (nums bike) st us SC (or_introl eq_refl) INC bike_fit rest_nodup ES) as (A & B & t0 & x & u & _ & _ & _ & _ & _ & E).
    eexists. exact E. }
  split.
  { destruct (C68_mode_curves rest_solver eig0 MMeijaard bike_set [0; 1; 2] HideNo rest [nums bike] (nums bike) res SC EC Logic.I INC bike_fit rest_nodup EM) as (A & B & w' & V' & t0 & js & _ & EP' & _ & SJ & _ & _ & H).
    apply all_modes_shown in SJ. destruct EP' as (LW & _). rewrite LW in SJ. cbn [n_states] in SJ. destruct H as (rows & E & L & _); [rewrite SJ; repeat constructor|].
    exists rows. split; [exact E|congruence]. }
  split.
  { destruct (C68_controllability_curves eig0 MMeijaard bike_set true rest_array [nums bike] (nums bike) abs evs "v" [0] EC (or_introl eq_refl) bike_fit N EA EL) as (axes & beta & E & _).
    - exists [], [("g", OScalar 0)]. split; [reflexivity|]. split; [cbn [nums bike map dkeys fst In]; tauto|]. intros k' l [].
    - discriminate.
    - exists axes. exact E. }
  destruct (C68_gain_curves gain_set gain_ov [gain_dict] gain_dict 2 eq_refl gain_fit) as (_ & H).
  - repeat constructor; cbn; intuition discriminate.
  - intros q Hq. cbn in Hq. intuition.
  - destruct (H "v" [3; 4]) as (cs & E & _ & R).
    + exists [], [("w", OScalar 1)]. split; [reflexivity|]. split; [cbv; tauto|]. intros k' l [].
    + exists cs. split; [exact E|]. destruct (R 0%nat "kTphi_phi" eq_refl) as (lab & g & E1 & (i & I1 & I2) & RV).
      rewrite E1. unfold samples. cbn [length seq map nth].
      assert (g 0%nat = 1) as -> by (specialize (RV 0%nat ltac:(cbn; lia)); cbn in RV; congruence).
      assert (g 1%nat = 2) as -> by (specialize (RV 1%nat ltac:(cbn; lia)); cbn in RV; congruence).
      assert (lab = "k_{T_{\phi}\phi}") as ->; [|reflexivity].
      do 30 (destruct i as [|i]; [try (cbn in I1; discriminate); cbn in I2; injection I2 as <-; reflexivity|]). exfalso. revert I1. destruct i as [|[|[|[|[|[|i]]]]]]; cbn; try discriminate; destruct i; discriminate.
Qed.
