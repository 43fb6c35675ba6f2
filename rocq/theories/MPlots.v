(* MPlots.v -- model of the plotting methods of the models,
   /repo/bicycleparameters/models.py: what is drawn (curves, labels, titles, shading)
   and which calls fail.  Positions of axes on the page, line widths other than those of
   plot_eigenvectors, grids and legends' places are not modelled; the text of formatted
   numbers in titles is replaced by the number.  nan is None. *)
From Verif Require Import Base MString MHeap MBicycle MVec MInertia MGeometry MIo MSets MSets2 MModels MModels2 MEig MDraw.
From Verif Require MApp.
Notation rad2deg := MApp.rad2deg.
Local Open Scope string_scope.
Local Open Scope R_scope.

(* the hide_zeros argument: False, True or a float (0.0 is false) *)
Inductive hide_arg := HideNo | HideYes | HideTol (x : R).
Definition hides (z : hide_arg) : bool := match z with HideNo => false | HideYes => true | HideTol x => if Req_EM_T x 0 then false else true end.
(* tol = hide_zeros if isinstance(hide_zeros, float) else <default> *)
Definition tol_of (default : R) (z : hide_arg) : R := match z with HideTol x => x | _ => default end.
Definition cmod (z : cplx) : R := sqrt (fst z * fst z + snd z * snd z).
(* values[np.abs(values) < tol] = nan *)
Definition masked (default : R) (z : hide_arg) (y : R) : option R :=
  if (hides z && Rltb (Rabs y) (tol_of default z))%bool then None else Some y.

(* the lines of ax.plot: x and y must have the same length *)
Record line := mkline { ln_x : list R; ln_y : list (option R); ln_label : string; ln_color : string; ln_style : string }.
Definition plot_line (x : list R) (y : list (option R)) (label color style : string) : res line :=
  if Nat.eqb (length x) (length y) then Ok (mkline x y label color style)
  else Err (ValueError "x and y must have same first dimension").

(* par[array_keys[0]] *)
Definition x_values (par : pdict) (array_keys : list string) : res (string * list R) :=
  match array_keys with
  | [] => Err IndexError
  | k :: _ => v <- dlook par k ;; match v with VArr l => Ok (k, l) | _ => Err TypeError end
  end.
(* self.parameter_set.par_strings[key] *)
Definition par_label (c : pclass) (k : string) : res string := dlook (combine (par_strings c) (labels c)) k.

(* ---------------------------------------------------------------- eigenvalue parts *)
(* matplotlib.colors.TABLEAU_COLORS, in order *)
Definition tableau : list string :=
  ["tab:blue"; "tab:orange"; "tab:green"; "tab:red"; "tab:purple"; "tab:brown"; "tab:pink"; "tab:gray"; "tab:olive"; "tab:cyan"].
(* the first n colours: those given, or the endless cycle *)
Definition palette (colors : option (list string)) (n : nat) : list string :=
  match colors with Some l => l | None => map (fun i => nth (Nat.modulo i 10) tableau "") (seq 0 n) end.
(* 'M{}'.format(i + 1); at most 99 modes *)
Definition mode_label (i : nat) : string :=
  "M" ++ (if (i + 1 <? 10)%nat then String (ascii_of_nat (48 + (i + 1))) ""
          else String (ascii_of_nat (48 + (i + 1) / 10)) (String (ascii_of_nat (48 + Nat.modulo (i + 1) 10)) "")).

(* the shading: for every x whether it is shaded, and the two heights (in fractions of
   the height of the axes: transform=ax.get_xaxis_transform()) *)
Record band := mkband { bd_x : list R; bd_where : list bool; bd_lo : R; bd_hi : R }.
Record parts_fig := mkparts {
  pf_band : option band; pf_lines : list line; pf_xlim : R * R; pf_xlabel : string; pf_legend : bool }.

(* evals.T: mode j along the rows *)
Definition mode_seq (rows : list (list cplx)) (j : nat) : list cplx := map (fun w => nth j w (0, 0)) rows.

(* [models.py:188-251] plot_eigenvalue_parts after the eigenvalues are computed.  In
   fill_between the arrays must have one entry per x; numpy's min and max of an empty
   array are ValueErrors.  Without array valued parameters the name legend is not bound.
   (np.real gives a view, so the nan are written into the local array evals, which is
   not used again.) *)
Definition parts_figure (c : pclass) (par : pdict) (array_keys : list string) (ev : shaped eigres) (colors : option (list string))
    (show_stable_regions : bool) (hide_zeros : hide_arg) (sort_modes : bool) : res parts_fig :=
  rl <- match ev with
        | Stack evs => rows <- (if sort_modes then s <- sort_eigenmodes (with_columns evs) ;; Ok (map fst s) else Ok (map fst evs)) ;; Ok (rows, true)
        | Single e => Ok ([fst e], false)
        end ;;
  let rows := fst rl in let n := length (hd [] rows) in
  bd <- (if show_stable_regions then
           kx <- x_values par array_keys ;;
           lo1 <- lmin (map fst (concat rows)) ;; lo2 <- lmin (map snd (concat rows)) ;; lo <- lmin [lo1; lo2] ;;
           hi1 <- lmax (map fst (concat rows)) ;; hi2 <- lmax (map snd (concat rows)) ;; hi <- lmax [hi1; hi2] ;;
           if Nat.eqb (length (snd kx)) (length rows) then
             Ok (Some (mkband (snd kx) (map (forallb (fun z : cplx => Rleb (fst z) 0)) rows) lo hi))
           else Err (ValueError "where size does not match")
         else Ok None) ;;
  if negb (snd rl) then Err UnboundLocalError else
  let modes := combine (combine (seq 0 n) (palette colors n)) (map mode_label (seq 0 n)) in
  imag <- mapM (fun jcl : nat * string * string => let '(j, color, label) := jcl in
            kx <- x_values par array_keys ;;
            plot_line (snd kx) (map (fun z : cplx => masked (1 / 10 ^ 14) hide_zeros (Rabs (snd z))) (mode_seq rows j)) label
              (if sort_modes then color else "C1") (if sort_modes then "--" else "none")) modes ;;
  real <- mapM (fun jcl : nat * string * string => let '(j, color, label) := jcl in
            kx <- x_values par array_keys ;;
            plot_line (snd kx) (map (fun z : cplx => masked (1 / 10 ^ 14) hide_zeros (fst z)) (mode_seq rows j)) label
              (if sort_modes then color else "black") (if sort_modes then "-" else "none")) modes ;;
  kx <- x_values par array_keys ;;
  x0 <- index (snd kx) 0 ;;
  lab <- par_label c (fst kx) ;;
  Ok (mkparts bd (imag ++ real)%list (x0, last (snd kx) x0) ("$" ++ lab ++ "$") sort_modes).

(* [models.py:142-253] plot_eigenvalue_parts on new axes *)
Definition plot_eigenvalue_parts (eig : marr -> res eigres) (m : lin_model) (s : pset) (colors : option (list string))
    (show_stable_regions : bool) (hide_zeros : hide_arg) (sort_modes : bool) (overrides : dict oval) : H parts_fig :=
  ev <-- calc_eigen eig (state_space m s) false overrides ;;;
  pkl <-- parse_parameter_overrides s overrides ;;;
  match pkl with (par, array_keys, _) =>
    d <-- hload par ;;;
    lift (parts_figure (ps_class s) d array_keys ev colors show_stable_regions hide_zeros sort_modes)
  end.

(* ---------------------------------------------------------------- eigenvectors *)
(* one polar line from the origin: angle, radius and line width *)
Record polar := mkpolar { po_angle : R; po_radius : option R; po_width : nat }.
Record panel := mkpanel { pn_row : nat; pn_col : nat; pn_lines : list polar; pn_title : cplx; pn_red : bool }.

(* np.atleast_3d(evec_seq).T: a single array of columns gives one block with the columns
   as rows; an array of arrays is transposed in all three axes *)
Definition evecs_T (ev : shaped eigres) : list (list (list cplx)) :=
  match ev with
  | Single e => [columns_of (snd e)]
  | Stack evs =>
      let n := length (fst (hd ([], []) evs)) in
      map (fun k => map (fun i => map (fun e : eigres => nth k (nth i (snd e) []) (0, 0)) evs) (seq 0 n)) (seq 0 n)
  end.
Definition evals_2d (ev : shaped eigres) : list (list cplx) :=
  match ev with Single e => [fst e] | Stack evs => map fst evs end.

(* [models.py:342-352] the lines of one eigenvector; lw[j] with lw = [n, ..., 1] *)
Definition vector_lines (n : nat) (vec : list cplx) : res (list polar) :=
  max_com <- lmax (map cmod vec) ;;
  mapM (fun jc : nat * cplx => let '(j, z) := jc in
          if (j <? n)%nat then
            Ok (mkpolar (npatan2 (snd z) (fst z)) (if Req_EM_T max_com 0 then None else Some (cmod z / max_com)) (n - j))
          else Err IndexError) (combine (seq 0 (length vec)) vec).
Definition count {A} (p : A -> bool) (l : list A) : nat := length (filter p l).

(* [models.py:284-370] plot_eigenvectors after the eigenvalues are computed; n is
   len(self.state_vars).  plt.subplots drops a dimension of size one, so a single column
   of axes comes back as a row. *)
Definition vectors_figure (n : nat) (par : pdict) (arr_keys : list string) (ev : shaped eigres) (hide_zeros : hide_arg)
    : res (list panel * list (nat * string * R)) :=
  let evals := evals_2d ev in
  lastw <- match evals with [] => Err IndexError | w :: r => Ok (last r w) end ;;
  let plot := map (fun z => negb (hides hide_zeros && Rltb (cmod z) (tol_of (1 / 10 ^ 14) hide_zeros))) lastw in
  if (10 <? length evals)%nat then Err (ValueError "Plots will be too large, use fewer than 11 values in the varied parameter.") else
  let ncols := count (fun b => b) plot in
  if (ncols =? 0)%nat then Err (ValueError "Number of columns must be a positive integer") else
  let '(ar, ac) := if (ncols =? 1)%nat then (1%nat, length evals) else (length evals, ncols) in
  par_vals <- match arr_keys with [] => Ok [0] | _ => kx <- x_values par arr_keys ;; Ok (snd kx) end ;;
  rows <- mapM (fun kr : nat * (list cplx * list (list cplx)) => let '(k, (ws, vs)) := kr in
            if (ar <=? k)%nat then Err IndexError else
            let shown := filter snd (combine (combine ws vs) plot) in
            mapM (fun iz : nat * (cplx * list cplx * bool) => let '(i, ((w, v), _)) := iz in
                    ls <- vector_lines n v ;;
                    if (ac <=? i)%nat then Err IndexError else
                    Ok (mkpanel k i ls w (Rleb 0 (fst w)))) (combine (seq 0 (length shown)) shown))
          (combine (seq 0 (length (combine (combine evals (evecs_T ev)) par_vals))) (map fst (combine (combine evals (evecs_T ev)) par_vals))) ;;
  Ok (concat rows, match arr_keys with [] => [] | k :: _ =>
        map (fun iv : nat * R => (fst iv, k, snd iv)) (combine (seq 0 (length rows)) par_vals) end).

(* [models.py:255-370] plot_eigenvectors: the panels and the row labels *)
Definition plot_eigenvectors (eig : marr -> res eigres) (m : lin_model) (s : pset) (n : nat) (hide_zeros : hide_arg) (overrides : dict oval)
    : H (list panel * list (nat * string * R)) :=
  pkl <-- parse_parameter_overrides s overrides ;;;
  match pkl with (par, arr_keys, _) =>
    ev <-- calc_eigen eig (state_space m s) false overrides ;;;
    d <-- hload par ;;;
    lift (vectors_figure n d arr_keys ev hide_zeros)
  end.

(* ---------------------------------------------------------------- simulations *)
(* [models.py:615-620, 1271-1279] state_vars_latex, state_units and input_vars_latex; the
   last state of the rider lean model has no unit *)
Definition state_latex (m : lin_model) : list string :=
  match m with
  | MRiderLean _ _ => ["q_1"; "q_2"; "q_3"; "q_4"; "q_6"; "q_7"; "q_8"; "q_9"; "u_4"; "u_6"; "u_7"; "u_9"]
  | _ => ["\phi"; "\delta"; "\dot{\phi}"; "\dot{\delta}"]
  end.
Definition state_units (m : lin_model) : list string :=
  match m with
  | MRiderLean _ _ => ["m"; "m"; "rad"; "rad"; "rad"; "rad"; "rad"; "rad"; "rad/s"; "rad/s"; "rad/s"]
  | _ => ["rad"; "rad"; "rad/s"; "rad/s"]
  end.
Definition input_latex (m : lin_model) : list string :=
  match m with MRiderLean _ _ => ["T_4"; "T_7"; "T_9"] | _ => ["T_\phi"; "T_\delta"] end.

(* ax.plot(times, M[:, idxs]) with every value mapped by f *)
Definition plot_columns (times : list R) (M : marr) (idxs : list nat) (f : R -> R) : res (list curve) :=
  if Nat.eqb (length times) (length M) then
    mapM (fun i => ys <- mapM (fun row => index row i) M ;; Ok (combine times (map f ys))) idxs
  else Err (ValueError "x and y must have same first dimension").
Definition dollars (s : string) : string := "$" ++ s ++ "$".
(* one subplot: its y label and its curves with their legend entries *)
Definition subplot := (string * list (string * curve))%type.
Definition width (M : marr) : nat := length (hd [] M).

(* [models.py:1018-1039] Meijaard2007Model.plot_simulation: torques, angles, rates *)
Definition plot_simulation (solve : solver) (m : lin_model) (s : pset) (times x0 : list R)
    (input_func : option (R -> list R -> res (list R))) (overrides : dict oval) : H (list subplot) :=
  ru <-- simulate solve s (state_space m s) times x0 input_func overrides ;;;
  lift (let '(st, us) := ru in
    c0 <- plot_columns times us (seq 0 (width us)) (fun x => x) ;;
    c1 <- plot_columns times st (firstn 2 (seq 0 (width st))) rad2deg ;;
    c2 <- plot_columns times st (skipn 2 (seq 0 (width st))) rad2deg ;;
    Ok [("Torque [Nm]", combine [dollars "T_\phi"; dollars "T_\delta"] c0);
        ("Angle [deg]", combine (map dollars (firstn 2 (state_latex m))) c1);
        ("Angluar Rate [deg/s]", combine (map dollars (skipn 2 (state_latex m))) c2)]).

(* [models.py:1466-1570] MooreRiderLean2012Model.plot_simulation: seven axes, the two
   twins after the axes they share.  initial_conditions[9] is assigned here and again in
   simulate; the caller's list is returned. *)
Definition plot_simulation_rl (solve : solver) pitch body (s : pset) (times x0 : list R)
    (input_func : option (R -> list R -> res (list R))) (overrides : dict oval) : H (list R * res (list subplot)) :=
  pkl <-- parse_parameter_overrides s overrides ;;;
  match pkl with (par, _, _) =>
    d <-- hload par ;;;
    v <-- lift (scalar_at d "v") ;;; rr <-- lift (scalar_at d "rr") ;;;
    w <-- lift (rdiv (- v) rr) ;;;
    _ <-- lift (index x0 9) ;;;
    xr <-- simulate_rl solve pitch body s times (upd x0 9 w) input_func overrides ;;;
    let names idxs := map (fun i => dollars (nth i (state_latex (MRiderLean pitch body)) "")) idxs in
    let deg st idxs := cs <- plot_columns times st idxs rad2deg ;; Ok (combine (names idxs) cs) in
    hret (fst xr,
      ru <- snd xr ;;
      let '(st, us) := ru in
      c0 <- plot_columns times us (seq 0 (width us)) (fun x => x) ;;
      c1 <- plot_columns times st (firstn 2 (seq 0 (width st))) (fun x => x) ;;
      c2 <- deg st [4; 6]%nat ;;
      c3 <- deg st [3; 5; 7]%nat ;; c4 <- deg st [2%nat] ;;
      c5 <- deg st [8; 10; 11]%nat ;; c6 <- deg st [9%nat] ;;
      Ok [("Torque [Nm]", combine (map dollars (input_latex (MRiderLean pitch body))) c0);
          ("Distance [m]", combine (names [0; 1]%nat) c1);
          ("Angle [deg]", c2);
          ("Angle [deg]", c3); (dollars "q_3" ++ " [deg]", c4);
          ("Angluar Rate [deg/s]", c5); (dollars "u_6" ++ " [deg/s]", c6)])
  end.

(* sorted(list(set(units))) *)
Definition unique_units (m : lin_model) : list string := ssort (nodup string_dec (state_units m)).
(* one row of axes: eigenvalue in the titles, whether they are red, the axes by unit *)
Record mode_row := mkmode { mr_title : cplx; mr_red : bool; mr_axes : list subplot }.

(* [models.py:509-553] plot_mode_simulations after the simulation.  With a single row
   plt.subplots returns a flat array, which cannot be indexed with two numbers. *)
Definition modes_figure (m : lin_model) (times : list R) (results : list marr) (evals : list cplx) (hide_zeros : hide_arg) : res (list mode_row) :=
  let shown := filter (fun re : marr * cplx => negb (hides hide_zeros && Rltb (cmod (snd re)) (tol_of (1 / 10 ^ 12) hide_zeros))) (combine results evals) in
  let nrows := count (fun z => negb (hides hide_zeros && Rltb (cmod z) (tol_of (1 / 10 ^ 12) hide_zeros))) evals in
  if (nrows =? 0)%nat then Err (ValueError "Number of rows must be a positive integer") else
  if (nrows =? 1)%nat then Err IndexError else
  mapM (fun re : marr * cplx => let '(r, e) := re in
    cs <- mapM (fun iun : nat * (string * string) => let '(i, (unit, name)) := iun in
            c <- plot_columns times r [i] (if contains "rad" unit then rad2deg else fun x => x) ;;
            Ok (unit, (dollars name, hd [] c)))
          (combine (seq 0 (width r)) (combine (state_units m) (state_latex m))) ;;
    Ok (mkmode e (Rleb 0 (fst e))
          (map (fun u => ("[" ++ u ++ "]", map snd (filter (fun x : string * (string * curve) => String.eqb (fst x) u) cs))) (unique_units m)))) shown.
(* [models.py:473-553] plot_mode_simulations *)
Definition plot_mode_simulations (solve : solver) (eig : marr -> res eigres) (m : lin_model) (s : pset) (times : list R)
    (hide_zeros : hide_arg) (overrides : dict oval) : H (list mode_row) :=
  results <-- simulate_modes solve eig s (state_space m s) times overrides ;;;
  ev <-- calc_eigen eig (state_space m s) false overrides ;;;
  w <-- lift (match ev with Single e => Ok (fst e) | Stack _ => Err TypeError end) ;;;
  lift (modes_figure m times results w hide_zeros).

(* ---------------------------------------------------------------- modal controllability and gains *)
(* [models.py:952-978] _plot_modal_controllability without axes given: rows of axes, one
   per mode, a column per input, and the x label *)
Definition plot_modal_controllability (eig : marr -> res eigres) (m : lin_model) (s : pset) (acute : bool) (overrides : dict oval)
    : H (list (list curve) * string) :=
  pkl <-- parse_parameter_overrides s overrides ;;;
  match pkl with (par, array_keys, _) =>
    betas <-- modal_controllability eig (state_space m s) acute overrides ;;;
    d <-- hload par ;;;
    lift (b0 <- index betas 0 ;;
          axes <- mapM (fun i => mapM (fun j =>
                    kx <- x_values d array_keys ;;
                    ys <- mapM (fun b => r <- index b i ;; index r j) betas ;;
                    if Nat.eqb (length (snd kx)) (length ys) then Ok (combine (snd kx) (map rad2deg ys))
                    else Err (ValueError "x and y must have same first dimension")) (seq 0 (width b0))) (seq 0 (length b0)) ;;
          kx <- x_values d array_keys ;;
          _ <- (r <- index axes 3 ;; index r 1) ;;
          Ok (axes, fst kx))
  end.

(* [models.py:1203-1233] plot_gains: title and curve of each gain, and the x label *)
Definition plot_gains (s : pset) (overrides : dict oval) : H (list (string * curve) * string) :=
  pkl <-- parse_parameter_overrides s overrides ;;;
  match pkl with (par, array_keys, _) =>
    d <-- hload par ;;;
    lift (match filter (fun k => negb (smem k gain_names)) array_keys with
          | [] => Err (ValueError "No x axis key. Set one parameter other than the gains as an array.")
          | xk :: _ =>
              kx <- x_values d [xk] ;;
              cs <- mapM (fun name =>
                      v <- dlook d name ;;
                      ys <- (if smem name array_keys then match v with VArr l => Ok l | _ => Err TypeError end
                             else match v with VNum y => Ok (map (fun _ => y) (snd kx)) | _ => Err TypeError end) ;;
                      lab <- par_label (ps_class s) name ;;
                      if Nat.eqb (length (snd kx)) (length ys) then Ok (dollars lab, combine (snd kx) ys)
                      else Err (ValueError "x and y must have same first dimension")) gain_names ;;
              Ok (cs, xk)
          end)
  end.
