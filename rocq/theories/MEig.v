(* MEig.v -- model of /repo/bicycleparameters/main.py: Bicycle.canonical, state_space,
   eig, the two eigenvalue plots and plot_bode (the phase alignment of
   compare_bode_speeds is in MPlot.v).
   Numbers are nominal values; uncertainties, numpy.linalg.eig (a parameter), colours,
   labels of axes and figure layout are not modelled.  The Bicycle object is its
   parameters attribute. *)
From Verif Require Import Base MString MHeap MBicycle MModels MModels2.
From Coq Require Import ZArith.
Local Open Scope string_scope.
Local Open Scope R_scope.

Definition par_sets := dict (dict R).
(* the nominal argument: True, False or anything else *)
Inductive flag := FTrue | FFalse | FOther.
Definition check_flag {A} (f : flag) (x : A) : res A :=
  match f with FOther => Err (ValueError "nominal must be True or False") | _ => Ok x end.

(* [main.py:1034-1099] Bicycle.canonical.  benchmark_par_to_canonical writes into the
   stored dictionary. *)
Definition bicycle_canonical (ps : par_sets) (nominal : flag) : par_sets * res canon :=
  match dget ps "Benchmark" with
  | None => (ps, Err (KeyError "Benchmark"))
  | Some p =>
      match benchmark_par_to_canonical p with
      | (p', r) => (dset ps "Benchmark" p', c <- r ;; check_flag nominal c)
      end
  end.

(* [main.py:1101-1156] Bicycle.state_space *)
Definition bicycle_state_space (ps : par_sets) (speed : R) (nominal : flag) : par_sets * res (marr * marr) :=
  match bicycle_canonical ps FFalse with
  | (ps', r) =>
      (ps', c <- r ;; p <- dlook ps' "Benchmark" ;; g <- dlook p "g" ;;
            ab <- ab_matrix (cM c) (cC1 c) (cK0 c) (cK2 c) speed g ;; check_flag nominal ab)
  end.

(* the speeds argument: a Python float, another scalar (np.asarray gives a 0-d array,
   whose shape[0] is an IndexError) or a sequence *)
Inductive speed_arg := SpFloat (x : R) | SpScalar (x : R) | SpSeq (l : list R).

(* [main.py:1158-1199] Bicycle.eig; remove_uncertainties makes a copy, so the object is
   not written *)
Definition bicycle_eig (eig : marr -> res eigres) (ps : par_sets) (speeds : speed_arg) : res (list eigres) :=
  p <- dlook ps "Benchmark" ;;
  let '(p', r) := benchmark_par_to_canonical p in
  c <- r ;;
  l <- match speeds with SpFloat x => Ok [x] | SpScalar _ => Err IndexError | SpSeq l => Ok l end ;;
  mapM (fun v => g <- dlook p' "g" ;;
                 ab <- ab_matrix (cM c) (cC1 c) (cK0 c) (cK2 c) v g ;;
                 eig (fst ab)) l.

(* np.sort of a 1-d array *)
Fixpoint rinsert (x : R) (l : list R) : list R :=
  match l with [] => [x] | y :: r => if Rltb y x then y :: rinsert x r else x :: l end.
Definition rsort (l : list R) : list R := fold_right rinsert [] l.

(* max and min of a non-empty list *)
Definition lmax (l : list R) : res R := match l with [] => Err (ValueError "empty") | x :: r => Ok (fold_left Rmax r x) end.
Definition lmin (l : list R) : res R := match l with [] => Err (ValueError "empty") | x :: r => Ok (fold_left Rmin r x) end.

(* ax.plot(x, y): a curve *)
Definition curve := list (R * R).
Definition curve_of (speeds ys : list R) : curve := combine speeds ys.
Definition with_columns (evs : list eigres) : list (list cplx * list (list cplx)) := map (fun e : eigres => (fst e, columns_of (snd e))) evs.

(* [main.py:1201-1338] plot_eigenvalues_vs_speed: the curves in drawing order, without
   the x axis line.  The weave eigenvalues have two columns, drawn as two curves. *)
Definition plot_eigenvalues (eig : marr -> res eigres) (ps : par_sets) (speeds0 : list R) (largest : bool) : res (list curve) :=
  let speeds := rsort speeds0 in
  evs <- bicycle_eig eig ps (SpSeq speeds) ;;
  if largest then
    ys <- mapM (fun e : eigres => lmax (map fst (fst e))) evs ;;
    _ <- lmin ys ;;
    Ok [curve_of speeds ys]
  else
    m <- sort_modes (with_columns evs) ;;
    wea1 <- mapM (fun r => index (fst r) 0) (weave m) ;;
    wea2 <- mapM (fun r => index (fst r) 1) (weave m) ;;
    let cap := map fst (capsize m) in
    let cas := map fst (caster m) in
    let im l := curve_of speeds (map (fun z : cplx => Rabs (snd z)) l) in
    let re l := curve_of speeds (map (fun z : cplx => fst z) l) in
    Ok [im wea1; im wea2; im cap; im cas; re wea1; re wea2; re cap; re cas].

(* [main.py:1408-1443] speeds[np.real(mode) < 0] *)
Definition neg_speeds (speeds : list R) (mode : list cplx) : list R :=
  map fst (filter (fun p : R * cplx => Rltb (fst (snd p)) 0) (combine speeds mode)).
Inductive region := NotDrawn | NoRegion | Region (x0 x1 : R).
(* If one of the minima or maxima fails the handler adds an annotation and the next
   statement reads v_start_stab or v_end_stab, which are not bound.  (For the first weave
   mode min returns the text "EMPTY", and comparing it with a number fails.) *)
Definition stability_region (speeds : list R) (wea1 wea2 cap cas : list cplx) : res region :=
  let start_end :=
    a2 <- lmin (neg_speeds speeds wea2) ;; as_ <- lmin (neg_speeds speeds cas) ;; ap <- lmin (neg_speeds speeds cap) ;; a1 <- lmin (neg_speeds speeds wea1) ;;
    s <- lmax [a2; as_; ap; a1] ;;
    b2 <- lmax (neg_speeds speeds wea2) ;; bs <- lmax (neg_speeds speeds cas) ;; bp <- lmax (neg_speeds speeds cap) ;; b1 <- lmax (neg_speeds speeds wea1) ;;
    e <- lmin [b2; bs; bp; b1] ;;
    Ok (s, e) in
  match start_end with
  | Err _ => Err UnboundLocalError
  | Ok (s, e) => if Rltb e s then Ok NoRegion else if Rltb (e - s) (1 / 10000) then Ok NoRegion else Ok (Region s e)
  end.

(* [main.py:1340-1445] _plot_eigenvalues_vs_speed_plotly.  With a figure given the
   eigenvalues are never computed; with largest the modes are never computed.  The
   curves in drawing order and the highlighted region. *)
Definition plot_eigenvalues_plotly (eig : marr -> res eigres) (ps : par_sets) (speeds0 : list R) (fig_given largest stability : bool)
    : res (list curve * region) :=
  let speeds := rsort speeds0 in
  if fig_given then Err UnboundLocalError else
  evs <- bicycle_eig eig ps (SpSeq speeds) ;;
  if largest then Err UnboundLocalError else
  m <- sort_modes (with_columns evs) ;;
  wea1 <- mapM (fun r => index (fst r) 0) (weave m) ;;
  wea2 <- mapM (fun r => index (fst r) 1) (weave m) ;;
  let cap := map fst (capsize m) in
  let cas := map fst (caster m) in
  let im l := curve_of speeds (map (fun z : cplx => Rabs (snd z)) l) in
  let re l := curve_of speeds (map (fun z : cplx => fst z) l) in
  reg <- (if stability then stability_region speeds wea1 wea2 cap cas else Ok NotDrawn) ;;
  Ok ([re wea1; re wea2; re cap; re cas; im wea1; im wea2; im cap; im cas], reg).

(* [main.py:1480-1484] plot_bode: the default title (negative indices are not modelled) *)
Definition bode_title (u y : nat) : res string :=
  i <- index ["Roll Torque"; "Steer Torque"] u ;;
  o <- index ["Roll Angle"; "Steer Angle"; "Roll Rate"; "Steer Rate"] y ;;
  Ok (i ++ " to " ++ o).
(* [main.py:1473-1486] plot_bode: the system handed to control.bode: A, B[:, u], C[y, :], D[y, u] *)
Definition bode_system (ps : par_sets) (speed : R) (u y : nat) : par_sets * res (marr * list R * list R * R) :=
  match bicycle_state_space ps speed FTrue with
  | (ps', r) =>
      (ps', ab <- r ;; b <- mapM (fun row => index row u) (snd ab) ;;
            c <- index (map (fun i => map (fun j => if Nat.eqb i j then 1 else 0) (seq 0 (length (fst ab)))) (seq 0 (length (fst ab)))) y ;;
            d <- (r <- index (map (map (fun _ => 0)) (snd ab)) y ;; index r u) ;;
            Ok (fst ab, b, c, d))
  end.
