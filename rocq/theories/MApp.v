(* MApp.v -- model of the callbacks of the web application,
   /repo/bicycleparameters/app.py.  Loading a bicycle and drawing the two figures
   are parameters; what the callbacks hand to them and where the figures go is
   modelled.  The browser (dash) is modelled by its observable effect: an event
   changes one property and the callbacks that have it as input run. *)
From Verif Require Import Base MString MIo MSets MPlot.
From Coq Require Import ZArith.
Local Open Scope string_scope.
Local Open Scope R_scope.

(* app.py 42-47 *)
Definition par_list : list string :=
  ["rF"; "mF"; "IFxx"; "IFyy"; "rR"; "mR"; "IRxx"; "IRyy"; "w"; "c"; "lam"; "g"; "xB"; "zB"; "mB";
   "IBxx"; "IByy"; "IBzz"; "IBxz"; "xH"; "zH"; "mH"; "IHxx"; "IHyy"; "IHzz"; "IHxz"].
(* app.py 79-82, 88-94, 99-102 *)
Definition WHEEL_LABELS : list string := ["Radius [m]:"; "Mass [kg]:"; "Moment Ixx [kg*m2]:"; "Moment Iyy [kg*m2]:"].
Definition FRAME_LABELS : list string :=
  ["Center of Mass X [m]:"; "Center of Mass Z [m]:"; "Total Mass [kg]:"; "Moment Ixx [kg*m2]:"; "Moment Iyy [kg*m2]:"; "Moment Izz [kg*m2]:"; "Moment Ixz [kg*m2]:"].
Definition GENERAL_LABELS : list string := ["Wheel Base [m]:"; "Trail [m]:"; "Steer Axis Tilt [degrees]:"; "Gravity [N/kg]:"].

(* A value in a table cell or in the parameter dictionary of the plotted bicycle *)
Inductive cell := CNum (v : pval) | CText (s : string) | CNone.
Definition row := dict cell.
Definition table := list row.

(* io.remove_uncertainties on one number *)
Definition nominal_of (v : pval) : pval := match v with PF x => PF x | PU n _ => PF n end.
Definition pure (p : dict pval) : dict pval := map (fun kv => (fst kv, nominal_of (snd kv))) p.
(* d.get(k) *)
Definition getp (p : dict pval) (k : string) : cell := match dget p k with Some v => CNum v | None => CNone end.
Definition getc (r : row) (k : string) : cell := match dget r k with Some v => v | None => CNone end.
(* int(x): towards zero *)
Definition pyint (x : R) : Z := if Rltb x 0 then (- (up (- x) - 1))%Z else (up x - 1)%Z.
Definition rad2deg (x : R) : R := x * (180 / PI).
Definition deg2rad (x : R) : R := x * (PI / 180).
(* range(a, b) *)
Definition range (a b : nat) : list nat := seq a (b - a).
Definition nth_par (i : nat) : string := nth i par_list "".

(* app.py 276-281, 297-302, 319-323: rows from zipped one-entry dictionaries *)
Definition zip3 (a b c : list row) : table := map (fun t => dupdate (dupdate (dupdate [] (fst (fst t))) (snd (fst t))) (snd t)) (combine (combine a b) c).
Definition zip2 (a b : list row) : table := map (fun t => dupdate (dupdate [] (fst t)) (snd t)) (combine a b).
Definition labels (l : list string) : list row := map (fun s => [("label", CText s)]) l.
Definition column (p : dict pval) (name : string) (l : list nat) : list row := map (fun i => [(name, getp p (nth_par i))]) l.

Record tables := mktables { t_wheel : table; t_frame : table; t_general : table }.

Section App.
  Variable F : Type.
  (* bp.Bicycle(value, pathToData=...).parameters *)
  Variable load : string -> res (dict (dict pval)).
  (* Bike._plot_bicycle_geometry_plotly(centerOfMass, inertiaEllipse) and
     Bike._plot_eigenvalues_vs_speed_plotly(speeds, stability_region) for a Bike
     with the given parameters *)
  Variable geometry : dict (dict cell) -> bool -> bool -> res F.
  Variable eigenvalues : dict (dict cell) -> list R -> bool -> res F.

  (* app.py 247-251 new_par *)
  Definition new_par (bike_name : string) : res (dict pval) :=
    ps <- load bike_name ;; p <- dlook ps "Benchmark" ;; Ok (pure p).

  (* app.py 261-325 populate_wheel_data *)
  Definition populate_wheel_data (value : string) : res tables :=
    p <- new_par value ;;
    let wheel := zip3 (labels WHEEL_LABELS) (column p "fW" (filter (fun i => Nat.ltb i 4) (range 0 8))) (column p "rW" (filter (fun i => negb (Nat.ltb i 4)) (range 0 8))) in
    let frame := zip3 (labels FRAME_LABELS) (column p "rB" (filter (fun i => Nat.ltb i 19) (range 12 (length par_list)))) (column p "fA" (filter (fun i => negb (Nat.ltb i 19)) (range 12 (length par_list)))) in
    let data := column p "data" (range 8 12) in
    radians <- match getc (nth 2 data []) "data" with CNum (PF x) => Ok x | _ => Err TypeError end ;;
    let data' := upd data 2 [("data", CNum (PF (IZR (pyint (rad2deg radians)))))] in
    Ok (mktables wheel frame (zip2 (labels GENERAL_LABELS) data')).

  (* rows[i].get(col) *)
  Definition row_get (t : table) (i : nat) (col : string) : res cell :=
    match nth_error t i with Some r => Ok (getc r col) | None => Err IndexError end.
  (* float(cell) *)
  Definition pyfloat (c : cell) : res R :=
    match c with CNum (PF x) => Ok x | CText s => pfloat s | _ => Err TypeError end.
  Definition bike_par (ps : dict (dict pval)) : dict (dict cell) :=
    map (fun kv => (fst kv, map (fun e => (fst e, CNum (snd e))) (snd kv))) ps.

  (* app.py 373-385: the alternating list newP, here as pairs *)
  Definition newP (tb : tables) : res (list (string * cell)) :=
    a <- mapM (fun p => c <- (if Nat.ltb p 4 then row_get (t_wheel tb) p "fW" else row_get (t_wheel tb) (p - 4) "rW") ;; Ok (nth_par p, c)) (range 0 8) ;;
    b <- mapM (fun p => c <- (if Nat.ltb p 19 then row_get (t_frame tb) (p - 12) "rB" else row_get (t_frame tb) (p - 19) "fA") ;; Ok (nth_par p, c)) (range 12 (length par_list)) ;;
    g <- mapM (fun p => c <- row_get (t_general tb) (p - 8) "data" ;; Ok (nth_par p, c)) (range 8 12) ;;
    Ok (a ++ b ++ g)%list.

  (* app.py 361-389: the parameters of the plotted Bike *)
  Definition plotted_parameters (trigger value : string) (tb : tables) : res (dict (dict cell)) :=
    ps <- load value ;;
    let Bike := bike_par ps in
    if String.eqb trigger "bike-dropdown.value" then Ok Bike
    else
      r <- match nth_error (t_general tb) 2 with Some r => Ok r | None => Err IndexError end ;;
      degrees <- pyfloat (getc r "data") ;;
      let r' := dset r "data" (CNum (PF (deg2rad degrees))) in
      let tb' := mktables (t_wheel tb) (t_frame tb) (upd (t_general tb) 2 r') in
      new <- newP tb' ;;
      b <- dlook Bike "Benchmark" ;;
      Ok (dset Bike "Benchmark" (fold_left (fun d e => dset d (fst e) (snd e)) new b)).

  (* app.py 355-358: the speeds of the eigenvalue plot *)
  Definition speeds (slider : list R) : res (list R) :=
    match slider with
    | minBound :: maxBound :: _ =>
        let num := pyint ((maxBound - minBound) / (1/10)) in
        if Z.ltb num 0 then Err (ValueError "Number of samples must be non-negative.") else Ok (linspace minBound maxBound (Z.to_nat num))
    | _ => Err IndexError
    end.

  (* app.py 331-399 plot_update: the figures by the component they are shown in;
     the order of the outputs is that of the decorator, lines 331-332, the order
     of the values that of the return statement, line 399 *)
  Definition plot_update (trigger value : string) (tb : tables) (options : list string) (slider : list R) : res (dict F) :=
    sp <- speeds slider ;;
    B <- plotted_parameters trigger value tb ;;
    geo_plot <- geometry B (smem "centers" options) (smem "ellipse" options) ;;
    eigen_plot <- eigenvalues B sp (smem "stability" options) ;;
    Ok [("geometry-plot", eigen_plot); ("eigen-plot", geo_plot)].

  (* A session in the browser.  Selecting a bicycle or the reset button runs
     populate_wheel_data (decorator, lines 256-260); every change of an input of
     plot_update runs it with that input as trigger. *)
  Inductive table_id := Wheel | Frame | General.
  Inductive event :=
  | Select (bike : string)
  | Reset
  | EditCell (t : table_id) (i : nat) (col : string) (c : cell)
  | Checklist (options : list string)
  | Slider (range : list R).
  Record session := mksession { se_bike : string; se_tables : tables; se_options : list string; se_slider : list R }.
  Definition the_table (tb : tables) (t : table_id) : table := match t with Wheel => t_wheel tb | Frame => t_frame tb | General => t_general tb end.
  Definition edit_table (t : table) (i : nat) (col : string) (c : cell) : table :=
    match nth_error t i with Some r => upd t i (dset r col c) | None => t end.
  Definition edit (tb : tables) (t : table_id) (i : nat) (col : string) (c : cell) : tables :=
    match t with
    | Wheel => mktables (edit_table (t_wheel tb) i col c) (t_frame tb) (t_general tb)
    | Frame => mktables (t_wheel tb) (edit_table (t_frame tb) i col c) (t_general tb)
    | General => mktables (t_wheel tb) (t_frame tb) (edit_table (t_general tb) i col c)
    end.
  Definition trigger_of (e : event) : string :=
    match e with
    | Select _ => "bike-dropdown.value"
    | Reset => "wheel-table.data"
    | EditCell Wheel _ _ _ => "wheel-table.data" | EditCell Frame _ _ _ => "frame-table.data" | EditCell General _ _ _ => "general-table.data"
    | Checklist _ => "geometry-checklist.value"
    | Slider _ => "range-slider.value"
    end.
  (* the session after the event *)
  Definition act (s : session) (e : event) : res session :=
    match e with
    | Select b => tb <- populate_wheel_data b ;; Ok (mksession b tb (se_options s) (se_slider s))
    | Reset => tb <- populate_wheel_data (se_bike s) ;; Ok (mksession (se_bike s) tb (se_options s) (se_slider s))
    | EditCell t i col c => Ok (mksession (se_bike s) (edit (se_tables s) t i col c) (se_options s) (se_slider s))
    | Checklist o => Ok (mksession (se_bike s) (se_tables s) o (se_slider s))
    | Slider r => Ok (mksession (se_bike s) (se_tables s) (se_options s) r)
    end.
  Fixpoint run (s : session) (es : list event) : res session :=
    match es with [] => Ok s | e :: es' => s' <- act s e ;; run s' es' end.
  (* the figures shown after the event e led to session s *)
  Definition show (s : session) (e : event) : res (dict F) := plot_update (trigger_of e) (se_bike s) (se_tables s) (se_options s) (se_slider s).
End App.
Arguments new_par load. Arguments populate_wheel_data load. Arguments plotted_parameters load.
