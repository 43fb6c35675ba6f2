(* MDraw2.v -- model of Bicycle.plot_bicycle_geometry and its plotly twin
   [/repo/bicycleparameters/main.py:496-1032].  The figure is the list of what is
   added to it, in order, in plot coordinates (x, -z), and the y limits.  A colour is
   identified by the part it belongs to; figure size, titles, line styles, opacity and
   the plotly layout are left out.  np.sqrt, np.arccos outside their domain and a
   division by zero (nan or inf with a warning) count as failures. *)
From Verif Require Import Base MString MBicycle MVec MInertia MGeometry MIo MRider MMain MPlot MSets MDraw.
Local Open Scope string_scope.
Local Open Scope R_scope.

(* what the figure reads of the Bicycle object: parameters['Benchmark'],
   parameters['Measured'], the extras attribute (slopes, intercepts,
   pendulumInertias) if set, hasRider, and the joint positions of self.human *)
Record human_pos := mkhp { K2_end : vec3; K2_pos : vec3; K1_pos : vec3; B1_pos : vec3; B2_pos : vec3; B2_end : vec3; C_end : vec3 }.
Record drawn_bike := mkdb {
  db_bench : dict mval; db_meas : dict mval;
  db_extras : option (dict (list scalar) * dict (list scalar) * dict (list scalar));
  db_hasRider : bool; db_human : option human_pos }.

(* par = io.remove_uncertainties(...) [main.py:524, 755]; a value that is not a number
   counts as a failure even if it is not read *)
Definition numbers_of (d : dict mval) : res (dict R) :=
  mapM (fun kv => x <- num_of (snd kv) ;; Ok (fst kv, x)) d.
(* io.remove_uncertainties on a dictionary of lists [io.py:102-116]: a plain float in a
   list is an AttributeError (MIo.remove_one, case MList) *)
Definition remove_lists (d : dict (list scalar)) : res (dict (list R)) :=
  mapM (fun kv => xs <- mapM nominal (snd kv) ;; Ok (fst kv, xs)) d.
(* the try block [main.py:527-533, 758-764]: None when pendulum was set to False *)
Definition read_pendulum (b : drawn_bike) : res (option (dict (list R) * dict (list R) * dict (list R))) :=
  match db_extras b with
  | None => Ok None
  | Some (s, i, p) =>
      match (s' <- remove_lists s ;; i' <- remove_lists i ;; p' <- remove_lists p ;; Ok (s', i', p')) with
      | Ok x => Ok (Some x)
      | Err AttributeError => Ok None
      | Err e => Err e
      end
  end.

(* partColors[part] [main.py:540-544, 769-774] *)
Definition part_color (parts : list string) (part : string) : res string :=
  if smem part parts then Ok part else Err (KeyError part).

(* np.delete of one row *)
Definition delete_nth {A} (k : nat) (l : list A) : list A := (firstn k l ++ skipn (S k) l)%list.
(* [main.py:557-561, 787-791]: the rows of C are compared with +y by the sum of the
   differences; yrow keeps its value of the previous part when no row matches *)
Definition find_yrow (rows : list vec3) (yrow : option nat) : option nat :=
  fold_left (fun y ir => let '(i, row) := ir in
      if Rltb (Rabs ((vx row - 0) + (vy row - 1) + (vz row - 0))) (1 / 10 ^ 10) then Some i else y)
    (combine (seq 0 (length rows)) rows) yrow.
Definition is_front_wheel (part : string) : bool := smem part ["F"; "D"].
(* [main.py:549-577, 779-807]: centre, width, height and angle (degrees) of the ellipse
   of one part *)
Definition inertia_ellipse (eig : mat3 -> res (vec3 * mat3)) (par : dict R) (part : string) (yrow : option nat)
  : res (option nat * (pt * R * R * R)) :=
  I <- part_inertia_tensor par part ;;
  axes <- principal_axes eig I ;;
  center <- (if String.eqb part "R" then rR <- dlook par "rR" ;; Ok (0, rR)
             else if is_front_wheel part then w <- dlook par "w" ;; rF <- dlook par "rF" ;; Ok (w, rF)
             else x <- dlook par ("x" ++ part) ;; z <- dlook par ("z" ++ part) ;; Ok (x, - z)) ;;
  let yrow := find_yrow (map snd axes) yrow in
  match yrow with
  | None => Err UnboundLocalError
  | Some k =>
      let rest := delete_nth k axes in
      r0 <- index rest 0 ;; r1 <- index rest 1 ;;
      let Imin := fst r0 in let Imax := fst r1 in
      smin <- npsqrt Imin ;; smax <- npsqrt Imax ;;
      uw <- rdiv (1 / 2) smin ;; uh <- rdiv (1 / 2) smax ;;
      let width := Imax * (uw * smin) in
      let height := Imax * (uh * smin) in
      a <- racos (vx (snd r0)) ;;
      Ok (yrow, (center, width, height, - (a * 180 / PI)))
  end.
Fixpoint inertia_ellipses (eig : mat3 -> res (vec3 * mat3)) (par : dict R) (all todo : list string) (yrow : option nat)
  : res (list (string * (pt * R * R * R))) :=
  match todo with
  | [] => Ok []
  | part :: rest =>
      e <- inertia_ellipse eig par part yrow ;; col <- part_color all part ;;
      es <- inertia_ellipses eig par all rest (fst e) ;; Ok ((col, snd e) :: es)
  end.

(* [main.py:583-602, 821-870]: ground, wheels, frame and steer axis *)
Definition bike_lines (par : dict R) : res (list pt * pt * R * R * list pt * list pt) :=
  rR <- dlook par "rR" ;; w <- dlook par "w" ;; rF <- dlook par "rF" ;;
  dee <- fundamental_geometry_plot_data par ;;
  d1 <- index dee 1 ;; d2 <- index dee 2 ;;
  q <- rdiv (snd d2 * (fst d2 - fst d1)) (snd d1 - snd d2) ;;
  let dx3 := fst d2 + q in
  Ok ([(- rR, 0); (w + rF, 0)], (0, rR), w, rF, map (fun p => (fst p, - snd p)) dee, [(fst d2, - snd d2); (dx3, 0)]).

(* [main.py:611-626, 892-907]: the two ends of one pendulum line *)
Definition pendulum_line (xcom zcom m b len : R) : list pt :=
  let xPoint := fst (project_point_on_line (m, b) (xcom, zcom)) in
  let xPlus := len / 2 * cos (atan m) in
  [(xPoint - xPlus, - m * (xPoint - xPlus) - b); (xPoint + xPlus, - m * (xPoint + xPlus) - b)].
Definition pendulum_part (par : dict R) (intercepts penInertias : dict (list R)) (part : string) (slopes : list R)
  : res (list (nat * list pt)) :=
  xcom <- dlook par ("x" ++ part) ;; zcom <- dlook par ("z" ++ part) ;;
  mapM (fun im => let '(i, m) := im in
      bs <- dlook intercepts part ;; b <- index bs i ;;
      ls <- dlook penInertias part ;; len <- index ls i ;;
      Ok (i, pendulum_line xcom zcom m b len)) (combine (seq 0 (length slopes)) slopes).
Definition pendulum_lines (par : dict R) (x : dict (list R) * dict (list R) * dict (list R)) : res (list (string * list (nat * list pt))) :=
  let '(slopes, intercepts, penInertias) := x in
  mapM (fun kv => l <- pendulum_part par intercepts penInertias (fst kv) (snd kv) ;; Ok (fst kv, l)) slopes.

(* the mass centres to mark [main.py:644-661, 971-1001]: part and place *)
Definition not_wheel (part : string) : bool := negb (smem part ["R"; "F"; "D"]).
Definition place (par : dict R) (part : string) : res pt :=
  x <- dlook par ("x" ++ part) ;; z <- dlook par ("z" ++ part) ;; Ok (x, - z).
Definition sRad : R := 3 / 100.
(* [main.py:629-640] com_symbol and the text beside it *)
Definition symbol (center : pt) (col label : string) : list shape :=
  [Wedge center sRad 0 90 col; Wedge center sRad 180 270 col; Circle center sRad "black"; Text (fst center + sRad, snd center + sRad) label].
(* [main.py:642-661] *)
Definition mass_symbols (par : dict R) (parts : list string) : res (list shape) :=
  w <- dlook par "w" ;; rF <- dlook par "rF" ;; cF <- part_color parts "F" ;;
  rR <- dlook par "rR" ;; cR <- part_color parts "R" ;;
  l <- mapM (fun part => o <- place par part ;; c <- part_color parts part ;; Ok (symbol o c part)) (filter not_wheel parts) ;;
  h <- (if smem "H" parts then Ok [] else o <- place par "H" ;; Ok (symbol o "b" "H")) ;;
  Ok (symbol (w, rF) cF "F" ++ symbol (0, rR) cR "R" ++ concat l ++ h)%list.

(* [main.py:663-700]: the stick figure and the height of the head *)
Definition stick (meas bench : dict mval) (a b : vec3) : res (list pt) :=
  s <- yeadon_vec_to_bicycle_vec a meas bench ;; e <- yeadon_vec_to_bicycle_vec b meas bench ;;
  Ok [(vx s, - vz s); (vx e, - vz e)].
Definition stick_figure (meas bench : dict mval) (h : human_pos) : res (list (list pt)) :=
  mapM (fun ab => stick meas bench (fst ab) (snd ab))
    [(K2_end h, K2_pos h); (K2_pos h, K1_pos h); (K1_pos h, B1_pos h); (B1_pos h, B2_pos h); (B2_pos h, B2_end h); (B1_pos h, C_end h)].

(* np.ceil *)
Definition npceil (x : R) : R := - IZR (Int_part (- x)).
Record gfigure := mkgf { gf_shapes : list shape; gf_ylim : R * R }.
(* [main.py:496-727] plot_bicycle_geometry *)
Definition plot_bicycle_geometry (eig : mat3 -> res (vec3 * mat3)) (b : drawn_bike) (pendulum centerOfMass inertiaEllipse : bool) : res gfigure :=
  nb <- remove_uncertainties (db_bench b) ;; par <- numbers_of nb ;;
  parts <- get_parts_in_parameters par ;;
  pen <- read_pendulum b ;;
  ells <- (if inertiaEllipse then inertia_ellipses eig par parts parts None else Ok []) ;;
  bl <- bike_lines par ;;
  let '(ground, rear, w, rF, frame, steer) := bl in
  pls <- (match pen with
          | Some x => if db_hasRider b then Ok [] else if pendulum then pendulum_lines par x else Ok []
          | None => Ok [] end) ;;
  pshapes <- mapM (fun kl => mapM (fun il => c <- part_color parts (fst kl) ;;
                       p0 <- index (snd il) 0 ;; Ok [Poly (snd il) c; Text p0 (nat_str (fst il + 1))]) (snd kl)) pls ;;
  coms <- (if centerOfMass then mass_symbols par parts else Ok []) ;;
  fig <- (match db_human b with Some h => stick_figure (db_meas b) (db_bench b) h | None => Ok [] end) ;;
  let top_of_head := match db_human b with Some _ => snd (last (last fig []) (0, 0)) | None => 0 end in
  let max_y := maxl [2 * snd rear; 2 * rF; maxl (map snd frame); top_of_head] in
  let min_y := fold_left Rmin (tl (map snd frame)) (hd 0 (map snd frame)) in
  let y_low := if Rleb 0 min_y then Rmin 0 min_y else - npceil (Rabs min_y) in
  Ok (mkgf
    (map (fun e => let '(col, (c, wd, ht, a)) := e in Ell c wd ht a col) ells ++
     [Poly ground "black"; Circle rear (snd rear) "black"; Circle (w, rF) rF "black"; Poly frame "black"; Poly steer "black"] ++
     concat (map (@concat shape) pshapes) ++ coms ++ map (fun l => Poly l "black") fig)%list
    (y_low, npceil max_y)).

(* plotly traces: name and points; annotations: text and position *)
Inductive trace := Trace (name : string) (pts : list pt) (col : string) | Note (s : string) (pos : pt).
(* [main.py:829-835] make_circle_legend and the arcs of com_symbol [main.py:911-930] *)
Definition arc (r : R) (center : pt) (t0 t1 : R) : list pt :=
  map (fun t => (r * cos t + fst center, r * sin t + snd center)) (linspace t0 t1 100).
(* [main.py:910-968] com_symbol *)
Definition plotly_symbol (c : pt) (col : string) : list trace :=
  let x := fst c in let y := snd c in
  [Trace "" [(x, y); (x + sRad, y)] col; Trace "" [(x, y); (x, y + sRad)] col; Trace "" (arc sRad c 0 (5/10 * PI)) col;
   Trace "" (arc sRad c (5/10 * PI) PI) col; Trace "" (arc sRad c PI (15/10 * PI)) col;
   Trace "" [(x - sRad, y); (x, y)] col; Trace "" [(x, y - sRad); (x, y)] col; Trace "" (arc sRad c (15/10 * PI) (2 * PI)) col;
   Trace "COM" [(x, y); (x, y)] col].
Definition note (s : string) (c : pt) : trace := Note s (fst c + 55/1000, snd c + 55/1000).
(* [main.py:970-1001]; unlike the other version the colour of H is looked up *)
Definition plotly_mass_symbols (par : dict R) (parts : list string) : res (list trace) :=
  w <- dlook par "w" ;; rF <- dlook par "rF" ;; cF <- part_color parts "F" ;;
  rR <- dlook par "rR" ;; cR <- part_color parts "R" ;;
  l <- mapM (fun part => o <- place par part ;; c <- part_color parts part ;; Ok (plotly_symbol o c ++ [note part o])%list) (filter not_wheel parts) ;;
  h <- (if smem "H" parts then Ok [] else o <- place par "H" ;; c <- part_color parts "H" ;; Ok (plotly_symbol o c ++ [note "H" o])%list) ;;
  Ok (plotly_symbol (w, rF) cF ++ [note "F" (w, rF)] ++ plotly_symbol (0, rR) cR ++ [note "R" (0, rR)] ++ concat l ++ h)%list.
(* [main.py:729-1032] _plot_bicycle_geometry_plotly (plotly installed); the eleven
   colours of the palette are not exhausted by the seven possible parts *)
Definition plot_bicycle_geometry_plotly (eig : mat3 -> res (vec3 * mat3)) (b : drawn_bike) (pendulum centerOfMass inertiaEllipse : bool) : res (list trace) :=
  nb <- remove_uncertainties (db_bench b) ;; par <- numbers_of nb ;;
  parts <- get_parts_in_parameters par ;;
  pen <- read_pendulum b ;;
  ells <- (if inertiaEllipse then inertia_ellipses eig par parts parts None else Ok []) ;;
  bl <- bike_lines par ;;
  let '(ground, rear, w, rF, frame, steer) := bl in
  pls <- (match pen with
          | Some x => if db_hasRider b then Ok [] else if pendulum then pendulum_lines par x else Ok []
          | None => Ok [] end) ;;
  coms <- (if centerOfMass then plotly_mass_symbols par parts else Ok []) ;;
  fig <- (match db_human b with
          | Some h =>
              l <- stick (db_meas b) (db_bench b) (K2_end h) (K2_pos h) ;;
              (* the upper leg is computed [main.py:1016-1018] and not drawn *)
              _u <- stick (db_meas b) (db_bench b) (K2_pos h) (K1_pos h) ;; Ok [Trace "" l ""]
          | None => Ok [] end) ;;
  Ok (map (fun e => let '(col, (c, wd, ht, a)) := e in
             (* cos and sin of an angle in degrees, height first [main.py:808-814] *)
             Trace ("Inertia of " ++ col)%string (generate_ellipse_plot_data (fst c) (snd c) (cos a, sin a) (- sin a, cos a) ht wd 100) col) ells ++
      [Trace "Ground" ground "lightgrey"; Trace "Rear wheel" (arc (snd rear) rear 0 (2 * PI)) "grey";
       Trace "Front wheel" (arc rF (w, rF) 0 (2 * PI)) "grey"; Trace "Bicycle" frame "black"; Trace "Steer axis" steer "dodgerblue"] ++
      map (fun l => Trace "Pendulum" l "") (concat (map (fun kl => map snd (snd kl)) pls)) ++ coms ++ fig)%list.
