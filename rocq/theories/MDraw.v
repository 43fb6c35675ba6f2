(* MDraw.v -- model of the drawing methods of /repo/bicycleparameters/parameter_sets.py.
   An axes object is the list of what has been added to it, in order, and its
   state (y axis inverted, equal aspect).  A colour is identified by the body it
   belongs to, line styles and alpha are left out.  When a method raises, what it
   had already added to the axes is not modelled. *)
From Verif Require Import Base MString MBicycle MVec MInertia MSets MGeometry MRider.
Local Open Scope string_scope.
Local Open Scope R_scope.

Notation pt := (R * R)%type.
Inductive shape :=
| Hline (z : R)                                                 (* ax.axhline *)
| Circle (center : pt) (radius : R) (col : string)              (* patches.Circle *)
| Wedge (center : pt) (radius theta1 theta2 : R) (col : string) (* patches.Wedge, degrees *)
| Poly (pts : list pt) (col : string)                           (* ax.plot: straight lines between the points *)
| Ell (center : pt) (width height angle : R) (col : string)     (* patches.Ellipse: full width, full height, degrees *)
| Text (pos : pt) (s : string).                                 (* ax.text *)
Record axes := mkaxes { ax_shapes : list shape; ax_yinverted : bool; ax_equal : bool }.
(* fig, ax = plt.subplots(), used when ax is None *)
Definition new_axes : axes := mkaxes [] false false.
Definition add (ax : axes) (l : list shape) : axes := mkaxes (ax_shapes ax ++ l) (ax_yinverted ax) (ax_equal ax).

(* [parameter_sets.py:137-140] _invert_yaxis; ax.invert_yaxis() toggles *)
Definition invert_yaxis (ax : axes) : axes :=
  if negb (ax_yinverted ax) then mkaxes (ax_shapes ax) (negb (ax_yinverted ax)) (ax_equal ax) else ax.
(* [parameter_sets.py:142-147] _finalize_plot; autoscale and the labels are left out *)
Definition finalize_plot (ax : axes) : axes :=
  let ax := invert_yaxis ax in mkaxes (ax_shapes ax) (ax_yinverted ax) true.

(* class attribute body_labels [parameter_sets.py:317, 979, 1075, 1703, 1815] *)
Definition draw_labels (c : pclass) : list string :=
  match c with
  | CMeijaard2007 | CMeijaard2007WithFeedback => ["B"; "F"; "H"; "R"]
  | CMoore2019 => ["D"; "F"; "H"; "P"; "R"]
  | CMoore2012 => ["C"; "D"; "E"; "F"]
  | CMooreRiderLean2012 => ["C"; "D"; "E"; "F"; "G"]
  end.
(* self.body_colors[body] [parameter_sets.py:130-135]: one colour of the cycle per label *)
Definition body_color (c : pclass) (body : string) : res string :=
  if smem body (draw_labels c) then Ok body else Err (KeyError body).

(* [parameter_sets.py:24-39] _com_symbol *)
Definition com_symbol (ax : axes) (center : pt) (radius : R) (col : string) (label : option string) : axes :=
  let ax := add ax [Wedge center radius 0 90 col; Wedge center radius 180 270 col; Circle center radius "black"] in
  match label with
  | Some l => add ax [Text (fst center + radius, snd center + radius) l]
  | None => ax
  end.

(* [parameter_sets.py:42-69] _plot_geometry_from_benchmark *)
Definition plot_geometry_from_benchmark (ax : axes) (p : dict R) (show_steer_axis : bool) : res axes :=
  let ax := add ax [Hline 0] in
  rR <- dlook p "rR" ;;
  let ax := add ax [Circle (0, - rR) rR "black"] in
  w <- dlook p "w" ;; rF <- dlook p "rF" ;;
  let ax := add ax [Circle (w, - rF) rF "black"] in
  dee <- fundamental_geometry_plot_data p ;;
  let ax := add ax [Poly dee "black"] in
  if show_steer_axis then
    d1 <- index dee 1 ;; d2 <- index dee 2 ;;
    q <- rdiv (snd d2 * (fst d2 - fst d1)) (- snd d1 + snd d2) ;;
    let dx3 := fst d2 - q in
    Ok (add ax [Poly [d2; (dx3, 0)] "black"])
  else Ok ax.

(* methods of Meijaard2007, its feedback subclass and Moore2019 only *)
Definition can_draw (c : pclass) : bool :=
  match c with CMeijaard2007 | CMeijaard2007WithFeedback | CMoore2019 => true | _ => false end.
(* [parameter_sets.py:511-547, 1149-1185] plot_geometry *)
Definition plot_geometry (c : pclass) (p : dict R) (show_steer_axis : bool) (ax : axes) : res axes :=
  if can_draw c then
    ax <- plot_geometry_from_benchmark ax p show_steer_axis ;; Ok (finalize_plot ax)
  else Err AttributeError.

(* for b in bodies: ax = method(b, ax=ax) *)
Fixpoint each_body (method : string -> axes -> res axes) (bodies : list string) (ax : axes) : res axes :=
  match bodies with
  | [] => Ok ax
  | b :: bs => ax <- method b ax ;; each_body method bs ax
  end.
(* bodies=None stands for all body labels *)
Definition default_bodies (c : pclass) (bodies : option (list string)) : list string :=
  match bodies with Some l => l | None => draw_labels c end.

(* [parameter_sets.py:587-626, 1291-1331] plot_body_mass_center *)
Definition plot_body_mass_center (c : pclass) (p : dict R) (body : string) (ax : axes) : res axes :=
  if can_draw c then
    ext <- derived c p ;;
    let q := dupdate p ext in
    x <- dlook q ("x" ++ body) ;; z <- dlook q ("z" ++ body) ;; w <- dlook q "w" ;;
    radius <- (match c with CMoore2019 => lP <- dlook q "lP" ;; Ok (Rmax w lP / 30) | _ => Ok (w / 10) end) ;;
    col <- body_color c body ;;
    Ok (finalize_plot (com_symbol ax (x, z) radius col (Some body)))
  else Err AttributeError.
(* [parameter_sets.py:549-585, 1252-1289] plot_mass_centers *)
Definition plot_mass_centers (c : pclass) (p : dict R) (bodies : option (list string)) (ax : axes) : res axes :=
  if can_draw c then
    ax <- each_body (plot_body_mass_center c p) (default_bodies c bodies) ax ;; Ok (finalize_plot ax)
  else Err AttributeError.

(* np.arctan2 (signed zeros left out) *)
Definition npatan2 (y x : R) : R :=
  if Rltb 0 x then atan (y / x)
  else if Rltb x 0 then (if Rleb 0 y then atan (y / x) + PI else atan (y / x) - PI)
  else if Rltb 0 y then PI / 2 else if Rltb y 0 then - (PI / 2) else 0.

(* np.linalg.eig of a 2x2 array is an oracle: eigenvalues and the array whose
   columns are eigenvectors, all given by rows *)
Definition eig2_fun := pt * pt -> res (pt * (pt * pt)).

(* [parameter_sets.py:628-654] _planar_principal_radii_of_gyration: kmax, kmin, kyy
   and the angle to the axis of the maximum.  np.sqrt of a negative number and a
   division by a zero mass (nan and inf with a warning) count as failures. *)
Definition planar_principal_radii_of_gyration (eig2 : eig2_fun) (p : dict R) (body : string) : res (R * R * R * R) :=
  ext <- derived_benchmark p ;;
  let q := dupdate p ext in
  IH <- form_inertia_tensor p body ;;
  (* np.delete(np.delete(IH, 1, axis=1), 1, axis=0) *)
  let IH_xz_plane := ((vx (r1 IH), vz (r1 IH)), (vx (r3 IH), vz (r3 IH))) in
  e <- eig2 IH_xz_plane ;;
  let '((e0, e1), ((v00, v01), (v10, v11))) := e in
  (* idxs = np.argsort(evals) *)
  let sw := Rltb e1 e0 in
  let '(emin, emax) := if sw then (e1, e0) else (e0, e1) in
  let '(vmaxx, vmaxz) := if sw then (v00, v10) else (v01, v11) in
  let angle_to_max := npatan2 (- vmaxz) vmaxx in
  m <- dlook q ("m" ++ body) ;;
  a <- rdiv emin m ;; kmin <- npsqrt a ;;
  b <- rdiv emax m ;; kmax <- npsqrt b ;;
  Iyy <- dlook q ("I" ++ body ++ "yy") ;; y <- rdiv Iyy m ;; kyy <- npsqrt y ;;
  Ok (kmax, kmin, kyy, angle_to_max).

(* kaa, kbb, kyy, alpha of a body: computed for the benchmark sets [:687, :782],
   read from the parameters of Moore2019 [:1403-1406, :1463-1466] *)
Definition principal_radii (eig2 : eig2_fun) (c : pclass) (p : dict R) (body : string) : res (R * R * R * R) :=
  match c with
  | CMoore2019 =>
      ext <- derived_principal p ;;
      let q := dupdate p ext in
      kyy <- dlook q ("k" ++ body ++ "yy") ;; kaa <- dlook q ("k" ++ body ++ "aa") ;;
      kbb <- dlook q ("k" ++ body ++ "bb") ;; alpha <- dlook q ("alpha" ++ body) ;;
      Ok (kaa, kbb, kyy, alpha)
  | _ => planar_principal_radii_of_gyration eig2 p body
  end.

(* [parameter_sets.py:656-709, 1371-1430] plot_body_principal_radii_of_gyration *)
Definition plot_body_principal_radii_of_gyration (eig2 : eig2_fun) (c : pclass) (p : dict R) (body : string) (ax : axes) : res axes :=
  if can_draw c then
    ext <- derived c p ;;
    let q := dupdate p ext in
    x <- dlook q ("x" ++ body) ;; z <- dlook q ("z" ++ body) ;;
    k <- principal_radii eig2 c p body ;;
    let '(kaa, kbb, kyy, alpha) := k in
    col <- body_color c body ;;
    let ax := add ax [Circle (x, z) kyy col] in
    let ax := add ax [Poly [(x - kbb * cos (- alpha), z - kbb * sin (- alpha));
                            (x + kbb * cos (- alpha), z + kbb * sin (- alpha))] col] in
    let ax := add ax [Poly [(x - kaa * cos (- alpha - PI / 2), z - kaa * sin (- alpha - PI / 2));
                            (x + kaa * cos (- alpha - PI / 2), z + kaa * sin (- alpha - PI / 2))] col] in
    Ok (finalize_plot ax)
  else Err AttributeError.
(* [parameter_sets.py:711-747, 1333-1369] plot_principal_radii_of_gyration *)
Definition plot_principal_radii_of_gyration (eig2 : eig2_fun) (c : pclass) (p : dict R) (bodies : option (list string)) (ax : axes) : res axes :=
  if can_draw c then
    ax <- each_body (plot_body_principal_radii_of_gyration eig2 c p) (default_bodies c bodies) ax ;; Ok (finalize_plot ax)
  else Err AttributeError.

(* [parameter_sets.py:749-795, 1432-1480] plot_body_principal_inertia_ellipsoid *)
Definition plot_body_principal_inertia_ellipsoid (eig2 : eig2_fun) (c : pclass) (p : dict R) (body : string) (ax : axes) : res axes :=
  if can_draw c then
    ext <- derived c p ;;
    let q := dupdate p ext in
    k <- principal_radii eig2 c p body ;;
    let '(kaa, kbb, kyy, alpha) := k in
    width <- npsqrt (5 / 2 * (- kaa ^ 2 + kyy ^ 2 + kbb ^ 2)) ;;
    height <- npsqrt (5 / 2 * (kaa ^ 2 + kyy ^ 2 - kbb ^ 2)) ;;
    x <- dlook q ("x" ++ body) ;; z <- dlook q ("z" ++ body) ;;
    col <- body_color c body ;;
    (* angle=-np.rad2deg(alpha) *)
    Ok (finalize_plot (add ax [Ell (x, z) width height (- (alpha * 180 / PI)) col]))
  else Err AttributeError.
(* [parameter_sets.py:797-833, 1482-1518] plot_principal_inertia_ellipsoids *)
Definition plot_principal_inertia_ellipsoids (eig2 : eig2_fun) (c : pclass) (p : dict R) (bodies : option (list string)) (ax : axes) : res axes :=
  if can_draw c then
    ax <- each_body (plot_body_principal_inertia_ellipsoid eig2 c p) (default_bodies c bodies) ax ;; Ok (finalize_plot ax)
  else Err AttributeError.

(* [parameter_sets.py:1187-1250] plot_person_diamond (Moore2019 only) *)
Definition plot_person_diamond (c : pclass) (p : dict R) (show_cross : bool) (ax : axes) : res axes :=
  match c with
  | CMoore2019 =>
      wP <- dlook p "wP" ;; alphaP <- dlook p "alphaP" ;; lP <- dlook p "lP" ;;
      xP <- dlook p "xP" ;; zP <- dlook p "zP" ;;
      let cx := wP / 2 * cos (- alphaP) in let cz := wP / 2 * sin (- alphaP) in
      let lx := lP / 2 * cos (- alphaP + PI / 2) in let lz := lP / 2 * sin (- alphaP + PI / 2) in
      col <- body_color c "P" ;;
      let ax := add ax [Poly [(xP + cx, zP + cz); (xP + - lx, zP + - lz); (xP + - cx, zP + - cz); (xP + lx, zP + lz); (xP + cx, zP + cz)] col] in
      let ax := if show_cross
                then add ax [Poly [(xP - cx, zP - cz); (xP + cx, zP + cz)] "black"; Poly [(xP - lx, zP - lz); (xP + lx, zP + lz)] "black"]
                else ax in
      Ok (finalize_plot ax)
  | _ => Err AttributeError
  end.

(* [parameter_sets.py:835-865, 1520-1554] plot_all; only Moore2019 draws the person *)
Definition plot_all (eig2 : eig2_fun) (c : pclass) (p : dict R) (ax : axes) : res axes :=
  if can_draw c then
    ax <- plot_principal_radii_of_gyration eig2 c p None ax ;;
    ax <- plot_principal_inertia_ellipsoids eig2 c p None ax ;;
    ax <- (match c with CMoore2019 => plot_person_diamond c p false ax | _ => Ok ax end) ;;
    ax <- plot_geometry c p true ax ;;
    ax <- plot_mass_centers c p None ax ;;
    Ok (match c with CMoore2019 => finalize_plot ax | _ => ax end)
  else Err AttributeError.
