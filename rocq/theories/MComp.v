(* MComp.v -- model of the lines of /repo/bicycleparameters/main.py:
   Bicycle.plot_eigenvalues_vs_speed with their colours, styles and labels, and of
   /repo/bicycleparameters/plot.py: plot_eigenvalues, the comparison of several
   bicycles in one figure.
   A figure is its first axes.  Line widths, fonts, limits, grids and showing the figure
   are not modelled; matplotlib's colour map is a parameter. *)
From Verif Require Import Base MString MHeap MBicycle MModels MModels2 MEig.
Local Open Scope string_scope.
Local Open Scope R_scope.

(* a matplotlib colour: a name or red, green, blue, alpha *)
Inductive colour := Named (s : string) | Rgba (r g b a : R).
(* one line: ax.plot(x, y, color, linestyle, label) *)
Record line := mkline { ln_pts : curve; ln_colour : colour; ln_style : string; ln_label : string }.
(* the axes: lines in drawing order, title, label of the y axis, has a legend been drawn *)
Record figure := mkfigure { fg_lines : list line; fg_title : string; fg_ylabel : string; fg_legend : bool }.
Definition blank : figure := mkfigure [] "" "" false.
(* Bicycle objects: bicycleName and parameters *)
Record named_bike := mknamed { nb_name : string; nb_par : par_sets }.

Definition newline : string := String (Ascii.ascii_of_nat 10) "".

(* [main.py:1201-1338] Bicycle.plot_eigenvalues_vs_speed.  fig = None makes a new figure;
   the curves are those of MEig.plot_eigenvalues, to which the x axis line is added.  The
   weave eigenvalues have two columns: one plot call draws two lines of the same look.
   (The second arm of each match cannot be reached: plot_eigenvalues returns one curve
   or eight.) *)
Definition eigenvalues_vs_speed (eig : marr -> res eigres) (b : named_bike) (speeds0 : list R) (fig : option figure)
    (generic : bool) (color : colour) (largest : bool) (linestyle : string) (show_legend : bool) : res figure :=
  let f := match fig with None => blank | Some f => f end in
  cs <- plot_eigenvalues eig (nb_par b) speeds0 largest ;;
  let generic := if largest then true else generic in
  let weaveColor := if generic then color else Named "blue" in
  let capsizeColor := if generic then color else Named "red" in
  let casterColor := if generic then color else Named "green" in
  let none := "_nolegend_" in
  let legend := if generic then [none; none; none; none; none; nb_name b]
                else ["Imaginary Weave"; "Imaginary Capsize"; "Imaginary Caster"; "Real Weave"; "Real Capsize"; "Real Caster"] in
  let maxLabel := if generic then nb_name b else "Max Eigenvalue" in
  let speeds := rsort speeds0 in
  let axis := mkline (curve_of speeds (map (fun _ => 0) speeds)) (Named "k") "-" none in
  let lg i := nth i legend "" in
  new <- (if largest then
            match cs with
            | [c] => Ok ([mkline c color linestyle maxLabel; axis], "Real Part of the Largest Eigenvalue [1/s]")
            | _ => Err IndexError
            end
          else
            match cs with
            | [iw1; iw2; ip; is_; rw1; rw2; rp; rs] =>
                Ok ([mkline iw1 weaveColor "--" (lg 0%nat); mkline iw2 weaveColor "--" (lg 0%nat);
                     mkline ip capsizeColor "--" (lg 1%nat); mkline is_ casterColor "--" (lg 2%nat);
                     axis;
                     mkline rw1 weaveColor "-" (lg 3%nat); mkline rw2 weaveColor "-" (lg 3%nat);
                     mkline rp capsizeColor "-" (lg 4%nat); mkline rs casterColor "-" (lg 5%nat)],
                    "Real and Imaginary Parts of the Eigenvalue [1/s]")
            | _ => Err IndexError
            end) ;;
  let '(ls, yl) := new in
  let title := if generic then "Eigenvalues vs Speed" else nb_name b ++ newline ++ "Eigenvalues vs Speed" in
  Ok (mkfigure (fg_lines f ++ ls)%list title yl (fg_legend f || (negb generic && show_legend))).

(* [plot.py:51-99] the loop over the bicycles from number i on *)
Fixpoint compare_loop (eig : marr -> res eigres) (speeds : list R) (largest : bool) (colors : list colour) (linestyles : list string)
    (i : nat) (fig : option figure) (bikes : list named_bike) : res (option figure) :=
  match bikes with
  | [] => Ok fig
  | b :: bikes' =>
      let fig := if Nat.eqb i 0 then None else fig in
      c <- index colors i ;;
      s <- index linestyles i ;;
      f <- eigenvalues_vs_speed eig b speeds fig true c largest s true ;;
      compare_loop eig speeds largest colors linestyles (S i)
        (Some (mkfigure (fg_lines f) (fg_title f) (fg_ylabel f) true)) bikes'
  end.
(* [plot.py:51-99] plot_eigenvalues(bikes, speeds, colors, linestyles, largest): None and
   [] are both false, so colors and linestyles are lists here; fig is unbound when there
   is no bicycle *)
Definition compare_eigenvalues (eig : marr -> res eigres) (cmap : R -> colour) (bikes : list named_bike) (speeds : list R)
    (colors : list colour) (linestyles : list string) (largest : bool) : res figure :=
  let n := length bikes in
  let colors := match colors with [] => map (fun i => cmap (INR i / INR n)) (seq 0 n) | _ => colors end in
  let linestyles := match linestyles with [] => repeat "-" n | _ => linestyles end in
  r <- compare_loop eig speeds largest colors linestyles 0 None bikes ;;
  match r with Some f => Ok f | None => Err UnboundLocalError end.

(* ax.legend(): the lines with a label that is not empty and does not start with an underscore *)
Definition in_legend (l : line) : bool := negb (String.eqb (ln_label l) "") && negb (starts_with "_" (ln_label l)).
Definition legend_of (f : figure) : list (string * colour * string) :=
  if fg_legend f then map (fun l => (ln_label l, ln_colour l, ln_style l)) (filter in_legend (fg_lines f)) else [].
