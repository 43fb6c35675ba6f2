(* MPlot.v -- model of the computations of /repo/bicycleparameters/plot.py and
   of compare_bode_speeds in main.py.  A figure is the list of its phase
   curves; drawing is not modelled. *)
From Verif Require Import Base.
From Coq Require Import ZArith.

(* np.floor, np.ceil, np.sign *)
Definition npfloor (x : R) : R := IZR (up x - 1).
Definition npceil (x : R) : R := - npfloor (- x).
Definition npsign (x : R) : R := if Rltb x 0 then -1 else if Rltb 0 x then 1 else 0.
(* plot.py 43-46, main.py 1525-1528: one line of the figure *)
Definition align_phase (ydata : list R) : res (list R) :=
  match ydata with
  | [] => Err IndexError
  | firstValue :: _ =>
      let n := npceil (npfloor (Rabs (firstValue / 180)) / 2) in
      Ok (map (fun y => y - npsign firstValue * n * 360) ydata)
  end.
(* plot.py 36-48 compare_bode_bicycles, main.py 1517-1529 compare_bode_speeds:
   [old] are the phase curves already in the figure passed by the caller,
   [new] the ones plot_bode adds *)
Definition compare_bode (old new : list (list R)) : res (list (list R)) := mapM align_phase (old ++ new).

(* np.linspace(a, b, num) *)
Definition linspace (a b : R) (num : nat) : list R :=
  match num with
  | O => []
  | 1%nat => [a]
  | S n => map (fun i => a + INR i * ((b - a) / INR n)) (seq 0 num)
  end.
(* plot.py 102-118 _generate_ellipse_plot_data: the points (x, y) *)
Definition generate_ellipse_plot_data (x_center y_center : R) (ax1 ax2 : R * R) (a b : R) (N : nat) : list (R * R) :=
  map (fun t =>
      let xs := a * cos t in let ys := b * sin t in
      (fst ax1 * xs + fst ax2 * ys + x_center, snd ax1 * xs + snd ax2 * ys + y_center))
    (linspace 0 (2 * PI) N).
