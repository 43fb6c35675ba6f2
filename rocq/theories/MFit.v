(* MFit.v -- model of the figures the period estimation leaves behind,
   /repo/bicycleparameters/period.py plot_osfit, and of calc_periods_for_files with its
   effects on the file system.

   scipy.optimize.leastsq, numpy.linalg.inv, loadmat, str() of an uncertain number and the
   rendering of a figure as a file are parameters.  matplotlib's current axes are those
   of the figure last created; printing and marker sizes are left out. *)
From Verif Require Import Base MString MIo MPeriod MTable MPeriod2 MState.
From Coq Require Import ZArith.
Local Open Scope string_scope.
Local Open Scope R_scope.

(* one line of a figure: its points and the format given to plot *)
Record fitline := mkfl { fl_pts : list (R * R); fl_fmt : string }.
(* legend: the names given to the lines, in the order of the lines *)
Record fitfig := mkff { ff_lines : list fitline; ff_xlabel : string; ff_ylabel : string; ff_title : string;
                        ff_legend : list (string * fitline); ff_xlim : option (R * R) }.
(* plt.subplots() *)
Definition empty_fig : fitfig := mkff [] "" "" "" [] None.
(* ax.plot(x, y, fmt) *)
Definition draw (f : fitfig) (x y : list R) (fmt : string) : res fitfig :=
  if Nat.eqb (length x) (length y)
  then Ok (mkff (ff_lines f ++ [mkfl (combine x y) fmt]) (ff_xlabel f) (ff_ylabel f) (ff_title f) (ff_legend f) (ff_xlim f))
  else Err (ValueError "x and y must have same first dimension").

Section Plot.
  (* str(T) for a number with an uncertainty *)
  Variable ustr : R * R -> string.
  (* period.py 483-489: the title *)
  Definition fit_title (p : list R) (rsq : R) (T : R * R) : string :=
    "$f(t)=" ++ fmt_fixed 2 (par p 0) ++ "+e^{-(" ++ fmt_fixed 3 (par p 3) ++ ")(" ++ fmt_fixed 1 (par p 4) ++ ")t}\left["
    ++ fmt_fixed 2 (par p 1) ++ "\sin{\sqrt{1-" ++ fmt_fixed 3 (par p 3) ++ "^2}" ++ fmt_fixed 1 (par p 4) ++ "t}+"
    ++ fmt_fixed 2 (par p 2) ++ "\cos{\sqrt{1-" ++ fmt_fixed 3 (par p 3) ++ "^2}" ++ fmt_fixed 1 (par p 4) ++ "t}\right]$"
    ++ String NL ("$r^2=" ++ fmt_fixed 3 rsq ++ "$, $T=" ++ ustr T ++ " s$").
  (* period.py 454-498 plot_osfit; fig=None opens a new figure *)
  Definition plot_osfit (t ym yf p : list R) (rsq : R) (T : R * R) (m : option R) (fig : option fitfig) : res fitfig :=
    let f := match fig with Some f => f | None => empty_fig end in
    f <- draw f t ym "." ;;
    f <- draw f t yf "k-" ;;
    Ok (mkff (ff_lines f) "Time [s]" "Amplitude [V]" (fit_title p rsq T) (combine ["Measured"; "Fit"] (ff_lines f))
             (match m with Some m => Some (0, m) | None => ff_xlim f end)).

  Variable leastsq : (list R -> list R) -> list R -> res (list R).
  Variable inv : list (list R) -> res (list (list R)).
  Variable honours : bool.
  (* period.py 207-287 get_period with the figure that is saved (lines 281-284) *)
  Definition get_period_fig (data : list R) (rt : matv) : res (fitfig * (R * R)) :=
    '(x, rate) <- times_and_rate (length data) rt ;;
    p0 <- make_guess honours data rate ;;
    p1 <- (if (length x =? length data)%nat
           then leastsq (fun p => map (fun ty => fitfunc p (fst ty) - snd ty) (combine x data)) p0
           else Err (ValueError "operands could not be broadcast together")) ;;
    _ <- (if Rltb 0 (1 - par p1 3 ^ 2) then Ok tt else Err (OtherError "nan")) ;;
    let lscurve := map (fitfunc p1) x in
    '(rsq, SSE, SST, SSR) <- fit_goodness data lscurve ;;
    sigma <- root (SSE / (INR (length data) - INR (length p0))) ;;
    Hinv <- inv (gram (jac_fitfunc p1 x)) ;;
    sw <- root (sigma ^ 2 * nth 4 (nth 4 Hinv []) 0) ;;
    sz <- root (sigma ^ 2 * nth 3 (nth 3 Hinv []) 0) ;;
    let wo := mkun (par p1 4) 1 0 in
    let zeta := mkun (par p1 3) 0 1 in
    let wd := un_mul (un_root (un_one_minus (un_square zeta))) wo in
    let fd := un_div (un_div wd 2) PI in
    if Req_EM_T (un fd) 0 then Err ZeroDivisionError
    else
      let T := (un (un_inv fd), un_std (un_inv fd) sw sz) in
      '(_, m) <- argmax x ;;
      fig <- plot_osfit x data lscurve p1 rsq T (Some m) (Some empty_fig) ;;
      Ok (fig, T).
  (* period.py 290-302 get_period_from_truncated *)
  Definition get_period_from_truncated_fig (data : list R) (rt : matv) : res (fitfig * (R * R)) :=
    good <- match rt with MvArr _ | MvGrid => Ok data | _ => select_good_data data (1 / 10) end ;;
    get_period_fig good rt.
  (* period.py 103-114: figure and period of one loaded file *)
  Definition file_period_fig (mat : dict matv) : res (fitfig * (R * R)) :=
    match dget mat "time" with
    | Some t => d <- data_entry mat ;; get_period_from_truncated_fig d t
    | None => rate <- get_sample_rate mat ;; d <- data_entry mat ;; get_period_from_truncated_fig d rate
    end.

  (* scipy.io.loadmat(path, squeeze_me=True) on the content of the file *)
  Variable loadmat : string -> res (dict matv).
  (* the content of the file fig.savefig writes *)
  Variable render : fitfig -> string.

  (* period.py 86-88: os.sep.join(directory.split(os.sep)[:-1]) / Plots / PendulumFit *)
  Definition plot_dir (directory : string) : string :=
    os_join (os_join (String.concat "/" (removelast (split_on "/" directory))) "Plots") "PendulumFit".
  (* period.py 101-102: the name of the figure of the file f *)
  Definition plot_file (directory f : string) : string := os_join (plot_dir directory) (splitext0 f ++ ".png").

  (* fig.savefig(path) into the directory d *)
  Definition savefig (fs : fsys) (d path : string) (fig : fitfig) : res fsys :=
    if isdir fs d then open_w fs path (render fig) else Err IOError.

  (* period.py 93-124: the loop over the files.  Figures written before an error stay. *)
  Fixpoint fit_files (fs : fsys) (directory : string) (split : bool) (acc : dict (list (R * R))) (filenames : list string)
    : res (dict (list (R * R))) * fsys :=
    match filenames with
    | [] => (Ok acc, fs)
    | f :: rest =>
        match (t <- open_r fs (os_join directory f) ;; raw <- loadmat t ;; mat <- clean_mat raw ;;
               k <- get_period_key (texts mat) split ;;
               figT <- file_period_fig mat ;;
               fs' <- savefig fs (plot_dir directory) (plot_file directory f) (fst figT) ;;
               Ok (k, snd figT, fs')) with
        | Err e => (Err e, fs)
        | Ok (k, T, fs') =>
            let acc' := match dget acc k with Some l => dset acc k (l ++ [T])%list | None => dset acc k [T] end in
            fit_files fs' directory split acc' rest
        end
    end.
  (* period.py 68-130 calc_periods_for_files: periods and the file system afterwards *)
  Definition calc_periods_fig (fs : fsys) (directory : string) (filenames : list string) (split : bool) : res (dict perv) * fsys :=
    match (if path_exists fs (plot_dir directory) then Ok fs else makedirs fs (plot_dir directory)) with
    | Err e => (Err e, fs)
    | Ok fs0 =>
        match fit_files fs0 directory split [] filenames with
        | (Err e, fs1) => (Err e, fs1)
        | (Ok acc, fs1) =>
            (Ok (map (fun kl => (fst kl, if starts_with "T" (fst kl) then PerMean (umean (snd kl)) else PerList (snd kl))) acc), fs1)
        end
    end.
End Plot.
