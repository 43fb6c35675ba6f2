(* MPeriod2.v -- model of reading pendulum measurement files and of the period
   estimation: /repo/bicycleparameters/io.py load_pendulum_mat_file and
   /repo/bicycleparameters/period.py make_guess, get_period,
   get_period_from_truncated, and their use in calc_periods_for_files.

   scipy.optimize.leastsq and numpy.linalg.inv are oracles.  A nan or inf in a result
   counts as a failure.  Plots and printing are left out. *)
From Verif Require Import Base MString MIo MPeriod.
From Coq Require Import ZArith.
Local Open Scope string_scope.
Local Open Scope R_scope.

(* ------------------------------------------------------------------ *)
(* Values loadmat gives with squeeze_me: a text, an int, a float, a 1-D array, an array
   of another shape, anything else. *)
Inductive matv := MvText (s : string) | MvInt (z : Z) | MvFloat (x : R) | MvArr (l : list R) | MvGrid | MvOther.
(* del d[k] *)
Definition ddel_key {V} (d : dict V) (k : string) : res (dict V) :=
  match dget d k with Some _ => Ok (ddel d k) | None => Err (KeyError k) end.
(* io.py 77-99 load_pendulum_mat_file after loadmat *)
Definition clean_mat (pend : dict matv) : res (dict matv) :=
  p <- ddel_key pend "__globals__" ;;
  p <- ddel_key p "__header__" ;;
  p <- ddel_key p "__version__" ;;
  notes <- dlook p "notes" ;;
  p <- match notes with
       | MvText _ => Ok p
       | MvArr [] => Ok (dset p "notes" (MvText ""))       (* shape == (0,) *)
       | MvArr _ | MvGrid => Ok p
       | MvInt _ | MvFloat _ | MvOther => Err AttributeError   (* no attribute shape *)
       end ;;
  Ok (if dmem p "time" then ddel (ddel p "sampleRate") "duration" else p).
(* the text entries, as read by get_period_key *)
Definition texts (mat : dict matv) : dict string :=
  flat_map (fun kv => match snd kv with MvText s => [(fst kv, s)] | _ => [] end) mat.

(* ------------------------------------------------------------------ *)
(* period.py 405-451 make_guess *)
(* ma.masked_inside(data, -0.1, 0.1) masks the values in the closed interval *)
Definition outside (x : R) : bool := Rltb x (- (1 / 10)) || Rltb (1 / 10) x.
(* np.where(np.diff(np.sign(dataMasked)))[0].  Whether np.where leaves out masked
   differences or looks at the numbers under the mask depends on numpy: both readings
   are modelled, [honours] = true for the former. *)
Fixpoint masked_crossings (honours : bool) (i : nat) (l : list R) : list nat :=
  match l with
  | x :: ((y :: _) as l') =>
      if (if honours then outside x && outside y else true) && negb (Z.eqb (sgn x) (sgn y))
      then i :: masked_crossings honours (S i) l' else masked_crossings honours (S i) l'
  | _ => []
  end.
(* lines 438-441: keep v when abs(v - zeroCrossings[i - 1]) > 20; index -1 is the last *)
Definition distance (a b : nat) : nat := (a - b) + (b - a).
Definition distant (zc : list nat) : list nat :=
  map fst (filter (fun vp => (20 <? distance (fst vp) (snd vp))%nat) (combine zc (last zc 0%nat :: removelast zc))).
(* np.diff of a list of integers, as floats *)
Definition gaps (l : list nat) : list R := map (fun ab => INR (snd ab) - INR (fst ab)) (combine l (tl l)).
Definition make_guess (honours : bool) (data : list R) (rate : R) : res (list R) :=
  let p0 := mean data in
  let data := map (fun x => x - p0) data in
  d10 <- match nth_error data 10 with Some x => Ok x | None => Err IndexError end ;;
  let slope := if Rltb (nth 0 data 0) d10 then 1 else -1 in
  '(_, biggest) <- argmax data ;;
  let zero := distant (masked_crossings honours 0 data) in
  let freq := match gaps zero with
              | [] => 4                                    (* the mean of nothing is nan *)
              | ds => if Req_EM_T rate 0 then 0            (* inf ** -1 *)
                      else / (2 * mean ds / rate / 2 / PI)
              end in
  Ok [p0; slope * biggest / 2; slope * biggest; 1 / 1000; freq].

(* ------------------------------------------------------------------ *)
(* numbers with an uncertainty that depend on the frequency and on the damping ratio:
   value and the two partial derivatives (uncertainties package) *)
Record unum := mkun { un : R; un_w : R; un_z : R }.
Definition un_square (a : unum) : unum := mkun (un a ^ 2) (2 * un a * un_w a) (2 * un a * un_z a).
Definition un_one_minus (a : unum) : unum := mkun (1 - un a) (- un_w a) (- un_z a).
Definition un_root (a : unum) : unum := mkun (sqrt (un a)) (un_w a / (2 * sqrt (un a))) (un_z a / (2 * sqrt (un a))).
Definition un_mul (a b : unum) : unum := mkun (un a * un b) (un_w a * un b + un a * un_w b) (un_z a * un b + un a * un_z b).
Definition un_div (a : unum) (c : R) : unum := mkun (un a / c) (un_w a / c) (un_z a / c).
Definition un_inv (a : unum) : unum := mkun (1 / un a) (- un_w a / (un a * un a)) (- un_z a / (un a * un a)).
Definition un_std (a : unum) (sw sz : R) : R := sqrt ((un_w a * sw) ^ 2 + (un_z a * sz) ^ 2).

(* int(x): towards zero *)
Definition trunc (x : R) : Z := (if Rltb x 0 then - (up (- x) - 1) else up x - 1)%Z.
(* np.diff *)
Definition np_diff (l : list R) : list R := map (fun ab => snd ab - fst ab) (combine l (tl l)).
(* a square root that is nan for a negative argument *)
Definition root (x : R) : res R := if Rltb x 0 then Err (OtherError "nan") else Ok (sqrt x).

Section Fit.
  (* leastsq(errfunc, p0, args=(x, y))[0], for the function p -> errfunc(p, x, y) *)
  Variable leastsq : (list R -> list R) -> list R -> res (list R).
  (* numpy.linalg.inv *)
  Variable inv : list (list R) -> res (list (list R)).
  Variable honours : bool.

  (* period.py 226-232: the times and the sample rate; x and y of different lengths fail in
     leastsq (numpy's broadcasting of a single time is left out) *)
  Definition times_and_rate (n : nat) (rt : matv) : res (list R * R) :=
    match rt with
    | MvInt z => if Z.eqb z 0 then Err ZeroDivisionError else Ok (time_vector n (IZR z), IZR z)
    | MvArr l =>
        match np_diff l with
        | [] => Err (ValueError "cannot convert float NaN to integer")
        | ds => if Req_EM_T (mean ds) 0 then Err (OtherError "OverflowError") else Ok (l, IZR (trunc (1 / mean ds)))
        end
    | MvFloat _ => Err (ValueError "diff requires input that is at least one dimensional")
    | MvText _ | MvGrid | MvOther => Err TypeError
    end.
  (* np.dot(L.T, L) for rows of five *)
  Definition gram (L : list (list R)) : list (list R) :=
    map (fun i => map (fun j => rsum (map (fun row => nth i row 0 * nth j row 0) L)) (seq 0 5)) (seq 0 5).
  (* period.py 207-287 get_period: nominal value and standard deviation *)
  Definition get_period (data : list R) (rt : matv) : res (R * R) :=
    '(x, rate) <- times_and_rate (length data) rt ;;
    p0 <- make_guess honours data rate ;;
    p1 <- (if (length x =? length data)%nat
           then leastsq (fun p => map (fun ty => fitfunc p (fst ty) - snd ty) (combine x data)) p0
           else Err (ValueError "operands could not be broadcast together")) ;;
    _ <- (if Rltb 0 (1 - par p1 3 ^ 2) then Ok tt else Err (OtherError "nan")) ;;
    let lscurve := map (fitfunc p1) x in
    '(rsq, SSE, SST, SSR) <- fit_goodness data lscurve ;;
    sigma <- root (SSE / (INR (length data) - INR (length p0))) ;;
    Hinv <- inv (gram (jac_fitfunc p1 x)) ;;
    sw <- root (sigma ^ 2 * nth 4 (nth 4 Hinv []) 0) ;;
    sz <- root (sigma ^ 2 * nth 3 (nth 3 Hinv []) 0) ;;
    let wo := mkun (par p1 4) 1 0 in
    let zeta := mkun (par p1 3) 0 1 in
    let wd := un_mul (un_root (un_one_minus (un_square zeta))) wo in
    let fd := un_div (un_div wd 2) PI in
    if Req_EM_T (un fd) 0 then Err ZeroDivisionError
    else let T := un_inv fd in Ok (un T, un_std T sw sz).

  (* period.py 290-302 get_period_from_truncated *)
  Definition get_period_from_truncated (data : list R) (rt : matv) : res (R * R) :=
    good <- match rt with MvArr _ | MvGrid => Ok data | _ => select_good_data data (1 / 10) end ;;
    get_period good rt.
  (* the entry 'data'; only 1-D arrays are modelled *)
  Definition data_entry (mat : dict matv) : res (list R) :=
    d <- dlook mat "data" ;; match d with MvArr l => Ok l | _ => Err TypeError end.
  (* period.py 105-114: the period of one loaded file *)
  Definition file_period (mat : dict matv) : res (R * R) :=
    match dget mat "time" with
    | Some t => d <- data_entry mat ;; get_period_from_truncated d t
    | None => rate <- get_sample_rate mat ;; d <- data_entry mat ;; get_period_from_truncated d rate
    end.
  (* period.py 68-130 calc_periods_for_files on the contents of the files; simplified: all
     files are read before the first period is computed *)
  Definition calc_periods_for_mat (split : bool) (raw : list (dict matv)) : res (dict perv) :=
    cs <- mapM clean_mat raw ;;
    calc_periods_for_files split (map (fun c => (texts c, file_period c)) cs).
End Fit.
