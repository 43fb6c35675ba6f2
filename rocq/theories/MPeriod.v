(* MPeriod.v -- model of bicycleparameters/period.py; make_guess and get_period are in
   MPeriod2.v.

   Idealised reals for floats.  Plotting and file names of plots are not modelled; here
   the period found for one file is an input of calc_periods_for_files. *)
From Verif Require Import Base MString MIo.
Local Open Scope string_scope.
Local Open Scope R_scope.

(* ------------------------------------------------------------------ *)
(* c.lower() for one character *)
Definition lower_char (c : ascii) : ascii :=
  if is_upper c then ascii_of_nat (nat_of_ascii c + 32) else c.

(* period.py 309-361 get_period_key; matData restricted to its text entries *)
Definition get_period_key (mat : dict string) (split : bool) : res string :=
  let sub := [("Fwheel", "F"); ("Rwheel", "R"); ("Frame", "B"); ("Flywheel", "D")] in
  let sub := if split then dset (dset sub "Fork" "S") "Handlebar" "G" else dset sub "Fork" "H" in
  let sub := match dget mat "rod" with Some r => dset sub r "P" | None => dset sub "Rod" "P" end in
  let ordinal := [("First", "1"); ("Second", "2"); ("Third", "3"); ("Fourth", "4"); ("Fifth", "5"); ("Sixth", "6")] in
  word <- match dget mat "angleOrder" with Some w => Ok w | None => dlook mat "angle" end ;;
  pendulum <- dlook mat "pendulum" ;;
  pend <- match pendulum with String c _ => Ok (String (lower_char c) "") | "" => Err IndexError end ;;
  part <- dlook mat "part" ;;
  letter <- dlook sub part ;;
  num <- dlook ordinal word ;;
  Ok ("T" ++ pend ++ letter ++ num)%string.

(* period.py 364-370 get_sample_rate *)
Definition get_sample_rate {V} (mat : dict V) : res V :=
  match dget mat "ActualRate" with Some r => Ok r | None => dlook mat "sampleRate" end.

(* period.py 68-130 calc_periods_for_files: every file is its text entries and
   the period (nominal, std) that get_period_from_truncated returns for it *)
Fixpoint collect_periods (split : bool) (acc : dict (list (R * R))) (files : list (dict string * res (R * R)))
  : res (dict (list (R * R))) :=
  match files with
  | [] => Ok acc
  | (mat, per) :: files' =>
      k <- get_period_key mat split ;;
      p <- per ;;
      let acc' := match dget acc k with
                  | Some l => dset acc k (l ++ [p])%list
                  | None => dset acc k [p]
                  end in
      collect_periods split acc' files'
  end.
Inductive perv := PerMean (v : pval) | PerList (l : list (R * R)).
Definition calc_periods_for_files (split : bool) (files : list (dict string * res (R * R))) : res (dict perv) :=
  acc <- collect_periods split [] files ;;
  Ok (map (fun kl => (fst kl, if starts_with "T" (fst kl) then PerMean (umean (snd kl)) else PerList (snd kl))) acc).

(* period.py 133-174 check_for_period; key[:2] *)
Fixpoint stake (n : nat) (s : string) : string :=
  match n, s with O, _ => "" | _, "" => "" | S n', String c s' => String c (stake n' s') end.
Fixpoint count_periods (keys : list string) (nc nt : nat) : nat * nat :=
  match keys with
  | [] => (nc, nt)
  | k :: keys' =>
      if String.eqb (stake 2 k) "Tc" then count_periods keys' (S nc) nt
      else if String.eqb (stake 2 k) "Tt" then count_periods keys' nc (S nt)
      else count_periods keys' nc nt
  end.
Definition check_for_period {V} (mp : dict V) (split : bool) : bool :=
  let '(nc, nt) := count_periods (dkeys mp) 0 0 in
  (if split then (nc <? 5) || (nt <? 11) else (nc <? 4) || (nt <? 8))%nat.

(* ------------------------------------------------------------------ *)
(* period.py 177-204 fit_goodness: (rsq, SSE, SST, SSR).  A zero SST gives nan or
   inf in numpy; here it is an error. *)
Definition fit_goodness (ym yp : list R) : res (R * R * R * R) :=
  let m := mean ym in
  let SSR := rsum (map (fun y => Rsqr (y - m)) yp) in
  let SST := rsum (map (fun y => Rsqr (y - m)) ym) in
  let SSE := SST - SSR in
  rsq <- rdiv SSR SST ;;
  Ok (rsq, SSE, SST, SSR).

(* period.py 235-241 fitfunc (inside get_period) at one time *)
Definition par (p : list R) (i : nat) : R := nth i p 0.
Definition fitfunc (p : list R) (t : R) : R :=
  let a := par p 0 in
  let b := exp (- par p 3 * par p 4 * t) in
  let c := par p 1 * sin (par p 4 * sqrt (1 - par p 3 ^ 2) * t) in
  let d := par p 2 * cos (par p 4 * sqrt (1 - par p 3 ^ 2) * t) in
  a + b * (c + d).
(* period.py 373-402 jac_fitfunc: one row of jac.T per time *)
Definition jac_row (p : list R) (t : R) : list R :=
  let e := exp (- par p 3 * par p 4 * t) in
  let dampsq := sqrt (1 - par p 3 ^ 2) in
  let s := sin (dampsq * par p 4 * t) in
  let c := cos (dampsq * par p 4 * t) in
  [1; e * s; e * c;
   - par p 4 * t * e * (par p 1 * s + par p 2 * c)
     + e * (- par p 1 * par p 3 * par p 4 * t / dampsq * c + par p 2 * par p 3 * par p 4 * t / dampsq * s);
   - par p 3 * t * e * (par p 1 * s + par p 2 * c) + e * dampsq * t * (par p 1 * c - par p 2 * s)].
Definition jac_fitfunc (p : list R) (ts : list R) : list (list R) := map (jac_row p) ts.
(* period.py 270-279: the nominal value of the returned period *)
Definition period_of_fit (p : list R) : R :=
  let wd := sqrt (1 - par p 3 ^ 2) * par p 4 in
  let fd := wd / 2 / PI in
  1 / fd.
(* period.py 228-229: time vector for a sample rate: np.linspace(0, (n-1)/rate, n) *)
Definition time_vector (n : nat) (rate : R) : list R := map (fun i => INR i / rate) (seq 0 n).

(* ------------------------------------------------------------------ *)
(* np.argmax / np.argmin: first position of the largest / smallest *)
Fixpoint argbest (better : R -> R -> bool) (i best : nat) (v : R) (l : list R) : nat * R :=
  match l with
  | [] => (best, v)
  | x :: l' => if better x v then argbest better (S i) i x l' else argbest better (S i) best v l'
  end.
Definition argmax (l : list R) : res (nat * R) :=
  match l with [] => Err (ValueError "empty sequence") | x :: l' => Ok (argbest (fun a b => Rltb b a) 1 0 x l') end.
Definition argmin (l : list R) : res (nat * R) :=
  match l with [] => Err (ValueError "empty sequence") | x :: l' => Ok (argbest Rltb 1 0 x l') end.
(* data[a:b] for non-negative a, b *)
Definition slice {A} (l : list A) (a b : nat) : list A := firstn (b - a) (skipn a l).
(* the last index whose element satisfies f, scanning backwards *)
Fixpoint last_index (f : R -> bool) (l : list R) : option nat :=
  match l with
  | [] => None
  | x :: l' => match last_index f l' with
               | Some i => Some (S i)
               | None => if f x then Some O else None
               end
  end.

(* period.py 501-524 select_good_data *)
Definition select_good_data (data : list R) (percent : R) : res (list R) :=
  let meanSub := map (fun x => x - mean data) data in
  '(maxInd, maxVal) <- argmax (map Rabs meanSub) ;;
  match last_index (fun v => Rltb (percent * maxVal) v) meanSub with
  | Some minInd => Ok (slice data maxInd minInd)
  | None => Err UnboundLocalError
  end.

(* period.py 16-65 average_rectified_sections *)
Definition sgn (x : R) : Z := if Rlt_dec 0 x then 1%Z else if Rlt_dec x 0 then (-1)%Z else 0%Z.
(* np.where(np.diff(np.sign(l)))[0] *)
Fixpoint crossings_from (i : nat) (l : list R) : list nat :=
  match l with
  | x :: ((y :: _) as l') => if Z.eqb (sgn x) (sgn y) then crossings_from (S i) l' else i :: crossings_from (S i) l'
  | _ => []
  end.
(* np.split(l, idx): the pieces between 0, idx..., end *)
Fixpoint split_at {A} (l : list A) (from : nat) (idx : list nat) : list (list A) :=
  match idx with
  | [] => [skipn from l]
  | z :: idx' => slice l from z :: split_at l z idx'
  end.
Definition average_rectified_sections (data : list R) : res (list R) :=
  let meanSub := map (fun x => x - mean data) data in
  let zc := crossings_from 0 meanSub in
  let secs := split_at (map Rabs meanSub) 0 zc in
  loc <- mapM (fun sec => '(i, _) <- argmax sec ;; Ok (i, mean sec)) secs ;;
  let meanInd := map (fun cl => (fst cl + fst (snd cl))%nat) (combine (0%nat :: zc) loc) in
  let secMean := map snd loc in
  let threshold := mean secMean in
  let over := filter (fun vi => Rltb threshold (fst vi)) (combine secMean meanInd) in
  '(imax, _) <- argmax (map fst over) ;;
  '(imin, _) <- argmin (map fst over) ;;
  let indice := map snd over in
  Ok (slice data (nth imax indice 0%nat) (nth imin indice 0%nat)).
