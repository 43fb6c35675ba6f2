(* SPeriod2.v -- specification vocabulary for C67: measurement files and the estimation
   of periods *)
From Verif Require Import Base MString MIo SIo SPeriod MPeriod2.
From Coq Require Import ZArith Sorted.
Local Open Scope string_scope.
Local Open Scope R_scope.

(* MATLAB's own entries of a .mat file *)
Definition housekeeping : list string := ["__globals__"; "__header__"; "__version__"].
(* what is left of an entry; [None]: the entry is not there *)
Definition kept_entry (raw : dict matv) (k : string) : option matv :=
  if smem k housekeeping then None
  else if (String.eqb k "sampleRate" || String.eqb k "duration") && dmem raw "time" then None
  else match dget raw k with
       | Some (MvArr []) => if String.eqb k "notes" then Some (MvText "") else Some (MvArr [])
       | v => v
       end.

(* between positions i and i+1 the data cross the mean: read with the mask, from above
   0.1 to below -0.1 or back; read without it, the signs differ *)
Definition crossing (honours : bool) (dev : list R) (i : nat) : Prop :=
  exists x y, nth_error dev i = Some x /\ nth_error dev (S i) = Some y /\
    if honours then (x < - (1 / 10) /\ 1 / 10 < y) \/ (1 / 10 < x /\ y < - (1 / 10))
    else ~ (0 < x /\ 0 < y) /\ ~ (x < 0 /\ y < 0) /\ ~ (x = 0 /\ y = 0).
Definition all_crossings (honours : bool) (dev : list R) (zc : list nat) : Prop :=
  StronglySorted lt zc /\ forall i, In i zc <-> crossing honours dev i.
(* the crossing before the j-th one; before the first one comes, in Python, the last *)
Definition previous (zc : list nat) (j : nat) : nat := match j with O => last zc 0%nat | S j' => nth j' zc 0%nat end.
(* the crossings more than 20 samples away from the previous one *)
Definition spaced (zc zs : list nat) : Prop :=
  StronglySorted lt zs /\
  forall v, In v zs <-> exists j, nth_error zc j = Some v /\ (v > previous zc j + 20 \/ previous zc j > v + 20)%nat.
(* largest element *)
Definition largest (l : list R) (m : R) : Prop := In m l /\ forall x, In x l -> x <= m.

(* the guessed frequency: half a period per step between spaced crossings *)
Inductive guessed_frequency (rate : R) (zs : list nat) : R -> Prop :=
| gf_few : (length zs < 2)%nat -> guessed_frequency rate zs 4
| gf_many a b : (2 <= length zs)%nat -> rate <> 0 -> hd_error zs = Some a -> nth_error zs (length zs - 1) = Some b ->
    guessed_frequency rate zs (PI * rate * (INR (length zs) - 1) / (INR b - INR a))
| gf_rate : (2 <= length zs)%nat -> rate = 0 -> guessed_frequency rate zs 0.

(* the times of the samples *)
Inductive sample_times (n : nat) : matv -> list R -> R -> Prop :=
| st_rate z : z <> 0%Z -> sample_times n (MvInt z) (map (fun i => INR i / IZR z) (seq 0 n)) (IZR z)
| st_times l rate : (2 <= length l)%nat -> last l 0 <> hd 0 l ->
    (* the number of samples per unit of time, cut down to an integer *)
    (let r := (INR (length l) - 1) / (last l 0 - hd 0 l) in
     exists z, rate = IZR z /\ Rabs (r - IZR z) < 1 /\ Rabs (IZR z) <= Rabs r /\ 0 <= IZR z * r) ->
    sample_times n (MvArr l) l rate.

(* slope of the start: the eleventh sample against the first *)
Definition start_sign (dev : list R) (s : R) : Prop :=
  exists a b, nth_error dev 0 = Some a /\ nth_error dev 10 = Some b /\ ((a < b /\ s = 1) \/ (b <= a /\ s = -1)).
(* the starting point of the fit *)
Definition first_guess (honours : bool) (data : list R) (rate : R) (p : list R) : Prop :=
  exists zc zs m s w, all_crossings honours (deviations data) zc /\ spaced zc zs /\ largest (deviations data) m
    /\ start_sign (deviations data) s /\ guessed_frequency rate zs w
    /\ p = [average data; s * m / 2; s * m; 1 / 1000; w].

(* sum of squared deviations from a number, and of squared differences *)
Definition squares_about (m : R) (l : list R) : R := fold_right (fun y a => (y - m) * (y - m) + a) 0 l.
(* the differences between the oscillation and the measurements *)
Definition misfits (x y p : list R) : list R := map (fun ty => oscillation p (fst ty) - snd ty) (combine x y).
Definition squared_error (x y p : list R) : R := fold_right (fun e a => e * e + a) 0 (misfits x y p).
(* derivative of the damped period with respect to frequency and damping ratio *)
Definition damped_period (w z : R) : R := 2 * PI / (w * sqrt (1 - z * z)).

(* what the estimation uses, given the fitted parameters [a; b; c; z; w]: the variance of
   the measurements about the fit as the code computes it, and two diagonal entries of the
   inverse of the normal matrix *)
Definition fit_variance (x data p : list R) : R :=
  (squares_about (average data) data - squares_about (average data) (map (oscillation p) x)) / (INR (length data) - 5).
Inductive period_estimate (leastsq : (list R -> list R) -> list R -> res (list R)) (inv : list (list R) -> res (list (list R)))
    (honours : bool) (data : list R) (rt : matv) : R -> R -> Prop :=
| period_estimate_intro x rate p0 a b c z w H G vw vz :
    sample_times (length data) rt x rate -> length x = length data ->
    first_guess honours data rate p0 ->
    leastsq (misfits x data) p0 = Ok [a; b; c; z; w] -> z * z < 1 -> w <> 0 ->
    ~ (forall y, In y data -> y = average data) ->
    let p := [a; b; c; z; w] in
    0 <= fit_variance x data p ->
    (* G is the normal matrix: products of partial derivatives of the oscillation, summed
       over the times *)
    length G = 5%nat -> (forall row, In row G -> length row = 5%nat) ->
    (forall i j, (i < 5)%nat -> (j < 5)%nat -> exists di dj,
        (forall t, derivable_pt_lim (fun v => oscillation (firstn i p ++ v :: skipn (S i) p) t) (nth i p 0) (di t)) /\
        (forall t, derivable_pt_lim (fun v => oscillation (firstn j p ++ v :: skipn (S j) p) t) (nth j p 0) (dj t)) /\
        nth j (nth i G []) 0 = fold_right Rplus 0 (map (fun t => di t * dj t) x)) ->
    inv G = Ok H ->
    vw = fit_variance x data p * nth 4 (nth 4 H []) 0 -> 0 <= vw ->
    vz = fit_variance x data p * nth 3 (nth 3 H []) 0 -> 0 <= vz ->
    period_estimate leastsq inv honours data rt (damped_period w z)
      (* first order propagation of independent uncertainties *)
      (sqrt ((damped_period w z / w) ^ 2 * vw + (damped_period w z * z / (1 - z * z)) ^ 2 * vz)).
