(* MModels2.v -- model of /repo/bicycleparameters/models.py: the rider lean model,
   eigenvalues, simulation and modal controllability.  numpy.linalg.eig and
   scipy.integrate.solve_ivp are parameters. *)
From Verif Require Import Base MString MHeap MBicycle MVec MInertia MGeometry MSets MModels.
Local Open Scope string_scope.
Local Open Scope R_scope.

Definition scalar_at (d : pdict) (k : string) : res R :=
  v <- dlook d k ;; match v with VNum x => Ok x | _ => Err TypeError end.

(* ---------------------------------------------------------------- rider lean *)
(* [_mooreriderlean2012.py:18-71] the local names eval_linear gives to the elements of
   its four array arguments, in order *)
Definition q_names : list string := ["q1"; "q2"; "q3"; "q4"; "q5"; "q6"; "q7"; "q8"; "q9"].
Definition u_names : list string := ["u4"; "u6"; "u7"; "u9"].
Definition r_names : list string := ["T4"; "T6"; "T7"; "T9"].
Definition p_names : list string :=
  ["c9"; "d1"; "d2"; "d3"; "d4"; "g"; "ic11"; "ic22"; "ic31"; "ic33"; "id11"; "id22"; "ie11"; "ie22"; "ie31"; "ie33";
   "if11"; "if22"; "ig11"; "ig22"; "ig31"; "ig33"; "k9"; "l1"; "l2"; "l3"; "l4"; "l5"; "l6"; "mc"; "md"; "me"; "mf"; "mg"; "rf"; "rr"].
(* [_mooreriderlean2012.py:6-11189] eval_linear.  The generated body after the
   unpacking is a function [body] of the named values; it fills A (13 x 13, states
   q1..q9, u4, u6, u7, u9) and B (13 x 4, inputs T4, T6, T7, T9).  C and D, which
   the caller drops, are in MLean.v.  A parameter array that is too short is an IndexError. *)
Definition eval_linear (body : (string -> R) -> res (marr * marr)) (q u r p : list R) : res (marr * marr) :=
  if (length p <? length p_names)%nat then Err IndexError
  else body (fun k => match dget (combine (q_names ++ u_names ++ r_names ++ p_names)%list (q ++ u ++ r ++ p)%list) k with Some x => x | None => 0 end).

(* [models.py:1399-1402] the indices kept: q5 and T6 are dropped *)
Definition a_idxs : list nat := [0; 1; 2; 3; 5; 6; 7; 8; 9; 10; 11; 12]%nat.
Definition b_idxs : list nat := [0; 2; 3]%nat.
(* M[rows][:, cols] *)
Definition select (M : marr) (rows cols : list nat) : res marr :=
  mapM (fun i => r <- index M i ;; mapM (index r) cols) rows.

(* [models.py:1420-1434, 1436-1451] one evaluation: the pitch angle q[4], the wheel rate u[1],
   the parameter array in the order of par_strings, the selected rows and columns.
   [pitch] is dtk.bicycle.pitch_from_roll_and_steer. *)
Definition rider_lean_matrices (pitch : R -> R -> R -> R -> R -> R -> R -> res R) (body : (string -> R) -> res (marr * marr))
    (d : pdict) (v : R) : res (marr * marr) :=
  rf <- scalar_at d "rf" ;; rr <- scalar_at d "rr" ;; d1 <- scalar_at d "d1" ;; d2 <- scalar_at d "d2" ;; d3 <- scalar_at d "d3" ;;
  q4 <- pitch 0 0 rf rr d1 d2 d3 ;;
  u1 <- rdiv (- v) rr ;;
  p <- mapM (scalar_at d) (filter (dmem d) (par_strings CMooreRiderLean2012)) ;;
  AB <- eval_linear body [0; 0; 0; 0; q4; 0; 0; 0; 0] [0; u1; 0; 0] [0; 0; 0; 0] p ;;
  A <- select (fst AB) a_idxs a_idxs ;;
  B <- select (snd AB) a_idxs b_idxs ;;
  Ok (A, B).

(* v = mutable_par.pop('v') *)
Definition without {V} (d : dict V) (k : string) : dict V := filter (fun e => negb (String.eqb (fst e) k)) d.
Definition hpop (r : nat) (k : string) : H pyval :=
  d <-- hload r ;;; v <-- lift (dlook d k) ;;; _ <-- hstore r (without d k) ;;; hret v.

(* [models.py:1292-1453] MooreRiderLean2012Model.form_state_space_matrices.  In the loop
   vi is v[i] if v is one of the array keys and v otherwise; the except TypeError branch
   is unreachable because the array keys hold arrays. *)
Definition form_state_space_matrices_rl pitch body (s : pset) (overrides : dict oval) : H (shaped (marr * marr)) :=
  pkl <-- parse_parameter_overrides s overrides ;;;
  match pkl with (par, array_keys, array_len) =>
    mutable_par <-- hcopy par ;;;
    v <-- hpop mutable_par "v" ;;;
    match array_keys with
    | [] =>
        vs <-- lift (match v with VNum x => Ok x | _ => Err TypeError end) ;;;
        d <-- hload mutable_par ;;;
        ab <-- lift (rider_lean_matrices pitch body d vs) ;;; hret (Single ab)
    | _ =>
        n <-- lift (match array_len with Some n => Ok n | None => Err TypeError end) ;;;
        rows <-- hmapM (fun i =>
            _ <-- hiter (fun key => if String.eqb key "v" then hret tt
                                    else (d <-- hload par ;;; x <-- lift (item d key i) ;;; hset mutable_par key (VNum x))) array_keys ;;;
            vi <-- lift (match v with VNum x => Ok x | VArr l => index l i | VObj _ => Err TypeError end) ;;;
            d <-- hload mutable_par ;;;
            lift (rider_lean_matrices pitch body d vi)) (seq 0 n) ;;;
        hret (Stack rows)
    end
  end.

(* the three linear models of models.py *)
Inductive lin_model :=
  | MMeijaard | MFeedback
  | MRiderLean (pitch : R -> R -> R -> R -> R -> R -> R -> res R) (body : (string -> R) -> res (marr * marr)).
(* the model's form_state_space_matrices [models.py:735, 1080, 1292] *)
Definition state_space (m : lin_model) (s : pset) : dict oval -> H (shaped (marr * marr)) :=
  match m with
  | MMeijaard => form_state_space_matrices s
  | MFeedback => form_state_space_matrices_fb s
  | MRiderLean pitch body => form_state_space_matrices_rl pitch body s
  end.

(* ---------------------------------------------------------------- eigenvalues *)
(* np.transpose of a square array *)
Definition transpose (M : marr) : marr := map (fun j => map (fun row => nth j row 0) M) (seq 0 (length M)).
(* eigenvalues and the rows of the matrix whose columns are the eigenvectors *)
Definition eigres := (list cplx * list (list cplx))%type.

(* [models.py:82-140] calc_eigen; [fss] is the model's form_state_space_matrices *)
Definition calc_eigen (eig : marr -> res eigres) (fss : dict oval -> H (shaped (marr * marr))) (left : bool)
    (overrides : dict oval) : H (shaped eigres) :=
  ab <-- fss overrides ;;;
  match ab with
  | Stack l => rows <-- lift (mapM (fun x : marr * marr => eig (if left then transpose (fst x) else fst x)) l) ;;; hret (Stack rows)
  | Single x => w <-- lift (eig (if left then transpose (fst x) else fst x)) ;;; hret (Single w)
  end.

(* ---------------------------------------------------------------- simulation *)
(* A @ x: the lengths must agree *)
Definition matvec (A : marr) (x : list R) : res (list R) :=
  mapM (fun row => if Nat.eqb (length row) (length x) then Ok (rsum (map (fun p => fst p * snd p) (combine row x)))
                   else Err (ValueError "matmul: mismatch in its core dimension")) A.
Definition vadd (x y : list R) : res (list R) :=
  if Nat.eqb (length x) (length y) then Ok (map (fun p => fst p + snd p) (combine x y))
  else Err (ValueError "operands could not be broadcast together").
(* column i of an array of rows *)
Definition column (M : marr) (i : nat) : res (list R) := mapM (fun row => index row i) M.
(* y.T *)
Definition ytimes (y : marr) : nat := length (hd [] y).
(* solve_ivp(rhs, (t0, tf), x0, t_eval).y: one row per state *)
Definition solver := (R -> list R -> res (list R)) -> R -> R -> list R -> list R -> res marr.

(* times[0], times[-1] *)
Definition time_span (times : list R) : res (R * R) :=
  match times with [] => Err IndexError | t0 :: _ => Ok (t0, last times t0) end.

(* [models.py:372-427] _Model.simulate.  Returns states (one row per time the solver
   reached) and inputs.  A result of input_func of the wrong length makes B @ u fail while
   solving, so the assignment of inputs[i, :] is not checked again. *)
Definition simulate (solve : solver) (s : pset) (fss : dict oval -> H (shaped (marr * marr))) (times x0 : list R)
    (input_func : option (R -> list R -> res (list R))) (overrides : dict oval) : H (marr * marr) :=
  pkl <-- parse_parameter_overrides s overrides ;;;
  match pkl with (_, arr_keys, _) =>
    match arr_keys with
    | _ :: _ => lift (Err (ValueError "Can only simulate with fixed parameters."))
    | [] =>
        ab <-- fss overrides ;;;
        AB <-- lift (match ab with Single x => Ok x | Stack _ => Err (ValueError "matmul") end) ;;;
        tt' <-- lift (time_span times) ;;;
        let rhs := match input_func with
                   | None => fun _ x => matvec (fst AB) x
                   | Some f => fun t x => a <- matvec (fst AB) x ;; u <- f t x ;; b <- matvec (snd AB) u ;; vadd a b
                   end in
        y <-- lift (solve rhs (fst tt') (snd tt') x0 times) ;;;
        states <-- lift (mapM (column y) (seq 0 (ytimes y))) ;;;
        inputs <-- lift (match input_func with
                         | None => Ok (repeat (repeat 0 (length (hd [] (snd AB)))) (length times))
                         | Some f => mapM (fun it => x <- column y (fst it) ;; f (snd it) x) (combine (seq 0 (length times)) times)
                         end) ;;;
        hret (states, inputs)
    end
  end.

(* [models.py:429-471] simulate_modes: one array of rows (one per time) per mode *)
Definition simulate_modes (solve : solver) (eig : marr -> res eigres) (s : pset) (fss : dict oval -> H (shaped (marr * marr)))
    (times : list R) (overrides : dict oval) : H (list marr) :=
  pkl <-- parse_parameter_overrides s overrides ;;;
  match pkl with (_, arr_keys, _) =>
    match arr_keys with
    | _ :: _ => lift (Err (ValueError "Can only simulate with fixed parameters."))
    | [] =>
        ab <-- fss overrides ;;;
        AB <-- lift (match ab with Single x => Ok x | Stack _ => Err (ValueError "matmul") end) ;;;
        ev <-- calc_eigen eig fss false overrides ;;;
        wv <-- lift (match ev with Single x => Ok x | Stack _ => Err (ValueError "shape") end) ;;;
        lift (mapM (fun j =>
                x0 <- mapM (fun row => z <- index row j ;; Ok (fst z)) (snd wv) ;;
                t <- time_span times ;;
                y <- solve (fun _ x => matvec (fst AB) x) (fst t) (snd t) x0 times ;;
                if Nat.eqb (ytimes y) (length times) then mapM (column y) (seq 0 (ytimes y))
                else Err (ValueError "could not broadcast input array")) (seq 0 (length (hd [] (snd wv)))))
    end
  end.

(* [models.py:1455-1464] MooreRiderLean2012Model.simulate.  initial_conditions[9] is
   assigned in the caller's own list, which is returned next to the result. *)
Definition simulate_rl (solve : solver) pitch body (s : pset) (times x0 : list R)
    (input_func : option (R -> list R -> res (list R))) (overrides : dict oval) : H (list R * res (marr * marr)) :=
  pkl <-- parse_parameter_overrides s overrides ;;;
  match pkl with (par, _, _) =>
    d <-- hload par ;;;
    v <-- lift (scalar_at d "v") ;;; rr <-- lift (scalar_at d "rr") ;;;
    w <-- lift (rdiv (- v) rr) ;;;
    _ <-- lift (index x0 9) ;;;
    let x0' := upd x0 9 w in
    fun h => match simulate solve s (form_state_space_matrices_rl pitch body s) times x0' input_func overrides h with
             | (h', r) => (h', Ok (x0', r)) end
  end.

(* ---------------------------------------------------------------- modal controllability *)
Definition rdotl (x y : list R) : R := rsum (map (fun p => fst p * snd p) (combine x y)).
(* Re(vdot(q, b)) for a real b; the norms *)
Definition re_vdot (q : list cplx) (b : list R) : R := rdotl (map fst q) b.
Definition cnorm (q : list cplx) : R := sqrt (rsum (map (fun z => fst z * fst z + snd z * snd z) q)).
Definition rnorm (b : list R) : R := sqrt (rdotl b b).
(* [models.py:900-937] mod_cont.  Where numpy gives nan (0/0, or arccos outside [-1, 1]) the
   model has an error. *)
Definition mod_cont (acute : bool) (q : list cplx) (b : list R) : res R :=
  c <- rdiv (re_vdot q b) (cnorm q * rnorm b) ;;
  racos (if acute then Rabs c else c).
(* [models.py:830-950] _calc_modal_controllability.  sort_eigenmodes iterates over the
   rows of evals, so without array valued parameters (evals of shape (4,)) enumerating a
   scalar is a TypeError.  Eigenvectors are passed as columns. *)
Definition columns_of (V : list (list cplx)) : list (list cplx) :=
  map (fun j => map (fun row => nth j row (0, 0)) V) (seq 0 (length V)).
Definition bcolumns (B : marr) : list (list R) := map (fun j => map (fun row => nth j row 0) B) (seq 0 (length (hd [] B))).
Definition modal_controllability (eig : marr -> res eigres) (fss : dict oval -> H (shaped (marr * marr))) (acute : bool)
    (overrides : dict oval) : H (list marr) :=
  ab <-- fss overrides ;;;
  ev <-- calc_eigen eig fss true overrides ;;;
  match ab, ev with
  | Stack abs, Stack evs =>
      sorted <-- lift (sort_eigenmodes (map (fun e : eigres => (fst e, columns_of (snd e))) evs)) ;;;
      lift (mapM (fun be => mapM (fun q => mapM (mod_cont acute q) (bcolumns (snd (fst be)))) (snd (snd be))) (combine abs sorted))
  | _, _ => lift (Err TypeError)
  end.
