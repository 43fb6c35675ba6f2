(* SModels2.v -- specification vocabulary for the rider lean model, eigenvalues,
   simulation and modal controllability *)
From Verif Require Import Base MString MHeap MBicycle MVec MInertia MSets MModels MModels2 SModels.
Local Open Scope string_scope.
Local Open Scope R_scope.

(* ---- rider lean model ---- *)
Definition full_states : list string := ["q1"; "q2"; "q3"; "q4"; "q5"; "q6"; "q7"; "q8"; "q9"; "u4"; "u6"; "u7"; "u9"].
Definition full_inputs : list string := ["T4"; "T6"; "T7"; "T9"].
(* [models.py:1272-1273] the states and inputs the class documents *)
Definition lean_states : list string := ["q1"; "q2"; "q3"; "q4"; "q6"; "q7"; "q8"; "q9"; "u4"; "u6"; "u7"; "u9"].
Definition lean_inputs : list string := ["T4"; "T7"; "T9"].
Definition shape (n m : nat) (M : marr) : Prop := length M = n /\ forall row, In row M -> length row = m.
(* with rows labelled rs and columns labelled cs, the entry at (r, c) is x *)
Definition entry (rs cs : list string) (M : marr) (r c : string) (x : R) : Prop :=
  exists i j row, nth_error rs i = Some r /\ nth_error cs j = Some c /\ nth_error M i = Some row /\ nth_error row j = Some x.
(* N holds the entries of M for the labels it keeps *)
Definition restriction (rs cs : list string) (M : marr) (rs' cs' : list string) (N : marr) : Prop :=
  shape (length rs') (length cs') N /\
  forall r c x, In r rs' -> In c cs' -> (entry rs' cs' N r c x <-> entry rs cs M r c x).

(* the symbols of the equations of motion other than the parameters *)
Definition motion_symbols : list string := (full_states ++ full_inputs)%list.
Definition lean_parameters : list string := filter (fun k => negb (String.eqb k "v")) rider_lean_parameters.
(* e is the upright operating point at speed v for the parameters d: every parameter
   has its own value, the rear wheel rolls at the speed, the frame has its nominal pitch,
   all else is at rest in the zero position *)
Definition operating_point (pitch : R -> R -> R -> R -> R -> R -> R -> res R) (d : pdict) (e : string -> R) : Prop :=
  (forall k, In k lean_parameters -> dget d k = Some (VNum (e k))) /\
  (exists v, dget d "v" = Some (VNum v) /\ e "rr" <> 0 /\ e "u6" * e "rr" = - v) /\
  pitch 0 0 (e "rf") (e "rr") (e "d1") (e "d2") (e "d3") = Ok (e "q5") /\
  (forall k, In k motion_symbols -> k <> "u6" -> k <> "q5" -> e k = 0).
(* the generated equations read the named symbols only and have the documented shapes *)
Definition linear_equations (body : (string -> R) -> res (marr * marr)) : Prop :=
  (forall e1 e2, (forall k, In k motion_symbols \/ In k lean_parameters -> e1 k = e2 k) -> body e1 = body e2) /\
  (forall e A B, body e = Ok (A, B) -> shape 13 13 A /\ shape 13 4 B).

(* ---- the three models ---- *)
Definition model_class (m : lin_model) : pclass :=
  match m with MMeijaard => CMeijaard2007 | MFeedback => CMeijaard2007WithFeedback | MRiderLean _ _ => CMooreRiderLean2012 end.
Definition n_states (m : lin_model) : nat := match m with MRiderLean _ _ => 12 | _ => 4 end.
Definition n_inputs (m : lin_model) : nat := match m with MRiderLean _ _ => 3 | _ => 2 end.
Definition sound_equations (m : lin_model) : Prop := match m with MRiderLean _ body => linear_equations body | _ => True end.
(* s is a parameter set fit for the model m, with parameters d *)
Definition fit (m : lin_model) (s : pset) (h : heap) (d : pdict) : Prop :=
  nth_error h (ps_ref s) = Some d /\ complete (required (model_class m)) d.

(* ---- eigenvalues ---- *)
Definition cmul (a b : cplx) : cplx := (fst a * fst b - snd a * snd b, fst a * snd b + snd a * fst b).
Definition csum (l : list cplx) : cplx := (rsum (map fst l), rsum (map snd l)).
Definition cent (V : list (list cplx)) (i j : nat) : cplx := nth j (nth i V []) (0, 0).
(* column j of V is a right (left) eigenvector of the n x n matrix A for the eigenvalue lam *)
Definition right_eigenpair (n : nat) (A : marr) (lam : cplx) (V : list (list cplx)) (j : nat) : Prop :=
  (exists i, (i < n)%nat /\ cent V i j <> (0, 0)) /\
  forall i, (i < n)%nat -> csum (map (fun k => cmul (ent A i k, 0) (cent V k j)) (seq 0 n)) = cmul lam (cent V i j).
Definition left_eigenpair (n : nat) (A : marr) (lam : cplx) (V : list (list cplx)) (j : nat) : Prop :=
  (exists i, (i < n)%nat /\ cent V i j <> (0, 0)) /\
  forall i, (i < n)%nat -> csum (map (fun k => cmul (cent V k j) (ent A k i, 0)) (seq 0 n)) = cmul lam (cent V i j).
(* what numpy.linalg.eig promises for a square array *)
Definition eig_contract (eig : marr -> res (list cplx * list (list cplx))) : Prop :=
  forall n A w V, shape n n A -> eig A = Ok (w, V) ->
    length w = n /\ length V = n /\ (forall row, In row V -> length row = n) /\
    forall j, (j < n)%nat -> right_eigenpair n A (nth j w (0, 0)) V j.

(* columns of V are right (left) eigenvectors for the eigenvalues w, one per state *)
Definition eigenpairs (left : bool) (n : nat) (A : marr) (w : list cplx) (V : list (list cplx)) : Prop :=
  length w = n /\ length V = n /\ (forall row, In row V -> length row = n) /\
  forall j, (j < n)%nat -> (if left then left_eigenpair else right_eigenpair) n A (nth j w (0, 0)) V j.
(* the second order equations M q'' + v C1 q' + (g K0 + v^2 K2) q = 0 for q = exp(lam t) (x, y) *)
Definition cadd (a b : cplx) : cplx := (fst a + fst b, snd a + snd b).
Definition cscale (r : R) (a : cplx) : cplx := (r * fst a, r * snd a).
Definition second_order (M C1 K0 K2 : mat2) (v g : R) (lam x y : cplx) : Prop :=
  forall i, (i < 2)%nat ->
    let e (W : mat2) j := nth j (nth i (m2_rows W) []) 0 in
    let term W := cadd (cscale (e W 0%nat) x) (cscale (e W 1%nat) y) in
    cadd (cadd (cmul (cmul lam lam) (term M)) (cscale v (cmul lam (term C1)))) (cadd (cscale g (term K0)) (cscale (v ^ 2) (term K2))) = (0, 0).

(* ---- simulation ---- *)
(* u is the input at time t in state x: zeros without an input function, otherwise its value *)
Definition input_at (f : option (R -> list R -> res (list R))) (m : nat) (t : R) (x u : list R) : Prop :=
  length u = m /\ match f with None => forall k, nth k u 0 = 0 | Some f => f t x = Ok u end.
(* x is a motion of x' = A x + B u on [t0, tf] *)
Definition motion (n m : nat) (A B : marr) (f : option (R -> list R -> res (list R))) (t0 tf : R) (x : R -> list R) : Prop :=
  forall t, t0 <= t <= tf -> length (x t) = n /\
    exists u, input_at f m t (x t) u /\
      forall i, (i < n)%nat -> derivable_pt_lim (fun t => nth i (x t) 0) t
        (rsum (map (fun j => ent A i j * nth j (x t) 0) (seq 0 n)) + rsum (map (fun k => ent B i k * nth k u 0) (seq 0 m))).
(* the real part of v exp(lam (t - t0)) *)
Definition mode_re (lam v : cplx) (t0 t : R) : R :=
  exp (fst lam * (t - t0)) * (fst v * cos (snd lam * (t - t0)) - snd v * sin (snd lam * (t - t0))).
Definition comp (x : R -> list R) (i : nat) : R -> R := fun t => nth i (x t) 0.
(* x is a trajectory of x' = f(t, x) on [t0, tf] with n components *)
Definition trajectory (n : nat) (f : R -> list R -> res (list R)) (t0 tf : R) (x : R -> list R) : Prop :=
  forall t, t0 <= t <= tf -> length (x t) = n /\
    exists dx, f t (x t) = Ok dx /\ length dx = n /\ forall i, (i < n)%nat -> derivable_pt_lim (comp x i) t (nth i dx 0).
(* what solve_ivp promises, rounding and step errors apart: samples of a trajectory
   through the initial state *)
Definition solver_contract (solve : (R -> list R -> res (list R)) -> R -> R -> list R -> list R -> res marr) : Prop :=
  forall f t0 tf x0 times y, solve f t0 tf x0 times = Ok y ->
    length y = length x0 /\ (forall row, In row y -> length row = length times) /\
    exists x, x t0 = x0 /\ trajectory (length x0) f t0 tf x /\
      forall i k, (i < length x0)%nat -> (k < length times)%nat -> ent y i k = nth i (x (nth k times 0)) 0.
Definition increasing (times : list R) : Prop :=
  forall i j, (i < j)%nat -> (j < length times)%nat -> nth i times 0 < nth j times 0.

(* ---- modal controllability ---- *)
(* beta is the angle between the complex vector q and the real vector b: its cosine is
   Re(q^H b) / (|q| |b|), without the sign if acute *)
Definition re_inner (q : list cplx) (b : list R) : R := rsum (map (fun p => fst (fst p) * snd p) (combine q b)).
Definition norm_c (q : list cplx) : R := sqrt (rsum (map (fun z => fst z ^ 2 + snd z ^ 2) q)).
Definition norm_r (b : list R) : R := sqrt (rsum (map (fun x => x ^ 2) b)).
Definition modal_angle (acute : bool) (q : list cplx) (b : list R) (beta : R) : Prop :=
  0 <= beta <= (if acute then PI / 2 else PI) /\
  cos beta * (norm_c q * norm_r b) = if acute then Rabs (re_inner q b) else re_inner q b.
Definition ccol (V : list (list cplx)) (j : nat) : list cplx := map (fun row => nth j row (0, 0)) V.
Definition rcol (B : marr) (j : nat) : list R := map (fun row => nth j row 0) B.

(* some keyword argument gives an array the matrices of m are evaluated along *)
Definition changes (m : lin_model) (d : pdict) (ov : dict oval) : Prop :=
  exists k, array_given d ov k /\ (m = MMeijaard -> In k benchmark_parameters).
