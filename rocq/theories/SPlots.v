(* SPlots.v -- specification vocabulary for the figures of the models *)
From Verif Require Import Base MString MHeap MBicycle MVec MInertia MSets MSets2 MModels MModels2 MEig SBicycle SSort SModels SModels2 MPlots.
Local Open Scope string_scope.
Local Open Scope R_scope.

(* k is the first keyword argument that gives an array to a parameter of the set *)
Definition first_array (d : pdict) (ov : dict oval) (k : string) (xs : list R) : Prop :=
  exists before after, ov = (before ++ (k, OArray xs) :: after)%list /\ In k (dkeys d) /\
    forall k' l, In (k', OArray l) before -> ~ In k' (dkeys d).
(* what is drawn for the value y: on request small values are left out *)
Definition shows (default : R) (z : hide_arg) (y : R) (o : option R) : Prop :=
  match z with
  | HideNo => o = Some y
  | HideYes => (Rabs y < default -> o = None) /\ (default <= Rabs y -> o = Some y)
  | HideTol t => (Rabs y < t -> o = None) /\ (t <= Rabs y -> o = Some y)
  end.
(* the eigenvalues in drawing order, row by row: as computed, or each row after the first
   rearranged by the greedy choice *)
Definition arranged (sort : bool) (evs : list eigres) (zs : list (list cplx)) : Prop :=
  if sort then exists e0 rest out, evs = e0 :: rest /\ zs = fst e0 :: map fst out /\
                 chained (fst e0) (map (fun e : eigres => (fst e, map (ccol (snd e)) (seq 0 (length (snd e))))) rest) out
  else zs = map fst evs.
(* the LaTeX text of a parameter *)
Definition label_of (c : pclass) (k lab : string) : Prop := exists i, nth_error (par_strings c) i = Some k /\ nth_error (labels c) i = Some lab.

Definition lines_drawn (nc : nat) (sort : bool) (hz : hide_arg) (xs : list R) (zs : list (list cplx)) (lines : list line) : Prop :=
  length lines = (nc + nc)%nat /\
  forall j, (j < nc)%nat -> exists im re, nth_error lines j = Some im /\ nth_error lines (nc + j) = Some re /\
    ln_x im = xs /\ ln_x re = xs /\ ln_label im = ln_label re /\ (sort = true -> ln_color im = ln_color re) /\
    length (ln_y im) = length xs /\ length (ln_y re) = length xs /\
    forall i, (i < length xs)%nat ->
      shows (1 / 10 ^ 14) hz (Rabs (snd (nth j (nth i zs []) (0, 0)))) (nth i (ln_y im) None) /\
      shows (1 / 10 ^ 14) hz (fst (nth j (nth i zs []) (0, 0))) (nth i (ln_y re) None).
Definition band_drawn (xs : list R) (zs : list (list cplx)) (b : band) : Prop :=
  bd_x b = xs /\ length (bd_where b) = length xs /\
  (forall i, (i < length xs)%nat -> (nth i (bd_where b) false = true <-> forall z, In z (nth i zs []) -> fst z <= 0)) /\
  (forall z, In z (concat zs) -> bd_lo b <= fst z <= bd_hi b /\ bd_lo b <= snd z <= bd_hi b) /\
  (exists z, In z (concat zs) /\ (bd_lo b = fst z \/ bd_lo b = snd z)) /\ (exists z, In z (concat zs) /\ (bd_hi b = fst z \/ bd_hi b = snd z)).

(* the number of lines: one per mode, as far as there are colours *)
Definition n_lines (m : lin_model) (colors : option (list string)) : nat :=
  match colors with None => n_states m | Some l => Nat.min (n_states m) (length l) end.

(* a polar line shows the complex number z, to the scale 1 / r *)
Definition shows_polar (r : R) (z : cplx) (p : polar) : Prop :=
  - PI < po_angle p <= PI /\ exists rad, po_radius p = Some rad /\ 0 <= rad <= 1 /\
    r * rad * cos (po_angle p) = fst z /\ r * rad * sin (po_angle p) = snd z.
(* the panel shows the vector v, largest component to the rim *)
Definition shows_vector (v : list cplx) (ls : list polar) : Prop :=
  length ls = length v /\ exists r, 0 < r /\ (exists p, In p ls /\ po_radius p = Some 1) /\
    forall i, (i < length v)%nat -> exists p, nth_error ls i = Some p /\ shows_polar r (nth i v (0, 0)) p.
(* the modes that are not hidden, in order *)
Definition shown_modes (default : R) (z : hide_arg) (w : list cplx) (js : list nat) : Prop :=
  let visible j := match z with
                   | HideNo => True
                   | HideYes => default <= sqrt (fst (nth j w (0, 0)) ^ 2 + snd (nth j w (0, 0)) ^ 2)
                   | HideTol t => t <= sqrt (fst (nth j w (0, 0)) ^ 2 + snd (nth j w (0, 0)) ^ 2)
                   end in
  (forall a b, (a < b)%nat -> (b < length js)%nat -> (nth a js 0 < nth b js 0)%nat) /\
  forall j, In j js <-> (j < length w)%nat /\ visible j.

(* the curve through the samples of f at the times *)
Definition samples (times : list R) (f : nat -> R) : list (R * R) := map (fun k => (nth k times 0, f k)) (seq 0 (length times)).
Definition in_degrees (x : R) : R := x * 180 / PI.

(* the axes of one mode, by unit; raw i and deg i are the curves of the state i, in its own
   unit and converted to degrees *)
Definition mode_axes (m : lin_model) (raw deg : nat -> list (R * R)) : list (string * list (string * list (R * R))) :=
  match m with
  | MRiderLean _ _ =>
      [("[m]", [("$q_1$", raw 0%nat); ("$q_2$", raw 1%nat)]);
       ("[rad]", [("$q_3$", deg 2%nat); ("$q_4$", deg 3%nat); ("$q_6$", deg 4%nat); ("$q_7$", deg 5%nat); ("$q_8$", deg 6%nat); ("$q_9$", deg 7%nat)]);
       ("[rad/s]", [("$u_4$", deg 8%nat); ("$u_6$", deg 9%nat); ("$u_7$", deg 10%nat)])]
  | _ => [("[rad]", [("$\phi$", deg 0%nat); ("$\delta$", deg 1%nat)]); ("[rad/s]", [("$\dot{\phi}$", deg 2%nat); ("$\dot{\delta}$", deg 3%nat)])]
  end.
(* the value of the parameter k in row j of a call *)
Definition row_value (d : pdict) (ov : dict oval) (k : string) (j : nat) (x : R) : Prop :=
  match dget ov k with
  | Some (OArray l) => nth_error l j = Some x
  | Some (OScalar y) => x = y
  | None => dget d k = Some (VNum x)
  end.
