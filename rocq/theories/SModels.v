(* SModels.v -- specification vocabulary for parameter sets and models, independent of
   how the code computes *)
From Verif Require Import Base MString MHeap MBicycle SBicycle MVec MInertia MSets MModels.
Local Open Scope string_scope.
Local Open Scope R_scope.

(* every object that existed before is untouched (new ones may have been created) *)
Definition preserved (h h' : heap) : Prop := exists new, h' = (h ++ new)%list.

(* the dictionary has a float for every one of the names *)
Definition complete (names : list string) (d : pdict) : Prop :=
  forall k, In k names -> exists x, dget d k = Some (VNum x).

(* the keyword arguments with every array replaced by its i-th element *)
Definition at_row (i : nat) (ov : dict oval) : dict oval :=
  map (fun e => (fst e, match snd e with OArray l => OScalar (nth i l 0) | OScalar x => OScalar x end)) ov.

(* the array lengths given for parameters the dictionary has *)
Definition array_lengths (d : pdict) (ov : dict oval) : list nat :=
  flat_map (fun e => match snd e with OArray l => if dmem d (fst e) then [length l] else [] | OScalar _ => [] end) ov.
Definition same_lengths (d : pdict) (ov : dict oval) (n : nat) : Prop := forall m, In m (array_lengths d ov) -> m = n.

(* k is a parameter of the dictionary and is given an array *)
Definition array_given (d : pdict) (ov : dict oval) (k : string) : Prop :=
  In k (dkeys d) /\ exists l, dget ov k = Some (OArray l).

(* the dictionary with scalar overrides applied to the parameters it has *)
Definition with_scalars (d : pdict) (ov : dict oval) : pdict :=
  map (fun e => (fst e, match dget ov (fst e) with Some (OScalar x) => VNum x | _ => snd e end)) d.
Definition all_scalar (ov : dict oval) : Prop := forall k v, In (k, v) ov -> exists x, v = OScalar x.

(* mass and mass centre of a body of the benchmark set (rear wheel contact is the origin) *)
Definition benchmark_body (f : string -> R) (b : string) : R * vec3 :=
  if String.eqb b "R" then (f "mR", mk3 0 0 (- f "rR"))
  else if String.eqb b "F" then (f "mF", mk3 (f "w") 0 (- f "rF"))
  else if String.eqb b "H" then (f "mH", mk3 (f "xH") 0 (f "zH"))
  else (f "mB", mk3 (f "xB") 0 (f "zB")).
(* and of the principal set, where the rear body is frame D and rider P *)
Definition principal_body (f : string -> R) (b : string) : R * vec3 :=
  if String.eqb b "R" then (f "mR", mk3 0 0 (- f "rR"))
  else if String.eqb b "F" then (f "mF", mk3 (f "w") 0 (- f "rF"))
  else if String.eqb b "H" then (f "mH", mk3 (f "xH") 0 (f "zH"))
  else if String.eqb b "D" then (f "mD", mk3 (f "xD") 0 (f "zD"))
  else (f "mP", mk3 (f "xP") 0 (f "zP")).
Definition body_labels (c : pclass) : list string :=
  match c with
  | CMeijaard2007 | CMeijaard2007WithFeedback => ["B"; "F"; "H"; "R"]
  | CMoore2019 => ["D"; "F"; "H"; "P"; "R"]
  | _ => []
  end.
Definition body_of (c : pclass) (f : string -> R) (b : string) : R * vec3 :=
  match c with CMoore2019 => principal_body f b | _ => benchmark_body f b end.

(* the conversions each class documents *)
Definition convertible (c : pclass) : list string :=
  match c with
  | CMeijaard2007 => ["Moore2012"; "Meijaard2007WithFeedback"]
  | CMeijaard2007WithFeedback => ["Moore2012"]
  | CMoore2019 => ["Meijaard2007"; "Meijaard2007WithFeedback"]
  | CMoore2012 | CMooreRiderLean2012 => []
  end.

(* k is the name of a parameter that is missing or has a non-float value, and msg the
   text reporting it *)
Definition offends (d : pdict) (k : string) (msg : string) : Prop :=
  (dget d k = None /\ msg = k ++ " is missing from the provided parameter dictionary.") \/
  (exists v, dget d k = Some v /\ (forall x, v <> VNum x) /\ msg = show_value v ++ " is not a valid value for parameter " ++ k).

(* the overrides naming a parameter the dictionary has *)
Definition known (d : pdict) (ov : dict oval) : dict oval := filter (fun e => dmem d (fst e)) ov.

(* a vectorised result against the results of the scalar calls: it is never a single
   matrix, its i-th element is the result of the i-th call, and it exists when they do *)
Definition pointwise {A} (whole : res (shaped A)) (single : nat -> res (shaped A)) (n : nat) : Prop :=
  (forall a, whole <> Ok (Single a)) /\
  (forall l, whole = Ok (Stack l) -> length l = n /\ forall i a, (i < n)%nat -> single i = Ok (Single (nth i l a))) /\
  ((0 < n)%nat -> (forall i, (i < n)%nat -> exists a, single i = Ok (Single a)) -> exists l, whole = Ok (Stack l)).


(* feedback gains of the set, rows roll and steer torque, columns phi, del, phid, deld *)
Definition gain (d : pdict) (k : string) : R := pv (floats d) k.
Definition gain_matrix (d : pdict) : marr :=
  [[gain d "kTphi_phi"; gain d "kTphi_del"; gain d "kTphi_phid"; gain d "kTphi_deld"];
   [gain d "kTdel_phi"; gain d "kTdel_del"; gain d "kTdel_phid"; gain d "kTdel_deld"]].
(* matrix entry *)
Definition ent (M : marr) (i j : nat) : R := nth j (nth i M []) 0.

(* any sequence of calls of the model methods *)
Inductive mcall := CallCanonical (ov : dict oval) | CallStateSpace (ov : dict oval) | CallFeedback (ov : dict oval).
Definition call_overrides (c : mcall) : dict oval := match c with CallCanonical o | CallStateSpace o | CallFeedback o => o end.
Definition heap_after (s : pset) (c : mcall) (h : heap) : heap :=
  match c with
  | CallCanonical o => fst (form_reduced_canonical_matrices s o h)
  | CallStateSpace o => fst (form_state_space_matrices s o h)
  | CallFeedback o => fst (form_state_space_matrices_fb s o h)
  end.
Definition heap_after_all (s : pset) (cs : list mcall) (h : heap) : heap := fold_left (fun h c => heap_after s c h) cs h.

(* the dictionary has every one of the names *)
Definition has (p : dict R) (ks : list string) : Prop := forall k, In k ks -> In k (dkeys p).

(* ---- the parameters of each parameterization, body by body ---- *)
Definition of_bodies (bodies : list string) (f : string -> list string) : list string := flat_map f bodies.
(* geometry and environment shared by the benchmark and the principal set *)
Definition common_parameters : list string := ["w"; "c"; "lam"; "g"; "v"].
(* [Meijaard2007]: two wheels, and two bodies symmetric about the xz plane *)
Definition benchmark_parameters : list string :=
  (common_parameters ++
   of_bodies ["R"; "F"] (fun b => (["m" ++ b; "r" ++ b; "I" ++ b ++ "xx"; "I" ++ b ++ "yy"])%string) ++
   of_bodies ["B"; "H"] (fun b => (["m" ++ b; "x" ++ b; "z" ++ b; "I" ++ b ++ "xx"; "I" ++ b ++ "yy"; "I" ++ b ++ "zz"; "I" ++ b ++ "xz"])%string))%list.
(* a gain from each of the four states to each of the two torques *)
Definition feedback_gain_names : list string :=
  of_bodies ["phi"; "del"] (fun torque => map (fun state => "kT" ++ torque ++ "_" ++ state) ["phi"; "del"; "phid"; "deld"]).
(* [Moore2019]: principal radii of gyration; frame D, fork H, person P *)
Definition principal_parameters : list string :=
  (common_parameters ++
   of_bodies ["R"; "F"] (fun b => (["m" ++ b; "r" ++ b; "k" ++ b ++ "aa"; "k" ++ b ++ "yy"])%string) ++
   of_bodies ["D"; "H"; "P"] (fun b => (["m" ++ b; "x" ++ b; "z" ++ b; "alpha" ++ b; "k" ++ b ++ "aa"; "k" ++ b ++ "bb"; "k" ++ b ++ "yy"])%string) ++
   ["lP"; "wP"])%list.
(* [Moore2012]: rear frame c, rear wheel d, fork e, front wheel f *)
Definition moore2012_parameters : list string :=
  (["d1"; "d2"; "d3"; "l1"; "l2"; "l3"; "l4"; "rf"; "rr"; "g"; "v"] ++
   of_bodies ["c"; "e"] (fun b => (["m" ++ b; "i" ++ b ++ "11"; "i" ++ b ++ "22"; "i" ++ b ++ "33"; "i" ++ b ++ "31"])%string) ++
   of_bodies ["d"; "f"] (fun b => (["m" ++ b; "i" ++ b ++ "11"; "i" ++ b ++ "22"])%string))%list.
(* the leaning rider g adds its inertia, its hinge (d4, l5, l6) and the hinge's damping and stiffness *)
Definition rider_lean_parameters : list string :=
  (moore2012_parameters ++ ["mg"; "ig11"; "ig22"; "ig33"; "ig31"; "d4"; "l5"; "l6"; "c9"; "k9"])%list.
Definition required (c : pclass) : list string :=
  match c with
  | CMeijaard2007 => benchmark_parameters
  | CMeijaard2007WithFeedback => (benchmark_parameters ++ feedback_gain_names)%list
  | CMoore2019 => principal_parameters
  | CMoore2012 => moore2012_parameters
  | CMooreRiderLean2012 => rider_lean_parameters
  end.
(* the keys the docstring of the two Meijaard classes says the dictionary must contain
   [parameter_sets.py:236-262, 881-916] *)
Definition documented_meijaard : list string :=
  filter (fun k => negb (existsb (String.eqb k) ["IByy"; "IHyy"; "v"])) benchmark_parameters.
(* the benchmark parameters the canonical matrices may depend on: all but speed and gravity *)
Definition structural_parameters : list string :=
  filter (fun k => negb (existsb (String.eqb k) ["v"; "g"])) benchmark_parameters.
