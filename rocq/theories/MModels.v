(* MModels.v -- model of /repo/bicycleparameters/models.py: parameter overrides,
   canonical and state-space matrices (simulation and plotting are not modelled) *)
From Verif Require Import Base MString MHeap MBicycle MVec MInertia MSets.
Local Open Scope string_scope.
Local Open Scope R_scope.

(* keyword arguments: a scalar or an array_like of floats.  Keyword names are unique. *)
Inductive oval := OScalar (x : R) | OArray (l : list R).

(* [models.py:29-74] _parse_parameter_overrides: the loop over the keyword arguments.
   Warnings are not modelled. *)
Fixpoint parse_loop (r : nat) (overrides : dict oval) (keys : list string) (len : option nat) : H (list string * option nat) :=
  match overrides with
  | [] => hret (keys, len)
  | (key, val) :: rest =>
      d <-- hload r ;;;
      if negb (dmem d key) then parse_loop r rest keys len
      else match val with
           | OScalar x => _ <-- hset r key (VNum x) ;;; parse_loop r rest keys len
           | OArray l =>
               let n := match len with None => length l | Some n => n end in
               if negb (Nat.eqb (length l) n) then
                 lift (Err (ValueError "All array valued parameters must have the same length."))
               else _ <-- hset r key (VArr l) ;;; parse_loop r rest (keys ++ [key])%list (Some n)
           end
  end.
Definition parse_parameter_overrides (s : pset) (overrides : dict oval) : H (nat * list string * option nat) :=
  par <-- hcopy (ps_ref s) ;;;
  kl <-- parse_loop par overrides [] None ;;;
  hret (par, fst kl, snd kl).

(* benchmark_par_to_canonical applied to a dictionary object: assigns IRzz and IFzz in it *)
Definition canonical_of (r : nat) : H canon :=
  d <-- hload r ;;;
  k <-- lift (canon_phase1 (floats d)) ;;;
  _ <-- hset r "IRzz" (VNum (k_IRxx k)) ;;;
  _ <-- hset r "IFzz" (VNum (k_IFxx k)) ;;;
  d' <-- hload r ;;;
  lift (canon_phase2 (floats d') k).

(* par[key][i] *)
Definition item (d : pdict) (key : string) (i : nat) : res R :=
  v <- dlook d key ;; match v with VArr l => index l i | _ => Err TypeError end.
(* the value of a key for row i: element i if the key holds an array *)
Definition item_or_scalar (d : pdict) (keys : list string) (key : string) (i : nat) : res R :=
  if smem key keys then item d key i
  else (v <- dlook d key ;; match v with VNum x => Ok x | _ => Err TypeError end).

(* arrays of matrices or a single one: shape (n, ...) or (...) *)
Inductive shaped (A : Type) := Single (a : A) | Stack (l : list A).
Arguments Single {A} a.
Arguments Stack {A} l.

Definition canon_deps : list string :=
  ["IBxx"; "IBxz"; "IByy"; "IBzz"; "IFxx"; "IFyy"; "IHxx"; "IHxz"; "IHyy"; "IHzz"; "IRxx"; "IRyy"; "c"; "lam";
   "mB"; "mF"; "mH"; "mR"; "rF"; "rR"; "w"; "xB"; "xH"; "zB"; "zH"].

(* [models.py:625-733] form_reduced_canonical_matrices *)
Definition form_reduced_canonical_matrices (s : pset) (overrides : dict oval) : H (shaped canon) :=
  pkl <-- parse_parameter_overrides s overrides ;;;
  match pkl with (par, array_keys, array_len) =>
    mutable_par <-- hcopy par ;;;
    if existsb (fun k => smem k canon_deps) array_keys then
      n <-- lift (match array_len with Some n => Ok n | None => Err TypeError end) ;;;
      rows <-- hmapM (fun i =>
                _ <-- hiter (fun key => d <-- hload par ;;; x <-- lift (item d key i) ;;; hset mutable_par key (VNum x)) array_keys ;;;
                canonical_of mutable_par) (seq 0 n) ;;;
      hret (Stack rows)
    else
      c <-- canonical_of par ;;; hret (Single c)
  end.

Definition ab_of (c : canon) (v g : R) : res (marr * marr) := ab_matrix (cM c) (cC1 c) (cK0 c) (cK2 c) v g.

(* [models.py:735-828] Meijaard2007Model.form_state_space_matrices *)
Definition form_state_space_matrices (s : pset) (overrides : dict oval) : H (shaped (marr * marr)) :=
  pkl <-- parse_parameter_overrides s overrides ;;;
  match pkl with (par, array_keys, array_len) =>
    cs <-- form_reduced_canonical_matrices s overrides ;;;
    d <-- hload par ;;;
    let row i c := g <- item_or_scalar d array_keys "g" i ;; v <- item_or_scalar d array_keys "v" i ;; ab_of c v g in
    match cs with
    | Stack l =>
        rows <-- lift (mapM (fun ic => row (fst ic) (snd ic)) (combine (seq 0 (length l)) l)) ;;; hret (Stack rows)
    | Single c =>
        if smem "v" array_keys || smem "g" array_keys then
          n <-- lift (match array_len with Some n => Ok n | None => Err TypeError end) ;;;
          rows <-- lift (mapM (fun i => row i c) (seq 0 n)) ;;; hret (Stack rows)
        else
          v <-- lift (item_or_scalar d [] "v" 0) ;;; g <-- lift (item_or_scalar d [] "g" 0) ;;;
          ab <-- lift (ab_of c v g) ;;; hret (Single ab)
    end
  end.

(* matrix product and difference of arrays of rows *)
Definition mdot (A B : marr) : marr :=
  map (fun r => map (fun j => rsum (map (fun p => fst p * snd p) (combine r (map (fun row => nth j row 0) B))))
                    (seq 0 (length (hd [] B)))) A.
Definition msub (A B : marr) : marr :=
  map (fun rs => map (fun p => fst p - snd p) (combine (fst rs) (snd rs))) (combine A B).

(* [models.py:1125-1142] gain matrix: tiled from the first elements, then the varying
   columns overwritten *)
Definition gain_row (d : pdict) (keys : list string) (names : list string) (first : bool) : res (list R) :=
  mapM (fun p => if first && smem p keys then item d p 0
                 else (v <- dlook d p ;; match v with VNum x => Ok x | _ => Err TypeError end)) names.
(* K[i, row, names.index(k)] = par[k][i] for every array key k *)
Fixpoint set_gains (d : pdict) (keys : list string) (names : list string) (i : nat) (row : list R) : res (list R) :=
  match keys with
  | [] => Ok row
  | k :: ks =>
      row' <- (match find_index k names with
               | Some j => x <- item d k i ;; Ok (upd row j x)
               | None => Ok row
               end) ;;
      set_gains d ks names i row'
  end.
Definition gain_matrices (d : pdict) (keys : list string) (len : option nat) : res (shaped marr) :=
  let n1 := firstn 4 gain_names in let n2 := skipn 4 gain_names in
  if existsb (fun k => smem k gain_names) keys then
    r1 <- gain_row d keys n1 true ;; r2 <- gain_row d keys n2 true ;;
    n <- (match len with Some n => Ok n | None => Err TypeError end) ;;
    ks <- mapM (fun i => a <- set_gains d keys n1 i r1 ;; b <- set_gains d keys n2 i r2 ;; Ok [a; b]) (seq 0 n) ;;
    Ok (Stack ks)
  else
    r1 <- gain_row d keys n1 false ;; r2 <- gain_row d keys n2 false ;; Ok (Single [r1; r2]).
(* M[i] if M.ndim == 3 else M *)
Definition pick {A} (s : shaped A) (i : nat) : res A := match s with Single a => Ok a | Stack l => index l i end.

(* [models.py:1080-1162] Meijaard2007WithFeedbackModel.form_state_space_matrices *)
Definition form_state_space_matrices_fb (s : pset) (overrides : dict oval) : H (shaped (marr * marr)) :=
  pkl <-- parse_parameter_overrides s overrides ;;;
  match pkl with (par, arr_keys, arr_len) =>
    cs <-- form_reduced_canonical_matrices s overrides ;;;
    d <-- hload par ;;;
    K <-- lift (gain_matrices d arr_keys arr_len) ;;;
    match arr_keys with
    | [] =>
        v <-- lift (item_or_scalar d [] "v" 0) ;;; g <-- lift (item_or_scalar d [] "g" 0) ;;;
        c <-- lift (pick cs 0) ;;; k <-- lift (pick K 0) ;;;
        ab <-- lift (ab_of c v g) ;;;
        hret (Single (msub (fst ab) (mdot (snd ab) k), snd ab))
    | _ =>
        n <-- lift (match arr_len with Some n => Ok n | None => Err TypeError end) ;;;
        rows <-- lift (mapM (fun i =>
           c <- pick cs i ;;
           v <- item_or_scalar d arr_keys "v" i ;; g <- item_or_scalar d arr_keys "g" i ;;
           k <- pick K i ;;
           ab <- ab_of c v g ;;
           Ok (msub (fst ab) (mdot (snd ab) k), snd ab)) (seq 0 n)) ;;;
        hret (Stack rows)
    end
  end.
