(* SState.v -- specification vocabulary for C43-C45: directories, saved parameter
   sets, the cases of building a bicycle, histories of add_rider calls *)
From Verif Require Import Base MString MIo MPeriod MMain SIo MState.
Local Open Scope string_scope.

(* d contains an entry called n *)
Definition has_entry (fs : fsys) (d n : string) : Prop :=
  n <> "" /\ free slash n /\ (In (d ++ "/" ++ n) (fs_dirs fs) \/ In (d ++ "/" ++ n) (dkeys (fs_files fs))).
Definition has_dir (fs : fsys) (d : string) : Prop := In d (fs_dirs fs).
(* the names listed for a directory *)
Definition listing (fs : fsys) (d : string) (names : list string) : Prop := listdir fs d = Ok names.
(* reading a parameter file *)
Definition reads (other : string -> res (R * R)) (fs : fsys) (p : string) (d : dict pval) : Prop :=
  exists t, dget (fs_files fs) p = Some t /\ load_text other t = Ok d.
Definition no_file (fs : fsys) (p : string) : Prop := ~ In p (dkeys (fs_files fs)).
Definition updated {V} (d : dict V) (rows : list (string * V)) : dict V :=
  fold_left (fun d r => dset d (fst r) (snd r)) rows d.

(* the uncertainties package raises no IOError *)
Definition no_io (other : string -> res (R * R)) : Prop := forall s, other s <> Err IOError.
(* a path that is not empty and does not end with a slash *)
Definition plain (d : string) : Prop := exists a c, d = a ++ String c "" /\ c <> slash.

Section Spec.
  Variables E H : Type.
  Variable other : string -> res (R * R).
  Variable calc : dict pval -> res (dict pval * E).
  Variable decode : string -> res (dict string * res (R * R)).
  Variable str : pval -> string.

  (* the file called f holds the parameter set called (fst r): its name without
     extension consists of two camel case words, the second one is the set *)
  Definition set_file (fs : fsys) (parDir f : string) (r : string * dict pval) : Prop :=
    (exists w, space_out_camel_case (splitext0 f) "list" = Ok (CList [w; fst r])) /\ reads other fs (os_join parDir f) (snd r).
  (* all saved parameter sets; of two files for one set the later one counts *)
  Definition saved_sets (fs : fsys) (dir : string) (ps : dict (dict pval)) : Prop :=
    (has_entry fs dir "Parameters" /\ exists names rows, listing fs (os_join dir "Parameters") names /\
        Forall2 (set_file fs (os_join dir "Parameters")) names rows /\ ps = updated [] rows)
    \/ (~ has_entry fs dir "Parameters" /\ ps = []).
  (* the pendulum recordings of the raw data directory give these periods *)
  Definition recorded_periods (fs : fsys) (rawDir : string) (split : bool) (periods : dict pval) : Prop :=
    exists names files ps, listing fs rawDir names /\
      Forall2 (fun n r => exists t, dget (fs_files fs) (os_join rawDir n) = Some t /\ decode t = Ok r)
        (ssort (filter (fun n => String.eqb (sdrop (String.length n - 4) n) ".mat") names)) files /\
      calc_periods_for_files split files = Ok ps /\
      periods = flat_map (fun kv => match snd kv with PerMean v => [(fst kv, v)] | PerList _ => [] end) ps.
  (* the measurements used: as read, or with the periods taken from the recordings
     (then these are also written to the file of measurements) *)
  Definition measurements (fs : fsys) (rawDir mfile : string) (forcePeriodCalc : bool) (m : dict pval) (fs' : fsys) : Prop :=
    exists m0, reads other fs mfile m0 /\
      ((forcePeriodCalc = false /\ check_for_period m0 (is_fork_split m0) = false /\ m = m0 /\ fs' = fs) \/
       ((forcePeriodCalc = true \/ check_for_period m0 (is_fork_split m0) = true) /\
         exists periods, recorded_periods fs rawDir (is_fork_split m0) periods /\ m = updated m0 periods /\
           write_periods_to_file str fs mfile periods = Ok fs')).

  (* what Bicycle(name, pathToData, forceRawCalc, forcePeriodCalc) builds *)
  Inductive builds (fs : fsys) (name pathToData : string) (forceRawCalc forcePeriodCalc : bool) (b : bicycle_obj E H) (fs' : fsys) : Prop :=
  | builds_intro dir rawDir mfile ps par extras :
      dir = os_join (os_join pathToData "bicycles") name -> rawDir = os_join dir "RawData" -> mfile = os_join rawDir (name ++ "Measured.txt") ->
      has_dir fs dir -> saved_sets fs dir ps ->
      (has_entry fs dir "RawData" -> has_dir fs rawDir) ->
      b = mkbike name dir false None [] None par extras ->
      (* saved benchmark parameters are used as they are *)
      ((forceRawCalc = false /\ In "Benchmark" (dkeys ps) /\ fs' = fs /\ extras = None /\
          ((no_file fs mfile /\ par = ps) \/ (exists m, reads other fs mfile m /\ par = updated ps [("Measured", m)]))) \/
      (* recalculated from the measurements *)
       (((forceRawCalc = true /\ has_entry fs dir "RawData" /\ has_entry fs rawDir (name ++ "Measured.txt")) \/
         (forceRawCalc = false /\ ~ In "Benchmark" (dkeys ps))) /\
          exists m bench ex, measurements fs rawDir mfile forcePeriodCalc m fs' /\ calc m = Ok (bench, ex) /\
            par = updated ps [("Measured", m); ("Benchmark", bench)] /\ extras = Some ex) \/
      (* recalculation demanded but nothing to calculate from *)
       (forceRawCalc = true /\ ~ (has_entry fs dir "RawData" /\ has_entry fs rawDir (name ++ "Measured.txt")) /\
          fs' = fs /\ extras = None /\ par = ps)) ->
      builds fs name pathToData forceRawCalc forcePeriodCalc b fs'.
End Spec.
Arguments builds {E H}.

(* one call of add_rider: rider name, reCalc, draw, and the files at that time *)
Record rider_call := mkcall { rc_fs : fsys; rc_name : string; rc_recalc : bool; rc_draw : bool }.

Section Rider.
  Variables E H : Type.
  Variable other : string -> res (R * R).
  Variable combine : dict pval -> dict pval -> res (dict pval).
  Variable configure : string -> string -> dict pval -> dict pval -> bool -> res (dict pval * H).
  Notation bike := (bicycle_obj E H).
  (* directory of the data: two levels above the directory of the bicycle *)
  Definition data_dir (b : bike) : string := fst (os_split (fst (os_split (bo_dir b)))).
  Definition rider_dir (b : bike) (rider : string) : string := os_join (os_join (data_dir b) "riders") rider.
  Definition rider_file (b : bike) (rider : string) : string :=
    os_join (os_join (rider_dir b rider) "Parameters") (rider ++ bo_name b ++ "Benchmark.txt").
  (* the rider's parameters: read from the file, or calculated when that is wanted
     or there is no file *)
  Definition rider_parameters (b : bike) (c : rider_call) (bench rp : dict pval) (human : option H) : Prop :=
    let file := rider_file b (rc_name c) in
    let again := rc_recalc c = true \/ rc_draw c = true in
    (~ again /\ reads other (rc_fs c) file rp /\ human = None) \/
    ((again \/ no_file (rc_fs c) file) /\
       exists m h, dget (bo_par b) "Measured" = Some m /\ configure (rider_dir b (rc_name c)) (bo_name b) bench m (rc_draw c) = Ok (rp, h) /\ human = Some h).
  (* the bicycle after the rider got on *)
  Definition ridden (b : bike) (c : rider_call) (b' : bike) : Prop :=
    exists bench rp human both, dget (bo_par b) "Benchmark" = Some bench /\ rider_parameters b c bench rp human /\ combine bench rp = Ok both /\
      b' = mkbike (bo_name b) (bo_dir b) true (Some (rc_name c)) (updated (bo_riderPar b) [("Benchmark", rp)]) human
             (updated (bo_par b) [("Benchmark", both)]) (bo_extras b).
End Rider.
Arguments data_dir {E H}. Arguments rider_dir {E H}. Arguments rider_file {E H}. Arguments rider_parameters {E H}. Arguments ridden {E H}.

(* any number of calls, exceptions caught by the caller *)
Definition after_calls {E H} (step : bicycle_obj E H -> rider_call -> bicycle_obj E H) (b : bicycle_obj E H) (cs : list rider_call) : bicycle_obj E H :=
  fold_left step cs b.

(* the name of the file for the i-th of the sets: the names of all sets up to the
   i-th one, each followed by ".txt" *)
Definition grown_name (name : string) (sets : list string) (i : nat) : string :=
  name ++ fold_right append "" (map (fun s => s ++ ".txt") (firstn (S i) sets)).

(* the sets that are saved: all but the measurements *)
Definition not_measured {V} (d : dict V) : list string := filter (fun k => negb (String.eqb k "Measured")) (dkeys d).
(* the numbers of d are printed so that reading the text gives the same number *)
Definition printable (other : string -> res (R * R)) (str : pval -> string) (d : dict pval) : Prop :=
  NoDup (dkeys d) /\ forall k v, In (k, v) d -> clean_key k /\ clean_text (str v) /\ rhs_value (fun t u => other t = Ok u) (str v) v.

