(* MState.v -- model of the class Bicycle of /repo/bicycleparameters/main.py as a
   state machine over the file system of MIo.v.

   Printing is left out.  The numerical parts are parameters of the model: the
   calculation of the benchmark parameters from measurements, the combination of
   bicycle and rider, the configuration of the human model, the content of the
   pendulum data files and the remaining notations of the uncertainties package.
   os.listdir lists the directories before the files, each in the order of the
   file system record; the theorems hold for every order of the files. *)
From Verif Require Import Base MString MIo MPeriod MMain.
Local Open Scope string_scope.

(* os.path.join(a, b) (posix) *)
Definition ends_slash (s : string) : bool :=
  match slast s with Ok c => String.eqb c "/" | Err _ => false end.
Definition os_join (a b : string) : string :=
  if starts_with "/" b then b else if String.eqb a "" || ends_slash a then a ++ b else a ++ "/" ++ b.

(* the name of p in the directory d, if p is an immediate entry of d *)
Definition entry_of (d p : string) : option string :=
  if starts_with (d ++ "/") p then
    let n := sdrop (String.length d + 1) p in
    if String.eqb n "" || contains "/" n then None else Some n
  else None.
(* os.listdir *)
Definition listdir (fs : fsys) (d : string) : res (list string) :=
  if isdir fs d then
    Ok (flat_map (fun p => match entry_of d p with Some n => [n] | None => [] end) (fs_dirs fs ++ dkeys (fs_files fs)))
  else Err IOError.
(* os.path.exists *)
Definition path_exists (fs : fsys) (p : string) : bool := isdir fs p || dmem (fs_files fs) p.

Record bicycle_obj (E H : Type) := mkbike {
  bo_name : string; bo_dir : string;
  bo_hasRider : bool; bo_riderName : option string; bo_riderPar : dict (dict pval);
  bo_human : option H;
  bo_par : dict (dict pval); bo_extras : option E }.
Arguments mkbike {E H}. Arguments bo_name {E H}. Arguments bo_dir {E H}. Arguments bo_hasRider {E H}. Arguments bo_riderName {E H}.
Arguments bo_riderPar {E H}. Arguments bo_human {E H}. Arguments bo_par {E H}. Arguments bo_extras {E H}.

Section State.
  Variables E H : Type.
  (* the notations of the uncertainties package other than nominal+/-std *)
  Variable other : string -> res (R * R).
  (* calculate_benchmark_from_measured *)
  Variable calc : dict pval -> res (dict pval * E).
  (* inertia.combine_bike_rider: bicycle, rider *)
  Variable combine : dict pval -> dict pval -> res (dict pval).
  (* rider.configure_rider without the final combination: rider directory,
     bicycle name, benchmark and measured parameters, draw *)
  Variable configure : string -> string -> dict pval -> dict pval -> bool -> res (dict pval * H).
  (* one pendulum data file: its text entries and the period found *)
  Variable decode : string -> res (dict string * res (R * R)).
  (* str() of a value *)
  Variable str : pval -> string.
  Notation bike := (bicycle_obj E H).

  (* io.load_parameter_text_file(path) *)
  Definition load_file (fs : fsys) (p : string) : res (dict pval) :=
    t <- open_r fs p ;; load_text other t.

  Definition with_par (b : bike) (p : dict (dict pval)) : bike :=
    mkbike (bo_name b) (bo_dir b) (bo_hasRider b) (bo_riderName b) (bo_riderPar b) (bo_human b) p (bo_extras b).

  (* main.py 84-96: the loop over the parameter files *)
  Fixpoint load_sets (fs : fsys) (parDir : string) (files : list string) (ps : dict (dict pval)) : res (dict (dict pval)) :=
    match files with
    | [] => Ok ps
    | f :: files' =>
        w <- space_out_camel_case (splitext0 f) "list" ;;
        match w with
        | CList [_; ptype] => par <- load_file fs (os_join parDir f) ;; load_sets fs parDir files' (dset ps ptype par)
        | _ => Err (ValueError "unpack")
        end
    end.

  (* the periods of the data files of the raw data directory *)
  Definition raw_periods (fs : fsys) (rawDataDir : string) (split : bool) : res (dict pval) :=
    names <- listdir fs rawDataDir ;;
    let matFiles := ssort (filter (fun n => String.eqb (sdrop (String.length n - 4) n) ".mat") names) in
    files <- mapM (fun n => t <- open_r fs (os_join rawDataDir n) ;; decode t) matFiles ;;
    ps <- calc_periods_for_files split files ;;
    Ok (flat_map (fun kv => match snd kv with PerMean v => [(fst kv, v)] | PerList _ => [] end) ps).

  (* main.py 377-410 calculate_from_measured: object, file system, result *)
  Definition calculate_from_measured (b : bike) (fs : fsys) (forcePeriodCalc : bool)
    : bike * fsys * res (dict pval * E) :=
    let rawDataDir := os_join (bo_dir b) "RawData" in
    let pathToRawFile := os_join rawDataDir (bo_name b ++ "Measured.txt") in
    match load_file fs pathToRawFile with
    | Err e => (b, fs, Err e)
    | Ok measured =>
        let b1 := with_par b (dset (bo_par b) "Measured" measured) in
        let split := is_fork_split measured in
        if forcePeriodCalc || check_for_period measured split then
          match raw_periods fs rawDataDir split with
          | Err e => (b1, fs, Err e)
          | Ok ps =>
              let measured' := fold_left (fun d kv => dset d (fst kv) (snd kv)) ps measured in
              let b2 := with_par b (dset (bo_par b) "Measured" measured') in
              match write_periods_to_file str fs pathToRawFile ps with
              | Err e => (b2, fs, Err e)
              | Ok fs' => (b2, fs', calc measured')
              end
          end
        else (b1, fs, calc measured)
    end.

  (* main.py 43-149 Bicycle.__init__ *)
  Definition new_bicycle (fs : fsys) (name pathToData : string) (forceRawCalc forcePeriodCalc : bool) : res bike * fsys :=
    let dir := os_join (os_join pathToData "bicycles") name in
    if negb (isdir fs dir) then (Err (ValueError "Are you nuts?!"), fs) else
    match
      (entries <- listdir fs dir ;;
       ps <- (if smem "Parameters" entries then
                parFiles <- listdir fs (os_join dir "Parameters") ;;
                load_sets fs (os_join dir "Parameters") parFiles []
              else Ok []) ;;
       isMeasuredFile <- (if smem "RawData" entries then
                            raw <- listdir fs (os_join dir "RawData") ;; Ok (smem (name ++ "Measured.txt") raw)
                          else Ok false) ;;
       Ok (entries, ps, isMeasuredFile))
    with
    | Err e => (Err e, fs)
    | Ok (entries, ps, isMeasuredFile) =>
        let b := mkbike name dir false None [] None ps None in
        let isBenchmark := dmem ps "Benchmark" in
        let conOne := forceRawCalc && smem "RawData" entries && isMeasuredFile in
        let conTwo := negb forceRawCalc && negb isBenchmark in
        if conOne || conTwo then
          match calculate_from_measured b fs forcePeriodCalc with
          | (b', fs', Ok (par, ex)) =>
              (Ok (mkbike name dir false None [] None (dset (bo_par b') "Benchmark" par) (Some ex)), fs')
          | (_, fs', Err e) => (Err e, fs')
          end
        else if negb forceRawCalc && isBenchmark then
          match load_file fs (os_join (os_join dir "RawData") (name ++ "Measured.txt")) with
          | Ok measured => (Ok (with_par b (dset ps "Measured" measured)), fs)
          | Err IOError => (Ok b, fs)
          | Err e => (Err e, fs)
          end
        else (Ok b, fs)
    end.

  (* main.py 412-494 add_rider: object afterwards (also when it raises) *)
  Definition add_rider (b : bike) (fs : fsys) (riderName : string) (reCalc draw : bool) : bike * res unit :=
    let reCalc := draw || reCalc in
    if bo_hasRider b then (b, Ok tt) else
    let pathToData := fst (os_split (fst (os_split (bo_dir b)))) in
    let pathToRider := os_join (os_join pathToData "riders") riderName in
    match
      (bicyclePar <- dlook (bo_par b) "Benchmark" ;;
       let compute :=
         measuredPar <- dlook (bo_par b) "Measured" ;;
         '(riderPar, human) <- configure pathToRider (bo_name b) bicyclePar measuredPar draw ;;
         both <- combine bicyclePar riderPar ;;
         Ok (riderPar, Some human, both) in
       if reCalc then compute
       else
         let pathToParFile := os_join (os_join pathToRider "Parameters") (riderName ++ bo_name b ++ "Benchmark.txt") in
         match load_file fs pathToParFile with
         | Ok riderPar => both <- combine bicyclePar riderPar ;; Ok (riderPar, None, both)
         | Err IOError => compute
         | Err e => Err e
         end)
    with
    | Err e => (b, Err e)
    | Ok (riderPar, human, both) =>
        (mkbike (bo_name b) (bo_dir b) true (Some riderName) (dset (bo_riderPar b) "Benchmark" riderPar) human
           (dset (bo_par b) "Benchmark" both) (bo_extras b), Ok tt)
    end.

  (* main.py 199-211: the loop over the parameter sets; fileName grows *)
  Fixpoint save_sets (fs : fsys) (answers : list string) (parDir : string) (combDir : option string)
      (fileName : string) (psets : list string) (sets combined : dict (dict pval)) : res unit * fsys * list string :=
    match psets with
    | [] => (Ok tt, fs, answers)
    | pset :: rest =>
        let fileName := fileName ++ pset ++ ".txt" in
        match dlook sets pset with
        | Err e => (Err e, fs, answers)
        | Ok d =>
          match write_parameter_text_file str fs answers (os_join parDir fileName) d with
          | (Err e, fs1, an1) => (Err e, fs1, an1)
          | (Ok _, fs1, an1) =>
              match combDir with
              | None => save_sets fs1 an1 parDir combDir fileName rest sets combined
              | Some cd =>
                  match dlook combined pset with
                  | Err e => (Err e, fs1, an1)
                  | Ok dc =>
                      match write_parameter_text_file str fs1 an1 (os_join cd fileName) dc with
                      | (Err e, fs2, an2) => (Err e, fs2, an2)
                      | (Ok _, fs2, an2) => save_sets fs2 an2 parDir combDir fileName rest sets combined
                      end
                  end
              end
          end
        end
    end.
  (* main.py 170-219 save_parameters *)
  Definition save_parameters (b : bike) (fs : fsys) (answers : list string) (filetype : string) : res unit * fsys * list string :=
    let not_measured (d : dict (dict pval)) := filter (fun k => negb (String.eqb k "Measured")) (dkeys d) in
    let finish fs parDir combDir fileName sets :=
      if String.eqb filetype "text" then save_sets fs answers parDir combDir fileName (not_measured sets) sets (bo_par b)
      else if String.eqb filetype "matlab" || String.eqb filetype "pickle" then (Err (OtherError "NotImplementedError"), fs, answers)
      else (Ok tt, fs, answers) in
    if bo_hasRider b then
      match bo_riderName b with
      | None => (Err AttributeError, fs, answers)
      | Some rn =>
          let pathToData := fst (os_split (fst (os_split (bo_dir b)))) in
          let parDir := os_join (os_join (os_join pathToData "riders") rn) "Parameters" in
          let combDir := os_join parDir "Combined" in
          match (if path_exists fs combDir then Ok fs else makedirs fs combDir) with
          | Err e => (Err e, fs, answers)
          | Ok fs1 => finish fs1 parDir (Some combDir) (rn ++ bo_name b) (bo_riderPar b)
          end
      end
    else finish fs (os_join (bo_dir b) "Parameters") None (bo_name b) (bo_par b).
End State.
Arguments with_par {E H}. Arguments calculate_from_measured {E H}. Arguments new_bicycle {E} H. Arguments add_rider {E H}. Arguments save_parameters {E H}.
