(* MPack.v -- utils/package_data.py: the archives of the measured data *)
From Verif Require Import Base MString MIo MState.
Local Open Scope string_scope.

(* str.endswith, as in [utils/package_data.py:19-23, 49-52] *)
Definition ends_text (suf s : string) : bool := String.eqb (sdrop (String.length s - String.length suf) s) suf.
(* [utils/package_data.py:18-23, 48-52] the rules for files *)
Definition raw_file_check (f bike : string) : bool := ends_text ".mat" f || ends_text "Measured.txt" f.
Definition par_file_check (f bike : string) : bool := starts_with bike f && ends_text ".txt" f.
Definition photo_file_check (f bike : string) : bool := starts_with bike f && ends_text ".jpg" f.
Definition rider_raw_check (f rider : string) : bool := starts_with rider f && (ends_text "YeadonCFG.txt" f || ends_text "YeadonMeas.txt" f).
(* [utils/package_data.py:12-14, 17, 24, 44, 47, 53] *)
Definition bicycles : list string :=
  ["Benchmark"; "Browser"; "Browserins"; "Crescendo"; "Fisher"; "Gyro"; "Pista"; "Rigid"; "Silver"; "Stratos"; "Yellow"; "Yellowrev"].
Definition bicycle_rules : list (string * (string -> string -> bool)) := [("RawData", raw_file_check); ("Parameters", par_file_check); ("Photos", photo_file_check)].
Definition riders : list string := ["Aurelia"; "Chris"; "Jason"; "Luke"; "Mont"].
Definition rider_rules : list (string * (string -> string -> bool)) := [("Parameters", par_file_check); ("RawData", rider_raw_check)].

(* s.split(sep)[1], as in [utils/package_data.py:39, 42, 67, 70] *)
Definition split_1 (sep s : string) : res string :=
  match cut_first sep s with
  | None => Err IndexError
  | Some (_, rest) => match cut_first sep rest with None => Ok rest | Some (middle, _) => Ok middle end
  end.
(* [utils/package_data.py:37-42, 66-70] the name in the archives *)
Definition arcname (top path : string) : res string := x <- split_1 top path ;; Ok (os_join (os_join "data" top) (sdrop 1 x)).
(* [utils/package_data.py:26-42, 55-70] one folder; what is printed is left out, and so is that
   tar.add also adds the contents if the entry is a folder itself *)
Definition pack_folder (fs : fsys) (data top name : string) (fr : string * (string -> string -> bool)) : res (list (string * string)) :=
  let d := os_join (os_join (os_join data top) name) (fst fr) in
  match listdir fs d with
  | Err _ => Ok []
  | Ok files => mapM (fun f => n <- arcname top (os_join d f) ;; Ok (n, os_join d f)) (filter (fun f => snd fr f name) files)
  end.
(* [utils/package_data.py:15-25, 45-54] all folders of all bicycles, or of all riders *)
Definition pack_all (fs : fsys) (data top : string) (names : list string) (rules : list (string * (string -> string -> bool))) : res (list (string * string)) :=
  l <- mapM (fun name => k <- mapM (pack_folder fs data top name) rules ;; Ok (concat k)) names ;; Ok (concat l).
(* [utils/package_data.py:5-74] package_data: name in the archive and file, for every member; the
   tar and the zip file get the same members.  (The file is Python 2 code: print without
   parentheses.) *)
Definition package_data (fs : fsys) (data : string) : res (list (string * string)) :=
  b <- pack_all fs data "bicycles" bicycles bicycle_rules ;; r <- pack_all fs data "riders" riders rider_rules ;; Ok (b ++ r)%list.
