(* MIo.v -- model of bicycleparameters/io.py.

   Text is a [string] of 8-bit characters.  Numbers are idealised: float(text)
   is the exact real denoted by a decimal literal; 'inf', 'nan' and digit group
   underscores are not modelled (they are rejected here).  The file system is a
   set of directory names and a map from paths to contents; permissions, disk
   errors and concurrent processes are not modelled.  load_pendulum_mat_file
   (io.py 77-99) is modelled from the decoded dictionary on, in MPeriod2.v. *)
From Verif Require Import Base MString.
From Coq Require Import ZArith.
Local Open Scope string_scope.

(* ------------------------------------------------------------------ *)
(* str operations                                                      *)

(* c.isspace() for an 8-bit character *)
Definition is_ws (c : ascii) : bool :=
  let n := nat_of_ascii c in
  ((9 <=? n) && (n <=? 13) || (28 <=? n) && (n <=? 32) || (n =? 133) || (n =? 160))%nat.
Fixpoint lstrip (s : string) : string :=
  match s with String c s' => if is_ws c then lstrip s' else s | "" => "" end.
Fixpoint rstrip (s : string) : string :=
  match s with
  | "" => ""
  | String c s' => match rstrip s' with
                   | "" => if is_ws c then "" else String c ""
                   | r => String c r
                   end
  end.
(* s.strip() *)
Definition strip (s : string) : string := rstrip (lstrip s).

(* s.split(c) for a one-character separator: never empty *)
Fixpoint split_on (c : ascii) (s : string) : list string :=
  match s with
  | "" => [""]
  | String x s' =>
      if Ascii.eqb x c then "" :: split_on c s'
      else match split_on c s' with w :: ws => String x w :: ws | [] => [String x ""] end
  end.

(* sub in s *)
Fixpoint contains (sub s : string) : bool :=
  starts_with sub s || match s with "" => false | String _ s' => contains sub s' end.

(* text before / after the first occurrence of sub *)
Fixpoint cut_first (sub s : string) : option (string * string) :=
  if starts_with sub s then Some ("", sdrop (String.length sub) s)
  else match s with
       | "" => None
       | String c s' => match cut_first sub s' with Some (a, b) => Some (String c a, b) | None => None end
       end.

Definition NL : ascii := "010"%char.
Definition CR : ascii := "013"%char.

(* open(path, 'r'): universal newlines, "\r\n" and "\r" are read as "\n" *)
Fixpoint univ_nl (s : string) : string :=
  match s with
  | "" => ""
  | String c s' =>
      if Ascii.eqb c CR then
        String NL (match s' with
                   | String d s'' => if Ascii.eqb d NL then univ_nl s'' else univ_nl s'
                   | "" => ""
                   end)
      else String c (univ_nl s')
  end.

(* "for line in f": every line with its terminating newline, if it has one *)
Fixpoint file_lines (s : string) : list string :=
  match s with
  | "" => []
  | String c s' =>
      if Ascii.eqb c NL then String c "" :: file_lines s'
      else match file_lines s' with
           | [] => [String c ""]
           | w :: ws => String c w :: ws
           end
  end.

(* ------------------------------------------------------------------ *)
(* numbers in text                                                     *)

Definition is_digit (c : ascii) : bool := let n := nat_of_ascii c in ((48 <=? n) && (n <=? 57))%nat.
Definition digit_val (c : ascii) : Z := (Z.of_nat (nat_of_ascii c) - 48)%Z.
Fixpoint take_digits (s : string) : string * string :=
  match s with
  | String c s' => if is_digit c then let '(a, b) := take_digits s' in (String c a, b) else ("", s)
  | "" => ("", "")
  end.
Fixpoint digits_acc (acc : Z) (s : string) : Z :=
  match s with "" => acc | String c s' => digits_acc (10 * acc + digit_val c) s' end.
Definition take_sign (s : string) : bool * string :=
  match s with
  | String c s' => if Ascii.eqb c "-" then (true, s') else if Ascii.eqb c "+" then (false, s') else (false, s)
  | "" => (false, "")
  end.
Definition take_frac (s : string) : string * string :=
  match s with
  | String c s' => if Ascii.eqb c "." then take_digits s' else ("", s)
  | "" => ("", "")
  end.
(* exponent part; None when the remaining text is not an exponent *)
Definition take_exp (s : string) : option Z :=
  match s with
  | "" => Some 0%Z
  | String c s' =>
      if Ascii.eqb c "e" || Ascii.eqb c "E" then
        let '(neg, r) := take_sign s' in
        let '(d, r') := take_digits r in
        match d, r' with
        | String _ _, "" => Some (if neg then - digits_acc 0 d else digits_acc 0 d)%Z
        | _, _ => None
        end
      else None
  end.
(* float(text) *)
Definition pfloat (text : string) : res R :=
  let '(neg, r0) := take_sign (strip text) in
  let '(ip, r1) := take_digits r0 in
  let '(fp, r2) := take_frac r1 in
  match ip ++ fp, take_exp r2 with
  | String _ _ as m, Some e =>
      let v := IZR (digits_acc 0 m) * powerRZ 10 (e - Z.of_nat (String.length fp)) in
      Ok (if neg then - v else v)
  | _, _ => Err (ValueError "could not convert string to float")
  end.

(* A number read from a file: a float, or a nominal value with a standard
   deviation. *)
Inductive pval := PF (x : R) | PU (nom std : R).

(* ufloat(nominal, std) : negative standard deviations are refused by the
   uncertainties package *)
Definition mk_ufloat (n s : R) : res (R * R) :=
  if Rlt_dec s 0 then Err (OtherError "NegativeStdDev") else Ok (n, s).

(* uncertainties.ufloat_fromstr for the form "nominal+/-std"; the package's
   other notations (shorthand "1.2(3)", implied last digit, global exponent) go
   to the parameter [other]. *)
Definition ufloat_fromstr (other : string -> res (R * R)) (text : string) : res (R * R) :=
  if contains "(" text then other text
  else match cut_first "+/-" text with
       | Some (a, b) => n <- pfloat a ;; s <- pfloat b ;; mk_ufloat n s
       | None => other text
       end.

(* np.mean of a non-empty list of floats, and of independent ufloats *)
Definition mean (l : list R) : R := rsum l / INR (length l).
Definition umean (l : list (R * R)) : pval :=
  PU (mean (map fst l)) (sqrt (rsum (map (fun u => Rsqr (snd u)) l)) / INR (length l)).

(* ------------------------------------------------------------------ *)
(* io.py 57-72: the body of the loop of load_parameter_text_file for one line
   not starting with a hash *)
Definition parse_line (other : string -> res (R * R)) (line : string) : res (string * pval) :=
  let body := hd "" (split_on "#" (strip line)) in
  let equality := split_on "=" body in
  rhs <- match nth_error equality 1 with Some r => Ok r | None => Err IndexError end ;;
  let valList := split_on "," (strip rhs) in
  v <- (if contains "+/-" rhs
        then us <- mapM (ufloat_fromstr other) valList ;; Ok (umean us)
        else xs <- mapM pfloat valList ;; Ok (PF (mean xs))) ;;
  Ok (strip (hd "" equality), v).

(* io.py 52-74: one pass over the lines, later assignments override *)
Fixpoint load_lines (other : string -> res (R * R)) (d : dict pval) (ls : list string) : res (dict pval) :=
  match ls with
  | [] => Ok d
  | l :: ls' =>
      if starts_with "#" l then load_lines other d ls'
      else kv <- parse_line other l ;; load_lines other (dset d (fst kv) (snd kv)) ls'
  end.
(* io.py 26-74 load_parameter_text_file, applied to the content of the file *)
Definition load_text (other : string -> res (R * R)) (content : string) : res (dict pval) :=
  load_lines other [] (file_lines (univ_nl content)).

(* ------------------------------------------------------------------ *)
(* The file system                                                     *)
Record fsys := { fs_dirs : list string; fs_files : dict string }.

Definition slash : ascii := "/"%char.
(* position-free os.path.split: text up to and including the last '/', rest *)
Fixpoint split_last_slash (s : string) : option (string * string) :=
  match s with
  | "" => None
  | String c s' =>
      match split_last_slash s' with
      | Some (h, t) => Some (String c h, t)
      | None => if Ascii.eqb c slash then Some (String c "", s') else None
      end
  end.
Fixpoint rstrip_slash (s : string) : string :=
  match s with
  | "" => ""
  | String c s' => match rstrip_slash s' with
                   | "" => if Ascii.eqb c slash then "" else String c ""
                   | r => String c r
                   end
  end.
(* os.path.split (posix) *)
Definition os_split (p : string) : string * string :=
  match split_last_slash p with
  | None => ("", p)
  | Some (h, t) => (match rstrip_slash h with "" => h | r => r end, t)
  end.
Definition isdir (fs : fsys) (p : string) : bool := smem p (fs_dirs fs).
(* every proper ancestor of a path that os.makedirs would create *)
Fixpoint ancestors (s : string) : list string :=
  match s with
  | "" => []
  | String c s' =>
      (if Ascii.eqb c slash then [""] else []) ++ map (String c) (ancestors s')
  end%list.
(* os.makedirs of a directory that is not there; simplified: path names are not
   normalised *)
Definition makedirs (fs : fsys) (p : string) : res fsys :=
  if String.eqb p "" then Err IOError
  else if existsb (fun q => dmem (fs_files fs) q) (p :: ancestors p) then Err IOError
  else Ok {| fs_dirs := p :: filter (fun q => negb (isdir fs q) && negb (String.eqb q "")) (ancestors p) ++ fs_dirs fs;
             fs_files := fs_files fs |}.
(* open(p) / open(p).read() *)
Definition open_r (fs : fsys) (p : string) : res string :=
  match dget (fs_files fs) p with Some t => Ok t | None => Err IOError end.
(* f = open(p, 'w'); f.write(text); f.close() *)
Definition open_w (fs : fsys) (p text : string) : res fsys :=
  if isdir fs p || String.eqb (snd (os_split p)) "" then Err IOError
  else Ok {| fs_dirs := fs_dirs fs; fs_files := dset (fs_files fs) p text |}.

(* io.py 145-148: while ans != 'y' and ans != 'n': ans = input(..) ; the answers
   typed by the user are a list, end of input raises EOFError *)
Fixpoint ask (answers : list string) : option (string * list string) :=
  match answers with
  | [] => None
  | a :: rest => if String.eqb a "y" || String.eqb a "n" then Some (a, rest) else ask rest
  end.

(* io.py 155-158: the text written for a dictionary; [str] is Python's str() on
   the values *)
Definition par_line {V} (str : V -> string) (kv : string * V) : string :=
  fst kv ++ " = " ++ str (snd kv) ++ String NL "".
Definition sorted_items {V} (d : dict V) : list (string * V) :=
  flat_map (fun k => match dget d k with Some v => [(k, v)] | None => [] end) (ssort (dkeys d)).
Definition sconcat (l : list string) : string := fold_right append "" l.
Definition par_text {V} (str : V -> string) (d : dict V) : string :=
  sconcat (map (par_line str) (sorted_items d)).

(* io.py 119-165 write_parameter_text_file: returned value, file system and
   unread answers afterwards *)
Definition write_parameter_text_file {V} (str : V -> string) (fs : fsys) (answers : list string)
    (path : string) (d : dict V) : res bool * fsys * list string :=
  let '(head, _) := os_split path in
  match (if isdir fs head then Ok fs else makedirs fs head) with
  | Err e => (Err e, fs, answers)
  | Ok fs1 =>
      let save (rest : list string) :=
        match open_w fs1 path (par_text str d) with
        | Ok fs2 => (Ok true, fs2, rest)
        | Err e => (Err e, fs1, rest)
        end in
      match open_r fs1 path with
      | Ok _ =>
          match ask answers with
          | None => (Err (OtherError "EOFError"), fs1, [])
          | Some (a, rest) => if String.eqb a "y" then save rest else (Ok false, fs1, rest)
          end
      | Err _ => save answers
      end
  end.

(* io.py 203-214: the new content of the raw file *)
Definition periods_text {V} (str : V -> string) (old : string) (mp : dict V) : string :=
  sconcat (filter (fun l => negb (starts_with "T" l)) (file_lines (univ_nl old)))
  ++ sconcat (map (par_line str) (sorted_items (filter (fun kv => starts_with "T" (fst kv)) mp))).
(* io.py 189-219 write_periods_to_file *)
Definition write_periods_to_file {V} (str : V -> string) (fs : fsys) (path : string) (mp : dict V) : res fsys :=
  old <- open_r fs path ;; open_w fs path (periods_text str old mp).

(* ------------------------------------------------------------------ *)
(* Camel case                                                          *)
Definition is_upper (c : ascii) : bool := let n := nat_of_ascii c in ((65 <=? n) && (n <=? 90))%nat.
Definition is_lower (c : ascii) : bool := let n := nat_of_ascii c in ((97 <=? n) && (n <=? 122))%nat.
(* io.py 181: does the pattern (?=[A-Z][a-z])|(?<=[a-z])(?=[A-Z]) match in front
   of [s] when [prev] is the character before? *)
Definition camel_here (prev : option ascii) (s : string) : bool :=
  match s with
  | String c s' =>
      is_upper c && (match s' with String d _ => is_lower d | "" => false end
                     || match prev with Some b => is_lower b | None => false end)
  | "" => false
  end.
(* re.sub(pattern, ' ', s): a space at every match *)
Fixpoint camel_sub (prev : option ascii) (s : string) : string :=
  match s with
  | "" => ""
  | String c s' =>
      if camel_here prev s then String " " (String c (camel_sub (Some c) s'))
      else String c (camel_sub (Some c) s')
  end.
Inductive camel_out := CString (s : string) | CList (l : list string).
(* io.py 168-186 space_out_camel_case *)
Definition space_out_camel_case (s output : string) : res camel_out :=
  if String.eqb output "string" then Ok (CString (strip (camel_sub None s)))
  else if String.eqb output "list" then Ok (CList (split_on " " (strip (camel_sub None s))))
  else Err (ValueError "").

(* os.path.splitext(p)[0] for a name without a directory part: cut at the last
   dot that has a character other than '.' somewhere before it *)
Fixpoint cut_last_dot (s : string) : option string :=
  match s with
  | "" => None
  | String c s' =>
      match cut_last_dot s' with
      | Some r => Some (String c r)
      | None => if Ascii.eqb c "." then Some "" else None
      end
  end.
Fixpoint all_dots (s : string) : bool :=
  match s with "" => true | String c s' => Ascii.eqb c "." && all_dots s' end.
Definition splitext0 (s : string) : string :=
  match cut_last_dot s with Some r => if all_dots r then s else r | None => s end.

(* s[-1], s[:-1] *)
Fixpoint slast (s : string) : res string :=
  match s with "" => Err IndexError | String c "" => Ok (String c "") | String _ s' => slast s' end.
Fixpoint sinit (s : string) : string :=
  match s with "" => "" | String c "" => "" | String c s' => String c (sinit s') end.
(* io.py 10-23 filename_to_dict *)
Definition filename_to_dict (filename : string) : res (dict string) :=
  let o := split_on " " (strip (camel_sub None (splitext0 filename))) in
  let w := last o "" in
  trial <- slast w ;;
  let o' := (removelast o ++ [sinit w; trial])%list in
  Ok (fold_left (fun d wv => dset d (fst wv) (snd wv))
        (combine ["bicycle"; "part"; "pendulum"; "angleOrder"; "trial"] o') []).

(* ------------------------------------------------------------------ *)
(* Values of a measured parameter dictionary, as far as remove_uncertainties
   distinguishes them *)
Inductive scalar := SFloat (x : R) | SUfloat (nom std : R).
Inductive mval := MScalar (s : scalar) | MList (l : list scalar) | MText (s : string).
(* x.nominal_value *)
Definition nominal (s : scalar) : res R :=
  match s with SUfloat n _ => Ok n | SFloat _ => Err AttributeError end.
(* io.py 105-115: one value.  A float has neither nominal_value nor iteration; a
   list of plain floats and a str raise AttributeError from the inner try, which
   only catches TypeError (an empty list or str gives an empty list) *)
Definition remove_one (v : mval) : res mval :=
  match v with
  | MScalar (SUfloat n _) => Ok (MScalar (SFloat n))
  | MScalar (SFloat x) => Ok (MScalar (SFloat x))
  | MList l => xs <- mapM nominal l ;; Ok (MList (map SFloat xs))
  | MText "" => Ok (MList [])
  | MText _ => Err AttributeError
  end.
(* io.py 102-116 remove_uncertainties *)
Definition remove_uncertainties (d : dict mval) : res (dict mval) :=
  mapM (fun kv => v <- remove_one (snd kv) ;; Ok (fst kv, v)) d.
