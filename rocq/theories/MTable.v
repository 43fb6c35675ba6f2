(* MTable.v -- model of /repo/bicycleparameters/tables.py.

   Values are exact reals (PF) or nominal/standard deviation pairs (PU).  The
   iteration order of a Python set is a parameter.  Rounding and fixed point
   formatting are exact (nearest, ties to even); the sign of a negative number
   that rounds to zero is not kept by round(). *)
From Verif Require Import Base MString MIo MPeriod.
From Coq Require Import ZArith.
Local Open Scope string_scope.

(* ---------------- numbers as text ---------------- *)
(* nearest integer, ties to even: round(x) *)
Definition round_even (x : R) : Z :=
  let n := (up x - 1)%Z in                       (* floor *)
  let r := x - IZR n in
  if Rltb r (1/2) then n
  else if Rltb (1/2) r then (n + 1)%Z
  else if Z.even n then n else (n + 1)%Z.
(* round(x, d) *)
Definition round_dec (d : nat) (x : R) : R := IZR (round_even (x * 10 ^ d)) / 10 ^ d.
Definition zchar (z : Z) : ascii := ascii_of_nat (48 + Z.to_nat z).
(* the last k decimal digits of z *)
Fixpoint pad_digits (k : nat) (z : Z) : string :=
  match k with O => "" | S k' => pad_digits k' (z / 10) ++ String (zchar (z mod 10)) "" end.
(* all digits, no leading zeros *)
Fixpoint zdigits (fuel : nat) (z : Z) : string :=
  match fuel with
  | O => String (zchar (z mod 10)) ""
  | S f => if (z <? 10)%Z then String (zchar z) "" else zdigits f (z / 10) ++ String (zchar (z mod 10)) ""
  end.
Definition znat_str (z : Z) : string := zdigits (Z.to_nat (Z.log2 z)) z.
(* '%.<d>f' % x *)
Definition fmt_fixed (d : nat) (x : R) : string :=
  let z := round_even (Rabs x * 10 ^ d) in
  (if Rltb x 0 then "-" else "") ++ znat_str (z / 10 ^ Z.of_nat d)
  ++ (match d with O => "" | _ => String "." (pad_digits d z) end).
(* tables.py 240-246: position of the first character that is not '0' or '.' *)
Fixpoint first_digit (j : nat) (s : string) : option nat :=
  match s with
  | "" => None
  | String c s' => if Ascii.eqb c "0" || Ascii.eqb c "." then first_digit (S j) s' else Some j
  end.
Fixpoint srep (n : nat) (s : string) : string := match n with O => "" | S n' => s ++ srep n' s end.

Section Table.
  (* str() of a value *)
  Variable str : pval -> string.
  (* list(set(l)) *)
  Variable set_list : list string -> list string.

  (* tables.py 205-256 uround.  The format '%.-1f' raises ValueError *)
  Definition uround (v : pval) : res string :=
    match v with
    | PF _ => Ok (str v)
    | PU nom uncert =>
        if Rltb (Rabs nom) (1 / 10 ^ 15) then Ok "0.0+/-0.0"
        else match first_digit 0 (fmt_fixed 14 uncert) with
             | None => Err UnboundLocalError
             | Some O => Err (ValueError "unsupported format character")
             | Some (S d) =>
                 let newUncertStr := fmt_fixed d (round_dec d uncert) in
                 let newNom := round_dec (String.length newUncertStr - 2) nom in
                 let newNomStr := fmt_fixed d newNom in
                 if (String.length newNomStr <? String.length newUncertStr)%nat
                 then Ok (newNomStr ++ srep (String.length newUncertStr - String.length newNomStr) "0" ++ "+/-" ++ newUncertStr)
                 else Ok (newNomStr ++ "+/-" ++ newUncertStr)
             end
    end.

  (* str.lower() for ascii text *)
  Definition lower_char (c : ascii) : ascii :=
    let n := nat_of_ascii c in if ((65 <=? n) && (n <=? 90))%nat then ascii_of_nat (n + 32) else c.
  Fixpoint slower (s : string) : string := match s with "" => "" | String c s' => String (lower_char c) (slower s') end.
  (* sorted(l, key=lower): stable *)
  Fixpoint insert_by (x : string) (l : list string) : list string :=
    match l with
    | [] => [x]
    | y :: l' => if String.ltb (slower y) (slower x) then y :: insert_by x l' else x :: l
    end.
  Definition sort_by_lower (l : list string) : list string := fold_right insert_by [] l.

  Record tbike := mktb { tb_name : string; tb_par : dict (dict pval) }.
  (* tables.py 31-41 generate_variable_list *)
  Definition generate_variable_list (source : string) (bikes : list tbike) : res (list string) :=
    ds <- mapM (fun b => d <- dlook (tb_par b) source ;; Ok (dkeys d)) bikes ;;
    Ok (sort_by_lower (set_list (concat ds))).

  Definition latexMap : dict string :=
    [("f", "f"); ("w", "w"); ("gamma", "\gamma"); ("g", "g"); ("lcs", "l_{cs}"); ("hbb", "h_{bb}"); ("lsp", "l_{sp}");
     ("lst", "l_{st}"); ("lamst", "\lambda_{st}"); ("whb", "w_{hb}"); ("LhbF", "l_{hbF}"); ("LhbR", "l_{hbR}"); ("d", "d");
     ("l", "l"); ("c", "c"); ("lam", "\lambda"); ("xcl", "x_{cl}"); ("zcl", "z_{cl}"); ("ds1", "d_{s1}"); ("ds3", "d_{s3}")].
  (* s[-2:] *)
  Definition last2 (s : string) : string := sdrop (String.length s - 2) s.
  (* tables.py 151-202 to_latex *)
  Definition to_latex (var : string) : res string :=
    match dget latexMap var with
    | Some l => Ok l
    | None =>
        if starts_with "alpha" var then Ok ("\alpha_{" ++ last2 var ++ "}")
        else if starts_with "a" var && (String.length var =? 3)%nat then Ok ("a_{" ++ last2 var ++ "}")
        else if starts_with "T" var then c <- schar 1 var ;; Ok ("T^" ++ c ++ "_{" ++ last2 var ++ "}")
        else if (String.length var =? 2)%nat then Ok (stake 1 var ++ "_" ++ sdrop 1 var)
        else if starts_with "I" var then Ok (stake 1 var ++ "_{" ++ sdrop 1 var ++ "}")
        else Err (KeyError var)
    end.

  (* s.split('+/-') unpacked into two names *)
  Definition unpack_pm (s : string) : res (string * string) :=
    match cut_first "+/-" s with
    | Some (a, b) => if contains "+/-" b then Err (ValueError "unpack") else Ok (a, b)
    | None => Err (ValueError "unpack")
    end.
  (* tables.py 55-64: value and uncertainty cells of one bicycle *)
  Definition cells (source var : string) (b : tbike) : res (list string) :=
    match (d <- dlook (tb_par b) source ;; v <- dlook d var ;; s <- uround v ;; unpack_pm s) with
    | Ok (val, sig) => Ok [val; sig]
    | Err (ValueError _) => d <- dlook (tb_par b) source ;; v <- dlook d var ;; Ok [str v; "NA"]
    | Err (KeyError _) => Ok ["NA"; "NA"]
    | Err e => Err e
    end.
  (* tables.py 43-66 generate_table_data *)
  Definition generate_table_data (source : string) (latex : bool) (bikes : list tbike) (vars : list string) : res (list (list string)) :=
    mapM (fun var =>
        first <- (if latex then to_latex var else Ok var) ;;
        cs <- mapM (cells source var) bikes ;;
        Ok (first :: concat cs)) vars.

  (* the table object: flags, bicycles, tableData *)
  Record table := mktable { tab_latex : bool; tab_bikes : list tbike; tab_data : list (list string) }.
  (* tables.py 9-29 Table(source, latex, bicycles) *)
  Definition new_table (source : string) (latex : bool) (bikes : list tbike) : res table :=
    vars <- generate_variable_list source bikes ;;
    data <- generate_table_data source latex bikes vars ;;
    Ok (mktable latex bikes data).

  (* tables.py 101-109: the widths of the columns *)
  Fixpoint widen (sizes largest : list nat) : list nat :=
    match sizes, largest with
    | s :: ss, l :: ls => (if (l <? s)%nat then s else l) :: widen ss ls
    | _, _ => largest
    end.
  Definition column_widths (bikes : list tbike) (data : list (list string)) : list nat :=
    fold_left (fun largest row => widen (map String.length row) largest) data
      (0%nat :: flat_map (fun b => let l := Nat.div2 (S (String.length (tb_name b))) in [l; l]) bikes).
  Definition spaces (n : nat) : string := srep n " ".
  (* tables.py 124-140: separator line and cells of one row *)
  Definition sep_line (dash : string) (widths : list nat) : string :=
    sconcat (map (fun w => "+" ++ srep (w + 2) dash) widths) ++ "+".
  Definition cell_line (row : list string) (widths : list nat) : string :=
    "|" ++ sconcat (map (fun iw => " " ++ fst iw ++ spaces (snd iw - String.length (fst iw)) ++ " |") (combine row widths)).
  Fixpoint pairs (l : list nat) : list (nat * nat) :=
    match l with a :: b :: l' => (a, b) :: pairs l' | _ => [] end.
  (* tables.py 68-148 create_rst_table(): text and the object afterwards *)
  Definition create_rst_table (t : table) : string * table :=
    let bikes := tab_bikes t in
    let data1 := if tab_latex t then
                   map (fun row => match row with x :: r => (":math:`" ++ x ++ "`") :: r | [] => [] end) (tab_data t)
                 else tab_data t in
    let header := "Variable" :: flat_map (fun _ => if tab_latex t then [":math:`v`"; ":math:`\sigma`"] else ["v"; "sigma"]) bikes in
    let data := header :: data1 in
    let widths := column_widths bikes data in
    let two := pairs (tl widths) in
    let nl := String NL "" in
    let top := "+" ++ srep (hd 0%nat widths + 2) "-" ++ sconcat (map (fun p => "+" ++ srep (fst p + snd p + 5) "-") two) in
    let names := "|" ++ spaces (hd 0%nat widths + 2)
                 ++ sconcat (map (fun bp => "| " ++ tb_name (fst bp) ++ spaces (fst (snd bp) + snd (snd bp) + 4 - String.length (tb_name (fst bp)))) (combine bikes two)) in
    let row_text dash row := sep_line dash (firstn (length row) widths) ++ nl ++ cell_line row widths ++ nl in
    let last_dash := match data1 with [] => "=" | _ => "-" end in
    (top ++ "+" ++ nl ++ names ++ "|" ++ nl ++ row_text "=" header ++ sconcat (map (row_text "-") data1) ++ sep_line last_dash widths,
     mktable (tab_latex t) bikes data).
End Table.
