(* SIo.v -- specification vocabulary for C34-C38: texts, decimal literals,
   parameter file lines, camel case words.  Uses no function of MIo.v except the
   data types of results. *)
From Verif Require Import Base MIo.
From Coq Require Import ZArith.
Local Open Scope string_scope.

Definition chars := list_ascii_of_string.
Definition free (c : ascii) (s : string) : Prop := ~ In c (chars s).
Definition blank (c : ascii) : Prop :=
  let n := nat_of_ascii c in (9 <= n <= 13 \/ 28 <= n <= 32 \/ n = 133 \/ n = 160)%nat.
Definition all_blank (s : string) : Prop := forall c, In c (chars s) -> blank c.
(* no white space at either end *)
Definition trimmed (s : string) : Prop :=
  (forall c s', s = String c s' -> ~ blank c) /\ (forall c s', s = s' ++ String c "" -> ~ blank c).
Definition trim_of (s t : string) : Prop :=
  exists a b, s = a ++ t ++ b /\ all_blank a /\ all_blank b /\ trimmed t.
(* [s] consists of the fields [ws] with [c] between them *)
Definition fields (c : ascii) (s : string) (ws : list string) : Prop :=
  ws <> [] /\ s = String.concat (String c "") ws /\ Forall (free c) ws.
(* [sub] occurs in [s] *)
Definition occurs (sub s : string) : Prop := exists a b, s = a ++ sub ++ b.

(* decimal literals *)
Definition digit (c : ascii) : Prop := (48 <= nat_of_ascii c <= 57)%nat.
Definition all_digits (s : string) : Prop := forall c, In c (chars s) -> digit c.
Record decimal := {
  d_sign : string;            (* "", "+" or "-" *)
  d_int : string;
  d_dot : bool;
  d_frac : string;
  d_exp : option (string * string * string) }.  (* "e"/"E", sign, digits *)
Definition sign_ok (s : string) : Prop := s = "" \/ s = "+" \/ s = "-".
Definition decimal_ok (d : decimal) : Prop :=
  sign_ok (d_sign d) /\ all_digits (d_int d) /\ all_digits (d_frac d) /\ (d_dot d = false -> d_frac d = "")
  /\ (d_int d <> "" \/ d_frac d <> "")
  /\ match d_exp d with
     | None => True
     | Some (e, s, ds) => (e = "e" \/ e = "E") /\ sign_ok s /\ all_digits ds /\ ds <> ""
     end.
Definition decimal_text (d : decimal) : string :=
  d_sign d ++ d_int d ++ (if d_dot d then "." else "") ++ d_frac d
  ++ match d_exp d with None => "" | Some (e, s, ds) => e ++ s ++ ds end.
(* positional values *)
Fixpoint int_value (s : string) : Z :=
  match s with
  | "" => 0
  | String c s' => (Z.of_nat (nat_of_ascii c) - 48) * 10 ^ Z.of_nat (String.length s') + int_value s'
  end%Z.
Fixpoint frac_value (s : string) : R :=
  match s with
  | "" => 0
  | String c s' => (IZR (Z.of_nat (nat_of_ascii c) - 48) + frac_value s') / 10
  end.
Definition sign_factor (s : string) : R := if String.eqb s "-" then -1 else 1.
Definition decimal_value (d : decimal) : R :=
  sign_factor (d_sign d) * (IZR (int_value (d_int d)) + frac_value (d_frac d))
  * match d_exp d with
    | None => 1
    | Some (_, s, ds) => if String.eqb s "-" then / powerRZ 10 (int_value ds) else powerRZ 10 (int_value ds)
    end.
(* the text denotes the real x, white space around the literal allowed *)
Definition denotes (s : string) (x : R) : Prop :=
  exists d, decimal_ok d /\ trim_of s (decimal_text d) /\ x = decimal_value d.
(* "nominal+/-std" *)
Definition denotes_pm (s : string) (u : R * R) : Prop :=
  exists a b, s = a ++ "+/-" ++ b /\ denotes a (fst u) /\ denotes b (snd u) /\ 0 <= snd u.

Definition average (l : list R) : R := fold_right Rplus 0 l / INR (length l).
(* the uncertain number written in one field: "nominal+/-std", or one of the
   uncertainties package's other notations (relation [other]) when the field has
   a parenthesis or no "+/-" *)
Definition uncertain (other : string -> R * R -> Prop) (s : string) (u : R * R) : Prop :=
  denotes_pm s u \/ ((occurs "(" s \/ ~ occurs "+/-" s) /\ other s u).
(* the value of a right hand side: the average of the comma separated numbers;
   uncertainties of independent measurements add in quadrature *)
Definition rhs_value (other : string -> R * R -> Prop) (s : string) (v : pval) : Prop :=
  exists t ws, trim_of s t /\ fields "," t ws /\
    ((~ occurs "+/-" s /\ exists xs, Forall2 denotes ws xs /\ v = PF (average xs))
     \/ (occurs "+/-" s /\ exists us, Forall2 (uncertain other) ws us
         /\ v = PU (average (map fst us)) (sqrt (fold_right (fun u a => snd u * snd u + a) 0 us) / INR (length us)))).

(* one line of a parameter file: "key = value", an optional comment after a
   hash; text after a second equals sign is ignored *)
Definition assigns (other : string -> R * R -> Prop) (line key : string) (v : pval) : Prop :=
  exists t body tail lhs rhs rest,
    trim_of line t /\ t = body ++ tail /\ free "#" body /\ (tail = "" \/ exists u, tail = String "#" u)
    /\ body = lhs ++ "=" ++ rhs ++ rest /\ free "=" lhs /\ free "=" rhs
    /\ (rest = "" \/ exists u, rest = String "=" u)
    /\ trim_of lhs key /\ rhs_value other rhs v.
Definition comment_line (line : string) : Prop := exists u, line = String "#" u.
Inductive line_reads (other : string -> R * R -> Prop) (line : string) : option (string * pval) -> Prop :=
| lr_comment : comment_line line -> line_reads other line None
| lr_assign k v : ~ comment_line line -> assigns other line k v -> line_reads other line (Some (k, v)).

(* universal newlines: how the characters of a file are read in text mode; "\r\n", "\r"
   and "\n" each end a line and are read as "\n", everything else is read as it is *)
Inductive read_as : string -> string -> Prop :=
| ra_end : read_as "" ""
| ra_crlf s t : read_as s t -> read_as (String "013" (String "010" s)) (String "010" t)
| ra_cr s t : (forall u, s <> String "010" u) -> read_as s t -> read_as (String "013" s) (String "010" t)
| ra_char c s t : c <> "013"%char -> read_as s t -> read_as (String c s) (String c t).

(* [s] is the concatenation of the lines [ls]; every line but possibly the last
   ends with its only newline *)
Definition text_lines (s : string) (ls : list string) : Prop :=
  s = fold_right append "" ls
  /\ Forall (fun l => l <> "") ls
  /\ (forall i l, nth_error ls i = Some l ->
        exists m, free NL m /\ (l = m ++ String NL "" \/ (l = m /\ S i = length ls))).

(* value of the last assignment to key k *)
Fixpoint last_assigned (k : string) (l : list (option (string * pval))) : option pval :=
  match l with
  | [] => None
  | a :: l' => match last_assigned k l' with
               | Some v => Some v
               | None => match a with Some (k', v) => if String.eqb k k' then Some v else None | None => None end
               end
  end.

(* a key that survives being written on a line "key = value" *)
Definition clean_key (k : string) : Prop := trimmed k /\ free "=" k /\ free "#" k /\ free NL k /\ free CR k.
Definition clean_text (s : string) : Prop :=
  trimmed s /\ s <> "" /\ free "=" s /\ free "#" s /\ free NL s /\ free CR s.

(* the line for one entry *)
Definition entry_line (k text : string) : string := k ++ " = " ++ text ++ String NL "".

(* ------------------------------------------------------------------ *)
(* camel case *)
Definition upper (c : ascii) : Prop := (65 <= nat_of_ascii c <= 90)%nat.
Definition lower (c : ascii) : Prop := (97 <= nat_of_ascii c <= 122)%nat.
(* between [a] and [b] a new word begins: b starts with a capital followed by a
   small letter, or a ends with a small letter and b starts with a capital *)
Definition word_start (a b : string) : Prop :=
  exists c b', b = String c b' /\ upper c /\
    ((exists d b'', b' = String d b'' /\ lower d) \/ (exists a' d, a = a' ++ String d "" /\ lower d)).
Definition despace (s : string) : string :=
  string_of_list_ascii (filter (fun c => negb (Ascii.eqb c " ")) (chars s)).
(* a camel case word: a capital and one or more small letters *)
Definition camel_word (w : string) : Prop :=
  exists c d w', w = String c (String d w') /\ upper c /\ lower d /\ forall x, In x (chars w') -> lower x.

(* ------------------------------------------------------------------ *)
(* printed numbers: a decimal literal, or nominal+/-std *)
Inductive printed := PrDec (d : decimal) | PrPm (a b : decimal).
Definition printed_ok (p : printed) : Prop :=
  match p with
  | PrDec d => decimal_ok d
  | PrPm a b => decimal_ok a /\ decimal_ok b /\ 0 <= decimal_value b
  end.
Definition printed_text (p : printed) : string :=
  match p with PrDec d => decimal_text d | PrPm a b => decimal_text a ++ "+/-" ++ decimal_text b end.
Definition printed_value (p : printed) : pval :=
  match p with PrDec d => PF (decimal_value d) | PrPm a b => PU (decimal_value a) (decimal_value b) end.

(* the text read in text mode is empty or ends with a newline *)
Definition ends_properly (s : string) : Prop := s = "" \/ exists m, s = m ++ String NL "".

(* what removing uncertainties means for one value *)
Inductive without_std : mval -> mval -> Prop :=
| ws_u n s : without_std (MScalar (SUfloat n s)) (MScalar (SFloat n))
| ws_f x : without_std (MScalar (SFloat x)) (MScalar (SFloat x))
| ws_l us : without_std (MList (map (fun u => SUfloat (fst u) (snd u)) us)) (MList (map (fun u => SFloat (fst u)) us)).
