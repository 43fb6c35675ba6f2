(* STable.v -- specification vocabulary for C49 (tables) and the rounding of
   uncertain numbers *)
From Verif Require Import Base MString MIo SIo MTable.
From Coq Require Import Sorted.
Local Open Scope string_scope.

(* list(set(l)): the elements of l, each once, in any order *)
Definition set_like (set_list : list string -> list string) : Prop :=
  forall l, NoDup (set_list l) /\ forall x, In x (set_list l) <-> In x l.
(* increasing when capitals are read as small letters *)
Definition ci_sorted : list string -> Prop := StronglySorted (fun a b => String.ltb (slower b) (slower a) = false).
(* the name occurs in the parameter set [source] of one of the bicycles *)
Definition occurs_in (source : string) (bikes : list tbike) (x : string) : Prop :=
  exists b d, In b bikes /\ dget (tb_par b) source = Some d /\ In x (dkeys d).
(* no two names differ in capitals only *)
Definition ci_distinct (source : string) (bikes : list tbike) : Prop :=
  forall x y, occurs_in source bikes x -> occurs_in source bikes y -> slower x = slower y -> x = y.

(* the text shows x with d decimals, within half a unit of the last one *)
Definition shows (d : nat) (t : string) (x : R) : Prop :=
  (exists v, denotes t v /\ Rabs (v - x) <= 1 / 2 / 10 ^ d) /\
  exists sg ip fp, t = sg ++ ip ++ "." ++ fp /\ (sg = "" \/ sg = "-") /\ all_digits ip /\ ip <> "" /\ all_digits fp /\ String.length fp = d.
(* the two cells for a parameter value *)
Inductive cell_pair (str : pval -> string) : option pval -> list string -> Prop :=
| cp_missing : cell_pair str None ["NA"; "NA"]
| cp_number x : cell_pair str (Some (PF x)) [str (PF x); "NA"]
| cp_zero n s : Rabs n < 1 / 10 ^ 15 -> cell_pair str (Some (PU n s)) ["0.0"; "0.0"]
| cp_large n s : 1 / 10 ^ 15 <= Rabs n -> 1 - 5 / 10 ^ 15 <= s -> cell_pair str (Some (PU n s)) [str (PU n s); "NA"]
| cp_rounded n s d a b : 1 / 10 ^ 15 <= Rabs n ->
    (1 <= d <= 14)%nat -> / 10 ^ d <= s + 5 / 10 ^ 15 -> s <= 10 / 10 ^ d + 5 / 10 ^ 15 -> 5 / 10 ^ 15 < s -> s < 1 ->
    shows d a n -> shows d b s -> cell_pair str (Some (PU n s)) [a; b].

(* a printed line of a table: bars around padded cells of the given widths *)
Definition table_line (line : string) (row : list string) (widths : list nat) : Prop :=
  exists padded, fields "|" line ("" :: padded ++ [""]) /\
    Forall2 (fun p c => exists k, p = " " ++ c ++ srep k " " ++ " ") padded row /\
    Forall2 (fun p w => String.length p = w) padded widths.
(* a rule of the table: a line of + - and = *)
Definition rule_line (line : string) : Prop := forall c, In c (list_ascii_of_string line) -> In c ["+"; "-"; "="]%char.
(* the width of a bicycle's two columns read as one *)
Fixpoint joined (ws : list nat) : list nat := match ws with a :: b :: ws' => (a + b + 1)%nat :: joined ws' | _ => [] end.
(* the printed table: rules and rows alternate, the first row carries the
   names of the bicycles over the two columns of each; all lines are equally
   long *)
Definition rst_layout (text : string) (names : list string) (rows : list (list string)) : Prop :=
  exists lines w0 ws, fields NL text lines /\ length lines = (2 * length rows + 3)%nat /\ length ws = (2 * length names)%nat /\
    (forall l l', In l lines -> In l' lines -> String.length l = String.length l') /\
    (forall i l, nth_error lines (2 * i) = Some l -> rule_line l) /\
    (exists l, nth_error lines 1 = Some l /\ table_line l ("" :: names) (w0 :: joined ws)) /\
    (forall i row, nth_error rows i = Some row -> exists l, nth_error lines (2 * i + 3) = Some l /\ table_line l row (w0 :: ws)).
(* the line under the names, and the rows as printed *)
Definition heads (latex : bool) (names : list string) : list string :=
  "Variable" :: concat (map (fun _ => if latex then [":math:`v`"; ":math:`\sigma`"] else ["v"; "sigma"]) names).
Definition printed_row (latex : bool) (row : list string) : list string :=
  match row with x :: r => (if latex then ":math:`" ++ x ++ "`" else x) :: r | [] => [] end.
(* a standard deviation is never negative *)
Definition std_ok (v : pval) : Prop := match v with PF _ => True | PU _ s => 0 <= s end.
(* the value is not nearly zero but its standard deviation is *)
Definition unprintable (v : option pval) : Prop :=
  match v with Some (PU n s) => 1 / 10 ^ 15 <= Rabs n /\ s <= 5 / 10 ^ 15 | _ => False end.
(* the parameters of the bicycles: standard deviations are not negative and
   plain numbers are not printed with +/- *)
Definition proper (str : pval -> string) (source : string) (bikes : list tbike) : Prop :=
  (forall b d x v, In b bikes -> dget (tb_par b) source = Some d -> dget d x = Some v -> std_ok v) /\
  forall x, ~ occurs "+/-" (str (PF x)).
(* the last two characters *)
Definition ends_with2 (var s : string) : Prop := String.length s = 2%nat /\ exists p, var = p ++ s.
(* the LaTeX label of a variable name *)
Inductive latex_label : string -> string -> Prop :=
| ll_letter a : In a ["f"; "w"; "g"; "d"; "l"; "c"] -> latex_label a a
| ll_gamma : latex_label "gamma" "\gamma"
| ll_lam : latex_label "lam" "\lambda"
| ll_lamst : latex_label "lamst" "\lambda_{st}"
| ll_length a s : In (String a s) ["lcs"; "hbb"; "lsp"; "lst"; "whb"; "xcl"; "zcl"; "ds1"; "ds3"] ->
    latex_label (String a s) (String a "" ++ "_{" ++ s ++ "}")
| ll_handlebar s : s = "hbF" \/ s = "hbR" -> latex_label ("L" ++ s) ("l_{" ++ s ++ "}")
| ll_alpha s var : ends_with2 ("alpha" ++ var) s -> latex_label ("alpha" ++ var) ("\alpha_{" ++ s ++ "}")
| ll_angle s : String.length s = 2%nat -> latex_label ("a" ++ s) ("a_{" ++ s ++ "}")
| ll_period c s var : ends_with2 ("T" ++ String c var) s -> latex_label ("T" ++ String c var) ("T^" ++ String c "" ++ "_{" ++ s ++ "}")
| ll_pair a b : a <> "T"%char -> latex_label (String a (String b "")) (String a "" ++ "_" ++ String b "")
| ll_inertia s : String.length s <> 1%nat -> latex_label ("I" ++ s) ("I_{" ++ s ++ "}").
(* one row: the label of the variable, then two cells for every bicycle *)
Definition row_of (str : pval -> string) (source : string) (latex : bool) (bikes : list tbike) (var : string) (row : list string) : Prop :=
  exists label css, row = label :: concat css /\ (if latex then latex_label var label else label = var) /\
    Forall2 (fun b cs => exists d, dget (tb_par b) source = Some d /\ cell_pair str (dget d var) cs) bikes css.
(* text that fits in a cell *)
Definition plain_text (s : string) : Prop := free NL s /\ free "|" s.
(* the bicycles' names, the labels and str() of the values fit in cells *)
Definition plain_table (str : pval -> string) (source : string) (latex : bool) (bikes : list tbike) : Prop :=
  (forall b, In b bikes -> plain_text (tb_name b)) /\ (forall v, plain_text (str v)) /\
  (forall x, occurs_in source bikes x -> plain_text x /\ forall l, latex = true -> latex_label x l -> plain_text l).
