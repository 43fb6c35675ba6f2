(* SSets2.v -- specification vocabulary for C66: files and HTML of parameter sets *)
From Verif Require Import Base MString MHeap MIo SIo MTable STable MSets MSets2.
Local Open Scope string_scope.
Local Open Scope R_scope.

(* what is written is read back the same, key by key; nothing is said about the order
   of keys *)
Definition same_value (a b : yval) : Prop :=
  match a, b with
  | YDict d, YDict d' => forall k, dget d' k = dget d k
  | YDict _, _ | _, YDict _ => False
  | _, _ => a = b
  end.
Definition same_doc (a b : dict yval) : Prop :=
  forall k, match dget a k, dget b k with
            | Some u, Some v => same_value u v
            | None, None => True
            | _, _ => False
            end.
(* only floats, no repeated names *)
Definition plain_floats (d : pdict) : Prop := NoDup (dkeys d) /\ forall k v, In (k, v) d -> exists x, v = VNum x.
(* the document meant for a set: no description, the name of its parameterization, no
   word on the rider, and the values *)
Definition yaml_document (c : pclass) (d : pdict) : dict yval :=
  [("description", YStr ""); ("parameterization", YStr (parameterization c)); ("parameters", YStr ""); ("rider", YNull); ("values", YDict d)].
(* yaml.load reads the text yaml.dump makes of the document as the same document (PyYAML
   does so for Python floats) *)
Definition yaml_faithful (dump : dict yval -> string) (load : string -> res ydoc) (m : dict yval) : Prop :=
  exists m', load (dump m) = Ok (YMapping m') /\ same_doc m m'.

(* one row of the HTML table *)
Definition html_row (label value : string) : string := "<tr><td>\(" ++ label ++ "\)</td><td>" ++ value ++ "</td></tr>".
Definition html_table (caption : string) (rows : list string) : string :=
  "<table><caption>" ++ caption ++ "</caption><tr><th>Variable</th><th>Value</th></tr>" ++ fold_right append "" rows ++ "</table>".

(* a LaTeX label that spells a name: one letter stands for itself, two letters are a
   letter and its subscript, four letters a letter and a subscript of three *)
Inductive spells : string -> string -> Prop :=
| sp_one a : spells (String a "") (String a "")
| sp_two a b : spells (String a (String b "")) (String a (String "_" (String b "")))
| sp_four a b c d : spells (String a (String b (String c (String d ""))))
                           (String a (String "_" (String "{" (String b (String c (String d (String "}" "")))))))
| sp_lam : spells "lam" "\lambda"
| sp_alpha b : spells ("alpha" ++ String b "") ("\alpha_" ++ String b "")
| sp_gain a b la lb : In (a, la) [("phi", "\phi"); ("del", "\delta")] ->
    In (b, lb) [("phi", "\phi"); ("del", "\delta"); ("phid", "\dot{\phi}"); ("deld", "\dot{\delta}")] ->
    spells ("kT" ++ a ++ "_" ++ b) ("k_{T_{" ++ la ++ "}" ++ lb ++ "}").
(* the same up to capitals: 'mc' is shown as m_C *)
Definition spells_ci (k l : string) : Prop := exists k', slower k' = slower k /\ spells k' l.
