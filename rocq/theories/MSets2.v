(* MSets2.v -- model of the file and notebook output of parameter sets,
   /repo/bicycleparameters/parameter_sets.py: _from_yaml, to_yaml, to_ini,
   _repr_html_ *)
From Verif Require Import Base MString MHeap MVec MInertia MIo MTable MSets.
Local Open Scope string_scope.
Local Open Scope R_scope.

(* the values of a YAML mapping as this code uses them: null, a boolean, a text, a
   mapping of names to Python values *)
Inductive yval := YNull | YBool (b : bool) | YStr (s : string) | YDict (d : pdict).
(* a YAML document: a mapping, or something else (an empty file, a list, a number) *)
Inductive ydoc := YMapping (m : dict yval) | YNoMapping.

(* LaTeX strings of the class attribute par_strings, in the order of its keys
   [parameter_sets.py:287-315, 941-977, 1036-1073, 1674-1702, 1776-1814] *)
Definition labels (c : pclass) : list string :=
  match c with
  | CMeijaard2007 =>
      ["I_{Bxx}"; "I_{Bxz}"; "I_{Byy}"; "I_{Bzz}"; "I_{Fxx}"; "I_{Fyy}"; "I_{Hxx}"; "I_{Hxz}"; "I_{Hyy}"; "I_{Hzz}"; "I_{Rxx}";
       "I_{Ryy}"; "c"; "g"; "\lambda"; "m_B"; "m_F"; "m_H"; "m_R"; "r_F"; "r_R"; "v"; "w"; "x_B"; "x_H"; "z_B"; "z_H"]
  | CMeijaard2007WithFeedback =>
      ["I_{Bxx}"; "I_{Bxz}"; "I_{Byy}"; "I_{Bzz}"; "I_{Fxx}"; "I_{Fyy}"; "I_{Hxx}"; "I_{Hxz}"; "I_{Hyy}"; "I_{Hzz}"; "I_{Rxx}";
       "I_{Ryy}"; "c"; "g";
       "k_{T_{\delta}\delta}"; "k_{T_{\delta}\dot{\delta}}"; "k_{T_{\delta}\phi}"; "k_{T_{\delta}\dot{\phi}}";
       "k_{T_{\phi}\delta}"; "k_{T_{\phi}\dot{\delta}}"; "k_{T_{\phi}\phi}"; "k_{T_{\phi}\dot{\phi}}";
       "\lambda"; "m_B"; "m_F"; "m_H"; "m_R"; "r_F"; "r_R"; "v"; "w"; "x_B"; "x_H"; "z_B"; "z_H"]
  | CMoore2019 =>
      ["\alpha_D"; "\alpha_H"; "\alpha_P"; "c"; "g"; "k_{Daa}"; "k_{Dbb}"; "k_{Dyy}"; "k_{Faa}"; "k_{Fyy}"; "k_{Haa}"; "k_{Hbb}";
       "k_{Hyy}"; "k_{Paa}"; "k_{Pbb}"; "k_{Pyy}"; "k_{Raa}"; "k_{Ryy}"; "l_P"; "\lambda"; "m_D"; "m_F"; "m_H"; "m_B"; "m_R";
       "r_F"; "r_R"; "v"; "w"; "w_P"; "x_D"; "x_H"; "x_P"; "z_D"; "z-H"; "z_P"]
  | CMoore2012 =>
      ["d_1"; "d_2"; "d_3"; "g"; "I_{C11}"; "I_{C22}"; "I_{C31}"; "I_{C33}"; "I_{D11}"; "I_{D22}"; "I_{D11}"; "I_{E22}"; "I_{E31}";
       "I_{E33}"; "I_{F11}"; "I_{F22}"; "l_1"; "l_2"; "l_3"; "l_4"; "m_C"; "m_D"; "m_E"; "m_F"; "r_f"; "r_r"; "v"]
  | CMooreRiderLean2012 =>
      ["c_9"; "d_1"; "d_2"; "d_3"; "d_4"; "g"; "I_{C11}"; "I_{C22}"; "I_{C31}"; "I_{C33}"; "I_{D11}"; "I_{D22}"; "I_{D11}"; "I_{E22}";
       "I_{E31}"; "I_{E33}"; "I_{F11}"; "I_{F22}"; "I_{G11}"; "I_{G22}"; "I_{G31}"; "I_{G33}"; "k_9"; "l_1"; "l_2"; "l_3"; "l_4"; "l_5";
       "l_6"; "m_C"; "m_D"; "m_E"; "m_F"; "m_G"; "r_f"; "r_r"; "v"]
  end.

(* a parameter set as these methods see it: class, self.parameters, and
   self.includes_rider for the classes whose __init__ stores it *)
Record pobj := mkobj { po_class : pclass; po_par : pdict; po_rider : option yval }.
(* __init__ with the arguments given: (parameters), or (parameters, includes_rider);
   a wrong number of arguments is a TypeError
   [parameter_sets.py:116-119, 319-323, 981-982, 1077-1080, 1705-1709, 1817-1820] *)
Definition takes_rider (c : pclass) : bool :=
  match c with CMeijaard2007 | CMeijaard2007WithFeedback | CMoore2012 => true | CMoore2019 | CMooreRiderLean2012 => false end.
Definition init_set (c : pclass) (par : yval) (rider : option yval) : res pobj :=
  match takes_rider c, rider with
  | true, None | false, Some _ => Err TypeError
  | _, _ =>
      match par with
      | YDict d => _ <- check_parameters (par_strings c) d ;; Ok (mkobj c d rider)
      | YStr _ | YBool _ | YNull => Err AttributeError     (* no attribute keys *)
      end
  end.

Section Files.
  (* yaml.dump(data, f) and yaml.load(f, Loader=yaml.FullLoader) *)
  Variable dump : dict yval -> string.
  Variable load : string -> res ydoc.
  (* '{:1.<d>f}'.format(v) for a value that is not a float (an int, a numpy scalar, a text) *)
  Variable format_other : nat -> pyval -> res string.

  (* [parameter_sets.py:175-192] to_yaml *)
  Definition to_yaml (fs : fsys) (s : pobj) (fname : string) : res fsys :=
    open_w fs fname (dump [("description", YStr ""); ("parameterization", YStr (parameterization (po_class s)));
                           ("parameters", YStr ""); ("rider", YNull); ("values", YDict (po_par s))]).

  (* yaml_data[k] *)
  Definition ylook (y : ydoc) (k : string) : res yval :=
    match y with YMapping m => dlook m k | YNoMapping => Err TypeError end.
  (* [parameter_sets.py:121-128] ParameterSet._from_yaml, and 363-371 the override of
     Meijaard2007ParameterSet, inherited by Meijaard2007WithFeedbackParameterSet *)
  Definition from_yaml (c : pclass) (fs : fsys) (fname : string) : res pobj :=
    t <- open_r fs fname ;;
    y <- load t ;;
    match c with
    | CMeijaard2007 | CMeijaard2007WithFeedback =>
        values <- ylook y "values" ;;
        rider <- ylook y "rider" ;;
        init_set c values (Some rider)
    | CMoore2019 | CMoore2012 | CMooreRiderLean2012 =>
        values <- ylook y "values" ;;
        init_set c values None
    end.

  (* '{:1.<d>f}'.format(v) *)
  Definition format_fixed (d : nat) (v : pyval) : res string :=
    match v with VNum x => Ok (fmt_fixed d x) | _ => format_other d v end.
  (* [parameter_sets.py:194-208] to_ini *)
  Definition to_ini (fs : fsys) (s : pobj) (fname : string) : res fsys :=
    ls <- mapM (fun kv => t <- format_fixed 16 (snd kv) ;; Ok (fst kv ++ "=" ++ t ++ String NL "")) (po_par s) ;;
    open_w fs fname (sconcat ls).

  (* [parameter_sets.py:210-219] _repr_html_ *)
  Definition repr_html (s : pobj) : res string :=
    rows <- mapM (fun kl => v <- dlook (po_par s) (fst kl) ;; t <- format_fixed 3 v ;;
                            Ok ("<tr><td>\(" ++ snd kl ++ "\)</td><td>" ++ t ++ "</td></tr>"))
                 (combine (par_strings (po_class s)) (labels (po_class s))) ;;
    Ok ("<table><caption>" ++ parameterization (po_class s) ++ "</caption><tr><th>Variable</th><th>Value</th></tr>"
        ++ sconcat rows ++ "</table>").
End Files.
