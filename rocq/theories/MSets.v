(* MSets.v -- model of /repo/bicycleparameters/parameter_sets.py (construction,
   conversion, mass centres and inertia tensors; not the plotting methods) *)
From Verif Require Import Base MString MHeap MVec MInertia.
Local Open Scope string_scope.
Local Open Scope R_scope.

(* the concrete subclasses and their __name__ *)
Inductive pclass := CMeijaard2007 | CMeijaard2007WithFeedback | CMoore2019 | CMoore2012 | CMooreRiderLean2012.
Definition class_name (c : pclass) : string :=
  match c with
  | CMeijaard2007 => "Meijaard2007ParameterSet"
  | CMeijaard2007WithFeedback => "Meijaard2007WithFeedbackParameterSet"
  | CMoore2019 => "Moore2019ParameterSet"
  | CMoore2012 => "Moore2012ParameterSet"
  | CMooreRiderLean2012 => "MooreRiderLean2012ParameterSet"
  end.
(* cls_name.split('ParameterSet')[0]  [parameter_sets.py:118-119] *)
Definition parameterization (c : pclass) : string := split_first "ParameterSet" (class_name c).

(* keys of the class attribute par_strings, in order
   [parameter_sets.py:287-315, 939-977, 1034-1071, 1672-1700, 1775-1813] *)
Definition par_strings (c : pclass) : list string :=
  match c with
  | CMeijaard2007 =>
      ["IBxx"; "IBxz"; "IByy"; "IBzz"; "IFxx"; "IFyy"; "IHxx"; "IHxz"; "IHyy"; "IHzz"; "IRxx"; "IRyy"; "c"; "g"; "lam";
       "mB"; "mF"; "mH"; "mR"; "rF"; "rR"; "v"; "w"; "xB"; "xH"; "zB"; "zH"]
  | CMeijaard2007WithFeedback =>
      ["IBxx"; "IBxz"; "IByy"; "IBzz"; "IFxx"; "IFyy"; "IHxx"; "IHxz"; "IHyy"; "IHzz"; "IRxx"; "IRyy"; "c"; "g";
       "kTdel_del"; "kTdel_deld"; "kTdel_phi"; "kTdel_phid"; "kTphi_del"; "kTphi_deld"; "kTphi_phi"; "kTphi_phid"; "lam";
       "mB"; "mF"; "mH"; "mR"; "rF"; "rR"; "v"; "w"; "xB"; "xH"; "zB"; "zH"]
  | CMoore2019 =>
      ["alphaD"; "alphaH"; "alphaP"; "c"; "g"; "kDaa"; "kDbb"; "kDyy"; "kFaa"; "kFyy"; "kHaa"; "kHbb"; "kHyy"; "kPaa"; "kPbb";
       "kPyy"; "kRaa"; "kRyy"; "lP"; "lam"; "mD"; "mF"; "mH"; "mP"; "mR"; "rF"; "rR"; "v"; "w"; "wP"; "xD"; "xH"; "xP"; "zD"; "zH"; "zP"]
  | CMoore2012 =>
      ["d1"; "d2"; "d3"; "g"; "ic11"; "ic22"; "ic31"; "ic33"; "id11"; "id22"; "ie11"; "ie22"; "ie31"; "ie33"; "if11"; "if22";
       "l1"; "l2"; "l3"; "l4"; "mc"; "md"; "me"; "mf"; "rf"; "rr"; "v"]
  | CMooreRiderLean2012 =>
      ["c9"; "d1"; "d2"; "d3"; "d4"; "g"; "ic11"; "ic22"; "ic31"; "ic33"; "id11"; "id22"; "ie11"; "ie22"; "ie31"; "ie33"; "if11"; "if22";
       "ig11"; "ig22"; "ig31"; "ig33"; "k9"; "l1"; "l2"; "l3"; "l4"; "l5"; "l6"; "mc"; "md"; "me"; "mf"; "mg"; "rf"; "rr"; "v"]
  end.
Definition gain_names : list string :=
  ["kTphi_phi"; "kTphi_del"; "kTphi_phid"; "kTphi_deld"; "kTdel_phi"; "kTdel_del"; "kTdel_phid"; "kTdel_deld"].

(* str() of a value; the text of a float or an array is not modelled *)
Definition show_value (v : pyval) : string := match v with VObj s => s | VNum _ => "<float>" | VArr _ => "<array>" end.

(* [parameter_sets.py:105-114] _check_parameters *)
Fixpoint check_parameters (required : list string) (d : pdict) : res unit :=
  match required with
  | [] => Ok tt
  | k :: ks =>
      match dget d k with
      | None => Err (ValueError (k ++ " is missing from the provided parameter dictionary."))
      | Some (VNum _) => check_parameters ks d
      | Some v => Err (ValueError (show_value v ++ " is not a valid value for parameter " ++ k))
      end
  end.

(* a parameter set object: its class, the dictionary it refers to (the caller's own
   object: self.parameters = parameters) and includes_rider where the class has it *)
Record pset := mkset { ps_class : pclass; ps_ref : nat; ps_rider : option bool }.

(* [parameter_sets.py:116-119, 319-323, 981-982, 1077-1080, 1705-1709, 1817-1820] __init__ *)
Definition make_set (c : pclass) (r : nat) (rider : option bool) : H pset :=
  d <-- hload r ;;;
  _ <-- lift (check_parameters (par_strings c) d) ;;;
  hret (mkset c r rider).

(* [parameter_sets.py:149-173, 325-361, 1102-1147] to_parameterization.
   dtk.bicycle.benchmark_to_moore is an oracle that returns a new dictionary;
   _convert_principal_to_benchmark reads only floats. *)
Definition to_parameterization (benchmark_to_moore : pdict -> res pdict) (s : pset) (name : string) : H pset :=
  if String.eqb name (parameterization (ps_class s)) then hret s
  else match ps_class s with
  | CMeijaard2007 | CMeijaard2007WithFeedback =>
      if String.eqb name "Moore2012" then
        d <-- hload (ps_ref s) ;;;
        m <-- lift (benchmark_to_moore d) ;;;
        r <-- hnew m ;;;
        d' <-- hload (ps_ref s) ;;;
        v <-- lift (dlook d' "v") ;;;
        _ <-- hset r "v" v ;;;
        make_set CMoore2012 r (ps_rider s)
      else if String.eqb name "Meijaard2007WithFeedback" then
        r <-- hcopy (ps_ref s) ;;;
        _ <-- hiter (fun g => hset r g (VNum 0)) gain_names ;;;
        make_set CMeijaard2007WithFeedback r (ps_rider s)
      else lift (Err (ValueError (name ++ " is not an avaialble parameter set")))
  | CMoore2019 =>
      if String.eqb name "Meijaard2007" then
        d <-- hload (ps_ref s) ;;;
        b <-- lift (convert_principal_to_benchmark (floats d)) ;;;
        r <-- hnew (nums b) ;;;
        make_set CMeijaard2007 r (Some true)
      else if String.eqb name "Meijaard2007WithFeedback" then
        d <-- hload (ps_ref s) ;;;
        b <-- lift (convert_principal_to_benchmark (floats d)) ;;;
        r <-- hnew (nums b) ;;;
        (* par_set.to_parameterization(name) on the result returns it unchanged *)
        make_set CMeijaard2007WithFeedback r (Some true)
      else lift (Err (ValueError (name ++ " is not an available parameter set")))
  | CMoore2012 | CMooreRiderLean2012 =>
      lift (Err (ValueError (name ++ " is not an avaialble parameter set.")))
  end.

(* p.update(q) *)
Definition dupdate {V} (p q : dict V) : dict V := fold_left (fun d e => dset d (fst e) (snd e)) q p.

(* [parameter_sets.py:373-391] _calc_derived_params of the benchmark sets *)
Definition derived_benchmark (p : dict R) : res (dict R) :=
  IFxx <- dlook p "IFxx" ;; IRxx <- dlook p "IRxx" ;; w <- dlook p "w" ;; rF <- dlook p "rF" ;; rR <- dlook p "rR" ;;
  Ok [("IFxz", 0); ("IFzz", IFxx); ("IRxz", 0); ("IRzz", IRxx); ("xF", w); ("xR", 0);
      ("yB", 0); ("yF", 0); ("yH", 0); ("yR", 0); ("zF", - rF); ("zR", - rR)].
(* [parameter_sets.py:1082-1100] _calc_derived_params of the principal set *)
Definition derived_principal (p : dict R) : res (dict R) :=
  w <- dlook p "w" ;; rR <- dlook p "rR" ;; rF <- dlook p "rF" ;; kRaa <- dlook p "kRaa" ;; kFaa <- dlook p "kFaa" ;;
  Ok [("alphaF", 0); ("alphaR", 0); ("yD", 0); ("yP", 0); ("yH", 0); ("yR", 0); ("yF", 0); ("xR", 0); ("xF", w);
      ("zR", - rR); ("zF", - rF); ("kRbb", kRaa); ("kFbb", kFaa)].
(* the classes having these methods; the others would raise AttributeError *)
Definition derived (c : pclass) (p : dict R) : res (dict R) :=
  match c with
  | CMeijaard2007 | CMeijaard2007WithFeedback => derived_benchmark p
  | CMoore2019 => derived_principal p
  | _ => Err AttributeError
  end.

(* [parameter_sets.py:393-426, 1588-1612] form_mass_center_vector.  The methods below
   work on a copy of the parameters, so the dictionary is passed by value. *)
Definition form_mass_center_vector (c : pclass) (p : dict R) (body : string) : res vec3 :=
  ext <- derived c p ;;
  let q := dupdate p ext in
  x <- dlook q ("x" ++ body) ;; y <- dlook q ("y" ++ body) ;; z <- dlook q ("z" ++ body) ;;
  Ok (mk3 x y z).

(* [parameter_sets.py:428-467, 1556-1586] mass_center_of; no body at all makes total_com
   fail on an empty array *)
Definition mass_center_of (c : pclass) (p : dict R) (bodies : list string) : res vec3 :=
  match bodies with
  | [] => Err (ValueError "empty")
  | [b] => form_mass_center_vector c p b
  | _ =>
      rows <- mapM (fun body => m <- dlook p ("m" ++ body) ;; r <- form_mass_center_vector c p body ;; Ok (m, r)) bodies ;;
      tc <- total_com [map (fun e => vx (snd e)) rows; map (fun e => vy (snd e)) rows; map (fun e => vz (snd e)) rows] (map fst rows) ;;
      match tc with (_, [x; y; z]) => Ok (mk3 x y z) | _ => Err (ValueError "shape") end
  end.

(* [parameter_sets.py:469-509] form_inertia_tensor (benchmark sets only) *)
Definition form_inertia_tensor (p : dict R) (body : string) : res mat3 :=
  ext <- derived_benchmark p ;;
  let q := dupdate p ext in
  Ixx <- dlook q ("I" ++ body ++ "xx") ;; Ixz <- dlook q ("I" ++ body ++ "xz") ;;
  Iyy <- dlook q ("I" ++ body ++ "yy") ;; Izz <- dlook q ("I" ++ body ++ "zz") ;;
  Ok (mk33 (mk3 Ixx 0 Ixz) (mk3 0 Iyy 0) (mk3 Ixz 0 Izz)).
