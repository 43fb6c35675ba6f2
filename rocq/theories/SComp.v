(* SComp.v -- specification vocabulary for figures that compare the eigenvalues of bicycles *)
From Verif Require Import Base MString MHeap MBicycle MModels MModels2 SModels SModels2 MEig SEig MComp.
Local Open Scope string_scope.
Local Open Scope R_scope.

(* how a line looks: colour, style, label *)
Definition look (l : line) : colour * string * string := (ln_colour l, ln_style l, ln_label l).
(* a label that a legend shows *)
Definition proper_name (s : string) : Prop := s <> "" /\ starts_with "_" s = false.
(* the line of zeros over the speeds *)
Definition zero_line (speeds : list R) (c : curve) : Prop := over speeds c /\ forall i, (i < length speeds)%nat -> snd (pt c i) = 0.
(* at every speed c shows the greatest real part of the eigenvalues of the bicycle *)
Definition shows_greatest (ps : par_sets) (speeds : list R) (c : curve) : Prop :=
  over speeds c /\ forall i, (i < length speeds)%nat -> exists w V, spectrum_at ps (nth i speeds 0) w V /\
    (forall z, In z w -> fst z <= snd (pt c i)) /\ exists z, In z w /\ fst z = snd (pt c i).
(* the colour and the style of bicycle i of n: the i-th given one, or by default colours
   evenly spaced over the colour map and solid lines *)
Definition colour_of (cmap : R -> colour) (colors : list colour) (n i : nat) : colour :=
  match colors with [] => cmap (INR i / INR n) | _ => nth i colors (Named "") end.
Definition style_of (styles : list string) (i : nat) : string := match styles with [] => "-" | _ => nth i styles "" end.
(* none given, or one for each bicycle *)
Definition enough {A} (l : list A) (n : nat) : Prop := l = [] \/ (n <= length l)%nat.
(* the figure of bicycle i alone, drawn with its colour and style *)
Definition alone (eig : marr -> res eigres) (cmap : R -> colour) (bikes : list named_bike) (sp : list R) (colors : list colour) (styles : list string) (largest : bool)
    (i : nat) (b : named_bike) (f : figure) : Prop :=
  eigenvalues_vs_speed eig b sp None true (colour_of cmap colors (length bikes) i) largest (style_of styles i) true = Ok f.
