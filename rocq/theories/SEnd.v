(* SEnd.v -- specification vocabulary for C73: from the measurements of a real bicycle to
   the stability of that bicycle *)
From Verif Require Import Base MString MIo MPeriod MMain MState MHeap MBicycle MVec MInertia MModels MModels2 MEig SBicycle SModels SModels2 SEig SStab SMain SState.
Local Open Scope string_scope.
Local Open Scope R_scope.

(* nominal values *)
Definition nom (v : pval) : R := match v with PF x => x | PU x _ => x end.
Definition noms (d : dict pval) : dict R := map (fun kv => (fst kv, nom (snd kv))) d.
(* the parameter sets of a Bicycle object with the uncertainties removed *)
Definition nominal_sets {E H} (b : bicycle_obj E H) : par_sets := map (fun kv => (fst kv, noms (snd kv))) (bo_par b).
(* numbers with uncertainties: the nominal value of a result is calculated from the
   nominal values *)
Definition nominal_calc {E X} (run : dict R -> res (dict R * X)) (calc : dict pval -> res (dict pval * E)) : Prop :=
  forall m par ex, calc m = Ok (par, ex) -> exists ex', run (noms m) = Ok (noms par, ex').
Definition nominal_combine (comb : dict R -> dict R -> res (dict R)) (combine : dict pval -> dict pval -> res (dict pval)) : Prop :=
  forall a b c, combine a b = Ok c -> comb (noms a) (noms b) = Ok (noms c).

(* a real bicycle T whose handlebar assembly is the rigid body H, as rolling rigid bodies *)
Definition rolling (w : rwheel) (x : R) (front : bool) : SBicycle.body := mkbody (w_m w) x (- w_r w) (w_xx w) 0 (w_xx w) (w_yy w / w_r w) front.
Definition rigid (b : rbody) (front : bool) : SBicycle.body := mkbody (b_m b) (b_x b) (b_z b) (b_xx b) (b_xz b) (b_zz b) 0 front.
Definition real_bike (T : rbike) (H : rbody) : SBicycle.bike :=
  SBicycle.mkbike (rb_w T) (rb_c T) (rb_lam T) [rolling (rb_R T) 0 false; rigid (rb_part T "B") false; rigid H true; rolling (rb_F T) (rb_w T) true].
(* with a rigid rider rd attached to the rear frame *)
Definition ridden_bike (T : rbike) (H rd : rbody) : SBicycle.bike :=
  SBicycle.mkbike (rb_w T) (rb_c T) (rb_lam T) [rolling (rb_R T) 0 false; rigid (rb_part T "B") false; rigid rd false; rigid H true; rolling (rb_F T) (rb_w T) true].
(* the measurements mp of T are exact and H is its handlebar assembly, measured in one
   piece or in the two parts that make it up *)
Definition exact_measurements (newton : (R -> res R) -> R -> res R) (mp : dict R) (T : rbike) : Prop :=
  exists k n, exact_measurements_whole newton mp T k n \/ exact_measurements_split newton mp T k n.
Definition handlebar_assembly (newton : (R -> res R) -> R -> res R) (mp : dict R) (T : rbike) (H : rbody) : Prop :=
  ((exists k n, exact_measurements_whole newton mp T k n) /\ H = rb_part T "H") \/
  ((exists k n, exact_measurements_split newton mp T k n) /\ is_union (rb_part T "S") (rb_part T "G") H).
(* the parameters of a rider are those of the rigid body rd, symmetric to the plane of the bicycle *)
Definition exact_rider (p : dict R) (rd : rbody) : Prop :=
  dget p "yB" = Some 0 /\ forall key v, In (key, v) (body_entries "B" rd) -> dget p key = Some v.

(* the object was calculated from the measurements: recalculation was asked for and there
   are measurements, or no benchmark parameters are saved *)
Definition from_measurements (other : string -> res (R * R)) (fs : fsys) (name data : string) (forceRaw : bool) : Prop :=
  let dir := os_join (os_join data "bicycles") name in
  (forceRaw = true /\ has_entry fs dir "RawData" /\ has_entry fs (os_join dir "RawData") (name ++ "Measured.txt")) \/
  (forceRaw = false /\ forall ps, saved_sets other fs dir ps -> ~ In "Benchmark" (dkeys ps)).

(* what the eigenvalues reported at sample i say about the bicycle k *)
Definition tells_stability (k : SBicycle.bike) (g : R) (l : list R) (evs : list eigres) : Prop :=
  length evs = length l /\ forall i, (i < length l)%nat ->
    (balances_itself k (nth i l 0) g <-> forall z, In z (fst (nth i evs ([], []))) -> fst z < 0) /\
    ((exists z, In z (fst (nth i evs ([], []))) /\ 0 < fst z) -> falls_over k (nth i l 0) g).
