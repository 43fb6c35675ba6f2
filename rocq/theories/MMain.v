(* MMain.v -- model of the computing part of /repo/bicycleparameters/main.py:
   from measurements to benchmark parameters, and the steer assembly inertia.
   Uncertainties are left out (values are exact reals).  Names of keys and the
   order of the reads follow the code. *)
From Coq Require Import DecimalString.
From Verif Require Import Base MString MVec MBicycle MInertia MGeometry MPeriod.
Local Open Scope string_scope.
Local Open Scope R_scope.

(* str(n) for a natural number *)
Definition nat_str (n : nat) : string := NilZero.string_of_uint (Nat.to_uint n).

(* try: <r> except KeyError: pass -- the previous value stays *)
Definition pass_keyerror {A} (old : A) (r : res A) : res A :=
  match r with Err (KeyError _) => Ok old | _ => r end.

(* main.py 1714-1735 is_fork_split; key[:1], key[1:2] *)
Definition is_fork_split {V} (mp : dict V) : bool :=
  fold_left (fun acc key =>
      if String.eqb (stake 1 key) "S" || String.eqb (stake 1 (sdrop 1 key)) "S" then true else acc)
    (dkeys mp) false.

(* main.py 1532-1548 get_parts_in_parameters *)
Definition get_parts_in_parameters {V} (par : dict V) : res (list string) :=
  mapM (fun x => schar 1 x) (filter (starts_with "m") (dkeys par)).

(* main.py 1573-1589: masses *)
Definition bm_masses (mp par : dict R) (split : bool) : res (dict R) :=
  mB <- dlook mp "mB" ;; let par := dset par "mB" mB in
  mF <- dlook mp "mF" ;; let par := dset par "mF" mF in
  mR <- dlook mp "mR" ;; let par := dset par "mR" mR in
  par <- pass_keyerror par (mD <- dlook mp "mD" ;; mF <- dlook mp "mF" ;; Ok (dset par "mD" (mD - mF))) ;;
  if split then
    mS <- dlook mp "mS" ;; let par := dset par "mS" mS in
    mG <- dlook mp "mG" ;; Ok (dset par "mG" mG)
  else mH <- dlook mp "mH" ;; Ok (dset par "mH" mH).

(* main.py 1594-1597: centres of mass; slopes is iterated with its keys *)
Fixpoint bm_centres (slopes : list (string * list R)) (intercepts : dict (list R)) (par : dict R) : res (dict R) :=
  match slopes with
  | [] => Ok par
  | (part, sl) :: rest =>
      ic <- dlook intercepts part ;;
      q <- center_of_mass sl ic ;;
      bm_centres rest intercepts (dset (dset par ("x" ++ part) (fst q)) ("z" ++ part) (snd q))
  end.

(* main.py 1601-1610: mass centre of fork and handlebar *)
Definition bm_split_centre (par : dict R) (split : bool) : res (dict R) :=
  if split then
    xS <- dlook par "xS" ;; xG <- dlook par "xG" ;; zS <- dlook par "zS" ;; zG <- dlook par "zG" ;;
    mS <- dlook par "mS" ;; mG <- dlook par "mG" ;;
    tc <- total_com [[xS; xG]; [0; 0]; [zS; zG]] [mS; mG] ;;
    match tc with
    | (mH, [cx; _; cz]) => Ok (dset (dset (dset par "mH" mH) "xH" cx) "zH" cz)
    | _ => Err (OtherError "unreachable: three rows in, three sums out")
    end
  else Ok par.

(* main.py 1612-1626: gravity and wheel y inertias *)
Definition bm_wheels_yy (mp par : dict R) : res (dict R) :=
  g <- dlook mp "g" ;; let par := dset par "g" g in
  mF <- dlook mp "mF" ;; lF <- dlook mp "lF" ;; TcF1 <- dlook mp "TcF1" ;;
  let IFyy := compound_pendulum_inertia mF g lF TcF1 in
  let par := dset par "IFyy" IFyy in
  mR <- dlook mp "mR" ;; lR <- dlook mp "lR" ;; TcR1 <- dlook mp "TcR1" ;;
  let par := dset par "IRyy" (compound_pendulum_inertia mR g lR TcR1) in
  pass_keyerror par
    (mD <- dlook mp "mD" ;; g <- dlook mp "g" ;; lF <- dlook mp "lF" ;; TcD1 <- dlook mp "TcD1" ;;
     IFyy <- dlook par "IFyy" ;;
     Ok (dset par "IDyy" (compound_pendulum_inertia mD g lF TcD1 - IFyy))).

(* main.py 1628-1651: y inertias of frame, fork, handlebar; hyp is (a^2+b^2)^0.5 *)
Definition hyp (a b : R) : R := sqrt (a ^ 2 + b ^ 2).
Definition bm_frames_yy (mp par : dict R) (split : bool) : res (dict R) :=
  xB <- dlook par "xB" ;; zB <- dlook par "zB" ;; rR <- dlook par "rR" ;;
  mB <- dlook mp "mB" ;; g <- dlook mp "g" ;; TcB1 <- dlook mp "TcB1" ;;
  let par := dset par "IByy" (compound_pendulum_inertia mB g (hyp xB (zB + rR)) TcB1) in
  if split then
    xS <- dlook par "xS" ;; w <- dlook par "w" ;; zS <- dlook par "zS" ;; rF <- dlook par "rF" ;;
    mS <- dlook mp "mS" ;; TcS1 <- dlook mp "TcS1" ;;
    let par := dset par "ISyy" (compound_pendulum_inertia mS g (hyp (xS - w) (zS + rF)) TcS1) in
    h6 <- dlook mp "h6" ;; h7 <- dlook mp "h7" ;; d5 <- dlook mp "d5" ;; d6 <- dlook mp "d6" ;; l <- dlook mp "l" ;;
    l12 <- calculate_l1_l2 h6 h7 d5 d6 l ;;
    lam <- dlook par "lam" ;;
    u <- fwheel_to_handlebar_ref lam (fst l12) (snd l12) ;;
    xG <- dlook par "xG" ;; zG <- dlook par "zG" ;; mG <- dlook mp "mG" ;; TcG1 <- dlook mp "TcG1" ;;
    Ok (dset par "IGyy" (compound_pendulum_inertia mG g (hyp (xG - w + fst u) (zG + rF + snd u)) TcG1))
  else
    hx <- dlook par "xH" ;; w <- dlook par "w" ;; hz <- dlook par "zH" ;; rF <- dlook par "rF" ;;
    mH <- dlook mp "mH" ;; TcH1 <- dlook mp "TcH1" ;;
    Ok (dset par "IHyy" (compound_pendulum_inertia mH g (hyp (hx - w) (hz + rF)) TcH1)).

(* main.py 1653-1656: stiffness of the torsional pendulum *)
Definition bm_stiffness (mp : dict R) : res R :=
  lP <- dlook mp "lP" ;; mP <- dlook mp "mP" ;; dP <- dlook mp "dP" ;;
  match tube_inertia lP mP (dP / 2) 0 with
  | (_, IPyy, _) => TtP1 <- dlook mp "TtP1" ;; torsional_pendulum_stiffness IPyy TtP1
  end.

(* main.py 1658-1664: wheel x inertias *)
Definition bm_wheels_xx (mp par : dict R) (k : R) : res (dict R) :=
  TtF1 <- dlook mp "TtF1" ;; let par := dset par "IFxx" (tor_inertia k TtF1) in
  TtR1 <- dlook mp "TtR1" ;; let par := dset par "IRxx" (tor_inertia k TtR1) in
  pass_keyerror par
    (TtD1 <- dlook mp "TtD1" ;; IFxx <- dlook par "IFxx" ;; Ok (dset par "IDxx" (tor_inertia k TtD1 - IFxx))).

(* main.py 1676-1679: the pendulum inertias of a part, one per orientation *)
Definition bm_part_inertias (mp : dict R) (k : R) (part : string) (n : nat) : res (list R) :=
  mapM (fun i => T <- dlook mp ("Tt" ++ part ++ nat_str (i + 1)) ;; Ok (tor_inertia k T)) (seq 0 n).
(* main.py 1666-1685: in plane moments of inertia of every part *)
Fixpoint bm_in_plane (mp : dict R) (k : R) (slopes : list (string * list R)) (betas : dict (list R))
    (par : dict R) (pend : dict (list R)) : res (dict R * dict (list R)) :=
  match slopes with
  | [] => Ok (par, pend)
  | (part, sl) :: rest =>
      beta <- dlook betas part ;;
      pen <- bm_part_inertias mp k part (length sl) ;;
      let pend := dset pend part pen in
      J <- inertia_components pen beta ;;
      let par := dset par ("I" ++ part ++ "xx") (vx J) in
      let par := dset par ("I" ++ part ++ "xz") (vy J) in
      let par := dset par ("I" ++ part ++ "zz") (vz J) in
      bm_in_plane mp k rest betas par pend
  end.

(* main.py 1687-1706: fork and handlebar together *)
Definition bm_split_inertia (par : dict R) (split : bool) : res (dict R) :=
  if split then
    IG <- part_inertia_tensor par "G" ;; IS <- part_inertia_tensor par "S" ;;
    xG <- dlook par "xG" ;; xS <- dlook par "xS" ;; zG <- dlook par "zG" ;; zS <- dlook par "zS" ;;
    mG <- dlook par "mG" ;; mS <- dlook par "mS" ;;
    tc <- total_com [[xG; xS]; [0; 0]; [zG; zS]] [mG; mS] ;;
    match tc with
    | (mH, [hx; _; hz]) =>
        let par := dset (dset (dset par "mH" mH) "xH" hx) "zH" hz in
        let dG := mk3 (xG - hx) 0 (zG - hz) in
        let dS := mk3 (xS - hx) 0 (zS - hz) in
        let IH := m3_add (parallel_axis IG mG dG) (parallel_axis IS mS dS) in
        Ok (dset (dset (dset (dset par "IHxx" (vx (r1 IH))) "IHxz" (vz (r1 IH))) "IHyy" (vy (r2 IH))) "IHzz" (vz (r3 IH)))
    | _ => Err (OtherError "unreachable: three rows in, three sums out")
    end
  else Ok par.

Record extras := mkextras { ex_slopes : dict (list R); ex_intercepts : dict (list R);
                            ex_betas : dict (list R); ex_pendulum : dict (list R) }.
(* main.py 1551-1711 calculate_benchmark_from_measured; [newton] is the root
   finder of scipy *)
Definition calculate_benchmark_from_measured (newton : (R -> res R) -> R -> res R) (mp : dict R) : res (dict R * extras) :=
  let split := is_fork_split mp in
  par <- calculate_benchmark_geometry newton mp [] ;;
  par <- bm_masses mp par split ;;
  '(sl, ic, be) <- part_com_lines mp par split ;;
  par <- bm_centres sl ic par ;;
  par <- bm_split_centre par split ;;
  par <- bm_wheels_yy mp par ;;
  par <- bm_frames_yy mp par split ;;
  k <- bm_stiffness mp ;;
  par <- bm_wheels_xx mp par k ;;
  '(par, pend) <- bm_in_plane mp k sl be par [] ;;
  par <- bm_split_inertia par split ;;
  Ok (par, mkextras sl ic be pend).

(* ------------------------------------------------------------------ *)
(* main.py 239-375 steer_assembly_moment_of_inertia (the Benchmark parameters as
   argument; printing left out; the try block around the four cases turns a
   KeyError into a ValueError) *)
Definition steer_part (par : dict R) (X : string) : res (mat3 * R * R * R) :=
  I <- part_inertia_tensor par X ;; m <- dlook par ("m" ++ X) ;; x <- dlook par ("x" ++ X) ;; z <- dlook par ("z" ++ X) ;;
  Ok (I, m, x, z).
Definition steer_assembly (par : dict R) (handlebar fork wheel about : bool) : res mat3 :=
  '(J, m, x, z) <-
     match (if fork && handlebar then steer_part par "H"
            else if fork then steer_part par "S"
            else if handlebar then steer_part par "G"
            else Ok (m3_diag 0 0 0, 0, 0, 0)) with
     | Err (KeyError _) => Err (ValueError "The fork and handlebar were not measured separately for this bicycle.")
     | r => r
     end ;;
  '(mAss, cAss, iRot) <-
     (if wheel then
        mF <- dlook par "mF" ;; w <- dlook par "w" ;; rF <- dlook par "rF" ;;
        tc <- total_com [[x; w]; [0; 0]; [z; - rF]] [m; mF] ;;
        match tc with
        | (mA, [cx; cy; cz]) =>
            JF <- part_inertia_tensor par "F" ;;
            let d := mk3 (x - cx) 0 (z - cz) in
            let dF := mk3 (w - cx) 0 (- rF - cz) in
            let iAss := m3_add (parallel_axis J m d) (parallel_axis JF mF dF) in
            lam <- dlook par "lam" ;;
            Ok (mA, mk3 cx cy cz, rotate_inertia_tensor iAss lam)
        | _ => Err (OtherError "unreachable: three rows in, three sums out")
        end
      else
        lam <- dlook par "lam" ;; Ok (m, mk3 x 0 z, rotate_inertia_tensor J lam)) ;;
  if about then
    w <- dlook par "w" ;; c <- dlook par "c" ;; lam <- dlook par "lam" ;;
    distance <- distance_to_steer_axis w c lam cAss ;;
    Ok (parallel_axis iRot mAss (mk3 distance 0 0))
  else Ok iRot.
