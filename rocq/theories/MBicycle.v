(* MBicycle.v -- model of /repo/bicycleparameters/bicycle.py *)
From Verif Require Import Base.

(* A (2,2) ndarray. *)
Record mat2 := mk2 { m11 : R; m12 : R; m21 : R; m22 : R }.

Definition m2_scale (k : R) (a : mat2) : mat2 :=
  mk2 (k * m11 a) (k * m12 a) (k * m21 a) (k * m22 a).
Definition m2_add (a b : mat2) : mat2 :=
  mk2 (m11 a + m11 b) (m12 a + m12 b) (m21 a + m21 b) (m22 a + m22 b).
Definition m2_neg (a : mat2) : mat2 := mk2 (- m11 a) (- m12 a) (- m21 a) (- m22 a).
(* np.dot on (2,2) arrays *)
Definition m2_dot (a b : mat2) : mat2 :=
  mk2 (m11 a * m11 b + m12 a * m21 b) (m11 a * m12 b + m12 a * m22 b)
      (m21 a * m11 b + m22 a * m21 b) (m21 a * m12 b + m22 a * m22 b).
Definition m2_zero : mat2 := mk2 0 0 0 0.
Definition m2_eye : mat2 := mk2 1 0 0 1.

(* general 2-D arrays as lists of rows, with np.vstack / np.hstack of two blocks *)
Definition marr := list (list R).
Definition m2_rows (a : mat2) : marr := [[m11 a; m12 a]; [m21 a; m22 a]].
Definition vstack (a b : marr) : marr := a ++ b.
Definition hstack (a b : marr) : marr := map (fun p => fst p ++ snd p) (combine a b).

(* [bicycle.py:61-63] inverse of the mass matrix.  For a ufloat (object) array a
   zero determinant raises ZeroDivisionError; for a float array numpy warns and
   returns inf/nan, which the model identifies with that failure. *)
Definition inv2 (M : mat2) : res mat2 :=
  k <- rdiv 1 (m11 M * m22 M - m12 M * m21 M) ;;
  Ok (m2_scale k (mk2 (m22 M) (- m12 M) (- m21 M) (m11 M))).

(* [bicycle.py:8-75] ab_matrix *)
Definition ab_matrix (M C1 K0 K2 : mat2) (v g : R) : res (marr * marr) :=
  invM <- inv2 M ;;
  let a11 := m2_zero in
  let a12 := m2_eye in
  let a21 := m2_neg (m2_dot invM (m2_add (m2_scale g K0) (m2_scale (v ^ 2) K2))) in
  let a22 := m2_neg (m2_dot invM (m2_scale v C1)) in
  Ok (vstack (hstack (m2_rows a11) (m2_rows a12)) (hstack (m2_rows a21) (m2_rows a22)),
      vstack (m2_rows m2_zero) (m2_rows invM)).

(* [bicycle.py:78-170] benchmark_par_to_canonical.
   The result is the caller's dictionary after the call (the function assigns
   p['IRzz'] and p['IFzz'] at lines 115-116) together with the returned
   matrices or the exception raised.  Keys are looked up in the order the Python
   expressions evaluate them (repeated lookups of a key already seen are not
   repeated); divisions are checked where they occur. *)
Record canon := mkcanon { cM : mat2; cC1 : mat2; cK0 : mat2; cK2 : mat2 }.

Record canon1 := mkcanon1 {
  k_mT : R; k_xT : R; k_zT : R; k_ITxx : R; k_ITxz : R; k_IRxx : R; k_IFxx : R }.

(* lines 105-114 *)
Definition canon_phase1 (p : dict R) : res canon1 :=
  mR <- dlook p "mR" ;; mB <- dlook p "mB" ;; mH <- dlook p "mH" ;; mF <- dlook p "mF" ;;
  let mT := mR + mB + mH + mF in
  xB <- dlook p "xB" ;; xH <- dlook p "xH" ;; w <- dlook p "w" ;;
  xT <- rdiv (xB*mB + xH*mH + w*mF) mT ;;
  rR <- dlook p "rR" ;; zB <- dlook p "zB" ;; zH <- dlook p "zH" ;; rF <- dlook p "rF" ;;
  zT <- rdiv (- rR*mR + zB*mB + zH*mH - rF*mF) mT ;;
  IRxx <- dlook p "IRxx" ;; IBxx <- dlook p "IBxx" ;;
  IHxx <- dlook p "IHxx" ;; IFxx <- dlook p "IFxx" ;;
  let ITxx := IRxx + IBxx + IHxx + IFxx + mR * rR^2 + mB*zB^2 + mH*zH^2 + mF*rF^2 in
  IBxz <- dlook p "IBxz" ;; IHxz <- dlook p "IHxz" ;;
  let ITxz := IBxz + IHxz - mB*xB*zB - mH*xH*zH + mF*w*rF in
  Ok (mkcanon1 mT xT zT ITxx ITxz IRxx IFxx).

(* lines 117-170 *)
Definition canon_phase2 (p : dict R) (k : canon1) : res canon :=
  let mT := k_mT k in let xT := k_xT k in let zT := k_zT k in
  let ITxx := k_ITxx k in let ITxz := k_ITxz k in
  IRzz <- dlook p "IRzz" ;; IBzz <- dlook p "IBzz" ;; IHzz <- dlook p "IHzz" ;;
  IFzz <- dlook p "IFzz" ;;
  mB <- dlook p "mB" ;; xB <- dlook p "xB" ;; mH <- dlook p "mH" ;; xH <- dlook p "xH" ;;
  mF <- dlook p "mF" ;; w <- dlook p "w" ;;
  let ITzz := IRzz + IBzz + IHzz + IFzz + mB*xB^2 + mH*xH^2 + mF*w^2 in
  let mA := mH + mF in
  xA <- rdiv (xH*mH + w*mF) mA ;;
  zH <- dlook p "zH" ;; rF <- dlook p "rF" ;;
  zA <- rdiv (zH*mH - rF*mF) mA ;;
  IHxx <- dlook p "IHxx" ;; IFxx <- dlook p "IFxx" ;;
  let IAxx := IHxx + IFxx + mH*(zH - zA)^2 + mF*(rF + zA)^2 in
  IHxz <- dlook p "IHxz" ;;
  let IAxz := IHxz - mH*(xH - xA)*(zH - zA) + mF*(w - xA)*(rF + zA) in
  let IAzz := IHzz + IFzz + mH*(xH - xA)^2 + mF*(w - xA)^2 in
  c <- dlook p "c" ;; lam <- dlook p "lam" ;;
  let uA := (xA - w - c)*cos lam - zA*sin lam in
  let IAll := mA*uA^2 + IAxx*sin lam^2 + 2*IAxz*sin lam*cos lam + IAzz*cos lam^2 in
  let IAlx := - mA*uA*zA + IAxx*sin lam + IAxz*cos lam in
  let IAlz := mA*uA*xA + IAxz*sin lam + IAzz*cos lam in
  c_w <- rdiv c w ;;
  let mu := c_w*cos lam in
  IRyy <- dlook p "IRyy" ;; rR <- dlook p "rR" ;; SR <- rdiv IRyy rR ;;
  IFyy <- dlook p "IFyy" ;; SF <- rdiv IFyy rF ;;
  let ST := SR + SF in
  let SA := mA*uA + mu*mT*xT in
  let Mpp := ITxx in
  let Mpd := IAlx + mu*ITxz in
  let Mdp := Mpd in
  let Mdd := IAll + 2*mu*IAlz + mu^2*ITzz in
  let M := mk2 Mpp Mpd Mdp Mdd in
  let K0pp := mT*zT in
  let K0pd := - SA in
  let K0dp := K0pd in
  let K0dd := - SA*sin lam in
  let K0 := mk2 K0pp K0pd K0dp K0dd in
  let K2pp := 0 in
  t1 <- rdiv (ST - mT*zT) w ;;
  let K2pd := t1*cos lam in
  let K2dp := 0 in
  t2 <- rdiv (SA + SF*sin lam) w ;;
  let K2dd := t2*cos lam in
  let K2 := mk2 K2pp K2pd K2dp K2dd in
  let C1pp := 0 in
  t3 <- rdiv ITxz w ;;
  let C1pd := mu*ST + SF*cos lam + t3*cos lam - mu*mT*zT in
  let C1dp := - (mu*ST + SF*cos lam) in
  t4 <- rdiv IAlz w ;;
  t5 <- rdiv ITzz w ;;
  let C1dd := t4*cos lam + mu*(SA + t5*cos lam) in
  let C1 := mk2 C1pp C1pd C1dp C1dd in
  Ok (mkcanon M C1 K0 K2).

Definition benchmark_par_to_canonical (p : dict R) : dict R * res canon :=
  match canon_phase1 p with
  | Err e => (p, Err e)
  | Ok k =>
      let p1 := dset p "IRzz" (k_IRxx k) in
      let p2 := dset p1 "IFzz" (k_IFxx k) in
      (p2, canon_phase2 p2 k)
  end.

(* [bicycle.py:194-195] the residual function handed to the root finder;
   [bicycle.py:173-209] lambda_from_abc.  scipy.optimize.newton is an oracle:
   [newton f x0] is a root estimate or an exception (RuntimeError when it does
   not converge).  Uncertainties are not modelled. *)
Definition lam_equality (lam rF rR a b c : R) : res R :=
  t <- rdiv (rF - rR + c * cos lam) (a + b) ;;
  Ok (sin lam - t).

Definition lambda_from_abc (newton : (R -> res R) -> R -> res R) (rF rR a b c : R) : res R :=
  t <- rdiv c (a + b) ;;
  let guess := atan t in
  newton (fun lam => lam_equality lam rF rR a b c) guess.

(* [bicycle.py:337-363] trail *)
Definition trail (rF lam fo : R) : res (R * R) :=
  c <- rdiv (rF * sin lam - fo) (cos lam) ;;
  Ok (c, c * cos lam).

(* ------------------------------------------------------------------ *)
(* Eigenvalue sorting. A complex eigenvalue is (real, imag).  The eigenvector
   array evecs[i] is represented by the list of its columns evecs[i,:,k], of an
   arbitrary type V: the code only ever copies whole columns. *)
Notation cplx := (R * R)%type.

(* [bicycle.py:242,246,248] distance in the complex plane *)
Definition cdist (e f : cplx) : R :=
  Rabs (sqrt ((fst f - fst e) ^ 2 + (snd f - snd e) ^ 2)).

(* np.argmin: index of the first minimum (0 on the empty list, which the code
   never asks for: numpy would raise ValueError) *)
Fixpoint argmin_aux (best : R) (ib : nat) (i : nat) (l : list R) : nat :=
  match l with
  | [] => ib
  | x :: l' => if Rltb x best then argmin_aux x i (S i) l' else argmin_aux best ib (S i) l'
  end.
Definition argmin (l : list R) : nat :=
  match l with [] => 0%nat | x :: l' => argmin_aux x 0 1 l' end.

(* np.max of a non-empty array *)
Definition maxl (l : list R) : R :=
  match l with [] => 0 | x :: l' => fold_left Rmax l' x end.

Definition nmem (k : nat) (l : list nat) : bool := existsb (Nat.eqb k) l.

(* [bicycle.py:249-257] index chosen from the distance array *)
Definition pick_dist (dist : list R) (used : list nat) : nat :=
  let dist' := if nmem (argmin dist) used
               then upd dist (argmin dist) (maxl dist + 1)
               else dist in
  argmin dist'.

(* [bicycle.py:244-248] distances from the current eigenvalue e to the next row *)
Definition dists (e : cplx) (next : list cplx) : list R := map (cdist e) next.

(* [bicycle.py:240-257] the inner loop: chosen index for every j; [dst] computes
   the distance array (it differs between the two sorting functions) *)
Fixpoint picks (dst : cplx -> list cplx -> list R) (cur next : list cplx) (used : list nat)
  : list nat :=
  match cur with
  | [] => []
  | e :: cur' =>
      let k := pick_dist (dst e next) used in k :: picks dst cur' next (used ++ [k])
  end.

(* a[i, k] with IndexError outside the row *)
Definition index {A} (l : list A) (k : nat) : res A :=
  match nth_error l k with Some x => Ok x | None => Err IndexError end.

(* [bicycle.py:236-257] the outer loop over speeds: [cur] is the already sorted
   row i, the lists are the remaining rows of the input *)
Fixpoint sort_rows {V} (dst : cplx -> list cplx -> list R) (cur : list cplx) (rows : list (list cplx * list V))
  : res (list (list cplx * list V)) :=
  match rows with
  | [] => Ok []
  | (ev, vec) :: rows' =>
      let ks := picks dst cur ev [] in
      ev' <- mapM (index ev) ks ;;
      vec' <- mapM (index vec) ks ;;
      rest <- sort_rows dst ev' rows' ;;
      Ok ((ev', vec') :: rest)
  end.

(* [bicycle.py:212-259] sort_eigenmodes on the rows (evals[i], columns of evecs[i]).
   An empty input fails at evalsorg[0] (IndexError). *)
Definition sort_eigenmodes {V} (rows : list (list cplx * list V))
  : res (list (list cplx * list V)) :=
  match rows with
  | [] => Err IndexError
  | r0 :: rows' => rest <- sort_rows dists (fst r0) rows' ;; Ok (r0 :: rest)
  end.

(* [bicycle.py:313-321] in sort_modes the distance array has four entries,
   initialised with zero, of which the first m are overwritten *)
Definition dists4 (e : cplx) (next : list cplx) : list R :=
  map (cdist e) next ++ repeat 0 (4 - length next).

Record modes (V : Type) := mkmodes {
  weave : list (list cplx * list V);
  capsize : list (cplx * V);
  caster : list (cplx * V) }.
Arguments mkmodes {V}. Arguments weave {V}. Arguments capsize {V}. Arguments caster {V}.

(* [bicycle.py:262-334] sort_modes.  With more than four eigenvalues in a row the
   assignment dist[k] fails (IndexError); the slices [:, 2:], [:, 1], [:, 0] are
   taken row by row. *)
Definition sort_modes {V} (rows : list (list cplx * list V)) : res (modes V) :=
  match rows with
  | [] => Err IndexError
  | r0 :: rows' =>
      if forallb (fun r => (length (fst r) <=? 4)%nat) rows' then
        rest <- sort_rows dists4 (fst r0) rows' ;;
        let all := r0 :: rest in
        let col j := mapM (fun r : list cplx * list V =>
                             e <- index (fst r) j ;; x <- index (snd r) j ;; Ok (e, x)) all in
        cap <- col 1%nat ;;
        cas <- col 0%nat ;;
        Ok (mkmodes (map (fun r => (skipn 2 (fst r), skipn 2 (snd r))) all) cap cas)
      else Err IndexError
  end.
