(* MGeometry.v -- model of /repo/bicycleparameters/geometry.py and com.py *)
From Verif Require Import Base MString MBicycle MVec MInertia.
Local Open Scope string_scope.
Local Open Scope R_scope.

(* math functions that can fail: sqrt of a negative number and asin/acos outside
   [-1, 1] raise ValueError (umath); numpy's nan is treated as the same failure.
   tan is undefined (in floating point: meaningless) where cos is zero. *)
Definition rsqrt (x : R) : res R := if Rlt_dec x 0 then Err (ValueError "math domain error") else Ok (sqrt x).
Definition rasin (x : R) : res R :=
  if Rlt_dec 1 (Rabs x) then Err (ValueError "math domain error") else Ok (asin x).
Definition racos (x : R) : res R :=
  if Rlt_dec 1 (Rabs x) then Err (ValueError "math domain error") else Ok (acos x).
Definition rtan (x : R) : res R := rdiv (sin x) (cos x).

(* [geometry.py:60-90] calculate_abc_geometry *)
Definition calculate_abc_geometry (h1 h2 h3 h4 h5 d1 d2 d3 d4 d_ : R) : res (R * R * R) :=
  let a := h1 + h2 - h3 + /2 * d1 - /2 * d2 in
  let b := h4 - /2 * d3 - h5 + /2 * d4 in
  c <- rsqrt (- (a - b)^2 + (d_ + /2 * (d2 + d3))^2) ;;
  Ok (a, b, c).

(* [geometry.py:93-130] calculate_l1_l2 *)
Definition calculate_l1_l2 (h6 h7 d5 d6 l : R) : res (R * R) :=
  let r5 := d5 / 2 in
  let r6 := d6 / 2 in
  let l1 := h7 - h6 + r5 - r6 in
  let l0 := l - r5 - r6 in
  q <- rdiv l1 l0 ;;
  gamma <- rasin q ;;
  let l2 := l0 * cos gamma in
  Ok (l1, l2).

(* [geometry.py:133-159] calc_two_link_angles *)
Definition calc_two_link_angles (L1 L2 D : R) : res (R * R) :=
  q <- rdiv (L1^2 + D^2 - L2^2) (2 * L1 * D) ;;
  theta1 <- racos q ;;
  r <- rdiv L1 L2 ;;
  s <- rasin (r * sin theta1) ;;
  Ok (theta1, theta1 + s).

(* [geometry.py:162-182] fwheel_to_handlebar_ref *)
Definition fwheel_to_handlebar_ref (lam l1 l2 : R) : res (R * R) :=
  let u1 := l2 * sin lam - l1 * cos lam in
  t <- rtan lam ;;
  q <- rdiv u1 t ;;
  s <- rdiv l1 (sin lam) ;;
  Ok (u1, q + s).

(* [geometry.py:10-57] calculate_benchmark_geometry.  The dictionary par is
   updated in place and returned; on an exception the partial updates are not
   modelled.  [newton] is the root finder used by lambda_from_abc. *)
Definition calculate_benchmark_geometry (newton : (R -> res R) -> R -> res R) (mp par : dict R) : res (dict R) :=
  dF <- dlook mp "dF" ;; nF <- dlook mp "nF" ;; rF <- rdiv (dF / 2 / PI) nF ;;
  dR <- dlook mp "dR" ;; nR <- dlook mp "nR" ;; rR <- rdiv (dR / 2 / PI) nR ;;
  let p1 := dset par "rF" rF in
  let p2 := dset p1 "rR" rR in
  g <- (if dmem mp "w" then
          gamma <- dlook mp "gamma" ;; w <- dlook mp "w" ;; f <- dlook mp "f" ;;
          Ok (PI / 180 * (90 - gamma), w, f)
        else
          h1 <- dlook mp "h1" ;; h2 <- dlook mp "h2" ;; h3 <- dlook mp "h3" ;; h4 <- dlook mp "h4" ;; h5 <- dlook mp "h5" ;;
          d1 <- dlook mp "d1" ;; d2 <- dlook mp "d2" ;; d3 <- dlook mp "d3" ;; d4 <- dlook mp "d4" ;; d_ <- dlook mp "d" ;;
          abc <- calculate_abc_geometry h1 h2 h3 h4 h5 d1 d2 d3 d4 d_ ;;
          match abc with (a, b, c) =>
            lam <- lambda_from_abc newton rF rR a b c ;;
            Ok (lam, (a + b) * cos lam + c * sin lam, b)
          end) ;;
  match g with (lam, w, forkOffset) =>
    let p3 := dset p2 "lam" lam in
    let p4 := dset p3 "w" w in
    t <- trail rF lam forkOffset ;;
    let p5 := dset p4 "c" (fst t) in
    (* try: par['xcl'] = mp['xcl']; par['zcl'] = mp['zcl'] except KeyError: pass *)
    Ok (match dget mp "xcl" with
        | None => p5
        | Some xcl => let p6 := dset p5 "xcl" xcl in
                      match dget mp "zcl" with None => p6 | Some zcl => dset p6 "zcl" zcl end
        end)
  end.

(* [geometry.py:185-214] fundamental_geometry_plot_data: the four x and z *)
Definition fundamental_geometry_plot_data (par : dict R) : res (list (R * R)) :=
  lam <- dlook par "lam" ;; c <- dlook par "c" ;; w <- dlook par "w" ;; rR <- dlook par "rR" ;;
  t <- rtan lam ;;
  rF <- dlook par "rF" ;;
  let d1 := cos lam * (c + w - rR * t) in
  let d3 := - cos lam * (c - rF * t) in
  Ok [ (0, - rR); (d1 * cos lam, - rR - d1 * sin lam);
       (w - d3 * cos lam, - rF + d3 * sin lam); (w, - rF) ].

(* [geometry.py:271-272] norm; [geometry.py:249-276] point_to_line_distance *)
Definition norm3 (v : vec3) : R := sqrt (v3_dot v v).
Definition point_to_line_distance (x0 x1 x2 : vec3) : res R :=
  rdiv (norm3 (v3_cross (v3_sub x0 x1) (v3_sub x0 x2))) (norm3 (v3_sub x2 x1)).

(* [geometry.py:217-246] distance_to_steer_axis *)
Definition distance_to_steer_axis (w c lam : R) (point : vec3) : res R :=
  let p1 := mk3 (w + c) 0 0 in
  let p2 := v3_add p1 (mk3 (- sin lam) 0 (- cos lam)) in
  point_to_line_distance point p1 p2.

(* [geometry.py:279-299] project_point_on_line *)
Definition project_point_on_line (line point : R * R) : R * R :=
  let '(m, b) := line in
  let '(c, d) := point in
  ((m * d + c - m * b) / (m^2 + 1), (m^2 * d + m * c + b) / (m^2 + 1)).

(* [geometry.py:302-319] vec_angle *)
Definition vec_angle (v1 v2 : vec3) : res R :=
  q <- rdiv (v3_dot v1 v2) (norm3 v1 * norm3 v2) ;;
  racos q.

(* [geometry.py:322-349] vec_project.  direction is an int or an array;
   type(direction) == np.array is always False (np.array is a function), so for
   an array no branch assigns unitdir.  numpy accepts indices -3..2. *)
Inductive dirarg := DirInt (k : Z) | DirVec (d : vec3).
Definition basis3 (k : Z) : res vec3 :=
  match k with
  | 0%Z => Ok (mk3 1 0 0) | 1%Z => Ok (mk3 0 1 0) | 2%Z => Ok (mk3 0 0 1)
  | (-3)%Z => Ok (mk3 1 0 0) | (-2)%Z => Ok (mk3 0 1 0) | (-1)%Z => Ok (mk3 0 0 1)
  | _ => Err IndexError
  end.
Definition vec_project (vec : vec3) (direction : dirarg) : res vec3 :=
  unitdir <- (match direction with DirInt k => basis3 k | DirVec _ => Err UnboundLocalError end) ;;
  let s := v3_dot vec unitdir in
  Ok (mk3 (vx vec - s) (vy vec - s) (vz vec - s)).

(* ------------------------------------------------------------------ com.py *)

(* [com.py:11-58] cartesian.  [rows] is the number of rows of out; assigning a
   vector of another length to the column is a ValueError unless it has length
   one (broadcast).  n // 0 is 0 (numpy warns), as Coq's division. *)
Definition assign_col {A} (rows : nat) (col : list A) : res (list A) :=
  if Nat.eqb (length col) rows then Ok col
  else match col with [x] => Ok (repeat x rows) | _ => Err (ValueError "could not broadcast") end.
Definition prod_sizes {A} (arrays : list (list A)) : nat :=
  fold_right (fun a n => length a * n)%nat 1%nat arrays.
(* out[i] for row i: first column entry, then the block copied from rows 0..m-1;
   rows outside every copied block keep their initial value [zero] *)
Definition glue_block {A} (zero : A) (k : nat) (m rows : nat) (col : list A) (block : list (list A)) (size0 : nat) : list (list A) :=
  map (fun i => nth i col zero ::
                (if Nat.ltb i (Nat.max m (size0 * m)) then nth (i mod m) block (repeat zero k) else repeat zero k))
      (seq 0 rows).
Fixpoint cartesian_into {A} (zero : A) (arrays : list (list A)) (rows : nat) {struct arrays} : res (list (list A)) :=
  match arrays with
  | [] => Err IndexError
  | a0 :: rest =>
      let n := prod_sizes arrays in
      let m := (n / length a0)%nat in
      col <- assign_col rows (flat_map (fun x => repeat x m) a0) ;;
      match rest with
      | [] => Ok (map (fun x => [x]) col)
      | _ => block <- cartesian_into zero rest (Nat.min m rows) ;;
             Ok (glue_block zero (length rest) m rows col block (length a0))
      end
  end.
Definition cartesian {A} (zero : A) (arrays : list (list A)) : res (list (list A)) :=
  cartesian_into zero arrays (prod_sizes arrays).

(* [com.py:86-97] intersection of two lines: the 2x2 system [[-s0, 1], [-s1, 1]]
   inverted (a.I), singular for equal slopes (LinAlgError) *)
Definition line_intersection (s0 s1 b0 b1 : R) : res (R * R) :=
  let det := (- s0) * 1 - 1 * (- s1) in
  i11 <- rdiv 1 det ;; i12 <- rdiv (- 1) det ;; i21 <- rdiv s1 det ;; i22 <- rdiv (- s0) det ;;
  Ok (i11 * b0 + i12 * b1, i21 * b0 + i22 * b1).

(* [com.py:61-99] center_of_mass.  np.mean of an empty object array divides by
   zero; intercepts shorter than slopes give IndexError. *)
Definition center_of_mass (slopes intercepts : list R) : res (R * R) :=
  let num := seq 0 (length slopes) in
  allComb <- cartesian 0%nat [num; num] ;;
  let comb := filter (fun row => negb (Nat.eqb (nth 0 row 0%nat) (nth 1 row 0%nat))) allComb in
  lineX <- mapM (fun row =>
      s0 <- index slopes (nth 0 row 0%nat) ;; s1 <- index slopes (nth 1 row 0%nat) ;;
      b0 <- index intercepts (nth 0 row 0%nat) ;; b1 <- index intercepts (nth 1 row 0%nat) ;;
      line_intersection s0 s1 b0 b1) comb ;;
  x <- rdiv (rsum (map fst lineX)) (INR (length lineX)) ;;
  z <- rdiv (rsum (map snd lineX)) (INR (length lineX)) ;;
  Ok (x, z).

(* [com.py:102-161] com_line; raise KeyError without a key *)
Definition com_line (alpha a : R) (par : dict R) (part : string) (l1 l2 : R) : res (R * R * R) :=
  lam <- dlook par "lam" ;;
  let beta := lam - alpha * PI / 180 in
  t <- rtan beta ;;
  let m := - t in
  if String.eqb part "B" then
    q <- rdiv (- a) (cos beta) ;; rR <- dlook par "rR" ;; Ok (m, q - rR, beta)
  else if String.eqb part "S" || String.eqb part "H" then
    q <- rdiv (- a) (cos beta) ;; rF <- dlook par "rF" ;; w <- dlook par "w" ;; Ok (m, q - rF + w * t, beta)
  else if String.eqb part "G" then
    u <- fwheel_to_handlebar_ref lam l1 l2 ;;
    q <- rdiv (- a) (cos beta) ;; rF <- dlook par "rF" ;; w <- dlook par "w" ;;
    Ok (m, q - (rF + snd u) + (w - fst u) * t, beta)
  else Err (KeyError "").

(* slopes, intercepts and betas per part *)
Definition lines3 : Type := dict (list R) * dict (list R) * dict (list R).
Definition append_to (d : dict (list R)) (k : string) (x : R) : res (dict (list R)) :=
  l <- dlook d k ;; Ok (dset d k (l ++ [x])%list).

(* [com.py:198-210] the loop over the alpha keys *)
Fixpoint com_lines_loop (mp par : dict R) (l1 l2 : R) (keys : list string) (acc : lines3) : res lines3 :=
  match keys with
  | [] => Ok acc
  | key :: keys' =>
      alpha <- dlook mp key ;;
      a <- dlook mp ("a" ++ sdrop 5 key) ;;
      part <- schar 5 key ;;
      mbb <- com_line alpha a par part l1 l2 ;;
      match mbb, acc with (m, b, beta), (sl, ic, be) =>
        sl' <- append_to sl part m ;;
        ic' <- append_to ic part b ;;
        be' <- append_to be part beta ;;
        com_lines_loop mp par l1 l2 keys' (sl', ic', be')
      end
  end.
(* [com.py:164-212] part_com_lines *)
Definition part_com_lines (mp par : dict R) (forkIsSplit : bool) : res lines3 :=
  l12 <- (if forkIsSplit then
            h6 <- dlook mp "h6" ;; h7 <- dlook mp "h7" ;; d5 <- dlook mp "d5" ;; d6 <- dlook mp "d6" ;; l <- dlook mp "l" ;;
            calculate_l1_l2 h6 h7 d5 d6 l
          else Ok (0, 0)) ;;
  let init := if forkIsSplit then [("B", []); ("G", []); ("S", [])] else [("B", []); ("H", [])] in
  com_lines_loop mp par (fst l12) (snd l12)
    (ssort (filter (starts_with "alpha") (dkeys mp))) (init, init, init).
