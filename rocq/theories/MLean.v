(* MLean.v -- the language of /repo/bicycleparameters/_mooreriderlean2012.py: a straight
   line program of assignments to elements of numpy.empty arrays and to local names.
   The program itself is in MLeanProg.v, which tools/lean_gen.py translates statement by
   statement.  Arithmetic is that of the reals; a division by zero and a root of a
   negative number (inf or nan in numpy) count as failures. *)
From Verif Require Import Base MString MBicycle MVec MInertia MModels2.
From Coq Require Import ZArith PArith.
Local Open Scope string_scope.
Local Open Scope R_scope.

Inductive expr :=
  | Nm (s : string)                (* a local name *)
  | Zr (n : positive)              (* z[n] *)
  | Lit (p : Z) (q : positive)     (* the number p/q *)
  | Neg (a : expr) | Add (a b : expr) | Sub (a b : expr) | Mul (a b : expr) | Div (a b : expr)
  | Sin (a : expr) | Cos (a : expr)
  | PowN (a : expr) (n : nat)      (* pow(a, n) *)
  | PowH (a : expr) (n : nat).     (* pow(a, n + 0.5) *)
Inductive mat := MA | MB | MC | MD.
Inductive stmt :=
  | SZ (n : positive) (e : expr)          (* z[n] = e *)
  | SN (s : string) (e : expr)            (* s = e *)
  | SM (m : mat) (i j : nat) (e : expr).  (* A[i, j] = e, ... *)

(* local names (None: not bound), the elements of z, the elements of A, B, C, D *)
Record lstate := mklst { ls_names : string -> option R; ls_z : positive -> R; ls_mat : mat -> nat -> nat -> R }.

(* pow(x, n + 0.5) *)
Definition half_power (x : R) (n : nat) : res R := if Rltb x 0 then Err (OtherError "nan") else Ok (x ^ n * sqrt x).
Fixpoint leval (st : lstate) (e : expr) : res R :=
  match e with
  | Nm s => match ls_names st s with Some x => Ok x | None => Err UnboundLocalError end
  | Zr n => Ok (ls_z st n)
  | Lit p q => Ok (IZR p / IZR (Zpos q))
  | Neg a => x <- leval st a ;; Ok (- x)
  | Add a b => x <- leval st a ;; y <- leval st b ;; Ok (x + y)
  | Sub a b => x <- leval st a ;; y <- leval st b ;; Ok (x - y)
  | Mul a b => x <- leval st a ;; y <- leval st b ;; Ok (x * y)
  | Div a b => x <- leval st a ;; y <- leval st b ;; rdiv x y
  | Sin a => x <- leval st a ;; Ok (sin x)
  | Cos a => x <- leval st a ;; Ok (cos x)
  | PowN a n => x <- leval st a ;; Ok (x ^ n)
  | PowH a n => x <- leval st a ;; half_power x n
  end.
(* [_mooreriderlean2012.py:10-15] the shapes of the arrays *)
Definition mat_shape (m : mat) : nat * nat :=
  match m with MA => (13, 13) | MB => (13, 4) | MC => (18, 13) | MD => (18, 4) end%nat.
Definition z_size : positive := 5031.
Definition mat_eqb (a b : mat) : bool := match a, b with MA, MA | MB, MB | MC, MC | MD, MD => true | _, _ => false end.
Definition lexec (st : lstate) (s : stmt) : res lstate :=
  match s with
  | SZ n e => x <- leval st e ;;
      if Pos.ltb n z_size then Ok (mklst (ls_names st) (fun k => if Pos.eqb k n then x else ls_z st k) (ls_mat st)) else Err IndexError
  | SN s e => x <- leval st e ;; Ok (mklst (fun k => if String.eqb k s then Some x else ls_names st k) (ls_z st) (ls_mat st))
  | SM m i j e => x <- leval st e ;;
      if (Nat.ltb i (fst (mat_shape m)) && Nat.ltb j (snd (mat_shape m)))%bool
      then Ok (mklst (ls_names st) (ls_z st)
             (fun m' i' j' => if (mat_eqb m' m && Nat.eqb i' i && Nat.eqb j' j)%bool then x else ls_mat st m' i' j'))
      else Err IndexError
  end.
Fixpoint lrun (st : lstate) (p : list stmt) : res lstate :=
  match p with [] => Ok st | s :: r => st' <- lexec st s ;; lrun st' r end.

(* the names unpacked from the arguments [_mooreriderlean2012.py:19-71] *)
Definition lean_names : list string := (q_names ++ u_names ++ r_names ++ p_names)%list.
(* what numpy.empty leaves in the arrays *)
Record memory := mkmem { mem_z : positive -> R; mem_mat : mat -> nat -> nat -> R }.
(* the state after [_mooreriderlean2012.py:10-71] *)
Definition unpacked (mem : memory) (e : string -> R) : lstate :=
  mklst (fun k => if smem k lean_names then Some (e k) else None) (mem_z mem) (mem_mat mem).
(* an array of the given shape as rows *)
Definition rows_of (f : nat -> nat -> R) (n m : nat) : marr := map (fun i => map (f i) (seq 0 m)) (seq 0 n).
Definition result (st : lstate) (m : mat) : marr := rows_of (ls_mat st m) (fst (mat_shape m)) (snd (mat_shape m)).
(* [_mooreriderlean2012.py:73-11189] the rest of eval_linear: the pitch angle, the program p
   and the return of A, B, C, D *)
Definition lean_equations (pitch : R -> R -> R -> R -> R -> R -> R -> res R) (mem : memory) (p : list stmt) (e : string -> R) : res (marr * marr * marr * marr) :=
  lam <- pitch (e "q4") (e "q7") (e "rf") (e "rr") (e "d1") (e "d2") (e "d3") ;;
  let st := unpacked mem e in
  st <- lrun (mklst (fun k => if String.eqb k "lam" then Some lam else ls_names st k) (ls_z st) (ls_mat st)) p ;;
  Ok (result st MA, result st MB, result st MC, result st MD).
