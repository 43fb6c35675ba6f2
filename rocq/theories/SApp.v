(* SApp.v -- specification vocabulary for C52: which cell of which table stands
   for which parameter, and what an editing history leaves in a cell. *)
From Verif Require Import Base MIo MApp.
From Coq Require Import ZArith.
Local Open Scope string_scope.
Local Open Scope R_scope.

(* table, row, column, parameter (as the labels and headings say) *)
Definition locations : list (table_id * nat * string * string) :=
  [ (Wheel, 0%nat, "fW", "rF"); (Wheel, 1%nat, "fW", "mF"); (Wheel, 2%nat, "fW", "IFxx"); (Wheel, 3%nat, "fW", "IFyy");
    (Wheel, 0%nat, "rW", "rR"); (Wheel, 1%nat, "rW", "mR"); (Wheel, 2%nat, "rW", "IRxx"); (Wheel, 3%nat, "rW", "IRyy");
    (General, 0%nat, "data", "w"); (General, 1%nat, "data", "c"); (General, 2%nat, "data", "lam"); (General, 3%nat, "data", "g");
    (Frame, 0%nat, "rB", "xB"); (Frame, 1%nat, "rB", "zB"); (Frame, 2%nat, "rB", "mB");
    (Frame, 3%nat, "rB", "IBxx"); (Frame, 4%nat, "rB", "IByy"); (Frame, 5%nat, "rB", "IBzz"); (Frame, 6%nat, "rB", "IBxz");
    (Frame, 0%nat, "fA", "xH"); (Frame, 1%nat, "fA", "zH"); (Frame, 2%nat, "fA", "mH");
    (Frame, 3%nat, "fA", "IHxx"); (Frame, 4%nat, "fA", "IHyy"); (Frame, 5%nat, "fA", "IHzz"); (Frame, 6%nat, "fA", "IHxz") ].
(* the label in front of a row *)
Definition row_labels (t : table_id) : list string :=
  match t with
  | Wheel => ["Radius [m]:"; "Mass [kg]:"; "Moment Ixx [kg*m2]:"; "Moment Iyy [kg*m2]:"]
  | Frame => ["Center of Mass X [m]:"; "Center of Mass Z [m]:"; "Total Mass [kg]:"; "Moment Ixx [kg*m2]:"; "Moment Iyy [kg*m2]:"; "Moment Izz [kg*m2]:"; "Moment Ixz [kg*m2]:"]
  | General => ["Wheel Base [m]:"; "Trail [m]:"; "Steer Axis Tilt [degrees]:"; "Gravity [N/kg]:"]
  end.

(* content of a cell; None if there is no such cell *)
Definition cell_at (tb : tables) (t : table_id) (i : nat) (col : string) : option cell :=
  match nth_error (the_table tb t) i with Some r => dget r col | None => None end.
(* the nominal value of a stored parameter, blank if there is none *)
Definition nominal_cell (p : dict pval) (k : string) : cell :=
  match dget p k with Some (PF x) => CNum (PF x) | Some (PU n _) => CNum (PF n) | None => CNone end.
(* the integer between zero and x that is closest to x *)
Definition truncated (z : Z) (x : R) : Prop := Rabs (IZR z) <= Rabs x < Rabs (IZR z) + 1 /\ 0 <= IZR z * x.
(* the number typed in a cell *)
Definition number_in (c : option cell) (x : R) : Prop := c = Some (CNum (PF x)).
(* a cell that float() takes for the number x: a number, or a text that reads as one (a cell typed in by the user) *)
Definition reads_as (c : option cell) (x : R) : Prop := number_in c x \/ exists s, c = Some (CText s) /\ pfloat s = Ok x.

Definition same_cell (t : table_id) (i : nat) (col : string) (t' : table_id) (i' : nat) (col' : string) : bool :=
  match t, t' with Wheel, Wheel | Frame, Frame | General, General => Nat.eqb i i' && String.eqb col col' | _, _ => false end.
(* the last value typed into the cell since the tables were filled *)
Definition last_edit (t : table_id) (i : nat) (col : string) (es : list event) : option cell :=
  fold_left (fun a e => match e with
    | Select _ | Reset => None
    | EditCell t' i' col' c => if same_cell t i col t' i' col' then Some c else a
    | _ => a end) es None.
Definition last_bike (b : string) (es : list event) : string := fold_left (fun a e => match e with Select b => b | _ => a end) es b.
Definition last_options (o : list string) (es : list event) : list string := fold_left (fun a e => match e with Checklist o => o | _ => a end) es o.
Definition last_slider (r : list R) (es : list event) : list R := fold_left (fun a e => match e with Slider r => r | _ => a end) es r.

(* a table of the shape the application shows *)
Definition full_tables (tb : tables) : Prop :=
  length (t_wheel tb) = 4%nat /\ length (t_frame tb) = 7%nat /\ length (t_general tb) = 4%nat /\
  forall t i col k, In (t, i, col, k) locations -> cell_at tb t i col <> None.
