(* SPeriod.v -- specification vocabulary for C39-C42 and C53 *)
From Verif Require Import Base MString MIo SIo.
Local Open Scope string_scope.
Local Open Scope R_scope.

(* documented letters of the parts; the rod is called "Rod" or as named in the
   data, and that name wins over the others *)
Inductive part_letter (split : bool) (rod : option string) : string -> string -> Prop :=
| pl_rod : part_letter split rod (match rod with Some r => r | None => "Rod" end) "P"
| pl_other p l :
    p <> match rod with Some r => r | None => "Rod" end ->
    (p = "Fwheel" /\ l = "F" \/ p = "Rwheel" /\ l = "R" \/ p = "Frame" /\ l = "B" \/ p = "Flywheel" /\ l = "D"
     \/ split = true /\ (p = "Fork" /\ l = "S" \/ p = "Handlebar" /\ l = "G")
     \/ split = false /\ p = "Fork" /\ l = "H") ->
    part_letter split rod p l.
Inductive ordinal_digit : string -> string -> Prop :=
| od1 : ordinal_digit "First" "1" | od2 : ordinal_digit "Second" "2" | od3 : ordinal_digit "Third" "3"
| od4 : ordinal_digit "Fourth" "4" | od5 : ordinal_digit "Fifth" "5" | od6 : ordinal_digit "Sixth" "6".
(* small letter of a character *)
Definition small_of (c d : ascii) : Prop :=
  (upper c /\ nat_of_ascii d = nat_of_ascii c + 32)%nat \/ (~ upper c /\ d = c).
(* the orientation word of a recording *)
Definition orientation_word (mat : dict string) (w : string) : Prop :=
  dget mat "angleOrder" = Some w \/ (dget mat "angleOrder" = None /\ dget mat "angle" = Some w).
Definition period_key (mat : dict string) (split : bool) (key : string) : Prop :=
  exists w c rest d part letter num,
    orientation_word mat w /\ dget mat "pendulum" = Some (String c rest) /\ small_of c d
    /\ dget mat "part" = Some part /\ part_letter split (dget mat "rod") part letter
    /\ ordinal_digit w num /\ key = String "T" (String d (letter ++ num)).

(* number of keys with a given prefix *)
Fixpoint how_many (pre : string) (keys : list string) : nat :=
  match keys with [] => 0 | k :: ks => (if String.prefix pre k then 1 else 0) + how_many pre ks end%nat.

(* contiguous part of a list: the elements with positions a, a+1, ..., b-1 *)
Definition part_of {A} (l : list A) (a b : nat) (out : list A) : Prop :=
  (a <= b -> length out = min b (length l) - a)%nat /\ (b <= a -> out = [])%nat
  /\ (forall i, (a + i < b)%nat -> nth_error out i = nth_error l (a + i)).

(* position of the first largest element *)
Definition first_largest (l : list R) (i : nat) : Prop :=
  exists v, nth_error l i = Some v /\ (forall j x, nth_error l j = Some x -> x <= v /\ (x = v -> i <= j)%nat).

Definition deviations (l : list R) : list R := map (fun x => x - average l) l.

(* the periods of the recordings that carry the key k, in file order *)
Inductive trials (split : bool) (k : string) : list (dict string * res (R * R)) -> list (R * R) -> Prop :=
| tr_nil : trials split k [] []
| tr_same mat p fs l : period_key mat split k -> trials split k fs l -> trials split k ((mat, Ok p) :: fs) (p :: l)
| tr_other mat p q fs l : period_key mat split q -> q <> k -> trials split k fs l -> trials split k ((mat, Ok p) :: fs) l.
(* mean of independent uncertain numbers *)
Definition mean_of_trials (l : list (R * R)) : R * R :=
  (average (map fst l), sqrt (fold_right (fun u a => snd u * snd u + a) 0 l) / INR (length l)).

(* the fit function written in get_period's documentation: p = [a; b; c; zeta; w] *)
Definition oscillation (p : list R) (t : R) : R :=
  match p with
  | [a; b; c; z; w] =>
      let wd := w * sqrt (1 - z * z) in a + exp (- z * w * t) * (b * sin (wd * t) + c * cos (wd * t))
  | _ => 0
  end.
