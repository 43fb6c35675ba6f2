(* SEig.v -- specification vocabulary for Bicycle.canonical, state_space, eig and the plots *)
From Verif Require Import Base MString MHeap MBicycle MModels MModels2 SModels SModels2 MEig.
From Coq Require Import Permutation Sorting.Sorted.
Local Open Scope string_scope.
Local Open Scope R_scope.

(* any sequence of calls on one Bicycle *)
Inductive bcall := CallCanon (f : flag) | CallSpace (v : R) (f : flag) | CallBode (v : R) (u y : nat).
Definition object_after (c : bcall) (ps : par_sets) : par_sets :=
  match c with
  | CallCanon f => fst (bicycle_canonical ps f)
  | CallSpace v f => fst (bicycle_state_space ps v f)
  | CallBode v u y => fst (bode_system ps v u y)
  end.
Definition object_after_all (cs : list bcall) (ps : par_sets) : par_sets := fold_left (fun p c => object_after c p) cs ps.
(* the two values a call may write *)
Definition written : list string := ["IRzz"; "IFzz"].
Definition same_but_written (ps ps' : par_sets) : Prop :=
  dkeys ps' = dkeys ps /\
  (forall name, name <> "Benchmark" -> dget ps' name = dget ps name) /\
  (forall p, dget ps "Benchmark" = Some p -> exists p', dget ps' "Benchmark" = Some p' /\ forall k, ~ In k written -> dget p' k = dget p k).

(* w and V are the eigenvalues and eigenvectors of the bicycle at speed v *)
Definition spectrum_at (ps : par_sets) (v : R) (w : list cplx) (V : list (list cplx)) : Prop :=
  exists A B, snd (bicycle_state_space ps v FTrue) = Ok (A, B) /\ eigenpairs false 4 A w V.

Definition sorted_copy (l s : list R) : Prop := Permutation l s /\ StronglySorted Rle s.
Definition pt (c : curve) (i : nat) : R * R := nth i c (0, 0).
(* curve c has one point per speed, in order *)
Definition over (speeds : list R) (c : curve) : Prop := length c = length speeds /\ forall i, (i < length speeds)%nat -> fst (pt c i) = nth i speeds 0.

(* all four plotted real parts are negative at sample i *)
Definition stable_sample (cs : list curve) (i : nat) : Prop := forall q, (q < 4)%nat -> snd (pt (nth q cs []) i) < 0.
(* the samples at which one curve is negative are consecutive *)
Definition contiguous (c : curve) : Prop :=
  forall i j k, (i <= j <= k)%nat -> (k < length c)%nat -> snd (pt c i) < 0 -> snd (pt c k) < 0 -> snd (pt c j) < 0.
(* the eight curves show, at every speed, the real parts and the absolute imaginary parts
   of four eigenvalues of the bicycle at that speed *)
Definition shows_spectrum (ps : par_sets) (speeds : list R) (re im : list curve) : Prop :=
  length re = 4%nat /\ length im = 4%nat /\ (forall c, In c (re ++ im) -> over speeds c) /\
  forall i, (i < length speeds)%nat -> exists w V, spectrum_at ps (nth i speeds 0) w V /\
    forall q, (q < 4)%nat -> exists z, In z w /\ snd (pt (nth q re []) i) = fst z /\ snd (pt (nth q im []) i) = Rabs (snd z).
(* at sample i the four shown are all of the given eigenvalues *)
Definition shows_all (re im : list curve) (i : nat) (w : list cplx) : Prop :=
  exists zs, Permutation zs w /\ forall q, (q < 4)%nat -> snd (pt (nth q re []) i) = fst (nth q zs (0, 0)) /\ snd (pt (nth q im []) i) = Rabs (snd (nth q zs (0, 0))).

(* a parameter stored in the Bicycle object *)
Definition stored (ps : par_sets) (k : string) : option R := match dget ps "Benchmark" with Some p => dget p k | None => None end.
(* what the words in the title of a Bode plot mean *)
Definition named_torque (name : string) (tau Troll Tsteer : R) : Prop :=
  (name = "Roll Torque" /\ Troll = tau /\ Tsteer = 0) \/ (name = "Steer Torque" /\ Troll = 0 /\ Tsteer = tau).
Definition named_output (name : string) (roll steer rollrate steerrate out : R) : Prop :=
  (name = "Roll Angle" /\ out = roll) \/ (name = "Steer Angle" /\ out = steer) \/ (name = "Roll Rate" /\ out = rollrate) \/ (name = "Steer Rate" /\ out = steerrate).
