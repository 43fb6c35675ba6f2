(* SPlot.v -- specification vocabulary for C50 and C55 *)
From Verif Require Import Base.
From Coq Require Import ZArith.

(* the curve moved by a whole number of turns *)
Definition turned (k : Z) (ys ys' : list R) : Prop := ys' = map (fun y => y - 360 * IZR k) ys.
(* the point lies on the ellipse with the given centre, axis directions and
   half axes *)
Definition on_ellipse (cx cy : R) (ax1 ax2 : R * R) (a b : R) (p : R * R) : Prop :=
  let u := (fst p - cx) * fst ax1 + (snd p - cy) * snd ax1 in
  let v := (fst p - cx) * fst ax2 + (snd p - cy) * snd ax2 in
  (u / a) ^ 2 + (v / b) ^ 2 = 1.
Definition orthonormal2 (a b : R * R) : Prop :=
  fst a ^ 2 + snd a ^ 2 = 1 /\ fst b ^ 2 + snd b ^ 2 = 1 /\ fst a * fst b + snd a * snd b = 0.
