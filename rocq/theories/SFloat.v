(* SFloat.v -- specification vocabulary for C78: what is asked of machine arithmetic *)
From Coq Require Import ZArith.
From Flocq Require Import Core.
From Verif Require Import Base MVec MBicycle MFloat SBicycle SModels SModels2 SLean.
Local Open Scope R_scope.

(* the unit roundoff of double precision *)
Definition roundoff : R := / 2 ^ 53.
(* the computed xh differs from x by at most n unit roundoffs of x *)
Definition within (n : nat) (xh x : R) : Prop := Rabs (xh - x) <= INR n * roundoff * Rabs x.

(* every operation is accurate to one roundoff, library functions to two (one unit in the
   last place): arithmetic without underflow *)
Definition accurate (a : arith) : Prop :=
  (forall x, within 1 (fl a x) x) /\ (forall x, within 2 (fsin a x) (sin x)) /\ (forall x, within 2 (fcos a x) (cos x)) /\
  (forall x, within 2 (fsq a x) (x ^ 2)) /\ within 1 (fpi a) PI /\
  (forall x1 x2 y1 y2, Rabs (fdot a x1 x2 y1 y2 - (x1 * y1 + x2 * y2)) <= 3 * roundoff * (Rabs (x1 * y1) + Rabs (x2 * y2))).
(* rounding treats the two signs alike *)
Definition sign_symmetric (a : arith) : Prop :=
  (forall x, fl a (- x) = - fl a x) /\ (forall x, fsq a (- x) = fsq a x) /\
  (forall x1 x2 y1 y2, fdot a x1 x2 (- y1) (- y2) = - fdot a x1 x2 y1 y2).
(* rounding keeps the order, and squares are not negative *)
Definition order_preserving (a : arith) : Prop := (forall x y, x <= y -> fl a x <= fl a y) /\ (forall x, 0 <= fsq a x) /\ fl a 0 = 0.
(* multiplication by powers of two changes exponents only *)
Definition pow2 (e : Z) : R := bpow radix2 e.
Definition scale_invariant (a : arith) : Prop :=
  (forall e x, fl a (pow2 e * x) = pow2 e * fl a x) /\ (forall e x, fsq a (pow2 e * x) = pow2 (2 * e) * fsq a x) /\
  (forall e f x1 x2 y1 y2, fdot a (pow2 e * x1) (pow2 e * x2) (pow2 f * y1) (pow2 f * y2) = pow2 (e + f) * fdot a x1 x2 y1 y2).

(* a number of the format: rounding leaves it alone *)
Definition is_float (a : arith) (x : R) : Prop := fl a x = x.

(* double precision with round to nearest even, exponents unbounded; correctly rounded
   library functions *)
Definition rnd53 (x : R) : R := round radix2 (FLX_exp 53) ZnearestE x.
Definition double_plain : arith := mkarith rnd53 (fun x => rnd53 (sin x)) (fun x => rnd53 (cos x)) (fun x => rnd53 (x * x))
  (fun x1 x2 y1 y2 => rnd53 (rnd53 (x1 * y1) + rnd53 (x2 * y2))) (rnd53 PI).
(* the same with a fused multiply-add in the product of arrays *)
Definition double_fma : arith := mkarith rnd53 (fun x => rnd53 (sin x)) (fun x => rnd53 (cos x)) (fun x => rnd53 (x * x))
  (fun x1 x2 y1 y2 => rnd53 (rnd53 (x1 * y1) + x2 * y2)) (rnd53 PI).
(* binary64 with its smallest numbers: gradual underflow *)
Definition rnd64 (x : R) : R := round radix2 (FLT_exp (-1074) 53) ZnearestE x.
Definition double_underflow : arith := mkarith rnd64 (fun x => rnd64 (sin x)) (fun x => rnd64 (cos x)) (fun x => rnd64 (x * x))
  (fun x1 x2 y1 y2 => rnd64 (rnd64 (x1 * y1) + rnd64 (x2 * y2))) (rnd64 PI).

(* parts of positive mass whose centres are above the ground (z points down), wheels of
   positive radius, trail not negative, steer axis less than a right angle from vertical *)
Definition upright_bicycle (f : string -> R) : Prop :=
  (forall k, In k ["mR"; "mB"; "mH"; "mF"; "rR"; "rF"; "w"]%string -> 0 < f k) /\
  (forall k, In k ["IRxx"; "IBxx"; "IHxx"; "IFxx"; "IRyy"; "IFyy"; "c"]%string -> 0 <= f k) /\
  f "zB"%string <= 0 /\ f "zH"%string <= 0 /\ 0 <= cos (f "lam"%string).

Local Open Scope string_scope.
Local Open Scope R_scope.

(* sizes of what is added up in the entries of the canonical matrices: the formulas of
   bicycle.py 105-168 with every parameter replaced by its absolute value and every
   difference by a sum *)
Section Magnitudes.
  Variable f : string -> R.
  Let mR := Rabs (f "mR"). Let mB := Rabs (f "mB"). Let mH := Rabs (f "mH"). Let mF := Rabs (f "mF").
  Let xB := Rabs (f "xB"). Let xH := Rabs (f "xH"). Let zB := Rabs (f "zB"). Let zH := Rabs (f "zH").
  Let w := Rabs (f "w"). Let c := Rabs (f "c"). Let lam := f "lam". Let rR := Rabs (f "rR"). Let rF := Rabs (f "rF").
  Definition G_mT : R := mR + mB + mH + mF.
  Definition G_xT : R := (xB*mB + xH*mH + w*mF) / G_mT.
  Definition G_zT : R := (rR*mR + zB*mB + zH*mH + rF*mF) / G_mT.
  Definition G_ITxx : R := Rabs (f "IRxx") + Rabs (f "IBxx") + Rabs (f "IHxx") + Rabs (f "IFxx") + mR*rR^2 + mB*zB^2 + mH*zH^2 + mF*rF^2.
  Definition G_ITxz : R := Rabs (f "IBxz") + Rabs (f "IHxz") + mB*xB*zB + mH*xH*zH + mF*w*rF.
  Definition G_ITzz : R := Rabs (f "IRxx") + Rabs (f "IBzz") + Rabs (f "IHzz") + Rabs (f "IFxx") + mB*xB^2 + mH*xH^2 + mF*w^2.
  Definition G_mA : R := mH + mF.
  Definition G_xA : R := (xH*mH + w*mF) / G_mA.
  Definition G_zA : R := (zH*mH + rF*mF) / G_mA.
  Definition G_IAxx : R := Rabs (f "IHxx") + Rabs (f "IFxx") + mH*(zH + G_zA)^2 + mF*(rF + G_zA)^2.
  Definition G_IAxz : R := Rabs (f "IHxz") + mH*(xH + G_xA)*(zH + G_zA) + mF*(w + G_xA)*(rF + G_zA).
  Definition G_IAzz : R := Rabs (f "IHzz") + Rabs (f "IFxx") + mH*(xH + G_xA)^2 + mF*(w + G_xA)^2.
  Definition G_uA : R := (G_xA + w + c)*Rabs (cos lam) + G_zA*Rabs (sin lam).
  Definition G_IAll : R := G_mA*G_uA^2 + G_IAxx*Rabs (sin lam)^2 + 2*G_IAxz*Rabs (sin lam)*Rabs (cos lam) + G_IAzz*Rabs (cos lam)^2.
  Definition G_IAlx : R := G_mA*G_uA*G_zA + G_IAxx*Rabs (sin lam) + G_IAxz*Rabs (cos lam).
  Definition G_IAlz : R := G_mA*G_uA*G_xA + G_IAxz*Rabs (sin lam) + G_IAzz*Rabs (cos lam).
  Definition G_mu : R := c / w * Rabs (cos lam).
  Definition G_SR : R := Rabs (f "IRyy") / rR.
  Definition G_SF : R := Rabs (f "IFyy") / rF.
  Definition G_ST : R := G_SR + G_SF.
  Definition G_SA : R := G_mA*G_uA + G_mu*G_mT*G_xT.
  Definition magnitudes : canon := mkcanon
    (mk2 G_ITxx (G_IAlx + G_mu*G_ITxz) (G_IAlx + G_mu*G_ITxz) (G_IAll + 2*G_mu*G_IAlz + G_mu^2*G_ITzz))
    (mk2 0 (G_mu*G_ST + G_SF*Rabs (cos lam) + G_ITxz/w*Rabs (cos lam) + G_mu*G_mT*G_zT) ( (G_mu*G_ST + G_SF*Rabs (cos lam))) (G_IAlz/w*Rabs (cos lam) + G_mu*(G_SA + G_ITzz/w*Rabs (cos lam))))
    (mk2 (G_mT*G_zT) (G_SA) (G_SA) (G_SA*Rabs (sin lam)))
    (mk2 0 ((G_ST + G_mT*G_zT)/w*Rabs (cos lam)) 0 ((G_SA + G_SF*Rabs (sin lam))/w*Rabs (cos lam))).
End Magnitudes.

(* how much of the determinant of the mass matrix is lost by cancellation: at most a factor k *)
Definition conditioned (k : R) (sizes M : mat2) : Prop :=
  m11 M * m22 M - m12 M * m21 M <> 0 /\ m11 sizes * m22 sizes + m12 sizes * m21 sizes <= k * Rabs (m11 M * m22 M - m12 M * m21 M).
Definition m2_abs (M : mat2) : mat2 := mk2 (Rabs (m11 M)) (Rabs (m12 M)) (Rabs (m21 M)) (Rabs (m22 M)).
Definition canon_abs (c : canon) : canon := mkcanon (m2_abs (cM c)) (m2_abs (cC1 c)) (m2_abs (cK0 c)) (m2_abs (cK2 c)).
(* sizes of what is added up in the entries of the state and input matrices *)
Definition inverse_sizes (s M : mat2) : mat2 :=
  m2_scale (/ Rabs (m11 M * m22 M - m12 M * m21 M)) (mk2 (m22 s) (m12 s) (m21 s) (m11 s)).
Definition state_sizes (s : canon) (M : mat2) (v g : R) : marr * marr :=
  let J := inverse_sizes (cM s) M in
  (vstack (hstack (m2_rows m2_zero) (m2_rows m2_zero))
          (hstack (m2_rows (m2_dot J (m2_add (m2_scale (Rabs g) (cK0 s)) (m2_scale (v ^ 2) (cK2 s))))) (m2_rows (m2_dot J (m2_scale (Rabs v) (cC1 s))))),
   vstack (m2_rows m2_zero) (m2_rows J)).

(* units that are powers of two *)
Definition powers_of_two (em el et : Z) : units := mkunits (pow2 em) (pow2 el) (pow2 et).
Definition masses_positive (p : dict R) : Prop := forall k, In k ["mR"; "mB"; "mH"; "mF"] -> 0 < pv p k.
(* the sixteen entries of the four canonical matrices *)
Definition entries_of2 : list (mat2 -> R) := [m11; m12; m21; m22].
Definition entries_of_canon : list (canon -> R) := (map (fun e c => e (cM c)) entries_of2 ++ map (fun e c => e (cC1 c)) entries_of2 ++ map (fun e c => e (cK0 c)) entries_of2 ++ map (fun e c => e (cK2 c)) entries_of2)%list.
