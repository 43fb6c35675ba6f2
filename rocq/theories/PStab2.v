(* PStab2.v -- Cayley-Hamilton for the 4x4 state matrix; decay of its motions *)
From Coq Require Import Lra Lia.
From Verif Require Import Base MString MHeap MBicycle MVec MInertia MSets MModels MModels2 SBicycle SModels SModels2 MEig SEig SStab PModels8 PStab.
Local Open Scope R_scope.

Section Poly.
  Variables a1 b1 a2 b2 a3 b3 a4 b4 : R.
  (* elementary symmetric functions of four complex numbers *)
  Definition e1r := a1 + a2 + a3 + a4. Definition e1i := b1 + b2 + b3 + b4.
  Definition w12 := cmul (a1, b1) (a2, b2). Definition w34 := cmul (a3, b3) (a4, b4).
  Definition s12 : cplx := (a1 + a2, b1 + b2). Definition s34 : cplx := (a3 + a4, b3 + b4).
  Definition e2r := fst w12 + fst w34 + fst (cmul s12 s34). Definition e2i := snd w12 + snd w34 + snd (cmul s12 s34).
  Definition e3r := fst (cmul w12 s34) + fst (cmul s12 w34). Definition e3i := snd (cmul w12 s34) + snd (cmul s12 w34).
  Definition e4r := fst (cmul w12 w34). Definition e4i := snd (cmul w12 w34).
  Lemma cprod4 s : cprod (map (fun z : cplx => (s - fst z, - snd z)) [(a1, b1); (a2, b2); (a3, b3); (a4, b4)]) =
    (s ^ 4 - e1r * s ^ 3 + e2r * s ^ 2 - e3r * s + e4r, - e1i * s ^ 3 + e2i * s ^ 2 - e3i * s + e4i).
  Proof. unfold cprod, e1r, e1i, e2r, e2i, e3r, e3i, e4r, e4i, w12, w34, s12, s34. cbn [map fold_right]. unfold cmul. cbn [fst snd]. apply (f_equal2 (@pair R R)); ring. Qed.
  Lemma Y4 n A x i : (i < n)%nat -> let z1 := mv n A x in let z2 := mv n A z1 in let z3 := mv n A z2 in let z4 := mv n A z3 in
    fst (Y n A [(a1, b1); (a2, b2); (a3, b3); (a4, b4)] (x, fun _ => 0)) i = z4 i - e1r * z3 i + e2r * z2 i - e3r * z1 i + e4r * x i /\
    snd (Y n A [(a1, b1); (a2, b2); (a3, b3); (a4, b4)] (x, fun _ => 0)) i = - e1i * z3 i + e2i * z2 i - e3i * z1 i + e4i * x i.
  Proof.
    intros Hi z1 z2 z3 z4. set (cb := fun c0 c1 c2 c3 c4 (i : nat) => c0 * x i + c1 * z1 i + c2 * z2 i + c3 * z3 i + c4 * z4 i).
    assert (LC : forall c0 c1 c2 c3 i, mv n A (cb c0 c1 c2 c3 0) i = cb 0 c0 c1 c2 c3 i).
    { intros c0 c1 c2 c3 j. transitivity (c0 * mv n A x j + c1 * mv n A z1 j + c2 * mv n A z2 j + c3 * mv n A z3 j).
      - unfold mv at 1. transitivity (sumn n (fun k => c0 * (A j k * x k) + c1 * (A j k * z1 k) + c2 * (A j k * z2 k) + c3 * (A j k * z3 k))); [apply sumn_ext; intros k _; unfold cb; ring|].
        rewrite !sumn_plus, !sumn_scal. reflexivity.
      - unfold cb. change (mv n A x j) with (z1 j). change (mv n A z1 j) with (z2 j). change (mv n A z2 j) with (z3 j). change (mv n A z3 j) with (z4 j). ring. }
    assert (ST : forall w l c0 c1 c2 c3 d0 d1 d2 d3, let a := fst w in let b := snd w in
      fst (Y n A (w :: l) (cb c0 c1 c2 c3 0, cb d0 d1 d2 d3 0)) i = fst (Y n A l (cb (- (a * c0 - b * d0)) (c0 - (a * c1 - b * d1)) (c1 - (a * c2 - b * d2)) (c2 - (a * c3 - b * d3)) c3,
         cb (- (b * c0 + a * d0)) (d0 - (b * c1 + a * d1)) (d1 - (b * c2 + a * d2)) (d2 - (b * c3 + a * d3)) d3)) i /\
      snd (Y n A (w :: l) (cb c0 c1 c2 c3 0, cb d0 d1 d2 d3 0)) i = snd (Y n A l (cb (- (a * c0 - b * d0)) (c0 - (a * c1 - b * d1)) (c1 - (a * c2 - b * d2)) (c2 - (a * c3 - b * d3)) c3,
         cb (- (b * c0 + a * d0)) (d0 - (b * c1 + a * d1)) (d1 - (b * c2 + a * d2)) (d2 - (b * c3 + a * d3)) d3)) i).
    { intros w l c0 c1 c2 c3 d0 d1 d2 d3 a b. cbn [Y]. apply Y_ext; [|exact Hi]. intros j Hj. cbn [fst snd]. fold a b. rewrite !LC. unfold cb. split; ring. }
    destruct (Y_ext n A [(a1, b1); (a2, b2); (a3, b3); (a4, b4)] x (fun _ => 0) (cb 1 0 0 0 0) (cb 0 0 0 0 0) i) as [-> ->]; [intros j _; unfold cb; split; ring|exact Hi|].
    destruct (ST (a1, b1) [(a2, b2); (a3, b3); (a4, b4)] 1 0 0 0 0 0 0 0) as [-> ->]. cbn [fst snd].
    destruct (ST (a2, b2) [(a3, b3); (a4, b4)] (- (a1 * 1 - b1 * 0)) (1 - (a1 * 0 - b1 * 0)) (0 - (a1 * 0 - b1 * 0)) (0 - (a1 * 0 - b1 * 0)) (- (b1 * 1 + a1 * 0)) (0 - (b1 * 0 + a1 * 0)) (0 - (b1 * 0 + a1 * 0)) (0 - (b1 * 0 + a1 * 0))) as [-> ->]. cbn [fst snd].
    replace (0 - (a1 * 0 - b1 * 0)) with 0 by ring. replace (0 - (b1 * 0 + a1 * 0)) with 0 by ring.
    match goal with |- context [Y n A [(a3, b3); (a4, b4)] (cb ?c0 ?c1 ?c2 ?c3 0, cb ?d0 ?d1 ?d2 ?d3 0)] => destruct (ST (a3, b3) [(a4, b4)] c0 c1 c2 c3 d0 d1 d2 d3) as [-> ->] end. cbn [fst snd].
    match goal with |- context [Y n A [(a4, b4)] (cb ?c0 ?c1 ?c2 ?c3 ?c4, cb ?d0 ?d1 ?d2 ?d3 ?d4)] =>
      destruct (Y_ext n A [(a4, b4)] (cb c0 c1 c2 c3 c4) (cb d0 d1 d2 d3 d4) (cb c0 c1 c2 c3 0) (cb d0 d1 d2 d3 0) i) as [-> ->]; [intros j _; unfold cb; split; ring|exact Hi|];
      destruct (ST (a4, b4) [] c0 c1 c2 c3 d0 d1 d2 d3) as [-> ->] end. cbn [fst snd Y]. unfold cb.
    unfold e1r, e1i, e2r, e2i, e3r, e3i, e4r, e4i, w12, w34, s12, s34. unfold cmul. cbn [fst snd]. generalize (x i) (z1 i) (z2 i) (z3 i) (z4 i). intros. split; ring.
  Qed.
End Poly.

Definition cdet (s : R) (f : nat -> nat -> R) : R :=
  det 4 [[s - f 0%nat 0%nat; 0 - f 0%nat 1%nat; 0 - f 0%nat 2%nat; 0 - f 0%nat 3%nat]; [0 - f 1%nat 0%nat; s - f 1%nat 1%nat; 0 - f 1%nat 2%nat; 0 - f 1%nat 3%nat]; [0 - f 2%nat 0%nat; 0 - f 2%nat 1%nat; s - f 2%nat 2%nat; 0 - f 2%nat 3%nat]; [0 - f 3%nat 0%nat; 0 - f 3%nat 1%nat; 0 - f 3%nat 2%nat; s - f 3%nat 3%nat]].
Lemma cdet_ent s A : det 4 (sI_minus s A) = cdet s (ent A).
Proof. reflexivity. Qed.
Lemma cayley A w : all_eigenvalues A w -> length w = 4%nat -> forall x i, (i < 4)%nat ->
  fst (Y 4 (ent A) w (x, fun _ => 0)) i = 0 /\ snd (Y 4 (ent A) w (x, fun _ => 0)) i = 0.
Proof.
  intros E L. destruct w as [|[a1 b1] [|[a2 b2] [|[a3 b3] [|[a4 b4] [|]]]]]; try discriminate. intros x i Hi.
  destruct (Y4 a1 b1 a2 b2 a3 b3 a4 b4 4 (ent A) x i Hi) as [-> ->].
  assert (D : forall s, s ^ 4 - e1r a1 a2 a3 a4 * s ^ 3 + e2r a1 b1 a2 b2 a3 b3 a4 b4 * s ^ 2 - e3r a1 b1 a2 b2 a3 b3 a4 b4 * s + e4r a1 b1 a2 b2 a3 b3 a4 b4 = det 4 (sI_minus s A) /\
     - e1i b1 b2 b3 b4 * s ^ 3 + e2i a1 b1 a2 b2 a3 b3 a4 b4 * s ^ 2 - e3i a1 b1 a2 b2 a3 b3 a4 b4 * s + e4i a1 b1 a2 b2 a3 b3 a4 b4 = 0).
  { intros s. pose proof (E s) as X. rewrite cprod4 in X. injection X. auto. }
  set (E1 := e1r a1 a2 a3 a4) in *. set (E2 := e2r a1 b1 a2 b2 a3 b3 a4 b4) in *. set (E3 := e3r a1 b1 a2 b2 a3 b3 a4 b4) in *. set (E4 := e4r a1 b1 a2 b2 a3 b3 a4 b4) in *.
  set (F1 := e1i b1 b2 b3 b4) in *. set (F2 := e2i a1 b1 a2 b2 a3 b3 a4 b4) in *. set (F3 := e3i a1 b1 a2 b2 a3 b3 a4 b4) in *. set (F4 := e4i a1 b1 a2 b2 a3 b3 a4 b4) in *.
  clearbody E1 E2 E3 E4 F1 F2 F3 F4. destruct (D 0) as [D0 G0]. destruct (D 1) as [D1 G1]. destruct (D (-1)) as [D2 G2]. destruct (D 2) as [D3 G3]. clear D E.
  assert (F4 = 0) by lra. assert (F2 = 0) by lra. assert (F1 = 0) by lra. assert (F3 = 0) by lra. subst F1 F2 F3 F4. split; [|ring].
  set (d0 := det 4 (sI_minus 0 A)) in *. set (d1 := det 4 (sI_minus 1 A)) in *. set (d2 := det 4 (sI_minus (-1) A)) in *. set (d3 := det 4 (sI_minus 2 A)) in *.
  assert (X4 : E4 = d0) by lra. assert (X2 : E2 = (d1 + d2) / 2 - 1 - d0) by lra. assert (X1 : E1 = (16 - (d2 - d1) + 4 * ((d1 + d2) / 2 - 1 - d0) + d0 - d3) / 6) by lra.
  assert (X3 : E3 = (d2 - d1) / 2 - E1) by lra. clear D0 D1 D2 D3 G0 G1 G2 G3. rewrite X3, X1, X2, X4. clear X1 X2 X3 X4 E1 E2 E3 E4 L.
  unfold d0, d1, d2, d3. rewrite !cdet_ent. unfold mv. cbn [sumn]. destruct i as [|[|[|[|]]]]; [..|lia]; generalize (ent A); intros f; unfold cdet; cbn [det altsum hd tl map remove_at nth]; field.
Qed.
