(* PUnc2.v -- containers of uncertain numbers, and the functions of bicycle.py, inertia.py, geometry.py *)
From Verif Require Import Base MString MVec MBicycle MInertia MGeometry MMain MUnc PBase PUnc.
From Coq Require Import FunctionalExtensionality Lra.
From Coquelicot Require Import Coquelicot.
Local Open Scope string_scope.
Local Open Scope R_scope.

Definition qeq {A} (a : A) (f : R -> A) : Prop := f = (fun _ => a).
Definition q2 {A B A' B'} (P : A -> (R -> B) -> Prop) (Q : A' -> (R -> B') -> Prop) (u : A * A') (f : R -> B * B') : Prop :=
  exists g h, f = (fun x => (g x, h x)) /\ P (fst u) g /\ Q (snd u) h.
Definition ql {A B} (Q : A -> (R -> B) -> Prop) (us : list A) (F : R -> list B) : Prop :=
  exists fs, F = (fun h => map (fun f => f h) fs) /\ Forall2 Q us fs.
Definition qd {A B} (Q : A -> (R -> B) -> Prop) (d : dict A) (D : R -> dict B) : Prop :=
  exists df : dict (R -> B), D = (fun h => map (fun kv => (fst kv, snd kv h)) df) /\ Forall2 (fun a b => fst a = fst b /\ Q (snd a) (snd b)) d df.

Section Containers.
  Variable v : source.
  Notation tr := (tr v).
  Variable allow : Prop.
  Notation rr := (rr allow).
  Definition qv (u : uvec3) (f : R -> vec3) : Prop :=
    tr (uvx u) (fun h => vx (f h)) /\ tr (uvy u) (fun h => vy (f h)) /\ tr (uvz u) (fun h => vz (f h)).
  Definition qm (u : umat3) (f : R -> mat3) : Prop :=
    qv (ur1 u) (fun h => r1 (f h)) /\ qv (ur2 u) (fun h => r2 (f h)) /\ qv (ur3 u) (fun h => r3 (f h)).
  Definition qm2 (u : umat2) (f : R -> mat2) : Prop :=
    tr (um11 u) (fun h => m11 (f h)) /\ tr (um12 u) (fun h => m12 (f h)) /\ tr (um21 u) (fun h => m21 (f h)) /\ tr (um22 u) (fun h => m22 (f h)).
  Definition qc1 (k : ucanon1) (f : R -> canon1) : Prop :=
    tr (uk_mT k) (fun h => k_mT (f h)) /\ tr (uk_xT k) (fun h => k_xT (f h)) /\ tr (uk_zT k) (fun h => k_zT (f h))
    /\ tr (uk_ITxx k) (fun h => k_ITxx (f h)) /\ tr (uk_ITxz k) (fun h => k_ITxz (f h))
    /\ tr (uk_IRxx k) (fun h => k_IRxx (f h)) /\ tr (uk_IFxx k) (fun h => k_IFxx (f h)).
  Definition qc (k : ucanon) (f : R -> canon) : Prop :=
    qm2 (ucM k) (fun h => cM (f h)) /\ qm2 (ucC1 k) (fun h => cC1 (f h)) /\ qm2 (ucK0 k) (fun h => cK0 (f h)) /\ qm2 (ucK2 k) (fun h => cK2 (f h)).

  (* dictionaries *)
  Lemma qd_nil {A B} (Q : A -> (R -> B) -> Prop) : qd Q [] (fun _ => []).
  Proof. exists []. split; [reflexivity|constructor]. Qed.
  Lemma qd_keys {A B} (Q : A -> (R -> B) -> Prop) d D : qd Q d D -> forall h, dkeys (D h) = dkeys d.
  Proof. intros [df [-> F]] h. unfold dkeys. rewrite map_map. cbn [fst]. induction F as [|a b d df [E _] F IH]; [reflexivity|]. cbn [map]. f_equal; [symmetry; exact E|exact IH]. Qed.
  Lemma qd_dget {A B} (Q : A -> (R -> B) -> Prop) d D k : qd Q d D ->
    match dget d k with Some u => exists f, Q u f /\ forall h, dget (D h) k = Some (f h) | None => forall h, dget (D h) k = None end.
  Proof.
    intros [df [-> F]]. induction F as [|[k1 u] [k2 f] d df [E H] F IH]; [intros h; reflexivity|]. cbn in E, H. subst k2. cbn [dget map fst snd]. destruct (String.eqb k k1); [exists f; split; [exact H|intros h; reflexivity]|exact IH].
  Qed.
  Lemma qd_dmem {A B} (Q : A -> (R -> B) -> Prop) d D k : qd Q d D -> forall h, dmem (D h) k = dmem d k.
  Proof. intros H h. generalize (qd_dget Q d D k H). unfold dmem. destruct (dget d k) as [u|]; [intros [f [_ E]]|intros E]; rewrite E; reflexivity. Qed.
  Lemma rr_look {A B} (Q : A -> (R -> B) -> Prop) d D k : qd Q d D -> rr Q (dlook d k) (fun h => dlook (D h) k).
  Proof.
    intros H. generalize (qd_dget Q d D k H). unfold dlook. destruct (dget d k) as [u|].
    - intros [f [F E]]. exists f. split; [apply filter_forall; intros h; rewrite E; reflexivity|exact F].
    - intros E. cbn. apply filter_forall. intros h. rewrite E. reflexivity.
  Qed.
  Lemma map_dset {A B} (e : A -> B) d k (u : A) : map (fun kv => (fst kv, e (snd kv))) (dset d k u) = dset (map (fun kv => (fst kv, e (snd kv))) d) k (e u).
  Proof. induction d as [|[k' w] d IH]; [reflexivity|]. cbn. destruct (String.eqb k k'); cbn; [reflexivity|rewrite IH; reflexivity]. Qed.
  Lemma qd_dset {A B} (Q : A -> (R -> B) -> Prop) d D k u f : qd Q d D -> Q u f -> qd Q (dset d k u) (fun h => dset (D h) k (f h)).
  Proof.
    intros [df [-> F]] H. exists (dset df k f). split; [apply functional_extensionality; intros h; rewrite (map_dset (fun g => g h)); reflexivity|].
    induction F as [|[k1 a] [k2 b] d df [E G] F IH]; cbn; [repeat constructor; exact H|]. cbn in E, G. subst k2. destruct (String.eqb k k1); constructor; auto.
  Qed.
  Lemma rr_keyerror {A B} (Q : A -> (R -> B) -> Prop) a f x y : Q a f -> rr Q x y -> rr Q (pass_keyerror a x) (fun h => pass_keyerror (f h) (y h)).
  Proof.
    intros H. unfold pass_keyerror. destruct x as [b|e].
    - intros [g [L G]]. exists g. split; [|exact G]. revert L. apply filter_imp. intros h ->. reflexivity.
    - destruct e; cbn; intros E; try (destruct E as [E|E]; [left; rewrite E; reflexivity|right; exact E]).
      exists f. split; [|exact H]. revert E. apply filter_imp. intros h ->. reflexivity.
  Qed.
  (* lists *)
  Lemma ql_nil {A B} (Q : A -> (R -> B) -> Prop) : ql Q [] (fun _ => []).
  Proof. exists []. split; [reflexivity|constructor]. Qed.
  Lemma ql_cons {A B} (Q : A -> (R -> B) -> Prop) u f us F : Q u f -> ql Q us F -> ql Q (u :: us) (fun h => f h :: F h).
  Proof. intros H [fs [-> G]]. exists (f :: fs). split; [reflexivity|constructor; assumption]. Qed.
  Lemma ql_app {A B} (Q : A -> (R -> B) -> Prop) us F us' F' : ql Q us F -> ql Q us' F' -> ql Q (us ++ us')%list (fun h => F h ++ F' h)%list.
  Proof. intros [fs [-> H]] [fs' [-> H']]. exists (fs ++ fs')%list. split; [apply functional_extensionality; intros h; rewrite map_app; reflexivity|apply Forall2_app; assumption]. Qed.
  Lemma ql_length {A B} (Q : A -> (R -> B) -> Prop) us F : ql Q us F -> forall h, length (F h) = length us.
  Proof. intros [fs [-> H]] h. rewrite map_length. induction H; cbn; congruence. Qed.
  Lemma ql_map {A B A' B'} (P : A -> (R -> B) -> Prop) (Q : A' -> (R -> B') -> Prop) g gg us F :
    (forall u f, P u f -> Q (g u) (fun h => gg (f h))) -> ql P us F -> ql Q (map g us) (fun h => map gg (F h)).
  Proof.
    intros K [fs [-> H]]. exists (map (fun f h => gg (f h)) fs). split; [apply functional_extensionality; intros h; rewrite !map_map; reflexivity|]. induction H; cbn; constructor; auto.
  Qed.
  Lemma ql_combine {A B A' B'} (P : A -> (R -> B) -> Prop) (Q : A' -> (R -> B') -> Prop) us F ws G :
    ql P us F -> ql Q ws G -> ql (q2 P Q) (combine us ws) (fun h => combine (F h) (G h)).
  Proof.
    intros [fs [-> H]] [gs [-> K]]. exists (map (fun p h => (fst p h, snd p h)) (combine fs gs)). split.
    - apply functional_extensionality. intros h. rewrite map_map. clear. revert gs. induction fs as [|f fs IH]; intros [|g gs]; cbn; try reflexivity. rewrite <- IH. reflexivity.
    - revert ws gs K. induction H as [|u f us fs H1 H IH]; intros ws gs K; [constructor|]. inversion K; subst; cbn; [constructor|]. constructor; [|apply IH; assumption]. exists f, y. auto.
  Qed.
  Lemma ql_index {A B} (Q : A -> (R -> B) -> Prop) us F k : ql Q us F -> rr Q (index us k) (fun h => index (F h) k).
  Proof.
    intros [fs [-> H]]. unfold index. revert k. induction H as [|u f us fs H1 H IH]; intros k; [destruct k; left; reflexivity|]. destruct k as [|k]; [|apply IH]. exists f. split; [apply filter_forall; reflexivity|exact H1].
  Qed.
  Lemma ql_sum us F : ql tr us F -> tr (usum us) (fun h => rsum (F h)).
  Proof. intros [fs [-> H]]. induction H as [|u f us fs H1 H IH]; cbn; [apply tr_cst|]. apply tr_add; assumption. Qed.
  Lemma rr_mapM {A A' B'} (Q : A' -> (R -> B') -> Prop) (g : A -> res A') (gg : R -> A -> res B') l :
    (forall x, rr Q (g x) (fun h => gg h x)) -> rr (ql Q) (mapM g l) (fun h => mapM (gg h) l).
  Proof.
    intros K. induction l as [|x l IH]; cbn [mapM]; [apply rr_ret, ql_nil|]. eapply rr_bind; [apply K|]. intros a f H. eapply rr_bind; [exact IH|]. intros us F G. apply (rr_ret _ _ (fun h => f h :: F h)). apply ql_cons; assumption.
  Qed.
  Lemma rr_mapM2 {A B A' B'} (P : A -> (R -> B) -> Prop) (Q : A' -> (R -> B') -> Prop) (g : A -> res A') (gg : R -> B -> res B') us F :
    (forall u f, P u f -> rr Q (g u) (fun h => gg h (f h))) -> ql P us F -> rr (ql Q) (mapM g us) (fun h => mapM (gg h) (F h)).
  Proof.
    intros K [fs [-> H]]. induction H as [|u f us fs H1 H IH]; cbn [mapM map]; [apply rr_ret, ql_nil|]. eapply rr_bind; [apply K, H1|]. intros a f' H'. eapply rr_bind; [exact IH|]. intros ws G HG. apply (rr_ret _ _ (fun h => f' h :: G h)). apply ql_cons; assumption.
  Qed.
End Containers.
Arguments rr_look {allow A B}.
Arguments rr_keyerror {allow A B}.
Arguments ql_index {allow A B}.
Arguments rr_mapM {allow A A' B'}.
Arguments rr_mapM2 {allow A B A' B'}.
