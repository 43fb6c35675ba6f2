(* TExist.v -- the contracts asked of numpy.linalg.eig can be met for every bicycle *)
From Coq Require Import Lra Lia.
From Verif Require Import Base MString MHeap MBicycle MVec MInertia MModels MModels2 MEig MDicts PBase SBicycle PBicycle PBicycle2 SModels SModels2 SLean SEig PEig SStab TBicycle TEig TStab SRouth PRouth TRouth PRoots PExist SSpeeds PDicts TSpeeds.
Local Open Scope string_scope.
Local Open Scope R_scope.

Lemma state_matrix_companion M C1 K0 K2 v g A B : ab_matrix M C1 K0 K2 v g = Ok (A, B) -> exists a b c d e f u h, A = companion a b c d e f u h.
Proof.
  intros H. pose proof (ab_ok _ _ _ _ _ _ _ H) as D. rewrite ab_forward in H by exact D. cbv zeta in H. injection H as <- <-. unfold companion. eauto 10.
Qed.
Definition at_matrix (A : marr) (e : marr * eigres) : bool := if list_eq_dec (list_eq_dec Req_EM_T) A (fst e) then true else false.
Definition tabulated (T : list (marr * eigres)) (A : marr) : res eigres :=
  match find (at_matrix A) T with Some e => Ok (snd e) | None => Err RuntimeError end.
Definition proper (e : marr * eigres) : Prop := length (fst e) = 4%nat /\ all_eigenvalues (fst e) (fst (snd e)) /\ length (fst (snd e)) = 4%nat /\ length (snd (snd e)) = 4%nat /\
  (forall row, In row (snd (snd e)) -> length row = 4%nat) /\ forall j, (j < 4)%nat -> right_eigenpair 4 (fst e) (nth j (fst (snd e)) (0, 0)) (snd (snd e)) j.
Lemma tabulated_ok T A w V : (forall e, In e T -> proper e) -> tabulated T A = Ok (w, V) -> proper (A, (w, V)).
Proof.
  intros P H. unfold tabulated in H. destruct (find (at_matrix A) T) as [[A' e]|] eqn:F; [|discriminate]. apply find_some in F. destruct F as (I & Q). unfold at_matrix in Q. cbn [fst] in Q. destruct (list_eq_dec _ A A') as [->|]; [|discriminate]. cbn [snd] in H. injection H as ->. exact (P _ I).
Qed.
Lemma tabulated_some T A e : In (A, e) T -> exists e', tabulated T A = Ok e'.
Proof.
  intros I. unfold tabulated. destruct (find (at_matrix A) T) as [e'|] eqn:F; [eauto|]. exfalso. apply (find_none _ _ F) in I. unfold at_matrix in I. cbn [fst] in I. destruct (list_eq_dec _ A A); [discriminate|contradiction].
Qed.
(* for every bicycle with a state matrix and all speeds there is an eigenvalue routine that
   keeps its contracts and answers *)
Theorem C57_eigenvalues_exist : forall ps p g l c, dget ps "Benchmark" = Some p -> dget p "g" = Some g -> snd (benchmark_par_to_canonical p) = Ok c ->
  m11 (cM c) * m22 (cM c) <> m12 (cM c) * m21 (cM c) ->
  exists eig evs, eig_contract eig /\ eig_complete eig /\ bicycle_eig eig ps (SpSeq l) = Ok evs /\ length evs = length l.
Proof.
  intros ps p g l c E G EC D. assert (D2 : det2 (cM c) <> 0) by (unfold det2; lra).
  assert (ST : forall v, exists A B, ab_matrix (cM c) (cC1 c) (cK0 c) (cK2 c) v g = Ok (A, B)) by (intros v; rewrite ab_forward by exact D2; eauto).
  assert (SP : forall v, exists A B, snd (bicycle_state_space ps v FTrue) = Ok (A, B) /\ exists a b c d e f u h, A = companion a b c d e f u h).
  { intros v. destruct (ST v) as (A & B & H). exists A, B. split; [|exact (state_matrix_companion _ _ _ _ _ _ _ _ H)]. apply (C60_state_space_is_the_standalone_function ps p FTrue v A B E (or_introl eq_refl)). exists c, g. split; [exact EC|]. split; [exact G|exact H]. }
  assert (TB : exists T, (forall e, In e T -> proper e) /\ forall v, In v l -> exists A B e, snd (bicycle_state_space ps v FTrue) = Ok (A, B) /\ In (A, e) T).
  { clear - SP. induction l as [|v l (T & P & I)]; [exists []; split; [intros e []|intros v []]|]. destruct (SP v) as (A & B & H & a & b & c & d & e & f & u & h & ->).
    destruct (companion_spectrum a b c d e f u h) as (w & V & X1 & X2 & X3 & X4 & X5). exists ((companion a b c d e f u h, (w, V)) :: T). split.
    - intros x [<-|X]; [|exact (P x X)]. unfold proper. cbn [fst snd]. split; [reflexivity|]. tauto.
    - intros y [<-|Y]; [eexists _, _, _; split; [exact H|left; reflexivity]|]. destruct (I y Y) as (A' & B' & e' & H' & I'). exists A', B', e'. split; [exact H'|right; exact I']. }
  destruct TB as (T & P & I). exists (tabulated T).
  assert (EV : exists evs, Forall2 (fun v e => exists A B, snd (bicycle_state_space ps v FTrue) = Ok (A, B) /\ tabulated T A = Ok e) l evs).
  { clear - I. induction l as [|v l IH]; [exists []; constructor|]. destruct IH as (evs & F); [intros y Y; apply I; right; exact Y|]. destruct (I v (or_introl eq_refl)) as (A & B & e & H & X). destruct (tabulated_some T A e X) as (e' & X'). exists (e' :: evs). constructor; [exists A, B; auto|exact F]. }
  destruct EV as (evs & F). exists evs. split; [|split; [|split]].
  - intros n A w V (LA & _) H. destruct (tabulated_ok T A w V P H) as (L4 & _ & X2 & X3 & X4 & X5). cbn [fst snd] in *. assert (n = 4%nat) as -> by congruence. tauto.
  - intros A w V _ H. exact (proj1 (proj2 (tabulated_ok T A w V P H))).
  - apply (eig_iff (tabulated T) ps l evs p E); [exists c; exact EC|exact F].
  - clear - F. induction F as [|? ? ? ? ? ? IH]; [reflexivity|cbn [length]; rewrite IH; reflexivity].
Qed.
Print Assumptions C57_eigenvalues_exist.

(* in particular the theorems about the shipped bicycles are about something *)
Example C79_reported : forall p lo hi lo2 hi2 l, In (p, (lo, hi), (lo2, hi2)) published_windows ->
  exists eig evs, eig_contract eig /\ eig_complete eig /\ bicycle_eig eig [("Benchmark", p)] (SpSeq l) = Ok evs /\ length evs = length l.
Proof.
  intros p lo hi lo2 hi2 l H. destruct (published_ok p _ _ H) as (G & PH & EB). destruct (canonical_pair p _ EB) as (p' & EP). pose proof (mass_det p p' _ EP PH) as D. unfold det2 in D.
  apply (C57_eigenvalues_exist [("Benchmark", p)] p _ l _ eq_refl G EB). lra.
Qed.
