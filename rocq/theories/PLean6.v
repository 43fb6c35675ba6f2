(* PLean6.v -- the generated equations as polynomials at the upright operating point *)
From Coq Require Import Lra Lia ZArith QArith Qreals FMapPositive.
From Verif Require Import Base MString MHeap MBicycle MVec MInertia MSets MModels MModels2 SModels SModels2 PBase MLean MLeanProg MLean2 SLean PLean PLean3 PLean4 PLean5 PLPoly SBicycle SLean2.
Local Open Scope string_scope.
Local Open Scope R_scope.

Definition at_w : atom := 4%positive.
Definition at_u : atom := 5%positive.
Fixpoint pos_of (k : string) (l : list string) (n : positive) : positive :=
  match l with [] => n | a :: r => if String.eqb k a then n else pos_of k r (Pos.succ n) end.
Definition at_p (k : string) : atom := pos_of k p_names 6.
Definition V (k : string) : poly := pvar (at_p k).
Definition use_inv (a : atom) : bool := (Pos.eqb a at_w || Pos.eqb a (at_p "rf") || Pos.eqb a (at_p "rr") || Pos.eqb a (z_atom 1001))%bool.
Definition no_inv (a : atom) : bool := false.
Definition pC := pvar at_c. Definition pS := pvar at_s. Definition pW := pvar at_w.
Definition start_poly (k : string) : poly :=
  if String.eqb k "q5" then pvar at_q
  else if String.eqb k "u6" then pvar at_u
  else if String.eqb k "d1" then psub (psub (pmul no_inv pC pW) (pmul no_inv pS (psub (V "rr") (V "rf")))) (V "d3")
  else if String.eqb k "d2" then padd (pmul no_inv pS pW) (pmul no_inv pC (psub (V "rr") (V "rf")))
  else if smem k p_names then V k else [].
Definition sstart : sstate := mksst (("lam", pvar at_q) :: map (fun k => (k, start_poly k)) lean_names) (PositiveMap.empty poly) [] [].
Definition lean_cuts (n : positive) : bool := existsb (Pos.eqb n) [949; 951; 945; 964; 977; 979; 973; 981; 983; 905; 1001]%positive.

(* ---- the results as polynomials ---- *)
Definition extras : list string := (lean_states ++ lean_inputs ++ ["a4"; "a7"; "a9"])%list.
Definition at_x (k : string) : atom := pos_of k extras 50.
Definition X (k : string) : poly := pvar (at_x k).
Definition the_run : option sstate := srun use_inv lean_cuts sstart lean_program.
(* row of A times the states plus row of B times the torques *)
Definition row_poly (st : sstate) (i : nat) : poly :=
  let at_ m j := match sfind (ss_mat st) m i j with Some p => p | None => [] end in
  fold_right padd [] (map (fun t => pmul use_inv (at_ MA (fst t)) (X (snd t))) (combine a_idxs lean_states)
                   ++ map (fun t => pmul use_inv (at_ MB (fst t)) (X (snd t))) (combine b_idxs lean_inputs)).
Definition cut_poly (st : sstate) (n : positive) : poly := match find (fun c => Pos.eqb (fst c) n) (ss_cut st) with Some (_, p) => p | None => [] end.
Definition mass_z : list (list positive) := [[949; 951; 945]; [977; 979; 973]; [981; 983; 905]]%positive.

(* ---- values of the atoms ---- *)
Definition valuation (e : string -> R) (lam : R) (ex : string -> R) (zs : positive -> R) (a : atom) : R :=
  if Pos.eqb a at_c then cos lam else if Pos.eqb a at_s then sin lam else if Pos.eqb a at_q then lam
  else if Pos.eqb a at_w then px lam (e "d1" + e "d3") (e "d2") else if Pos.eqb a at_u then e "u6"
  else if Pos.ltb a 42 then e (nth (Pos.to_nat a - 6) p_names "")
  else if Pos.ltb a 101 then ex (nth (Pos.to_nat a - 50) extras "")
  else zs (a - 100)%positive.
Lemma val_z e lam ex zs n : valuation e lam ex zs (z_atom n) = zs n.
Proof.
  unfold valuation, z_atom. repeat match goal with |- context [Pos.eqb ?a ?b] => destruct (Pos.eqb_spec a b) as [X0|_]; [unfold at_c, at_s, at_q, at_w, at_u in X0; lia|] end.
  destruct (Pos.ltb_spec (n + 100) 42); [lia|]. destruct (Pos.ltb_spec (n + 100) 101); [lia|]. f_equal. lia.
Qed.
Lemma val_p e lam ex zs : Forall (fun k => valuation e lam ex zs (at_p k) = e k) p_names.
Proof. unfold p_names. repeat (constructor; [reflexivity|]). constructor. Qed.
Lemma val_x e lam ex zs : Forall (fun k => valuation e lam ex zs (at_x k) = ex k) extras.
Proof. unfold extras, lean_states, lean_inputs. cbn [app]. repeat (constructor; [reflexivity|]). constructor. Qed.

Lemma divides_nz m p1 n a p2 : forall s sf, lrun s (p1 ++ SZ n (Div a (Zr m)) :: p2) = Ok sf -> existsb (assigns m) (SZ n (Div a (Zr m)) :: p2) = false -> ls_z sf m <> 0.
Proof.
  induction p1 as [|x p1 IH]; intros s sf E NA; cbn [app] in E.
  - rewrite (unassigned m _ _ _ E NA). cbn [lrun lexec leval] in E. destruct (leval s a); cbn [bind] in E; [|discriminate].
    unfold rdiv in E. destruct (Req_EM_T (ls_z s m) 0); [discriminate|assumption].
  - cbn [lrun] in E. destruct (lexec s x); cbn [bind] in E; [|discriminate]. eapply IH; eassumption.
Qed.
(* the program divides by z[m] at statement i and does not assign it from there on *)
Definition divides_at (m : positive) (i : nat) (p : list stmt) : bool :=
  match skipn i p with SZ _ (Div _ (Zr k)) :: r => (Pos.eqb k m && negb (existsb (assigns m) (skipn i p)))%bool | _ => false end.
Lemma divides_at_nz m i p s sf : divides_at m i p = true -> lrun s p = Ok sf -> ls_z sf m <> 0.
Proof.
  unfold divides_at. intros D E. rewrite <- (firstn_skipn i p) in E. destruct (skipn i p) as [|[n e| |] r]; try discriminate. destruct e as [| | | | | | |a b| | | |]; try discriminate. destruct b; try discriminate.
  apply andb_prop in D. destruct D as [D1 D2]. apply Pos.eqb_eq in D1. subst. apply negb_true_iff in D2. eapply divides_nz; eassumption.
Qed.

Definition lam_names (mem : memory) (e : string -> R) (lam : R) : lstate :=
  let st := unpacked mem e in mklst (fun k => if String.eqb k "lam" then Some lam else ls_names st k) (ls_z st) (ls_mat st).
(* the upright operating point of parameters e *)
Definition upright_point (e : string -> R) (lam : R) : Prop :=
  e "q5" = lam /\ (forall k, In k motion_symbols -> k <> "u6" -> k <> "q5" -> e k = 0) /\ wheels_level e lam /\ e "rr" <> 0.
Lemma dget_map_fst {V} (f : string -> V) l k v : dget (map (fun k => (k, f k)) l) k = Some v -> In k l /\ v = f k.
Proof.
  induction l as [|n l IH]; cbn [map dget]; [discriminate|]. destruct (String.eqb_spec k n) as [->|NE]; [intros H; injection H as <-; cbn; tauto|].
  intros H. destruct (IH H). cbn. tauto.
Qed.
Lemma start_value e lam ex zs : upright_point e lam -> forall k, In k lean_names -> peval (valuation e lam ex zs) (start_poly k) = e k.
Proof.
  intros (E5 & E0 & WL & _) k Hk. set (rho := valuation e lam ex zs).
  assert (TR : rho at_c * rho at_c = 1 - rho at_s * rho at_s).
  { change (cos lam * cos lam = 1 - sin lam * sin lam). pose proof (sin2_cos2 lam) as H. unfold Rsqr in H. lra. }
  assert (NI : forall a, no_inv a = true -> rho a <> 0) by discriminate.
  unfold start_poly.
  destruct (String.eqb_spec k "q5") as [->|N1]; [rewrite pvar_ok; symmetry; exact E5|].
  destruct (String.eqb_spec k "u6") as [->|N2]; [rewrite pvar_ok; reflexivity|].
  pose proof (val_p e lam ex zs) as VP. rewrite Forall_forall in VP. unfold wheels_level in WL.
  pose proof (sin2_cos2 lam) as SC. unfold Rsqr in SC.
  destruct (String.eqb_spec k "d1") as [->|N3].
  { unfold V, pC, pS, pW. rewrite !psub_ok, !(pmul_ok _ rho NI TR), !psub_ok, !pvar_ok.
    change (cos lam * px lam (e "d1" + e "d3") (e "d2") - sin lam * (e "rr" - e "rf") - e "d3" = e "d1"). unfold px. rewrite <- WL.
    transitivity ((e "d1" + e "d3") * (sin lam * sin lam + cos lam * cos lam) - e "d3"); [ring|rewrite SC; ring]. }
  destruct (String.eqb_spec k "d2") as [->|N4].
  { unfold V, pC, pS, pW. rewrite !padd_ok, !(pmul_ok _ rho NI TR), !psub_ok, !pvar_ok.
    change (sin lam * px lam (e "d1" + e "d3") (e "d2") + cos lam * (e "rr" - e "rf") = e "d2"). unfold px. rewrite <- WL.
    transitivity (e "d2" * (sin lam * sin lam + cos lam * cos lam)); [ring|rewrite SC; ring]. }
  destruct (smem k p_names) eqn:SM.
  - apply smem_spec in SM. unfold V. rewrite pvar_ok. apply VP, SM.
  - change (0 = e k). symmetry. apply E0; [|assumption..]. unfold lean_names in Hk. rewrite !in_app_iff in Hk.
    assert (NP : ~ In k p_names) by (intros H; apply smem_spec in H; congruence).
    assert (HQ : In k (q_names ++ u_names ++ r_names)) by (rewrite !in_app_iff; tauto). clear - HQ. revert k HQ. apply Forall_forall. repeat (constructor; [apply smem_spec; reflexivity|]). constructor.
Qed.
Lemma start_rel mem e lam ex zs : upright_point e lam -> srel (valuation e lam ex zs) sstart (lam_names mem e lam).
Proof.
  intros UP. split; [|split; [|split]].
  - intros k p H. cbn [sstart ss_names dget] in H. cbn [lam_names ls_names unpacked]. destruct (String.eqb k "lam"); [apply some_eq in H; subst p; rewrite pvar_ok; reflexivity|].
    apply dget_map_fst in H. destruct H as (Hk & ->). rewrite (start_value _ _ _ _ UP k Hk). destruct (smem k lean_names) eqn:S; [reflexivity|apply smem_spec in Hk; congruence].
  - intros n p H. cbn [sstart ss_z] in H. rewrite PositiveMap.gempty in H. discriminate.
  - intros m i j p H. discriminate.
  - intros n p H. destruct H.
Qed.
Lemma lrun_app p1 p2 : forall s sf, lrun s (p1 ++ p2) = Ok sf -> exists s1, lrun s p1 = Ok s1 /\ lrun s1 p2 = Ok sf.
Proof.
  induction p1 as [|x p1 IH]; intros s sf E; cbn [app lrun] in *; [eauto|]. destruct (lexec s x); cbn [bind] in *; [|discriminate]. apply IH, E.
Qed.
Definition no_cuts (n : positive) : bool := false.
Definition w2rf : poly := [([(at_w, 2%Z); (at_p "rf", 1%Z)], (-1)%Q)].
(* the divisors z[494] = - w^2 rf and z[1001] *)
Definition divisors_ok (p : list stmt) : bool :=
  (match srun no_inv no_cuts sstart (firstn 251 p) with
   | Some st => match PositiveMap.find 494%positive (ss_z st) with Some q => psame q w2rf | None => false end
   | None => false end
   && negb (existsb (assigns 494) (skipn 251 p)) && divides_at 494 251 p && divides_at 1001 1007 p)%bool.
Lemma lengths_nz p mem e lam sf : divisors_ok p = true -> upright_point e lam -> lrun (lam_names mem e lam) p = Ok sf -> px lam (e "d1" + e "d3") (e "d2") <> 0 /\ e "rf" <> 0 /\ ls_z sf 1001 <> 0.
Proof.
  intros OK UP E. unfold divisors_ok in OK. apply andb_prop in OK. destruct OK as [OK P4]. apply andb_prop in OK. destruct OK as [OK P3]. apply andb_prop in OK. destruct OK as [P1 P2]. apply negb_true_iff in P2.
  pose proof (divides_at_nz _ _ _ _ _ P3 E) as Z1. pose proof (divides_at_nz _ _ _ _ _ P4 E) as Z2. clear P3 P4.
  rewrite <- (firstn_skipn 251 p) in E. apply lrun_app in E. destruct E as (s1 & E1 & E2).
  rewrite (unassigned 494 _ _ _ E2 P2) in Z1. clear E2 P2.
  destruct (srun no_inv no_cuts sstart (firstn 251 p)) as [st|] eqn:S; [|discriminate].
  assert (HR : srel (valuation e lam (fun _ => 0) (fun _ => 0)) st s1).
  { eapply (srun_sound no_inv no_cuts); [| | | |exact S|exact E1|]; [discriminate|reflexivity|reflexivity| |discriminate]. apply start_rel, UP. }
  clear S E1. destruct HR as (_ & HZ & _). destruct (PositiveMap.find 494%positive (ss_z st)) as [q|] eqn:F; [|discriminate].
  apply HZ in F. rewrite F in Z1. apply (psame_ok (valuation e lam (fun _ => 0) (fun _ => 0))) in P1. rewrite P1 in Z1. clear -Z1 Z2.
  unfold w2rf in Z1. cbn [peval fold_right fst snd meval] in Z1.
  change (valuation e lam (fun _ => 0) (fun _ => 0) at_w) with (px lam (e "d1" + e "d3") (e "d2")) in Z1.
  change (valuation e lam (fun _ => 0) (fun _ => 0) (at_p "rf")) with (e "rf") in Z1.
  split; [|split; [|exact Z2]]; intros H; apply Z1; rewrite H; cbn [powerRZ]; change (Pos.to_nat 2) with 2%nat; change (Pos.to_nat 1) with 1%nat; cbn [pow]; ring.
Qed.
Lemma divisors_checked : divisors_ok lean_program = true.
Proof. vm_cast_no_check (eq_refl true). Qed.
Lemma run_rel p mem e lam ex sf st : divisors_ok p = true -> upright_point e lam -> lrun (lam_names mem e lam) p = Ok sf -> srun use_inv lean_cuts sstart p = Some st ->
  (forall a, use_inv a = true -> valuation e lam ex (ls_z sf) a <> 0) /\ srel (valuation e lam ex (ls_z sf)) st sf /\ ls_z sf 1001 <> 0.
Proof.
  intros OK UP E S. destruct (lengths_nz _ _ _ _ _ OK UP E) as (W & F & Z2).
  assert (IN : forall a, use_inv a = true -> valuation e lam ex (ls_z sf) a <> 0).
  { intros a H. unfold use_inv in H. apply orb_prop in H. destruct H as [H|H]; [apply orb_prop in H; destruct H as [H|H]; [apply orb_prop in H; destruct H as [H|H]|]|]; apply Pos.eqb_eq in H; subst a; [exact W|exact F|destruct UP as (_ & _ & _ & U); exact U|rewrite val_z; exact Z2]. }
  split; [exact IN|]. split; [|exact Z2].
  eapply (srun_sound use_inv lean_cuts _ IN eq_refl eq_refl); [apply start_rel, UP|exact S|exact E|]. intros n _. apply val_z.
Qed.
