(* PUnc6.v -- what is kept by the later steps of calculate_benchmark_from_measured *)
From Verif Require Import Base PBase MString MVec MBicycle MInertia MGeometry MPeriod MMain SBicycle SInertia SGeometry SMain SUnc
  PBicycle PInertia PInertia2 PInertia3 PString PGeometry PGeometry2 PGeometry3 PIo PPeriod PPeriod2 PPeriod3 PMain PMain2 PMain3 PMain4 PMain7 PUnc3.
From Coq Require Import Lra.
Local Open Scope string_scope.
Local Open Scope R_scope.

Definition kept_keys (split : bool) : list string :=
  (["lam"; "w"; "rF"; "rR"; "xB"; "zB"; "xS"; "zS"; "xG"; "zG"] ++ if split then [] else ["xH"; "zH"])%list.
Lemma tail_keeps newton mp par ex : calculate_benchmark_from_measured newton mp = Ok (par, ex) ->
  exists p, so_far newton mp = Ok p /\ forall key, In key (kept_keys (is_fork_split mp)) -> dget par key = dget p key.
Proof.
  intros H. unfold calculate_benchmark_from_measured in H. unfold so_far. cbv zeta in H |- *. set (s := is_fork_split mp) in *.
  step_bind H. rename x into p0. cbn [bind].
  step_bind H. rename x into p1. cbn [bind].
  step_bind H. destruct x as [[sl ic] be]. pose proof (lines_keys _ _ _ _ _ _ E1) as (KS & _).
  cbn [bind]. step_bind H. rename x into p2. cbn [bind].
  step_bind H. rename x into p3. cbn [bind].
  step_bind H. rename x into p4.
  exists p4. split; [rewrite E; cbn [bind]; rewrite E0; cbn [bind]; rewrite E1; cbn [bind]; rewrite E2; cbn [bind]; rewrite E3; cbn [bind]; exact E4|].
  step_bind H. rename x into p5.
  assert (FR5 : forall key, ~ In key ["IByy"; "ISyy"; "IGyy"; "IHyy"] -> dget p5 key = dget p4 key).
  { destruct s.
    - apply frames_yy_split in E5. destruct E5 as (? & ? & ? & ? & ? & ? & ? & ? & ? & ? & ? & ? & ? & ? & ? & ? & ? & ? & ? & ? & ?
      & _ & _ & _ & _ & _ & _ & _ & _ & _ & _ & _ & _ & _ & _ & _ & _ & _ & _ & _ & F & _). intros key K. apply F. cbn [In] in *. tauto.
    - apply frames_yy_whole in E5. destruct E5 as (? & ? & ? & ? & ? & ? & ? & ? & ? & ? & ? & ? & _ & _ & _ & _ & _ & _ & _ & _ & _ & _ & _ & _ & F & _).
      intros key K. apply F. cbn [In] in *. tauto. }
  step_bind H. rename x into k. step_bind H. rename x into p6. pose proof (wheels_xx_inv _ _ _ _ E7) as (TtF & TtR & _ & _ & FR6 & _).
  step_bind H. destruct x as [p7 pend]. pose proof (in_plane_frame _ _ _ _ _ _ _ E8) as FR7. cbn [fst] in FR7.
  step_bind H. rename x into p8. injection H as <- <-.
  assert (FR8 : forall key, In key (kept_keys s) -> dget p8 key = dget p7 key).
  { unfold bm_split_inertia in E9. destruct s; [|injection E9 as <-; reflexivity].
    do 8 step_bind E9. step_bind E9. destruct x7 as [mH [|cx [|cy [|cz [|? ?]]]]]; try discriminate. injection E9 as <-.
    intros key K. cbn [kept_keys app In] in K. repeat (destruct K as [<-|K]; [rewrite !dget_dset_neq by reflexivity; reflexivity|]). contradiction. }
  assert (PK : forall part, In part (dkeys sl) -> In part ["B"; "G"; "S"; "H"]) by (rewrite KS; destruct s; cbn [In]; tauto).
  intros key K. rewrite FR8 by exact K.
  assert (K' : In key ["lam"; "w"; "rF"; "rR"; "xB"; "zB"; "xS"; "zS"; "xG"; "zG"; "xH"; "zH"]) by (destruct s; cbn [kept_keys app In] in *; tauto). clear K FR8.
  rewrite FR7.
  2: { intros part HP. apply PK in HP. cbn [In] in HP. cbn [In] in K'. repeat (destruct K' as [<-|K']; [repeat split; discriminate|]). contradiction. }
  rewrite FR6, FR5; [reflexivity|..]; cbn [In] in *; repeat (destruct K' as [<-|K']; [intuition discriminate|]); contradiction.
Qed.

Lemma lam_kept newton mp par ex : calculate_benchmark_from_measured newton mp = Ok (par, ex) ->
  exists p, calculate_benchmark_geometry newton mp [] = Ok p /\ dget par "lam" = dget p "lam".
Proof.
  intros H. destruct (tail_keeps _ _ _ _ H) as (p4 & S0 & K). rewrite (K "lam") by (destruct (is_fork_split mp); cbn [kept_keys app In]; tauto). clear H K.
  unfold so_far in S0. cbv zeta in S0. set (s := is_fork_split mp) in *.
  step_bind S0. exists x. split; [exact E|].
  step_bind S0. pose proof (masses_inv _ _ _ _ E0) as (FR1 & _).
  step_bind S0. destruct x1 as [[sl ic] be]. pose proof (lines_keys _ _ _ _ _ _ E1) as (KS & _).
  step_bind S0. pose proof (centres_frame _ _ _ _ E2) as FR2. step_bind S0.
  pose proof (wheels_yy_inv _ _ _ S0) as (g & mF & lF & TF & mR & lR & TR & A1 & A2 & A3 & A4 & A5 & A6 & A7 & FR4 & _).
  assert (FR3 : forall key, ~ In key ["mH"; "xH"; "zH"] -> dget x2 key = dget x1 key).
  { unfold bm_split_centre in E3. destruct s; [|injection E3 as <-; reflexivity].
    do 6 step_bind E3. step_bind E3. destruct x9 as [mH [|cx [|cy [|cz [|? ?]]]]]; try discriminate. injection E3 as <-. frame. }
  assert (PK : forall part, In part (dkeys sl) -> In part ["B"; "G"; "S"; "H"]) by (rewrite KS; destruct s; cbn [In]; tauto).
  rewrite FR4, FR3 by notin. rewrite FR2; [apply FR1; notin|].
  intros part HP. apply PK in HP. cbn [In] in HP. repeat (destruct HP as [<-|HP]; [repeat split; discriminate|]). contradiction.
Qed.
Lemma lam_const t mp par ex : dmem mp "w" = false -> calculate_benchmark_from_measured (fun _ _ => Ok t) mp = Ok (par, ex) -> dget par "lam" = Some t.
Proof.
  intros W H. destruct (lam_kept _ _ _ _ H) as (p & G & E). rewrite E. apply geom_inv in G.
  destruct G as (rF & rR & lam & w & fo & ct & cm & _ & _ & _ & _ & _ & _ & _ & L0 & _ & _ & FR0 & [(W' & _)|(_ & a & b & c & _ & L & _)]); [congruence|].
  unfold lambda_from_abc in L. step_bind L. congruence.
Qed.
