(* PMain5.v -- exact measurements in three or more orientations always give a result (C47) *)
From Verif Require Import Base PBase MString MVec MBicycle MInertia MGeometry MPeriod MMain SBicycle SInertia SGeometry SMain
  PBicycle PInertia PInertia2 PInertia3 PString PGeometry PGeometry2 PGeometry3 PPeriod PPeriod2 PPeriod3 PMain PMain2 PMain3 PMain4.
From Coq Require Import Lra Permutation Sorted.
Local Open Scope string_scope.
Local Open Scope R_scope.

Lemma tan_eq a b : cos a <> 0 -> cos b <> 0 -> tan a = tan b -> sin (a - b) = 0.
Proof.
  intros A B E. rewrite sin_minus. unfold tan in E.
  transitivity (cos a * cos b * (sin a / cos a - sin b / cos b)); [field; auto | rewrite E; ring].
Qed.
Section Part.
Variables (mp par : dict R) (T : rbike) (k : R) (X : string) (ref : R * R) (n : nat) (l1 l2 : R) (es : list (R * R * R)).
Hypothesis Hlam : dget par "lam" = Some (rb_lam T).
Hypothesis EP : exact_part mp T k X ref n.
Hypothesis WH : well_hung mp (rb_lam T) X n.
Hypothesis ES : Forall2 (fun i e => exists alpha a, dget mp ("alpha" ++ X ++ nat_str i) = Some alpha /\ dget mp ("a" ++ X ++ nat_str i) = Some a /\
             com_line alpha a par X l1 l2 = Ok e) (seq 1 n) es.
Let beta_of (i : nat) : R := rb_lam T - pv mp ("alpha" ++ X ++ nat_str i) * PI / 180.
Lemma part_betas : map snd es = map beta_of (seq 1 n) /\ map (fun t => fst (fst t)) es = map (fun i => - tan (beta_of i)) (seq 1 n).
Proof.
  clear EP WH. revert ES. generalize (seq 1 n) as l0. intros l0 F0.
  induction F0 as [|i [[m c] be] l e Hi F IH]; [split; reflexivity|]. cbn [map snd fst]. destruct IH as [I1 I2].
  destruct Hi as (alpha & a & A1 & A2 & A3). apply com_line_spec in A3. cbv zeta in A3. destruct A3 as (_ & BE & _ & M & _).
  assert (Q : be = beta_of i) by (unfold beta_of; rewrite (pv_get _ _ _ A1), <- (pv_get _ _ _ Hlam); exact BE).
  rewrite I1, I2, M, Q. split; reflexivity.
Qed.
Lemma beta_diff i j : beta_of i - beta_of j = - (pv mp ("alpha" ++ X ++ nat_str i) * PI / 180 - pv mp ("alpha" ++ X ++ nat_str j) * PI / 180).
Proof. unfold beta_of. ring. Qed.
Lemma beta_sin i j : (1 <= i < j)%nat -> (j <= n)%nat -> sin (beta_of i - beta_of j) <> 0.
Proof. intros A B. rewrite beta_diff, sin_neg. destruct WH as (_ & _ & W). intros E. apply (W i j A B). cbv beta zeta. lra. Qed.
Lemma nodup_map_seq {A} (f : nat -> A) a m : (forall i j, (a <= i < j)%nat -> (j < a + m)%nat -> f i <> f j) -> NoDup (map f (seq a m)).
Proof.
  revert a. induction m as [|m IH]; intros a H; cbn [seq map]; [constructor|]. constructor.
  - intros I. apply in_map_iff in I. destruct I as (j & E & I). apply in_seq in I. apply (H a j); [lia | lia | congruence].
  - apply IH. intros i j Q1 Q2. apply H; lia.
Qed.
Lemma part_com_def : exists q, center_of_mass (map (fun t => fst (fst t)) es) (map (fun t => snd (fst t)) es) = Ok q.
Proof.
  apply com_defined; [rewrite !map_length; reflexivity|]. destruct part_betas as [_ SL]. destruct WH as (W1 & W2 & W3). rewrite SL. split.
  - rewrite map_length, seq_length. lia.
  - apply nodup_map_seq. intros i j A B E. apply (beta_sin i j A); [lia|]. apply tan_eq; [apply W2; lia | apply W2; lia | lra].
Qed.
Lemma part_pen_def : exists pen, bm_part_inertias mp k X (length (map (fun t => fst (fst t)) es)) = Ok pen /\ length pen = n.
Proof.
  destruct part_betas as [BE _]. assert (LN : length es = n) by (rewrite <- (map_length snd es), BE, map_length, seq_length; reflexivity).
  rewrite map_length, LN. unfold bm_part_inertias. destruct EP as (_ & EO & _).
  assert (Q : forall l, (forall i, In i l -> (i < n)%nat) -> exists pen, mapM (fun i => T <- dlook mp ("Tt" ++ X ++ nat_str (i + 1));; Ok (tor_inertia k T)) l = Ok pen /\ length pen = length l).
  { induction l as [|i l IH]; intros HL; cbn [mapM]; [exists []; auto|].
    destruct (EO (i + 1)%nat) as (al & a & Tt & r & u & _ & _ & TT & _); [pose proof (HL i (or_introl eq_refl)); lia|].
    unfold dlook. rewrite TT. cbn [bind]. destruct IH as (pen & P1 & P2); [intros j Hj; apply HL; right; exact Hj|].
    unfold dlook in P1. rewrite P1. cbn [bind]. eexists; split; [reflexivity|]. cbn [length]. f_equal. exact P2. }
  destruct (Q (seq 0 n)) as (pen & P1 & P2); [intros i Hi; apply in_seq in Hi; lia|]. exists pen. split; [exact P1|]. rewrite P2, seq_length. reflexivity.
Qed.
Lemma part_inertia_def pen : length pen = n -> exists J, inertia_components pen (map snd es) = Ok J.
Proof.
  intros L. destruct part_betas as [BE _]. rewrite BE. pose proof WH as (W1 & _).
  assert (SQ : seq 1 n = ([1; 2; 3]%nat ++ seq 4 (n - 3))%list).
  { replace n with (3 + (n - 3))%nat at 1 by lia. rewrite seq_app. reflexivity. }
  eapply (components_defined _ _ (beta_of 1) (beta_of 2) (beta_of 3) (map beta_of (seq 4 (n - 3)))).
  - rewrite map_length, seq_length. exact L.
  - rewrite SQ, map_app. apply Permutation_refl.
  - apply beta_sin; lia.
  - apply beta_sin; lia.
  - apply beta_sin; lia.
Qed.
End Part.

(* lines of all parts *)
Lemma lines_def mp par T k (parts : list string) (n : string -> nat) (s : bool) l1 l2 refs :
  parts = (if s then ["B"; "G"; "S"] else ["B"; "H"]) -> orientation_names mp parts n ->
  (forall X, In X parts -> exact_part mp T k X (refs X) (n X) /\ well_hung mp (rb_lam T) X (n X)) ->
  dget par "lam" = Some (rb_lam T) -> In "w" (dkeys par) -> In "rF" (dkeys par) -> In "rR" (dkeys par) ->
  (if s then (forall key, In key ["h6"; "h7"; "d5"; "d6"; "l"] -> In key (dkeys mp)) /\ sin (rb_lam T) <> 0 /\ cos (rb_lam T) <> 0 /\
             calculate_l1_l2 (pv mp "h6") (pv mp "h7") (pv mp "d5") (pv mp "d6") (pv mp "l") = Ok (l1, l2)
   else l1 = 0 /\ l2 = 0) ->
  exists r, part_com_lines mp par s = Ok r.
Proof.
  intros HP ON HX HL HW HF HR HS. unfold part_com_lines.
  assert (Q : (if s then h6 <- dlook mp "h6" ;; h7 <- dlook mp "h7" ;; d5 <- dlook mp "d5" ;; d6 <- dlook mp "d6" ;; l <- dlook mp "l" ;;
            calculate_l1_l2 h6 h7 d5 d6 l else Ok (0, 0)) = Ok (l1, l2)).
  { destruct s; [|destruct HS as [-> ->]; reflexivity]. destruct HS as (K & _ & _ & L).
    rewrite (dlook_pv mp "h6"), (dlook_pv mp "h7"), (dlook_pv mp "d5"), (dlook_pv mp "d6"), (dlook_pv mp "l") by (apply K; cbn; tauto). exact L. }
  rewrite Q. cbn [bind fst snd]. clear Q. apply loop_def. intros key Hk. apply ssort_in, filter_In in Hk. destruct Hk as [K1 K2].
  pose proof ON as (_ & N9 & NM). destruct (NM key K1 K2) as (X & i & IX & Hi & ->).
  assert (PL : part_letter X) by (subst parts; unfold part_letter; destruct s; cbn [In] in *; tauto).
  pose proof (N9 X IX) as N9X. destruct (alpha_part X i PL) as (B1 & B2 & B3); [lia|]. fold (alpha_name X i) in *.
  destruct (HX X IX) as [(_ & EO & _) (_ & WC & _)]. destruct (EO i Hi) as (al & a & Tt & r & u & A1 & A2 & _).
  assert (C : exists q, com_line al a par X l1 l2 = Ok q).
  { apply com_line_defined. split; [apply dget_some_in; eauto|]. rewrite (pv_get _ _ _ HL). split.
    - pose proof (WC i Hi) as W. cbv beta in W. rewrite (pv_get _ _ _ A1) in W. exact W.
    - subst parts. destruct s; cbn [In] in IX; intuition (subst; cbn [In]; tauto). }
  destruct C as [q C]. exists (X, q). split.
  - exists al, a. cbn [fst snd]. rewrite !dlook_iff, B2. auto.
  - cbn [fst]. subst parts. destruct s; cbn [dkeys map fst]; auto.
Qed.
Lemma keys_of {V} (d : dict V) key v : dget d key = Some v -> In key (dkeys d).
Proof. intros H. apply dget_some_in. eauto. Qed.
Lemma in_dset {V} (d : dict V) key key' v : In key (dkeys d) \/ key = key' -> In key (dkeys (dset d key' v)).
Proof.
  rewrite !dget_some_in. intros [[u H]| ->]; [|exists v; apply dget_dset_eq]. rewrite dget_dset. destruct (String.eqb key key'); eauto.
Qed.

Lemma whole_defined newton mp T k n : exact_measurements_whole newton mp T k n ->
  (exists p, calculate_benchmark_geometry newton mp [] = Ok p) ->
  well_hung mp (rb_lam T) "B" (n "B") -> well_hung mp (rb_lam T) "H" (n "H") ->
  exists r, calculate_benchmark_from_measured newton mp = Ok r.
Proof.
  intros EX [p0 GE] WB WH. pose proof EX as (NS & EG & ON & Gg & ER & EF & ERw & EB & EH).
  unfold calculate_benchmark_from_measured.
  assert (SP : is_fork_split mp = false).
  { destruct (is_fork_split mp) eqn:E; [|reflexivity]. apply fork_split_iff in E. destruct E as (key & I1 & E). destruct (NS key I1). tauto. }
  rewrite SP. cbv zeta. rewrite GE. cbn [bind]. destruct (geom_exact _ _ _ _ EG GE) as (W0 & C0 & L0 & F0 & R0 & CL).
  pose proof EF as (EF1 & lF & TcF & TtF & EF2 & EF3 & EF4 & _). pose proof ERw as (ER1 & lR & TcR & TtR & ER2 & ER3 & ER4 & _).
  pose proof EB as (EB1 & _ & TcB & EB2 & _). pose proof EH as (EH1 & _ & TcH & EH2 & _). cbn [append] in *.
  destruct (masses_def mp p0 false) as [p1 M1].
  { intros key K. cbn [app In] in K. destruct K as [<-|[<-|[<-|[<-|[]]]]]; eapply keys_of; eassumption. }
  rewrite M1. cbn [bind]. apply masses_inv in M1. destruct M1 as (FR1 & _).
  assert (L1 : dget p1 "lam" = Some (rb_lam T)) by (rewrite FR1 by notin; exact L0).
  assert (W1 : dget p1 "w" = Some (rb_w T)) by (rewrite FR1 by notin; exact W0).
  assert (F1 : dget p1 "rF" = Some (w_r (rb_F T))) by (rewrite FR1 by notin; exact F0).
  assert (R1 : dget p1 "rR" = Some (w_r (rb_R T))) by (rewrite FR1 by notin; exact R0).
  destruct (lines_def mp p1 T k ["B"; "H"] n false 0 0 (fun X => if String.eqb X "B" then rear_hub T else front_hub T)) as [[[sl ic] be] LD]; auto.
  { intros X [<-|[<-|[]]]; cbn [String.eqb Ascii.eqb Bool.eqb]; auto. }
  1-3: eapply keys_of; eassumption.
  rewrite LD. cbn [bind]. pose proof (lines_keys _ _ _ _ _ _ LD) as (K1 & K2 & K3).
  apply part_com_lines_ok in LD. destruct LD as (l1 & l2 & es & _ & ES & _ & EL).
  destruct (EL "B") as (SB & IB & BB); [cbn; auto|]. destruct (EL "H") as (SH & IH & BH); [cbn; auto|]. clear EL.
  assert (PLT : forall Y, In Y ["B"; "H"] -> part_letter Y) by (unfold part_letter; cbn [In]; intros Y; tauto).
  assert (LB : _) by (exact (part_lines mp p1 ["B"; "H"] n "B" l1 l2 es ON PLT (or_introl eq_refl) (alpha_present _ _ _ _ _ _ EB) ES)).
  assert (LH : _) by (exact (part_lines mp p1 ["B"; "H"] n "H" l1 l2 es ON PLT (or_intror (or_introl eq_refl)) (alpha_present _ _ _ _ _ _ EH) ES)).
  destruct (part_com_def mp p1 T "B" _ l1 l2 _ L1 WB LB) as [qB QB]. destruct (part_com_def mp p1 T "H" _ l1 l2 _ L1 WH LH) as [qH QH].
  destruct (part_pen_def mp p1 T k "B" _ _ l1 l2 _ L1 EB LB) as (penB & PB & PBn). destruct (part_pen_def mp p1 T k "H" _ _ l1 l2 _ L1 EH LH) as (penH & PH & PHn).
  destruct (part_inertia_def mp p1 T "B" _ l1 l2 _ L1 WB LB penB PBn) as [JB HJB]. destruct (part_inertia_def mp p1 T "H" _ l1 l2 _ L1 WH LH penH PHn) as [JH HJH].
  assert (NBH : "B" <> "H") by discriminate. pose proof (dict2 sl _ _ _ _ NBH K1 SB SH) as ->. clear NBH.
  cbn [bm_centres]. unfold dlook at 1. rewrite IB. cbn [bind]. rewrite QB. cbn [bind]. unfold dlook at 1. rewrite IH. cbn [bind]. rewrite QH. cbn [bind append bm_split_centre].
  set (p2 := dset (dset (dset (dset p1 "xB" _) "zB" _) "xH" _) "zH" _).
  destruct (wheels_yy_def mp p2) as [p4 H4].
  { intros key K. cbn [In] in K. repeat (destruct K as [<-|K]; [eapply keys_of; eassumption|]). contradiction. }
  rewrite H4. cbn [bind]. apply wheels_yy_inv in H4. destruct H4 as (? & ? & ? & ? & ? & ? & ? & _ & _ & _ & _ & _ & _ & _ & FR4 & _).
  destruct (frames_whole_def mp p4) as [p5 H5].
  { intros key K. apply dget_some_in. cbn [In] in K.
    repeat (destruct K as [<-|K]; [rewrite FR4 by notin; unfold p2; dg; eauto|]). contradiction. }
  { intros key K. cbn [In] in K. repeat (destruct K as [<-|K]; [eapply keys_of; eassumption|]). contradiction. }
  rewrite H5. cbn [bind]. rewrite (stiffness_def _ _ ER). cbn [bind].
  destruct (wheels_xx_def mp p5 k) as [p6 H6]; [eapply keys_of; eassumption | eapply keys_of; eassumption|]. rewrite H6. cbn [bind bm_in_plane].
  unfold dlook at 1. rewrite BB. cbn [bind]. rewrite PB. cbn [bind]. rewrite HJB. cbn [bind].
  unfold dlook at 1. rewrite BH. cbn [bind]. rewrite PH. cbn [bind]. rewrite HJH. cbn [bind bm_split_inertia]. eauto.
Qed.
Lemma tcom2_def m1 x1 z1 m2 x2 z2 : m1 + m2 <> 0 -> exists m cx cy cz, total_com [[x1; x2]; [0; 0]; [z1; z2]] [m1; m2] = Ok (m, [cx; cy; cz]).
Proof.
  intros N. unfold total_com. cbn [forallb length Nat.eqb andb combine map fst snd mapM rsum fold_right bind].
  unfold rsum; cbn [fold_right]. unfold rdiv. destruct (Req_EM_T (m1 + (m2 + 0)) 0) as [Z|NZ]; [exfalso; lra|]. cbn [bind].
  do 4 eexists. reflexivity.
Qed.
Lemma split_defined newton mp T k n : exact_measurements_split newton mp T k n ->
  (exists p, calculate_benchmark_geometry newton mp [] = Ok p) ->
  well_hung mp (rb_lam T) "B" (n "B") -> well_hung mp (rb_lam T) "G" (n "G") -> well_hung mp (rb_lam T) "S" (n "S") ->
  (forall key, In key ["h6"; "h7"; "d5"; "d6"; "l"] -> In key (dkeys mp)) -> pv mp "l" - pv mp "d5" / 2 - pv mp "d6" / 2 <> 0 ->
  sin (rb_lam T) <> 0 -> b_m (rb_part T "S") + b_m (rb_part T "G") <> 0 ->
  exists r, calculate_benchmark_from_measured newton mp = Ok r.
Proof.
  intros EX [p0 GE] WB WG WS HK HL0 SL MN. pose proof EX as (EG & ON & Gg & ER & EF & ERw & EB & ESp & l1 & l2 & EL12 & EL0 & ELn & EGp). cbv zeta in *.
  unfold calculate_benchmark_from_measured.
  assert (SP : is_fork_split mp = true).
  { apply fork_split_iff. exists "mS". split; [|right; reflexivity]. apply dget_some_in. destruct ESp as (M & _). eauto. }
  rewrite SP. cbv zeta. rewrite GE. cbn [bind]. destruct (geom_exact _ _ _ _ EG GE) as (W0 & C0 & L0 & F0 & R0 & CL).
  pose proof EF as (EF1 & lF & TcF & TtF & EF2 & EF3 & EF4 & _). pose proof ERw as (ER1 & lR & TcR & TtR & ER2 & ER3 & ER4 & _).
  pose proof EB as (EB1 & _ & TcB & EB2 & _). pose proof EGp as (EG1 & _ & TcG & EG2 & _). pose proof ESp as (ES1 & _ & TcS & ES2 & _). cbn [append] in *.
  assert (HL : calculate_l1_l2 (pv mp "h6") (pv mp "h7") (pv mp "d5") (pv mp "d6") (pv mp "l") = Ok (l1, l2)).
  { apply l12_spec. cbv zeta. auto. }
  destruct (masses_def mp p0 true) as [p1 M1].
  { intros key K. cbn [app In] in K. repeat (destruct K as [<-|K]; [eapply keys_of; eassumption|]). contradiction. }
  rewrite M1. cbn [bind]. apply masses_inv in M1. destruct M1 as (FR1 & _ & _ & _ & _ & MS & MG).
  assert (L1 : dget p1 "lam" = Some (rb_lam T)) by (rewrite FR1 by notin; exact L0).
  assert (W1 : dget p1 "w" = Some (rb_w T)) by (rewrite FR1 by notin; exact W0).
  assert (F1 : dget p1 "rF" = Some (w_r (rb_F T))) by (rewrite FR1 by notin; exact F0).
  assert (R1 : dget p1 "rR" = Some (w_r (rb_R T))) by (rewrite FR1 by notin; exact R0).
  destruct (lines_def mp p1 T k ["B"; "G"; "S"] n true l1 l2 (fun X => if String.eqb X "B" then rear_hub T else if String.eqb X "S" then front_hub T else
     (rb_w T + l1 * cos (rb_lam T) - l2 * sin (rb_lam T), - w_r (rb_F T) - l1 * sin (rb_lam T) - l2 * cos (rb_lam T)))) as [[[sl ic] be] LD]; auto.
  { intros X [<-|[<-|[<-|[]]]]; cbn [String.eqb Ascii.eqb Bool.eqb]; auto. }
  1-3: eapply keys_of; eassumption.
  rewrite LD. cbn [bind]. pose proof (lines_keys _ _ _ _ _ _ LD) as (K1 & K2 & K3).
  apply part_com_lines_ok in LD. destruct LD as (l1' & l2' & es & _ & ES & _ & EL).
  destruct (EL "B") as (SB & IB & BB); [cbn; auto|]. destruct (EL "G") as (SG & IG & BG); [cbn; auto|]. destruct (EL "S") as (SS & IS & BS); [cbn; auto|]. clear EL.
  assert (PLT : forall Y, In Y ["B"; "G"; "S"] -> part_letter Y) by (unfold part_letter; cbn [In]; intros Y; tauto).
  assert (LB : _) by (exact (part_lines mp p1 ["B"; "G"; "S"] n "B" l1' l2' es ON PLT (or_introl eq_refl) (alpha_present _ _ _ _ _ _ EB) ES)).
  assert (LG : _) by (exact (part_lines mp p1 ["B"; "G"; "S"] n "G" l1' l2' es ON PLT (or_intror (or_introl eq_refl)) (alpha_present _ _ _ _ _ _ EGp) ES)).
  assert (LS : _) by (exact (part_lines mp p1 ["B"; "G"; "S"] n "S" l1' l2' es ON PLT (or_intror (or_intror (or_introl eq_refl))) (alpha_present _ _ _ _ _ _ ESp) ES)).
  destruct (part_com_def mp p1 T "B" _ l1' l2' _ L1 WB LB) as [qB QB]. destruct (part_com_def mp p1 T "G" _ l1' l2' _ L1 WG LG) as [qG QG].
  destruct (part_com_def mp p1 T "S" _ l1' l2' _ L1 WS LS) as [qS QS].
  destruct (part_pen_def mp p1 T k "B" _ _ l1' l2' _ L1 EB LB) as (penB & PB & PBn). destruct (part_pen_def mp p1 T k "G" _ _ l1' l2' _ L1 EGp LG) as (penG & PG & PGn).
  destruct (part_pen_def mp p1 T k "S" _ _ l1' l2' _ L1 ESp LS) as (penS & PS & PSn).
  destruct (part_inertia_def mp p1 T "B" _ l1' l2' _ L1 WB LB penB PBn) as [JB HJB]. destruct (part_inertia_def mp p1 T "G" _ l1' l2' _ L1 WG LG penG PGn) as [JG HJG].
  destruct (part_inertia_def mp p1 T "S" _ l1' l2' _ L1 WS LS penS PSn) as [JS HJS].
  assert (N1 : "B" <> "G") by discriminate. assert (N2 : "B" <> "S") by discriminate. assert (N3 : "G" <> "S") by discriminate.
  pose proof (dict3 sl _ _ _ _ _ _ N1 N2 N3 K1 SB SG SS) as ->. clear N1 N2 N3.
  cbn [bm_centres]. unfold dlook at 1. rewrite IB. cbn [bind]. rewrite QB. cbn [bind]. unfold dlook at 1. rewrite IG. cbn [bind]. rewrite QG. cbn [bind].
  unfold dlook at 1. rewrite IS. cbn [bind]. rewrite QS. cbn [bind append].
  set (p2 := dset (dset (dset (dset (dset (dset p1 "xB" _) "zB" _) "xG" _) "zG" _) "xS" _) "zS" _).
  assert (MS2 : dget p2 "mS" = Some (b_m (rb_part T "S"))) by (unfold p2; dg; congruence).
  assert (MG2 : dget p2 "mG" = Some (b_m (rb_part T "G"))) by (unfold p2; dg; congruence).
  assert (H3 : exists p3, bm_split_centre p2 true = Ok p3 /\ forall key, ~ In key ["mH"; "xH"; "zH"] -> dget p3 key = dget p2 key).
  { unfold bm_split_centre. rewrite (proj2 (dlook_iff p2 "xS" (fst qS))), (proj2 (dlook_iff p2 "xG" (fst qG))), (proj2 (dlook_iff p2 "zS" (snd qS))),
      (proj2 (dlook_iff p2 "zG" (snd qG))) by (unfold p2; dg; reflexivity). rewrite (proj2 (dlook_iff p2 "mS" _) MS2), (proj2 (dlook_iff p2 "mG" _) MG2). cbn [bind].
    destruct (tcom2_def (b_m (rb_part T "S")) (fst qS) (snd qS) (b_m (rb_part T "G")) (fst qG) (snd qG) MN) as (m & cx & cy & cz & ->). cbn [bind].
    eexists. split; [reflexivity | frame]. }
  destruct H3 as (p3 & H3 & FR3). rewrite H3. cbn [bind].
  destruct (wheels_yy_def mp p3) as [p4 H4].
  { intros key K. cbn [In] in K. repeat (destruct K as [<-|K]; [eapply keys_of; eassumption|]). contradiction. }
  rewrite H4. cbn [bind]. apply wheels_yy_inv in H4. destruct H4 as (? & ? & ? & ? & ? & ? & ? & _ & _ & _ & _ & _ & _ & _ & FR4 & _).
  assert (LA4 : dget p4 "lam" = Some (rb_lam T)) by (rewrite FR4, FR3 by notin; unfold p2; dg; exact L1).
  destruct (frames_split_def mp p4 l1 l2) as [p5 H5].
  { intros key K. apply dget_some_in. cbn [In] in K.
    repeat (destruct K as [<-|K]; [rewrite FR4, FR3 by notin; unfold p2; dg; eauto|]). contradiction. }
  { intros key K. cbn [In] in K, HK. repeat (destruct K as [<-|K]; [first [eapply keys_of; eassumption | apply HK; tauto]|]). contradiction. }
  { exact HL. }
  { rewrite (pv_get _ _ _ LA4). exact SL. }
  { rewrite (pv_get _ _ _ LA4). exact CL. }
  rewrite H5. cbn [bind]. pose proof H5 as H5'. apply frames_yy_split in H5'.
  destruct H5' as (? & ? & ? & ? & ? & ? & ? & ? & ? & ? & ? & ? & ? & ? & ? & ? & ? & ? & ? & ? & ?
      & _ & _ & _ & _ & _ & _ & _ & _ & _ & _ & _ & _ & _ & _ & _ & _ & _ & _ & _ & FR5 & _ & YS & YG).
  rewrite (stiffness_def _ _ ER). cbn [bind].
  destruct (wheels_xx_def mp p5 k) as [p6 H6]; [eapply keys_of; eassumption | eapply keys_of; eassumption|]. rewrite H6. cbn [bind bm_in_plane].
  apply wheels_xx_inv in H6. destruct H6 as (? & ? & _ & _ & FR6 & _).
  unfold dlook at 1. rewrite BB. cbn [bind]. rewrite PB. cbn [bind]. rewrite HJB. cbn [bind].
  unfold dlook at 1. rewrite BG. cbn [bind]. rewrite PG. cbn [bind]. rewrite HJG. cbn [bind].
  unfold dlook at 1. rewrite BS. cbn [bind]. rewrite PS. cbn [bind]. rewrite HJS. cbn [bind append].
  set (p7 := dset (dset (dset (dset (dset (dset (dset (dset (dset p6 _ _) _ _) _ _) _ _) _ _) _ _) _ _) _ _) _ _).
  assert (K7 : forall key, In key ["IBxx"; "IGxx"; "IGxz"; "IGzz"; "ISxx"; "ISxz"; "ISzz"; "IGyy"; "ISyy"; "xG"; "xS"; "zG"; "zS"] -> In key (dkeys p7)).
  { intros key K. apply dget_some_in. cbn [In] in K.
    repeat (destruct K as [<-|K]; [unfold p7; dg; first [solve [eauto] | rewrite FR6 by notin; solve [eauto] | rewrite FR6, FR5, FR4, FR3 by notin; unfold p2; dg; solve [eauto]]|]). contradiction. }
  assert (MS7 : dget p7 "mS" = Some (b_m (rb_part T "S"))) by (unfold p7; dg; rewrite FR6, FR5, FR4, FR3 by notin; exact MS2).
  assert (MG7 : dget p7 "mG" = Some (b_m (rb_part T "G"))) by (unfold p7; dg; rewrite FR6, FR5, FR4, FR3 by notin; exact MG2).
  clearbody p7. assert (H8 : exists p8, bm_split_inertia p7 true = Ok p8).
  { unfold bm_split_inertia, part_inertia_tensor, in_FRD. cbn [String.eqb Ascii.eqb Bool.eqb orb append].
    rewrite (dlook_pv p7 "IBxx"), (dlook_pv p7 "IGxx"), (dlook_pv p7 "IGxz"), (dlook_pv p7 "IGzz"), (dlook_pv p7 "ISxx"), (dlook_pv p7 "ISxz"), (dlook_pv p7 "ISzz"),
      (dlook_pv p7 "IGyy"), (dlook_pv p7 "ISyy"), (dlook_pv p7 "xG"), (dlook_pv p7 "xS"), (dlook_pv p7 "zG"), (dlook_pv p7 "zS") by (apply K7; cbn [In]; tauto).
    cbn [bind]. rewrite (proj2 (dlook_iff p7 "mS" _) MS7), (proj2 (dlook_iff p7 "mG" _) MG7). cbn [bind].
    assert (MN' : b_m (rb_part T "G") + b_m (rb_part T "S") <> 0) by lra.
    destruct (tcom2_def _ (pv p7 "xG") (pv p7 "zG") _ (pv p7 "xS") (pv p7 "zS") MN') as (m & cx & cy & cz & ->). cbn [bind]. eexists. reflexivity. }
  destruct H8 as [p8 ->]. cbn [bind]. eauto.
Qed.
