(* PSort.v -- lemmas about sort_eigenmodes / sort_modes *)
From Verif Require Import Base PBase MBicycle SSort.
From Coq Require Import Lra Permutation.

Lemma argmin_aux_spec l best ib i :
  let k := argmin_aux best ib i l in
  (k = ib /\ (forall j, (j < length l)%nat -> best <= nth j l 0)) \/
  (exists j, k = (i + j)%nat /\ (j < length l)%nat /\ nth j l 0 < best /\
     (forall j', (j' < length l)%nat -> nth j l 0 <= nth j' l 0) /\
     (forall j', (j' < j)%nat -> nth j l 0 < nth j' l 0)).
Proof.
  revert best ib i. induction l as [|x l IH]; intros best ib i; cbn [argmin_aux].
  - left; split; [reflexivity | intros j Hj; simpl in Hj; lia].
  - destruct (Rltb x best) eqn:E.
    + apply Rltb_spec in E. right.
      destruct (IH x i (S i)) as [[Hk H] | (j & Hk & Hj & Hlt & H1 & H2)].
      * exists 0%nat. simpl. split; [rewrite Hk; lia|]. split; [lia|]. split; [exact E|].
        split; [|intros; lia].
        intros [|j'] Hj'; simpl in Hj'; [lra | apply H; lia].
      * exists (S j). simpl. split; [rewrite Hk; lia|]. split; [lia|]. split; [lra|].
        split.
        -- intros [|j'] Hj'; [lra | apply H1; lia].
        -- intros [|j'] Hj'; [lra | apply H2; lia].
    + apply Rltb_false in E.
      destruct (IH best ib (S i)) as [[Hk H] | (j & Hk & Hj & Hlt & H1 & H2)].
      * left. split; [exact Hk|]. intros [|j] Hj; simpl in *; [lra | apply H; lia].
      * right. exists (S j). simpl. split; [rewrite Hk; lia|]. split; [lia|]. split; [lra|].
        split.
        -- intros [|j'] Hj'; [lra | apply H1; lia].
        -- intros [|j'] Hj'; [lra | apply H2; lia].
Qed.

Lemma argmin_spec l : l <> [] ->
  (argmin l < length l)%nat /\
  (forall j, (j < length l)%nat -> nth (argmin l) l 0 <= nth j l 0) /\
  (forall j, (j < argmin l)%nat -> nth (argmin l) l 0 < nth j l 0).
Proof.
  destruct l as [|x l]; [congruence|]. intros _. unfold argmin.
  destruct (argmin_aux_spec l x 0 1) as [[-> H] | (j & -> & Hj & Hlt & H1 & H2)].
  - simpl. split; [lia|]. split; [|intros; lia]. intros [|j] Hj; [lra | apply H; lia].
  - simpl. split; [lia|]. split.
    + intros [|j'] Hj'; [lra | apply H1; lia].
    + intros [|j'] Hj'; [lra | apply H2; lia].
Qed.

(* uniqueness of the first minimum *)
Lemma argmin_unique l k : (k < length l)%nat ->
  (forall j, (j < length l)%nat -> nth k l 0 <= nth j l 0) ->
  (forall j, (j < k)%nat -> nth k l 0 < nth j l 0) -> argmin l = k.
Proof.
  intros Hk H1 H2.
  destruct (argmin_spec l) as (A & B & C); [destruct l; simpl in *; [lia|congruence]|].
  destruct (Nat.lt_trichotomy (argmin l) k) as [L|[L|L]]; auto.
  - specialize (H2 _ L). specialize (B k Hk). lra.
  - specialize (C _ L). specialize (H1 _ A). lra.
Qed.

Lemma fold_Rmax_ge l x : x <= fold_left Rmax l x /\ forall y, In y l -> y <= fold_left Rmax l x.
Proof.
  revert x. induction l as [|a l IH]; intros x; simpl.
  - split; [lra | tauto].
  - destruct (IH (Rmax x a)) as [H1 H2]. pose proof (Rmax_l x a). pose proof (Rmax_r x a).
    split; [lra|]. intros y [->|Hy]; [lra | auto].
Qed.

Lemma maxl_ge l j : (j < length l)%nat -> nth j l 0 <= maxl l.
Proof.
  destruct l as [|x l]; simpl length; [lia|]. intros Hj. unfold maxl.
  destruct (fold_Rmax_ge l x) as [H1 H2]. destruct j as [|j]; simpl; [exact H1|].
  apply H2. apply nth_In. lia.
Qed.

Lemma nmem_spec k l : nmem k l = true <-> In k l.
Proof.
  unfold nmem. rewrite existsb_exists. split.
  - intros [x [H1 H2]]. apply Nat.eqb_eq in H2; subst; auto.
  - intros H. exists k. split; auto. apply Nat.eqb_refl.
Qed.

(* choosing from a distance array with at least two entries *)
Lemma pick_dist_spec dist used : (2 <= length dist)%nat ->
  let k0 := argmin dist in let k := pick_dist dist used in
  (k < length dist)%nat /\
  ((~ In k0 used /\ k = k0) \/
   (In k0 used /\ k <> k0 /\
    (forall j, (j < length dist)%nat -> j <> k0 -> nth k dist 0 <= nth j dist 0 /\
         ((j < k)%nat -> nth k dist 0 < nth j dist 0)))).
Proof.
  intros L. cbv zeta. unfold pick_dist.
  destruct (argmin_spec dist) as (A & B & C); [destruct dist; simpl in *; [lia|congruence]|].
  destruct (nmem (argmin dist) used) eqn:E.
  - apply nmem_spec in E. set (k0 := argmin dist) in *.
    set (d' := upd dist k0 (maxl dist + 1)).
    assert (Ld : length d' = length dist) by apply upd_length.
    destruct (argmin_spec d') as (A' & B' & C'); [destruct d'; simpl in *; [lia|congruence]|].
    set (k := argmin d') in *.
    assert (Nk : k <> k0).
    { intros Ek. assert (exists j, (j < length dist)%nat /\ j <> k0) as [j [Hj Nj]].
      { destruct k0 as [|k0']; [exists 1%nat | exists 0%nat]; split; lia. }
      assert (H : nth k d' 0 <= nth j d' 0) by (apply B'; lia).
      rewrite Ek in H. unfold d' in H. rewrite upd_nth_eq in H by exact A.
      rewrite upd_nth_neq in H by congruence. pose proof (maxl_ge dist j Hj). lra. }
    split; [lia|]. right. split; [exact E|]. split; [exact Nk|].
    intros j Hj Nj.
    assert (V : forall i, i <> k0 -> nth i d' 0 = nth i dist 0)
      by (intros i Ni; unfold d'; apply upd_nth_neq; congruence).
    split.
    + rewrite <- (V k Nk), <- (V j Nj). apply B'; lia.
    + intros Hlt. rewrite <- (V k Nk), <- (V j Nj). apply C'; exact Hlt.
  - split; [exact A|]. left. split; [|reflexivity].
    intros H. apply nmem_spec in H. congruence.
Qed.

Lemma cdist_edist e f : cdist e f = edist e f.
Proof.
  unfold cdist, edist. rewrite Rabs_right by (apply Rle_ge, sqrt_pos).
  f_equal. destruct e, f; simpl. ring.
Qed.

Lemma nth_dists e next k x : nth_error next k = Some x -> nth k (dists e next) 0 = edist e x.
Proof.
  intros H. unfold dists. rewrite <- cdist_edist.
  apply nth_error_nth. apply map_nth_error. exact H.
Qed.

Lemma nth_error_lt {A} (l : list A) k : (k < length l)%nat -> exists x, nth_error l k = Some x.
Proof. intros H. destruct (nth_error l k) eqn:E; [eauto|]. apply nth_error_None in E. lia. Qed.

Lemma dists_length e next : length (dists e next) = length next.
Proof. apply map_length. Qed.

Lemma argmin_nearest e next : next <> [] ->
  nearest_among (fun _ => True) e next (argmin (dists e next)).
Proof.
  intros Hn. destruct (argmin_spec (dists e next)) as (A & B & C).
  { destruct next; simpl; congruence. }
  rewrite dists_length in *. split; [exact I|].
  destruct (nth_error_lt next _ A) as [x Hx]. exists x. split; [exact Hx|].
  intros j y _ Hy. rewrite <- (nth_dists e next _ _ Hx), <- (nth_dists e next _ _ Hy).
  assert (j < length next)%nat by (apply nth_error_Some; congruence).
  split; [apply B; exact H | apply C].
Qed.

Lemma picks_greedy2 next cur taken : (2 <= length next)%nat ->
  greedy next cur taken (picks dists cur next taken).
Proof.
  intros L. revert taken. induction cur as [|e cur IH]; intros taken; cbn [picks]; [constructor|].
  assert (Ld : (2 <= length (dists e next))%nat) by (rewrite dists_length; exact L).
  destruct (pick_dist_spec (dists e next) taken Ld) as [Hk [[H1 H2] | (H1 & H2 & H3)]];
    rewrite dists_length in *.
  - rewrite H2. apply greedy_free; auto. apply argmin_nearest. destruct next; simpl in L; [lia|congruence].
  - eapply greedy_taken; eauto.
    + apply argmin_nearest. destruct next; simpl in L; [lia|congruence].
    + split; [exact H2|]. destruct (nth_error_lt next _ Hk) as [x Hx]. exists x. split; [exact Hx|].
      intros j y Nj Hy.
      assert (Hj : (j < length next)%nat) by (apply nth_error_Some; congruence).
      specialize (H3 j Hj Nj).
      rewrite (nth_dists e next _ _ Hx), (nth_dists e next _ _ Hy) in H3. exact H3.
Qed.

Lemma picks_greedy m cur next : length cur = m -> length next = m ->
  greedy next cur [] (picks dists cur next []).
Proof.
  intros L1 L2. destruct m as [|[|m]].
  - destruct cur; [constructor | discriminate].
  - destruct cur as [|e [|? ?]]; try discriminate. destruct next as [|f [|? ?]]; try discriminate.
    cbn [picks]. unfold pick_dist. cbn [dists map argmin argmin_aux nmem existsb].
    apply greedy_free; [|simpl; tauto|constructor].
    apply (argmin_nearest e [f]). congruence.
  - apply picks_greedy2. lia.
Qed.

Lemma greedy_lt next cur taken ks : greedy next cur taken ks ->
  length ks = length cur /\ Forall (fun k => (k < length next)%nat) ks.
Proof.
  induction 1 as [|e cur taken k ks (_ & x & Hx & _) Hn G [IH1 IH2]
                  |e cur taken k0 k ks _ Hin (_ & x & Hx & _) G [IH1 IH2]]; simpl.
  - split; auto.
  - split; [lia|]. constructor; auto. apply nth_error_Some. congruence.
  - split; [lia|]. constructor; auto. apply nth_error_Some. congruence.
Qed.

Lemma index_Forall2 {A} (l : list A) ks : Forall (fun k => (k < length l)%nat) ks ->
  exists ys, mapM (index l) ks = Ok ys /\ Forall2 (fun k y => nth_error l k = Some y) ks ys.
Proof.
  induction 1 as [|k ks Hk _ (ys & IH1 & IH2)]; simpl.
  - exists []. split; [reflexivity | constructor].
  - destruct (nth_error_lt l k Hk) as [x Hx]. unfold index at 1. rewrite Hx. simpl. rewrite IH1. simpl.
    exists (x :: ys). split; [reflexivity | constructor; auto].
Qed.

Lemma Forall2_length' {A B} (P : A -> B -> Prop) l1 l2 : Forall2 P l1 l2 -> length l1 = length l2.
Proof. induction 1; simpl; lia. Qed.

Lemma sort_rows_ok {V} m (rows : list (list cplx * list V)) cur :
  length cur = m -> rect m rows ->
  exists out, sort_rows dists cur rows = Ok out /\ rect m out /\ chained cur rows out.
Proof.
  revert cur. induction rows as [|[ev vec] rows IH]; intros cur Lc Hr.
  - exists []. simpl. repeat split. constructor.
  - inversion Hr as [|? ? [L1 L2] Hr']; subst; simpl in L1, L2.
    set (m := length cur) in *.
    assert (G : greedy ev cur [] (picks dists cur ev [])) by (apply (picks_greedy m); auto).
    destruct (greedy_lt _ _ _ _ G) as [Gl Gf].
    destruct (index_Forall2 ev _ Gf) as (ev' & E1 & F1).
    assert (Gf' : Forall (fun k => (k < length vec)%nat) (picks dists cur ev [])).
    { rewrite L2, <- L1. exact Gf. }
    destruct (index_Forall2 vec _ Gf') as (vec' & E2 & F2).
    assert (Lev' : length ev' = m) by (apply Forall2_length' in F1; lia).
    assert (Lvec' : length vec' = m) by (apply Forall2_length' in F2; lia).
    destruct (IH ev' Lev' Hr') as (out & E3 & R3 & C3).
    exists ((ev', vec') :: out). cbn [sort_rows]. rewrite E1; cbn [bind]. rewrite E2; cbn [bind].
    rewrite E3; cbn [bind]. split; [reflexivity|]. split.
    + constructor; auto.
    + cbn [chained fst]. split; [|exact C3].
      exists (picks dists cur ev []). split; [exact G|]. split; assumption.
Qed.

Lemma sort_eigenmodes_spec {V} m (r0 : list cplx * list V) rows :
  rect m (r0 :: rows) ->
  exists out, sort_eigenmodes (r0 :: rows) = Ok (r0 :: out) /\ rect m out /\
              length out = length rows /\ chained (fst r0) rows out.
Proof.
  intros H. inversion H as [|? ? [L1 L2] Hr]; subst.
  destruct (sort_rows_ok _ rows (fst r0) eq_refl Hr) as (out & E & R & C).
  exists out. cbn [sort_eigenmodes]. rewrite E. cbn [bind]. split; [reflexivity|]. split; [exact R|].
  split; [|exact C].
  clear -C. revert rows out C. generalize (fst r0) as prev. intros prev rows. revert prev.
  induction rows as [|i rows IH]; intros prev [|o out] C; simpl in *; try tauto.
  destruct C as [_ C]. f_equal. eapply IH; eauto.
Qed.

(* --- permutation results --- *)
Lemma nearest_unique P e next k k' :
  nearest_among P e next k -> nearest_among P e next k' -> k = k'.
Proof.
  intros (P1 & x & H1 & H2) (P1' & x' & H1' & H2').
  destruct (Nat.lt_trichotomy k k') as [L|[L|L]]; auto.
  - destruct (H2' k x P1 H1) as [_ X]. specialize (X L). destruct (H2 k' x' P1' H1'). lra.
  - destruct (H2 k' x' P1' H1') as [_ X]. specialize (X L). destruct (H2' k x P1 H1). lra.
Qed.

Lemma nodup_perm_seq m ks : NoDup ks -> length ks = m -> Forall (fun k => (k < m)%nat) ks ->
  Permutation ks (seq 0 m).
Proof.
  intros N L F. apply NoDup_Permutation_bis; auto.
  - rewrite seq_length. lia.
  - intros k Hk. apply in_seq. rewrite Forall_forall in F. specialize (F k Hk). lia.
Qed.

Lemma map_nth_seq {A} (l : list A) d : map (fun k => nth k l d) (seq 0 (length l)) = l.
Proof.
  induction l as [|x l IH]; simpl; auto. f_equal. rewrite <- seq_shift, map_map. exact IH.
Qed.

Lemma Forall2_nth_map {A} (l : list A) ks out d :
  Forall2 (fun k y => nth_error l k = Some y) ks out -> out = map (fun k => nth k l d) ks.
Proof.
  induction 1 as [|k y ks out H _ IH]; simpl; auto. f_equal; auto.
  symmetry. apply nth_error_nth. exact H.
Qed.

Lemma rearranged_perm {V} m ks (i o : list cplx * list V) :
  length (fst i) = m -> length (snd i) = m -> Permutation ks (seq 0 m) -> rearranged ks i o ->
  Permutation (combine (fst i) (snd i)) (combine (fst o) (snd o)) /\ Permutation (fst i) (fst o).
Proof.
  intros L1 L2 P [F1 F2].
  destruct i as [ev vec], o as [ev' vec']; simpl in *.
  destruct m as [|m].
  - destruct ev; [|discriminate]. destruct vec; [|discriminate].
    apply Permutation_sym, Permutation_nil in P. subst ks. inversion F1; inversion F2; subst.
    split; reflexivity.
  - destruct ev as [|e ev]; [discriminate|]. destruct vec as [|x vec]; [discriminate|].
    set (E := e :: ev) in *. set (X := x :: vec) in *. clearbody E X.
    apply (Forall2_nth_map _ _ _ e) in F1. apply (Forall2_nth_map _ _ _ x) in F2.
    split.
    + assert (C : combine ev' vec' = map (fun k => nth k (combine E X) (e, x)) ks).
      { subst ev' vec'. assert (LL : length E = length X) by lia.
        generalize ks. induction ks0 as [|k ks0 IH]; simpl; auto.
        rewrite combine_nth by exact LL. f_equal. exact IH. }
      rewrite C.
      transitivity (map (fun k => nth k (combine E X) (e, x)) (seq 0 (S m))).
      * assert (LC : length (combine E X) = S m) by (rewrite combine_length; lia).
        rewrite <- LC. rewrite map_nth_seq. reflexivity.
      * apply Permutation_map. symmetry; exact P.
    + subst ev'. transitivity (map (fun k => nth k E e) (seq 0 (S m))).
      * rewrite <- L1. rewrite map_nth_seq. reflexivity.
      * apply Permutation_map. symmetry; exact P.
Qed.

(* at most two modes: always a permutation *)
Lemma greedy_nodup2 m next cur ks : (m <= 2)%nat -> length next = m -> length cur = m ->
  greedy next cur [] ks -> NoDup ks.
Proof.
  intros Hm L1 L2 G. destruct m as [|[|[|m]]]; [..|lia].
  - apply greedy_lt in G. destruct G as [G _]. destruct ks; [constructor | simpl in *; lia].
  - apply greedy_lt in G. destruct G as [G _]. destruct ks as [|k [|? ?]]; simpl in *; try lia.
    repeat constructor; simpl; tauto.
  - destruct cur as [|e [|f [|? ?]]]; try discriminate.
    inversion G as [|? ? ? k ks' N1 N2 G'|? ? ? k0 k ks' N1 N2 N3 G']; subst; [|destruct N2].
    inversion G' as [|? ? ? k' ks'' M1 M2 G''|? ? ? k0' k' ks'' M1 M2 M3 G'']; subst.
    + inversion G''; subst. simpl in M2.
      constructor; [simpl; intuition congruence | constructor; [simpl; tauto | constructor]].
    + inversion G''; subst. simpl in M2. destruct M2 as [<-|[]]. destruct M3 as [M3 _].
      constructor; [simpl; intuition congruence | constructor; [simpl; tauto | constructor]].
Qed.

(* distinct nearest neighbours: the greedy choice is exactly the neighbour map *)
Lemma greedy_neighbours next cur taken ks (nb : list nat) :
  Forall2 (fun e k => nearest_among (fun _ => True) e next k) cur nb ->
  NoDup (taken ++ nb) -> greedy next cur taken ks -> ks = nb.
Proof.
  intros F. revert taken ks. induction F as [|e k cur nb Hk F IH]; intros taken ks N G.
  - inversion G; reflexivity.
  - inversion G as [|? ? ? k1 ks' N1 N2 G'|? ? ? k0 k1 ks' N1 N2 N3 G']; subst.
    + assert (k1 = k) by (eapply nearest_unique; eauto). subst k1. f_equal.
      apply (IH (taken ++ [k])); auto. rewrite <- app_assoc. exact N.
    + assert (k0 = k) by (eapply nearest_unique; eauto). subst k0.
      exfalso. apply NoDup_remove_2 in N. apply N. apply in_or_app. left. exact N2.
Qed.

(* a row whose consecutive change is small relative to the separation of the
   next eigenvalues *)
Lemma edist_sym a b : edist a b = edist b a.
Proof. unfold edist. f_equal. ring. Qed.

Lemma edist_eq a b : edist a b = dist_euc (fst a) (snd a) (fst b) (snd b).
Proof. unfold edist, dist_euc. f_equal. unfold Rsqr. ring. Qed.

Lemma edist_triangle a b c : edist a c <= edist a b + edist b c.
Proof. rewrite !edist_eq. apply triangle. Qed.

Lemma neighbour_of_close e next k x eps :
  nth_error next k = Some x -> edist e x <= eps ->
  (forall j y, nth_error next j = Some y -> j <> k -> 2 * eps < edist x y) ->
  nearest_among (fun _ => True) e next k.
Proof.
  intros Hx He Hs. split; [exact I|]. exists x. split; [exact Hx|].
  intros j y _ Hy. destruct (Nat.eq_dec j k) as [->|N].
  - rewrite Hx in Hy; injection Hy as <-. split; [lra | lia].
  - specialize (Hs j y Hy N). pose proof (edist_triangle x e y) as T. rewrite (edist_sym x e) in T.
    split; intros; lra.
Qed.

(* --- the row-level results --- *)
Lemma sorted_row_perm {V} m ks prev (i o : list cplx * list V) :
  length (fst i) = m -> length (snd i) = m -> length prev = m ->
  greedy (fst i) prev [] ks -> NoDup ks -> rearranged ks i o ->
  Permutation (combine (fst i) (snd i)) (combine (fst o) (snd o)) /\ Permutation (fst i) (fst o).
Proof.
  intros L1 L2 L3 G N R. apply greedy_lt in G. destruct G as [G1 G2].
  apply (rearranged_perm m ks); auto. apply nodup_perm_seq; auto; [lia | rewrite L1 in G2; exact G2].
Qed.

(* --- sort_modes --- *)
Lemma dists4_eq e next : length next = 4%nat -> dists4 e next = dists e next.
Proof. intros H. unfold dists4, dists. rewrite H. simpl. apply app_nil_r. Qed.

Lemma picks4_eq cur next taken : length next = 4%nat ->
  picks dists4 cur next taken = picks dists cur next taken.
Proof.
  intros H. revert taken. induction cur as [|e cur IH]; intros taken; simpl; auto.
  rewrite dists4_eq by exact H. f_equal. apply IH.
Qed.

Lemma sort_rows4_eq {V} cur (rows : list (list cplx * list V)) : rect 4 rows ->
  sort_rows dists4 cur rows = sort_rows dists cur rows.
Proof.
  intros H. revert cur. induction H as [|[ev vec] rows [L1 L2] _ IH]; intros cur; auto.
  simpl in L1. cbn [sort_rows]. rewrite picks4_eq by exact L1.
  destruct (mapM (index ev) _); auto. cbn [bind]. destruct (mapM (index vec) _); auto. cbn [bind].
  rewrite IH. reflexivity.
Qed.

Lemma rect4_cols {V} (all : list (list cplx * list V)) (j : nat) : (j < 4)%nat -> rect 4 all ->
  exists col : list (cplx * V), mapM (fun r : list cplx * list V =>
                e <- index (fst r) j ;; x <- index (snd r) j ;; Ok (e, x)) all = Ok col /\
    Forall2 (fun r c => nth_error (fst r) j = Some (fst c) /\ nth_error (snd r) j = Some (snd c)) all col.
Proof.
  intros Hj. induction 1 as [|[ev vec] all [L1 L2] _ (col & E & F)]; simpl.
  - exists []. split; constructor.
  - simpl in *. destruct (nth_error_lt ev j) as [e He]; [lia|]. destruct (nth_error_lt vec j) as [x Hx]; [lia|].
    unfold index at 1 2. rewrite He. cbn [bind]. rewrite Hx. cbn [bind]. rewrite E. cbn [bind].
    exists ((e, x) :: col). split; [reflexivity|]. constructor; auto.
Qed.

Lemma sort_modes_spec {V} (r0 : list cplx * list V) rows :
  rect 4 (r0 :: rows) ->
  exists sorted wv cap cas,
    sort_eigenmodes (r0 :: rows) = Ok sorted /\
    sort_modes (r0 :: rows) = Ok (mkmodes wv cap cas) /\
    wv = map (fun r => (skipn 2 (fst r), skipn 2 (snd r))) sorted /\
    Forall2 (fun r c => nth_error (fst r) 1 = Some (fst c) /\ nth_error (snd r) 1 = Some (snd c)) sorted cap /\
    Forall2 (fun r c => nth_error (fst r) 0 = Some (fst c) /\ nth_error (snd r) 0 = Some (snd c)) sorted cas.
Proof.
  intros H. destruct (sort_eigenmodes_spec 4 r0 rows H) as (out & E & Ro & _ & _).
  inversion H as [|? ? [L1 L2] Hr]; subst.
  assert (Ra : rect 4 (r0 :: out)) by (constructor; auto).
  destruct (rect4_cols (r0 :: out) 1 ltac:(lia) Ra) as (cap & Ecap & Fcap).
  destruct (rect4_cols (r0 :: out) 0 ltac:(lia) Ra) as (cas & Ecas & Fcas).
  exists (r0 :: out), (map (fun r => (skipn 2 (fst r), skipn 2 (snd r))) (r0 :: out)), cap, cas.
  split; [exact E|]. split; [|auto].
  cbn [sort_eigenmodes] in E. unfold sort_modes.
  assert (F4 : forallb (fun r : list cplx * list V => (length (fst r) <=? 4)%nat) rows = true).
  { apply forallb_forall. intros r Hin. unfold rect in Hr. rewrite Forall_forall in Hr.
    destruct (Hr r Hin) as [X _]. apply Nat.leb_le. lia. }
  rewrite F4. rewrite sort_rows4_eq by exact Hr.
  destruct (sort_rows dists (fst r0) rows) as [o|e]; [|discriminate].
  cbn [bind] in E |- *. injection E as ->. rewrite Ecap. cbn [bind]. rewrite Ecas. reflexivity.
Qed.

(* --- an eigenvalue is lost: three real modes ---
   row 0: 0, 10, 1      row 1: 0, 10, 20
   mode 0 takes 0; mode 1 takes 10; mode 2 (at 1) is nearest to 0 (taken), then
   10 is the nearest of the others although it is taken too: 20 is lost. *)
Lemma cdist_real a b : cdist (a, 0) (b, 0) = Rabs (b - a).
Proof.
  unfold cdist; simpl. replace ((b - a) * ((b - a) * 1) + (0 - 0) * ((0 - 0) * 1)) with (Rsqr (b - a))
    by (unfold Rsqr; ring).
  rewrite sqrt_Rsqr_abs. apply Rabs_Rabsolu.
Qed.

Ltac real_cmp := repeat match goal with
  | |- context [Rltb ?x ?y] =>
      (replace (Rltb x y) with true by (symmetry; apply Rltb_spec; lra)) ||
      (replace (Rltb x y) with false by (symmetry; apply Rltb_false; lra)) end.

Lemma lost_eigenvalue :
  sort_eigenmodes (V := nat) [([(0,0); (10,0); (1,0)], [0; 1; 2]%nat); ([(0,0); (10,0); (20,0)], [0; 1; 2]%nat)]
  = Ok [([(0,0); (10,0); (1,0)], [0; 1; 2]%nat); ([(0,0); (10,0); (10,0)], [0; 1; 1]%nat)].
Proof.
  assert (A0 : dists (0,0) [(0,0); (10,0); (20,0)] = [0; 10; 20]).
  { unfold dists; cbn [map]. rewrite !cdist_real.
    repeat match goal with |- context [Rabs ?x] => rewrite (Rabs_right x) by lra end.
    repeat (apply f_equal2; [lra|]). reflexivity. }
  assert (A1 : dists (10,0) [(0,0); (10,0); (20,0)] = [10; 0; 10]).
  { unfold dists; cbn [map]. rewrite !cdist_real. rewrite (Rabs_left (0 - 10)) by lra.
    repeat match goal with |- context [Rabs ?x] => rewrite (Rabs_right x) by lra end.
    repeat (apply f_equal2; [lra|]). reflexivity. }
  assert (A2 : dists (1,0) [(0,0); (10,0); (20,0)] = [1; 9; 19]).
  { unfold dists; cbn [map]. rewrite !cdist_real. rewrite (Rabs_left (0 - 1)) by lra.
    repeat match goal with |- context [Rabs ?x] => rewrite (Rabs_right x) by lra end.
    repeat (apply f_equal2; [lra|]). reflexivity. }
  cbn [sort_eigenmodes sort_rows fst snd picks].
  rewrite A0, A1, A2. unfold pick_dist.
  assert (M0 : argmin [0; 10; 20] = 0%nat) by (unfold argmin; cbn [argmin_aux]; real_cmp; reflexivity).
  assert (M1 : argmin [10; 0; 10] = 1%nat).
  { unfold argmin; cbn [argmin_aux]. real_cmp. cbn [argmin_aux]. real_cmp. reflexivity. }
  assert (M2 : argmin [1; 9; 19] = 0%nat) by (unfold argmin; cbn [argmin_aux]; real_cmp; reflexivity).
  rewrite M0, M1, M2. cbn [nmem existsb Nat.eqb app orb]. rewrite ?M0, ?M1.
  cbn [nmem existsb Nat.eqb app orb upd].
  assert (MX : maxl [1; 9; 19] = 19).
  { unfold maxl; cbn [fold_left]. rewrite (Rmax_right 1 9) by lra. apply Rmax_right; lra. }
  rewrite MX.
  assert (M3 : argmin [19 + 1; 9; 19] = 1%nat).
  { unfold argmin; cbn [argmin_aux]. real_cmp. cbn [argmin_aux]. real_cmp. reflexivity. }
  rewrite M3, ?M1. reflexivity.
Qed.

Lemma C10_perm {V} m ks prev (i o : list cplx * list V) :
  length (fst i) = m -> length (snd i) = m -> length prev = m ->
  greedy (fst i) prev [] ks -> rearranged ks i o ->
  ((m <= 2)%nat \/
   exists nb, NoDup nb /\ Forall2 (fun e k => nearest_among (fun _ => True) e (fst i) k) prev nb) ->
  Permutation (combine (fst i) (snd i)) (combine (fst o) (snd o)) /\ Permutation (fst i) (fst o).
Proof.
  intros L1 L2 L3 G R H. apply (sorted_row_perm m ks prev); auto.
  destruct H as [H | (nb & N & F)].
  - apply (greedy_nodup2 m (fst i) prev); auto.
  - rewrite (greedy_neighbours _ _ [] _ _ F N G). exact N.
Qed.

Lemma C10_small_steps {V} ks prev (i o : list cplx * list V) nb eps :
  greedy (fst i) prev [] ks -> rearranged ks i o ->
  Forall2 (fun e k => exists x, nth_error (fst i) k = Some x /\ edist e x <= eps) prev nb ->
  NoDup nb ->
  (forall j k x y, nth_error (fst i) j = Some x -> nth_error (fst i) k = Some y -> j <> k ->
     2 * eps < edist x y) ->
  ks = nb.
Proof.
  intros G R F N S. apply (greedy_neighbours (fst i) prev []); auto.
  clear -F S. induction F as [|e k prev nb (x & Hx & He) F IH]; constructor; auto.
  apply (neighbour_of_close e (fst i) k x eps); auto.
  intros j y Hy Nj. apply (S k j x y); auto.
Qed.

Lemma C10_refutation : exists (rows out : list (list cplx * list nat)) i o,
  rect 3 rows /\ sort_eigenmodes rows = Ok out /\ nth_error rows 1 = Some i /\ nth_error out 1 = Some o /\
  ~ Permutation (fst i) (fst o).
Proof.
  eexists _, _, _, _. split; [|split; [exact lost_eigenvalue|]].
  - repeat constructor.
  - split; [reflexivity|]. split; [reflexivity|]. simpl. intros P.
    assert (In (20, 0) [(0,0); (10,0); (10,0)]).
    { apply (Permutation_in _ P). simpl. tauto. }
    simpl in H. destruct H as [H|[H|[H|[]]]]; injection H as H; lra.
Qed.

Lemma Forall2_perm {A B} (P : A -> B -> Prop) l l' r :
  Permutation l l' -> Forall2 P l r -> exists r', Permutation r r' /\ Forall2 P l' r'.
Proof.
  intros H. revert r. induction H as [|x l l' _ IH|x y l|l1 l2 l3 _ IH1 _ IH2]; intros r F.
  - exists r. split; auto.
  - inversion F as [|? b ? r0 Hb F']; subst. destruct (IH r0 F') as (r' & P1 & F1).
    exists (b :: r'). split; [constructor; auto | constructor; auto].
  - inversion F as [|? b ? r0 Hb F']; subst. inversion F' as [|? b' ? r1 Hb' F'']; subst.
    exists (b' :: b :: r1). split; [constructor | repeat constructor; auto].
  - destruct (IH1 r F) as (r1 & P1 & F1). destruct (IH2 r1 F1) as (r2 & P2 & F2).
    exists r2. split; [transitivity r1; auto | auto].
Qed.

Lemma sort_small_m {V} m (rows : list (list cplx * list V)) cur out : (m <= 2)%nat ->
  length cur = m -> rect m rows -> chained cur rows out -> Forall2 same_pairs rows out.
Proof.
  intros Hm. revert cur out. induction rows as [|i rows IH]; intros cur [|o out] Lc Hr C; simpl in C; try tauto.
  - constructor.
  - inversion Hr as [|? ? [L1 L2] Hr']; subst. destruct C as [(ks & G & Ra) C].
    destruct (C10_perm (length cur) ks cur i o L1 L2 eq_refl G Ra (or_introl Hm)) as [P1 P2].
    constructor; [exact P1|]. apply (IH (fst o)); auto.
    rewrite <- L1. symmetry. apply Permutation_length. exact P2.
Qed.

Lemma Forall2_track eps prev nb ks (i o : list cplx) :
  Forall2 (fun e k => exists x, nth_error i k = Some x /\ edist e x <= eps) prev nb -> ks = nb ->
  Forall2 (fun k e => nth_error i k = Some e) ks o ->
  Forall2 (fun a b => edist a b <= eps) prev o.
Proof.
  intros F ->. revert o. induction F as [|e k prev nb (x & Hx & He) F IH]; intros o Ho; inversion Ho; subst; constructor; auto.
  congruence.
Qed.

Lemma sort_smooth {V} eps m (rows : list (list cplx * list V)) prev cur out :
  length cur = m -> rect m rows -> Permutation prev cur -> smooth eps m prev rows ->
  chained cur rows out -> Forall2 same_pairs rows out /\ tracks eps cur out.
Proof.
  revert prev cur out. induction rows as [|i rows IH]; intros prev cur [|o out] Lc Hr Hp Hs C; simpl in C; try tauto.
  - split; [constructor | exact I].
  - inversion Hr as [|? ? [L1 L2] Hr']; subst. destruct C as [(ks & G & Ra) C].
    destruct Hs as [(nb & Pn & Fn) [Hsep Hs]].
    destruct (Forall2_perm _ _ _ _ Hp Fn) as (nb' & Pn' & Fn').
    assert (Nd : NoDup nb').
    { apply (Permutation_NoDup Pn'). apply (Permutation_NoDup (Permutation_sym Pn)). apply seq_NoDup. }
    pose proof (C10_small_steps ks cur i o nb' eps G Ra Fn' Nd Hsep) as Ek.
    assert (Nk : NoDup ks) by (rewrite Ek; exact Nd).
    destruct (sorted_row_perm (length cur) ks cur i o L1 L2 eq_refl G Nk Ra) as [P1 P2].
    assert (Lo : length (fst o) = length cur) by (rewrite <- L1; symmetry; apply Permutation_length; exact P2).
    destruct (IH (fst i) (fst o) out Lo Hr' P2 Hs C) as [I1 I2].
    split; [constructor; auto|]. simpl. split; [|exact I2].
    destruct Ra as [Ra _]. apply (Forall2_track eps cur nb' ks (fst i)); auto.
Qed.

Lemma sort_eigenmodes_small {V} m (rows out : list (list cplx * list V)) : (m <= 2)%nat ->
  rect m rows -> sort_eigenmodes rows = Ok out -> Forall2 same_pairs rows out.
Proof.
  intros Hm Hr H. destruct rows as [|r0 rows]; [discriminate|].
  destruct (sort_eigenmodes_spec m r0 rows Hr) as (o & E & Ro & _ & C). rewrite E in H. injection H as <-.
  inversion Hr as [|? ? [L1 L2] Hr']; subst.
  constructor; [apply Permutation_refl|]. apply (sort_small_m (length (fst r0)) rows (fst r0)); auto.
Qed.

Lemma sort_eigenmodes_smooth {V} eps m r0 (rows out : list (list cplx * list V)) :
  rect m (r0 :: rows) -> smooth eps m (fst r0) rows -> sort_eigenmodes (r0 :: rows) = Ok (r0 :: out) ->
  Forall2 same_pairs (r0 :: rows) (r0 :: out) /\ tracks eps (fst r0) out.
Proof.
  intros Hr Hs H.
  destruct (sort_eigenmodes_spec m r0 rows Hr) as (o & E & Ro & _ & C). rewrite E in H. injection H as <-.
  inversion Hr as [|? ? [L1 L2] Hr']; subst.
  destruct (sort_smooth eps (length (fst r0)) rows (fst r0) (fst r0) o eq_refl Hr' (Permutation_refl _) Hs C) as [A B].
  split; [constructor; [apply Permutation_refl | exact A] | exact B].
Qed.
