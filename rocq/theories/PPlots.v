(* PPlots.v -- the figures of the models: x axis, eigenvalue parts *)
From Coq Require Import Lra Lia.
From Verif Require Import Base MString MHeap MBicycle MVec MInertia MSets MSets2 MModels MModels2 MEig PBase SBicycle PBicycle PHeap SModels SModels2 SSort PSort
  PModels PModels2 PModels3 PModels4 PSets3 PModels5 PModels6 PModels7 PModels8 PModels9 PModels10 PModels11 PEig3 MPlots SPlots.
Local Open Scope string_scope.
Local Open Scope R_scope.

Lemma dmem_in {V} (d : dict V) k : dmem d k = true <-> In k (dkeys d).
Proof. unfold dmem. rewrite dget_some_in. destruct (dget d k); split; intros H; eauto; [discriminate|destruct H; discriminate]. Qed.

(* ---- the x axis ---- *)
Lemma array_keys_first d ov : match array_keys_of d ov with
  | [] => forall k l, In (k, OArray l) ov -> ~ In k (dkeys d)
  | k :: _ => exists xs, first_array d ov k xs
  end.
Proof.
  induction ov as [|[k [x|l]] ov IH].
  - cbn. tauto.
  - cbn [array_keys_of flat_map snd app]. fold (array_keys_of d ov). destruct (array_keys_of d ov) as [|k0 r].
    + intros k' l' [E|E]; [discriminate|]. eapply IH; eauto.
    + destruct IH as (xs & b & a & -> & I & H). exists xs, ((k, OScalar x) :: b)%list, a. split; [reflexivity|]. split; [exact I|].
      intros k' l' [E|E]; [discriminate|]. eapply H; eauto.
  - cbn [array_keys_of flat_map snd fst app]. fold (array_keys_of d ov). destruct (dmem d k) eqn:E.
    + cbn [app]. exists l, [], ov. split; [reflexivity|]. split; [apply dmem_in, E|]. intros ? ? [].
    + cbn [app]. assert (NK : ~ In k (dkeys d)) by (rewrite <- dmem_in; congruence). destruct (array_keys_of d ov) as [|k0 r].
      * intros k' l' [X|X]; [injection X as -> ->; exact NK|]. eapply IH; eauto.
      * destruct IH as (xs & b & a & -> & I & H). exists xs, ((k, OArray l) :: b)%list, a. split; [reflexivity|]. split; [exact I|].
        intros k' l' [X|X]; [injection X as -> ->; exact NK|]. eapply H; eauto.
Qed.
Lemma first_array_get d ov k xs : NoDup (dkeys ov) -> first_array d ov k xs -> dget ov k = Some (OArray xs) /\ In k (dkeys d) /\ array_given d ov k.
Proof.
  intros N (b & a & -> & I & _). assert (G : dget (b ++ (k, OArray xs) :: a)%list k = Some (OArray xs)).
  { apply in_dget; [exact N|]. apply in_or_app. right; left; reflexivity. }
  split; [exact G|]. split; [exact I|]. split; [exact I|eauto].
Qed.
Lemma x_values_eq d ov d' : NoDup (dkeys ov) -> (forall k, dget d' k = overridden d ov k) ->
  match x_values d' (array_keys_of d ov) with
  | Ok (k, xs) => first_array d ov k xs /\ exists r, array_keys_of d ov = k :: r
  | Err e => e = IndexError /\ array_keys_of d ov = [] /\ forall k, ~ array_given d ov k
  end.
Proof.
  intros N HD. pose proof (array_keys_first d ov) as P. destruct (array_keys_of d ov) as [|k r] eqn:E; cbn [x_values].
  - split; [reflexivity|]. split; [reflexivity|]. intros k (I & l & G). eapply P; eauto. apply dget_in, G.
  - destruct P as (xs & P). destruct (first_array_get d ov k xs N P) as (G & I & _).
    unfold dlook. rewrite HD. unfold overridden. rewrite G. apply dget_some_in in I. destruct I as (v & ->). cbn [bind]. split; [exact P|eauto].
Qed.
Lemma first_array_unique d ov k xs k' xs' : first_array d ov k xs -> first_array d ov k' xs' -> k = k' /\ xs = xs'.
Proof.
  intros (b & a & E & I & H) (b' & a' & E' & I' & H'). subst ov. revert b' E' H'. induction b as [|[q v] b IH]; intros [|[q' v'] b'] E' H'; cbn [app] in E'.
  - injection E' as -> -> _. auto.
  - injection E' as <- <- _. exfalso. apply (H' k xs); [left; reflexivity|exact I].
  - injection E' as -> -> _. exfalso. apply (H k' xs'); [left; reflexivity|exact I'].
  - injection E' as -> -> E'. apply (IH (fun k' l X => H k' l (or_intror X)) b' E' (fun k' l X => H' k' l (or_intror X))).
Qed.

(* ---- running the figure ---- *)
Definition par_of (d : pdict) (ov : dict oval) : pdict := fst (parse_pure d ov [] None).
Lemma calc_eigen_det eig m s ov h h2 d : fit m s h d -> preserved h h2 -> NoDup (dkeys ov) -> forall left,
  snd (calc_eigen eig (state_space m s) left ov h2) = snd (calc_eigen eig (state_space m s) left ov h).
Proof. intros F P N left. rewrite !calc_eigen_eq. cbn [snd]. rewrite (sst_det m s ov h h2 d F (fit_preserved m s _ _ d P F) N). reflexivity. Qed.
Lemma eigen_ok_lens eig m s left ov h d r : fit m s h d -> NoDup (dkeys ov) -> snd (calc_eigen eig (state_space m s) left ov h) = Ok r ->
  exists d' ks len, parsed d ov = Ok (d', ks, len) /\ d' = par_of d ov /\ ks = array_keys_of d ov /\ len = hd_error (array_lengths d ov) /\ (forall k, dget d' k = overridden d ov k).
Proof.
  intros F N E. pose proof (parsed_ok d ov N) as P. destruct (parsed d ov) as [[[d' ks] len]|e].
  - destruct P as (-> & -> & _ & HD & ->). do 3 eexists. repeat split; auto.
  - exfalso. destruct P as (_ & P). rewrite calc_eigen_eq in E. cbn [snd] in E. rewrite (sst_bad m s ov h d F N) in E; [discriminate|].
    intros X. apply P. exact X.
Qed.
Lemma plot_parts_eq eig m s colors show hz sort ov h d : fit m s h d -> NoDup (dkeys ov) ->
  preserved h (fst (plot_eigenvalue_parts eig m s colors show hz sort ov h)) /\
  snd (plot_eigenvalue_parts eig m s colors show hz sort ov h) =
    (ev <- snd (calc_eigen eig (state_space m s) false ov h) ;; parts_figure (ps_class s) (par_of d ov) (array_keys_of d ov) ev colors show hz sort).
Proof.
  intros F N. unfold plot_eigenvalue_parts, hbind. pose proof (eigen_preserves eig false m s ov h d F N) as P.
  pose proof (fun r => eigen_ok_lens eig m s false ov h d r F N) as L.
  destruct (calc_eigen eig (state_space m s) false ov h) as [h1 [ev|e]]; cbn [fst snd bind] in *; [|auto].
  destruct (L ev eq_refl) as (d' & ks & len & EP & -> & -> & -> & _). clear L.
  pose proof (fit_preserved m s h h1 d P F) as F1.
  rewrite (parse_parameter_overrides_eq _ _ _ _ (proj1 F1)), EP. cbn [fst snd].
  fold (par_of d ov). rewrite (hload_eq _ _ _ (nth_error_app_last h1 [] (par_of d ov))). unfold lift. cbn [fst snd].
  split; [|reflexivity]. eapply preserved_trans; [exact P|apply preserved_app].
Qed.

(* ---- pieces ---- *)
Lemma masked_shows default z y : shows default z y (masked default z y).
Proof.
  unfold masked, shows. destruct z as [| |t]; cbn [hides tol_of andb].
  - reflexivity.
  - destruct (Rltb (Rabs y) default) eqn:E; [apply Rltb_spec in E | apply Rltb_false in E]; split; intros; auto; lra.
  - destruct (Req_EM_T t 0) as [->|NZ]; cbn [andb].
    + split; intros H; [pose proof (Rabs_pos y); lra | reflexivity].
    + destruct (Rltb (Rabs y) t) eqn:E; [apply Rltb_spec in E | apply Rltb_false in E]; split; intros; auto; lra.
Qed.
Lemma par_label_of c k lab : par_label c k = Ok lab -> label_of c k lab.
Proof.
  unfold par_label, dlook, label_of. generalize (labels c). generalize (par_strings c). induction l as [|a l IH]; intros [|b l'] H; cbn in H; try discriminate.
  destruct (String.eqb k a) eqn:E.
  - injection H as ->. apply String.eqb_eq in E. subst. exists 0%nat. auto.
  - destruct (IH l' H) as (i & H1 & H2). exists (S i). auto.
Qed.
Lemma label_of_par c k : In k (par_strings c) -> exists lab, par_label c k = Ok lab.
Proof.
  assert (L : length (par_strings c) = length (labels c)) by (destruct c; reflexivity).
  unfold par_label, dlook. revert L. generalize (labels c). generalize (par_strings c). induction l as [|a l IH]; intros [|b l'] L I; try discriminate; [destruct I|]. destruct I as [E|I].
  - subst. cbn [combine dget]. rewrite String.eqb_refl. eauto.
  - cbn [combine dget]. destruct (String.eqb k a); [eauto|]. apply IH; auto.
Qed.
Lemma label_of_unique c k lab lab' : label_of c k lab -> label_of c k lab' -> lab = lab'.
Proof.
  assert (N : NoDup (par_strings c)).
  { destruct c; cbn [par_strings]; repeat (constructor; [cbn; intuition discriminate|]); constructor. }
  intros (i & A1 & A2) (j & B1 & B2). assert (i = j); [|subst; congruence]. rewrite NoDup_nth_error in N. apply N; [apply nth_error_Some; congruence|congruence].
Qed.
Lemma label_of_intro c k lab : label_of c k lab -> par_label c k = Ok lab.
Proof.
  intros L. assert (I : In k (par_strings c)) by (destruct L as (i & H & _); eapply nth_error_In; eauto).
  destruct (label_of_par c k I) as (lab' & E). rewrite E. f_equal. eapply label_of_unique; eauto. apply par_label_of, E.
Qed.

(* every row has n eigenvalues *)
Definition nrows (n : nat) (rows : list (list cplx)) : Prop := forall w, In w rows -> length w = n.
Lemma arranged_rows n (sort : bool) (evs : list eigres) (rows : list (list cplx)) : (forall e, In e evs -> length (fst e) = n /\ length (snd e) = n) ->
  (if sort then s <- sort_eigenmodes (with_columns evs) ;; Ok (map fst s) else Ok (map fst evs)) = Ok rows ->
  arranged sort evs rows /\ length rows = length evs /\ nrows n rows /\
  forall i, (i < length evs)%nat -> (forall z, In z (nth i rows []) -> In z (fst (nth i evs ([], []))) ) /\ (i = 0%nat \/ sort = false -> nth i rows [] = fst (nth i evs ([], []))).
Proof.
  intros HR E. unfold arranged. destruct sort.
  - apply bind_ok in E. destruct E as (s & ES & E). injection E as <-. destruct evs as [|e0 rest]; [discriminate|].
    assert (RC : rect n (with_columns (e0 :: rest))).
    { unfold rect, with_columns. rewrite Forall_forall. intros r Hr. apply in_map_iff in Hr. destruct Hr as (e & <- & He). destruct (HR e He) as (L1 & L2).
      cbn [fst snd]. unfold columns_of. rewrite map_length, seq_length. auto. }
    cbn [with_columns map] in *. destruct (sort_eigenmodes_spec n _ _ RC) as (out & ES' & RO & LO & CH). rewrite ES in ES'. injection ES' as ->.
    cbn [map fst] in *. split; [|split; [|split]].
    + exists e0, rest, out. split; [reflexivity|]. split; [reflexivity|]. exact CH.
    + cbn [length]. rewrite !map_length in *. congruence.
    + intros w [<-|Hw]; [apply HR; left; reflexivity|]. apply in_map_iff in Hw. destruct Hw as (o & <- & Ho). unfold rect in RO. rewrite Forall_forall in RO. apply RO, Ho.
    + intros [|i] Hi; cbn [nth]; [auto|]. split; [|intros [X|X]; discriminate]. intros z IN. cbn [length] in Hi. rewrite map_length in LO.
      pose proof (chained_vals _ _ _ CH) as F2.
      assert (G : forall k (a b : list cplx * list (list cplx)) (inp out : list (list cplx * list (list cplx))), Forall2 (fun i o => forall x, In x (fst o) -> In x (fst i)) inp out ->
         (k < length out)%nat -> forall x, In x (fst (nth k out b)) -> In x (fst (nth k inp a))).
      { clear. intros k a b inp out F2. revert k. induction F2 as [|i o inp out H F2 IH]; intros k Hk; [simpl in Hk; lia|].
        destruct k as [|k]; cbn [nth]; [exact H|]. apply IH. simpl in Hk. lia. }
      specialize (G i ([], columns_of []) ([], []) _ out F2 ltac:(lia)). rewrite (nth_map fst out i ([], []) []) in IN by lia. specialize (G z IN).
      rewrite (nth_map (fun e : eigres => (fst e, columns_of (snd e))) rest i ([], [])) in G by lia. exact G.
  - injection E as <-. split; [reflexivity|]. split; [apply map_length|]. split.
    + intros w Hw. apply in_map_iff in Hw. destruct Hw as (e & <- & He). apply HR, He.
    + intros i Hi. rewrite (nth_map fst evs i ([], []) []) by exact Hi. auto.
Qed.

Lemma mapM_lines (par : pdict) keys k xs (modes : list (nat * string * string)) (f : nat -> list (option R)) (col : string -> string) style (out : list line) :
  x_values par keys = Ok (k, xs) ->
  mapM (fun jcl : nat * string * string => let '(j, color, label) := jcl in kx <- x_values par keys ;; plot_line (snd kx) (f j) label (col color) style) modes = Ok out ->
  out = map (fun jcl : nat * string * string => mkline xs (f (fst (fst jcl))) (snd jcl) (col (snd (fst jcl))) style) modes /\ forall jcl, In jcl modes -> length xs = length (f (fst (fst jcl))).
Proof.
  intros EX. rewrite EX. cbn [bind snd]. clear EX. revert out. induction modes as [|[[j c] l] modes IH]; intros out E; cbn [mapM] in E.
  - injection E as <-. split; [reflexivity|]. intros ? [].
  - unfold plot_line in E at 1. destruct (Nat.eqb (length xs) (length (f j))) eqn:EL; [|discriminate]. cbn [bind] in E.
    apply bind_ok in E. destruct E as (r & ER & E). injection E as <-.
    destruct (IH r) as (-> & H); [exact ER|]. split; [reflexivity|]. apply Nat.eqb_eq in EL. intros x [<-|I]; [exact EL | apply H, I].
Qed.
Lemma mapM_lines_ok (par : pdict) keys k xs (modes : list (nat * string * string)) (f : nat -> list (option R)) (col : string -> string) style :
  x_values par keys = Ok (k, xs) -> (forall j, length (f j) = length xs) ->
  exists out, mapM (fun jcl : nat * string * string => let '(j, color, label) := jcl in kx <- x_values par keys ;; plot_line (snd kx) (f j) label (col color) style) modes = Ok out.
Proof.
  intros EX HL. apply mapM_total. intros [[j c] l] _. rewrite EX. cbn [bind snd]. unfold plot_line. rewrite HL, Nat.eqb_refl. eauto.
Qed.
