(* TDraw2.v -- property theorem C65: the figures of a Bicycle *)
From Coq Require Import Lra Permutation.
From Verif Require Import PPlot Base MString MBicycle MVec MInertia MGeometry MIo MRider MMain MPlot MSets MDraw PBase SRider PRider SBicycle PBicycle SInertia PInertia PInertia3 SGeometry PGeometry SDraw PDraw PDraw2 PDraw3 MDraw2 SDraw2 PDraw5 PDraw6.
Local Open Scope string_scope.
Local Open Scope R_scope.

Lemma nominal_unique bench p q : nominal_values bench p -> nominal_values bench q -> p = q.
Proof.
  intros H. revert q. induction H as [|[k v] [k' x] bench p [E V] H IH]; intros q Q; inversion Q as [|? [k2 y] ? q' [E2 V2] H2]; subst; [reflexivity|].
  cbn [fst snd] in *. subst. f_equal; [|apply IH; assumption]. f_equal. destruct V as [V|[s V]], V2 as [V2|[s2 V2]]; congruence.
Qed.
Lemma remove_lists_plain d : remove_lists d = Err AttributeError <-> plain_number d.
Proof.
  assert (N : forall v, (exists xs, mapM nominal v = Ok xs) \/ (mapM nominal v = Err AttributeError /\ exists f, In (SFloat f) v)).
  { induction v as [|[f|n s] v IH]; cbn [mapM nominal bind]; [left; eauto|right; split; [reflexivity|exists f; left; reflexivity]|].
    destruct IH as [[xs ->]|[-> [f F]]]; cbn [bind]; [left; eauto|right; split; [reflexivity|exists f; right; exact F]]. }
  assert (M : forall v xs f, mapM nominal v = Ok xs -> ~ In (SFloat f) v).
  { intros v xs f H I. apply nominal_list_iff in H. destruct H as (us & -> & _). apply in_map_iff in I. destruct I as (u & E & _). discriminate. }
  unfold remove_lists. induction d as [|[X v] d IH]; cbn [mapM fst snd].
  - split; [discriminate|]. intros (X & v & f & [] & _).
  - destruct (N v) as [[xs E]|[E [f F]]]; rewrite E; cbn [bind].
    + destruct (mapM _ d) as [r|e] eqn:R; cbn [bind].
      * split; [discriminate|]. intros (Y & w & f & [I|I] & F); [injection I as <- <-; exfalso; exact (M _ _ _ E F)|].
        assert (C : Ok r = Err AttributeError) by (apply IH; exists Y, w, f; auto). discriminate.
      * rewrite IH. split; intros (Y & w & f & I & F); [exists Y, w, f; split; [right; exact I|exact F]|].
        destruct I as [I|I]; [injection I as <- <-; exfalso; exact (M _ _ _ E F)|exists Y, w, f; auto].
    + split; [|reflexivity]. intros _. exists X, v, f. split; [left; reflexivity|exact F].
Qed.
Lemma remove_lists_not_plain d d' : remove_lists d = Ok d' -> ~ plain_number d.
Proof. intros H P. apply remove_lists_plain in P. congruence. Qed.

(* the steps of a figure that was produced *)
Lemma plot_inv eig b par pendulum com ie fig : nominal_values (db_bench b) par ->
  plot_bicycle_geometry eig b pendulum com ie = Ok fig ->
  exists nb parts pen ells g rear w rF frame steer pls pshapes coms sf,
    remove_uncertainties (db_bench b) = Ok nb /\ numbers_of nb = Ok par /\
    get_parts_in_parameters par = Ok parts /\ read_pendulum b = Ok pen /\
    (if ie then inertia_ellipses eig par parts parts None else Ok []) = Ok ells /\
    bike_lines par = Ok (g, rear, w, rF, frame, steer) /\
    (match pen with
      | Some x => if db_hasRider b then Ok [] else if pendulum then pendulum_lines par x else Ok []
      | None => Ok [] end) = Ok pls /\
    mapM (fun kl => mapM (fun il => c <- part_color parts (fst kl) ;;
                       p0 <- index (snd il) 0 ;; Ok [Poly (snd il) c; Text p0 (nat_str (fst il + 1))]) (snd kl)) pls = Ok pshapes /\
    (if com then mass_symbols par parts else Ok []) = Ok coms /\
    (match db_human b with Some h => stick_figure (db_meas b) (db_bench b) h | None => Ok [] end) = Ok sf /\
    gf_shapes fig = (map (fun e : string * (pt * R * R * R) => let '(col, (c, wd, ht, a)) := e in Ell c wd ht a col) ells ++
       [Poly g "black"; Circle rear (snd rear) "black"; Circle (w, rF) rF "black"; Poly frame "black"; Poly steer "black"] ++
       concat (map (@concat shape) pshapes) ++ coms ++ map (fun l => Poly l "black") sf)%list /\
    let top_of_head := match db_human b with Some _ => snd (last (last sf []) (0, 0)) | None => 0 end in
    let max_y := maxl [2 * snd rear; 2 * rF; maxl (map snd frame); top_of_head] in
    let min_y := fold_left Rmin (tl (map snd frame)) (hd 0 (map snd frame)) in
    let y_low := if Rleb 0 min_y then Rmin 0 min_y else - npceil (Rabs min_y) in
    gf_ylim fig = (y_low, npceil max_y).
Proof.
  intros NV H. apply nominal_iff in NV. destruct NV as (nb & R & NB). unfold plot_bicycle_geometry in H. rewrite R in H. cbn [bind] in H. rewrite NB in H. cbn [bind] in H.
  step_bind H. step_bind H. step_bind H. step_bind H. destruct x2 as [[[[[g rear] w] rF] frame] steer]. step_bind H. step_bind H. step_bind H. step_bind H.
  exists nb, x, x0, x1, g, rear, w, rF, frame, steer, x2, x3, x4, x5.
  assert (FE : forall a c : gfigure, Ok a = Ok c -> c = a) by congruence. apply FE in H. subst fig. cbn [gf_shapes gf_ylim]. repeat (split; [first [assumption|reflexivity]|]). reflexivity.
Qed.

(* ---------------- C65 ---------------- *)
(* What the figure shows, in order: an ellipse at the mass centre of every part, ground,
   wheels, frame and steer axis, the pendulum axes, the mass centres, the rider. *)
Theorem C65_figure : forall eig b par pendulum centerOfMass inertiaEllipse fig,
  nominal_values (db_bench b) par -> plot_bicycle_geometry eig b pendulum centerOfMass inertiaEllipse = Ok fig ->
  exists parts ells bike pens coms body, get_parts_in_parameters par = Ok parts /\
    gf_shapes fig = (ells ++ bike ++ pens ++ coms ++ body)%list /\
    (if inertiaEllipse then exists sizes, length sizes = length parts /\
       ells = map (fun Xs : string * (R * R * R) => let '(X, (wd, ht, a)) := Xs in Ell (plot_centre par X) wd ht a X) (combine parts sizes)
     else ells = []) /\
    bike_drawn par bike /\
    ((exists s i p, pendulum = true /\ db_hasRider b = false /\ db_extras b = Some (s, i, p) /\
        ~ plain_number s /\ ~ plain_number i /\ ~ plain_number p /\ pendulum_groups par s i p pens) \/
     (pens = [] /\ (pendulum = false \/ db_hasRider b = true \/ db_extras b = None \/
        exists s i p, db_extras b = Some (s, i, p) /\ (plain_number s \/ plain_number i \/ plain_number p)))) /\
    coms = (if centerOfMass then centre_marks par parts else []) /\
    rider_drawn b body.
Proof.
  intros eig b par pendulum com ie fig NV H. destruct (plot_inv _ _ _ _ _ _ _ NV H) as (nb & parts & pen & ells & g & rear & w & rF & frame & steer & pls & pshapes & coms & sf & _ & _ & GP & RP & EE & BL & PL & PS & CM & SF & SH & _).
  exists parts. do 5 eexists. split; [exact GP|]. split; [exact SH|]. split.
  { destruct ie; [apply (ellipses_spec _ _ _ _ _ _ EE)|assert (ells = []) by congruence; subst; reflexivity]. }
  destruct (bike_lines_spec _ _ _ _ _ _ _ BL) as (_ & _ & _ & _ & _ & _ & BD). split; [exact BD|]. split.
  { destruct (read_pendulum_spec b) as (pen' & RP' & SP). assert (pen' = pen) by congruence. subst pen'.
    destruct pen as [[[s' i'] p']|].
    - destruct SP as (s & i & p & EX & RS & RI & RPn). destruct (db_hasRider b) eqn:HR; [right; assert (pls = []) by congruence; subst pls; cbn [mapM] in PS; assert (pshapes = []) by congruence; subst; split; [reflexivity|auto]|].
      destruct pendulum; [|right; assert (pls = []) by congruence; subst pls; cbn [mapM] in PS; assert (pshapes = []) by congruence; subst; split; [reflexivity|auto]].
      left. exists s, i, p. repeat (split; [first [reflexivity|assumption|eapply remove_lists_not_plain; eassumption]|]). eapply pendulum_all; eassumption.
    - right. assert (pls = []) by congruence. subst pls. cbn [mapM] in PS. assert (pshapes = []) by congruence. subst. split; [reflexivity|].
      destruct SP as [SP|(s & i & p & EX & SP)]; [auto|]. right; right; right. exists s, i, p. split; [exact EX|]. rewrite <- !remove_lists_plain. exact SP. }
  split; [destruct com; [apply mass_symbols_spec; exact CM|congruence]|].
  unfold rider_drawn. destruct (db_human b) as [h|]; [|assert (sf = []) by congruence; subst; reflexivity].
  apply stick_figure_spec in SF. destruct SF as (p & L & C & ->). exists p. auto.
Qed.
Print Assumptions C65_figure.
(* The y limits take in ground, wheels, frame, steer axis and the top of the head. *)
Theorem C65_limits : forall eig b par pendulum centerOfMass inertiaEllipse fig,
  nominal_values (db_bench b) par -> plot_bicycle_geometry eig b pendulum centerOfMass inertiaEllipse = Ok fig ->
  0 <= pv par "rR" -> 0 <= pv par "rF" ->
  let inside y := fst (gf_ylim fig) <= y <= snd (gf_ylim fig) in
  exists before bike after, gf_shapes fig = (before ++ bike ++ after)%list /\ bike_drawn par bike /\
    (forall l col q, In (Poly l col) bike -> In q l -> inside (snd q)) /\
    (forall c r col, In (Circle c r col) bike -> inside (snd c - r) /\ inside (snd c + r)) /\
    (forall h p, db_human b = Some h -> bike_lengths p (db_meas b) (db_bench b) -> - vz (on_bike p (C_end h)) <= snd (gf_ylim fig)).
Proof.
  intros eig b par pendulum com ie fig NV H PR PF inside. destruct (plot_inv _ _ _ _ _ _ _ NV H) as (nb & parts & pen & ells & g & rear & w & rF & frame & steer & pls & pshapes & coms & sf & _ & _ & GP & RP & EE & BL & PL & PS & CM & SF & SH & YL).
  cbv zeta in YL. do 3 eexists. split; [exact SH|]. destruct (bike_lines_spec _ _ _ _ _ _ _ BL) as (-> & -> & -> & _ & _ & (d & e & FR & ST) & BD). split; [exact BD|]. cbn [snd] in *.
  set (top := match db_human b with Some _ => snd (last (last sf []) (0, 0)) | None => 0 end) in *.
  set (mx := maxl [2 * pv par "rR"; 2 * pv par "rF"; maxl (map snd frame); top]) in *.
  set (mn := fold_left Rmin (tl (map snd frame)) (hd 0 (map snd frame))) in *.
  set (lo := if Rleb 0 mn then Rmin 0 mn else - npceil (Rabs mn)) in *.
  assert (HI : forall y, In y [2 * pv par "rR"; 2 * pv par "rF"; maxl (map snd frame); top] -> y <= npceil mx).
  { intros y I. apply Rle_trans with mx; [apply maxl_ge; exact I|apply npceil_ge]. }
  assert (HF : forall y, In y (map snd frame) -> y <= npceil mx).
  { intros y I. apply Rle_trans with (maxl (map snd frame)); [apply maxl_ge; exact I|apply HI; cbn; auto]. }
  assert (LM : forall y, In y (map snd frame) -> mn <= y).
  { intros y I. unfold mn. rewrite FR in *. cbn [map tl hd snd fst] in *. apply fold_min_le. exact I. }
  assert (L0 : lo <= 0 /\ lo <= mn).
  { unfold lo, Rleb. destruct (Rle_dec 0 mn) as [P|N]; [rewrite Rmin_left by exact P; lra|]. pose proof (npceil_ge (Rabs mn)). rewrite Rabs_left in * by lra. lra. }
  assert (Z : inside 0). { unfold inside. rewrite YL. cbn [fst snd]. split; [apply L0|]. apply Rle_trans with (2 * pv par "rR"); [lra|apply HI; left; reflexivity]. }
  assert (IF : forall y, In y (map snd frame) -> inside y). { intros y I. unfold inside. rewrite YL. cbn [fst snd]. split; [apply Rle_trans with mn; [apply L0|apply LM; exact I]|apply HF; exact I]. }
  assert (IR : inside (2 * pv par "rR")). { unfold inside in *. rewrite YL in *. cbn [fst snd] in *. split; [lra|apply HI; left; reflexivity]. }
  assert (IFr : inside (2 * pv par "rF")). { unfold inside in *. rewrite YL in *. cbn [fst snd] in *. split; [lra|apply HI; right; left; reflexivity]. }
  split; [|split].
  - destruct BD as (d' & e' & BQ & _). injection BQ as Eg Efr Est. intros l col q I Q. cbn [In] in I.
    destruct I as [I|[I|[I|[I|[I|[]]]]]]; try discriminate; injection I as <- <-.
    + rewrite Eg in Q. destruct Q as [<-|[<-|[]]]; exact Z.
    + apply IF. apply in_map. exact Q.
    + rewrite ST in Q. destruct Q as [<-|[<-|[]]]; [|exact Z]. apply IF. rewrite FR. cbn [map In]. auto.
  - intros c r col I. cbn [In] in I. destruct I as [I|[I|[I|[I|[I|[]]]]]]; try discriminate; injection I as <- <- _; cbn [snd];
      match goal with |- inside ?a /\ inside ?y => assert (E1 : a = 0) by lra; rewrite E1; split; [exact Z|] end;
      match goal with |- inside (?r + ?r) => replace (r + r) with (2 * r) by ring end; assumption.
  - intros h p EH L. rewrite YL. cbn [fst snd]. apply HI. unfold top. rewrite EH in *. apply stick_figure_spec in SF. destruct SF as (p' & L' & C & ->).
    unfold rider_segments, seg. cbn [last snd]. rewrite (lengths_unique_on_bike _ _ _ _ L' L). cbn; auto.
Qed.
Print Assumptions C65_limits.

Lemma mapM_in {A B} (f : A -> res B) l r b : mapM f l = Ok r -> In b r -> exists a, In a l /\ f a = Ok b.
Proof.
  revert r. induction l as [|a l IH]; intros r H I; cbn [mapM] in H; [assert (r = []) by congruence; subst; destruct I|].
  step_bind H. step_bind H. assert (r = x :: x0) by congruence. subst r. destruct I as [<-|I]; [exists a; cbn [In]; auto|].
  destruct (IH _ E0 I) as (a' & J & F). exists a'. cbn [In]. auto.
Qed.
(* membership of an ellipse in the figure *)
Lemma ellipses_in eig par all todo y es X e : inertia_ellipses eig par all todo y = Ok es -> In (X, e) es -> exists y0 y1, inertia_ellipse eig par X y0 = Ok (y1, e).
Proof.
  revert y es. induction todo as [|Y todo IH]; intros y es H I; cbn [inertia_ellipses] in H; [assert (es = []) by congruence; subst; destruct I|].
  step_bind H. step_bind H. step_bind H. assert (es = (x0, snd x) :: x1) by congruence. subst es. destruct I as [I|I]; [|eapply IH; eassumption].
  unfold part_color in E0. destruct (smem Y all); [|discriminate]. exists y, (fst x). assert (x0 = Y) by congruence. injection I as -> <-. subst Y. rewrite E. destruct x; reflexivity.
Qed.
Definition is_ell (s : shape) : bool := match s with Ell _ _ _ _ _ => true | _ => false end.
Lemma ell_in_figure eig b par pendulum com ie fig c wd ht ang X : nominal_values (db_bench b) par ->
  plot_bicycle_geometry eig b pendulum com ie = Ok fig -> In (Ell c wd ht ang X) (gf_shapes fig) ->
  exists y0 y1, inertia_ellipse eig par X y0 = Ok (y1, (c, wd, ht, ang)).
Proof.
  intros NV H I. destruct (plot_inv _ _ _ _ _ _ _ NV H) as (nb & parts & pen & ells & g & rear & w & rF & frame & steer & pls & pshapes & coms & sf & _ & _ & GP & RP & EE & BL & PL & PS & CM & SF & SH & _).
  rewrite SH in I. apply in_app_or in I. destruct I as [I|I].
  - apply in_map_iff in I. destruct I as ([X' [[[c' wd'] ht'] a']] & E & I). injection E as -> -> -> -> ->.
    destruct ie; [|assert (ells = []) by congruence; subst; destruct I]. eapply ellipses_in; eassumption.
  - exfalso. apply in_app_or in I. destruct I as [I|I]; [cbn [In] in I; repeat (destruct I as [I|I]; [discriminate|]); destruct I|].
    apply in_app_or in I. destruct I as [I|I].
    + assert (G : forall s, In s (concat (map (@concat shape) pshapes)) -> is_ell s = false).
      { clear - PS. intros s I. apply in_concat in I. destruct I as (l & L & I). apply in_map_iff in L. destruct L as (gs & <- & L). apply in_concat in I. destruct I as (sh & IS & I).
        apply (mapM_in _ _ _ _ PS) in L. destruct L as (kl & _ & L). apply (mapM_in _ _ _ _ L) in IS. destruct IS as (il & _ & IS). step_bind IS. step_bind IS.
        assert (sh = [Poly (snd il) x; Text x0 (nat_str (fst il + 1))]) by congruence. subst sh. destruct I as [<-|[<-|[]]]; reflexivity. }
      apply G in I. discriminate.
    + apply in_app_or in I. destruct I as [I|I].
      * destruct com; [|assert (coms = []) by congruence; subst; destruct I]. apply mass_symbols_spec in CM. subst coms.
        assert (G : forall X col s, In s (centre_mark par X col) -> is_ell s = false) by (intros Y col s J; cbn [centre_mark In] in J; unfold centre_mark in J; cbn [In] in J; intuition (subst; reflexivity)).
        assert (E : is_ell (Ell c wd ht ang X) = false); [|discriminate]. unfold centre_marks in I. apply in_app_or in I. destruct I as [I|I]; [eapply G; exact I|].
        apply in_app_or in I. destruct I as [I|I]; [eapply G; exact I|]. apply in_app_or in I. destruct I as [I|I].
        -- apply in_concat in I. destruct I as (l & L & I). apply in_map_iff in L. destruct L as (Y & <- & _). eapply G; exact I.
        -- destruct (existsb _ parts); [destruct I|eapply G; exact I].
      * apply in_map_iff in I. destruct I as (l & E & _). discriminate.
Qed.

(* Inertia ellipses.  When the eigensolver returns the y axis as +y and the in-plane
   axes are not (nearly) at 0 or 90 degrees, the ellipse is a momental ellipse of the
   part (all in-plane axes through its points have the same moment of inertia times
   squared length), provided the axis of the smaller moment is returned pointing down
   (z >= 0); pointing up, its mirror image about the horizontal is drawn. *)
Theorem C65_ellipse : forall eig b par pendulum centerOfMass inertiaEllipse fig X c wd ht ang e0 e1 u v,
  nominal_values (db_bench b) par -> plot_bicycle_geometry eig b pendulum centerOfMass inertiaEllipse = Ok fig ->
  In (Ell c wd ht ang X) (gf_shapes fig) ->
  eig_splits eig par X e0 e1 u v -> e0 < e1 -> 1 / 10 ^ 10 <= Rabs (vx u + vz u - 1) -> 1 / 10 ^ 10 <= Rabs (vx v + vz v - 1) ->
  exists k, 0 < k /\
    (0 <= vz u -> forall q, on_ellipse c wd ht ang q <-> momental par X k q) /\
    (vz u <= 0 -> forall q, on_ellipse c wd ht ang q <-> momental par X k (mirrored par X q)).
Proof.
  intros eig b par pendulum com ie fig X c wd ht ang e0 e1 u v NV H I (T & l & PT & ER & PM & PU & PV & ID) LT MU MV.
  destruct (ell_in_figure _ _ _ _ _ _ _ _ _ _ _ _ NV H I) as (y0 & y1 & IE).
  destruct (split_rows eig T l (Iyy_of par X) e0 e1 u v y0 ER PM LT) as (axes & k & AX & FY & DN); [apply match_plane; [apply PU|exact MU]|apply match_plane; [apply PV|exact MV]|].
  destruct (ellipse_rows _ _ _ _ _ _ _ _ _ axes k e0 e1 u v IE) as (EC & P0 & P1 & EW & HH & EQ & AB & EA); try assumption.
  { intros T' PT'. assert (T' = T) by congruence. subst T'. exact AX. }
  destruct (ellipse_shape par X c wd ht ang e0 e1 u v PU PV ID EC P0 P1 EW HH EQ AB EA) as (KP & A & B). eauto.
Qed.
Print Assumptions C65_ellipse.
(* Refuted: for a part with a product of inertia whose axis comes out pointing up, the
   drawn ellipse is not a momental ellipse of any size. *)
Theorem C65_ellipse_orientation_refuted : forall eig b par pendulum centerOfMass inertiaEllipse fig X c wd ht ang e0 e1 u v,
  nominal_values (db_bench b) par -> plot_bicycle_geometry eig b pendulum centerOfMass inertiaEllipse = Ok fig ->
  In (Ell c wd ht ang X) (gf_shapes fig) ->
  eig_splits eig par X e0 e1 u v -> e0 < e1 -> 1 / 10 ^ 10 <= Rabs (vx u + vz u - 1) -> 1 / 10 ^ 10 <= Rabs (vx v + vz v - 1) ->
  Ixz_of par X <> 0 -> vz u < 0 ->
  ~ exists k, forall q, on_ellipse c wd ht ang q <-> momental par X k q.
Proof.
  intros eig b par pendulum com ie fig X c wd ht ang e0 e1 u v NV H I ES LT MU MV NX UP [k' K'].
  destruct (C65_ellipse _ _ _ _ _ _ _ _ _ _ _ _ _ _ _ _ NV H I ES LT MU MV) as (k & KP & _ & M). specialize (M ltac:(lra)).
  destruct ES as (T & l & PT & ER & PM & PU & PV & ID).
  destruct (ell_in_figure _ _ _ _ _ _ _ _ _ _ _ _ NV H I) as (y0 & y1 & IE).
  destruct (split_rows eig T l (Iyy_of par X) e0 e1 u v y0 ER PM LT) as (axes & kk & AX & FY & DN); [apply match_plane; [apply PU|exact MU]|apply match_plane; [apply PV|exact MV]|].
  destruct (ellipse_rows _ _ _ _ _ _ _ _ _ axes kk e0 e1 u v IE) as (EC & P0 & P1 & _); try assumption.
  { intros T' PT'. assert (T' = T) by congruence. subst T'. exact AX. }
  destruct PU as (Y0 & U0 & A0 & B0), PV as (Y1 & U1 & A1 & B1). unfold sqnorm in U0, U1. rewrite Y0 in U0. rewrite Y1 in U1.
  destruct (eig2_other (Ixx_of par X) (Ixz_of par X) (Izz_of par X) e1 e0 (vx v) (vz v) (vx u) (vz u)) as (EAA & EBB & EDD); try assumption; try lra.
  apply (mirror_differs (Ixx_of par X) (Ixz_of par X) (Izz_of par X) k k'); try assumption.
  - intros x z N. rewrite EAA, EBB, EDD. set (ux := vx u) in *. set (uz := vz u) in *.
    assert (UU : ux ^ 2 + uz ^ 2 = 1) by lra.
    assert (Q : 0 < (ux * x + uz * z) ^ 2 + (- uz * x + ux * z) ^ 2).
    { replace ((ux * x + uz * z) ^ 2 + (- uz * x + ux * z) ^ 2) with ((ux ^ 2 + uz ^ 2) * (x ^ 2 + z ^ 2)) by ring. rewrite UU, Rmult_1_l.
      destruct (Req_dec x 0) as [->|NXX]; [destruct (Req_dec z 0) as [->|NZ]; [exfalso; apply N; reflexivity|]|].
      - assert (0 < z ^ 2) by (rewrite <- Rsqr_pow2; apply Rsqr_pos_lt; exact NZ). lra.
      - assert (0 < x ^ 2) by (rewrite <- Rsqr_pow2; apply Rsqr_pos_lt; exact NXX). pose proof (pow2_ge_0 z). lra. }
    set (al := (ux * x + uz * z) ^ 2) in *. set (be := (- uz * x + ux * z) ^ 2) in *.
    assert (0 <= al) by apply pow2_ge_0. assert (0 <= be) by apply pow2_ge_0.
    apply Rlt_le_trans with (e0 * (al + be)); [apply Rmult_lt_0_compat; assumption|].
    apply Rle_trans with (e0 * al + e1 * be); [assert (e0 * be <= e1 * be) by (apply Rmult_le_compat_r; lra); lra|].
    unfold al, be. right. ring.
  - intros x z. specialize (M (fst c + x, snd c - z)). specialize (K' (fst c + x, snd c - z)). rewrite M in K'. clear M.
    unfold momental, mirrored, inplane in K'. cbn [fst snd] in K'. rewrite <- EC in K'.
    match type of K' with ?a = k <-> ?b = k' => 
      assert (Ea : a = Ixx_of par X * x ^ 2 + 2 * Ixz_of par X * x * - z + Izz_of par X * z ^ 2) by ring;
      assert (Eb : b = Ixx_of par X * x ^ 2 + 2 * Ixz_of par X * x * z + Izz_of par X * z ^ 2) by ring; rewrite Ea, Eb in K'; exact K' end.
Qed.
Print Assumptions C65_ellipse_orientation_refuted.

(* eig on a diagonal tensor: the coordinate axes, in order *)
Definition axes_returned (eig : mat3 -> res (vec3 * mat3)) (par : dict R) (X : string) : Prop :=
  forall I, part_inertia_tensor par X = Ok I -> eig_returns eig I [(Ixx_of par X, mk3 1 0 0); (Iyy_of par X, mk3 0 1 0); (Izz_of par X, mk3 0 0 1)].
Lemma match_x : row_match (mk3 1 0 0) = true.
Proof. unfold row_match, Rltb. cbn [vx vy vz]. destruct (Rlt_dec _ _) as [|N]; [reflexivity|]. exfalso. apply N. replace (1 - 0 + (0 - 1) + (0 - 0)) with 0 by ring. rewrite Rabs_R0. lra. Qed.
Lemma match_z : row_match (mk3 0 0 1) = true.
Proof. unfold row_match, Rltb. cbn [vx vy vz]. destruct (Rlt_dec _ _) as [|N]; [reflexivity|]. exfalso. apply N. replace (0 - 0 + (0 - 1) + (1 - 0)) with 0 by ring. rewrite Rabs_R0. lra. Qed.
Lemma leb_true x y : x <= y -> Rleb x y = true.
Proof. intros H. unfold Rleb. destruct (Rle_dec x y); [reflexivity|contradiction]. Qed.
Lemma leb_false x y : y < x -> Rleb x y = false.
Proof. intros H. unfold Rleb. destruct (Rle_dec x y); [lra|reflexivity]. Qed.
Lemma sorted_axes eig par X T : axes_returned eig par X -> part_inertia_tensor par X = Ok T ->
  principal_axes eig T = Ok (sort_by [(Ixx_of par X, mk3 1 0 0); (Iyy_of par X, mk3 0 1 0); (Izz_of par X, mk3 0 0 1)]).
Proof. intros A P. apply axes_eval. apply A. exact P. Qed.
Lemma x_axis par X : Ixz_of par X = 0 -> plane_axis par X (Ixx_of par X) (mk3 1 0 0).
Proof. intros Z. unfold plane_axis, sqnorm. cbn [vx vy vz]. rewrite Z. repeat split; ring. Qed.
Lemma z_axis par X : Ixz_of par X = 0 -> plane_axis par X (Izz_of par X) (mk3 0 0 1).
Proof. intros Z. unfold plane_axis, sqnorm. cbn [vx vy vz]. rewrite Z. repeat split; ring. Qed.

(* Parts with their axes along x and z, wheels among them, and with the largest moment
   about y: a momental ellipse; for wheels a circle. *)
Theorem C65_ellipse_aligned : forall eig b par pendulum centerOfMass inertiaEllipse fig X c wd ht ang,
  nominal_values (db_bench b) par -> plot_bicycle_geometry eig b pendulum centerOfMass inertiaEllipse = Ok fig ->
  In (Ell c wd ht ang X) (gf_shapes fig) ->
  axes_returned eig par X -> Ixz_of par X = 0 -> Ixx_of par X < Iyy_of par X -> Izz_of par X < Iyy_of par X ->
  (exists k, 0 < k /\ forall q, on_ellipse c wd ht ang q <-> momental par X k q) /\
  (wheel_like X = true -> wd = ht).
Proof.
  intros eig b par pendulum com ie fig X c wd ht ang NV H I AR IZ XY ZY.
  destruct (ell_in_figure _ _ _ _ _ _ _ _ _ _ _ _ NV H I) as (y0 & y1 & IE).
  assert (ROWS : exists e0 e1 u v, (forall T, part_inertia_tensor par X = Ok T -> principal_axes eig T = Ok [(e0, u); (e1, v); (Iyy_of par X, mk3 0 1 0)]) /\
     find_yrow (map snd [(e0, u); (e1, v); (Iyy_of par X, mk3 0 1 0)]) y0 = Some 2%nat /\
     plane_axis par X e0 u /\ plane_axis par X e1 v /\ vx u * vz v - vx v * vz u <> 0 /\ 0 <= vz u /\ (wheel_like X = true -> e0 = e1)).
  { destruct (Rlt_le_dec (Izz_of par X) (Ixx_of par X)) as [L|L].
    - exists (Izz_of par X), (Ixx_of par X), (mk3 0 0 1), (mk3 1 0 0). split; [|split; [cbn [map snd]; rewrite find3, match_y; reflexivity|]].
      + intros T PT. rewrite (sorted_axes eig par X T AR PT). unfold sort_by. cbn [fold_right insert_by fst]. rewrite (proj2 (Rltb_spec _ _)) by exact ZY. cbn [insert_by fst]. rewrite (proj2 (Rltb_spec _ _)) by exact L.
        unfold Rltb. destruct (Rlt_dec (Iyy_of par X) (Ixx_of par X)); [lra|reflexivity].
      + repeat split; cbn [vx vz]; try apply x_axis; try apply z_axis; try assumption; try lra; try (apply x_axis; assumption); try (apply z_axis; assumption); try (unfold sqnorm; cbn; ring); try (rewrite IZ; ring).
        intros W. unfold Izz_of. rewrite W. reflexivity.
    - exists (Ixx_of par X), (Izz_of par X), (mk3 1 0 0), (mk3 0 0 1). split; [|split; [cbn [map snd]; rewrite find3, match_y; reflexivity|]].
      + intros T PT. rewrite (sorted_axes eig par X T AR PT). unfold sort_by. cbn [fold_right insert_by fst]. rewrite (proj2 (Rltb_spec _ _)) by exact ZY. cbn [insert_by fst].
        unfold Rltb. destruct (Rlt_dec (Izz_of par X) (Ixx_of par X)); [lra|reflexivity].
      + repeat split; cbn [vx vz]; try lra; try (unfold sqnorm; cbn; ring); try (rewrite IZ; ring).
        intros W. unfold Izz_of. rewrite W. reflexivity. }
  destruct ROWS as (e0 & e1 & u & v & AX & FY & PU & PV & ID & ZU & WE).
  destruct (ellipse_rows _ _ _ _ _ _ _ _ _ _ 2%nat e0 e1 u v IE AX FY eq_refl) as (EC & P0 & P1 & EW & HH & EQ & AB & EA).
  destruct (ellipse_shape par X c wd ht ang e0 e1 u v PU PV ID EC P0 P1 EW HH EQ AB EA) as (KP & A & _). split; [eauto|].
  intros W. specialize (WE W). subst e1. apply Rmult_eq_reg_l in EQ; [|lra].
  assert (S : (wd - ht) * (wd + ht) = 0) by lra. apply Rmult_integral in S. destruct S; lra.
Qed.
Print Assumptions C65_ellipse_aligned.
(* Refuted: with the moment about y between the two others, the row of another axis is
   dropped and the ellipse is not a momental ellipse of any size. *)
Theorem C65_ellipse_aligned_refuted : forall eig b par pendulum centerOfMass inertiaEllipse fig X c wd ht ang,
  nominal_values (db_bench b) par -> plot_bicycle_geometry eig b pendulum centerOfMass inertiaEllipse = Ok fig ->
  In (Ell c wd ht ang X) (gf_shapes fig) ->
  axes_returned eig par X -> Ixz_of par X = 0 -> Izz_of par X < Iyy_of par X -> Iyy_of par X < Ixx_of par X ->
  ~ exists k, forall q, on_ellipse c wd ht ang q <-> momental par X k q.
Proof.
  intros eig b par pendulum com ie fig X c wd ht ang NV H I AR IZ ZY YX [k K].
  destruct (ell_in_figure _ _ _ _ _ _ _ _ _ _ _ _ NV H I) as (y0 & y1 & IE).
  destruct (ellipse_rows _ _ _ _ _ _ _ _ _ [(Izz_of par X, mk3 0 0 1); (Iyy_of par X, mk3 0 1 0); (Ixx_of par X, mk3 1 0 0)] 2%nat (Izz_of par X) (Iyy_of par X) (mk3 0 0 1) (mk3 0 1 0) IE) as (EC & P0 & P1 & EW & HH & EQ & AB & EA).
  { intros T PT. rewrite (sorted_axes eig par X T AR PT). unfold sort_by. cbn [fold_right insert_by fst]. rewrite (proj2 (Rltb_spec _ _)) by exact ZY. cbn [insert_by fst].
    rewrite (proj2 (Rltb_spec _ _)) by lra. rewrite (proj2 (Rltb_spec _ _)) by lra. reflexivity. }
  { cbn [map snd]. rewrite find3, match_x. reflexivity. }
  { reflexivity. }
  cbn [vx] in EA. assert (TH : ang * PI / 180 = - (PI / 2)) by (rewrite EA, acos_0; field; apply PI_neq0).
  assert (P : forall t, momental par X k (plus2 c (plus2 (times2 (wd / 2 * cos t) (0, -1)) (times2 (ht / 2 * sin t) (1, 0))))).
  { intros t. apply K. unfold on_ellipse. rewrite TH, cos_neg, sin_neg, cos_PI2, sin_PI2. exists t. rewrite Ropp_involutive. reflexivity. }
  pose proof (P 0) as A. pose proof (P (PI / 2)) as B. rewrite cos_0, sin_0 in A. rewrite cos_PI2, sin_PI2 in B.
  unfold momental, inplane, plus2, times2 in A, B. cbn [fst snd] in A, B. rewrite <- EC, IZ in A, B.
  assert (A' : Izz_of par X * wd ^ 2 = 4 * k) by (rewrite <- A; field). assert (B' : Ixx_of par X * ht ^ 2 = 4 * k) by (rewrite <- B; field).
  rewrite EQ in A'. assert (C : (Ixx_of par X - Iyy_of par X) * ht ^ 2 = 0) by lra. apply Rmult_integral in C. destruct C as [C|C]; [lra|]. pose proof (pow_lt ht 2 HH). lra.
Qed.
Print Assumptions C65_ellipse_aligned_refuted.
(* When the eigensolver returns the y axis as -y for the first part and no other axis is
   mistaken for it, the figure is not made. *)
Theorem C65_minus_y : forall eig b par pendulum centerOfMass X parts I e0 e1 y u v,
  nominal_values (db_bench b) par -> get_parts_in_parameters par = Ok (X :: parts) ->
  part_inertia_tensor par X = Ok I -> (exists c, In ("x" ++ X, c) par) -> (exists c, In ("z" ++ X, c) par) -> wheel_like X = false ->
  eig_returns eig I [(y, mk3 0 (-1) 0); (e0, u); (e1, v)] -> vy u = 0 -> vy v = 0 ->
  1 / 10 ^ 10 <= Rabs (vx u + vz u - 1) -> 1 / 10 ^ 10 <= Rabs (vx v + vz v - 1) ->
  plot_bicycle_geometry eig b pendulum centerOfMass true = Err UnboundLocalError.
Proof.
  intros eig b par pendulum com X parts I e0 e1 y u v NV GP PT [cx CX] [cz CZ] W ER YU YV MU MV.
  apply nominal_iff in NV. destruct NV as (nb & R & NB). unfold plot_bicycle_geometry. rewrite R. cbn [bind]. rewrite NB. cbn [bind]. rewrite GP. cbn [bind].
  destruct (read_pendulum_spec b) as (pen & -> & _). cbn [bind inertia_ellipses].
  assert (IE : inertia_ellipse eig par X None = Err UnboundLocalError); [|rewrite IE; reflexivity].
  unfold inertia_ellipse. rewrite PT. cbn [bind]. rewrite (axes_eval eig I _ ER). cbn [bind].
  unfold wheel_like in W. destruct (String.eqb X "F") eqn:XF; [discriminate|]. destruct (String.eqb X "R") eqn:XR; [discriminate|]. cbn [orb] in W.
  unfold is_front_wheel, smem. cbn [existsb]. rewrite XF, W. cbn [orb].
  assert (KX : forall k c, In (k, c) par -> dlook par k = Ok (pv par k)).
  { intros k c J. apply dlook_pv. unfold dkeys. apply in_map_iff. exists (k, c). auto. }
  rewrite (KX _ _ CX), (KX _ _ CZ). cbn [bind].
  assert (F : find_yrow (map snd (sort_by [(y, mk3 0 (-1) 0); (e0, u); (e1, v)])) None = None); [|rewrite F; reflexivity].
  assert (M : row_match (mk3 0 (-1) 0) = false).
  { unfold row_match, Rltb. cbn [vx vy vz]. destruct (Rlt_dec _ _) as [L|]; [|reflexivity]. exfalso. replace (0 - 0 + (-1 - 1) + (0 - 0)) with (- (2)) in L by ring. rewrite Rabs_Ropp, Rabs_right in L by lra. lra. }
  pose proof (sort_by_perm [(y, mk3 0 (-1) 0); (e0, u); (e1, v)]) as Q. apply perm3 in Q.
  pose proof (match_plane u YU MU) as RU. pose proof (match_plane v YV MV) as RV.
  destruct Q as [E|[E|[E|[E|[E|E]]]]]; rewrite E; cbn [map snd]; rewrite find3, M, RU, RV; reflexivity.
Qed.
Print Assumptions C65_minus_y.
(* When the geometry alone can be drawn *)
Theorem C65_geometry_defined : forall eig b par, nominal_values (db_bench b) par -> db_human b = None ->
  ((exists fig, plot_bicycle_geometry eig b false false false = Ok fig) <->
   (exists parts, get_parts_in_parameters par = Ok parts) /\
   (forall k, In k ["lam"; "c"; "w"; "rR"; "rF"] -> In k (dkeys par)) /\
   cos (pv par "lam") <> 0 /\
   (* the two corners of the frame on the steer axis are different *)
   (pv par "rF" - pv par "rR") * cos (pv par "lam") <> pv par "w" * sin (pv par "lam")).
Proof.
  intros eig b par NV HN.
  assert (CORNER : forall p1 p2, let w := pv par "w" in let c := pv par "c" in let lam := pv par "lam" in let rR := pv par "rR" in let rF := pv par "rF" in
     ahead w c lam (fst p1) (snd p1) = 0 -> ahead w c lam (fst p2) (snd p2) = 0 ->
     along lam (fst p1) (snd p1) = along lam 0 (- rR) -> along lam (fst p2) (snd p2) = along lam w (- rF) ->
     snd p1 - snd p2 = ((rF - rR) * cos lam - w * sin lam) * cos lam).
  { intros p1 p2 w c lam rR rF. unfold ahead, along. intros A1 A2 L1 L2. pose proof (sc1 lam) as S. set (sl := sin lam) in *. set (cl := cos lam) in *.
    assert (Z : forall x z s, (x - w - c) * cl - z * sl = 0 -> x * sl + z * cl = s -> z = s * cl - (w + c) * sl * cl).
    { intros x z s A L. transitivity ((sl * sl + cl * cl) * z); [rewrite S; ring|]. rewrite <- L. 
      assert (A' : x * cl = (w + c) * cl + z * sl) by lra. replace ((x * sl + z * cl) * cl) with (x * cl * sl + z * cl * cl) by ring. rewrite A'. ring. }
    rewrite (Z _ _ _ A1 L1), (Z _ _ _ A2 L2). ring. }
  split.
  - intros [fig H]. destruct (plot_inv _ _ _ _ _ _ _ NV H) as (nb & parts & pen & ells & g & rear & w & rF & frame & steer & pls & pshapes & coms & sf & _ & _ & GP & _ & _ & BL & _).
    split; [eauto|]. unfold bike_lines in BL. step_bind BL. step_bind BL. step_bind BL. step_bind BL.
    assert (X : exists pts, fundamental_geometry_plot_data par = Ok pts) by eauto. apply plot_data_defined in X. destruct X as [KS CN]. split; [exact KS|]. split; [exact CN|].
    apply plot_data_spec in E2. destruct E2 as (p1 & p2 & -> & A1 & A2 & L1 & L2). unfold index in BL. cbn [nth_error bind] in BL. step_bind BL. apply rdiv_ok in E2. destruct E2 as [NZ _].
    intros Q. apply NZ. rewrite (CORNER p1 p2 A1 A2 L1 L2). rewrite Q. ring.
  - intros ([parts GP] & KS & CN & NQ). apply nominal_iff in NV. destruct NV as (nb & R & NB). unfold plot_bicycle_geometry. rewrite R. cbn [bind]. rewrite NB. cbn [bind]. rewrite GP. cbn [bind].
    destruct (read_pendulum_spec b) as (pen & -> & _). cbn [bind].
    destruct (proj2 (plot_data_defined par) (conj KS CN)) as [pts FP]. unfold bike_lines. rewrite FP.
    rewrite !dlook_pv by (apply KS; cbn; tauto). cbn [bind].
    apply plot_data_spec in FP. destruct FP as (p1 & p2 & -> & A1 & A2 & L1 & L2). unfold index. cbn [nth_error bind].
    rewrite rdiv_eq. 2:{ rewrite (CORNER p1 p2 A1 A2 L1 L2). apply Rmult_integral_contrapositive_currified; [lra|exact CN]. }
    cbn [bind]. rewrite HN. assert (PLS : match pen with Some _ => if db_hasRider b then Ok [] else Ok [] | None => Ok [] end = Ok ([] : list (string * list (nat * list pt)))) by (destruct pen; [destruct (db_hasRider b)|]; reflexivity).
    rewrite PLS. cbn [bind mapM]. eauto.
Qed.
Print Assumptions C65_geometry_defined.

(* ---- the plotly version ---- *)
Definition lines_of (l : list shape) : list (list pt) := flat_map (fun s => match s with Poly p _ => [p] | _ => [] end) l.
Lemma plotly_inv eig b par pendulum com ie tr : nominal_values (db_bench b) par ->
  plot_bicycle_geometry_plotly eig b pendulum com ie = Ok tr ->
  exists nb parts pen ells g rear w rF frame steer pls coms body,
    remove_uncertainties (db_bench b) = Ok nb /\ numbers_of nb = Ok par /\
    get_parts_in_parameters par = Ok parts /\ read_pendulum b = Ok pen /\
    (if ie then inertia_ellipses eig par parts parts None else Ok []) = Ok ells /\
    bike_lines par = Ok (g, rear, w, rF, frame, steer) /\
    (match pen with
      | Some x => if db_hasRider b then Ok [] else if pendulum then pendulum_lines par x else Ok []
      | None => Ok [] end) = Ok pls /\
    (if com then plotly_mass_symbols par parts else Ok []) = Ok coms /\
    (match db_human b with
     | Some h => l <- stick (db_meas b) (db_bench b) (K2_end h) (K2_pos h) ;; _u <- stick (db_meas b) (db_bench b) (K2_pos h) (K1_pos h) ;; Ok [Trace "" l ""]
     | None => Ok [] end) = Ok body /\
    tr = (map (fun e : string * (pt * R * R * R) => let '(col, (c, wd, ht, a)) := e in
             Trace ("Inertia of " ++ col)%string (generate_ellipse_plot_data (fst c) (snd c) (cos a, sin a) (- sin a, cos a) ht wd 100) col) ells ++
      [Trace "Ground" g "lightgrey"; Trace "Rear wheel" (arc (snd rear) rear 0 (2 * PI)) "grey";
       Trace "Front wheel" (arc rF (w, rF) 0 (2 * PI)) "grey"; Trace "Bicycle" frame "black"; Trace "Steer axis" steer "dodgerblue"] ++
      map (fun l => Trace "Pendulum" l "") (concat (map (fun kl => map snd (snd kl)) pls)) ++ coms ++ body)%list.
Proof.
  intros NV H. apply nominal_iff in NV. destruct NV as (nb & R & NB). unfold plot_bicycle_geometry_plotly in H. rewrite R in H. cbn [bind] in H. rewrite NB in H. cbn [bind] in H.
  step_bind H. step_bind H. step_bind H. step_bind H. destruct x2 as [[[[[g rear] w] rF] frame] steer]. step_bind H. step_bind H. step_bind H.
  exists nb, x, x0, x1, g, rear, w, rF, frame, steer, x2, x3, x4.
  assert (FE : forall a c : list trace, Ok a = Ok c -> c = a) by congruence. apply FE in H. repeat (split; [first [assumption|reflexivity]|]). exact H.
Qed.
Lemma arc_circle r c t0 t1 q : In q (arc r c t0 t1) -> sqdist2 q c = r ^ 2.
Proof.
  unfold arc. intros I. apply in_map_iff in I. destruct I as (t & <- & _). unfold sqdist2. cbn [fst snd]. pose proof (sc1 t) as S.
  transitivity (r ^ 2 * (sin t * sin t + cos t * cos t)); [ring|rewrite S; ring].
Qed.
Lemma shapes_lines parts pls pshapes :
  mapM (fun kl => mapM (fun il => c <- part_color parts (fst kl) ;;
                       p0 <- index (snd il) 0 ;; Ok [Poly (snd il) c; Text p0 (nat_str (fst il + 1))]) (snd kl)) pls = Ok pshapes ->
  lines_of (concat (map (@concat shape) pshapes)) = concat (map (fun kl : string * list (nat * list pt) => map snd (snd kl)) pls).
Proof.
  assert (FM : forall l1 l2, lines_of (l1 ++ l2)%list = (lines_of l1 ++ lines_of l2)%list) by (intros; unfold lines_of; apply flat_map_app).
  revert pshapes. induction pls as [|[X l] pls IH]; intros pshapes H; cbn [mapM fst snd] in H; [assert (pshapes = []) by congruence; subst; reflexivity|].
  step_bind H. step_bind H. assert (pshapes = x :: x0) by congruence. subst pshapes. cbn [map concat fst snd]. rewrite FM, (IH _ E0). f_equal. clear - E FM.
  revert x E. induction l as [|[i p] l IH]; intros x E; cbn [mapM fst snd] in E; [assert (x = []) by congruence; subst; reflexivity|].
  step_bind E. step_bind E. assert (x = x0 :: x1) by congruence. subst x. step_bind E0. step_bind E0. assert (x0 = [Poly p x; Text x2 (nat_str (i + 1))]) by congruence. subst x0.
  cbn [concat map snd]. rewrite FM, (IH _ E1). reflexivity.
Qed.
Lemma arc_round r c t0 t1 u0 u1 : t0 = u0 -> t1 = u1 -> round_line 100 r c u0 u1 (arc r c t0 t1).
Proof.
  intros <- <-. unfold round_line, arc. split; [rewrite map_length; apply linspace_len|]. intros i q N. cbn zeta.
  assert (LT : (i < 100)%nat) by (assert (NN : nth_error (map (fun t => (r * cos t + fst c, r * sin t + snd c)) (linspace t0 t1 100)) i <> None) by congruence; apply nth_error_Some in NN; rewrite map_length, linspace_len in NN; exact NN).
  rewrite nth_error_map in N. destruct (nth_error (linspace t0 t1 100) i) as [t|] eqn:ET; [|discriminate]. cbn [option_map] in N.
  apply (nth_error_nth _ _ 0) in ET. rewrite linspace_nth in ET by lia. 
  assert (TT : t = t0 + (t1 - t0) * INR i / (INR 100 - 1)).
  { rewrite <- ET. replace (INR (100 - 1)) with (INR 100 - 1) by (rewrite minus_INR by lia; reflexivity). unfold Rdiv. ring. }
  rewrite <- TT. assert (q = (r * cos t + fst c, r * sin t + snd c)) as -> by congruence. f_equal; ring.
Qed.
Lemma symbol_traced par X : traced_mark par X (plotly_symbol (plot_centre par X) X ++ [note X (plot_centre par X)])%list.
Proof.
  unfold traced_mark. cbn zeta. unfold plotly_symbol, note, sRad. set (o := plot_centre par X). destruct o as [x y] eqn:O. cbn [fst snd app].
  exists (arc (3/100) (x, y) 0 (5/10 * PI)), (arc (3/100) (x, y) (5/10 * PI) PI), (arc (3/100) (x, y) PI (15/10 * PI)), (arc (3/100) (x, y) (15/10 * PI) (2 * PI)).
  split; [apply arc_round; lra|]. split; [apply arc_round; lra|]. split; [apply arc_round; lra|]. split; [apply arc_round; lra|]. reflexivity.
Qed.
Lemma plotly_symbols_spec par parts coms : plotly_mass_symbols par parts = Ok coms -> traced_marks par parts coms.
Proof.
  intros H. unfold plotly_mass_symbols in H. step_bind H. step_bind H. step_bind H. step_bind H. step_bind H. step_bind H. step_bind H.
  assert (FE : forall a c : list trace, Ok a = Ok c -> c = a) by congruence. apply FE in H.
  assert (PC : forall X c, part_color parts X = Ok c -> In X parts /\ c = X) by (intros X c C; unfold part_color in C; destruct (smem X parts) eqn:S; [apply smem_spec in S; split; [exact S|congruence]|discriminate]).
  apply PC in E1, E3. destruct E1 as [IF ->], E3 as [IR ->].
  assert (L : Forall2 (traced_mark par) (filter (fun X => negb (wheel_like X)) parts) x4).
  { assert (FF : filter not_wheel parts = filter (fun X => negb (wheel_like X)) parts).
    { apply filter_ext. intros X. unfold not_wheel, wheel_like. f_equal. cbn [smem existsb]. destruct (X =? "R")%string, (X =? "F")%string, (X =? "D")%string; reflexivity. }
    rewrite <- FF. assert (WL : forall X, In X (filter not_wheel parts) -> wheel_like X = false).
    { intros X I. rewrite FF in I. apply filter_In in I. destruct I as [_ I]. destruct (wheel_like X); [discriminate|reflexivity]. }
    clear - E4 WL PC FE. revert x4 E4. induction (filter not_wheel parts) as [|X l IH]; intros r M; cbn [mapM] in M; [assert (r = []) by congruence; subst; constructor|].
    step_bind M. step_bind M. step_bind E. step_bind E. apply place_centre in E1; [|apply WL; left; reflexivity]. subst x1. apply PC in E2. destruct E2 as [_ ->]. apply FE in E. subst x.
    assert (r = (plotly_symbol (plot_centre par X) X ++ [note X (plot_centre par X)])%list :: x0) by congruence. subst r. constructor; [apply symbol_traced|].
    apply IH; [intros Y I; apply WL; right; exact I|exact E0]. }
  assert (HH : In "H" parts /\ x5 = []).
  { destruct (smem "H" parts) eqn:S; [apply smem_spec in S; split; [exact S|congruence]|]. exfalso. step_bind E5. step_bind E5. apply PC in E3. destruct E3 as [E3 _]. apply smem_spec in E3. congruence. }
  destruct HH as [IH ->]. split; [exact IF|]. split; [exact IR|]. split; [exact IH|].
  exists ((plotly_symbol (plot_centre par "F") "F" ++ [note "F" (plot_centre par "F")]) :: (plotly_symbol (plot_centre par "R") "R" ++ [note "R" (plot_centre par "R")]) :: x4)%list.
  split; [constructor; [apply symbol_traced|constructor; [apply symbol_traced|exact L]]|]. rewrite H. rewrite app_nil_r. cbn [concat]. rewrite <- !app_assoc.
  apply dlook_inv in E, E0, E2. unfold plot_centre. cbn [String.eqb Ascii.eqb Bool.eqb orb]. unfold pv. rewrite E, E0, E2. reflexivity.
Qed.
(* The plotly figure has the same ground, frame, steer axis and pendulum lines, circles
   for the same wheels and marks for the same mass centres; of the rider it shows the
   lower leg only. *)
Theorem C65_plotly : forall eig b par pendulum centerOfMass inertiaEllipse fig tr,
  nominal_values (db_bench b) par -> plot_bicycle_geometry eig b pendulum centerOfMass inertiaEllipse = Ok fig ->
  plot_bicycle_geometry_plotly eig b pendulum centerOfMass inertiaEllipse = Ok tr ->
  exists before ground frame steer pens after before' rear front coms body,
    gf_shapes fig = (before ++ [Poly ground "black"; Circle (0, pv par "rR") (pv par "rR") "black"; Circle (pv par "w", pv par "rF") (pv par "rF") "black"; Poly frame "black"; Poly steer "black"] ++ pens ++ after)%list /\
    tr = (before' ++ [Trace "Ground" ground "lightgrey"; Trace "Rear wheel" rear "grey"; Trace "Front wheel" front "grey"; Trace "Bicycle" frame "black"; Trace "Steer axis" steer "dodgerblue"] ++
          map (fun l => Trace "Pendulum" l "") (lines_of pens) ++ coms ++ body)%list /\
    round_line 100 (pv par "rR") (0, pv par "rR") 0 (2 * PI) rear /\
    round_line 100 (pv par "rF") (pv par "w", pv par "rF") 0 (2 * PI) front /\
    (centerOfMass = false -> coms = []) /\
    (centerOfMass = true -> exists parts, get_parts_in_parameters par = Ok parts /\ traced_marks par parts coms) /\
    (forall h, db_human b = Some h -> exists p, bike_lengths p (db_meas b) (db_bench b) /\ body = [Trace "" (seg p (K2_end h) (K2_pos h)) ""]) /\
    (db_human b = None -> body = []).
Proof.
  intros eig b par pendulum com ie fig tr NV H T.
  destruct (plot_inv _ _ _ _ _ _ _ NV H) as (nb & parts & pen & ells & g & rear & w & rF & frame & steer & pls & pshapes & coms & sf & _ & _ & GP & RP & EE & BL & PL & PS & CM & SF & SH & _).
  destruct (plotly_inv _ _ _ _ _ _ _ NV T) as (nb' & parts' & pen' & ells' & g' & rear' & w' & rF' & frame' & steer' & pls' & coms' & body & _ & _ & GP' & RP' & EE' & BL' & PL' & CM' & BO & ET).
  assert (parts' = parts) by congruence. assert (pen' = pen) by congruence. subst parts' pen'. assert (pls' = pls) by congruence. subst pls'.
  rewrite BL in BL'. injection BL' as <- <- <- <- <- <-.
  destruct (bike_lines_spec _ _ _ _ _ _ _ BL) as (-> & -> & -> & _). cbn [snd] in *.
  do 11 eexists. split; [exact SH|]. split; [rewrite (shapes_lines _ _ _ PS); exact ET|].
  split; [apply arc_round; reflexivity|]. split; [apply arc_round; reflexivity|].
  split; [intros ->; congruence|]. split; [intros ->; exists parts; split; [exact GP|apply plotly_symbols_spec; exact CM']|]. split.
  - intros h EH. rewrite EH in BO. step_bind BO. step_bind BO. destruct (stick_lengths _ _ _ _ _ E) as [p L]. exists p. split; [exact L|].
    destruct (stick_spec _ _ _ _ _ _ L E) as [-> _]. congruence.
  - intros EH. rewrite EH in BO. congruence.
Qed.
Print Assumptions C65_plotly.
(* Refuted: that it can be made whenever the other figure can.  A benchmark set whose
   front frame has no mass entry of its own (a split fork) is drawn by the one and is a
   KeyError in the other. *)
Theorem C65_plotly_refuted : forall eig b par pendulum inertiaEllipse fig parts,
  nominal_values (db_bench b) par -> plot_bicycle_geometry eig b pendulum true inertiaEllipse = Ok fig ->
  get_parts_in_parameters par = Ok parts -> ~ In "H" parts ->
  plot_bicycle_geometry_plotly eig b pendulum true inertiaEllipse = Err (KeyError "H").
Proof.
  intros eig b par pendulum ie fig parts NV H GPP NH.
  destruct (plot_inv _ _ _ _ _ _ _ NV H) as (nb & parts' & pen & ells & g & rear & w & rF & frame & steer & pls & pshapes & coms & sf & R & NB & GP & RP & EE & BL & PL & PS & CM & SF & SH & _).
  assert (parts' = parts) by congruence. subst parts'.
  unfold plot_bicycle_geometry_plotly. rewrite R. cbn [bind]. rewrite NB. cbn [bind]. rewrite GP. cbn [bind]. rewrite RP. cbn [bind]. rewrite EE. cbn [bind]. rewrite BL. cbn [bind]. rewrite PL. cbn [bind].
  assert (Q : plotly_mass_symbols par parts = Err (KeyError "H")); [|rewrite Q; reflexivity].
  unfold mass_symbols in CM. unfold plotly_mass_symbols. step_bind CM. step_bind CM. step_bind CM. step_bind CM. step_bind CM. step_bind CM. step_bind CM.
  rewrite E, E0. cbn [bind]. rewrite E1. cbn [bind]. rewrite E2. cbn [bind]. rewrite E3. cbn [bind].
  assert (M : exists l', mapM (fun part => o <- place par part ;; c <- part_color parts part ;; Ok (plotly_symbol o c ++ [note part o])%list) (filter not_wheel parts) = Ok l').
  { clear - E4. revert x4 E4. generalize (filter not_wheel parts) as l. induction l as [|X l IH]; intros r M; cbn [mapM] in *; [eauto|].
    step_bind M. step_bind M. step_bind E. step_bind E. rewrite E1. cbn [bind]. rewrite E2. cbn [bind]. destruct (IH _ E0) as [l' ->]. cbn [bind]. eauto. }
  destruct M as [l' ->]. cbn [bind].
  assert (SM : smem "H" parts = false) by (destruct (smem "H" parts) eqn:S; [apply smem_spec in S; contradiction|reflexivity]). rewrite SM in *.
  step_bind E5. rewrite E6. cbn [bind]. unfold part_color. rewrite SM. reflexivity.
Qed.
Print Assumptions C65_plotly_refuted.
(* Refuted: that the two figures show the same inertia ellipse.  For a wheel both are
   circles about the hub, but the plotly one has twice the radius. *)
Theorem C65_plotly_ellipse_refuted : forall eig b par pendulum centerOfMass fig tr X pts col,
  nominal_values (db_bench b) par -> plot_bicycle_geometry eig b pendulum centerOfMass true = Ok fig ->
  plot_bicycle_geometry_plotly eig b pendulum centerOfMass true = Ok tr ->
  wheel_like X = true -> axes_returned eig par X -> Ixx_of par X < Iyy_of par X ->
  In (Trace ("Inertia of " ++ X) pts col) tr ->
  exists c wd ht ang, In (Ell c wd ht ang X) (gf_shapes fig) /\
    (forall q, on_ellipse c wd ht ang q -> sqdist2 q c = (Ixx_of par X / 4) ^ 2) /\
    (forall q, In q pts -> sqdist2 q c = (Ixx_of par X / 2) ^ 2).
Proof.
  intros eig b par pendulum com fig tr X pts col NV H T W AR XY I.
  destruct (plot_inv _ _ _ _ _ _ _ NV H) as (nb & parts & pen & ells & g & rear & w & rF & frame & steer & pls & pshapes & coms & sf & _ & _ & GP & RP & EE & BL & PL & PS & CM & SF & SH & _).
  destruct (plotly_inv _ _ _ _ _ _ _ NV T) as (nb' & parts' & pen' & ells' & g' & rear' & w' & rF' & frame' & steer' & pls' & coms' & body & _ & _ & GP' & RP' & EE' & BL' & PL' & CM' & BO & ET).
  assert (parts' = parts) by congruence. subst parts'. assert (ells' = ells) by congruence. subst ells'.
  assert (IN : exists c wd ht ang, In (X, (c, wd, ht, ang)) ells /\ pts = generate_ellipse_plot_data (fst c) (snd c) (cos ang, sin ang) (- sin ang, cos ang) ht wd 100).
  { rewrite ET in I. apply in_app_or in I. destruct I as [I|I].
    - apply in_map_iff in I. destruct I as ([Y [[[c wd] ht] a]] & E & I). injection E as EY EP _. subst Y. exists c, wd, ht, a. split; [exact I|]. symmetry. exact EP.
    - exfalso. apply in_app_or in I. destruct I as [I|I]; [cbn [In] in I; repeat (destruct I as [I|I]; [discriminate|]); destruct I|].
      apply in_app_or in I. destruct I as [I|I]; [apply in_map_iff in I; destruct I as (l & E & _); discriminate|].
      set (nm := fun t => match t with Trace s _ _ => (String.eqb s "" || String.eqb s "COM")%bool | Note _ _ => true end).
      assert (NN : nm (Trace ("Inertia of " ++ X) pts col) = true); [|discriminate].
      assert (PSY : forall c cl t, In t (plotly_symbol c cl) -> nm t = true) by (intros c cl t J; unfold plotly_symbol in J; cbn [In] in J; intuition (subst; reflexivity)).
      assert (PSN : forall c cl s c' t, In t (plotly_symbol c cl ++ [note s c'])%list -> nm t = true).
      { intros c cl s c' t J. apply in_app_or in J. destruct J as [J|[<-|[]]]; [eapply PSY; exact J|reflexivity]. }
      apply in_app_or in I. destruct I as [I|I].
      + destruct com; [|assert (coms' = []) by congruence; subst; destruct I]. unfold plotly_mass_symbols in CM'.
        step_bind CM'. step_bind CM'. step_bind CM'. step_bind CM'. step_bind CM'. step_bind CM'. step_bind CM'.
        assert (FE : forall a c : list trace, Ok a = Ok c -> c = a) by congruence. apply FE in CM'. subst coms'.
        apply in_app_or in I. destruct I as [I|I]; [eapply PSY; exact I|]. apply in_app_or in I. destruct I as [[<-|[]]|I]; [reflexivity|].
        apply in_app_or in I. destruct I as [I|I]; [eapply PSY; exact I|]. apply in_app_or in I. destruct I as [[<-|[]]|I]; [reflexivity|].
        apply in_app_or in I. destruct I as [I|I].
        * apply in_concat in I. destruct I as (l & L & I). apply (mapM_in _ _ _ _ E4) in L. destruct L as (Y & _ & L). step_bind L. step_bind L. apply FE in L. subst l. eapply PSN; exact I.
        * destruct (smem "H" parts); [assert (x5 = []) by congruence; subst; destruct I|]. step_bind E5. step_bind E5. apply FE in E5. subst x5. eapply PSN; exact I.
      + destruct (db_human b); [|assert (body = []) by congruence; subst; destruct I]. step_bind BO. step_bind BO. assert (body = [Trace "" x ""]) by congruence. subst body. destruct I as [<-|[]]. reflexivity. }
  destruct IN as (c & wd & ht & ang & IE & EP). exists c, wd, ht, ang.
  assert (IF : In (Ell c wd ht ang X) (gf_shapes fig)).
  { rewrite SH. apply in_or_app. left. apply in_map_iff. exists (X, (c, wd, ht, ang)). auto. }
  split; [exact IF|].
  assert (IZ : Ixz_of par X = 0) by (unfold Ixz_of; rewrite W; reflexivity). assert (ZX : Izz_of par X = Ixx_of par X) by (unfold Izz_of; rewrite W; reflexivity).
  destruct (C65_ellipse_aligned _ _ _ _ _ _ _ _ _ _ _ _ NV H IF AR IZ XY ltac:(rewrite ZX; exact XY)) as (_ & WH). specialize (WH W). subst ht.
  assert (EW : wd = Ixx_of par X / 2).
  { destruct (ellipses_in _ _ _ _ _ _ _ _ EE IE) as (y0 & y1 & IE'). 
    destruct (ellipse_rows _ _ _ _ _ _ _ _ _ [(Ixx_of par X, mk3 1 0 0); (Izz_of par X, mk3 0 0 1); (Iyy_of par X, mk3 0 1 0)] 2%nat (Ixx_of par X) (Izz_of par X) (mk3 1 0 0) (mk3 0 0 1) IE') as (_ & _ & _ & EW & _).
    - intros T' PT. rewrite (sorted_axes eig par X T' AR PT). unfold sort_by. cbn [fold_right insert_by fst]. rewrite (proj2 (Rltb_spec _ _)) by (rewrite ZX; exact XY). cbn [insert_by fst]. unfold Rltb. destruct (Rlt_dec (Izz_of par X) (Ixx_of par X)); [lra|reflexivity].
    - cbn [map snd]. rewrite find3, match_y. reflexivity.
    - reflexivity.
    - rewrite EW, ZX. reflexivity. }
  rewrite <- EW in *. replace (Ixx_of par X / 4) with (wd / 2) by (rewrite EW; field).
  split; intros q Q.
  - destruct Q as [t ->]. set (th := ang * PI / 180). unfold sqdist2, plus2, times2. cbn [fst snd]. pose proof (sc1 t) as S1. pose proof (sc1 th) as S2.
    transitivity ((wd / 2) ^ 2 * ((sin t * sin t + cos t * cos t) * (sin th * sin th + cos th * cos th))); [ring|rewrite S1, S2; ring].
  - rewrite EP in Q. unfold generate_ellipse_plot_data in Q. apply in_map_iff in Q. destruct Q as (t & <- & _). unfold sqdist2. cbn [fst snd]. pose proof (sc1 t) as S1. pose proof (sc1 ang) as S2.
    transitivity (wd ^ 2 * ((sin t * sin t + cos t * cos t) * (sin ang * sin ang + cos ang * cos ang))); [ring|rewrite S1, S2; ring].
Qed.
Print Assumptions C65_plotly_ellipse_refuted.

(* ---- a bicycle that is drawn ---- *)
Lemma ellipse_defined65 eig par X yrow I axes c k e0 e1 u v : part_inertia_tensor par X = Ok I -> principal_axes eig I = Ok axes ->
  (if String.eqb X "R" then rR <- dlook par "rR" ;; Ok (0, rR)
   else if is_front_wheel X then w <- dlook par "w" ;; rF <- dlook par "rF" ;; Ok (w, rF)
   else x <- dlook par ("x" ++ X) ;; z <- dlook par ("z" ++ X) ;; Ok (x, - z)) = Ok c ->
  find_yrow (map snd axes) yrow = Some k -> delete_nth k axes = [(e0, u); (e1, v)] -> 0 < e0 -> 0 < e1 -> Rabs (vx u) <= 1 ->
  exists e, inertia_ellipse eig par X yrow = Ok (Some k, e).
Proof.
  intros PT AX CE FY DN P0 P1 AB. unfold inertia_ellipse. rewrite PT. cbn [bind]. rewrite AX. cbn [bind]. rewrite CE. cbn [bind]. rewrite FY, DN. unfold index. cbn [nth_error bind fst snd].
  destruct (proj2 (npsqrt_defined e0)) as [s0 S0]; [lra|]. destruct (proj2 (npsqrt_defined e1)) as [s1 S1]; [lra|]. rewrite S0, S1. cbn [bind].
  apply PDraw.npsqrt_ok in S0, S1. destruct S0 as [A0 B0], S1 as [A1 B1].
  rewrite !rdiv_eq by (intros Z; subst; cbn in *; lra). cbn [bind]. rewrite (proj2 (racos_ok (vx u) (acos (vx u)))) by auto. cbn [bind]. eauto.
Qed.
Definition uf (x : R) : mval := MScalar (SUfloat x (1/100)).
Definition bench65 : dict mval :=
  [("rR", uf (1/2)); ("rF", uf (2/5)); ("w", uf 1); ("c", uf (1/10)); ("lam", MScalar (SFloat 0)); ("mB", uf 10); ("xB", uf (3/10)); ("zB", uf (-1));
   ("IBxx", uf 2); ("IBxz", uf 1); ("IByy", uf 4); ("IBzz", uf 2); ("mF", uf 2); ("IFxx", uf 1); ("IFyy", uf 2); ("mR", uf 2); ("IRxx", uf 1); ("IRyy", uf 2); ("xH", uf 1); ("zH", uf (-1))].
Definition par65 : dict R :=
  [("rR", 1/2); ("rF", 2/5); ("w", 1); ("c", 1/10); ("lam", 0); ("mB", 10); ("xB", 3/10); ("zB", -1);
   ("IBxx", 2); ("IBxz", 1); ("IByy", 4); ("IBzz", 2); ("mF", 2); ("IFxx", 1); ("IFyy", 2); ("mR", 2); ("IRxx", 1); ("IRyy", 2); ("xH", 1); ("zH", -1)].
(* sg = 1: the axis of the smaller moment is returned pointing up; sg = -1: down *)
Definition eig65 (sg : R) (I : mat3) : res (vec3 * mat3) :=
  if Req_EM_T (vz (r1 I)) 0 then Ok (mk3 (vx (r1 I)) (vy (r2 I)) (vz (r3 I)), m3_T (mk33 (mk3 1 0 0) (mk3 0 1 0) (mk3 0 0 1)))
  else Ok (mk3 1 4 3, m3_T (mk33 (mk3 (sg / sqrt 2) 0 (- sg / sqrt 2)) (mk3 0 1 0) (mk3 (/ sqrt 2) 0 (/ sqrt 2)))).
Definition meas65 : dict mval := [("hbb", uf 1); ("lcs", uf 1); ("lsp", uf (1/4)); ("lst", uf (3/4)); ("lamst", uf 1)].
Definition human65 : human_pos := mkhp (mk3 0 1 (-1)) (mk3 0 1 0) (mk3 0 0 0) (mk3 0 0 1) (mk3 0 (-1) 1) (mk3 0 (-1) 0) (mk3 0 0 2).
Definition ulist (l : list R) : list scalar := map (fun x => SUfloat x (1/1000)) l.
Definition bike65 : drawn_bike := mkdb bench65 meas65 (Some ([("B", ulist [1; -2])], [("B", ulist [0; 1])], [("B", ulist [3; 4])])) false None.
Definition ridden65 : drawn_bike := mkdb bench65 meas65 None true (Some human65).
Lemma nominal65 : nominal_values bench65 par65.
Proof. unfold nominal_values, bench65, par65, uf. repeat (apply Forall2_cons; [cbn [fst snd]; split; [reflexivity|first [right; eexists; reflexivity|left; reflexivity]]|]). apply Forall2_nil. Qed.
Lemma sqrt2_pos : 0 < sqrt 2. Proof. apply sqrt_lt_R0. lra. Qed.
Lemma sqrt2_sq : sqrt 2 * sqrt 2 = 2. Proof. apply sqrt_sqrt. lra. Qed.
Lemma inv_sqrt2 : / sqrt 2 * / sqrt 2 = 1 / 2.
Proof. rewrite <- Rinv_mult, sqrt2_sq. field. Qed.
Lemma splits65 sg : sg = 1 \/ sg = -1 -> eig_splits (eig65 sg) par65 "B" 1 3 (mk3 (sg / sqrt 2) 0 (- sg / sqrt 2)) (mk3 (/ sqrt 2) 0 (/ sqrt 2)).
Proof.
  intros SG. exists (mk33 (mk3 2 0 1) (mk3 0 4 0) (mk3 1 0 2)), [(1, mk3 (sg / sqrt 2) 0 (- sg / sqrt 2)); (4, mk3 0 1 0); (3, mk3 (/ sqrt 2) 0 (/ sqrt 2))].
  pose proof sqrt2_pos as SP. pose proof inv_sqrt2 as IS. unfold Rdiv. set (r := / sqrt 2) in *.
  split; [reflexivity|]. split.
  { unfold eig_returns, eig65. cbn [vz r1 fst snd]. destruct (Req_EM_T 1 0); [lra|]. reflexivity. }
  split. { change (Iyy_of par65 "B") with 4. apply perm_swap. }
  change (Ixx_of par65 "B") with 2. assert (S2 : sg * sg = 1) by (destruct SG; subst; lra).
  split; [|split].
  - unfold plane_axis, sqnorm. change (Ixx_of par65 "B") with 2. change (Ixz_of par65 "B") with 1. change (Izz_of par65 "B") with 2. cbn [vx vy vz]. repeat split; try ring.
    transitivity (2 * (sg * sg) * (r * r)); [ring|]. rewrite S2, IS. field.
  - unfold plane_axis, sqnorm. change (Ixx_of par65 "B") with 2. change (Ixz_of par65 "B") with 1. change (Izz_of par65 "B") with 2. cbn [vx vy vz]. repeat split; try ring.
    transitivity (2 * (r * r)); [ring|]. rewrite IS. field.
  - cbn [vx vz]. replace (sg * r * r - r * (- sg * r)) with (2 * sg * (r * r)) by ring. rewrite IS. destruct SG; subst; lra.
Qed.
Lemma margins65 sg : sg = 1 \/ sg = -1 -> 1 / 10 ^ 10 <= Rabs (vx (mk3 (sg / sqrt 2) 0 (- sg / sqrt 2)) + vz (mk3 (sg / sqrt 2) 0 (- sg / sqrt 2)) - 1) /\
  1 / 10 ^ 10 <= Rabs (vx (mk3 (/ sqrt 2) 0 (/ sqrt 2)) + vz (mk3 (/ sqrt 2) 0 (/ sqrt 2)) - 1) /\ Rabs (sg / sqrt 2) <= 1.
Proof.
  intros SG. pose proof sqrt2_pos as SP. pose proof inv_sqrt2 as IS. assert (RP : 0 < / sqrt 2) by (apply Rinv_0_lt_compat; exact SP). unfold Rdiv. cbn [vx vz]. set (r := / sqrt 2) in *.
  assert (RB : 7/10 < r < 8/10) by (split; apply Rnot_le_lt; intros L; [assert (r * r <= 7/10 * (7/10)) by (apply Rmult_le_compat; lra)|assert (8/10 * (8/10) <= r * r) by (apply Rmult_le_compat; lra)]; lra).
  repeat split.
  - replace (sg * r + - sg * r - 1) with (- (1)) by ring. rewrite Rabs_Ropp, Rabs_R1. lra.
  - rewrite Rabs_right by lra. lra.
  - destruct SG; subst; [rewrite Rabs_right by lra|rewrite Rabs_left1 by lra]; lra.
Qed.
Lemma diag65 sg X : X = "F" \/ X = "R" -> axes_returned (eig65 sg) par65 X.
Proof.
  intros [-> | ->] I PT; cbn in PT; injection PT as <-; unfold eig_returns, eig65; cbn [vz r1 r2 r3 vx vy fst snd]; (destruct (Req_EM_T 0 0); [reflexivity|lra]).
Qed.
Lemma ellipses65 sg : sg = 1 \/ sg = -1 -> exists es, inertia_ellipses (eig65 sg) par65 ["B"; "F"; "R"] ["B"; "F"; "R"] None = Ok es.
Proof.
  intros SG. destruct (splits65 sg SG) as (I & l & PT & ER & PM & PU & PV & ID). destruct (margins65 sg SG) as (M1 & M2 & M3).
  destruct (split_rows (eig65 sg) I l _ 1 3 _ _ None ER PM) as (axes & k & AX & FY & DN); [lra|apply match_plane; [reflexivity|exact M1]|apply match_plane; [reflexivity|exact M2]|].
  cbn [inertia_ellipses]. destruct (ellipse_defined65 (eig65 sg) par65 "B" None I axes (3/10, - (-1)) k 1 3 _ _ PT AX eq_refl FY DN) as [e E]; [lra|lra|exact M3|]. rewrite E. cbn [bind fst].
  assert (WH : forall X c y, X = "F" \/ X = "R" ->
    (if String.eqb X "R" then rR <- dlook par65 "rR" ;; Ok (0, rR)
     else if is_front_wheel X then w <- dlook par65 "w" ;; rF <- dlook par65 "rF" ;; Ok (w, rF)
     else x <- dlook par65 ("x" ++ X) ;; z <- dlook par65 ("z" ++ X) ;; Ok (x, - z)) = Ok c -> exists e, inertia_ellipse (eig65 sg) par65 X y = Ok (Some 2%nat, e)).
  { intros X c y HX CE. assert (PTX : exists T, part_inertia_tensor par65 X = Ok T) by (destruct HX; subst; eexists; reflexivity). destruct PTX as [T PTX].
    apply (ellipse_defined65 (eig65 sg) par65 X y T [(1, mk3 1 0 0); (1, mk3 0 0 1); (2, mk3 0 1 0)] c 2%nat 1 1 (mk3 1 0 0) (mk3 0 0 1)); try assumption; try lra; try reflexivity.
    - rewrite (sorted_axes _ _ _ _ (diag65 sg X HX) PTX). replace (Ixx_of par65 X) with 1 by (destruct HX; subst; reflexivity). replace (Iyy_of par65 X) with 2 by (destruct HX; subst; reflexivity). replace (Izz_of par65 X) with 1 by (destruct HX; subst; reflexivity).
      unfold sort_by. cbn [fold_right insert_by fst]. rewrite (proj2 (Rltb_spec _ _)) by lra. cbn [insert_by fst]. unfold Rltb. destruct (Rlt_dec 1 1); [lra|reflexivity].
    - cbn [map snd]. rewrite find3, match_y. reflexivity.
    - cbn [vx]. rewrite Rabs_R1. lra. }
  destruct (WH "F" (1, 2/5) (Some k) ltac:(auto) eq_refl) as [eF EF]. destruct (WH "R" (0, 1/2) (Some 2%nat) ltac:(auto) eq_refl) as [eR ER'].
  cbn [part_color]. unfold part_color. cbn [smem existsb]. rewrite EF. cbn [bind fst]. rewrite ER'. cbn [bind]. eexists. reflexivity.
Qed.
Lemma bike_lines65 : exists bl, bike_lines par65 = Ok bl.
Proof.
  unfold bike_lines. destruct (proj2 (plot_data_defined par65)) as [pts FP].
  { split; [intros k I; cbn in I; cbn; tauto|]. change (pv par65 "lam") with 0. rewrite cos_0. lra. }
  rewrite FP. apply plot_data_spec in FP. destruct FP as (p1 & p2 & -> & A1 & A2 & L1 & L2).
  change (dlook par65 "rR") with (Ok (1/2)). change (dlook par65 "w") with (Ok 1). change (dlook par65 "rF") with (Ok (2/5)). cbn [bind]. unfold index. cbn [nth_error bind].
  unfold along in L1, L2. change (pv par65 "lam") with 0 in *. change (pv par65 "w") with 1 in *. change (pv par65 "rR") with (1/2) in *. change (pv par65 "rF") with (2/5) in *. rewrite sin_0, cos_0 in *.
  rewrite rdiv_eq by lra. cbn [bind]. eauto.
Qed.
Example C65_drawn : forall sg, sg = 1 \/ sg = -1 -> exists fig, plot_bicycle_geometry (eig65 sg) bike65 true true true = Ok fig.
Proof.
  intros sg SG. destruct (proj2 (nominal_iff _ _) nominal65) as (nb & R & NB). unfold plot_bicycle_geometry. cbn [bike65 db_bench]. rewrite R. cbn [bind]. rewrite NB. cbn [bind].
  change (get_parts_in_parameters par65) with (Ok ["B"; "F"; "R"]). cbn [bind].
  change (read_pendulum bike65) with (Ok (Some ([("B", [1; -2])], [("B", [0; 1])], [("B", [3; 4])]))). cbn [bind].
  destruct (ellipses65 sg SG) as [es ->]. cbn [bind]. destruct bike_lines65 as [[[[[[g rear] w] rF] frame] steer] ->]. cbn [bind db_hasRider bike65 db_human].
  eexists. reflexivity.
Qed.
Example C65_ridden : exists fig, plot_bicycle_geometry (eig65 1) ridden65 true true false = Ok fig.
Proof.
  destruct (proj2 (nominal_iff _ _) nominal65) as (nb & RU & NB). unfold plot_bicycle_geometry. cbn [ridden65 db_bench]. rewrite RU. cbn [bind]. rewrite NB. cbn [bind].
  change (get_parts_in_parameters par65) with (Ok ["B"; "F"; "R"]). cbn [bind]. change (read_pendulum ridden65) with (@Ok (option (dict (list R) * dict (list R) * dict (list R))) None). cbn [bind].
  destruct bike_lines65 as [[[[[[g rear] w] rF] frame] steer] ->]. cbn [bind db_hasRider ridden65 db_human db_meas db_bench].
  change (mass_symbols par65 ["B"; "F"; "R"]) with (Ok (centre_marks par65 ["B"; "F"; "R"])). cbn [bind mapM].
  assert (Y : forall v, exists r, yeadon_vec_to_bicycle_vec v meas65 bench65 = Ok r).
  { intros v. eexists. apply (vec_conv v meas65 bench65 _ _ _ eq_refl RU). exists (mkrp 0 0 0 0 0 0 0 0 0 1 1 (1/2) 0 (1/4) (3/4) 1 0 0 0 0).
    split; [|split; [unfold chain_stay_ok; cbn [r_R h_bb l_cs]; lra|reflexivity]]. unfold bike_lengths, holds. repeat split; right; eexists; reflexivity. }
  assert (ST : forall v w, exists l, stick meas65 bench65 v w = Ok l).
  { intros v w'. unfold stick. destruct (Y v) as [a ->]. destruct (Y w') as [a' ->]. cbn [bind]. eauto. }
  assert (SF : exists sf, stick_figure meas65 bench65 human65 = Ok sf).
  { unfold stick_figure. cbn [mapM fst snd]. repeat match goal with |- context [stick meas65 bench65 ?a ?b] => destruct (ST a b) as [? ->]; cbn [bind] end. eauto. }
  destruct SF as [sf ->]. cbn [bind]. eauto.
Qed.
(* hence the frame's ellipse is right for one sign and wrong for the other *)
Example C65_both_orientations : forall sg fig c wd ht ang, sg = 1 \/ sg = -1 -> plot_bicycle_geometry (eig65 sg) bike65 true true true = Ok fig ->
  In (Ell c wd ht ang "B") (gf_shapes fig) -> ((exists k, forall q, on_ellipse c wd ht ang q <-> momental par65 "B" k q) <-> sg = -1).
Proof.
  intros sg fig c wd ht ang SG H I. destruct (margins65 sg SG) as (M1 & M2 & _). pose proof sqrt2_pos as SP. assert (RP : 0 < / sqrt 2) by (apply Rinv_0_lt_compat; exact SP).
  destruct SG as [-> | ->]; split; intros Q; try reflexivity; try lra.
  - exfalso. revert Q. apply (C65_ellipse_orientation_refuted _ bike65 _ _ _ _ _ _ _ _ _ _ 1 3 _ _ nominal65 H I (splits65 1 (or_introl eq_refl))); try assumption; try lra.
    + change (Ixz_of par65 "B") with 1. lra.
    + cbn [vz]. unfold Rdiv. lra.
  - destruct (C65_ellipse _ bike65 _ _ _ _ _ _ _ _ _ _ 1 3 _ _ nominal65 H I (splits65 (-1) (or_intror eq_refl))) as (k & KP & A & _); try assumption; try lra.
    exists k. apply A. cbn [vz]. unfold Rdiv. lra.
Qed.
(* and the plotly figure of this bicycle, whose fork is split, fails *)
Example C65_plotly_fails : plot_bicycle_geometry_plotly (eig65 1) bike65 true true true = Err (KeyError "H").
Proof.
  destruct (C65_drawn 1 (or_introl eq_refl)) as [fig F]. eapply (C65_plotly_refuted _ bike65); [exact nominal65|exact F|reflexivity|cbn; intuition discriminate].
Qed.
(* with a front frame of its own both are drawn, pendulum lines and mass centres too *)
Definition bike65h : drawn_bike := mkdb (bench65 ++ [("mH", uf 3)])%list meas65 (Some ([("B", ulist [1; -2])], [("B", ulist [0; 1])], [("B", ulist [3; 4])])) false None.
Example C65_plotly_drawn : nominal_values (db_bench bike65h) (par65 ++ [("mH", 3)])%list /\
  exists fig tr, plot_bicycle_geometry (eig65 1) bike65h true true false = Ok fig /\ plot_bicycle_geometry_plotly (eig65 1) bike65h true true false = Ok tr.
Proof.
  assert (NV : nominal_values (db_bench bike65h) (par65 ++ [("mH", 3)])%list) by (apply Forall2_app; [exact nominal65|constructor; [split; [reflexivity|right; eexists; reflexivity]|constructor]]).
  split; [exact NV|]. destruct (proj2 (nominal_iff _ _) NV) as (nb & RU & NB).
  assert (BL : exists bl, bike_lines (par65 ++ [("mH", 3)])%list = Ok bl) by exact bike_lines65.
  destruct BL as [[[[[[g rear] w] rF] frame] steer] BL].
  eexists. eexists. unfold plot_bicycle_geometry, plot_bicycle_geometry_plotly. rewrite RU. cbn [bind]. rewrite NB. cbn [bind].
  change (get_parts_in_parameters (par65 ++ [("mH", 3)])%list) with (Ok ["B"; "F"; "R"; "H"]). cbn [bind].
  change (read_pendulum bike65h) with (Ok (Some ([("B", [1; -2])], [("B", [0; 1])], [("B", [3; 4])]))). cbn [bind]. rewrite BL. cbn [bind bike65h db_hasRider db_human]. split; reflexivity.
Qed.
(* a solver that returns -y *)
Definition eig65m (I : mat3) : res (vec3 * mat3) :=
  Ok (mk3 4 1 3, m3_T (mk33 (mk3 0 (-1) 0) (mk3 (1 / sqrt 2) 0 (- (1) / sqrt 2)) (mk3 (/ sqrt 2) 0 (/ sqrt 2)))).
Example C65_minus_y_example : plot_bicycle_geometry eig65m bike65 true true true = Err UnboundLocalError.
Proof.
  destruct (margins65 1 (or_introl eq_refl)) as (M1 & M2 & _).
  apply (C65_minus_y eig65m bike65 par65 true true "B" ["F"; "R"] (mk33 (mk3 2 0 1) (mk3 0 4 0) (mk3 1 0 2)) 1 3 4
           (mk3 (1 / sqrt 2) 0 (- (1) / sqrt 2)) (mk3 (/ sqrt 2) 0 (/ sqrt 2))); try reflexivity; try assumption; try (exact nominal65).
  - exists (3/10). cbn. tauto.
  - exists (-1). cbn. tauto.
Qed.
(* a frame without product of inertia and Izz < Iyy < Ixx *)
Definition bench65a : dict mval := dset (dset (dset (dset bench65 "IBxx" (uf 3)) "IBxz" (uf 0)) "IByy" (uf 2)) "IBzz" (uf 1).
Definition par65a : dict R := dset (dset (dset (dset par65 "IBxx" 3) "IBxz" 0) "IByy" 2) "IBzz" 1.
Definition bike65a : drawn_bike := mkdb bench65a meas65 None false None.
Example C65_aligned_wrong : exists fig c wd ht ang, plot_bicycle_geometry (eig65 1) bike65a false false true = Ok fig /\
  In (Ell c wd ht ang "B") (gf_shapes fig) /\ ~ exists k, forall q, on_ellipse c wd ht ang q <-> momental par65a "B" k q.
Proof.
  assert (NV : nominal_values bench65a par65a).
  { unfold nominal_values, bench65a, par65a, bench65, par65, uf. cbn [dset String.eqb Ascii.eqb Bool.eqb]. repeat (apply Forall2_cons; [cbn [fst snd]; split; [reflexivity|first [right; eexists; reflexivity|left; reflexivity]]|]). apply Forall2_nil. }
  assert (AR : forall X, In X ["B"; "F"; "R"] -> axes_returned (eig65 1) par65a X).
  { intros X HX I PT. cbn [In] in HX. destruct HX as [<-|[<-|[<-|[]]]]; cbn in PT; injection PT as <-; unfold eig_returns, eig65; cbn [vz r1 r2 r3 vx vy fst snd]; (destruct (Req_EM_T 0 0); [reflexivity|lra]). }
  assert (ES : exists e es, inertia_ellipses (eig65 1) par65a ["B"; "F"; "R"] ["B"; "F"; "R"] None = Ok (("B", e) :: es)).
  { cbn [inertia_ellipses].
    destruct (ellipse_defined65 (eig65 1) par65a "B" None (mk33 (mk3 3 0 0) (mk3 0 2 0) (mk3 0 0 1)) [(1, mk3 0 0 1); (2, mk3 0 1 0); (3, mk3 1 0 0)] (3/10, - (-1)) 2%nat 1 2 (mk3 0 0 1) (mk3 0 1 0)) as [e E]; try reflexivity; try lra.
    - rewrite (sorted_axes _ par65a "B" _ (AR "B" ltac:(cbn; tauto)) eq_refl). change (Ixx_of par65a "B") with 3. change (Iyy_of par65a "B") with 2. change (Izz_of par65a "B") with 1.
      unfold sort_by. cbn [fold_right insert_by fst]. rewrite (proj2 (Rltb_spec 1 2)) by lra. cbn [insert_by fst]. rewrite (proj2 (Rltb_spec 1 3)) by lra. rewrite (proj2 (Rltb_spec 2 3)) by lra. reflexivity.
    - cbn [map snd]. rewrite find3, match_x. reflexivity.
    - cbn [vx]. rewrite Rabs_R0. lra.
    - rewrite E. cbn [bind fst]. unfold part_color. cbn [smem existsb].
      assert (WH : forall X c y, X = "F" \/ X = "R" ->
        (if String.eqb X "R" then rR <- dlook par65a "rR" ;; Ok (0, rR)
         else if is_front_wheel X then w <- dlook par65a "w" ;; rF <- dlook par65a "rF" ;; Ok (w, rF)
         else x <- dlook par65a ("x" ++ X) ;; z <- dlook par65a ("z" ++ X) ;; Ok (x, - z)) = Ok c -> exists e, inertia_ellipse (eig65 1) par65a X y = Ok (Some 2%nat, e)).
      { intros X c y HX CE. assert (PTX : exists T, part_inertia_tensor par65a X = Ok T) by (destruct HX; subst; eexists; reflexivity). destruct PTX as [T PTX].
        apply (ellipse_defined65 (eig65 1) par65a X y T [(1, mk3 1 0 0); (1, mk3 0 0 1); (2, mk3 0 1 0)] c 2%nat 1 1 (mk3 1 0 0) (mk3 0 0 1)); try assumption; try lra; try reflexivity.
        - rewrite (sorted_axes _ _ _ _ (AR X ltac:(destruct HX; subst; cbn; tauto)) PTX). replace (Ixx_of par65a X) with 1 by (destruct HX; subst; reflexivity). replace (Iyy_of par65a X) with 2 by (destruct HX; subst; reflexivity). replace (Izz_of par65a X) with 1 by (destruct HX; subst; reflexivity).
          unfold sort_by. cbn [fold_right insert_by fst]. rewrite (proj2 (Rltb_spec _ _)) by lra. cbn [insert_by fst]. unfold Rltb. destruct (Rlt_dec 1 1); [lra|reflexivity].
        - cbn [map snd]. rewrite find3, match_y. reflexivity.
        - cbn [vx]. rewrite Rabs_R1. lra. }
      destruct (WH "F" (1, 2/5) (Some 2%nat) ltac:(auto) eq_refl) as [eF EF]. destruct (WH "R" (0, 1/2) (Some 2%nat) ltac:(auto) eq_refl) as [eR ER'].
      rewrite EF. cbn [bind fst]. rewrite ER'. cbn [bind snd]. eexists. eexists. reflexivity. }
  destruct ES as ([[[c wd] ht] ang] & es & ES).
  assert (FIG : exists fig, plot_bicycle_geometry (eig65 1) bike65a false false true = Ok fig /\ In (Ell c wd ht ang "B") (gf_shapes fig)).
  { destruct (proj2 (nominal_iff _ _) NV) as (nb & RU & NB). unfold plot_bicycle_geometry. cbn [bike65a db_bench]. rewrite RU. cbn [bind]. rewrite NB. cbn [bind].
    change (get_parts_in_parameters par65a) with (Ok ["B"; "F"; "R"]). cbn [bind]. change (read_pendulum bike65a) with (@Ok (option (dict (list Rdefinitions.R) * dict (list Rdefinitions.R) * dict (list Rdefinitions.R))) None). cbn [bind]. rewrite ES. cbn [bind].
    assert (BL : exists bl, bike_lines par65a = Ok bl).
    { unfold bike_lines. destruct (proj2 (plot_data_defined par65a)) as [pts FP].
      { split; [intros k I; cbn in I; cbn; tauto|]. change (pv par65a "lam") with 0. rewrite cos_0. lra. }
      rewrite FP. apply plot_data_spec in FP. destruct FP as (p1 & p2 & -> & A1 & A2 & L1 & L2).
      change (dlook par65a "rR") with (Ok (1/2)). change (dlook par65a "w") with (Ok 1). change (dlook par65a "rF") with (Ok (2/5)). cbn [bind]. unfold index. cbn [nth_error bind].
      unfold along in L1, L2. change (pv par65a "lam") with 0 in *. change (pv par65a "w") with 1 in *. change (pv par65a "rR") with (1/2) in *. change (pv par65a "rF") with (2/5) in *. rewrite sin_0, cos_0 in *.
      rewrite rdiv_eq by lra. cbn [bind]. eauto. }
    destruct BL as [[[[[[g rear] w] rF] frame] steer] ->]. cbn [bind mapM db_human bike65a]. eexists. split; [reflexivity|]. cbn [gf_shapes map app]. left. reflexivity. }
  destruct FIG as (fig & F & I). exists fig, c, wd, ht, ang. split; [exact F|]. split; [exact I|].
  apply (C65_ellipse_aligned_refuted _ bike65a _ _ _ _ _ _ _ _ _ _ NV F I (AR "B" ltac:(cbn; tauto))).
  - reflexivity.
  - change (Izz_of par65a "B") with 1. change (Iyy_of par65a "B") with 2. lra.
  - change (Ixx_of par65a "B") with 3. change (Iyy_of par65a "B") with 2. lra.
Qed.
