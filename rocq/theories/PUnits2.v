(* PUnits2.v -- C74: the calculation of the benchmark parameters from measurements commutes
   with a change of units *)
From Verif Require Import Base PBase MString PString MVec MBicycle MInertia MGeometry MMain SBicycle SLean SUnits SUnits2.
From Coq Require Import Lra FunctionalExtensionality.
Local Open Scope string_scope.
Local Open Scope R_scope.

Definition onres {A B} (f : A -> B) (r : res A) : res B := match r with Ok a => Ok (f a) | Err e => Err e end.
Lemma onres_bind {A A' B B'} (f : A -> A') (g : B -> B') x x' k k' : x' = onres f x -> (forall a, x = Ok a -> k' (f a) = onres g (k a)) ->
  bind x' k' = onres g (bind x k).
Proof. intros -> H. destruct x as [a|e]; [apply H; reflexivity|reflexivity]. Qed.
Lemma dget_conv U d k : dget (converted U d) k = option_map (Rmult (U k)) (dget d k).
Proof. unfold converted. induction d as [|[k' x] d IH]; [reflexivity|]. cbn. destruct (String.eqb_spec k k') as [->|]; [reflexivity|exact IH]. Qed.
Lemma dlook_conv U d k : dlook (converted U d) k = onres (Rmult (U k)) (dlook d k).
Proof. unfold dlook. rewrite dget_conv. destruct (dget d k); reflexivity. Qed.
Lemma dmem_conv U d k : dmem (converted U d) k = dmem d k.
Proof. unfold dmem. rewrite dget_conv. destruct (dget d k); reflexivity. Qed.
Lemma dkeys_conv U d : dkeys (converted U d) = dkeys d.
Proof. unfold dkeys, converted. rewrite map_map. apply map_ext. intros []; reflexivity. Qed.
Lemma dset_conv U d k v y : y = U k * v -> dset (converted U d) k y = converted U (dset d k v).
Proof.
  intros ->. unfold converted. induction d as [|[k' x] d IH]; [reflexivity|]. cbn. destruct (String.eqb_spec k k') as [->|]; cbn; [reflexivity|]. rewrite IH. reflexivity.
Qed.
Lemma rdiv_sc K1 K2 a b : K2 <> 0 -> rdiv (K1 * a) (K2 * b) = onres (Rmult (K1 / K2)) (rdiv a b).
Proof.
  intros N. unfold rdiv. destruct (Req_EM_T b 0) as [->|NB].
  - destruct (Req_EM_T (K2 * 0) 0) as [_|X]; [reflexivity|]. contradiction X. ring.
  - destruct (Req_EM_T (K2 * b) 0) as [X|_]; [apply Rmult_integral in X; tauto|]. cbn. f_equal. field. auto.
Qed.
Lemma rsqrt_sc K x : 0 < K -> rsqrt (K ^ 2 * x) = onres (Rmult K) (rsqrt x).
Proof.
  intros P. unfold rsqrt. assert (K2 : 0 < K ^ 2) by (apply pow_lt; exact P). destruct (Rlt_dec x 0) as [L|L].
  - destruct (Rlt_dec (K ^ 2 * x) 0) as [_|X]; [reflexivity|]. contradiction X. nra.
  - destruct (Rlt_dec (K ^ 2 * x) 0) as [X|_]; [nra|]. cbn [onres]. f_equal. rewrite sqrt_mult by lra. rewrite sqrt_pow2 by lra. reflexivity.
Qed.
Lemma mapM_conv {A B A' B'} (f : A -> A') (g : B -> B') h h' l : (forall a, h' (f a) = onres g (h a)) -> mapM h' (map f l) = onres (map g) (mapM h l).
Proof. intros H. induction l as [|a l IH]; [reflexivity|]. cbn. rewrite H, IH. destruct (h a); cbn; [|reflexivity]. destruct (mapM h l); reflexivity. Qed.

Section Units.
  Variable u : units.
  Hypothesis PU : positive_units u.
  Notation m := (u_mass u). Notation l := (u_length u). Notation t := (u_time u).
  Notation Um := (measured_unit u). Notation Up := (parameter_unit u).
  Lemma pm : m <> 0. Proof. destruct PU as (A & _ & _). lra. Qed.
  Lemma pl : l <> 0. Proof. destruct PU as (_ & A & _). lra. Qed.
  Lemma pt : t <> 0. Proof. destruct PU as (_ & _ & A). lra. Qed.
  Lemma ppl : 0 < l. Proof. apply PU. Qed.
  Ltac un := repeat match goal with
    | |- context [measured_unit u ?k] => let v := eval cbv [measured_unit starts_with String.eqb Ascii.eqb Bool.eqb append andb gravity_unit] in (measured_unit u k) in change (measured_unit u k) with v
    | |- context [parameter_unit u ?k] => let v := eval cbv [parameter_unit starts_with String.eqb Ascii.eqb Bool.eqb append andb gravity_unit] in (parameter_unit u k) in change (parameter_unit u k) with v end.
  Ltac lk := match goal with |- bind (dlook (converted ?U ?d) ?k) _ = onres _ (bind (dlook ?d ?k) _) =>
    apply (onres_bind (Rmult (U k))); [apply dlook_conv|let x := fresh "x" in intros x _; un; rewrite ?Rmult_1_l] end.
  Ltac fld := field; repeat split; auto using pm, pl, pt, PI_neq0.
  Lemma p1 : 1 <> 0. Proof. lra. Qed.
  Lemma pt2 : t ^ 2 <> 0. Proof. apply pow_nonzero, pt. Qed.
  Tactic Notation "dv" constr(K1) constr(K2) := match goal with |- bind (rdiv ?A ?B) _ = onres _ (bind (rdiv ?a ?b) _) =>
    apply (onres_bind (Rmult (K1 / K2))); [transitivity (rdiv (K1 * a) (K2 * b)); [f_equal; first [ring|solve [fld]|idtac]|apply rdiv_sc; auto using pm, pl, pt, p1, pt2]|let q := fresh "q" in intros q _; try (replace (K1 / K2) with K1 by field)] end.
  Lemma onid {A} (x : res A) : x = onres (fun a => a) x. Proof. destruct x; reflexivity. Qed.
  Ltac same := apply (onres_bind (fun a => a)); [apply onid|let q := fresh "q" in intros q _].

  Lemma abc_units h1 h2 h3 h4 h5 d1 d2 d3 d4 d_ :
    calculate_abc_geometry (l * h1) (l * h2) (l * h3) (l * h4) (l * h5) (l * d1) (l * d2) (l * d3) (l * d4) (l * d_)
    = onres (fun r => match r with (a, b, c) => (l * a, l * b, l * c) end) (calculate_abc_geometry h1 h2 h3 h4 h5 d1 d2 d3 d4 d_).
  Proof.
    unfold calculate_abc_geometry. cbv zeta. apply (onres_bind (Rmult l)).
    - rewrite <- rsqrt_sc by apply ppl. f_equal. ring.
    - intros c _. cbn [onres]. do 2 f_equal. f_equal; ring.
  Qed.
  Lemma lambda_units newton rF rR a b c : lambda_from_abc newton (l * rF) (l * rR) (l * a) (l * b) (l * c) = lambda_from_abc newton rF rR a b c.
  Proof.
    unfold lambda_from_abc. assert (E : forall x, rdiv (l * x) (l * a + l * b) = rdiv x (a + b)).
    { intros x. replace (l * a + l * b) with (l * (a + b)) by ring. rewrite rdiv_sc by apply pl. destruct (rdiv x (a + b)); [|reflexivity]. cbn [onres]. f_equal. field. apply pl. }
    rewrite E. destruct (rdiv c (a + b)) as [q|]; [|reflexivity]. cbn [bind]. f_equal. apply functional_extensionality. intros lam. unfold lam_equality.
    replace (l * rF - l * rR + l * c * cos lam) with (l * (rF - rR + c * cos lam)) by ring. rewrite E. reflexivity.
  Qed.
  Lemma trail_units rF lam fo : trail (l * rF) lam (l * fo) = onres (fun r => (l * fst r, l * snd r)) (trail rF lam fo).
  Proof. unfold trail. dv l 1. cbn [onres fst snd]. do 2 f_equal; field. Qed.
  Lemma geometry_units newton mp par : calculate_benchmark_geometry newton (converted Um mp) (converted Up par) = onres (converted Up) (calculate_benchmark_geometry newton mp par).
  Proof.
    unfold calculate_benchmark_geometry. rewrite dmem_conv. lk. lk. dv l 1. lk. lk. dv l 1. cbv zeta.
    apply (onres_bind (fun r => match r with (lam, w, f) => (lam, l * w, l * f) end)).
    - destruct (dmem mp "w").
      + lk. lk. lk. reflexivity.
      + do 10 lk. apply (onres_bind (fun r => match r with (a, b, c) => (l * a, l * b, l * c) end)); [apply abc_units|]. intros [[a b] c] _. apply (onres_bind (fun x : R => x)).
        * rewrite lambda_units. destruct (lambda_from_abc newton q q0 a b c); reflexivity.
        * intros lam _. cbn [onres]. f_equal. f_equal. f_equal. ring.
    - intros [[lam w] f] _. apply (onres_bind (fun r => (l * fst r, l * snd r))); [apply trail_units|]. intros [c cm] _. cbn [onres fst snd]. f_equal. rewrite !dget_conv.
      rewrite (dset_conv Up par "rF" q), (dset_conv Up _ "rR" q0), (dset_conv Up _ "lam" lam), (dset_conv Up _ "w" w), (dset_conv Up _ "c" c) by (un; ring).
      destruct (dget mp "xcl") as [xcl|]; [|reflexivity]. cbn [option_map]. rewrite (dset_conv Up _ "xcl" xcl) by (un; ring). destruct (dget mp "zcl") as [zcl|]; [|reflexivity]. cbn [option_map]. apply dset_conv. un. ring.
  Qed.

  (* masses *)
  Lemma pk_conv {A} (f : A -> A) old x x' : x' = onres f x -> pass_keyerror (f old) x' = onres f (pass_keyerror old x).
  Proof. intros ->. destruct x as [a|[]]; reflexivity. Qed.
  Ltac ds := match goal with |- context [dset (converted ?U ?d) ?k ?y] => match goal with |- context [dset d k ?v] => rewrite (dset_conv U d k v y) by (un; ring) end end.
  Lemma masses_units mp par split : bm_masses (converted Um mp) (converted Up par) split = onres (converted Up) (bm_masses mp par split).
  Proof.
    unfold bm_masses. cbv zeta. lk. ds. lk. ds. lk. ds. apply (onres_bind (converted Up)).
    - apply pk_conv. lk. lk. cbn [onres]. f_equal. apply dset_conv. un. ring.
    - intros q _. destruct split.
      + lk. ds. lk. cbn [onres]. f_equal. apply dset_conv. un. ring.
      + lk. cbn [onres]. f_equal. apply dset_conv. un. ring.
  Qed.
  (* the centre of mass of a part *)
  Lemma index_conv {A B} (f : A -> B) xs n : index (map f xs) n = onres f (index xs n).
  Proof. unfold index. rewrite nth_error_map. destruct (nth_error xs n); reflexivity. Qed.
  Lemma mapM_conv' {A B B'} (g : B -> B') (h : A -> res B) h' xs : (forall a, h' a = onres g (h a)) -> mapM h' xs = onres (map g) (mapM h xs).
  Proof. intros H. rewrite <- (map_id xs) at 1. apply mapM_conv. exact H. Qed.
  Lemma line_units s0 s1 b0 b1 : line_intersection s0 s1 (l * b0) (l * b1) = onres (fun q => (l * fst q, l * snd q)) (line_intersection s0 s1 b0 b1).
  Proof. unfold line_intersection. cbv zeta. do 4 same. cbn [onres fst snd]. f_equal. apply (f_equal2 (@pair R R)); ring. Qed.
  Lemma rsum_sc k xs : rsum (map (Rmult k) xs) = k * rsum xs.
  Proof. induction xs as [|x xs IH]; cbn; [ring|]. unfold rsum in IH. rewrite IH. ring. Qed.
  Lemma centre_units sl ic : center_of_mass sl (map (Rmult l) ic) = onres (fun q => (l * fst q, l * snd q)) (center_of_mass sl ic).
  Proof.
    unfold center_of_mass. cbv zeta. same. apply (onres_bind (map (fun q => (l * fst q, l * snd q)))).
    - apply mapM_conv'. intros row. same. same. apply (onres_bind (Rmult l)); [apply index_conv|]. intros b0 _. apply (onres_bind (Rmult l)); [apply index_conv|]. intros b1 _. apply line_units.
    - intros ls _. rewrite map_length, !map_map. cbn [fst snd].
      assert (E1 : map (fun x : R * R => l * fst x) ls = map (Rmult l) (map fst ls)) by (rewrite map_map; reflexivity).
      assert (E2 : map (fun x : R * R => l * snd x) ls = map (Rmult l) (map snd ls)) by (rewrite map_map; reflexivity).
      rewrite E1, E2, !rsum_sc. dv l 1. dv l 1. reflexivity.
  Qed.
  (* the lines *)
  Lemma handlebar_units lam l1 l2 : fwheel_to_handlebar_ref lam (l * l1) (l * l2) = onres (fun q => (l * fst q, l * snd q)) (fwheel_to_handlebar_ref lam l1 l2).
  Proof. unfold fwheel_to_handlebar_ref. cbv zeta. same. dv l 1. dv l 1. cbn [onres fst snd]. f_equal. apply (f_equal2 (@pair R R)); ring. Qed.
  Lemma l12_units h6 h7 d5 d6 x : calculate_l1_l2 (l * h6) (l * h7) (l * d5) (l * d6) (l * x) = onres (fun q => (l * fst q, l * snd q)) (calculate_l1_l2 h6 h7 d5 d6 x).
  Proof.
    unfold calculate_l1_l2. cbv zeta. dv l l. replace (l / l) with 1 by (field; apply pl). rewrite Rmult_1_l. same. cbn [onres fst snd]. f_equal. apply (f_equal2 (@pair R R)); field.
  Qed.
  Lemma com_line_units alpha a a' par part l1 l2 : (part = "B" \/ part = "S" \/ part = "H" \/ part = "G" -> a' = l * a) ->
    com_line alpha a' (converted Up par) part (l * l1) (l * l2) = onres (fun q => match q with (s, b, be) => (s, l * b, be) end) (com_line alpha a par part l1 l2).
  Proof.
    intros E. unfold com_line. lk. cbv zeta. same. destruct (String.eqb_spec part "B") as [X|_].
    - rewrite E by tauto. dv l 1. lk. cbn [onres]. do 3 f_equal. ring.
    - destruct (String.eqb_spec part "S") as [X|_]; [|destruct (String.eqb_spec part "H") as [X|_]]; cbn [orb].
      + rewrite E by tauto. dv l 1. lk. lk. cbn [onres]. do 3 f_equal. ring.
      + rewrite E by tauto. dv l 1. lk. lk. cbn [onres]. do 3 f_equal. ring.
      + destruct (String.eqb_spec part "G") as [X|_]; [|reflexivity]. rewrite E by tauto.
        apply (onres_bind (fun q => (l * fst q, l * snd q))); [apply handlebar_units|]. intros v _. dv l 1. lk. lk. cbn [onres fst snd]. do 3 f_equal. ring.
  Qed.

  Lemma dget_all k d q : dget (all_times k d) q = option_map (map (Rmult k)) (dget d q).
  Proof. unfold all_times. induction d as [|[k' x] d IH]; [reflexivity|]. cbn. destruct (String.eqb_spec q k') as [->|]; [reflexivity|exact IH]. Qed.
  Lemma dlook_all k d q : dlook (all_times k d) q = onres (map (Rmult k)) (dlook d q).
  Proof. unfold dlook. rewrite dget_all. destruct (dget d q); reflexivity. Qed.
  Lemma dset_all k d q v : dset (all_times k d) q (map (Rmult k) v) = all_times k (dset d q v).
  Proof. unfold all_times. induction d as [|[k' x] d IH]; [reflexivity|]. cbn. destruct (String.eqb_spec q k') as [->|]; cbn; [reflexivity|]. rewrite IH. reflexivity. Qed.
  Definition lines_sc (q : lines3) : lines3 := match q with (sl, ic, be) => (sl, all_times l ic, be) end.
  Lemma append_units d k x : append_to (all_times l d) k (l * x) = onres (all_times l) (append_to d k x).
  Proof. unfold append_to. apply (onres_bind (map (Rmult l))); [apply dlook_all|]. intros v _. cbn [onres]. f_equal. rewrite <- dset_all, map_app. reflexivity. Qed.
  Lemma alpha_unit key : starts_with "alpha" key = true -> Um key = 1.
  Proof. intros H. unfold measured_unit. rewrite H. reflexivity. Qed.
  Lemma a_unit key part : starts_with "alpha" key = true -> schar 5 key = Ok part -> part = "B" \/ part = "S" \/ part = "H" \/ part = "G" -> Um ("a" ++ sdrop 5 key) = l.
  Proof.
    intros _. unfold schar. destruct (sdrop 5 key) as [|c rest] eqn:D; [discriminate|]. intros H P. assert (X : part = String c "") by congruence. subst part. clear H.
    destruct P as [P|[P|[P|P]]]; injection P as ->; unfold measured_unit; cbn; reflexivity.
  Qed.
  Lemma loop_units mp par l1 l2 keys acc : (forall k, In k keys -> starts_with "alpha" k = true) ->
    com_lines_loop (converted Um mp) (converted Up par) (l * l1) (l * l2) keys (lines_sc acc) = onres lines_sc (com_lines_loop mp par l1 l2 keys acc).
  Proof.
    revert acc. induction keys as [|key keys IH]; intros acc A; [reflexivity|]. cbn [com_lines_loop].
    apply (onres_bind (Rmult (Um key))); [apply dlook_conv|]. intros alpha _. rewrite (alpha_unit key) by (apply A; left; reflexivity). rewrite Rmult_1_l.
    apply (onres_bind (Rmult (Um ("a" ++ sdrop 5 key)))); [apply dlook_conv|]. intros a _.
    apply (onres_bind (fun p => p)); [apply onid|]. intros part EP.
    apply (onres_bind (fun q => match q with (s, b, be) => (s, l * b, be) end)).
    { apply com_line_units. intros P. rewrite (a_unit key part); [reflexivity|apply A; left; reflexivity|exact EP|exact P]. }
    intros [[s b] be] _. destruct acc as [[sl ic] bes]. cbn [lines_sc]. same. apply (onres_bind (all_times l)); [apply append_units|]. intros ic' _. same.
    rewrite <- IH by (intros k Hk; apply A; right; exact Hk). reflexivity.
  Qed.
  Lemma com_lines_units mp par split : part_com_lines (converted Um mp) (converted Up par) split = onres lines_sc (part_com_lines mp par split).
  Proof.
    unfold part_com_lines. cbv zeta. apply (onres_bind (fun q => (l * fst q, l * snd q))).
    - destruct split; [|cbn [onres fst snd]; f_equal; apply (f_equal2 (@pair R R)); ring]. do 5 lk. apply l12_units.
    - intros [l1 l2] _. cbn [fst snd]. rewrite dkeys_conv. rewrite <- loop_units.
      + destruct split; reflexivity.
      + intros k Hk. apply (proj1 (ssort_in _ _)) in Hk. apply filter_In in Hk. apply Hk.
  Qed.
  Lemma x_unit part : Up ("x" ++ part) = l. Proof. reflexivity. Qed.
  Lemma z_unit part : Up ("z" ++ part) = l. Proof. reflexivity. Qed.
  Lemma centres_units sl ic par : bm_centres sl (all_times l ic) (converted Up par) = onres (converted Up) (bm_centres sl ic par).
  Proof.
    revert par. induction sl as [|[part s] sl IH]; intros par; [reflexivity|]. cbn [bm_centres].
    apply (onres_bind (map (Rmult l))); [apply dlook_all|]. intros i _. apply (onres_bind (fun q => (l * fst q, l * snd q))); [apply centre_units|]. intros [x z] _. cbn [fst snd].
    rewrite (dset_conv Up par ("x" ++ part) x) by (rewrite x_unit; reflexivity). rewrite (dset_conv Up _ ("z" ++ part) z) by (rewrite z_unit; reflexivity). apply IH.
  Qed.
  (* fork and handlebar together *)
  Lemma total_units a b c d p q : total_com [[l * a; l * b]; [0; 0]; [l * c; l * d]] [m * p; m * q] = onres (fun r => (m * fst r, map (Rmult l) (snd r))) (total_com [[a; b]; [0; 0]; [c; d]] [p; q]).
  Proof.
    unfold total_com. cbn [forallb length Nat.eqb andb]. cbv zeta.
    apply (onres_bind (map (Rmult l))).
    - rewrite <- (mapM_conv (map (Rmult (m * l))) (Rmult l) (fun row => rdiv (rsum row) (rsum [p; q])) (fun row => rdiv (rsum row) (rsum [m * p; m * q]))).
      + f_equal. cbn [map combine fst snd]. repeat (apply (f_equal2 cons)); try reflexivity; ring.
      + intros row. rewrite rsum_sc. replace (rsum [m * p; m * q]) with (m * rsum [p; q]) by (unfold rsum; cbn; ring). rewrite rdiv_sc by apply pm. replace (m * l / m) with l by (field; apply pm). reflexivity.
    - intros cs _. cbn [onres fst snd]. do 2 f_equal. unfold rsum. cbn. ring.
  Qed.
  Lemma split_centre_units par split : bm_split_centre (converted Up par) split = onres (converted Up) (bm_split_centre par split).
  Proof.
    unfold bm_split_centre. destruct split; [|reflexivity]. do 6 lk. apply (onres_bind (fun r => (m * fst r, map (Rmult l) (snd r)))); [apply total_units|].
    intros [mH [|cx [|cy [|cz [|]]]]] _; try reflexivity. cbn [fst snd map onres]. f_equal. do 3 ds. reflexivity.
  Qed.
  (* pendulum inertias *)
  Lemma pend_units a g x T : compound_pendulum_inertia (m * a) (l / t ^ 2 * g) (l * x) (t * T) = m * l ^ 2 * compound_pendulum_inertia a g x T.
  Proof. unfold compound_pendulum_inertia. field. split; [apply PI_neq0|apply pt]. Qed.
  Lemma wheels_yy_units mp par : bm_wheels_yy (converted Um mp) (converted Up par) = onres (converted Up) (bm_wheels_yy mp par).
  Proof.
    unfold bm_wheels_yy. cbv zeta. lk. ds. do 3 lk. rewrite pend_units. ds. do 3 lk. rewrite pend_units. ds. apply pk_conv. do 5 lk. rewrite pend_units. cbn [onres]. f_equal. apply dset_conv. un. ring.
  Qed.
  Lemma hyp_units a b : hyp (l * a) (l * b) = l * hyp a b.
  Proof. unfold hyp. replace ((l * a) ^ 2 + (l * b) ^ 2) with (l ^ 2 * (a ^ 2 + b ^ 2)) by ring. pose proof ppl. rewrite sqrt_mult by nra. rewrite sqrt_pow2 by lra. reflexivity. Qed.
  Lemma frames_yy_units mp par split : bm_frames_yy (converted Um mp) (converted Up par) split = onres (converted Up) (bm_frames_yy mp par split).
  Proof.
    unfold bm_frames_yy. cbv zeta. do 6 lk.
    replace (l * x0 + l * x1) with (l * (x0 + x1)) by ring. rewrite hyp_units, pend_units. ds. destruct split.
    - do 6 lk. match goal with |- context [hyp (l * ?a - l * ?b) (l * ?c + l * ?d)] => replace (l * a - l * b) with (l * (a - b)) by ring; replace (l * c + l * d) with (l * (c + d)) by ring end. rewrite hyp_units, pend_units. ds.
      do 5 lk. apply (onres_bind (fun q => (l * fst q, l * snd q))); [apply l12_units|]. intros [l1 l2] _. cbn [fst snd]. lk. apply (onres_bind (fun q => (l * fst q, l * snd q))); [apply handlebar_units|]. intros [u1 u2] _. cbn [fst snd]. do 4 lk.
      match goal with |- context [hyp (l * ?a - l * ?b + l * ?e) (l * ?c + l * ?d + l * ?f)] => replace (l * a - l * b + l * e) with (l * (a - b + e)) by ring; replace (l * c + l * d + l * f) with (l * (c + d + f)) by ring end. rewrite hyp_units, pend_units. cbn [onres]. f_equal. apply dset_conv. un. ring.
    - do 6 lk. match goal with |- context [hyp (l * ?a - l * ?b) (l * ?c + l * ?d)] => replace (l * a - l * b) with (l * (a - b)) by ring; replace (l * c + l * d) with (l * (c + d)) by ring end. rewrite hyp_units, pend_units. cbn [onres]. f_equal. apply dset_conv. un. ring.
  Qed.
  Lemma stiffness_units mp : bm_stiffness (converted Um mp) = onres (Rmult (m * l ^ 2 / t ^ 2)) (bm_stiffness mp).
  Proof.
    unfold bm_stiffness. do 3 lk. unfold tube_inertia. cbv zeta. lk. unfold torsional_pendulum_stiffness. rewrite <- rdiv_sc by apply pt2. f_equal; field.
  Qed.
  Lemma tor_units k T : tor_inertia (m * l ^ 2 / t ^ 2 * k) (t * T) = m * l ^ 2 * tor_inertia k T.
  Proof. unfold tor_inertia. field. split; [apply PI_neq0|apply pt]. Qed.
  Lemma wheels_xx_units mp par k : bm_wheels_xx (converted Um mp) (converted Up par) (m * l ^ 2 / t ^ 2 * k) = onres (converted Up) (bm_wheels_xx mp par k).
  Proof.
    unfold bm_wheels_xx. cbv zeta. lk. rewrite tor_units. ds. lk. rewrite tor_units. ds. apply pk_conv. do 2 lk. rewrite tor_units. cbn [onres]. f_equal. apply dset_conv. un. ring.
  Qed.
  Lemma Tt_unit s : Um ("Tt" ++ s) = t. Proof. reflexivity. Qed.
  Lemma I_unit s : Up ("I" ++ s) = m * l ^ 2. Proof. reflexivity. Qed.
  Lemma part_inertias_units mp k part n : bm_part_inertias (converted Um mp) (m * l ^ 2 / t ^ 2 * k) part n = onres (map (Rmult (m * l ^ 2))) (bm_part_inertias mp k part n).
  Proof.
    unfold bm_part_inertias. apply mapM_conv'. intros i. apply (onres_bind (Rmult t)); [rewrite dlook_conv, Tt_unit; reflexivity|]. intros T _. rewrite tor_units. reflexivity.
  Qed.
  Lemma solve_units K a h : solve3 a (v3_scale K h) = onres (v3_scale K) (solve3 a h).
  Proof.
    unfold solve3. cbv zeta. destruct a as [[a b c] [d e f] [g i j]], h as [x y z]. unfold v3_scale, v3_dot, v3_cross, m3_T. cbn [vx vy vz r1 r2 r3].
    dv K 1. dv K 1. dv K 1. reflexivity.
  Qed.
  Lemma components_units K pen beta : inertia_components (map (Rmult K) pen) beta = onres (v3_scale K) (inertia_components pen beta).
  Proof.
    unfold inertia_components. rewrite map_length. destruct (Nat.eqb (length pen) (length beta)); [|reflexivity]. cbv zeta. rewrite <- solve_units. f_equal.
    generalize (map beta_row beta) as rows. clear beta. induction pen as [|x pen IH]; intros [|r rows]; cbn [map combine v3_sum fold_right]; try (unfold v3_scale; cbn [vx vy vz]; f_equal; ring).
    fold (v3_sum (map (fun p => v3_scale (fst p) (snd p)) (combine (map (Rmult K) pen) rows))). fold (v3_sum (map (fun p => v3_scale (fst p) (snd p)) (combine pen rows))). rewrite IH.
    generalize (v3_sum (map (fun p => v3_scale (fst p) (snd p)) (combine pen rows))). intros v. unfold v3_scale, v3_add. cbn [vx vy vz fst snd]. f_equal; ring.
  Qed.
  Lemma in_plane_units mp k sl be par pend : bm_in_plane (converted Um mp) (m * l ^ 2 / t ^ 2 * k) sl be (converted Up par) (all_times (m * l ^ 2) pend)
    = onres (fun q => (converted Up (fst q), all_times (m * l ^ 2) (snd q))) (bm_in_plane mp k sl be par pend).
  Proof.
    revert par pend. induction sl as [|[part s] sl IH]; intros par pend; [reflexivity|]. cbn [bm_in_plane]. cbv zeta. same.
    apply (onres_bind (map (Rmult (m * l ^ 2)))); [apply part_inertias_units|]. intros pen _. apply (onres_bind (v3_scale (m * l ^ 2))); [apply components_units|]. intros [x y z] _. unfold v3_scale. cbn [vx vy vz].
    rewrite (dset_conv Up par ("I" ++ part ++ "xx") x), (dset_conv Up _ ("I" ++ part ++ "xz") y), (dset_conv Up _ ("I" ++ part ++ "zz") z) by (rewrite I_unit; reflexivity). rewrite dset_all. apply IH.
  Qed.
  Lemma m3_eq (a b : mat3) : vx (r1 a) = vx (r1 b) -> vy (r1 a) = vy (r1 b) -> vz (r1 a) = vz (r1 b) -> vx (r2 a) = vx (r2 b) -> vy (r2 a) = vy (r2 b) -> vz (r2 a) = vz (r2 b) -> vx (r3 a) = vx (r3 b) -> vy (r3 a) = vy (r3 b) -> vz (r3 a) = vz (r3 b) -> a = b.
  Proof. destruct a as [[] [] []], b as [[] [] []]. cbn. congruence. Qed.
  Lemma tensor_units par part : part = "G" \/ part = "S" -> part_inertia_tensor (converted Up par) part = onres (m3_scale (m * l ^ 2)) (part_inertia_tensor par part).
  Proof.
    intros P. unfold part_inertia_tensor. lk. assert (E : in_FRD part = false) by (destruct P as [-> | ->]; reflexivity). rewrite E. cbv zeta.
    assert (D : forall c, dlook (converted Up par) ("I" ++ part ++ c) = onres (Rmult (m * l ^ 2)) (dlook par ("I" ++ part ++ c))) by (intros c; rewrite dlook_conv, I_unit; reflexivity).
    do 5 (apply (onres_bind (Rmult (m * l ^ 2))); [apply D|intros ? _]). cbn [onres]. f_equal. apply m3_eq; cbn; ring.
  Qed.
  Lemma split_inertia_units par split : bm_split_inertia (converted Up par) split = onres (converted Up) (bm_split_inertia par split).
  Proof.
    unfold bm_split_inertia. destruct split; [|reflexivity].
    apply (onres_bind (m3_scale (m * l ^ 2))); [apply tensor_units; tauto|]. intros IG _. apply (onres_bind (m3_scale (m * l ^ 2))); [apply tensor_units; tauto|]. intros IS _.
    do 6 lk. apply (onres_bind (fun r => (m * fst r, map (Rmult l) (snd r)))); [apply total_units|].
    intros [mH [|cx [|cy [|cz [|]]]]] _; try reflexivity. cbn [fst snd map onres]. cbv zeta. f_equal. do 3 ds.
    destruct IG as [[g1 g2 g3] [g4 g5 g6] [g7 g8 g9]], IS as [[k1 k2 k3] [k4 k5 k6] [k7 k8 k9]]. unfold parallel_axis, m3_add, m3_scale, v3_add, v3_scale. cbn [vx vy vz r1 r2 r3]. do 4 ds. reflexivity.
  Qed.
  Lemma calculate_units newton mp : calculate_benchmark_from_measured newton (converted Um mp) =
    onres (fun q => (converted Up (fst q), mkextras (ex_slopes (snd q)) (all_times l (ex_intercepts (snd q))) (ex_betas (snd q)) (all_times (m * l ^ 2) (ex_pendulum (snd q)))))
      (calculate_benchmark_from_measured newton mp).
  Proof.
    unfold calculate_benchmark_from_measured. cbv zeta.
    assert (ES : is_fork_split (converted Um mp) = is_fork_split mp) by (unfold is_fork_split; rewrite dkeys_conv; reflexivity). rewrite ES. clear ES.
    apply (onres_bind (converted Up)); [exact (geometry_units newton mp [])|]. intros q1 _.
    apply (onres_bind (converted Up)); [apply masses_units|]. intros q2 _.
    apply (onres_bind lines_sc); [apply com_lines_units|]. intros [[sl ic] be] _. cbn [lines_sc].
    apply (onres_bind (converted Up)); [apply centres_units|]. intros q3 _.
    apply (onres_bind (converted Up)); [apply split_centre_units|]. intros q4 _.
    apply (onres_bind (converted Up)); [apply wheels_yy_units|]. intros q5 _.
    apply (onres_bind (converted Up)); [apply frames_yy_units|]. intros q6 _.
    apply (onres_bind (Rmult (m * l ^ 2 / t ^ 2))); [apply stiffness_units|]. intros k _.
    apply (onres_bind (converted Up)); [apply wheels_xx_units|]. intros q7 _.
    apply (onres_bind (fun q => (converted Up (fst q), all_times (m * l ^ 2) (snd q)))); [exact (in_plane_units mp k sl be q7 [])|]. intros [q8 pend] _. cbn [fst snd].
    apply (onres_bind (converted Up)); [apply split_inertia_units|]. intros q9 _. reflexivity.
  Qed.
End Units.
