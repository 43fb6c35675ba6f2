(* PDicts.v -- the bicycles of parameter_dicts.py: generated by tools/dicts_gen.py *)
From Coq Require Import Lra Lia.
From Verif Require Import Base MVec MInertia MBicycle MDicts SBicycle PBicycle PBicycle2 SRouth SSpeeds PSpeeds PNum TBicycle.
Local Open Scope string_scope.
Local Open Scope R_scope.
Lemma mk2_eq a b c d a' b' c' d' : a = a' -> b = b' -> c = c' -> d = d' -> mk2 a b c d = mk2 a' b' c' d'.
Proof. intros; subst; reflexivity. Qed.
Lemma mkcanon_eq a b c d a' b' c' d' : a = a' -> b = b' -> c = c' -> d = d' -> mkcanon a b c d = mkcanon a' b' c' d'.
Proof. intros; subst; reflexivity. Qed.
Ltac near_prod HX HY := eapply (near_mul _ _ _ _ _ _ _ _ _ _ HX HY).

Definition jason_matrices (s k : R) : canon := mkcanon
  (mk2 ((82224105724119793411231381 / 800000000000000000000000)) ((36981864992039239221066255667383143981 / 56050000000000000000000000000000000000) * k + (38158685117452541753061 / 16000000000000000000000) * s) ((36981864992039239221066255667383143981 / 56050000000000000000000000000000000000) * k + (38158685117452541753061 / 16000000000000000000000) * s) ((377856002423391174741924985732999656098313042134003 / 785400625000000000000000000000000000000000000000000) * (k * k) + (-40691644887788451759318257611483482001 / 28025000000000000000000000000000000000) * (s * k) + (38158685117452541753061 / 16000000000000000000000) * (s * s)))
  (mk2 (0) ((376220335839144149012295187985164770506335176223 / 13130221046341045056593060000000000000000000000) * k) ((-64184108564509260249402482648196589 / 131302210463410450565930600000000000) * k) ((69783380724057018877529859158682563509 / 785400625000000000000000000000000000000) * (k * k) + (75185858879579076516462043 / 28025000000000000000000000) * (s * k)))
  (mk2 ((-357287839233619 / 4000000000000)) ((-20308913568636169208475471 / 35031250000000000000000000) * k + (-31032514537951 / 10000000000000) * s) ((-20308913568636169208475471 / 35031250000000000000000000) * k + (-31032514537951 / 10000000000000) * s) ((-20308913568636169208475471 / 35031250000000000000000000) * (s * k) + (-31032514537951 / 10000000000000) * (s * s)))
  (mk2 (0) ((211311050981264197389896781127277167 / 2626044209268209011318612000000000) * k) (0) ((20308913568636169208475471 / 39270031250000000000000000) * (k * k) + (303862191016190961620433 / 96274232985430000000000) * (s * k))).
Lemma jason_canon : F_canon (pv meijaard2007_browser_jason) = jason_matrices (sin (399680398707 / 1000000000000)) (cos (399680398707 / 1000000000000)).
Proof.
  unfold F_canon, jason_matrices, F_mu, F_IAll, F_IAlx, F_IAlz, F_SA, F_uA, F_mu, F_ITxx, F_ITxz, F_ITzz, F_ST, F_SR, F_SF, F_zT, F_xT, F_mT, F_IAxx, F_IAxz, F_IAzz, F_xA, F_zA, F_mA.
  unfold pv, meijaard2007_browser_jason. cbn [dget String.eqb Ascii.eqb Bool.eqb]. set (s := sin _). set (k := cos _). clearbody s k.
  apply mkcanon_eq; apply mk2_eq; field.
Qed.
Definition legs_matrices (s k : R) : canon := mkcanon
  (mk2 ((10187613295484862447367502373 / 500000000000000000000000000)) ((-317301934431614847658317474157915049749 / 1401250000000000000000000000000000000000) * k + (38126225538169341753061 / 16000000000000000000000) * s) ((-317301934431614847658317474157915049749 / 1401250000000000000000000000000000000000) * k + (38126225538169341753061 / 16000000000000000000000) * s) ((3651582252984916198679831819051815551114805554848169 / 7854006250000000000000000000000000000000000000000000) * (k * k) + (-40691644887788451759318257611483482001 / 28025000000000000000000000000000000000) * (s * k) + (38126225538169341753061 / 16000000000000000000000) * (s * s)))
  (mk2 (0) ((19528664379799670142236545749047438290210033363863 / 1641277630792630632074132500000000000000000000000) * k) ((-64184108564509260249402482648196589 / 131302210463410450565930600000000000) * k) ((-309738688730126743413963527030480186337 / 1963501562500000000000000000000000000000) * (k * k) + (75185858879579076516462043 / 28025000000000000000000000) * (s * k)))
  (mk2 ((-13343091767721191 / 500000000000000)) ((155350369885902743056743273 / 1401250000000000000000000000) * k + (-31032514537951 / 10000000000000) * s) ((155350369885902743056743273 / 1401250000000000000000000000) * k + (-31032514537951 / 10000000000000) * s) ((155350369885902743056743273 / 1401250000000000000000000000) * (s * k) + (-31032514537951 / 10000000000000) * (s * s)))
  (mk2 (0) ((8072632758180782324420424501817414163 / 328255526158526126414826500000000000) * k) (0) ((-155350369885902743056743273 / 1570801250000000000000000000) * (k * k) + (303862191016190961620433 / 96274232985430000000000) * (s * k))).
Lemma legs_canon : F_canon (pv meijaard2007_browser_jasonlegs) = legs_matrices (sin (399680398707 / 1000000000000)) (cos (399680398707 / 1000000000000)).
Proof.
  unfold F_canon, legs_matrices, F_mu, F_IAll, F_IAlx, F_IAlz, F_SA, F_uA, F_mu, F_ITxx, F_ITxz, F_ITzz, F_ST, F_SR, F_SF, F_zT, F_xT, F_mT, F_IAxx, F_IAxz, F_IAzz, F_xA, F_zA, F_mA.
  unfold pv, meijaard2007_browser_jasonlegs. cbn [dget String.eqb Ascii.eqb Bool.eqb]. set (s := sin _). set (k := cos _). clearbody s k.
  apply mkcanon_eq; apply mk2_eq; field.
Qed.
Definition bench_matrices (s k : R) : canon := mkcanon
  (mk2 ((4040861 / 50000)) ((137507 / 85000) * k + (63173 / 25000) * s) ((137507 / 85000) * k + (63173 / 25000) * s) ((7888343 / 26010000) * (k * k) + (-31493 / 42500) * (s * k) + (63173 / 25000) * (s * s)))
  (mk2 (0) ((227009 / 6375) * k) ((-76 / 85) * k) ((324461 / 520200) * (k * k) + (48643 / 12750) * (s * k)))
  (mk2 ((-1619 / 20)) ((-126 / 85) * k + (-77 / 20) * s) ((-126 / 85) * k + (-77 / 20) * s) ((-126 / 85) * (s * k) + (-77 / 20) * (s * s)))
  (mk2 (0) ((8215 / 102) * k) (0) ((420 / 289) * (k * k) + (155 / 34) * (s * k))).
Lemma bench_canon : F_canon (pv bench07) = bench_matrices (sin (PI / 10)) (cos (PI / 10)).
Proof.
  unfold F_canon, bench_matrices, F_mu, F_IAll, F_IAlx, F_IAlz, F_SA, F_uA, F_mu, F_ITxx, F_ITxz, F_ITzz, F_ST, F_SR, F_SF, F_zT, F_xT, F_mT, F_IAxx, F_IAxz, F_IAzz, F_xA, F_zA, F_mA.
  unfold pv, bench07. cbn [dget String.eqb Ascii.eqb Bool.eqb]. set (s := sin _). set (k := cos _). clearbody s k.
  apply mkcanon_eq; apply mk2_eq; field.
Qed.
(* ---- meijaard2007_browser_jason ---- *)
Lemma jason_sine : near (1 / 1000000000000) (sin (399680398707 / 1000000000000)) (1216012344189 / 3125000000000).
Proof. pose proof (sin_bounds (399680398707 / 1000000000000) ltac:(lra)) as B. unfold sin_low in B. unfold near. lra. Qed.
Lemma jason_cosine : near (1 / 1000000000000) (cos (399680398707 / 1000000000000)) (92118540556561 / 100000000000000).
Proof. pose proof (cos_bounds (399680398707 / 1000000000000) ltac:(lra)) as B. unfold cos_low in B. unfold near. lra. Qed.
Lemma jason_entries s k : near (1 / 1000000000000) s (1216012344189 / 3125000000000) -> near (1 / 1000000000000) k (92118540556561 / 100000000000000) ->
  near (9 / 5000000000000000) ((82224105724119793411231381 / 800000000000000000000000)) (5139006607757487 / 50000000000000) /\
  near (31 / 10000000000000) ((36981864992039239221066255667383143981 / 56050000000000000000000000000000000000) * k + (38158685117452541753061 / 16000000000000000000000) * s) (153582800590811 / 100000000000000) /\
  near (49 / 10000000000000) ((377856002423391174741924985732999656098313042134003 / 785400625000000000000000000000000000000000000000000) * (k * k) + (-40691644887788451759318257611483482001 / 28025000000000000000000000000000000000) * (s * k) + (38158685117452541753061 / 16000000000000000000000) * (s * s)) (24890225749081 / 100000000000000) /\
  near (29 / 1000000000000) ((376220335839144149012295187985164770506335176223 / 13130221046341045056593060000000000000000000000) * k) (329934166215531 / 12500000000000) /\
  near (1 / 2000000000000) ((-64184108564509260249402482648196589 / 131302210463410450565930600000000000) * k) (-22515029971769 / 50000000000000) /\
  near (1 / 250000000000) ((69783380724057018877529859158682563509 / 785400625000000000000000000000000000000) * (k * k) + (75185858879579076516462043 / 28025000000000000000000000) * (s * k)) (2074132002059 / 2000000000000) /\
  near (1 / 100000000000000) ((-357287839233619 / 4000000000000)) (-357287839233619 / 4000000000000) /\
  near (37 / 10000000000000) ((-20308913568636169208475471 / 35031250000000000000000000) * k + (-31032514537951 / 10000000000000) * s) (-87079738722381 / 50000000000000) /\
  near (33 / 10000000000000) ((-20308913568636169208475471 / 35031250000000000000000000) * (s * k) + (-31032514537951 / 10000000000000) * (s * s)) (-67769623817707 / 100000000000000) /\
  near (81 / 1000000000000) ((211311050981264197389896781127277167 / 2626044209268209011318612000000000) * k) (1853135749882477 / 25000000000000) /\
  near (11 / 2000000000000) ((20308913568636169208475471 / 39270031250000000000000000) * (k * k) + (303862191016190961620433 / 96274232985430000000000) * (s * k)) (78510776482081 / 50000000000000).
Proof.
  intros HS HK.
  assert (SS : near (39 / 50000000000000) (s * s) (15141744857293 / 100000000000000)) by (apply (near_mul (1 / 1000000000000) (1 / 1000000000000) _ (1216012344189 / 3125000000000) (1216012344189 / 3125000000000) _ (1216012344189 / 3125000000000) _ (1216012344189 / 3125000000000) _ HS HS); lra).
  assert (SK : near (7 / 5000000000000) (s * k) (7169106076509 / 20000000000000)) by (apply (near_mul (1 / 1000000000000) (1 / 1000000000000) _ (1216012344189 / 3125000000000) (92118540556561 / 100000000000000) _ (1216012344189 / 3125000000000) _ (92118540556561 / 100000000000000) _ HS HK); lra).
  assert (KK : near (19 / 10000000000000) (k * k) (21214563785677 / 25000000000000)) by (apply (near_mul (1 / 1000000000000) (1 / 1000000000000) _ (92118540556561 / 100000000000000) (92118540556561 / 100000000000000) _ (92118540556561 / 100000000000000) _ (92118540556561 / 100000000000000) _ HK HK); lra).
  unfold near in *. split; [lra|]. split; [lra|]. split; [lra|]. split; [lra|]. split; [lra|]. split; [lra|]. split; [lra|]. split; [lra|]. split; [lra|]. split; [lra|]. lra.
Qed.
Lemma jason_coefs a b d p q r x y z h j : near (9 / 5000000000000000) a (5139006607757487 / 50000000000000) -> near (31 / 10000000000000) b (153582800590811 / 100000000000000) -> near (49 / 10000000000000) d (24890225749081 / 100000000000000) -> near (29 / 1000000000000) p (329934166215531 / 12500000000000) -> near (1 / 2000000000000) q (-22515029971769 / 50000000000000) -> near (1 / 250000000000) r (2074132002059 / 2000000000000) -> near (1 / 100000000000000) x (-357287839233619 / 4000000000000) -> near (37 / 10000000000000) y (-87079738722381 / 50000000000000) -> near (33 / 10000000000000) z (-67769623817707 / 100000000000000) -> near (81 / 1000000000000) h (1853135749882477 / 25000000000000) -> near (11 / 2000000000000) j (78510776482081 / 50000000000000) ->
  near (13 / 25000000000) (a * d - b * b) (290292990686111 / 12500000000000) /\
  near (7 / 12500000000) (a * r + d * 0 - b * q - b * p) (6674359430473443 / 100000000000000) /\
  near (81 / 100000000000) (a * z + d * x - b * y - b * y) (-8653656630162269 / 100000000000000) /\
  near (3 / 3125000000) (a * j + d * 0 - b * 0 - b * h + (0 * r - p * q)) (5942861253755803 / 100000000000000) /\
  near (13 / 25000000000) (0 * z + r * x - p * y - q * y) (-4744807925011123 / 100000000000000) /\
  near (37 / 500000000000) (0 * j + r * 0 - p * 0 - q * h) (3337872556028847 / 100000000000000) /\
  near (23 / 25000000000) (x * j + z * 0 - y * 0 - y * h) (-1115826689568601 / 100000000000000) /\
  near (1 / 3125000000) (x * z - y * y) (718750047379701 / 12500000000000).
Proof.
  intros Ha Hb Hd Hp Hq Hr Hx Hy Hz Hh Hj.
  assert (Nad : near (51 / 100000000000) (a * d) (319777586482757 / 12500000000000)) by (apply (near_mul (9 / 5000000000000000) (49 / 10000000000000) _ (5139006607757487 / 50000000000000) (24890225749081 / 100000000000000) _ (5139006607757487 / 50000000000000) _ (24890225749081 / 100000000000000) _ Ha Hd); lra).
  assert (Nbb : near (3 / 312500000000) (b * b) (14742297898323 / 6250000000000)) by (apply (near_mul (31 / 10000000000000) (31 / 10000000000000) _ (153582800590811 / 100000000000000) (153582800590811 / 100000000000000) _ (153582800590811 / 100000000000000) _ (153582800590811 / 100000000000000) _ Hb Hb); lra).
  assert (Nar : near (21 / 50000000000) (a * r) (10658978063942467 / 100000000000000)) by (apply (near_mul (9 / 5000000000000000) (1 / 250000000000) _ (5139006607757487 / 50000000000000) (2074132002059 / 2000000000000) _ (5139006607757487 / 50000000000000) _ (2074132002059 / 2000000000000) _ Ha Hr); lra).
  assert (Nbq : near (11 / 5000000000000) (b * q) (-69158427169007 / 100000000000000)) by (apply (near_mul (31 / 10000000000000) (1 / 2000000000000) _ (153582800590811 / 100000000000000) (22515029971769 / 50000000000000) _ (153582800590811 / 100000000000000) _ (-22515029971769 / 50000000000000) _ Hb Hq); lra).
  assert (Nbp : near (13 / 100000000000) (b * p) (4053777060638031 / 100000000000000)) by (apply (near_mul (31 / 10000000000000) (29 / 1000000000000) _ (153582800590811 / 100000000000000) (329934166215531 / 12500000000000) _ (153582800590811 / 100000000000000) _ (329934166215531 / 12500000000000) _ Hb Hp); lra).
  assert (Naz : near (17 / 50000000000) (a * z) (-6965370892088709 / 100000000000000)) by (apply (near_mul (9 / 5000000000000000) (33 / 10000000000000) _ (5139006607757487 / 50000000000000) (67769623817707 / 100000000000000) _ (5139006607757487 / 50000000000000) _ (-67769623817707 / 100000000000000) _ Ha Hz); lra).
  assert (Ndx : near (11 / 25000000000) (d * x) (-1111621871990767 / 50000000000000)) by (apply (near_mul (49 / 10000000000000) (1 / 100000000000000) _ (24890225749081 / 100000000000000) (357287839233619 / 4000000000000) _ (24890225749081 / 100000000000000) _ (-357287839233619 / 4000000000000) _ Hd Hx); lra).
  assert (Nby : near (3 / 250000000000) (b * y) (-267479002953987 / 100000000000000)) by (apply (near_mul (31 / 10000000000000) (37 / 10000000000000) _ (153582800590811 / 100000000000000) (87079738722381 / 50000000000000) _ (153582800590811 / 100000000000000) _ (-87079738722381 / 50000000000000) _ Hb Hy); lra).
  assert (Naj : near (57 / 100000000000) (a * j) (3227739192972683 / 20000000000000)) by (apply (near_mul (9 / 5000000000000000) (11 / 2000000000000) _ (5139006607757487 / 50000000000000) (78510776482081 / 50000000000000) _ (5139006607757487 / 50000000000000) _ (78510776482081 / 50000000000000) _ Ha Hj); lra).
  assert (Nbh : near (9 / 25000000000) (b * h) (11384391133676139 / 100000000000000)) by (apply (near_mul (31 / 10000000000000) (81 / 1000000000000) _ (153582800590811 / 100000000000000) (1853135749882477 / 25000000000000) _ (153582800590811 / 100000000000000) _ (1853135749882477 / 25000000000000) _ Hb Hh); lra).
  assert (Npq : near (27 / 1000000000000) (p * q) (-1188556422568527 / 100000000000000)) by (apply (near_mul (29 / 1000000000000) (1 / 2000000000000) _ (329934166215531 / 12500000000000) (22515029971769 / 50000000000000) _ (329934166215531 / 12500000000000) _ (-22515029971769 / 50000000000000) _ Hp Hq); lra).
  assert (Nrx : near (9 / 25000000000) (r * x) (-2315819191565501 / 25000000000000)) by (apply (near_mul (1 / 250000000000) (1 / 100000000000000) _ (2074132002059 / 2000000000000) (357287839233619 / 4000000000000) _ (2074132002059 / 2000000000000) _ (-357287839233619 / 4000000000000) _ Hr Hx); lra).
  assert (Npy : near (3 / 20000000000) (p * y) (-459689295834161 / 10000000000000)) by (apply (near_mul (29 / 1000000000000) (37 / 10000000000000) _ (329934166215531 / 12500000000000) (87079738722381 / 50000000000000) _ (329934166215531 / 12500000000000) _ (-87079738722381 / 50000000000000) _ Hp Hy); lra).
  assert (Nqy : near (13 / 5000000000000) (q * y) (78424117090729 / 100000000000000)) by (apply (near_mul (1 / 2000000000000) (37 / 10000000000000) _ (22515029971769 / 50000000000000) (87079738722381 / 50000000000000) _ (-22515029971769 / 50000000000000) _ (-87079738722381 / 50000000000000) _ Hq Hy); lra).
  assert (Nqh : near (37 / 500000000000) (q * h) (-3337872556028847 / 100000000000000)) by (apply (near_mul (1 / 2000000000000) (81 / 1000000000000) _ (22515029971769 / 50000000000000) (1853135749882477 / 25000000000000) _ (-22515029971769 / 50000000000000) _ (1853135749882477 / 25000000000000) _ Hq Hh); lra).
  assert (Nxj : near (1 / 2000000000) (x * j) (-438296026341193 / 3125000000000)) by (apply (near_mul (1 / 100000000000000) (11 / 2000000000000) _ (357287839233619 / 4000000000000) (78510776482081 / 50000000000000) _ (-357287839233619 / 4000000000000) _ (78510776482081 / 50000000000000) _ Hx Hj); lra).
  assert (Nyh : near (21 / 50000000000) (y * h) (-516385846133983 / 4000000000000)) by (apply (near_mul (37 / 10000000000000) (81 / 1000000000000) _ (87079738722381 / 50000000000000) (1853135749882477 / 25000000000000) _ (-87079738722381 / 50000000000000) _ (1853135749882477 / 25000000000000) _ Hy Hh); lra).
  assert (Nxz : near (3 / 10000000000) (x * z) (3026657807437967 / 50000000000000)) by (apply (near_mul (1 / 100000000000000) (33 / 10000000000000) _ (357287839233619 / 4000000000000) (67769623817707 / 100000000000000) _ (-357287839233619 / 4000000000000) _ (-67769623817707 / 100000000000000) _ Hx Hz); lra).
  assert (Nyy : near (13 / 1000000000000) (y * y) (151657617919163 / 50000000000000)) by (apply (near_mul (37 / 10000000000000) (37 / 10000000000000) _ (87079738722381 / 50000000000000) (87079738722381 / 50000000000000) _ (-87079738722381 / 50000000000000) _ (-87079738722381 / 50000000000000) _ Hy Hy); lra).
  assert (Ca4 : near (13 / 25000000000) (a * d - b * b) (290292990686111 / 12500000000000)) by (clear - Nad Nbb; unfold near in *; lra).
  assert (Ck3 : near (7 / 12500000000) (a * r + d * 0 - b * q - b * p) (6674359430473443 / 100000000000000)) by (clear - Nar Nbq Nbp; unfold near in *; lra).
  assert (Cm1 : near (81 / 100000000000) (a * z + d * x - b * y - b * y) (-8653656630162269 / 100000000000000)) by (clear - Naz Ndx Nby; unfold near in *; lra).
  assert (Cm2 : near (3 / 3125000000) (a * j + d * 0 - b * 0 - b * h + (0 * r - p * q)) (5942861253755803 / 100000000000000)) by (clear - Naj Nbh Npq; unfold near in *; lra).
  assert (Cm3 : near (13 / 25000000000) (0 * z + r * x - p * y - q * y) (-4744807925011123 / 100000000000000)) by (clear - Nrx Npy Nqy; unfold near in *; lra).
  assert (Cm4 : near (37 / 500000000000) (0 * j + r * 0 - p * 0 - q * h) (3337872556028847 / 100000000000000)) by (clear - Nqh; unfold near in *; lra).
  assert (Cm5 : near (23 / 25000000000) (x * j + z * 0 - y * 0 - y * h) (-1115826689568601 / 100000000000000)) by (clear - Nxj Nyh; unfold near in *; lra).
  assert (Cdk : near (1 / 3125000000) (x * z - y * y) (718750047379701 / 12500000000000)) by (clear - Nxz Nyy; unfold near in *; lra).
  repeat (split; [assumption|]). assumption.
Qed.
Lemma jason_signs a4 k3 m1 m2 m3 m4 m5 dk : near (13 / 25000000000) a4 (290292990686111 / 12500000000000) -> near (7 / 12500000000) k3 (6674359430473443 / 100000000000000) -> near (81 / 100000000000) m1 (-8653656630162269 / 100000000000000) -> near (3 / 3125000000) m2 (5942861253755803 / 100000000000000) -> near (13 / 25000000000) m3 (-4744807925011123 / 100000000000000) -> near (37 / 500000000000) m4 (3337872556028847 / 100000000000000) -> near (23 / 25000000000) m5 (-1115826689568601 / 100000000000000) -> near (1 / 3125000000) dk (718750047379701 / 12500000000000) ->
  0 < k3 /\ 0 < m4 /\ 0 < m2 /\ m5 < 0 /\ 0 < m2 * k3 - a4 * m4 /\ 0 < (981 / 100) * m3 + (624450121 / 25000000) * m4 /\ 0 < (981 / 100) * m1 + (624450121 / 25000000) * m2 /\ 0 < (981 / 100) * ((981 / 100) * dk + (505521 / 10000) * m5) /\ (981 / 100) * ((981 / 100) * dk + (5055352201 / 100000000) * m5) < 0 /\
  ((981 / 100) * m3 + (0) * m4) * ((981 / 100) * m1 + (0) * m2) * k3 - a4 * ((981 / 100) * m3 + (0) * m4) ^ 2 - (981 / 100) * ((981 / 100) * dk + (0) * m5) * k3 ^ 2 < 0 /\
  ((981 / 100) * m3 + (624450121 / 25000000) * m4) * ((981 / 100) * m1 + (624450121 / 25000000) * m2) * k3 - a4 * ((981 / 100) * m3 + (624450121 / 25000000) * m4) ^ 2 - (981 / 100) * ((981 / 100) * dk + (624450121 / 25000000) * m5) * k3 ^ 2 <= 0 /\
  0 < ((981 / 100) * m3 + (2497900441 / 100000000) * m4) * ((981 / 100) * m1 + (2497900441 / 100000000) * m2) * k3 - a4 * ((981 / 100) * m3 + (2497900441 / 100000000) * m4) ^ 2 - (981 / 100) * ((981 / 100) * dk + (2497900441 / 100000000) * m5) * k3 ^ 2.
Proof.
  intros Ha4 Hk3 Hm1 Hm2 Hm3 Hm4 Hm5 Hdk.
  assert (P1 : near (49 / 500000000) (m2 * k3) (396647920530002727 / 100000000000000)) by (apply (near_mul (3 / 3125000000) (7 / 12500000000) _ (5942861253755803 / 100000000000000) (6674359430473443 / 100000000000000) _ (5942861253755803 / 100000000000000) _ (6674359430473443 / 100000000000000) _ Hm2 Hk3); lra).
  assert (P2 : near (1 / 50000000) (a4 * m4) (2422402517046769 / 3125000000000)) by (apply (near_mul (13 / 25000000000) (37 / 500000000000) _ (290292990686111 / 12500000000000) (3337872556028847 / 100000000000000) _ (290292990686111 / 12500000000000) _ (3337872556028847 / 100000000000000) _ Ha4 Hm4); lra).
  split; [unfold near in *; lra|]. split; [unfold near in *; lra|]. split; [unfold near in *; lra|]. split; [unfold near in *; lra|]. split; [unfold near in *; lra|]. split; [unfold near in *; lra|]. split; [unfold near in *; lra|]. split; [unfold near in *; lra|]. split; [unfold near in *; lra|]. 
  split.
  {
  assert (B1 : near (13 / 2500000000) ((981 / 100) * m3 + (0) * m4) (-46546565744359117 / 100000000000000)) by (clear - Hm3 Hm4; unfold near in *; lra).
  assert (B2 : near (1 / 125000000) ((981 / 100) * m1 + (0) * m2) (-84892371541891859 / 100000000000000)) by (clear - Hm1 Hm2; unfold near in *; lra).
  assert (B0 : near (31 / 1000000000) ((981 / 100) * ((981 / 100) * dk + (0) * m5)) (553357611477101147 / 100000000000000)) by (clear - Hdk Hm5; unfold near in *; lra).
    set (b1 := _ + _ * m4) in *. set (b2 := _ + _ * m2) in *. set (b0 := _ * (_ + _ * m5)) in *. clearbody b1 b2 b0.
  assert (T1 : near (41 / 5000000) (b1 * b2) (39514483531692303589 / 100000000000000)) by (apply (near_mul (13 / 2500000000) (1 / 125000000) _ (46546565744359117 / 100000000000000) (84892371541891859 / 100000000000000) _ (-46546565744359117 / 100000000000000) _ (-84892371541891859 / 100000000000000) _ B1 B2); lra).
  assert (T2 : near (77 / 100000) ((b1 * b2) * k3) (659334664500095214861 / 25000000000000)) by (apply (near_mul (41 / 5000000) (7 / 12500000000) _ (39514483531692303589 / 100000000000000) (6674359430473443 / 100000000000000) _ (39514483531692303589 / 100000000000000) _ (6674359430473443 / 100000000000000) _ T1 Hk3); lra).
  assert (T3 : near (49 / 10000000) (b1 * b1) (5416456956484863999 / 25000000000000)) by (apply (near_mul (13 / 2500000000) (13 / 2500000000) _ (46546565744359117 / 100000000000000) (46546565744359117 / 100000000000000) _ (-46546565744359117 / 100000000000000) _ (-46546565744359117 / 100000000000000) _ B1 B1); lra).
  assert (T4 : near (23 / 100000) (a4 * (b1 * b1)) (503155036422586162843 / 100000000000000)) by (apply (near_mul (13 / 25000000000) (49 / 10000000) _ (290292990686111 / 12500000000000) (5416456956484863999 / 25000000000000) _ (290292990686111 / 12500000000000) _ (5416456956484863999 / 25000000000000) _ Ha4 T3); lra).
  assert (T5 : near (3 / 40000000) (k3 * k3) (13920960564734307 / 3125000000000)) by (apply (near_mul (7 / 12500000000) (7 / 12500000000) _ (6674359430473443 / 100000000000000) (6674359430473443 / 100000000000000) _ (6674359430473443 / 100000000000000) _ (6674359430473443 / 100000000000000) _ Hk3 Hk3); lra).
  assert (T6 : near (7 / 12500) (b0 * (k3 * k3)) (616261559005463457923 / 25000000000000)) by (apply (near_mul (31 / 1000000000) (3 / 40000000) _ (553357611477101147 / 100000000000000) (13920960564734307 / 3125000000000) _ (553357611477101147 / 100000000000000) _ (13920960564734307 / 3125000000000) _ B0 T5); lra).
    clear - T2 T4 T6. unfold near in *. replace (b1 ^ 2) with (b1 * b1) by ring. replace (k3 ^ 2) with (k3 * k3) by ring. lra. }
  split.
  {
  assert (B1 : near (7 / 1000000000) ((981 / 100) * m3 + (624450121 / 25000000) * m4) (7365366223086519 / 20000000000000)) by (clear - Hm3 Hm4; unfold near in *; lra).
  assert (B2 : near (1 / 31250000) ((981 / 100) * m1 + (624450121 / 25000000) * m2) (63548445617869057 / 100000000000000)) by (clear - Hm1 Hm2; unfold near in *; lra).
  assert (B0 : near (13 / 50000000) ((981 / 100) * ((981 / 100) * dk + (624450121 / 25000000) * m5)) (17496367537290431 / 6250000000000)) by (clear - Hdk Hm5; unfold near in *; lra).
    set (b1 := _ + _ * m4) in *. set (b2 := _ + _ * m2) in *. set (b0 := _ * (_ + _ * m5)) in *. clearbody b1 b2 b0.
  assert (T1 : near (17 / 1000000) (b1 * b2) (11701439372087581641 / 50000000000000)) by (apply (near_mul (7 / 1000000000) (1 / 31250000) _ (7365366223086519 / 20000000000000) (63548445617869057 / 100000000000000) _ (7365366223086519 / 20000000000000) _ (63548445617869057 / 100000000000000) _ B1 B2); lra).
  assert (T2 : near (13 / 10000) ((b1 * b2) * k3) (1561992244464119877443 / 100000000000000)) by (apply (near_mul (17 / 1000000) (7 / 12500000000) _ (11701439372087581641 / 50000000000000) (6674359430473443 / 100000000000000) _ (11701439372087581641 / 50000000000000) _ (6674359430473443 / 100000000000000) _ T1 Hk3); lra).
  assert (T3 : near (13 / 2500000) (b1 * b1) (3390538725011485873 / 25000000000000)) by (apply (near_mul (7 / 1000000000) (7 / 1000000000) _ (7365366223086519 / 20000000000000) (7365366223086519 / 20000000000000) _ (7365366223086519 / 20000000000000) _ (7365366223086519 / 20000000000000) _ B1 B1); lra).
  assert (T4 : near (1 / 5000) (a4 * (b1 * b1)) (314959880486610538743 / 100000000000000)) by (apply (near_mul (13 / 25000000000) (13 / 2500000) _ (290292990686111 / 12500000000000) (3390538725011485873 / 25000000000000) _ (290292990686111 / 12500000000000) _ (3390538725011485873 / 25000000000000) _ Ha4 T3); lra).
  assert (T5 : near (3 / 40000000) (k3 * k3) (13920960564734307 / 3125000000000)) by (apply (near_mul (7 / 12500000000) (7 / 12500000000) _ (6674359430473443 / 100000000000000) (6674359430473443 / 100000000000000) _ (6674359430473443 / 100000000000000) _ (6674359430473443 / 100000000000000) _ Hk3 Hk3); lra).
  assert (T6 : near (7 / 5000) (b0 * (k3 * k3)) (1247059161665114083957 / 100000000000000)) by (apply (near_mul (13 / 50000000) (3 / 40000000) _ (17496367537290431 / 6250000000000) (13920960564734307 / 3125000000000) _ (17496367537290431 / 6250000000000) _ (13920960564734307 / 3125000000000) _ B0 T5); lra).
    clear - T2 T4 T6. unfold near in *. replace (b1 ^ 2) with (b1 * b1) by ring. replace (k3 ^ 2) with (k3 * k3) by ring. lra. }
  {
  assert (B1 : near (7 / 1000000000) ((981 / 100) * m3 + (2497900441 / 100000000) * m4) (1473206702108137 / 4000000000000)) by (clear - Hm3 Hm4; unfold near in *; lra).
  assert (B2 : near (1 / 31250000) ((981 / 100) * m1 + (2497900441 / 100000000) * m2) (63554385923692473 / 100000000000000)) by (clear - Hm1 Hm2; unfold near in *; lra).
  assert (B0 : near (13 / 50000000) ((981 / 100) * ((981 / 100) * dk + (2497900441 / 100000000) * m5)) (279930939043713953 / 100000000000000)) by (clear - Hdk Hm5; unfold near in *; lra).
    set (b1 := _ + _ * m4) in *. set (b2 := _ + _ * m2) in *. set (b0 := _ * (_ + _ * m5)) in *. clearbody b1 b2 b0.
  assert (T1 : near (17 / 1000000) (b1 * b2) (2340718682278769811 / 10000000000000)) by (apply (near_mul (7 / 1000000000) (1 / 31250000) _ (1473206702108137 / 4000000000000) (63554385923692473 / 100000000000000) _ (1473206702108137 / 4000000000000) _ (63554385923692473 / 100000000000000) _ B1 B2); lra).
  assert (T2 : near (13 / 10000) ((b1 * b2) * k3) (781139890557633902597 / 50000000000000)) by (apply (near_mul (17 / 1000000) (7 / 12500000000) _ (2340718682278769811 / 10000000000000) (6674359430473443 / 100000000000000) _ (2340718682278769811 / 10000000000000) _ (6674359430473443 / 100000000000000) _ T1 Hk3); lra).
  assert (T3 : near (13 / 2500000) (b1 * b1) (13564612419602081939 / 100000000000000)) by (apply (near_mul (7 / 1000000000) (7 / 1000000000) _ (1473206702108137 / 4000000000000) (1473206702108137 / 4000000000000) _ (1473206702108137 / 4000000000000) _ (1473206702108137 / 4000000000000) _ B1 B1); lra).
  assert (T4 : near (1 / 5000) (a4 * (b1 * b1)) (6300339050854804429 / 2000000000000)) by (apply (near_mul (13 / 25000000000) (13 / 2500000) _ (290292990686111 / 12500000000000) (13564612419602081939 / 100000000000000) _ (290292990686111 / 12500000000000) _ (13564612419602081939 / 100000000000000) _ Ha4 T3); lra).
  assert (T5 : near (3 / 40000000) (k3 * k3) (13920960564734307 / 3125000000000)) by (apply (near_mul (7 / 12500000000) (7 / 12500000000) _ (6674359430473443 / 100000000000000) (6674359430473443 / 100000000000000) _ (6674359430473443 / 100000000000000) _ (6674359430473443 / 100000000000000) _ Hk3 Hk3); lra).
  assert (T6 : near (7 / 5000) (b0 * (k3 * k3)) (1247010420248507219157 / 100000000000000)) by (apply (near_mul (13 / 50000000) (3 / 40000000) _ (279930939043713953 / 100000000000000) (13920960564734307 / 3125000000000) _ (279930939043713953 / 100000000000000) _ (13920960564734307 / 3125000000000) _ B0 T5); lra).
    clear - T2 T4 T6. unfold near in *. replace (b1 ^ 2) with (b1 * b1) by ring. replace (k3 ^ 2) with (k3 * k3) by ring. lra. }
Qed.
Lemma jason_window : exists vw vc, 24989 / 5000 <= vw < 49979 / 10000 /\ 711 / 100 < vc < 71101 / 10000 /\
  forall v, (stable_conditions (F_canon (pv meijaard2007_browser_jason)) (981 / 100) v <-> vw < v < vc) /\ (v < vw \/ vc < v -> violated (F_canon (pv meijaard2007_browser_jason)) (981 / 100) v).
Proof.
  rewrite jason_canon. pose proof (jason_entries _ _ jason_sine jason_cosine) as HE. unfold jason_matrices. revert HE. set (s := sin _). set (k := cos _). clearbody s k.
  intros (Ha & Hb & Hd & Hp & Hq & Hr & Hx & Hy & Hz & Hh & Hj).
  repeat match goal with H : near _ ?e _ |- _ => is_var e; fail 1 | H : near ?d ?e ?v |- _ => let n := fresh "e" in set (n := e) in *; clearbody n end.
  match goal with |- context [mkcanon (mk2 ?a ?b ?b ?d) (mk2 0 ?p ?q ?r) (mk2 ?x ?y ?y ?z) (mk2 0 ?h 0 ?j)] => pose proof (jason_coefs a b d p q r x y z h j Ha Hb Hd Hp Hq Hr Hx Hy Hz Hh Hj) as (C1 & C2 & C3 & C4 & C5 & C6 & C7 & C8) end.
  pose proof (jason_signs _ _ _ _ _ _ _ _ C1 C2 C3 C4 C5 C6 C7 C8) as (S1 & S2 & S3 & S4 & S5 & S6 & S7 & S8 & S9 & S10 & S11 & S12). clear C1 C2 C4 C5 C6 C7 C8 Ha Hb Hd Hp Hq Hr Hx Hy Hz Hh Hj.
  unfold stable_conditions, violated. apply one_window; unfold weave_c, first_c, second_c, constant_c, damping_c, inertia_c, mixed, determinant; cbn [cM cC1 cK0 cK2 m11 m12 m21 m22].
  all: idtac.
  - clear; lra.
  - exact S1.
  - exact S2.
  - exact S3.
  - exact S4.
  - exact S5.
  - exact S10.
  - clear; lra.
  - replace ((24989 / 5000) ^ 2) with (624450121 / 25000000) by field. exact S6.
  - replace ((24989 / 5000) ^ 2) with (624450121 / 25000000) by field. exact S7.
  - replace ((24989 / 5000) ^ 2) with (624450121 / 25000000) by field. exact S11.
  - replace ((49979 / 10000) ^ 2) with (2497900441 / 100000000) by field. exact S12.
  - clear; lra.
  - clear; lra.
  - replace ((711 / 100) ^ 2) with (505521 / 10000) by field. exact S8.
  - replace ((71101 / 10000) ^ 2) with (5055352201 / 100000000) by field. exact S9.
  - clear - C3. unfold near in C3. lra.
Qed.
(* ---- meijaard2007_browser_jasonlegs ---- *)
Lemma legs_sine : near (1 / 1000000000000) (sin (399680398707 / 1000000000000)) (1216012344189 / 3125000000000).
Proof. pose proof (sin_bounds (399680398707 / 1000000000000) ltac:(lra)) as B. unfold sin_low in B. unfold near. lra. Qed.
Lemma legs_cosine : near (1 / 1000000000000) (cos (399680398707 / 1000000000000)) (92118540556561 / 100000000000000).
Proof. pose proof (cos_bounds (399680398707 / 1000000000000) ltac:(lra)) as B. unfold cos_low in B. unfold near. lra. Qed.
Lemma legs_entries s k : near (1 / 1000000000000) s (1216012344189 / 3125000000000) -> near (1 / 1000000000000) k (92118540556561 / 100000000000000) ->
  near (49 / 10000000000000000) ((10187613295484862447367502373 / 500000000000000000000000000)) (509380664774243 / 25000000000000) /\
  near (27 / 10000000000000) ((-317301934431614847658317474157915049749 / 1401250000000000000000000000000000000000) * k + (38126225538169341753061 / 16000000000000000000000) * s) (71864409836581 / 100000000000000) /\
  near (3 / 625000000000) ((3651582252984916198679831819051815551114805554848169 / 7854006250000000000000000000000000000000000000000000) * (k * k) + (-40691644887788451759318257611483482001 / 28025000000000000000000000000000000000) * (s * k) + (38126225538169341753061 / 16000000000000000000000) * (s * s)) (23487581748501 / 100000000000000) /\
  near (3 / 250000000000) ((19528664379799670142236545749047438290210033363863 / 1641277630792630632074132500000000000000000000000) * k) (1096068104466437 / 100000000000000) /\
  near (1 / 2000000000000) ((-64184108564509260249402482648196589 / 131302210463410450565930600000000000) * k) (-22515029971769 / 50000000000000) /\
  near (41 / 10000000000000) ((-309738688730126743413963527030480186337 / 1963501562500000000000000000000000000000) * (k * k) + (75185858879579076516462043 / 28025000000000000000000000) * (s * k)) (827806557207 / 1000000000000) /\
  near (1 / 500000000000000) ((-13343091767721191 / 500000000000000)) (-1334309176772119 / 50000000000000) /\
  near (33 / 10000000000000) ((155350369885902743056743273 / 1401250000000000000000000000) * k + (-31032514537951 / 10000000000000) * s) (-110542172554061 / 100000000000000) /\
  near (13 / 5000000000000) ((155350369885902743056743273 / 1401250000000000000000000000) * (s * k) + (-31032514537951 / 10000000000000) * (s * s)) (-21507303420673 / 50000000000000) /\
  near (1 / 40000000000) ((8072632758180782324420424501817414163 / 328255526158526126414826500000000000) * k) (1132713829429287 / 50000000000000) /\
  near (47 / 10000000000000) ((-155350369885902743056743273 / 1570801250000000000000000000) * (k * k) + (303862191016190961620433 / 96274232985430000000000) * (s * k)) (104743825215071 / 100000000000000).
Proof.
  intros HS HK.
  assert (SS : near (39 / 50000000000000) (s * s) (15141744857293 / 100000000000000)) by (apply (near_mul (1 / 1000000000000) (1 / 1000000000000) _ (1216012344189 / 3125000000000) (1216012344189 / 3125000000000) _ (1216012344189 / 3125000000000) _ (1216012344189 / 3125000000000) _ HS HS); lra).
  assert (SK : near (7 / 5000000000000) (s * k) (7169106076509 / 20000000000000)) by (apply (near_mul (1 / 1000000000000) (1 / 1000000000000) _ (1216012344189 / 3125000000000) (92118540556561 / 100000000000000) _ (1216012344189 / 3125000000000) _ (92118540556561 / 100000000000000) _ HS HK); lra).
  assert (KK : near (19 / 10000000000000) (k * k) (21214563785677 / 25000000000000)) by (apply (near_mul (1 / 1000000000000) (1 / 1000000000000) _ (92118540556561 / 100000000000000) (92118540556561 / 100000000000000) _ (92118540556561 / 100000000000000) _ (92118540556561 / 100000000000000) _ HK HK); lra).
  unfold near in *. split; [lra|]. split; [lra|]. split; [lra|]. split; [lra|]. split; [lra|]. split; [lra|]. split; [lra|]. split; [lra|]. split; [lra|]. split; [lra|]. lra.
Qed.
Lemma legs_coefs a b d p q r x y z h j : near (49 / 10000000000000000) a (509380664774243 / 25000000000000) -> near (27 / 10000000000000) b (71864409836581 / 100000000000000) -> near (3 / 625000000000) d (23487581748501 / 100000000000000) -> near (3 / 250000000000) p (1096068104466437 / 100000000000000) -> near (1 / 2000000000000) q (-22515029971769 / 50000000000000) -> near (41 / 10000000000000) r (827806557207 / 1000000000000) -> near (1 / 500000000000000) x (-1334309176772119 / 50000000000000) -> near (33 / 10000000000000) y (-110542172554061 / 100000000000000) -> near (13 / 5000000000000) z (-21507303420673 / 50000000000000) -> near (1 / 40000000000) h (1132713829429287 / 50000000000000) -> near (47 / 10000000000000) j (104743825215071 / 100000000000000) ->
  near (11 / 100000000000) (a * d - b * b) (1667655727297 / 390625000000) /\
  near (13 / 100000000000) (a * r + d * 0 - b * q - b * p) (931352329803993 / 100000000000000) /\
  near (1 / 5000000000) (a * z + d * x - b * y - b * y) (-1344345318605083 / 100000000000000) /\
  near (19 / 100000000000) (a * j + d * 0 - b * 0 - b * h + (0 * r - p * q)) (124962884988981 / 12500000000000) /\
  near (17 / 100000000000) (0 * z + r * x - p * y - q * y) (-1047259482961537 / 100000000000000) /\
  near (23 / 1000000000000) (0 * j + r * 0 - p * 0 - q * h) (204024686552301 / 20000000000000) /\
  near (3 / 12500000000) (x * j + z * 0 - y * 0 - y * h) (-290959992150813 / 100000000000000) /\
  near (39 / 500000000000) (x * z - y * y) (1025699973743337 / 100000000000000).
Proof.
  intros Ha Hb Hd Hp Hq Hr Hx Hy Hz Hh Hj.
  assert (Nad : near (49 / 500000000000) (a * d) (478564800199633 / 100000000000000)) by (apply (near_mul (49 / 10000000000000000) (3 / 625000000000) _ (509380664774243 / 25000000000000) (23487581748501 / 100000000000000) _ (509380664774243 / 25000000000000) _ (23487581748501 / 100000000000000) _ Ha Hd); lra).
  assert (Nbb : near (39 / 10000000000000) (b * b) (51644934011601 / 100000000000000)) by (apply (near_mul (27 / 10000000000000) (27 / 10000000000000) _ (71864409836581 / 100000000000000) (71864409836581 / 100000000000000) _ (71864409836581 / 100000000000000) _ (71864409836581 / 100000000000000) _ Hb Hb); lra).
  assert (Nar : near (21 / 250000000000) (a * r) (421668654414579 / 25000000000000)) by (apply (near_mul (49 / 10000000000000000) (41 / 10000000000000) _ (509380664774243 / 25000000000000) (827806557207 / 1000000000000) _ (509380664774243 / 25000000000000) _ (827806557207 / 1000000000000) _ Ha Hr); lra).
  assert (Nbq : near (1 / 625000000000) (b * q) (-16180293413741 / 50000000000000)) by (apply (near_mul (27 / 10000000000000) (1 / 2000000000000) _ (71864409836581 / 100000000000000) (22515029971769 / 50000000000000) _ (71864409836581 / 100000000000000) _ (-22515029971769 / 50000000000000) _ Hb Hq); lra).
  assert (Nbp : near (39 / 1000000000000) (b * p) (157536574936361 / 20000000000000)) by (apply (near_mul (27 / 10000000000000) (3 / 250000000000) _ (71864409836581 / 100000000000000) (1096068104466437 / 100000000000000) _ (71864409836581 / 100000000000000) _ (1096068104466437 / 100000000000000) _ Hb Hp); lra).
  assert (Naz : near (53 / 1000000000000) (a * z) (-876432361113901 / 100000000000000)) by (apply (near_mul (49 / 10000000000000000) (13 / 5000000000000) _ (509380664774243 / 25000000000000) (21507303420673 / 50000000000000) _ (509380664774243 / 25000000000000) _ (-21507303420673 / 50000000000000) _ Ha Hz); lra).
  assert (Ndx : near (13 / 100000000000) (d * x) (-156698479336051 / 25000000000000)) by (apply (near_mul (3 / 625000000000) (1 / 500000000000000) _ (23487581748501 / 100000000000000) (1334309176772119 / 50000000000000) _ (23487581748501 / 100000000000000) _ (-1334309176772119 / 50000000000000) _ Hd Hx); lra).
  assert (Nby : near (27 / 5000000000000) (b * y) (-79440479926511 / 100000000000000)) by (apply (near_mul (27 / 10000000000000) (33 / 10000000000000) _ (71864409836581 / 100000000000000) (110542172554061 / 100000000000000) _ (71864409836581 / 100000000000000) _ (-110542172554061 / 100000000000000) _ Hb Hy); lra).
  assert (Naj : near (3 / 31250000000) (a * j) (2134179172761999 / 100000000000000)) by (apply (near_mul (49 / 10000000000000000) (47 / 10000000000000) _ (509380664774243 / 25000000000000) (104743825215071 / 100000000000000) _ (509380664774243 / 25000000000000) _ (104743825215071 / 100000000000000) _ Ha Hj); lra).
  assert (Nbh : near (1 / 12500000000) (b * h) (407009054328347 / 25000000000000)) by (apply (near_mul (27 / 10000000000000) (1 / 40000000000) _ (71864409836581 / 100000000000000) (1132713829429287 / 50000000000000) _ (71864409836581 / 100000000000000) _ (1132713829429287 / 50000000000000) _ Hb Hh); lra).
  assert (Npq : near (11 / 1000000000000) (p * q) (-493560124463237 / 100000000000000)) by (apply (near_mul (3 / 250000000000) (1 / 2000000000000) _ (1096068104466437 / 100000000000000) (22515029971769 / 50000000000000) _ (1096068104466437 / 100000000000000) _ (-22515029971769 / 50000000000000) _ Hp Hq); lra).
  assert (Nrx : near (11 / 100000000000) (r * x) (-552274942936717 / 25000000000000)) by (apply (near_mul (41 / 10000000000000) (1 / 500000000000000) _ (827806557207 / 1000000000000) (1334309176772119 / 50000000000000) _ (827806557207 / 1000000000000) _ (-1334309176772119 / 50000000000000) _ Hr Hx); lra).
  assert (Npy : near (1 / 20000000000) (p * y) (-605808747674657 / 50000000000000)) by (apply (near_mul (3 / 250000000000) (33 / 10000000000000) _ (1096068104466437 / 100000000000000) (110542172554061 / 100000000000000) _ (1096068104466437 / 100000000000000) _ (-110542172554061 / 100000000000000) _ Hp Hy); lra).
  assert (Nqy : near (21 / 10000000000000) (q * y) (49777206563983 / 100000000000000)) by (apply (near_mul (1 / 2000000000000) (33 / 10000000000000) _ (22515029971769 / 50000000000000) (110542172554061 / 100000000000000) _ (-22515029971769 / 50000000000000) _ (-110542172554061 / 100000000000000) _ Hq Hy); lra).
  assert (Nqh : near (23 / 1000000000000) (q * h) (-204024686552301 / 20000000000000)) by (apply (near_mul (1 / 2000000000000) (1 / 40000000000) _ (22515029971769 / 50000000000000) (1132713829429287 / 50000000000000) _ (-22515029971769 / 50000000000000) _ (1132713829429287 / 50000000000000) _ Hq Hh); lra).
  assert (Nxj : near (13 / 100000000000) (x * j) (-1397606471946841 / 50000000000000)) by (apply (near_mul (1 / 500000000000000) (47 / 10000000000000) _ (1334309176772119 / 50000000000000) (104743825215071 / 100000000000000) _ (-1334309176772119 / 50000000000000) _ (104743825215071 / 100000000000000) _ Hx Hj); lra).
  assert (Nyh : near (11 / 100000000000) (y * h) (-2504252951742869 / 100000000000000)) by (apply (near_mul (33 / 10000000000000) (1 / 40000000000) _ (110542172554061 / 100000000000000) (1132713829429287 / 50000000000000) _ (-110542172554061 / 100000000000000) _ (1132713829429287 / 50000000000000) _ Hy Hh); lra).
  assert (Nxz : near (7 / 100000000000) (x * z) (229579138574611 / 20000000000000)) by (apply (near_mul (1 / 500000000000000) (13 / 5000000000000) _ (1334309176772119 / 50000000000000) (21507303420673 / 50000000000000) _ (-1334309176772119 / 50000000000000) _ (-21507303420673 / 50000000000000) _ Hx Hz); lra).
  assert (Nyy : near (73 / 10000000000000) (y * y) (61097859564859 / 50000000000000)) by (apply (near_mul (33 / 10000000000000) (33 / 10000000000000) _ (110542172554061 / 100000000000000) (110542172554061 / 100000000000000) _ (-110542172554061 / 100000000000000) _ (-110542172554061 / 100000000000000) _ Hy Hy); lra).
  assert (Ca4 : near (11 / 100000000000) (a * d - b * b) (1667655727297 / 390625000000)) by (clear - Nad Nbb; unfold near in *; lra).
  assert (Ck3 : near (13 / 100000000000) (a * r + d * 0 - b * q - b * p) (931352329803993 / 100000000000000)) by (clear - Nar Nbq Nbp; unfold near in *; lra).
  assert (Cm1 : near (1 / 5000000000) (a * z + d * x - b * y - b * y) (-1344345318605083 / 100000000000000)) by (clear - Naz Ndx Nby; unfold near in *; lra).
  assert (Cm2 : near (19 / 100000000000) (a * j + d * 0 - b * 0 - b * h + (0 * r - p * q)) (124962884988981 / 12500000000000)) by (clear - Naj Nbh Npq; unfold near in *; lra).
  assert (Cm3 : near (17 / 100000000000) (0 * z + r * x - p * y - q * y) (-1047259482961537 / 100000000000000)) by (clear - Nrx Npy Nqy; unfold near in *; lra).
  assert (Cm4 : near (23 / 1000000000000) (0 * j + r * 0 - p * 0 - q * h) (204024686552301 / 20000000000000)) by (clear - Nqh; unfold near in *; lra).
  assert (Cm5 : near (3 / 12500000000) (x * j + z * 0 - y * 0 - y * h) (-290959992150813 / 100000000000000)) by (clear - Nxj Nyh; unfold near in *; lra).
  assert (Cdk : near (39 / 500000000000) (x * z - y * y) (1025699973743337 / 100000000000000)) by (clear - Nxz Nyy; unfold near in *; lra).
  repeat (split; [assumption|]). assumption.
Qed.
Lemma legs_signs a4 k3 m1 m2 m3 m4 m5 dk : near (11 / 100000000000) a4 (1667655727297 / 390625000000) -> near (13 / 100000000000) k3 (931352329803993 / 100000000000000) -> near (1 / 5000000000) m1 (-1344345318605083 / 100000000000000) -> near (19 / 100000000000) m2 (124962884988981 / 12500000000000) -> near (17 / 100000000000) m3 (-1047259482961537 / 100000000000000) -> near (23 / 1000000000000) m4 (204024686552301 / 20000000000000) -> near (3 / 12500000000) m5 (-290959992150813 / 100000000000000) -> near (39 / 500000000000) dk (1025699973743337 / 100000000000000) ->
  0 < k3 /\ 0 < m4 /\ 0 < m2 /\ m5 < 0 /\ 0 < m2 * k3 - a4 * m4 /\ 0 < (981 / 100) * m3 + (21520321 / 1000000) * m4 /\ 0 < (981 / 100) * m1 + (21520321 / 1000000) * m2 /\ 0 < (981 / 100) * ((981 / 100) * dk + (864536409 / 25000000) * m5) /\ (981 / 100) * ((981 / 100) * dk + (3458263249 / 100000000) * m5) < 0 /\
  ((981 / 100) * m3 + (0) * m4) * ((981 / 100) * m1 + (0) * m2) * k3 - a4 * ((981 / 100) * m3 + (0) * m4) ^ 2 - (981 / 100) * ((981 / 100) * dk + (0) * m5) * k3 ^ 2 < 0 /\
  ((981 / 100) * m3 + (21520321 / 1000000) * m4) * ((981 / 100) * m1 + (21520321 / 1000000) * m2) * k3 - a4 * ((981 / 100) * m3 + (21520321 / 1000000) * m4) ^ 2 - (981 / 100) * ((981 / 100) * dk + (21520321 / 1000000) * m5) * k3 ^ 2 <= 0 /\
  0 < ((981 / 100) * m3 + (33628401 / 1562500) * m4) * ((981 / 100) * m1 + (33628401 / 1562500) * m2) * k3 - a4 * ((981 / 100) * m3 + (33628401 / 1562500) * m4) ^ 2 - (981 / 100) * ((981 / 100) * dk + (33628401 / 1562500) * m5) * k3 ^ 2.
Proof.
  intros Ha4 Hk3 Hm1 Hm2 Hm3 Hm4 Hm5 Hdk.
  assert (P1 : near (31 / 10000000000) (m2 * k3) (931075792588127 / 10000000000000)) by (apply (near_mul (19 / 100000000000) (13 / 100000000000) _ (124962884988981 / 12500000000000) (931352329803993 / 100000000000000) _ (124962884988981 / 12500000000000) _ (931352329803993 / 100000000000000) _ Hm2 Hk3); lra).
  assert (P2 : near (13 / 10000000000) (a4 * m4) (8506073425973 / 195312500000)) by (apply (near_mul (11 / 100000000000) (23 / 1000000000000) _ (1667655727297 / 390625000000) (204024686552301 / 20000000000000) _ (1667655727297 / 390625000000) _ (204024686552301 / 20000000000000) _ Ha4 Hm4); lra).
  split; [unfold near in *; lra|]. split; [unfold near in *; lra|]. split; [unfold near in *; lra|]. split; [unfold near in *; lra|]. split; [unfold near in *; lra|]. split; [unfold near in *; lra|]. split; [unfold near in *; lra|]. split; [unfold near in *; lra|]. split; [unfold near in *; lra|]. 
  split.
  {
  assert (B1 : near (17 / 10000000000) ((981 / 100) * m3 + (0) * m4) (-5136807763926339 / 50000000000000)) by (clear - Hm3 Hm4; unfold near in *; lra).
  assert (B2 : near (1 / 500000000) ((981 / 100) * m1 + (0) * m2) (-1648503446939483 / 12500000000000)) by (clear - Hm1 Hm2; unfold near in *; lra).
  assert (B0 : near (19 / 2500000000) ((981 / 100) * ((981 / 100) * dk + (0) * m5)) (49354682621580577 / 50000000000000)) by (clear - Hdk Hm5; unfold near in *; lra).
    set (b1 := _ + _ * m4) in *. set (b2 := _ + _ * m2) in *. set (b0 := _ * (_ + _ * m5)) in *. clearbody b1 b2 b0.
  assert (T1 : near (43 / 100000000) (b1 * b2) (84680453050980679 / 6250000000000)) by (apply (near_mul (17 / 10000000000) (1 / 500000000) _ (5136807763926339 / 50000000000000) (1648503446939483 / 12500000000000) _ (-5136807763926339 / 50000000000000) _ (-1648503446939483 / 12500000000000) _ B1 B2); lra).
  assert (T2 : near (29 / 5000000) ((b1 * b2) * k3) (6309386979031080209 / 50000000000000)) by (apply (near_mul (43 / 100000000) (13 / 100000000000) _ (84680453050980679 / 6250000000000) (931352329803993 / 100000000000000) _ (84680453050980679 / 6250000000000) _ (931352329803993 / 100000000000000) _ T1 Hk3); lra).
  assert (T3 : near (7 / 20000000) (b1 * b1) (263867940035339149 / 25000000000000)) by (apply (near_mul (17 / 10000000000) (17 / 10000000000) _ (5136807763926339 / 50000000000000) (5136807763926339 / 50000000000000) _ (-5136807763926339 / 50000000000000) _ (-5136807763926339 / 50000000000000) _ B1 B1); lra).
  assert (T4 : near (27 / 10000000) (a4 * (b1 * b1)) (90120372520958913 / 2000000000000)) by (apply (near_mul (11 / 100000000000) (7 / 20000000) _ (1667655727297 / 390625000000) (263867940035339149 / 25000000000000) _ (1667655727297 / 390625000000) _ (263867940035339149 / 25000000000000) _ Ha4 T3); lra).
  assert (T5 : near (1 / 400000000) (k3 * k3) (8674171622313257 / 100000000000000)) by (apply (near_mul (13 / 100000000000) (13 / 100000000000) _ (931352329803993 / 100000000000000) (931352329803993 / 100000000000000) _ (931352329803993 / 100000000000000) _ (931352329803993 / 100000000000000) _ Hk3 Hk3); lra).
  assert (T6 : near (1 / 312500) (b0 * (k3 * k3)) (267569367140244691 / 3125000000000)) by (apply (near_mul (19 / 2500000000) (1 / 400000000) _ (49354682621580577 / 50000000000000) (8674171622313257 / 100000000000000) _ (49354682621580577 / 50000000000000) _ (8674171622313257 / 100000000000000) _ B0 T5); lra).
    clear - T2 T4 T6. unfold near in *. replace (b1 ^ 2) with (b1 * b1) by ring. replace (k3 ^ 2) with (k3 * k3) by ring. lra. }
  split.
  {
  assert (B1 : near (11 / 5000000000) ((981 / 100) * m3 + (21520321 / 1000000) * m4) (5839884102398413 / 50000000000000)) by (clear - Hm3 Hm4; unfold near in *; lra).
  assert (B2 : near (61 / 10000000000) ((981 / 100) * m1 + (21520321 / 1000000) * m2) (2081475902218939 / 25000000000000)) by (clear - Hm1 Hm2; unfold near in *; lra).
  assert (B0 : near (59 / 1000000000) ((981 / 100) * ((981 / 100) * dk + (21520321 / 1000000) * m5)) (18641767956143779 / 50000000000000)) by (clear - Hdk Hm5; unfold near in *; lra).
    set (b1 := _ + _ * m4) in *. set (b2 := _ + _ * m2) in *. set (b0 := _ * (_ + _ * m5)) in *. clearbody b1 b2 b0.
  assert (T1 : near (9 / 10000000) (b1 * b2) (243111560617875509 / 25000000000000)) by (apply (near_mul (11 / 5000000000) (61 / 10000000000) _ (5839884102398413 / 50000000000000) (2081475902218939 / 25000000000000) _ (5839884102398413 / 50000000000000) _ (2081475902218939 / 25000000000000) _ B1 B2); lra).
  assert (T2 : near (97 / 10000000) ((b1 * b2) * k3) (2264225183837430273 / 25000000000000)) by (apply (near_mul (9 / 10000000) (13 / 100000000000) _ (243111560617875509 / 25000000000000) (931352329803993 / 100000000000000) _ (243111560617875509 / 25000000000000) _ (931352329803993 / 100000000000000) _ T1 Hk3); lra).
  assert (T3 : near (13 / 25000000) (b1 * b1) (341042463294457179 / 25000000000000)) by (apply (near_mul (11 / 5000000000) (11 / 5000000000) _ (5839884102398413 / 50000000000000) (5839884102398413 / 50000000000000) _ (5839884102398413 / 50000000000000) _ (5839884102398413 / 50000000000000) _ B1 B1); lra).
  assert (T4 : near (19 / 5000000) (a4 * (b1 * b1)) (2911956055882129477 / 50000000000000)) by (apply (near_mul (11 / 100000000000) (13 / 25000000) _ (1667655727297 / 390625000000) (341042463294457179 / 25000000000000) _ (1667655727297 / 390625000000) _ (341042463294457179 / 25000000000000) _ Ha4 T3); lra).
  assert (T5 : near (1 / 400000000) (k3 * k3) (8674171622313257 / 100000000000000)) by (apply (near_mul (13 / 100000000000) (13 / 100000000000) _ (931352329803993 / 100000000000000) (931352329803993 / 100000000000000) _ (931352329803993 / 100000000000000) _ (931352329803993 / 100000000000000) _ Hk3 Hk3); lra).
  assert (T6 : near (61 / 10000000) (b0 * (k3 * k3)) (3234037891898619453 / 100000000000000)) by (apply (near_mul (59 / 1000000000) (1 / 400000000) _ (18641767956143779 / 50000000000000) (8674171622313257 / 100000000000000) _ (18641767956143779 / 50000000000000) _ (8674171622313257 / 100000000000000) _ B0 T5); lra).
    clear - T2 T4 T6. unfold near in *. replace (b1 ^ 2) with (b1 * b1) by ring. replace (k3 ^ 2) with (k3 * k3) by ring. lra. }
  {
  assert (B1 : near (11 / 5000000000) ((981 / 100) * m3 + (33628401 / 1562500) * m4) (2920415296660899 / 25000000000000)) by (clear - Hm3 Hm4; unfold near in *; lra).
  assert (B2 : near (61 / 10000000000) ((981 / 100) * m1 + (33628401 / 1562500) * m2) (2081939674474741 / 25000000000000)) by (clear - Hm1 Hm2; unfold near in *; lra).
  assert (B0 : near (59 / 1000000000) ((981 / 100) * ((981 / 100) * dk + (33628401 / 1562500) * m5)) (37278239326519179 / 100000000000000)) by (clear - Hdk Hm5; unfold near in *; lra).
    set (b1 := _ + _ * m4) in *. set (b2 := _ + _ * m2) in *. set (b0 := _ * (_ + _ * m5)) in *. clearbody b1 b2 b0.
  assert (T1 : near (9 / 10000000) (b1 * b2) (972820555529799397 / 100000000000000)) by (apply (near_mul (11 / 5000000000) (61 / 10000000000) _ (2920415296660899 / 25000000000000) (2081939674474741 / 25000000000000) _ (2920415296660899 / 25000000000000) _ (2081939674474741 / 25000000000000) _ B1 B2); lra).
  assert (T2 : near (97 / 10000000) ((b1 * b2) * k3) (4530193454369467071 / 50000000000000)) by (apply (near_mul (9 / 10000000) (13 / 100000000000) _ (972820555529799397 / 100000000000000) (931352329803993 / 100000000000000) _ (972820555529799397 / 100000000000000) _ (931352329803993 / 100000000000000) _ T1 Hk3); lra).
  assert (T3 : near (13 / 25000000) (b1 * b1) (682306040397677337 / 50000000000000)) by (apply (near_mul (11 / 5000000000) (11 / 5000000000) _ (2920415296660899 / 25000000000000) (2920415296660899 / 25000000000000) _ (2920415296660899 / 25000000000000) _ (2920415296660899 / 25000000000000) _ B1 B1); lra).
  assert (T4 : near (19 / 5000000) (a4 * (b1 * b1)) (91028126083081989 / 1562500000000)) by (apply (near_mul (11 / 100000000000) (13 / 25000000) _ (1667655727297 / 390625000000) (682306040397677337 / 50000000000000) _ (1667655727297 / 390625000000) _ (682306040397677337 / 50000000000000) _ Ha4 T3); lra).
  assert (T5 : near (1 / 400000000) (k3 * k3) (8674171622313257 / 100000000000000)) by (apply (near_mul (13 / 100000000000) (13 / 100000000000) _ (931352329803993 / 100000000000000) (931352329803993 / 100000000000000) _ (931352329803993 / 100000000000000) _ (931352329803993 / 100000000000000) _ Hk3 Hk3); lra).
  assert (T6 : near (61 / 10000000) (b0 * (k3 * k3)) (3233578456958947239 / 100000000000000)) by (apply (near_mul (59 / 1000000000) (1 / 400000000) _ (37278239326519179 / 100000000000000) (8674171622313257 / 100000000000000) _ (37278239326519179 / 100000000000000) _ (8674171622313257 / 100000000000000) _ B0 T5); lra).
    clear - T2 T4 T6. unfold near in *. replace (b1 ^ 2) with (b1 * b1) by ring. replace (k3 ^ 2) with (k3 * k3) by ring. lra. }
Qed.
Lemma legs_window : exists vw vc, 4639 / 1000 <= vw < 5799 / 1250 /\ 29403 / 5000 < vc < 58807 / 10000 /\
  forall v, (stable_conditions (F_canon (pv meijaard2007_browser_jasonlegs)) (981 / 100) v <-> vw < v < vc) /\ (v < vw \/ vc < v -> violated (F_canon (pv meijaard2007_browser_jasonlegs)) (981 / 100) v).
Proof.
  rewrite legs_canon. pose proof (legs_entries _ _ legs_sine legs_cosine) as HE. unfold legs_matrices. revert HE. set (s := sin _). set (k := cos _). clearbody s k.
  intros (Ha & Hb & Hd & Hp & Hq & Hr & Hx & Hy & Hz & Hh & Hj).
  repeat match goal with H : near _ ?e _ |- _ => is_var e; fail 1 | H : near ?d ?e ?v |- _ => let n := fresh "e" in set (n := e) in *; clearbody n end.
  match goal with |- context [mkcanon (mk2 ?a ?b ?b ?d) (mk2 0 ?p ?q ?r) (mk2 ?x ?y ?y ?z) (mk2 0 ?h 0 ?j)] => pose proof (legs_coefs a b d p q r x y z h j Ha Hb Hd Hp Hq Hr Hx Hy Hz Hh Hj) as (C1 & C2 & C3 & C4 & C5 & C6 & C7 & C8) end.
  pose proof (legs_signs _ _ _ _ _ _ _ _ C1 C2 C3 C4 C5 C6 C7 C8) as (S1 & S2 & S3 & S4 & S5 & S6 & S7 & S8 & S9 & S10 & S11 & S12). clear C1 C2 C4 C5 C6 C7 C8 Ha Hb Hd Hp Hq Hr Hx Hy Hz Hh Hj.
  unfold stable_conditions, violated. apply one_window; unfold weave_c, first_c, second_c, constant_c, damping_c, inertia_c, mixed, determinant; cbn [cM cC1 cK0 cK2 m11 m12 m21 m22].
  all: idtac.
  - clear; lra.
  - exact S1.
  - exact S2.
  - exact S3.
  - exact S4.
  - exact S5.
  - exact S10.
  - clear; lra.
  - replace ((4639 / 1000) ^ 2) with (21520321 / 1000000) by field. exact S6.
  - replace ((4639 / 1000) ^ 2) with (21520321 / 1000000) by field. exact S7.
  - replace ((4639 / 1000) ^ 2) with (21520321 / 1000000) by field. exact S11.
  - replace ((5799 / 1250) ^ 2) with (33628401 / 1562500) by field. exact S12.
  - clear; lra.
  - clear; lra.
  - replace ((29403 / 5000) ^ 2) with (864536409 / 25000000) by field. exact S8.
  - replace ((58807 / 10000) ^ 2) with (3458263249 / 100000000) by field. exact S9.
  - clear - C3. unfold near in C3. lra.
Qed.
(* ---- bench07 ---- *)
Lemma bench_sine : near (1 / 10000000000000) (sin (PI / 10)) (6180339887499 / 20000000000000).
Proof.
  rewrite sin_18. assert (R5 : sqrt 5 * sqrt 5 = 5) by (apply sqrt_sqrt; lra). assert (P5 : 0 <= sqrt 5) by apply sqrt_pos. unfold near. split; apply Rnot_lt_le; intros L; set (q := sqrt 5) in *; clearbody q; nra.
Qed.
Lemma bench_cosine : near (1 / 1000000000000) (cos (PI / 10)) (19021130325903 / 20000000000000).
Proof.
  pose proof bench_sine as S. pose proof PI_RGT_0. assert (K : 0 < cos (PI / 10)) by (apply cos_gt_0; lra). pose proof (sin2_cos2 (PI / 10)) as X. unfold Rsqr in X. set (s := sin (PI / 10)) in *. set (k := cos (PI / 10)) in *. clearbody s k.
  assert (SS : near (1 / 15625000000000) (s * s) (9549150281253 / 100000000000000)) by (apply (near_mul (1 / 10000000000000) (1 / 10000000000000) _ (6180339887499 / 20000000000000) (6180339887499 / 20000000000000) _ (6180339887499 / 20000000000000) _ (6180339887499 / 20000000000000) _ S S); lra).
  unfold near in SS |- *. clear S. split; apply Rnot_lt_le; intros L; nra.
Qed.
Lemma bench_sine' : near (1 / 1000000000000) (sin (PI / 10)) (6180339887499 / 20000000000000).
Proof. pose proof bench_sine as S. unfold near in *. lra. Qed.
Lemma bench_entries s k : near (1 / 1000000000000) s (6180339887499 / 20000000000000) -> near (1 / 1000000000000) k (19021130325903 / 20000000000000) ->
  near (1 / 100000000000000) ((4040861 / 50000)) (4040861 / 50000) /\
  near (21 / 5000000000000) ((137507 / 85000) * k + (63173 / 25000) * s) (231941332208709 / 100000000000000) /\
  near (1 / 312500000000) ((7888343 / 26010000) * (k * k) + (-31493 / 42500) * (s * k) + (63173 / 25000) * (s * s)) (14892094099843 / 50000000000000) /\
  near (9 / 250000000000) ((227009 / 6375) * k) (1693320695746241 / 50000000000000) /\
  near (9 / 10000000000000) ((-76 / 85) * k) (-42517820728489 / 50000000000000) /\
  near (63 / 10000000000000) ((324461 / 520200) * (k * k) + (48643 / 12750) * (s * k)) (168540397397561 / 100000000000000) /\
  near (1 / 100000000000000) ((-1619 / 20)) (-1619 / 20) /\
  near (27 / 5000000000000) ((-126 / 85) * k + (-77 / 20) * s) (-16246980328117 / 6250000000000) /\
  near (11 / 2500000000000) ((-126 / 85) * (s * k) + (-77 / 20) * (s * s)) (-4016474422931 / 5000000000000) /\
  near (81 / 1000000000000) ((8215 / 102) * k) (7659734589573193 / 100000000000000) /\
  near (89 / 10000000000000) ((420 / 289) * (k * k) + (155 / 34) * (s * k)) (53086304758921 / 20000000000000).
Proof.
  intros HS HK.
  assert (SS : near (63 / 100000000000000) (s * s) (9549150281253 / 100000000000000)) by (apply (near_mul (1 / 1000000000000) (1 / 1000000000000) _ (6180339887499 / 20000000000000) (6180339887499 / 20000000000000) _ (6180339887499 / 20000000000000) _ (6180339887499 / 20000000000000) _ HS HS); lra).
  assert (SK : near (13 / 10000000000000) (s * k) (918414456707 / 3125000000000)) by (apply (near_mul (1 / 1000000000000) (1 / 1000000000000) _ (6180339887499 / 20000000000000) (19021130325903 / 20000000000000) _ (6180339887499 / 20000000000000) _ (19021130325903 / 20000000000000) _ HS HK); lra).
  assert (KK : near (1 / 500000000000) (k * k) (90450849718747 / 100000000000000)) by (apply (near_mul (1 / 1000000000000) (1 / 1000000000000) _ (19021130325903 / 20000000000000) (19021130325903 / 20000000000000) _ (19021130325903 / 20000000000000) _ (19021130325903 / 20000000000000) _ HK HK); lra).
  unfold near in *. split; [lra|]. split; [lra|]. split; [lra|]. split; [lra|]. split; [lra|]. split; [lra|]. split; [lra|]. split; [lra|]. split; [lra|]. split; [lra|]. lra.
Qed.
Lemma bench_coefs a b d p q r x y z h j : near (1 / 100000000000000) a (4040861 / 50000) -> near (21 / 5000000000000) b (231941332208709 / 100000000000000) -> near (1 / 312500000000) d (14892094099843 / 50000000000000) -> near (9 / 250000000000) p (1693320695746241 / 50000000000000) -> near (9 / 10000000000000) q (-42517820728489 / 50000000000000) -> near (63 / 10000000000000) r (168540397397561 / 100000000000000) -> near (1 / 100000000000000) x (-1619 / 20) -> near (27 / 5000000000000) y (-16246980328117 / 6250000000000) -> near (11 / 2500000000000) z (-4016474422931 / 5000000000000) -> near (81 / 1000000000000) h (7659734589573193 / 100000000000000) -> near (89 / 10000000000000) j (53086304758921 / 20000000000000) ->
  near (7 / 25000000000) (a * d - b * b) (23363843429849 / 1250000000000) /\
  near (3 / 4000000000) (a * r + d * 0 - b * q - b * p) (1490794503613607 / 25000000000000) /\
  near (67 / 100000000000) (a * z + d * x - b * y - b * y) (-7697165172277249 / 100000000000000) /\
  near (13 / 10000000000) (a * j + d * 0 - b * 0 - b * h + (0 * r - p * q)) (6565199633839633 / 100000000000000) /\
  near (81 / 100000000000) (0 * z + r * x - p * y - q * y) (-2530382690904297 / 50000000000000) /\
  near (7 / 50000000000) (0 * j + r * 0 - p * 0 - q * h) (3256752221072793 / 50000000000000) /\
  near (7 / 5000000000) (x * j + z * 0 - y * 0 - y * h) (-1575072699910393 / 100000000000000) /\
  near (39 / 100000000000) (x * z - y * y) (1456730826020701 / 25000000000000).
Proof.
  intros Ha Hb Hd Hp Hq Hr Hx Hy Hz Hh Hj.
  assert (Nad : near (13 / 50000000000) (a * d) (2407075290255427 / 100000000000000)) by (apply (near_mul (1 / 100000000000000) (1 / 312500000000) _ (4040861 / 50000) (14892094099843 / 50000000000000) _ (4040861 / 50000) _ (14892094099843 / 50000000000000) _ Ha Hd); lra).
  assert (Nbb : near (1 / 50000000000) (b * b) (537967815867507 / 100000000000000)) by (apply (near_mul (21 / 5000000000000) (21 / 5000000000000) _ (231941332208709 / 100000000000000) (231941332208709 / 100000000000000) _ (231941332208709 / 100000000000000) _ (231941332208709 / 100000000000000) _ Hb Hb); lra).
  assert (Nar : near (51 / 100000000000) (a * r) (2724193275073223 / 20000000000000)) by (apply (near_mul (1 / 100000000000000) (63 / 10000000000000) _ (4040861 / 50000) (168540397397561 / 100000000000000) _ (4040861 / 50000) _ (168540397397561 / 100000000000000) _ Ha Hr); lra).
  assert (Nbq : near (57 / 10000000000000) (b * q) (-12327049977971 / 6250000000000)) by (apply (near_mul (21 / 5000000000000) (9 / 10000000000000) _ (231941332208709 / 100000000000000) (42517820728489 / 50000000000000) _ (231941332208709 / 100000000000000) _ (-42517820728489 / 50000000000000) _ Hb Hq); lra).
  assert (Nbp : near (23 / 100000000000) (b * p) (7855021160559223 / 100000000000000)) by (apply (near_mul (21 / 5000000000000) (9 / 250000000000) _ (231941332208709 / 100000000000000) (1693320695746241 / 50000000000000) _ (231941332208709 / 100000000000000) _ (1693320695746241 / 50000000000000) _ Hb Hp); lra).
  assert (Naz : near (9 / 25000000000) (a * z) (-6492005941247753 / 100000000000000)) by (apply (near_mul (1 / 100000000000000) (11 / 2500000000000) _ (4040861 / 50000) (4016474422931 / 5000000000000) _ (4040861 / 50000) _ (-4016474422931 / 5000000000000) _ Ha Hz); lra).
  assert (Ndx : near (13 / 50000000000) (d * x) (-1205515017382291 / 50000000000000)) by (apply (near_mul (1 / 312500000000) (1 / 100000000000000) _ (14892094099843 / 50000000000000) (1619 / 20) _ (14892094099843 / 50000000000000) _ (-1619 / 20) _ Hd Hx); lra).
  assert (Nby : near (3 / 125000000000) (b * y) (-602935401867543 / 100000000000000)) by (apply (near_mul (21 / 5000000000000) (27 / 5000000000000) _ (231941332208709 / 100000000000000) (16246980328117 / 6250000000000) _ (231941332208709 / 100000000000000) _ (-16246980328117 / 6250000000000) _ Hb Hy); lra).
  assert (Naj : near (9 / 12500000000) (a * j) (21451437853443827 / 100000000000000)) by (apply (near_mul (1 / 100000000000000) (89 / 10000000000000) _ (4040861 / 50000) (53086304758921 / 20000000000000) _ (4040861 / 50000) _ (53086304758921 / 20000000000000) _ Ha Hj); lra).
  assert (Nbh : near (51 / 100000000000) (b * h) (2220761306338419 / 12500000000000)) by (apply (near_mul (21 / 5000000000000) (81 / 1000000000000) _ (231941332208709 / 100000000000000) (7659734589573193 / 100000000000000) _ (231941332208709 / 100000000000000) _ (7659734589573193 / 100000000000000) _ Hb Hh); lra).
  assert (Npq : near (31 / 500000000000) (p * q) (-1439926115551579 / 50000000000000)) by (apply (near_mul (9 / 250000000000) (9 / 10000000000000) _ (1693320695746241 / 50000000000000) (42517820728489 / 50000000000000) _ (1693320695746241 / 50000000000000) _ (-42517820728489 / 50000000000000) _ Hp Hq); lra).
  assert (Nrx : near (13 / 25000000000) (r * x) (-13643345169332563 / 100000000000000)) by (apply (near_mul (63 / 10000000000000) (1 / 100000000000000) _ (168540397397561 / 100000000000000) (1619 / 20) _ (168540397397561 / 100000000000000) _ (-1619 / 20) _ Hr Hx); lra).
  assert (Npy : near (7 / 25000000000) (p * y) (-4401815685277211 / 50000000000000)) by (apply (near_mul (9 / 250000000000) (27 / 5000000000000) _ (1693320695746241 / 50000000000000) (16246980328117 / 6250000000000) _ (1693320695746241 / 50000000000000) _ (-16246980328117 / 6250000000000) _ Hp Hy); lra).
  assert (Nqy : near (7 / 1000000000000) (q * y) (221051583030453 / 100000000000000)) by (apply (near_mul (9 / 10000000000000) (27 / 5000000000000) _ (42517820728489 / 50000000000000) (16246980328117 / 6250000000000) _ (-42517820728489 / 50000000000000) _ (-16246980328117 / 6250000000000) _ Hq Hy); lra).
  assert (Nqh : near (7 / 50000000000) (q * h) (-3256752221072793 / 50000000000000)) by (apply (near_mul (9 / 10000000000000) (81 / 1000000000000) _ (42517820728489 / 50000000000000) (7659734589573193 / 100000000000000) _ (-42517820728489 / 50000000000000) _ (7659734589573193 / 100000000000000) _ Hq Hh); lra).
  assert (Nxj : near (73 / 100000000000) (x * j) (-859467274046931 / 4000000000000)) by (apply (near_mul (1 / 100000000000000) (89 / 10000000000000) _ (1619 / 20) (53086304758921 / 20000000000000) _ (-1619 / 20) _ (53086304758921 / 20000000000000) _ Hx Hj); lra).
  assert (Nyh : near (63 / 100000000000) (y * h) (-9955804575631441 / 50000000000000)) by (apply (near_mul (27 / 5000000000000) (81 / 1000000000000) _ (16246980328117 / 6250000000000) (7659734589573193 / 100000000000000) _ (-16246980328117 / 6250000000000) _ (7659734589573193 / 100000000000000) _ Hy Hh); lra).
  assert (Nxz : near (9 / 25000000000) (x * z) (6502672090725289 / 100000000000000)) by (apply (near_mul (1 / 100000000000000) (11 / 2500000000000) _ (1619 / 20) (4016474422931 / 5000000000000) _ (-1619 / 20) _ (-4016474422931 / 5000000000000) _ Hx Hz); lra).
  assert (Nyy : near (29 / 1000000000000) (y * y) (135149757328497 / 20000000000000)) by (apply (near_mul (27 / 5000000000000) (27 / 5000000000000) _ (16246980328117 / 6250000000000) (16246980328117 / 6250000000000) _ (-16246980328117 / 6250000000000) _ (-16246980328117 / 6250000000000) _ Hy Hy); lra).
  assert (Ca4 : near (7 / 25000000000) (a * d - b * b) (23363843429849 / 1250000000000)) by (clear - Nad Nbb; unfold near in *; lra).
  assert (Ck3 : near (3 / 4000000000) (a * r + d * 0 - b * q - b * p) (1490794503613607 / 25000000000000)) by (clear - Nar Nbq Nbp; unfold near in *; lra).
  assert (Cm1 : near (67 / 100000000000) (a * z + d * x - b * y - b * y) (-7697165172277249 / 100000000000000)) by (clear - Naz Ndx Nby; unfold near in *; lra).
  assert (Cm2 : near (13 / 10000000000) (a * j + d * 0 - b * 0 - b * h + (0 * r - p * q)) (6565199633839633 / 100000000000000)) by (clear - Naj Nbh Npq; unfold near in *; lra).
  assert (Cm3 : near (81 / 100000000000) (0 * z + r * x - p * y - q * y) (-2530382690904297 / 50000000000000)) by (clear - Nrx Npy Nqy; unfold near in *; lra).
  assert (Cm4 : near (7 / 50000000000) (0 * j + r * 0 - p * 0 - q * h) (3256752221072793 / 50000000000000)) by (clear - Nqh; unfold near in *; lra).
  assert (Cm5 : near (7 / 5000000000) (x * j + z * 0 - y * 0 - y * h) (-1575072699910393 / 100000000000000)) by (clear - Nxj Nyh; unfold near in *; lra).
  assert (Cdk : near (39 / 100000000000) (x * z - y * y) (1456730826020701 / 25000000000000)) by (clear - Nxz Nyy; unfold near in *; lra).
  repeat (split; [assumption|]). assumption.
Qed.
Lemma bench_signs a4 k3 m1 m2 m3 m4 m5 dk : near (7 / 25000000000) a4 (23363843429849 / 1250000000000) -> near (3 / 4000000000) k3 (1490794503613607 / 25000000000000) -> near (67 / 100000000000) m1 (-7697165172277249 / 100000000000000) -> near (13 / 10000000000) m2 (6565199633839633 / 100000000000000) -> near (81 / 100000000000) m3 (-2530382690904297 / 50000000000000) -> near (7 / 50000000000) m4 (3256752221072793 / 50000000000000) -> near (7 / 5000000000) m5 (-1575072699910393 / 100000000000000) -> near (39 / 100000000000) dk (1456730826020701 / 25000000000000) ->
  0 < k3 /\ 0 < m4 /\ 0 < m2 /\ m5 < 0 /\ 0 < m2 * k3 - a4 * m4 /\ 0 < (981 / 100) * m3 + (1151329 / 62500) * m4 /\ 0 < (981 / 100) * m1 + (1151329 / 62500) * m2 /\ 0 < (981 / 100) * ((981 / 100) * dk + (567009 / 15625) * m5) /\ (981 / 100) * ((981 / 100) * dk + (58081 / 1600) * m5) < 0 /\
  ((981 / 100) * m3 + (0) * m4) * ((981 / 100) * m1 + (0) * m2) * k3 - a4 * ((981 / 100) * m3 + (0) * m4) ^ 2 - (981 / 100) * ((981 / 100) * dk + (0) * m5) * k3 ^ 2 < 0 /\
  ((981 / 100) * m3 + (1151329 / 62500) * m4) * ((981 / 100) * m1 + (1151329 / 62500) * m2) * k3 - a4 * ((981 / 100) * m3 + (1151329 / 62500) * m4) ^ 2 - (981 / 100) * ((981 / 100) * dk + (1151329 / 62500) * m5) * k3 ^ 2 <= 0 /\
  0 < ((981 / 100) * m3 + (18429849 / 1000000) * m4) * ((981 / 100) * m1 + (18429849 / 1000000) * m2) * k3 - a4 * ((981 / 100) * m3 + (18429849 / 1000000) * m4) ^ 2 - (981 / 100) * ((981 / 100) * dk + (18429849 / 1000000) * m5) * k3 ^ 2.
Proof.
  intros Ha4 Hk3 Hm1 Hm2 Hm3 Hm4 Hm5 Hdk.
  assert (P1 : near (13 / 100000000) (m2 * k3) (97873635292541901 / 25000000000000)) by (apply (near_mul (13 / 10000000000) (3 / 4000000000) _ (6565199633839633 / 100000000000000) (1490794503613607 / 25000000000000) _ (6565199633839633 / 100000000000000) _ (1490794503613607 / 25000000000000) _ Hm2 Hk3); lra).
  assert (P2 : near (21 / 1000000000) (a4 * m4) (6087219918636617 / 5000000000000)) by (apply (near_mul (7 / 25000000000) (7 / 50000000000) _ (23363843429849 / 1250000000000) (3256752221072793 / 50000000000000) _ (23363843429849 / 1250000000000) _ (3256752221072793 / 50000000000000) _ Ha4 Hm4); lra).
  split; [unfold near in *; lra|]. split; [unfold near in *; lra|]. split; [unfold near in *; lra|]. split; [unfold near in *; lra|]. split; [unfold near in *; lra|]. split; [unfold near in *; lra|]. split; [unfold near in *; lra|]. split; [unfold near in *; lra|]. split; [unfold near in *; lra|]. 
  split.
  {
  assert (B1 : near (1 / 125000000) ((981 / 100) * m3 + (0) * m4) (-49646108395542307 / 100000000000000)) by (clear - Hm3 Hm4; unfold near in *; lra).
  assert (B2 : near (33 / 5000000000) ((981 / 100) * m1 + (0) * m2) (-75509190340039813 / 100000000000000)) by (clear - Hm1 Hm2; unfold near in *; lra).
  assert (B0 : near (19 / 500000000) ((981 / 100) * ((981 / 100) * dk + (0) * m5)) (280380186892021567 / 50000000000000)) by (clear - Hdk Hm5; unfold near in *; lra).
    set (b1 := _ + _ * m4) in *. set (b2 := _ + _ * m2) in *. set (b0 := _ * (_ + _ * m5)) in *. clearbody b1 b2 b0.
  assert (T1 : near (47 / 5000000) (b1 * b2) (37487374484812526273 / 100000000000000)) by (apply (near_mul (1 / 125000000) (33 / 5000000000) _ (49646108395542307 / 100000000000000) (75509190340039813 / 100000000000000) _ (-49646108395542307 / 100000000000000) _ (-75509190340039813 / 100000000000000) _ B1 B2); lra).
  assert (T2 : near (17 / 20000) ((b1 * b2) * k3) (2235438873474539461953 / 100000000000000)) by (apply (near_mul (47 / 5000000) (3 / 4000000000) _ (37487374484812526273 / 100000000000000) (1490794503613607 / 25000000000000) _ (37487374484812526273 / 100000000000000) _ (1490794503613607 / 25000000000000) _ T1 Hk3); lra).
  assert (T3 : near (1 / 125000) (b1 * b1) (12323680394109681701 / 50000000000000)) by (apply (near_mul (1 / 125000000) (1 / 125000000) _ (49646108395542307 / 100000000000000) (49646108395542307 / 100000000000000) _ (-49646108395542307 / 100000000000000) _ (-49646108395542307 / 100000000000000) _ B1 B1); lra).
  assert (T4 : near (11 / 50000) (a4 * (b1 * b1)) (28792853920747842177 / 6250000000000)) by (apply (near_mul (7 / 25000000000) (1 / 125000) _ (23363843429849 / 1250000000000) (12323680394109681701 / 50000000000000) _ (23363843429849 / 1250000000000) _ (12323680394109681701 / 50000000000000) _ Ha4 T3); lra).
  assert (T5 : near (9 / 100000000) (k3 * k3) (355594920320726543 / 100000000000000)) by (apply (near_mul (3 / 4000000000) (3 / 4000000000) _ (1490794503613607 / 25000000000000) (1490794503613607 / 25000000000000) _ (1490794503613607 / 25000000000000) _ (1490794503613607 / 25000000000000) _ Hk3 Hk3); lra).
  assert (T6 : near (2 / 3125) (b0 * (k3 * k3)) (124627212771723532279 / 6250000000000)) by (apply (near_mul (19 / 500000000) (9 / 100000000) _ (280380186892021567 / 50000000000000) (355594920320726543 / 100000000000000) _ (280380186892021567 / 50000000000000) _ (355594920320726543 / 100000000000000) _ B0 T5); lra).
    clear - T2 T4 T6. unfold near in *. replace (b1 ^ 2) with (b1 * b1) by ring. replace (k3 ^ 2) with (k3 * k3) by ring. lra. }
  split.
  {
  assert (B1 : near (11 / 1000000000) ((981 / 100) * m3 + (1151329 / 62500) * m4) (70340876498394259 / 100000000000000)) by (clear - Hm3 Hm4; unfold near in *; lra).
  assert (B2 : near (31 / 1000000000) ((981 / 100) * m1 + (1151329 / 62500) * m2) (227150426638117 / 500000000000)) by (clear - Hm1 Hm2; unfold near in *; lra).
  assert (B0 : near (3 / 10000000) ((981 / 100) * ((981 / 100) * dk + (1151329 / 62500) * m5)) (6903122281155697 / 2500000000000)) by (clear - Hdk Hm5; unfold near in *; lra).
    set (b1 := _ + _ * m4) in *. set (b2 := _ + _ * m2) in *. set (b0 := _ * (_ + _ * m5)) in *. clearbody b1 b2 b0.
  assert (T1 : near (27 / 1000000) (b1 * b2) (31955920213418706673 / 100000000000000)) by (apply (near_mul (11 / 1000000000) (31 / 1000000000) _ (70340876498394259 / 100000000000000) (227150426638117 / 500000000000) _ (70340876498394259 / 100000000000000) _ (227150426638117 / 500000000000) _ B1 B2); lra).
  assert (T2 : near (19 / 10000) ((b1 * b2) * k3) (381117681696636568639 / 20000000000000)) by (apply (near_mul (27 / 1000000) (3 / 4000000000) _ (31955920213418706673 / 100000000000000) (1490794503613607 / 25000000000000) _ (31955920213418706673 / 100000000000000) _ (1490794503613607 / 25000000000000) _ T1 Hk3); lra).
  assert (T3 : near (1 / 62500) (b1 * b1) (49478389065623537913 / 100000000000000)) by (apply (near_mul (11 / 1000000000) (11 / 1000000000) _ (70340876498394259 / 100000000000000) (70340876498394259 / 100000000000000) _ (70340876498394259 / 100000000000000) _ (70340876498394259 / 100000000000000) _ B1 B1); lra).
  assert (T4 : near (11 / 25000) (a4 * (b1 * b1)) (462402134116152439349 / 50000000000000)) by (apply (near_mul (7 / 25000000000) (1 / 62500) _ (23363843429849 / 1250000000000) (49478389065623537913 / 100000000000000) _ (23363843429849 / 1250000000000) _ (49478389065623537913 / 100000000000000) _ Ha4 T3); lra).
  assert (T5 : near (9 / 100000000) (k3 * k3) (355594920320726543 / 100000000000000)) by (apply (near_mul (3 / 4000000000) (3 / 4000000000) _ (1490794503613607 / 25000000000000) (1490794503613607 / 25000000000000) _ (1490794503613607 / 25000000000000) _ (1490794503613607 / 25000000000000) _ Hk3 Hk3); lra).
  assert (T6 : near (7 / 5000) (b0 * (k3 * k3)) (12273576087658960637 / 1250000000000)) by (apply (near_mul (3 / 10000000) (9 / 100000000) _ (6903122281155697 / 2500000000000) (355594920320726543 / 100000000000000) _ (6903122281155697 / 2500000000000) _ (355594920320726543 / 100000000000000) _ B0 T5); lra).
    clear - T2 T4 T6. unfold near in *. replace (b1 ^ 2) with (b1 * b1) by ring. replace (k3 ^ 2) with (k3 * k3) by ring. lra. }
  {
  assert (B1 : near (11 / 1000000000) ((981 / 100) * m3 + (18429849 / 1000000) * m4) (70396794934030079 / 100000000000000)) by (clear - Hm3 Hm4; unfold near in *; lra).
  assert (B2 : near (31 / 1000000000) ((981 / 100) * m1 + (18429849 / 1000000) * m2) (22743223783239957 / 50000000000000)) by (clear - Hm1 Hm2; unfold near in *; lra).
  assert (B0 : near (3 / 10000000) ((981 / 100) * ((981 / 100) * dk + (18429849 / 1000000) * m5)) (34499030054346879 / 12500000000000)) by (clear - Hdk Hm5; unfold near in *; lra).
    set (b1 := _ + _ * m4) in *. set (b2 := _ + _ * m2) in *. set (b0 := _ * (_ + _ * m5)) in *. clearbody b1 b2 b0.
  assert (T1 : near (27 / 1000000) (b1 * b2) (32021001216149980249 / 100000000000000)) by (apply (near_mul (11 / 1000000000) (31 / 1000000000) _ (70396794934030079 / 100000000000000) (22743223783239957 / 50000000000000) _ (70396794934030079 / 100000000000000) _ (22743223783239957 / 50000000000000) _ B1 B2); lra).
  assert (T2 : near (19 / 10000) ((b1 * b2) * k3) (745886447081890873 / 39062500000)) by (apply (near_mul (27 / 1000000) (3 / 4000000000) _ (32021001216149980249 / 100000000000000) (1490794503613607 / 25000000000000) _ (32021001216149980249 / 100000000000000) _ (1490794503613607 / 25000000000000) _ T1 Hk3); lra).
  assert (T3 : near (1 / 62500) (b1 * b1) (49557087369838829947 / 100000000000000)) by (apply (near_mul (11 / 1000000000) (11 / 1000000000) _ (70396794934030079 / 100000000000000) (70396794934030079 / 100000000000000) _ (70396794934030079 / 100000000000000) _ (70396794934030079 / 100000000000000) _ B1 B1); lra).
  assert (T4 : near (11 / 25000) (a4 * (b1 * b1)) (926275224118609445619 / 100000000000000)) by (apply (near_mul (7 / 25000000000) (1 / 62500) _ (23363843429849 / 1250000000000) (49557087369838829947 / 100000000000000) _ (23363843429849 / 1250000000000) _ (49557087369838829947 / 100000000000000) _ Ha4 T3); lra).
  assert (T5 : near (9 / 100000000) (k3 * k3) (355594920320726543 / 100000000000000)) by (apply (near_mul (3 / 4000000000) (3 / 4000000000) _ (1490794503613607 / 25000000000000) (1490794503613607 / 25000000000000) _ (1490794503613607 / 25000000000000) _ (1490794503613607 / 25000000000000) _ Hk3 Hk3); lra).
  assert (T6 : near (7 / 5000) (b0 * (k3 * k3)) (196282877493085259783 / 20000000000000)) by (apply (near_mul (3 / 10000000) (9 / 100000000) _ (34499030054346879 / 12500000000000) (355594920320726543 / 100000000000000) _ (34499030054346879 / 12500000000000) _ (355594920320726543 / 100000000000000) _ B0 T5); lra).
    clear - T2 T4 T6. unfold near in *. replace (b1 ^ 2) with (b1 * b1) by ring. replace (k3 ^ 2) with (k3 * k3) by ring. lra. }
Qed.
Lemma bench_window : exists vw vc, 1073 / 250 <= vw < 4293 / 1000 /\ 753 / 125 < vc < 241 / 40 /\
  forall v, (stable_conditions (F_canon (pv bench07)) (981 / 100) v <-> vw < v < vc) /\ (v < vw \/ vc < v -> violated (F_canon (pv bench07)) (981 / 100) v).
Proof.
  rewrite bench_canon. pose proof (bench_entries _ _ (bench_sine') bench_cosine) as HE. unfold bench_matrices. revert HE. set (s := sin _). set (k := cos _). clearbody s k.
  intros (Ha & Hb & Hd & Hp & Hq & Hr & Hx & Hy & Hz & Hh & Hj).
  repeat match goal with H : near _ ?e _ |- _ => is_var e; fail 1 | H : near ?d ?e ?v |- _ => let n := fresh "e" in set (n := e) in *; clearbody n end.
  match goal with |- context [mkcanon (mk2 ?a ?b ?b ?d) (mk2 0 ?p ?q ?r) (mk2 ?x ?y ?y ?z) (mk2 0 ?h 0 ?j)] => pose proof (bench_coefs a b d p q r x y z h j Ha Hb Hd Hp Hq Hr Hx Hy Hz Hh Hj) as (C1 & C2 & C3 & C4 & C5 & C6 & C7 & C8) end.
  pose proof (bench_signs _ _ _ _ _ _ _ _ C1 C2 C3 C4 C5 C6 C7 C8) as (S1 & S2 & S3 & S4 & S5 & S6 & S7 & S8 & S9 & S10 & S11 & S12). clear C1 C2 C4 C5 C6 C7 C8 Ha Hb Hd Hp Hq Hr Hx Hy Hz Hh Hj.
  unfold stable_conditions, violated. apply one_window; unfold weave_c, first_c, second_c, constant_c, damping_c, inertia_c, mixed, determinant; cbn [cM cC1 cK0 cK2 m11 m12 m21 m22].
  all: idtac.
  - clear; lra.
  - exact S1.
  - exact S2.
  - exact S3.
  - exact S4.
  - exact S5.
  - exact S10.
  - clear; lra.
  - replace ((1073 / 250) ^ 2) with (1151329 / 62500) by field. exact S6.
  - replace ((1073 / 250) ^ 2) with (1151329 / 62500) by field. exact S7.
  - replace ((1073 / 250) ^ 2) with (1151329 / 62500) by field. exact S11.
  - replace ((4293 / 1000) ^ 2) with (18429849 / 1000000) by field. exact S12.
  - clear; lra.
  - clear; lra.
  - replace ((753 / 125) ^ 2) with (567009 / 15625) by field. exact S8.
  - replace ((241 / 40) ^ 2) with (58081 / 1600) by field. exact S9.
  - clear - C3. unfold near in C3. lra.
Qed.
