(* SFit.v -- specification vocabulary for C75: the figures of the period estimation *)
From Verif Require Import Base MString MIo SIo MPeriod SPeriod MTable STable MPeriod2 SPeriod2 MFit.
Local Open Scope string_scope.
Local Open Scope R_scope.

(* the title shows the fitted function, r squared and the period: [a], [b], [c] with two
   decimals, the damping ratio and r squared with three, the frequency with one *)
Definition title_shows (ustr : R * R -> string) (title : string) (p : list R) (rsq : R) (T : R * R) : Prop :=
  exists a b c z w, p = [a; b; c; z; w] /\
  exists ta tb tc tz tw tr, shows 2 ta a /\ shows 2 tb b /\ shows 2 tc c /\ shows 3 tz z /\ shows 1 tw w /\ shows 3 tr rsq /\
  title = ("$f(t)=" ++ ta ++ "+e^{-(" ++ tz ++ ")(" ++ tw ++ ")t}\left[" ++ tb ++ "\sin{\sqrt{1-" ++ tz ++ "^2}" ++ tw ++ "t}+"
          ++ tc ++ "\cos{\sqrt{1-" ++ tz ++ "^2}" ++ tw ++ "t}\right]$"
          ++ String "010"%char ("$r^2=" ++ tr ++ "$, $T=" ++ ustr T ++ " s$"))%string.

(* the figure shows the measurements y at the times x as points and the oscillation with
   the parameters p as a line, each under its name, from time zero to the last time *)
Definition fit_figure (ustr : R * R -> string) (x y p : list R) (rsq : R) (T : R * R) (f : fitfig) : Prop :=
  exists measured fitted last_time,
    ff_lines f = [measured; fitted] /\ ff_legend f = [("Measured", measured); ("Fit", fitted)]
    /\ fl_fmt measured = "." /\ fl_fmt fitted = "k-"
    /\ length (fl_pts measured) = length x /\ length (fl_pts fitted) = length x
    /\ (forall i t v, nth_error x i = Some t -> nth_error y i = Some v ->
          nth_error (fl_pts measured) i = Some (t, v) /\ nth_error (fl_pts fitted) i = Some (t, oscillation p t))
    /\ largest x last_time /\ ff_xlim f = Some (0, last_time)
    /\ ff_xlabel f = "Time [s]" /\ ff_ylabel f = "Amplitude [V]"
    /\ title_shows ustr (ff_title f) p rsq T.

(* the share of the variation of the measurements that the fit has *)
Definition r_squared (x y p : list R) : R :=
  squares_about (average y) (map (oscillation p) x) / squares_about (average y) y.

(* a name of a measurement file: letters before ".mat" that are no directory and not only dots *)
Definition mat_name (f : string) : Prop :=
  exists stem, f = (stem ++ ".mat")%string
    /\ ~ In "/"%char (list_ascii_of_string stem) /\ exists c, In c (list_ascii_of_string stem) /\ c <> "."%char.
(* where the figure of a measurement file is kept: beside the directory of the raw data *)
Definition figure_path (bicycle_dir stem : string) : string := (bicycle_dir ++ "/Plots/PendulumFit/" ++ stem ++ ".png")%string.
