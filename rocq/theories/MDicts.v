(* MDicts.v -- the dictionaries of parameter_dicts.py.  A decimal literal is the number it
   denotes (Python stores the nearest double). *)
From Verif Require Import Base.
Local Open Scope string_scope.
Local Open Scope R_scope.

(* [parameter_dicts.py:1-29] *)
Definition meijaard2007_browser_jason : dict R :=
  [("IBxx", 113557360401 / 10000000000); ("IBxz", -39351276149 / 20000000000);
   ("IByy", 30544462003 / 2500000000); ("IBzz", 19522149813 / 6250000000);
   ("IFxx", 904106601579 / 10000000000000); ("IFyy", 5975573617 / 40000000000);
   ("IHxx", 253379594731 / 1000000000000); ("IHxz", -720452391817 / 10000000000000);
   ("IHyy", 49227762187 / 200000000000); ("IHzz", 955770796289 / 10000000000000);
   ("IRxx", 883819364527 / 10000000000000); ("IRyy", 76233810143 / 500000000000);
   ("c", 342904270191 / 5000000000000); ("g", 981 / 100); ("lam", 399680398707 / 1000000000000);
   ("mB", 4093 / 50); ("mF", 101 / 50); ("mH", 161 / 50); ("mR", 311 / 100);
   ("rF", 8588245583 / 25000000000); ("rR", 68191771771 / 200000000000); ("v", 1); ("w", 1121 / 1000);
   ("xB", 289099434117 / 1000000000000); ("xH", 866949640247 / 1000000000000);
   ("zB", -104029228321 / 100000000000); ("zH", -149647280167 / 200000000000)].

(* [parameter_dicts.py:31-74] *)
Definition moore2019_browser_jason : dict R :=
  [("alphaD", 11722101094171953 / 10000000000000000); ("alphaH", 1849740869239393 / 5000000000000000);
   ("alphaP", 9308765872752571 / 50000000000000000); ("c", 342904270191 / 5000000000000); ("g", 981 / 100);
   ("kDaa", 28586689 / 100000000); ("kDbb", 22079007 / 100000000); ("kDyy", 18269423 / 50000000);
   ("kFaa", 10458705164234061 / 50000000000000000); ("kFyy", 13589691389045777 / 50000000000000000);
   ("kHaa", 5911203 / 20000000); ("kHbb", 14493343 / 100000000); ("kHyy", 27630431 / 100000000);
   ("kPaa", 36717241 / 100000000); ("kPbb", 15276369 / 100000000); ("kPyy", 18398327 / 50000000);
   ("kRaa", 17050278555427911 / 100000000000000000); ("kRyy", 11068017231632349 / 50000000000000000);
   ("lP", 216 / 125); ("lam", 399680398707 / 1000000000000); ("mD", 493 / 50); ("mF", 101 / 50);
   ("mH", 161 / 50); ("mP", 8350000000000001 / 100000000000000); ("mR", 311 / 100);
   ("rF", 8588245583 / 25000000000); ("rR", 68191771771 / 200000000000); ("v", 3); ("w", 1121 / 1000);
   ("wP", 483 / 1000); ("xD", 275951285677 / 1000000000000); ("xH", 866949640247 / 1000000000000);
   ("xP", 789419788517731 / 2500000000000000); ("xR", 0); ("yD", 0); ("yF", 0); ("yH", 0); ("yP", 0);
   ("yR", 0); ("zD", -107568484861 / 200000000000); ("zH", -149647280167 / 200000000000);
   ("zP", -5494942829909639 / 5000000000000000)].

(* [parameter_dicts.py:83-121] *)
Definition mooreriderlean2012_browser_jason : dict R :=
  [("c9", 0); ("d1", 4815746317436049 / 5000000000000000); ("d2", 2169198065820469 / 5000000000000000);
   ("d3", 176250000000313 / 2500000000000000); ("d4", -670462668491159 / 1000000000000000); ("g", 981 / 100);
   ("ic11", 143553701434599 / 62500000000000); ("ic22", 14961357619 / 5000000000);
   ("ic31", 1594448114273473 / 100000000000000000); ("ic33", 3020371675492831 / 2000000000000000);
   ("id11", 904106601579 / 10000000000000); ("id22", 76233810143 / 500000000000);
   ("ie11", 1405677683579777 / 5000000000000000); ("ie22", 49227762187 / 200000000000);
   ("ie31", 12675443822165209 / 2000000000000000000); ("ie33", 6782113764394461 / 100000000000000000);
   ("if11", 883819364527 / 10000000000000); ("if22", 5975573617 / 40000000000);
   ("ig11", 1019036781262733 / 500000000000000); ("ig22", 338421708806999 / 200000000000000);
   ("ig31", 528375362453 / 250000000000000); ("ig33", 1100753962972129 / 1000000000000000); ("k9", 0);
   ("l1", 23879897256595403 / 50000000000000000); ("l2", -67212991868561 / 400000000000000);
   ("l3", -956830769908543 / 12500000000000000); ("l4", -47166687226492093 / 100000000000000000);
   ("l5", 231223496809401 / 1000000000000000); ("l6", -271613547251923 / 1000000000000000);
   ("mc", 8261 / 250); ("md", 311 / 100); ("me", 161 / 50); ("mf", 101 / 50); ("mg", 6102 / 125);
   ("rf", 8588245583 / 25000000000); ("rr", 68191771771 / 200000000000); ("v", 1)].

(* [parameter_dicts.py:128-156] *)
Definition meijaard2007_browser_jasonlegs : dict R :=
  [("IBxx", 218917391377 / 100000000000); ("IBxz", -27087131147 / 100000000000);
   ("IByy", 14961357619 / 5000000000); ("IBzz", 161787114693 / 100000000000);
   ("IFxx", 883819364527 / 10000000000000); ("IFyy", 5975573617 / 40000000000);
   ("IHxx", 253379594731 / 1000000000000); ("IHxz", -720452391817 / 10000000000000);
   ("IHyy", 49227762187 / 200000000000); ("IHzz", 955770796289 / 10000000000000);
   ("IRxx", 904106601579 / 10000000000000); ("IRyy", 76233810143 / 500000000000);
   ("c", 342904270191 / 5000000000000); ("g", 981 / 100); ("lam", 399680398707 / 1000000000000);
   ("mB", 8261 / 250); ("mF", 101 / 50); ("mH", 161 / 50); ("mR", 311 / 100);
   ("rF", 8588245583 / 25000000000); ("rR", 68191771771 / 200000000000); ("v", 1); ("w", 1121 / 1000);
   ("xB", 187285397271 / 500000000000); ("xH", 866949640247 / 1000000000000);
   ("zB", -340796362889 / 500000000000); ("zH", -149647280167 / 200000000000)].
