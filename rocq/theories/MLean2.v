(* MLean2.v -- /repo/bicycleparameters/_mooreriderlean2012.py, eval_linear with the
   statements of the generated body *)
From Verif Require Import Base MString MBicycle MVec MInertia MModels2 MLean MLeanProg.
Local Open Scope R_scope.

(* [models.py:1427, 1442] A, B, _, _ = eval_linear(q, u, r, p): the function of the named
   values that [eval_linear] of MModels2 applies after unpacking its arguments.  mem is
   what numpy.empty leaves in the arrays [_mooreriderlean2012.py:10-15]. *)
Definition lean_body (pitch : R -> R -> R -> R -> R -> R -> R -> res R) (mem : memory) (e : string -> R) : res (marr * marr) :=
  r <- lean_equations pitch mem lean_program e ;; match r with (A, B, _, _) => Ok (A, B) end.
