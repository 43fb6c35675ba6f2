(* MStr.v -- model of str(bicycle), /repo/bicycleparameters/main.py *)
From Verif Require Import Base MString MIo MPeriod MMain MState.
Local Open Scope string_scope.

(* [main.py:162-168] Bicycle.__str__; riderName is an attribute only once there is a rider *)
Definition bicycle_str {E H} (b : bicycle_obj E H) : res string :=
  if bo_hasRider b then
    match bo_riderName b with
    | Some r => Ok (bo_name b ++ " with " ++ r ++ " on board.")
    | None => Err AttributeError
    end
  else Ok (bo_name b ++ " with no one on board.").
