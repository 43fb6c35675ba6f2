(* TStr.v -- C44: the description of a bicycle says who is on board *)
From Verif Require Import Base MString MIo MPeriod MMain MState SIo SState PState PState2 TState MStr.
Local Open Scope string_scope.

(* str(bicycle) after any history of add_rider calls (failing ones caught): no one on
   board if none succeeded, otherwise the rider of the first that did *)
Theorem C44_description : forall (E H : Type) other combine (configure : string -> string -> dict pval -> dict pval -> bool -> res (dict pval * H)) (b : bicycle_obj E H) cs,
  no_io other -> bo_hasRider b = false ->
  let final := after_calls (fun b c => fst (add_rider other combine configure b (rc_fs c) (rc_name c) (rc_recalc c) (rc_draw c))) b cs in
  (bicycle_str final = Ok (bo_name b ++ " with no one on board.") /\ forall c, In c cs -> forall b', ~ ridden other combine configure b c b') \/
  (exists pre c post, cs = (pre ++ c :: post)%list /\ (forall q, In q pre -> forall b', ~ ridden other combine configure b q b') /\ ridden other combine configure b c final /\
     bicycle_str final = Ok (bo_name b ++ " with " ++ rc_name c ++ " on board.")).
Proof.
  intros E H other combine configure b cs NIO N final. destruct (C44_history E H other combine configure b cs NIO N) as [(F & A)|(pre & c & post & A & B & C)]; fold final in F || fold final in C.
  - left. split; [|exact A]. rewrite F. unfold bicycle_str. rewrite N. reflexivity.
  - right. exists pre, c, post. split; [exact A|]. split; [exact B|]. split; [exact C|].
    destruct (C44_ridden_bicycle _ _ _ _ _ _ _ _ C) as (R1 & R2 & R3 & _). unfold bicycle_str. rewrite R1, R2, R3. reflexivity.
Qed.
Print Assumptions C44_description.

(* a new bicycle has no one on board *)
Theorem C44_new_bicycle_description : forall (E H : Type) other (calc : dict pval -> res (dict pval * E)) decode str fs name data forceRaw forcePeriod (b : bicycle_obj E H) fs',
  no_io other -> new_bicycle H other calc decode str fs name data forceRaw forcePeriod = (Ok b, fs') -> bicycle_str b = Ok (name ++ " with no one on board.").
Proof.
  intros E H other calc decode str fs name data fr fp b fs' NIO K. apply C43_decision_table in K; [|exact NIO]. destruct K as [dir rawDir mfile ps par extras _ _ _ _ _ _ -> _]. reflexivity.
Qed.
Print Assumptions C44_new_bicycle_description.

Example C44_description_example :
  let call n := mkcall demo_rider_files n false false in
  bicycle_str (after_calls (fun b c => fst (add_rider demo_other demo_combine demo_configure b (rc_fs c) (rc_name c) (rc_recalc c) (rc_draw c))) demo_bike [call "Luke"; call "Jason"; call "Luke"])
  = Ok "Stratos with Jason on board.".
Proof. cbv -[Rmult Rdiv Rplus Rinv IZR powerRZ INR]. reflexivity. Qed.
