(* SPack.v -- specification vocabulary for C81: what belongs into the archive of the data *)
From Verif Require Import Base.
Local Open Scope string_scope.

Definition begins (s p : string) : Prop := exists r, s = p ++ r.
Definition ends (s p : string) : Prop := exists a, s = a ++ p.
(* raw measurements, parameter files and photographs of the bicycles, parameters and body
   measurements of the riders *)
Definition wanted (kind name folder f : string) : Prop :=
  (kind = "bicycles" /\
   In name ["Benchmark"; "Browser"; "Browserins"; "Crescendo"; "Fisher"; "Gyro"; "Pista"; "Rigid"; "Silver"; "Stratos"; "Yellow"; "Yellowrev"] /\
   ((folder = "RawData" /\ (ends f ".mat" \/ ends f "Measured.txt")) \/
    (folder = "Parameters" /\ begins f name /\ ends f ".txt") \/
    (folder = "Photos" /\ begins f name /\ ends f ".jpg"))) \/
  (kind = "riders" /\ In name ["Aurelia"; "Chris"; "Jason"; "Luke"; "Mont"] /\
   ((folder = "Parameters" /\ begins f name /\ ends f ".txt") \/
    (folder = "RawData" /\ begins f name /\ (ends f "YeadonCFG.txt" \/ ends f "YeadonMeas.txt")))).
(* folder and file below the data folder, and the name the file should have in the archive *)
Definition folder_of (data kind name folder : string) : string := data ++ "/" ++ kind ++ "/" ++ name ++ "/" ++ folder.
Definition file_of (data kind name folder f : string) : string := folder_of data kind name folder ++ "/" ++ f.
