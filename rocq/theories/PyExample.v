(** * The calls of the Python example (example/QEDCascPy_example.py 8-51) *)
From Coq Require Import String ZArith List.
From Verif Require Import Num Vec RunManager.
Import ListNotations.
Local Open Scope string_scope.

(** Lines 41-61 with the values of lines 8-36; Python's numbers are doubles, so a numeral is a literal of the arithmetic.
    [threads] is the argument of beamOn, 2 in the script (line 51).  The plots (63-83) only use the three tables. *)
Definition script_with {T} `{Num T} (threads : Z) : list (call T) :=
  [SetTime (nlit 5 (-17)) (nlit 100 (-15));
   SetField "gaussian" (nlit 100 12) (nlit 8 (-7)) (nlit 300 (-16)) (nlit 10 (-6)) (nlit 0 0)
     (mkV (nlit 0 0) (nlit 0 0) (nlit 100 (-7))) (mkV (nlit 0 0) (nlit 0 0) (nlit 0 (-6)));
   SetPhysics "Semiclassical";
   SetSampleFraction (nlit 1 (-1));
   SetGenerator "Electron" "gaussian" (nlit 8176 (-14)) (nlit 8176 (-15)) (nlit 0 0) (nlit 0 0) (nlit 0 0)
     (mkV (nlit 0 (-6)) (nlit 0 0) (nneg (nlit 10 (-6)))) (mkV (nlit 0 0) (nlit 0 0) (nlit 1 0));
   BeamOn 1000 threads;
   Get TInput; Get TElectron; Get TPhoton].
Definition example_script {T} `{Num T} : list (call T) := script_with 2.
