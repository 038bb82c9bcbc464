(** * Units (Source/Tools/UnitsSystem.{hh,cpp}) *)
From Coq Require Import ZArith String.
From Verif Require Import Num Outcome.
Local Open Scope string_scope.

Section Units.
Context {T : Type} `{Num T}.
Local Open Scope num_scope.

(** UnitsSystem.hh 75-86: the constants (decimal literals of the source). *)
Definition c_pi : T := nlit 314159265359 (-11).
Definition c_alpha : T := nlit 72973525664 (-13).
Definition si_c : T := nlit 299792458 0.
Definition si_me : T := nlit 910938356 (-39).
Definition si_qe : T := nlit 160217662 (-27).
Definition si_eSchw : T := nlit 13232855 11.
(** UnitsSystem.hh 83-85: constants that no code uses; modelled for the comparison with the ones in use (C121).  UnitsSystem::e (76), also unused,
    is left out. *)
Definition si_hBar : T := nlit 105457180 (-42).
Definition si_lComp : T := nlit 24263102367 (-22).
Definition si_eps0 : T := nlit 8854187817 (-21).

Record units := mkUnits {
  ref_freq : T; ref_time : T; ref_length : T; ref_eField : T; ref_bField : T;
  ref_momentum : T; ref_energy : T;
  g4_time : T; g4_length : T; g4_energy : T }.

(** UnitsSystem.cpp 22-31 and 40-45. *)
Definition si_units : units :=
  let freq := si_eSchw * si_qe / (si_me * si_c) in
  let time := n1 / freq in
  let length := si_c / freq in
  let energy := si_me * si_c * si_c in
  mkUnits freq time length si_eSchw (si_eSchw / si_c) (si_me * si_c) energy
    (nlit 1 (-9) / time) (nlit 1 (-3) / length) (nlit 1 6 * si_qe / energy).

(** UnitsSystem.cpp 4-16. *)
Definition units_system (name : string) : res units :=
  if (String.eqb name "SI" || String.eqb name "si")%bool then Ok si_units else Exit 1.

End Units.
Arguments units : clear implicits.
