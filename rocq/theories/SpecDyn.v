(** * Textbook relativistic dynamics over the reals (specification side; no model functions) *)
From Coq Require Import Reals.
From Verif Require Import Num Vec SpecVec.
Local Open Scope R_scope.

(** Lorentz factor of mass [m], momentum [p]; velocity p/(m gamma) in units of c *)
Definition lorentz_factor (m : R) (p : V3) : R := sqrt (1 + rlen2 p / (m * m)).
Definition velocity (m : R) (p : V3) : V3 := rscale (/ (m * lorentz_factor m p)) p.
(** Lorentz force on charge [q] *)
Definition lorentz (m q : R) (p E B : V3) : V3 :=
  rscale q (rplus E (rcross (velocity m p) B)).
(** The invariant field strength seen by the particle: gamma^2 (|E + v x B|^2 - (v.E)^2) *)
Definition invariant2 (m : R) (p E B : V3) : R :=
  let v := velocity m p in
  let f := rplus E (rcross v B) in
  lorentz_factor m p * lorentz_factor m p * (rlen2 f - rdot v E * rdot v E).
Definition invariant (m : R) (p E B : V3) : R := sqrt (invariant2 m p E B).
