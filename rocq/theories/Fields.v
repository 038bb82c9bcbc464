(** * Electromagnetic fields (Source/Physics/Fields/EMField) *)
From Coq Require Import ZArith List.
From Verif Require Import Num Vec Units.
Import ListNotations.

Section Fields.
Context {T : Type} `{Num T}.
Local Open Scope num_scope.

(** EMField.hh 13-14: [GetField] is a const method of time and position with two output
    vectors: a pure function returning (E, B). *)
Definition field := T -> vec T -> vec T * vec T.

(** StaticEMField.cpp 3-7, 13-18. *)
Definition static_field (e b : vec T) : field := fun _ _ => (e, b).

Definition ez_axis : vec T := mkV n0 n0 n1.

(** PlaneEMField.hh 23-29. *)
Record plane := mkPlane { pl_maxE : T; pl_pol : T; pl_k : T; pl_rot : mat T; pl_inv : mat T }.

(** PlaneEMField.cpp 9-16. *)
Definition new_plane (maxE waveLength polAngle : T) (direction : vec T) : plane :=
  let rot := rotate_to_axis direction ez_axis in
  mkPlane maxE polAngle (n2 * c_pi / waveLength) rot (minverse rot).

(** PlaneEMField.cpp 22-36. *)
Definition plane_field (f : plane) : field := fun time position =>
  let p := mvec (pl_rot f) position in
  let e0 := pl_maxE f * ncos ((vz p - time) * pl_k f) in
  (mvec (pl_inv f) (mkV (e0 * ncos (pl_pol f)) (e0 * nsin (pl_pol f)) n0),
   mvec (pl_inv f) (mkV (e0 * nsin (pl_pol f)) (e0 * ncos (pl_pol f)) n0)).

(** GaussianEMField.hh 27-39. *)
Record gauss := mkGauss {
  ga_maxE : T; ga_tau : T; ga_waist : T; ga_pol : T; ga_k : T;
  ga_start : vec T; ga_focus : vec T; ga_rot : mat T; ga_inv : mat T }.

(** GaussianEMField.cpp 10-21. *)
Definition new_gauss (maxE waveLength tau waist polAngle : T) (start focus : vec T) : gauss :=
  let rot := rotate_to_axis (direction start focus) ez_axis in
  mkGauss maxE tau waist polAngle (n2 * c_pi / waveLength) start focus rot (minverse rot).

(** GaussianEMField.cpp 30-45: the amplitude. *)
Definition gauss_amp (f : gauss) (time : T) (p : vec T) : T :=
  let t0 := mag (vsub (ga_start f) (ga_focus f)) in
  let r2 := vx p * vx p + vy p * vy p in
  let rayleigh := ga_k f * ga_waist f * ga_waist f / n2 in
  let curvature := vz p + rayleigh * rayleigh / (vz p + nlit 1 (-99)) in
  let beamWaist := ga_waist f * nsqrt (n1 + vz p * vz p / (rayleigh * rayleigh)) in
  ga_maxE f * (ga_waist f / beamWaist)
  * nexp (nlit (-1) 0 * r2 / (beamWaist * beamWaist))
  * ncos (vz p * ga_k f + r2 * ga_k f / (n2 * curvature))
  * nexp (nlit (-1) 0 * (time - t0 - vz p) * (time - t0 - vz p) / (ga_tau f * ga_tau f)).

(** GaussianEMField.cpp 27-54. *)
Definition gauss_field (f : gauss) : field := fun time position =>
  let p := mvec (ga_rot f) position in
  let e0 := gauss_amp f time p in
  (mvec (ga_inv f) (mkV (e0 * ncos (ga_pol f)) (e0 * nsin (ga_pol f)) n0),
   mvec (ga_inv f) (mkV (e0 * nsin (ga_pol f)) (e0 * ncos (ga_pol f)) n0)).

(** FocusingField.hh 26-41. *)
Record focusing := mkFoc {
  fo_maxE : T; fo_tau : T; fo_waist : T; fo_pol : T; fo_k : T; fo_t0 : T;
  fo_rayleigh : T; fo_eps : T; fo_rot : mat T; fo_inv : mat T }.

(** FocusingField.cpp 5-20. *)
Definition new_focusing (maxE waveLength tau waist polAngle : T) (start focus : vec T) : focusing :=
  let rot := rotate_to_axis (direction start focus) ez_axis in
  let k := n2 * c_pi / waveLength in
  let rayleigh := k * waist * waist / n2 in
  mkFoc maxE tau waist polAngle k (mag (vsub start focus)) rayleigh (waist / rayleigh) rot (minverse rot).

(** FocusingField.cpp 41-42: the local amplitude E_0 at beam-frame position [p]. *)
Definition foc_amp (f : focusing) (time : T) (p : vec T) : T :=
  let ze := vz p / fo_rayleigh f in
  let r2 := vx p * vx p + vy p * vy p in
  let w := fo_waist f * nsqrt (n1 + ze * ze) in
  fo_maxE f * nexp (- r2 / (w * w)
     - (time - fo_t0 f - vz p) * (time - fo_t0 f - vz p) / (fo_tau f * fo_tau f)).

(** FocusingField.cpp 30-40: phi, phi_G and waist/w. *)
Definition foc_phi (f : focusing) (p : vec T) : T :=
  let r2 := vx p * vx p + vy p * vy p in
  let curvature := vz p + fo_rayleigh f * fo_rayleigh f / (vz p + nlit 1 (-99)) in
  fo_k f * (vz p - r2 / (n2 * curvature)).
Definition foc_gouy (f : focusing) (p : vec T) : T := natan (vz p / fo_rayleigh f).
Definition foc_ratio (f : focusing) (p : vec T) : T :=
  let ze := vz p / fo_rayleigh f in
  fo_waist f / (fo_waist f * nsqrt (n1 + ze * ze)).

(** FocusingField.cpp 51-60: S[i] and C[i]. *)
Definition foc_S (f : focusing) (p : vec T) (i : Z) : T :=
  npow (foc_ratio f p) (nZ (i + 1)) * nsin (foc_phi f p + nZ (i + 1) * foc_gouy f p).
Definition foc_C (f : focusing) (p : vec T) (i : Z) : T :=
  npow (foc_ratio f p) (nZ (i + 1)) * ncos (foc_phi f p + nZ (i + 1) * foc_gouy f p).

(** FocusingField.cpp 62-78: the field in the beam frame before the polarisation rotation. *)
Definition foc_local (f : focusing) (e0 : T) (p : vec T) : vec T * vec T :=
  let xe := vx p / fo_waist f in
  let ye := vy p / fo_waist f in
  let r2 := vx p * vx p + vy p * vy p in
  let rho2 := r2 / (fo_waist f * fo_waist f) in
  let eps := fo_eps f in
  let S := foc_S f p in
  let C := foc_C f p in
  let n4 := nlit 4 0 in let n8 := nlit 8 0 in let n16 := nlit 16 0 in let n32 := nlit 32 0 in
  let ex := e0 * (S 0%Z + eps * eps * (xe * xe * S 2%Z - rho2 * rho2 * S 3%Z / n4)
       + eps * eps * eps * eps
         * (S 2%Z / n8 - rho2 * S 3%Z / n4
            - rho2 * (rho2 - n16 * xe * xe) * S 4%Z / n16
            - rho2 * rho2 * (rho2 + n2 * xe * xe) * S 5%Z / n8
            + rho2 * rho2 * rho2 * rho2 * S 6%Z / n32)) in
  let ey := e0 * xe * ye * (eps * eps * S 2%Z
       + eps * eps * eps * eps * (rho2 * S 4%Z - rho2 * rho2 * S 5%Z / n4)) in
  let ez := e0 * xe * (eps * C 1%Z + eps * eps * eps
       * (- C 2%Z / n2 + rho2 * C 3%Z - rho2 * rho2 * C 4%Z / n4)) in
  let by_ := e0 * (S 0%Z + eps * eps * (rho2 * S 2%Z / n2 - rho2 * rho2 * S 3%Z / n4)
       + eps * eps * eps * eps
         * (- S 2%Z / n8 + rho2 * S 3%Z / n4 + nlit 5 0 * rho2 * rho2 * S 4%Z / n16
            - rho2 * rho2 * rho2 * S 5%Z / n4 + rho2 * rho2 * rho2 * rho2 * S 6%Z / n32)) in
  let bz := e0 * ye * (eps * C 1%Z + eps * eps * eps
       * (C 2%Z / n2 + rho2 * C 3%Z / n2 - rho2 * rho2 * C 4%Z / n4)) in
  (mkV ex ey ez, mkV n0 by_ bz).

(** FocusingField.cpp 79-82 and 84-87: the polarisation "rotation"; the second line reads the already
    overwritten first component. *)
Definition pol_turn (a : T) (v : vec T) : vec T :=
  let x := vx v * ncos a - vy v * nsin a in
  let y := x * nsin a + vy v * ncos a in
  mkV x y (vz v).

(** FocusingField.cpp 26-89. *)
Definition focusing_field (f : focusing) : field := fun time position =>
  let p := mvec (fo_rot f) position in
  let e0 := foc_amp f time p in
  if e0 <? nlit 1 (-15) then (vzero, vzero)
  else
    let '(e, b) := foc_local f e0 p in
    (mvec (fo_inv f) (pol_turn (fo_pol f) e), mvec (fo_inv f) (pol_turn (fo_pol f) b)).

End Fields.
Arguments field : clear implicits.
Arguments plane : clear implicits.
Arguments gauss : clear implicits.
Arguments focusing : clear implicits.
