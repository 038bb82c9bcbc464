(** * Particle pushers (Source/Physics/ParticlePushers) *)
From Coq Require Import ZArith List.
From Verif Require Import Num Outcome Vec Units Particle Fields.
Import ListNotations.

Section Pusher.
Context {T : Type} `{Num T}.
Local Open Scope num_scope.

(** ParticlePusher.hh: the virtual [PushMomentum(mass, charge, momentum, E, B)]. *)
Definition force := T -> T -> vec T -> vec T -> vec T -> vec T.

(** LorentzPusher.cpp 8-14. *)
Definition lorentz_force : force := fun mass charge mom e b =>
  let gamma := nsqrt (n1 + mag2 mom / (mass * mass)) in
  smul charge (vadd e (vdivs (cross mom b) (mass * gamma))).

(** LandauPusher.cpp 12-21, ModifiedLandauPusher.cpp 14-23: the local eta. *)
Definition pusher_eta (mass : T) (mom e b : vec T) : T :=
  let gamma := nsqrt (n1 + mag2 mom / (mass * mass)) in
  let beta := nsqrt (n1 - n1 / (gamma * gamma)) in
  let dir := vnorm mom in
  let ePara := smul (dot e dir) dir in
  let ePerp := vsub e ePara in
  nsqrt (mag2 (vadd ePerp (smul beta (cross dir b)))
         + npow (dot dir e) n2 / (gamma * gamma)) * gamma.

(** LandauPusher.cpp 9-29. *)
Definition landau_force : force := fun mass charge mom e b =>
  let gamma := nsqrt (n1 + mag2 mom / (mass * mass)) in
  let eta := pusher_eta mass mom e b in
  let rr := smul (nlit (-2) 0 / nlit 3 0 * c_alpha * eta * eta) (vnorm mom) in
  vadd (smul charge (vadd e (vdivs (cross mom b) (mass * gamma)))) rr.

(** ModifiedLandauPusher.cpp 34-38. *)
Definition gaunt (eta : T) : T :=
  npow (n1 + nlit 48 (-1) * (n1 + eta) * nlog (n1 + nlit 17 (-1) * eta) + nlit 244 (-2) * eta * eta)
       (nlit (-2) 0 / nlit 3 0).

(** ModifiedLandauPusher.cpp 10-32. *)
Definition modified_landau_force : force := fun mass charge mom e b =>
  let gamma := nsqrt (n1 + mag2 mom / (mass * mass)) in
  let eta := pusher_eta mass mom e b in
  let rr := smul (nlit (-2) 0 / nlit 3 0 * c_alpha * eta * eta * gaunt eta) (vnorm mom) in
  vadd (smul charge (vadd e (vdivs (cross mom b) (mass * gamma)))) rr.

(** ParticlePusher.cpp 74-79. *)
Definition push_position (mass : T) (mom : vec T) : vec T :=
  let gamma := nsqrt (n1 + mag2 mom / (mass * mass)) in
  vdivs mom (mass * gamma).

(** ParticlePusher.cpp 56-59: the weighted mean of the four stages. *)
Definition rk4_mean (k1 k2 k3 k4 : vec T) : vec T :=
  vadd (vadd (vadd k1 (smul n2 k2)) (smul n2 k3)) k4.

(** ParticlePusher.cpp 23-59: one Runge-Kutta step: new position and momentum. *)
Definition rk4_step (F : force) (fld : field T) (dt : T) (p : particle T) : vec T * vec T :=
  let t := p_time p in let x := p_pos p in let mom := p_mom p in
  let m := p_mass p in let q := p_charge p in
  let '(e1, b1) := fld t x in
  let x1 := push_position m mom in
  let k1 := F m q mom e1 b1 in
  let '(e2, b2) := fld (t + dt / n2) (vadd x (vdivs (vmuls x1 dt) n2)) in
  let m1 := vadd mom (vdivs (vmuls k1 dt) n2) in
  let x2 := push_position m m1 in
  let k2 := F m q m1 e2 b2 in
  let '(e3, b3) := fld (t + dt / n2) (vadd x (vdivs (vmuls x2 dt) n2)) in
  let m2 := vadd mom (vdivs (vmuls k2 dt) n2) in
  let x3 := push_position m m2 in
  let k3 := F m q m2 e3 b3 in
  let '(e4, b4) := fld (t + dt) (vadd x (vmuls x3 dt)) in
  let m3 := vadd mom (vmuls k3 dt) in
  let x4 := push_position m m3 in
  let k4 := F m q m3 e4 b4 in
  (vadd x (smul (dt / nlit 6 0) (rk4_mean x1 x2 x3 x4)),
   vadd mom (smul (dt / nlit 6 0) (rk4_mean k1 k2 k3 k4))).

(** ParticlePusher.cpp 12-64. *)
Definition push_particle (F : force) (fld : field T) (dt : T) (p : particle T) : particle T :=
  if p_alive p then
    if p_mass p =? n0 then
      let x := vadd (p_pos p) (smul (dt / mag (p_mom p)) (p_mom p)) in
      update_time (update_track p x (p_mom p)) dt
    else
      let '(x, m) := rk4_step F fld dt p in
      update_time (update_track p x m) dt
  else p.

(** ParticlePusher.cpp 66-72. *)
Definition push_list (F : force) (fld : field T) (dt : T) (l : list (particle T)) : list (particle T) :=
  map (push_particle F fld dt) l.

(** [n] pushes in a row. *)
Fixpoint pushes (n : nat) (F : force) (fld : field T) (dt : T) (p : particle T) : particle T :=
  match n with O => p | S k => push_particle F fld dt (pushes k F fld dt p) end.

End Pusher.
Arguments force : clear implicits.
