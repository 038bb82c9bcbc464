(** * Particles (Source/Particles/{Particle,Lepton,Photon}.{hh,cpp}) *)
From Coq Require Import ZArith String List.
From Verif Require Import Num Outcome Vec MCTools.
Import ListNotations.
Local Open Scope string_scope.

(** Run-time class of the object (Lepton.hh 24, Photon.hh 24: [GetType]). *)
Inductive ptype := PPhoton | PLepton.

Section Particle.
Context {T : Type} `{Num T}.
Local Open Scope num_scope.

(** Particle.hh 67-83.  [p_name] is what GetName returns (Lepton.hh 26, Photon.hh 26). *)
Record particle := mkP {
  p_type : ptype;
  p_name : string;
  p_mass : T;
  p_charge : T;
  p_weight : T;
  p_time : T;
  p_depth : T;
  p_tracking : bool;
  p_alive : bool;
  p_pos : vec T;
  p_mom : vec T;
  p_posHist : list (vec T);
  p_momHist : list (vec T);
  p_timeHist : list T;
  p_gammaHist : list T
}.

(** Lepton.cpp 35-38. *)
Definition lepton_gamma (mass : T) (mom : vec T) : T := nsqrt (n1 + mag2 mom / (mass * mass)).

(** Lepton.cpp 35-38, Photon.cpp 25-28. *)
Definition get_gamma (p : particle) : T :=
  match p_type p with
  | PLepton => lepton_gamma (p_mass p) (p_mom p)
  | PPhoton => mag (p_mom p)
  end.

(** Lepton.cpp 40-43, Photon.cpp 20-23. *)
Definition get_energy (p : particle) : T :=
  match p_type p with
  | PLepton => p_mass p * get_gamma p
  | PPhoton => mag (p_mom p)
  end.

(** Lepton.cpp 45-48, Photon.cpp 30-33. *)
Definition get_beta (p : particle) : T :=
  match p_type p with
  | PLepton => nsqrt (n1 - n1 / (get_gamma p * get_gamma p))
  | PPhoton => n1
  end.

(** Particle.cpp 56-59. *)
Definition get_direction (p : particle) : vec T := vnorm (p_mom p).

(** Particle.cpp 33-44.  [GetGamma()] on line 42 already sees the new momentum. *)
Definition update_track (p : particle) (pos mom : vec T) : particle :=
  let p1 := mkP (p_type p) (p_name p) (p_mass p) (p_charge p) (p_weight p) (p_time p)
                (p_depth p) (p_tracking p) (p_alive p) pos mom
                (p_posHist p) (p_momHist p) (p_timeHist p) (p_gammaHist p) in
  if p_tracking p then
    mkP (p_type p) (p_name p) (p_mass p) (p_charge p) (p_weight p) (p_time p)
        (p_depth p) (p_tracking p) (p_alive p) pos mom
        (p_posHist p ++ [pos]) (p_momHist p ++ [mom])
        (p_timeHist p ++ [p_time p]) (p_gammaHist p ++ [get_gamma p1])
  else p1.

(** Particle.cpp 46-49. *)
Definition update_time (p : particle) (dt : T) : particle :=
  mkP (p_type p) (p_name p) (p_mass p) (p_charge p) (p_weight p) (p_time p + dt)
      (p_depth p) (p_tracking p) (p_alive p) (p_pos p) (p_mom p)
      (p_posHist p) (p_momHist p) (p_timeHist p) (p_gammaHist p).

Definition set_depth (p : particle) (d : T) : particle :=
  mkP (p_type p) (p_name p) (p_mass p) (p_charge p) (p_weight p) (p_time p)
      d (p_tracking p) (p_alive p) (p_pos p) (p_mom p)
      (p_posHist p) (p_momHist p) (p_timeHist p) (p_gammaHist p).

(** Particle.cpp 51-54. *)
Definition update_depth (p : particle) (dtau : T) : particle := set_depth p (p_depth p - dtau).

(** Particle.hh 28. *)
Definition kill (p : particle) : particle :=
  mkP (p_type p) (p_name p) (p_mass p) (p_charge p) (p_weight p) (p_time p)
      (p_depth p) (p_tracking p) false (p_pos p) (p_mom p)
      (p_posHist p) (p_momHist p) (p_timeHist p) (p_gammaHist p).

(** Particle.cpp 63: -1.0 * log(1.0 - u). *)
Definition depth_of_draw (u : T) : T := nlit (-1) 0 * nlog (n1 - u).

Variable E : Engine T.

(** Particle.cpp 61-64. *)
Definition draw_depth (g : est E) : T * est E :=
  let '(u, g') := rand_double E n0 n1 g in (depth_of_draw u, g').
Definition init_depth (p : particle) (g : est E) : particle * est E :=
  let '(d, g') := draw_depth g in (set_depth p d, g').

(** Particle.cpp 18-27: base-class constructor (alive, fresh depth, empty histories). *)
Definition new_particle (ty : ptype) (name : string) (mass charge : T) (pos mom : vec T)
    (weight time : T) (tracking : bool) (g : est E) : particle * est E :=
  let '(d, g') := draw_depth g in
  (mkP ty name mass charge weight time d tracking true pos mom [] [] [] [], g').

(** Lepton.cpp 7-13 and 22-28: the name. *)
Definition lepton_name (charge : T) : string :=
  if charge =? nlit (-1) 0 then "Electron" else "Positron".

(** Lepton.cpp 3-14. *)
Definition new_lepton (mass charge : T) (pos mom : vec T) (weight time : T) (tracking : bool)
    (g : est E) : particle * est E :=
  new_particle PLepton (lepton_name charge) mass charge pos mom weight time tracking g.

(** Lepton.cpp 16-29: from an "energy" and a direction. *)
Definition new_lepton_energy (mass charge energy : T) (pos dir : vec T) (weight time : T)
    (tracking : bool) (g : est E) : particle * est E :=
  new_particle PLepton (lepton_name charge) mass charge pos (smul energy (vnorm dir))
               weight time tracking g.

(** Photon.cpp 3-7. *)
Definition new_photon (pos mom : vec T) (weight time : T) (tracking : bool)
    (g : est E) : particle * est E :=
  new_particle PPhoton "Photon" n0 n0 pos mom weight time tracking g.

(** Photon.cpp 9-13. *)
Definition new_photon_energy (energy : T) (pos dir : vec T) (weight time : T) (tracking : bool)
    (g : est E) : particle * est E :=
  new_particle PPhoton "Photon" n0 n0 pos (smul energy (vnorm dir)) weight time tracking g.

End Particle.
Arguments particle : clear implicits.
