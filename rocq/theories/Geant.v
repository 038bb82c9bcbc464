(** * Coupling to Geant4 (Source/Geant)
    The Geant4 side (gun, run manager, tracks) is represented by the values exchanged with it.  The
    constructor G4CascadeGenerator.cpp 20-105 is not modelled: it calls members that the parser of this
    version no longer has (GetProcess, [pusher]); the generator starts from its result, a source and a
    world. *)
From Coq Require Import String ZArith List Bool.
From Verif Require Import Num Outcome Vec Units MCTools Particle ParticleList Source Fields Pusher Process Sim.
Import ListNotations.
Local Open Scope string_scope.
Local Open Scope list_scope.

Section Generator.
Context {T : Type} `{Num T}.
Variable E : Engine T.
Local Open Scope num_scope.

(** What one vertex receives: particle definition (G4CascadeGenerator.cpp 28-30), the value given to
    SetParticleEnergy and the direction.  The gun's position is fixed by the constructor (line 25). *)
Record shot := mkShot { sh_name : string; sh_energy : T; sh_dir : vec T }.

(** G4CascadeGenerator.hh 31-43: the members that change. *)
Record gen := mkGen { ge_source : source T; ge_event : option (event T); ge_current : Z; ge_secondary : Z; ge_rng : est E }.

(** G4CascadeGenerator.cpp 22: no event yet. *)
Definition new_gen (src : source T) (g : est E) : gen := mkGen src None 0 (-1) g.

Variable fuel : nat.
Variable w : world T.
Variable tEnd : T.

(** G4CascadeGenerator.cpp 123-136: the time loop, the same as in the main program but without
    histograms. *)
Definition g4_time_loop (l : event T) (g : est E) : res (event T * est E) :=
  let* s := time_loop E w [] (fun _ _ _ (h : unit) => Ok h) fuel tEnd (mkSt n0 l g 0 tt) in
  Ok (st_ev E s, st_rng E s).

(** G4CascadeGenerator.cpp 115-140.  Freeing the previous event (117-121) is not represented. *)
Definition simulate_event (s : gen) : res gen :=
  let* r := generate_list E (ge_source s) (ge_rng s) in
  let '(l, src, g) := r in
  let* r2 := g4_time_loop l g in
  Ok (mkGen src (Some (fst r2)) (u32 (ge_current s + 1)) (s32 (u32 (pl_n (fst r2) - 1))) (snd r2)).

(** G4CascadeGenerator.cpp 158-180: the gun settings for one particle. *)
Definition shoot (p : particle T) : shot :=
  mkShot (if String.eqb (p_name p) "Electron" then "e-" else if String.eqb (p_name p) "Positron" then "e+" else "gamma")
         (get_energy p / g4_energy si_units) (get_direction p).

(** G4CascadeGenerator.cpp 142-183: one call; [None] is AbortRun. *)
Definition generate_primaries (s : gen) : res (gen * option shot) :=
  if ((ge_current s =? s_nPart (ge_source s))%Z && (ge_secondary s =? -1)%Z)%bool then Ok (s, None)
  else
    let* s1 := (if (ge_secondary s =? -1)%Z then simulate_event s else Ok s) in
    match ge_event s1 with
    | None => UB Uninitialised
    | Some l =>
        let* p := pl_get l (u32 (ge_secondary s1)) in
        Ok (mkGen (ge_source s1) (ge_event s1) (ge_current s1) (s32 (ge_secondary s1 - 1)) (ge_rng s1), Some (shoot p))
    end.

(** [k] calls by the run manager, with their results. *)
Fixpoint primaries (k : nat) (s : gen) : res (gen * list (option shot)) :=
  match k with
  | O => Ok (s, [])
  | S k' =>
      let* r := generate_primaries s in
      let* r2 := primaries k' (fst r) in
      Ok (fst r2, snd r :: snd r2)
  end.
End Generator.
Arguments shot : clear implicits.
Arguments mkShot {T} _ _ _.
Arguments sh_name {T} _.
Arguments sh_energy {T} _.
Arguments sh_dir {T} _.

Section Emission.
Context {T : Type} `{Num T}.
Variable E : Engine T.
Local Open Scope num_scope.

(** What the track of one step tells (G4StochasticEmission.cpp 31-36): rest mass and kinetic energy in
    MeV, charge, position in mm, direction. *)
Record track := mkTrack { tk_mass : T; tk_charge : T; tk_kinetic : T; tk_pos : vec T; tk_dir : vec T }.

(** What the step proposes (56-73): the kinetic energy (the argument of ProposeEnergy), the direction,
    the secondaries with energy and direction. *)
Record proposal := mkProposal { pr_kinetic : T; pr_dir : vec T; pr_photons : list (T * vec T) }.

(** G4StochasticEmission.cpp 31-44: the lepton of the step; default weight 1, time 0, tracking off
    (Lepton.hh 12-13). *)
Definition track_lepton (u : units T) (t : track) (g : est E) : particle T * est E :=
  new_lepton_energy E (tk_mass t * g4_energy u) (tk_charge t) (tk_kinetic t * g4_energy u)
    (vmuls (tk_pos t) (g4_length u)) (tk_dir t) n1 n0 false g.

(** ParticlePusher.cpp 66-72 on the photon list. *)
Definition push_event (fld : field T) (dt : T) (l : event T) : event T :=
  mkPL (pl_name l) (pl_max l) (push_list lorentz_force fld dt (pl_items l)) (pl_lost l).

(** G4StochasticEmission.cpp 103-105: [StochasticEmission(m_field, m_dt, false)]: the sample fraction is
    [false], the minimal energy and the tracking have their defaults (StochasticEmission.hh 9-10). *)
Definition g4_cfg (fld : field T) (dt : T) (tab : em_tables T) : em_cfg T := mkEm fld dt n0 n0 false tab.

(** G4StochasticEmission.cpp 47-54; the fuel counts executed loop bodies. *)
Fixpoint emission_loop (fuel : nat) (fld : field T) (dt : T) (tab : em_tables T) (tEnd time : T)
    (p : particle T) (l : event T) (g : est E) : res (particle T * event T * est E) :=
  if time <? tEnd then
    match fuel with
    | O => Fuel
    | S f =>
        let* r := stochastic_interact E (g4_cfg fld dt tab) (push_particle lorentz_force fld dt p) (push_event fld dt l) g in
        let '(p', l', g') := r in
        emission_loop f fld dt tab tEnd (time + dt) p' l' g'
    end
  else Ok (p, l, g).

(** G4StochasticEmission.cpp 29-77. *)
Definition post_step (fuel : nat) (u : units T) (fld : field T) (dt : T) (tab : em_tables T) (tEnd : T)
    (t : track) (g : est E) : res (proposal * est E) :=
  let '(p, g1) := track_lepton u t g in
  let* r := emission_loop fuel fld dt tab tEnd n0 p (pl_new "Photons" default_max) g1 in
  let '(p', l, g2) := r in
  Ok (mkProposal (get_energy p' / g4_energy u) (get_direction p')
        (map (fun q => (get_energy q / g4_energy u, get_direction q)) (pl_items l)), g2).

(** G4StochasticEmission.cpp 79-98 (and the copy G4CascadeTF.cpp 63-82): the proposed free path and the
    new value of [m_pSwitch]; [laser] is the material's "Laser Field". *)
Definition mean_free_path (laser : T) (switch : bool) : T * bool :=
  if laser <? n1 then (nlit 1 99, switch)
  else if switch then (nlit 1 99, false) else (nlit 1 (-99), true).

(** Successive queries; the switch is a member of the process, shared by all tracks. *)
Fixpoint free_paths (lasers : list T) (switch : bool) : list T :=
  match lasers with
  | [] => []
  | x :: r => let '(d, s) := mean_free_path x switch in d :: free_paths r s
  end.

(** G4StochasticEmission.cpp 100-132: the fields.  SetStaticField hands its values on as they are,
    SetPlaneField and SetGaussianField convert the scalars to the internal units, not the places. *)
Definition g4_static (e b : vec T) : field T := static_field e b.
Definition g4_plane (u : units T) (maxE wavelength pol : T) (dir : vec T) : field T :=
  plane_field (new_plane (maxE / ref_eField u) (wavelength / ref_length u) pol dir).
Definition g4_gaussian (u : units T) (maxE wavelength tau waist pol : T) (start focus : vec T) : field T :=
  gauss_field (new_gauss (maxE / ref_eField u) (wavelength / ref_length u) (tau / ref_time u) (waist / ref_length u) pol start focus).
End Emission.
Arguments track : clear implicits.
Arguments mkTrack {T} _ _ _ _ _.
Arguments proposal : clear implicits.
Arguments mkProposal {T} _ _ _.

(** ** The objects owned by the process (G4StochasticEmission.cpp 9-27, 29-77, 100-134)
    Every [new] yields an address that was never used before, so addresses are object identities. *)
Inductive ptr := PIndet | PNull | PAddr (a : nat).
Record owned := mkOwned {
  ow_field : ptr; ow_part : ptr; ow_g4part : ptr; ow_process : ptr; ow_pusher : ptr; ow_heap : heap; ow_next : nat }.

(** 9-18: only [m_process] and [m_pusher] are initialised. *)
Definition ow_new (h : heap) (next : nat) : owned := mkOwned PIndet PIndet PIndet PNull PNull h next.

(** [delete p]. *)
Definition delete (p : ptr) (h : heap) : res heap :=
  match p with
  | PIndet => UB Uninitialised
  | PNull => Ok h
  | PAddr a => free a h
  end.

(** 100-107 and its two siblings: three new objects, the old ones are not deleted. *)
Definition ow_set_field (o : owned) : owned :=
  let n := ow_next o in
  mkOwned (PAddr n) (ow_part o) (ow_g4part o) (PAddr (S n)) (PAddr (S (S n)))
    (S (S n) :: S n :: n :: ow_heap o) (S (S (S n))).

(** 62-69: one G4DynamicParticle per photon, given to the particle change. *)
Fixpoint ow_photons (k : nat) (o : owned) : owned :=
  match k with
  | O => o
  | S k' => ow_photons k' (mkOwned (ow_field o) (ow_part o) (PAddr (ow_next o)) (ow_process o) (ow_pusher o)
                            (ow_next o :: ow_heap o) (S (ow_next o)))
  end.

(** 29-77 with [k] photons: the lepton is made, the pusher is called through its pointer if there is a
    time step ([moves]), the lepton is deleted; [m_part] keeps its value.  The photon list is a local
    matter and left out. *)
Definition ow_step (moves : bool) (k : nat) (o : owned) : res owned :=
  let a := ow_next o in
  let o1 := mkOwned (ow_field o) (PAddr a) (ow_g4part o) (ow_process o) (ow_pusher o) (a :: ow_heap o) (S a) in
  let* _ := (if moves then match ow_pusher o1 with PAddr _ => Ok tt | _ => UB NullDeref end else Ok tt) in
  let o2 := ow_photons k o1 in
  let* h := free a (ow_heap o2) in
  Ok (mkOwned (ow_field o2) (ow_part o2) (ow_g4part o2) (ow_process o2) (ow_pusher o2) h (ow_next o2)).

(** Geant4 deletes a secondary that it owns (or anything else that is not ours). *)
Definition ow_geant (a : nat) (o : owned) : res owned :=
  let* h := free a (ow_heap o) in
  Ok (mkOwned (ow_field o) (ow_part o) (ow_g4part o) (ow_process o) (ow_pusher o) h (ow_next o)).

Inductive ow_call := OwField | OwStep (moves : bool) (k : nat) | OwGeant (a : nat).
Definition ow_exec (c : ow_call) (o : owned) : res owned :=
  match c with
  | OwField => Ok (ow_set_field o)
  | OwStep m k => ow_step m k o
  | OwGeant a => ow_geant a o
  end.
Fixpoint ow_run (cs : list ow_call) (o : owned) : res owned :=
  match cs with
  | [] => Ok o
  | c :: r => let* o1 := ow_exec c o in ow_run r o1
  end.

(** 20-27: the destructor. *)
Definition ow_destroy (o : owned) : res heap :=
  let* h1 := delete (ow_field o) (ow_heap o) in
  let* h2 := delete (ow_part o) h1 in
  let* h3 := delete (ow_g4part o) h2 in
  let* h4 := delete (ow_process o) h3 in
  delete (ow_pusher o) h4.

(** ** The neural-network process (Source/Geant/G4CascadeTF.cpp 84-164)
    The three graphs are represented by what they return for the track at hand: the component weights
    and, per component, mean, width and skew.  [RandSinhArcsinhNd] and [RandPoisson] are arbitrary
    functions of their arguments and of the generator state. *)
Section TF.
Context {T : Type} `{Num T}.
Variable E : Engine T.
Variable skewed : vec T * vec T * vec T -> est E -> vec T * est E.
Variable poisson : T -> est E -> nat * est E.
Local Open Scope num_scope.

Record graph := mkGraph { gr_frac : list T; gr_comp : list (vec T * vec T * vec T) }.

Definition scale3 (v : vec T) (s : vec T) : vec T := mkV (vx v * vx s) (vy v * vy s) (vz v * vz s).

(** 133-158: one pass of the photon loop.  The component index is drawn from the weights of the electron
    graph (140), the sample is drawn (153) and not used (155-157); the energy is the squared length of
    the momentum. *)
Definition tf_photon (elec phot : graph) (scale : vec T) (sample : vec T) (g : est E) : res (vec T * T * est E) :=
  let* r := rand_discrete E (gr_frac elec) g in
  let* c := get (gr_comp phot) (fst r) in
  let '(_, g2) := skewed c (snd r) in
  let mom := scale3 sample scale in
  Ok (vnorm mom, mag2 mom / g4_energy si_units, g2).
Fixpoint tf_photons (k : nat) (elec phot : graph) (scale sample : vec T) (g : est E) : res (list (vec T * T) * est E) :=
  match k with
  | O => Ok ([], g)
  | S k' =>
      let* r := tf_photon elec phot scale sample g in
      let '(d, e, g1) := r in
      let* r2 := tf_photons k' elec phot scale sample g1 in
      Ok ((d, e) :: fst r2, snd r2)
  end.

(** 106-164. *)
Definition tf_step (elec phot : graph) (meanPhotons : T) (escale pscale : vec T) (g : est E) : res (proposal T * est E) :=
  let* r := rand_discrete E (gr_frac elec) g in
  let* c := get (gr_comp elec) (fst r) in
  let '(sample, g2) := skewed c (snd r) in
  let '(n, g3) := poisson meanPhotons g2 in
  let* r2 := tf_photons n elec phot pscale sample g3 in
  let mom := scale3 sample escale in
  Ok (mkProposal (nsqrt (mag2 mom + n1) / g4_energy si_units) (vnorm mom)
        (map (fun q => (snd q, fst q)) (fst r2)), snd r2).
End TF.
Arguments graph : clear implicits.
Arguments mkGraph {T} _ _.
