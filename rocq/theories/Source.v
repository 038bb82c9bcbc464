(** * Primary particle source (Source/Particles/SourceGenerator.{hh,cpp}) *)
From Coq Require Import ZArith String List DecimalString.
From Verif Require Import Num Outcome Vec MCTools Units Particle ParticleList.
Import ListNotations.
Local Open Scope string_scope.

(** [std::to_string] of an unsigned number. *)
Definition to_string (z : Z) : string := NilZero.string_of_uint (N.to_uint (Z.to_N z)).

Section Source.
Context {T : Type} `{Num T}.
Variable E : Engine T.
Local Open Scope num_scope.

(** SourceGenerator.hh 22-38. *)
Record source := mkSrc {
  s_type : string;
  s_nPart : Z;
  s_count : Z;
  s_track : bool;
  s_dir : vec T;
  s_pos : vec T;
  s_xs : list T; s_ys : list T; s_zs : list T;
  s_thetas : list T; s_phis : list T; s_energies : list T;
  s_rot : mat T
}.

(** SourceGenerator.cpp 7-35. *)
Definition new_source (type distro : string) (nPart : Z) (energy1 energy2 deltaPos deltaTau deltaDir : T)
    (position direction : vec T) (track : bool) (g : est E) : source * est E :=
  let n := Z.to_nat nPart in
  let dir := vnorm direction in
  let '(xs, g1) := sample_norm E n0 deltaPos n g in
  let '(ys, g2) := sample_norm E n0 deltaPos n g1 in
  let '(zs, g3) := sample_norm E n0 deltaTau n g2 in
  let '(thetas, g4) := sample_norm E n0 deltaDir n g3 in
  let '(phis, g5) := sample_uniform E n0 (n2 * c_pi) n g4 in
  let '(energies, g6) :=
    if (String.eqb distro "gaussian" || String.eqb distro "Gaussian")%bool
    then sample_norm E energy1 energy2 n g5
    else sample_uniform E energy1 energy2 n g5 in
  (mkSrc type nPart 0 track dir position xs ys zs thetas phis energies
         (rotate_to_axis dir (mkV n0 n0 n1)), g6).

Definition is_name (a b s : string) : bool := (String.eqb s a || String.eqb s b)%bool.

(** SourceGenerator.cpp 62-82: the particle made from the sampled values. *)
Definition make_primary (type : string) (energy : T) (pos dir : vec T) (track : bool)
    (g : est E) : res (particle T * est E) :=
  if is_name "Photon" "photon" type then Ok (new_photon_energy E energy pos dir n1 n0 track g)
  else if is_name "Electron" "electron" type then
    Ok (new_lepton_energy E n1 (nlit (-1) 0) energy pos dir n1 n0 track g)
  else if is_name "Positron" "positron" type then
    Ok (new_lepton_energy E n1 n1 energy pos dir n1 n0 track g)
  else Exit (-1).

Definition with_count (s : source) (c : Z) : source :=
  mkSrc (s_type s) (s_nPart s) c (s_track s) (s_dir s) (s_pos s) (s_xs s) (s_ys s) (s_zs s)
        (s_thetas s) (s_phis s) (s_energies s) (s_rot s).

(** SourceGenerator.cpp 41-85, executed without interference (see SourceRace.v for threads). *)
Definition generate_list (s : source) (g : est E) : res (plist (particle T) * source * est E) :=
  let c := s_count s in
  if (c =? s_nPart s)%Z then Exit 1
  else
    let list := pl_new (to_string c) default_max in
    let* x := get (s_xs s) c in
    let* y := get (s_ys s) c in
    let* z := get (s_zs s) c in
    let pos := vadd (mvec (s_rot s) (mkV x y z)) (s_pos s) in
    let* th := get (s_thetas s) c in
    let* ph := get (s_phis s) c in
    let dir := mvec (s_rot s) (mkV (nsin th * ncos ph) (nsin th * nsin ph) (ncos th)) in
    let* en := get (s_energies s) c in
    let* pg := make_primary (s_type s) en pos dir (s_track s) g in
    let '(p, g') := pg in
    Ok (pl_add list p, with_count s (u32 (c + 1)), g').

(** [k] successive calls. *)
Fixpoint generate_many (k : nat) (s : source) (g : est E) : res (list (plist (particle T)) * source * est E) :=
  match k with
  | O => Ok ([], s, g)
  | S k' =>
      let* r := generate_list s g in
      let '(l, s1, g1) := r in
      let* r2 := generate_many k' s1 g1 in
      let '(ls, s2, g2) := r2 in
      Ok (l :: ls, s2, g2)
  end.

End Source.
Arguments source : clear implicits.
