(** * The test program for pair production (Tests/BreitWheelerTest.cpp).  Of the other programs in Tests/, MainTest,
    ComptonTest, LaserTest, PusherTest and GeantTest contain no statement but [return 0] (the rest is commented out), InputTest only
    constructs the FileParser of FileParser.v, and tfTest needs TensorFlow; they are not modelled. *)
From Coq Require Import String ZArith List.
From Verif Require Import Num Outcome Vec MCTools Particle ParticleList Fields Process Text Tables.
Import ListNotations.
Local Open Scope string_scope.

Section PairTest.
Context {T : Type} `{Num T}.
Variable E : Engine T.
(** memory before the tables are read, QED_TABLES_PATH and the files (Tables.v) *)
Variable junk : nat -> nat -> T.
Variable junk_len : Z.
Variable env : option string.
Variable disk : string -> option text.

(** BreitWheelerTest.cpp 10: maximum 1, wave length 1, polarisation 0, along z. *)
Definition test_field : field T := plane_field (new_plane (nlit 1 0) (nlit 1 0) (nlit 0 0) (mkV (nlit 0 0) (nlit 0 0) (nlit 1 0))).
(** BreitWheelerTest.cpp 12: energy 1000, at the origin, against z; weight 1, time 0 and no tracking are the defaults of Photon.hh 12-14. *)
Definition test_photon (g : est E) : particle T * est E :=
  new_photon_energy E (nlit 1000 0) (mkV (nlit 0 0) (nlit 0 0) (nlit 0 0)) (mkV (nlit 0 0) (nlit 0 0) (nlit (-1) 0)) n1 n0 false g.

(** BreitWheelerTest.cpp 8-17: one call of Interact with time step 0.1 (no tracking, NonLinearBreitWheeler.hh 10).  [Ok] is
    [return 0], with the photon and the list as they are then.  Nothing is freed. *)
Definition pair_test (g : est E) : res (particle T * plist (particle T) * est E) :=
  let* t := load_bw junk junk_len env disk in
  let '(gamma, g1) := test_photon g in
  interact E (BreitWheeler (mkBw test_field (nlit 1 (-1)) false t)) gamma (pl_new "List" default_max) g1.
End PairTest.
