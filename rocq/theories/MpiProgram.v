(** * The main program built with MPI (Source/Exec/QEDCASC.cpp with USEMPI, without OpenMP) *)
From Coq Require Import String ZArith List Bool.
From Verif Require Import Num Outcome Vec Units MCTools Particle ParticleList Source Fields Pusher Process Sim Histogram Hdf5 Output
  Text Ini IniReader Mpi Program.
From Verif Require FileParser.
Import ListNotations.
Local Open Scope list_scope.

Section MpiProgram.
Context {T : Type} `{Num T}.
Variable E : Engine T.
Variable load_em : res (em_tables T).
Variable load_bw : res (bw_tables T).
Variable counters : nat -> Z.
Variable code : objinfo.
Variable garbage : T.
Variable fuel : nat.
Variable disk : string -> path.
Variable special : text -> T.

(** QEDCASC.cpp 199-269 on one rank: [n] more events, the next one has number [j].  The calls of the output manager
    are listed; they are made in Mpi.v.  This is the same as making them at once, for nothing here reads the output manager. *)
Fixpoint rank_events (w : Sim.world T) (tEnd : T) (output tracking : bool) (n : nat) (j : Z) (src : source T) (g : est E) (hs : list (hist T))
  : res (list (op T) * est E * list (hist T)) :=
  match n with
  | O => Ok ([], g, hs)
  | S n' =>
      let* r := generate_list E src g in
      let '(l, src1, g1) := r in
      let* st := run_event E w (map hi_time hs) hist_fill fuel tEnd l g1 hs in
      let fin := st_ev E st in
      let* x := rank_events w tEnd output tracking n' (j + 1) src1 (st_rng E st) (st_hist E st) in
      let '(c, g2, hs2) := x in
      Ok ((if output then [OPrimary l j; OFinal fin j] else []) ++ (if tracking then [OTrack fin j] else []) ++ c, g2, hs2)
  end.

(** QEDCASC.cpp 190-275. *)
Fixpoint rank_sources (w : Sim.world T) (tEnd : T) (tracking : bool) (ss : list (bool * source T)) (g : est E) (hs : list (hist T))
  : res (list (source_run T) * list (hist T)) :=
  match ss with
  | [] => Ok ([], hs)
  | (output, src) :: r =>
      let* x := rank_events w tEnd output tracking (Z.to_nat (s_nPart src)) 0 src g hs in
      let '(c, g1, hs1) := x in
      let* y := rank_sources w tEnd tracking r g1 hs1 in
      Ok (mkSR output (s_nPart src) c :: fst y, snd y)
  end.

(** QEDCASC.cpp 86-275: what one rank simulates.  [g] is the state of its generator, which MCTools.hh seeds from std::random_device
    in every process; the call MCTools::SetSeed(id) of line 76 does not reach it (C12). *)
Definition rank_simulation (pa : FileParser.parameters T) (g : est E) : res (list (source_run T) * list (hist T)) :=
  let tracking := FileParser.g_tracking (FileParser.in_general pa) in
  let* w := set_up_world load_em load_bw pa in
  let '(ss, g1) := make_sources E tracking (FileParser.in_particles pa) g in
  rank_sources w (FileParser.g_timeEnd (FileParser.in_general pa)) tracking ss g1 (make_histograms counters 0 (FileParser.in_histograms pa)).

(** QEDCASC.cpp 34-275; every rank reads the input file itself.  The copies of the parameters that all ranks write to the same
    input-check.txt are not modelled. *)
Definition rank_program (argv : list string) (g : est E) : res (list (source_run T) * list (hist T)) :=
  let* name := check_arguments argv in
  let* pa := FileParser.file_parser special (disk name) in
  rank_simulation pa g.

(** No call below takes the field. *)
Definition no_field : field T := fun _ _ => (mkV n0 n0 n0, mkV n0 n0 n0).
(** OutputManager.cpp 7-21 on a rank other than 0: no file is opened; the one here is never looked at. *)
Definition om_slave : om T := mkOM (mkFile [] GLive) None false false false [] (mkTab [] []) (mkTab [] []) (mkTab [] []) [].

Fixpoint other_ranks (argv : list string) (gs : list (est E)) : res (list (list (act T))) :=
  match gs with
  | [] => Ok []
  | g :: r =>
      let* x := rank_program argv g in
      let* a := slave_main code garbage no_field om_slave (fst x) (snd x) in
      let* b := other_ranks argv r in
      Ok (a :: b)
  end.

(** The whole program on rank 0, with generator state [g0], and as many other ranks as there are [gs].  If a rank does not get to
    its first communication the program as a whole does not, and the result is not [Ok]; else it is the set of communicating
    processes of Mpi.v.  The local computations of the ranks happen before their first communication here; they do not
    depend on what is received. *)
Definition mpi_program (argv : list string) (g0 : est E) (gs : list (est E)) : res (Mpi.world T (om T)) :=
  let* x := rank_program argv g0 in
  let* o := om_new code None in
  let* acts := other_ranks argv gs in
  Ok (start (master_main code garbage no_field (length gs) o (fst x) (snd x)) acts).
End MpiProgram.
