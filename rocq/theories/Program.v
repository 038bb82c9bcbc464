(** * The main program (Source/Exec/QEDCASC.cpp), built without OpenMP and MPI *)
From Coq Require Import String ZArith List Bool.
From Verif Require Import Num Outcome Vec Units MCTools Particle ParticleList Source Fields Pusher Process Sim Histogram Hdf5 Output
  Text Ini IniReader.
From Verif Require FileParser.
Import ListNotations.
Local Open Scope string_scope.
Local Open Scope list_scope.

(** QEDCASC.cpp 34-67: the path of the input file.  [argv] is the whole argument vector, the name of the program first;
    without even that (argc = 0) argv[1] lies outside the array.  Messages are not modelled; [return 1] is [Exit 1].
    std::string::substr throws if its first argument, an unsigned 64-bit number, exceeds the length. *)
Definition check_arguments (argv : list string) : res string :=
  match argv with
  | [] => UB OutOfBounds
  | [_] => Exit 1
  | [_; a] =>
      if String.eqb a "-h" then Exit 1
      else
        let size := Z.of_nat (String.length a) in
        let pos := u64 (size - 4) in
        if (size <? pos)%Z then Throw
        else if String.eqb (substring (Z.to_nat pos) (String.length a - Z.to_nat pos) a) ".ini" then Ok a
        else Exit 1
  | _ => Exit 1
  end.

Section Program.
Context {T : Type} `{Num T}.
Variable E : Engine T.

(** The tables read by the constructors of the processes (any outcome). *)
Variable load_em : res (em_tables T).
Variable load_bw : res (bw_tables T).

(** QEDCASC.cpp 88-111. *)
Definition choose_field (f : FileParser.field T) : res (field T) :=
  match f with
  | FileParser.StaticField e b => Ok (static_field e b)
  | FileParser.PlaneField m w p d => Ok (plane_field (new_plane m w p d))
  | FileParser.GaussianField m w t a p s f => Ok (gauss_field (new_gauss m w t a p s f))
  | FileParser.FocusingField m w t a p s f => Ok (focusing_field (new_focusing m w t a p s f))
  | FileParser.NoField => Exit 1
  end.

(** QEDCASC.cpp 113-142. *)
Definition choose_physics (y : FileParser.physics T) (fld : field T) (dt : T) (tracking : bool) : res (force T * process T) :=
  let ph := FileParser.y_physics y in
  if (String.eqb ph "Classical" || String.eqb ph "classical")%bool then
    let* t := load_em in
    Ok (landau_force, Continuous (mkEm fld dt (FileParser.y_fraction y) (FileParser.y_minEnergy y) tracking t) true)
  else if (String.eqb ph "Semiclassical" || String.eqb ph "semiclassical")%bool then
    let* t := load_em in
    Ok (modified_landau_force, Continuous (mkEm fld dt (FileParser.y_fraction y) (FileParser.y_minEnergy y) tracking t) false)
  else if (String.eqb ph "Quantum" || String.eqb ph "quantum")%bool then
    let* t := load_em in
    Ok (lorentz_force, Stochastic (mkEm fld dt (FileParser.y_fraction y) (FileParser.y_minEnergy y) tracking t))
  else Exit 1.

(** QEDCASC.cpp 144-149: the third argument is the literal [false]. *)
Definition choose_pairs (y : FileParser.physics T) (fld : field T) (dt : T) : res (list (process T)) :=
  if FileParser.y_pair y then let* t := load_bw in Ok [BreitWheeler (mkBw fld dt false t)] else Ok [].

(** QEDCASC.cpp 88-149. *)
Definition set_up_world (pa : FileParser.parameters T) : res (world T) :=
  let dt := FileParser.g_timeStep (FileParser.in_general pa) in
  let* fld := choose_field (FileParser.in_field pa) in
  let* p := choose_physics (FileParser.in_physics pa) fld dt (FileParser.g_tracking (FileParser.in_general pa)) in
  let* bw := choose_pairs (FileParser.in_physics pa) fld dt in
  Ok (mkWorld (fst p) fld dt (snd p :: bw)).

(** QEDCASC.cpp 151-162. *)
Definition make_source (tracking : bool) (q : FileParser.particle T) (g : est E) : source T * est E :=
  new_source E (FileParser.p_type q) (FileParser.p_distro q) (FileParser.p_number q) (FileParser.p_energy1 q) (FileParser.p_energy2 q)
    (FileParser.p_radius q) (FileParser.p_duration q) (FileParser.p_divergence q) (FileParser.p_position q) (FileParser.p_direction q)
    tracking g.
Fixpoint make_sources (tracking : bool) (qs : list (FileParser.particle T)) (g : est E) : list (bool * source T) * est E :=
  match qs with
  | [] => ([], g)
  | q :: r =>
      let '(s, g1) := make_source tracking q g in
      let '(ss, g2) := make_sources tracking r g1 in
      ((FileParser.p_output q, s) :: ss, g2)
  end.

(** The uninitialised entry counters of the histograms. *)
Variable counters : nat -> Z.
(** QEDCASC.cpp 164-171. *)
Definition make_histogram (i : nat) (h : FileParser.histogram T) : hist T :=
  hist_new (counters i) (FileParser.h_name h) (FileParser.h_particle h) (FileParser.h_type h) (FileParser.h_time h)
    (FileParser.h_minBin h) (FileParser.h_maxBin h) (FileParser.h_bins h).
Fixpoint make_histograms (i : nat) (hs : list (FileParser.histogram T)) : list (hist T) :=
  match hs with [] => [] | h :: r => make_histogram i h :: make_histograms (S i) r end.

(** HDF5 (see Hdf5.v) and the contents of fresh arrays. *)
Variable code : objinfo.
Variable garbage : T.
(** Bound on the time steps of one event. *)
Variable fuel : nat.

(** What the loops change: output manager, histograms, random numbers. *)
Record prog := mkProg { pg_om : om T; pg_hists : list (hist T); pg_rng : est E }.

Definition when (b : bool) (s : om T) (f : om T -> res (om T)) : res (om T) := if b then f s else Ok s.

(** QEDCASC.cpp 201-257: event [j] of a source; freeing the list is not modelled (nothing refers to it afterwards). *)
Definition one_event (w : world T) (tEnd : T) (output tracking : bool) (j : Z) (src : source T) (s : prog) : res (source T * prog) :=
  let* r := generate_list E src (pg_rng s) in
  let '(l, src1, g1) := r in
  let* o1 := when output (pg_om s) (fun o => store_primary o l j) in
  let* st := run_event E w (map hi_time (pg_hists s)) hist_fill fuel tEnd l g1 (pg_hists s) in
  let fin := st_ev E st in
  let* o2 := when output o1 (fun o => store_final garbage o fin j) in
  let* o3 := when tracking o2 (fun o => Ok (store_track o fin j)) in
  Ok (src1, mkProg o3 (st_hist E st) (st_rng E st)).

(** QEDCASC.cpp 199-269: [n] more events, the next one has number [j]. *)
Fixpoint source_events (w : world T) (tEnd : T) (output tracking : bool) (n : nat) (j : Z) (src : source T) (s : prog) : res prog :=
  match n with
  | O => Ok s
  | S n' => let* r := one_event w tEnd output tracking j src s in source_events w tEnd output tracking n' (j + 1) (fst r) (snd r)
  end.

(** QEDCASC.cpp 190-275. *)
Fixpoint source_loop (w : world T) (tEnd : T) (tracking : bool) (ss : list (bool * source T)) (s : prog) : res prog :=
  match ss with
  | [] => Ok s
  | (output, src) :: r =>
      let o0 := if output then init_source (pg_om s) (s_nPart src) else pg_om s in
      let* s1 := source_events w tEnd output tracking (Z.to_nat (s_nPart src)) 0 src (mkProg o0 (pg_hists s) (pg_rng s)) in
      let* o1 := output_events code garbage (pg_om s1) output tracking in
      source_loop w tEnd tracking r (mkProg o1 (pg_hists s1) (pg_rng s1))
  end.

(** QEDCASC.cpp 284-292. *)
Fixpoint write_histograms (o : om T) (hs : list (hist T)) : res (om T) :=
  match hs with [] => Ok o | h :: r => let* o1 := out_hist code o h in write_histograms o1 r end.

(** QEDCASC.cpp 86-302. *)
Definition simulation (pa : FileParser.parameters T) (g : est E) : res (file T) :=
  let tracking := FileParser.g_tracking (FileParser.in_general pa) in
  let* w := set_up_world pa in
  let '(ss, g1) := make_sources tracking (FileParser.in_particles pa) g in
  let hs := make_histograms 0 (FileParser.in_histograms pa) in
  let* o := om_new code None in
  let* s := source_loop w (FileParser.g_timeEnd (FileParser.in_general pa)) tracking ss (mkProg o hs g1) in
  let* o1 := write_histograms (pg_om s) (pg_hists s) in
  Ok (om_file o1).

(** The files and the conversion of special numerals (IniReader.v). *)
Variable disk : string -> path.
Variable special : text -> T.

(** QEDCASC.cpp 34-303.  The result is the output file. *)
Definition program (argv : list string) (g : est E) : res (file T) :=
  let* name := check_arguments argv in
  let* pa := FileParser.file_parser special (disk name) in
  simulation pa g.

End Program.
