(** * The Python run manager (Source/Python/RunManager.{hh,cpp}) *)
From Coq Require Import String ZArith List Bool.
From Verif Require Import Num Outcome Vec Units MCTools Particle ParticleList Source Fields Pusher Process Sim.
Import ListNotations.
Local Open Scope string_scope.
Local Open Scope list_scope.

(** A pointer member that is passed to [delete]. *)
Inductive ptr := Null | Live | Dangling.

(** [delete p] does not change [p]: afterwards it points to freed storage. *)
Definition delete (p : ptr) : res ptr :=
  match p with Null => Ok Null | Live => Ok Dangling | Dangling => UB DoubleFree end.

Section RunManager.
Context {T : Type} `{Num T}.
Variable E : Engine T.
Local Open Scope num_scope.

(** The arguments of setField and setGenerator in internal units (RunManager.hh 79-85, 99-105). *)
Record field_set := mkFS {
  f_max : T; f_wavelength : T; f_duration : T; f_waist : T; f_pol : T; f_start : vec T; f_focus : vec T }.
Record gen_set := mkGS {
  g_type : string; g_dist : string; g_energy1 : T; g_energy2 : T; g_radius : T; g_duration : T;
  g_divergence : T; g_position : vec T; g_direction : vec T }.

(** RunManager.hh 67-70: one vector of numbers per thread and table. *)
Record tables := mkTab {
  t_input : list (list T); t_electron : list (list T); t_positron : list (list T); t_photon : list (list T) }.

(** RunManager.hh 60-105.  [None]: members that no call has initialised yet.  The objects that the pointers
    refer to are only used inside the beamOn call that creates them, so their contents are not kept.
    [m_lost] counts the process objects that were allocated and are not freed. *)
Record manager := mkM {
  m_units : ptr; m_field : ptr; m_pusher : ptr; m_generator : ptr; m_lost : nat;
  m_tables : tables;
  m_timeStep : T; m_timeEnd : T;
  m_fieldSet : bool; m_fieldType : string; m_fieldPar : option field_set;
  m_physSet : bool; m_physics : string; m_sampleFrac : T; m_useBW : bool;
  m_genSet : bool; m_genPar : option gen_set }.

(** RunManager.cpp 17-24. *)
Definition new_manager : manager :=
  mkM Live Null Null Null 0 (mkTab [] [] [] []) n0 n0 false "" None false "" n1 false false None.

Definition un : units T := si_units.

(** RunManager.cpp 35-39. *)
Definition set_time (timeStep timeEnd : T) (m : manager) : manager :=
  mkM (m_units m) (m_field m) (m_pusher m) (m_generator m) (m_lost m) (m_tables m)
      (timeStep / ref_time un) (timeEnd / ref_time un)
      (m_fieldSet m) (m_fieldType m) (m_fieldPar m) (m_physSet m) (m_physics m) (m_sampleFrac m) (m_useBW m)
      (m_genSet m) (m_genPar m).

Definition with_field (s : bool) (ty : string) (p : option field_set) (m : manager) : manager :=
  mkM (m_units m) (m_field m) (m_pusher m) (m_generator m) (m_lost m) (m_tables m) (m_timeStep m) (m_timeEnd m)
      s ty p (m_physSet m) (m_physics m) (m_sampleFrac m) (m_useBW m) (m_genSet m) (m_genPar m).

(** RunManager.cpp 41-64. *)
Definition set_field (ty : string) (maxField wavelength duration waist pol : T) (start focus : vec T)
    (m : manager) : manager :=
  if (String.eqb ty "gaussian" || String.eqb ty "Gaussian" || String.eqb ty "focusing" || String.eqb ty "Focusing")%bool
  then with_field true ty
         (Some (mkFS (maxField / ref_eField un) (wavelength / ref_length un) (duration / ref_time un)
                     (waist / ref_length un) pol (vdivs start (ref_length un)) (vdivs focus (ref_length un)))) m
  else with_field false (m_fieldType m) (m_fieldPar m) m.

Definition with_physics (s : bool) (ph : string) (frac : T) (bw : bool) (m : manager) : manager :=
  mkM (m_units m) (m_field m) (m_pusher m) (m_generator m) (m_lost m) (m_tables m) (m_timeStep m) (m_timeEnd m)
      (m_fieldSet m) (m_fieldType m) (m_fieldPar m) s ph frac bw (m_genSet m) (m_genPar m).

(** RunManager.cpp 66-81. *)
Definition set_physics (physics : string) (m : manager) : manager :=
  if (String.eqb physics "Classical" || String.eqb physics "clasical" ||
      String.eqb physics "Semiclassical" || String.eqb physics "semiclassical" ||
      String.eqb physics "Quantum" || String.eqb physics "quantum")%bool
  then with_physics true physics (m_sampleFrac m) (m_useBW m) m
  else with_physics false (m_physics m) (m_sampleFrac m) (m_useBW m) m.

(** RunManager.cpp 83-98. *)
Definition set_generator (ty dist : string) (e1 e2 radius duration divergence : T) (position direction : vec T)
    (m : manager) : manager :=
  mkM (m_units m) (m_field m) (m_pusher m) (m_generator m) (m_lost m) (m_tables m) (m_timeStep m) (m_timeEnd m)
      (m_fieldSet m) (m_fieldType m) (m_fieldPar m) (m_physSet m) (m_physics m) (m_sampleFrac m) (m_useBW m)
      true (Some (mkGS ty dist (e1 / ref_energy un) (e2 / ref_energy un) (radius / ref_length un)
                       (duration / ref_time un) divergence (vdivs position (ref_length un)) direction)).

(** RunManager.cpp 100-110. *)
Definition set_sample_fraction (frac : T) (m : manager) : manager :=
  if (nleb n0 frac && nleb frac n1)%bool
  then with_physics (m_physSet m) (m_physics m) frac (m_useBW m) m else m.

(** RunManager.cpp 113-116. *)
Definition use_pair_production (b : bool) (m : manager) : manager :=
  with_physics (m_physSet m) (m_physics m) (m_sampleFrac m) b m.

(** *** beamOn *)
(** Reading the tables in the process constructors (PhotonEmission.cpp 50-141, NonLinearBreitWheeler.cpp
    73-144): any outcome. *)
Variable load_em : res (em_tables T).
Variable load_bw : res (bw_tables T).

(** RunManager.cpp 148-156. *)
Definition build_field (ty : string) (f : field_set) : field T :=
  if (String.eqb ty "gaussian" || String.eqb ty "Gaussian")%bool
  then gauss_field (new_gauss (f_max f) (f_wavelength f) (f_duration f) (f_waist f) (f_pol f) (f_start f) (f_focus f))
  else focusing_field
         (new_focusing (f_max f) (f_wavelength f) (f_duration f) (f_waist f) (f_pol f) (f_start f) (f_focus f)).

(** RunManager.cpp 159-177: the pusher and the emission process ([eMin] is [false], [track] is 0 there). *)
Definition build_physics (ph : string) (fld : field T) (dt frac : T) : res (force T * process T) :=
  if (String.eqb ph "Classical" || String.eqb ph "classical")%bool then
    let* t := load_em in Ok (landau_force, Continuous (mkEm fld dt frac n0 false t) true)
  else if (String.eqb ph "Semiclassical" || String.eqb ph "semiclassical")%bool then
    let* t := load_em in Ok (modified_landau_force, Continuous (mkEm fld dt frac n0 false t) false)
  else let* t := load_em in Ok (lorentz_force, Stochastic (mkEm fld dt frac n0 false t)).

(** RunManager.cpp 147-184. *)
Definition build_world (m : manager) : res (world T) :=
  match m_fieldPar m with
  | None => UB Uninitialised
  | Some f =>
      let fld := build_field (m_fieldType m) f in
      let* p := build_physics (m_physics m) fld (m_timeStep m) (m_sampleFrac m) in
      let* bw := (if m_useBW m then let* t := load_bw in Ok [BreitWheeler (mkBw fld (m_timeStep m) false t)]
                  else Ok []) in
      Ok (mkWorld (fst p) fld (m_timeStep m) (snd p :: bw))
  end.

(** RunManager.cpp 187-189; [events] becomes unsigned, the source is not tracked (SourceGenerator.hh 17). *)
Definition build_source (m : manager) (events : Z) (g : est E) : res (source T * est E) :=
  match m_genPar m with
  | None => UB Uninitialised
  | Some s => Ok (new_source E (g_type s) (g_dist s) (u32 events) (g_energy1 s) (g_energy2 s) (g_radius s)
                    (g_duration s) (g_divergence s) (g_position s) (g_direction s) false g)
  end.

(** The loop over the events, RunManager.cpp 198-293: world, source, number of threads, end time. *)
Variable loop : world T -> source T -> nat -> T -> est E -> res (tables * est E).

(** With OpenMP ([USEOPENMP])? *)
Variable omp : bool.

Definition with_pointers (f p g : ptr) (lost : nat) (t : tables) (m : manager) : manager :=
  mkM (m_units m) f p g lost t (m_timeStep m) (m_timeEnd m)
      (m_fieldSet m) (m_fieldType m) (m_fieldPar m) (m_physSet m) (m_physics m) (m_sampleFrac m) (m_useBW m)
      (m_genSet m) (m_genPar m).

(** RunManager.cpp 138. *)
Definition set_up (m : manager) : bool :=
  negb (neqb (m_timeStep m) n0 || negb (m_fieldSet m) || negb (m_physSet m) || negb (m_genSet m)).

(** RunManager.cpp 118-294.  The Boolean says whether the call left with an exception (which Python
    catches): the four vectors of line 191 cannot have a negative number of entries.  Other failures end the
    process. *)
Definition beam_on (events threads : Z) (m : manager) (g : est E) : res (manager * est E * bool) :=
  if (negb omp && negb (threads =? 1)%Z)%bool then Ok (m, g, false)
  else
    let* pu := delete (m_pusher m) in
    let* ge := delete (m_generator m) in
    let* fi := delete (m_field m) in
    if set_up m then
      let* w := build_world m in
      let* sg := build_source m events g in
      let lost := (m_lost m + length (w_procs w))%nat in
      if (threads <? 0)%Z then Ok (with_pointers Live Live Live lost (m_tables m) m, snd sg, true)
      else
        let* r := loop w (fst sg) (Z.to_nat threads) (m_timeEnd m) (snd sg) in
        Ok (with_pointers Live Live Live lost (fst r) m, snd r, false)
    else Ok (with_pointers fi pu ge (m_lost m) (m_tables m) m, g, false).

(** RunManager.cpp 26-33; what is left is the number of process objects never freed. *)
Definition destroy (m : manager) : res nat :=
  let* _ := delete (m_units m) in
  let* _ := delete (m_field m) in
  let* _ := delete (m_generator m) in
  let* _ := delete (m_pusher m) in
  Ok (m_lost m).

(** *** Results *)
(** RunManager.cpp 213-224: one row of the input table. *)
Definition input_row (p : particle T) : list T :=
  [vx (p_mom p) * ref_momentum un; vy (p_mom p) * ref_momentum un; vz (p_mom p) * ref_momentum un;
   vx (p_pos p) * ref_length un; vy (p_pos p) * ref_length un; vz (p_pos p) * ref_length un].

(** RunManager.cpp 247-259, 262-274, 277-289. *)
Definition final_row (p : particle T) : list T := input_row p ++ [p_weight p].

Inductive table := TInput | TElectron | TPositron | TPhoton.
Definition of_table (tb : table) (t : tables) : list (list T) :=
  match tb with TInput => t_input t | TElectron => t_electron t | TPositron => t_positron t | TPhoton => t_photon t end.
Definition set_table (tb : table) (t : tables) (l : list (list T)) : tables :=
  match tb with
  | TInput => mkTab l (t_electron t) (t_positron t) (t_photon t)
  | TElectron => mkTab (t_input t) l (t_positron t) (t_photon t)
  | TPositron => mkTab (t_input t) (t_electron t) l (t_photon t)
  | TPhoton => mkTab (t_input t) (t_electron t) (t_positron t) l
  end.

(** One [push_back]: table and value. *)
Definition push := (table * T)%type.

(** RunManager.cpp 211-225. *)
Definition input_pushes (ps : list (particle T)) : list push := map (pair TInput) (flat_map input_row ps).

(** RunManager.cpp 245-290. *)
Definition final_table (p : particle T) : option table :=
  if neqb (p_charge p) (nlit (-1) 0) then Some TElectron
  else if neqb (p_charge p) n0 then Some TPhoton
  else if neqb (p_charge p) n1 then Some TPositron
  else None.

(** RunManager.cpp 243-291. *)
Definition final_pushes (ps : list (particle T)) : list push :=
  flat_map (fun p => match final_table p with Some tb => map (pair tb) (final_row p) | None => [] end) ps.

(** [v[tid].push_back(x)]: no bounds check on [tid]. *)
Definition do_push (tid : nat) (t : tables) (p : push) : res tables :=
  match nth_error (of_table (fst p) t) tid with
  | Some l => Ok (set_table (fst p) t (upd (of_table (fst p) t) tid (l ++ [snd p])))
  | None => UB OutOfBounds
  end.
Fixpoint do_pushes (tid : nat) (t : tables) (ps : list push) : res tables :=
  match ps with [] => Ok t | p :: r => let* t' := do_push tid t p in do_pushes tid t' r end.

(** RunManager.cpp 191-194. *)
Definition empty_tables (threads : nat) : tables :=
  mkTab (repeat [] threads) (repeat [] threads) (repeat [] threads) (repeat [] threads).

(** RunManager.cpp 202-293 in the build without OpenMP: [n] more events; [fuel] bounds the time steps of one
    event.  The time loop 227-240 is that of the main program without histograms. *)
Fixpoint serial_events (fuel n : nat) (w : world T) (tEnd : T) (s : source T) (t : tables) (g : est E)
    : res (tables * est E) :=
  match n with
  | O => Ok (t, g)
  | S n' =>
      let* r := generate_list E s g in
      let '(l, s1, g1) := r in
      let* t1 := do_pushes 0 t (input_pushes (pl_items l)) in
      let* st := time_loop E w [] (fun _ _ _ (h : unit) => Ok h) fuel tEnd (mkSt n0 l g1 0 tt) in
      let* t2 := do_pushes 0 t1 (final_pushes (pl_items (st_ev _ st))) in
      serial_events fuel n' w tEnd s1 t2 (st_rng _ st)
  end.
Definition serial_loop (fuel : nat) : world T -> source T -> nat -> T -> est E -> res (tables * est E) :=
  fun w s threads tEnd g => serial_events fuel (Z.to_nat (s_nPart s)) w tEnd s (empty_tables threads) g.

(** RunManager.cpp 296-346: the getters join the vectors of the threads and cut the result into rows; the
    number of rows is an [int] (at most 2^31 - 1 rows are supposed here). *)
Fixpoint cut (fuel k : nat) (l : list T) : list (list T) :=
  match fuel with O => [] | S f => firstn k l :: cut f k (skipn k l) end.
Definition to_array (k : nat) (bufs : list (list T)) : list (list T) :=
  let accum := concat bufs in cut (Nat.div (length accum) k) k accum.
Definition get_table (tb : table) (m : manager) : list (list T) :=
  to_array (match tb with TInput => 6 | _ => 7 end) (of_table tb (m_tables m)).

(** *** Call sequences *)
Inductive call :=
| SetTime (timeStep timeEnd : T)
| SetField (ty : string) (maxField wavelength duration waist pol : T) (start focus : vec T)
| SetPhysics (physics : string)
| SetGenerator (ty dist : string) (e1 e2 radius duration divergence : T) (position direction : vec T)
| SetSampleFraction (frac : T)
| UsePairProduction (b : bool)
| BeamOn (events threads : Z)
| Get (tb : table).

(** What the caller sees: nothing, an exception, or a table. *)
Inductive seen := Nothing | Raised | Table (rows : list (list T)).

Definition do_call (c : call) (m : manager) (g : est E) : res (manager * est E * seen) :=
  match c with
  | SetTime a b => Ok (set_time a b m, g, Nothing)
  | SetField ty a b c d e s f => Ok (set_field ty a b c d e s f m, g, Nothing)
  | SetPhysics p => Ok (set_physics p m, g, Nothing)
  | SetGenerator ty di a b c d e p q => Ok (set_generator ty di a b c d e p q m, g, Nothing)
  | SetSampleFraction f => Ok (set_sample_fraction f m, g, Nothing)
  | UsePairProduction b => Ok (use_pair_production b m, g, Nothing)
  | BeamOn n t => let* r := beam_on n t m g in
      Ok (fst (fst r), snd (fst r), if snd r then Raised else Nothing)
  | Get tb => Ok (m, g, Table (get_table tb m))
  end.

Fixpoint do_calls (cs : list call) (m : manager) (g : est E) : res (manager * est E * list seen) :=
  match cs with
  | [] => Ok (m, g, [])
  | c :: r =>
      let* x := do_call c m g in
      let* y := do_calls r (fst (fst x)) (snd (fst x)) in
      Ok (fst (fst y), snd (fst y), snd x :: snd y)
  end.

(** A manager is created, used and destroyed: what the caller saw and the number of objects never freed. *)
Definition session (cs : list call) (g : est E) : res (list seen * nat) :=
  let* r := do_calls cs new_manager g in
  let* n := destroy (fst (fst r)) in
  Ok (snd r, n).

End RunManager.
Arguments manager : clear implicits.
Arguments tables : clear implicits.
Arguments call : clear implicits.
Arguments seen : clear implicits.
Arguments Nothing {T}.
Arguments Raised {T}.
Arguments Get {T} _.
Arguments BeamOn {T} _ _.
Arguments SetPhysics {T} _.
Arguments UsePairProduction {T} _.

(** ** The event loop with OpenMP (RunManager.cpp 198-293)
    Iteration [i] turns the initial particles of event [i] into its final ones; here they are given (see
    SourceRace.v for the shared generator).  Every thread executes the push_backs of its iterations, one
    after the other; the steps of different threads interleave arbitrarily. *)
Section Threads.
Context {T : Type} `{Num T}.
Variable events : list (list (particle T) * list (particle T)).

Definition iteration (i : nat) : list (push (T := T)) :=
  match nth_error events i with
  | Some (a, b) => input_pushes a ++ final_pushes b
  | None => []
  end.

Definition threads_state := (list (list (push (T := T))) * tables T)%type.

(** [plan]: the iterations of each thread, in the order it executes them. *)
Definition threads_start (plan : list (list nat)) : threads_state :=
  (map (flat_map iteration) plan, empty_tables (length plan)).

(** Thread [tid] executes its next push_back. *)
Definition threads_step (tid : nat) (s : threads_state) : option (res threads_state) :=
  match nth_error (fst s) tid with
  | Some (p :: rest) => Some (let* t := do_push tid (snd s) p in Ok (upd (fst s) tid rest, t))
  | _ => None
  end.

Fixpoint threads_run (sched : list nat) (s : threads_state) : option (res threads_state) :=
  match sched with
  | [] => Some (Ok s)
  | tid :: r =>
      match threads_step tid s with
      | Some (Ok s') => threads_run r s'
      | x => x
      end
  end.

Definition threads_done (s : threads_state) : Prop := Forall (fun q => q = []) (fst s).
End Threads.
