(** * beamOn of the Python module built with OpenMP (Source/Python/RunManager.cpp 118-294, [#pragma omp parallel for] on line 200)

    [omp_set_num_threads(threads)] (line 199), then the iterations of the loop over the primaries are dealt out to the threads; each thread
    runs its iterations one after the other and pushes their results into its own vectors [m_*_P_X[tid]].  The threads share the generator of
    random numbers (MCTools.hh 36-37) and the sample counter of the source (SourceGenerator.hh).  As in Threads.v each random draw and each step
    of that counter is atomic (in C++ these are data races), and those of different threads interleave arbitrarily.  The vectors of a thread are
    touched by no other one, so that the push_backs of an event (lines 211-225 and 243-291) are taken as one step.  How the iterations are dealt out is left
    open: thread number [t] gets [k_t] of them, and as an iteration does not read its number, only the [k_t] matter. *)
From Coq Require Import String ZArith List Bool.
From Verif Require Import Num Outcome Vec Units Numerics MCTools Particle ParticleList Source Fields Pusher Process Sim RunManager Threads.
Import ListNotations.
Local Open Scope list_scope.

Section PyThreads.
Context {T : Type} `{Num T}.
Variable E : Engine T.
Variable load_em : res (em_tables T).
Variable load_bw : res (bw_tables T).
Variable fuel : nat.

(** RunManager.cpp 202-293: what thread [tid] still does when [k] iterations are left to it; the final momentum, position and weight of the
    particles do not depend on the histograms of Threads.v, of which there are none. *)
Fixpoint py_thread (w : world T) (tEnd : T) (src : source T) (tid k : nat) : co T unit :=
  match k with
  | O => ret tt
  | S k' =>
      cbind (co_generate src) (fun l =>
      Store (SPrimary l (Z.of_nat tid))
        (cbind (co_time_loop w [] fuel tEnd (mkLoc n0 l 0)) (fun s =>
         Store (SFinal (lo_ev s) (Z.of_nat tid)) (py_thread w tEnd src tid k'))))
  end.

(** What the threads share, and the vectors of all of them. *)
Record pyshared := mkPy { py_rng : est E; py_src : source T; py_tabs : tables T }.

(** RunManager.cpp 211-225 and 243-291. *)
Definition py_store (c : save T) (t : tables T) : res (tables T) :=
  match c with
  | SPrimary l j => do_pushes (Z.to_nat j) t (input_pushes (pl_items l))
  | SFinal l j => do_pushes (Z.to_nat j) t (final_pushes (pl_items l))
  | STrack _ _ => Ok t
  end.

(** The next access of a computation; [py_thread] has no [Count]. *)
Definition py_act {A} (c : co T A) (s : pyshared) : res (co T A * pyshared) :=
  match c with
  | Now r => let* a := r in Ok (Now (Ok a), s)
  | Draw k => let '(u, g) := e_canon E (py_rng s) in Ok (k u, mkPy g (py_src s) (py_tabs s))
  | Take k => let* r := take (py_src s) in Ok (k (fst r), mkPy (py_rng s) (snd r) (py_tabs s))
  | Count _ _ k => Ok (k, s)
  | Store c k => let* t := py_store c (py_tabs s) in Ok (k, mkPy (py_rng s) (py_src s) t)
  end.

(** All interleavings of the threads [ts], as in Threads.v. *)
Inductive py_par : list (co T unit) -> pyshared -> res pyshared -> Prop :=
| py_end ts s : (forall c, In c ts -> c = Now (Ok tt)) -> py_par ts s (Ok s)
| py_step ts s t c c' s' x : nth_error ts t = Some c -> py_act c s = Ok (c', s') -> py_par (upd ts t c') s' x -> py_par ts s x
| py_fail ts s x c : In c ts -> (forall y, py_act c s <> Ok y) -> x = rmap snd (py_act c s) -> py_par ts s x.

(** Thread number [t] with its share of the iterations. *)
Definition py_threads (w : world T) (tEnd : T) (src : source T) (ks : list nat) : list (co T unit) :=
  map (fun x => py_thread w tEnd src (fst x) (snd x)) (combine (seq 0 (length ks)) ks).

(** RunManager.cpp 191-293: a possible outcome of the loop with that many threads (for none at all [omp_set_num_threads] has no meaning). *)
Definition py_loop (w : world T) (src : source T) (threads : nat) (tEnd : T) (g : est E) (x : res (tables T * est E)) : Prop :=
  exists ks y, length ks = threads /\ list_sum ks = Z.to_nat (s_nPart src) /\
    py_par (py_threads w tEnd src ks) (mkPy g src (empty_tables threads)) y /\ x = rmap (fun s => (py_tabs s, py_rng s)) y.

(** RunManager.cpp 118-294: the loop run by this call may have this outcome. *)
Definition py_possible (c : call T) (m : manager T) (g : est E) (loop : world T -> source T -> nat -> T -> est E -> res (tables T * est E)) : Prop :=
  match c with
  | BeamOn n t => forall w s g1, build_world load_em load_bw m = Ok w -> build_source E m n g = Ok (s, g1) -> (0 <= t)%Z ->
      py_loop w s (Z.to_nat t) (m_timeEnd m) g1 (loop w s (Z.to_nat t) (m_timeEnd m) g1)
  | _ => True
  end.
(** A possible outcome of a sequence of calls on a manager. *)
Fixpoint threaded_calls (cs : list (call T)) (m : manager T) (g : est E) (x : res (manager T * est E * list (seen T))) : Prop :=
  match cs with
  | [] => x = Ok (m, g, [])
  | c :: r => exists loop, py_possible c m g loop /\
      match do_call E load_em load_bw loop true c m g with
      | Ok y => exists z, threaded_calls r (fst (fst y)) (snd (fst y)) z /\
          x = let* v := z in Ok (fst (fst v), snd (fst v), snd y :: snd v)
      | bad => x = rmap (fun _ => (m, g, [])) bad
      end
  end.
(** RunManager.cpp 10-33 and these calls between: what the caller sees and the number of objects never freed. *)
Definition threaded_session (cs : list (call T)) (g : est E) (x : res (list (seen T) * nat)) : Prop :=
  exists y, threaded_calls cs new_manager g y /\ x = let* r := y in let* n := destroy (fst (fst r)) in Ok (snd r, n).

End PyThreads.
Arguments pyshared {T} E.
