(** * The event loop (Source/Exec/QEDCASC.cpp 202-257, Source/Python/RunManager.cpp 211-246) *)
From Coq Require Import ZArith List.
From Verif Require Import Num Outcome Vec MCTools Particle ParticleList Fields Pusher Process.
Import ListNotations.

Section Sim.
Context {T : Type} `{Num T}.
Variable E : Engine T.

(** What the loop needs: the pusher with its field and step, and the process list
    (QEDCASC.cpp 113-149; the pusher's step is [inGeneral.timeStep] as in the loop). *)
Record world := mkWorld {
  w_force : force T; w_field : field T; w_dt : T; w_procs : list (process T) }.
Variable w : world.

(** QEDCASC.cpp 234: [processList[proc]->Interact(event->GetParticle(k), event)].  The particle is an
    element of the list; its new state is stored at its place. *)
Definition call_process (k : Z) (pr : process T) (l : event T) (g : est E) : res (event T * est E) :=
  let* p := pl_get l k in
  let* r := interact E pr p l g in
  let '(p', l', g') := r in
  Ok (pl_set l' k p', g').

(** QEDCASC.cpp 232-235. *)
Fixpoint call_processes (k : Z) (prs : list (process T)) (l : event T) (g : est E) : res (event T * est E) :=
  match prs with
  | [] => Ok (l, g)
  | pr :: t => let* r := call_process k pr l g in call_processes k t (fst r) (snd r)
  end.

(** QEDCASC.cpp 231-235: one iteration of the particle loop. *)
Definition visit (k : Z) (l : event T) (g : est E) : res (event T * est E) :=
  let* p := pl_get l k in
  call_processes k (w_procs w) (pl_set l k (push_particle (w_force w) (w_field w) (w_dt w) p)) g.

(** QEDCASC.cpp 229-236: the particle loop, the bound [GetNPart()] is read anew in every iteration.
    The counter does not wrap (capacities are below 2^32).  The fuel counts executed loop bodies. *)
Fixpoint pass_from (fuel : nat) (k : Z) (l : event T) (g : est E) : res (event T * est E) :=
  if (k <? pl_n l)%Z then
    match fuel with
    | O => Fuel
    | S f => let* r := visit k l g in pass_from f (k + 1)%Z (fst r) (snd r)
    end
  else Ok (l, g).

(** The whole particle loop; [C45_pass_ends] shows that the capacity is enough fuel. *)
Definition pass (l : event T) (g : est E) : res (event T * est E) :=
  pass_from (Z.to_nat (pl_max l)) 0 l g.

(** Histogram state and filling are parameters: [fill i t ps s] adds the particles [ps] to histogram
    [i]; the clock [t] is passed for the benefit of specifications only. *)
Context {S : Type}.
Variable htimes : list T.
Variable fill : nat -> T -> list (particle T) -> S -> res S.

Record state := mkSt { st_time : T; st_ev : event T; st_rng : est E; st_hc : nat; st_hist : S }.

(** QEDCASC.cpp 212-227: at most one histogram per time step. *)
Definition hist_check (s : state) : res state :=
  match nth_error htimes (st_hc s) with
  | Some ht =>
      if nleb ht (st_time s) then
        let* h := fill (st_hc s) (st_time s) (pl_items (st_ev s)) (st_hist s) in
        Ok (mkSt (st_time s) (st_ev s) (st_rng s) (st_hc s + 1) h)
      else Ok s
  | None => Ok s
  end.

(** QEDCASC.cpp 211-237: one time step. *)
Definition time_step (s : state) : res state :=
  let* s1 := hist_check s in
  let* r := pass (st_ev s1) (st_rng s1) in
  Ok (mkSt (nadd (st_time s1) (w_dt w)) (fst r) (snd r) (st_hc s1) (st_hist s1)).

(** QEDCASC.cpp 209-238; the fuel counts executed loop bodies. *)
Fixpoint time_loop (fuel : nat) (tEnd : T) (s : state) : res state :=
  if nltb (st_time s) tEnd then
    match fuel with
    | O => Fuel
    | Datatypes.S f => let* s' := time_step s in time_loop f tEnd s'
    end
  else Ok s.

(** QEDCASC.cpp 240-250: the histograms that were not filled in the loop ([n] of them). *)
Fixpoint fill_rest (n : nat) (s : state) : res state :=
  match n with
  | O => Ok s
  | Datatypes.S m =>
      let* h := fill (st_hc s) (st_time s) (pl_items (st_ev s)) (st_hist s) in
      fill_rest m (mkSt (st_time s) (st_ev s) (st_rng s) (st_hc s + 1) h)
  end.

(** QEDCASC.cpp 207-250: one event from its generated list to its final list. *)
Definition run_event (fuel : nat) (tEnd : T) (l : event T) (g : est E) (h : S) : res state :=
  let* s := time_loop fuel tEnd (mkSt n0 l g 0 h) in
  fill_rest (length htimes - st_hc s) s.

End Sim.
Arguments world : clear implicits.
Arguments mkWorld {T} _ _ _ _.
Arguments state {T} E S.
Arguments mkSt {T E S} _ _ _ _ _.
