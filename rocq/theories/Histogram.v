(** * Histograms (Source/IO/Output/Histogram.cpp, Histogram.hh) *)
From Coq Require Import String ZArith List Bool.
From Verif Require Import Num Outcome Vec Numerics Particle.
Import ListNotations.

Section Histogram.
Context {T : Type} `{Num T}.
Local Open Scope num_scope.

(** Histogram.hh 40-48.  The two arrays are lists of [m_nBins] entries (empty for the null pointers
    of the default constructor). *)
Record hist := mkH {
  hi_name : string; hi_particle : string; hi_type : string; hi_time : T;
  hi_n : Z; hi_entries : Z; hi_centres : list T; hi_values : list T }.

(** Histogram.cpp 4-7; the strings are empty, [m_time] is uninitialised (parameter). *)
Definition hist_default (time : T) : hist := mkH "" "" "" time 0 0 [] [].

(** Histogram.cpp 21-37.  [m_entries] keeps its value. *)
Definition initialise (h : hist) (name particle type : string) (time minBin maxBin : T) (nBins : Z) : hist :=
  let delta := (maxBin - minBin) / (nZ nBins - n1) in
  mkH name particle type time nBins (hi_entries h)
    (map (fun i => minBin + nZ (Z.of_nat i) * delta) (seq 0 (Z.to_nat nBins)))
    (repeat n0 (Z.to_nat nBins)).

(** Histogram.cpp 9-13: the constructor initialises neither [m_entries] nor anything before the call;
    the indeterminate value is the parameter [garbage]. *)
Definition hist_new (garbage : Z) (name particle type : string) (time minBin maxBin : T) (nBins : Z) : hist :=
  initialise (mkH "" "" "" time 0 garbage [] []) name particle type time minBin maxBin nBins.

(** A string literal used as a condition: its address, which is not null. *)
Definition literal (s : string) : bool := true.

(** [m_type == "A" || "a"] as written in Histogram.cpp 47, 56, 65, ... *)
Definition type_is (h : hist) (A a : string) : bool := (String.eqb (hi_type h) A || literal a)%bool.

(** Histogram.cpp 49-55 (and the same lines of every other branch of AppParticle and Fill). *)
Definition add_value (h : hist) (v : T) : res hist :=
  let e := u32 (hi_entries h + 1) in
  let* c0 := get (hi_centres h) 0 in
  let* hit := (if c0 <? v then
                 let* cl := get (hi_centres h) (u32 (hi_n h - 1)) in Ok (v <? cl)
               else Ok false) in
  if hit then
    let* i := array_index (hi_centres h) (hi_n h) v in
    let* x := get (hi_values h) (u32 i) in
    Ok (mkH (hi_name h) (hi_particle h) (hi_type h) (hi_time h) (hi_n h) e (hi_centres h)
            (upd (hi_values h) (Z.to_nat (u32 i)) (x + n1)))
  else Ok (mkH (hi_name h) (hi_particle h) (hi_type h) (hi_time h) (hi_n h) e (hi_centres h) (hi_values h)).

(** Histogram.cpp 39-116. *)
Definition app_particle (h : hist) (p : particle T) : res hist :=
  if (hi_n h =? 0)%Z then Exit 1
  else if type_is h "Energy" "energy" then add_value h (get_energy p)
  else if type_is h "X" "x" then add_value h (vx (p_pos p))
  else if type_is h "Y" "y" then add_value h (vy (p_pos p))
  else if type_is h "Z" "z" then add_value h (vz (p_pos p))
  else if type_is h "PX" "px" then add_value h (vx (p_mom p))
  else if type_is h "PY" "py" then add_value h (vy (p_mom p))
  else if type_is h "PZ" "pz" then add_value h (vz (p_mom p))
  else Exit 1.

(** Histogram.cpp 204-218. *)
Definition normalise (h : hist) : hist :=
  if (0 <? hi_entries h)%Z then
    let sum := fold_left nadd (hi_values h) n0 in
    mkH (hi_name h) (hi_particle h) (hi_type h) (hi_time h) (hi_n h) (hi_entries h) (hi_centres h)
        (map (fun v => v / sum) (hi_values h))
  else h.

Fixpoint add_values (h : hist) (vs : list T) : res hist :=
  match vs with
  | [] => Ok h
  | v :: t => let* h' := add_value h v in add_values h' t
  end.

(** Histogram.cpp 118-182; the particle list is given by its entries. *)
Definition fill_list (h : hist) (ps : list (particle T)) : res hist :=
  if (hi_n h =? 0)%Z then Exit 1
  else
    let* h' :=
      (if type_is h "Energy" "energy" then add_values h (map get_energy ps)
       else if type_is h "X" "x" then add_values h (map (fun p => vx (p_pos p)) ps)
       else if type_is h "Y" "y" then add_values h (map (fun p => vy (p_pos p)) ps)
       else if type_is h "Z" "z" then add_values h (map (fun p => vz (p_pos p)) ps)
       else Exit 1) in
    Ok (normalise h').

(** Histogram objects on the heap: [None] is a deleted object. *)
Definition heap := list (option hist).
Definition deref (hp : heap) (a : nat) : res hist :=
  match nth_error hp a with
  | Some (Some h) => Ok h
  | Some None => UB UseAfterFree
  | None => UB NullDeref
  end.

(** Histogram.cpp 190-194. *)
Fixpoint add_lists (a b : list T) : list T :=
  match a, b with x :: a', y :: b' => (x + y) :: add_lists a' b' | _, _ => a end.
Definition absorb (h k : hist) : hist :=
  mkH (hi_name h) (hi_particle h) (hi_type h) (hi_time h) (hi_n h) (u32 (hi_entries h + hi_entries k))
      (hi_centres h) (add_lists (hi_values h) (hi_values k)).

(** Histogram.cpp 187-188; with no bins both pointers are null and line 187 reads through them. *)
Definition compatible (h k : hist) : res bool :=
  if (hi_n h =? hi_n k)%Z then
    let* a := get (hi_centres h) 0 in
    let* b := get (hi_centres k) 0 in
    if a =? b then
      let* c := get (hi_centres h) (u32 (hi_n h - 1)) in
      let* d := get (hi_centres k) (u32 (hi_n h - 1)) in
      Ok (c =? d)
    else Ok false
  else Ok false.

(** Histogram.cpp 184-202: [hp[this]->Merge(hp[arg])]. *)
Definition merge (hp : heap) (this arg : nat) : res heap :=
  let* h := deref hp this in
  let* k := deref hp arg in
  let* ok := compatible h k in
  Ok (upd (if ok then upd hp this (Some (absorb h k)) else hp) arg None).

(** A sequence of merges into one histogram. *)
Fixpoint merges (hp : heap) (this : nat) (args : list nat) : res heap :=
  match args with
  | [] => Ok hp
  | a :: t => let* hp' := merge hp this a in merges hp' this t
  end.

(** ** Filling during a run *)

(** QEDCASC.cpp 217-224 and 242-249: the particles whose name is the histogram's. *)
Fixpoint app_named (h : hist) (ps : list (particle T)) : res hist :=
  match ps with
  | [] => Ok h
  | p :: t =>
      let* h' := (if String.eqb (hi_particle h) (p_name p) then app_particle h p else Ok h) in
      app_named h' t
  end.

(** QEDCASC.cpp 214-226: histogram number [i] of the configured ones; to be used as the [fill] of Sim.v. *)
Definition hist_fill (i : nat) (t : T) (ps : list (particle T)) (hs : list hist) : res (list hist) :=
  match nth_error hs i with
  | Some h => let* h' := app_named h ps in Ok (upd hs i h')
  | None => UB OutOfBounds
  end.

End Histogram.
Arguments hist : clear implicits.
Arguments heap : clear implicits.
