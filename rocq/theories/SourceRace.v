(** * GenerateList called from several threads (Source/Particles/SourceGenerator.cpp 41-85,
    called in the parallel loop Source/Exec/QEDCASC.cpp 190-200)

    The counter [m_partCount] is a plain member read on lines 43, 48, 50, 51, 52, 55, 56, 57, 58, 59,
    64/69/74 (eleven reads per call) and incremented on line 83 (one more read, one write), without any
    synchronisation.  In C++ this is a data race; the model gives it the mildest meaning: each access
    is atomic and the accesses of the threads interleave arbitrarily.  Only the counter accesses
    are modelled. *)
From Coq Require Import ZArith List.
From Verif Require Import Outcome.
Import ListNotations.

(** Number of reads before the increment; the first is the check of line 43. *)
Definition reads : nat := 11.

(** One call in progress: the values read so far (oldest first), or the value loaded by ++. *)
Inductive call :=
| Reading (vs : list nat)
| Loaded (vs : list nat) (v : nat).

(** Shared state: counter, call in progress per thread, finished calls (in order of completion; each
    with the values it used), whether some thread ended the program (line 46) or indexed the tables out of
    range. *)
Record rstate := mkR {
  r_count : nat;
  r_calls : list (option call);
  r_done : list (list nat);
  r_exit : bool;
  r_oob : bool }.

Definition rinit (threads : nat) : rstate := mkR 0 (repeat None threads) [] false false.

(** One access by thread [t] for a source with [N] samples. *)
Definition rstep (N t : nat) (s : rstate) : option rstate :=
  match nth_error (r_calls s) t with
  | None => None
  | Some c =>
    if r_exit s then None else
    let set x := upd (r_calls s) t x in
    match c with
    | None =>                                          (* line 43 *)
        if Nat.eqb (r_count s) N
        then Some (mkR (r_count s) (set None) (r_done s) true (r_oob s))
        else Some (mkR (r_count s) (set (Some (Reading [r_count s]))) (r_done s) false (r_oob s))
    | Some (Reading vs) =>
        if Nat.ltb (length vs) reads
        then (* the name (line 48) is the 2nd read, all later ones index tables of N entries *)
          Some (mkR (r_count s) (set (Some (Reading (vs ++ [r_count s])))) (r_done s) false
                    (r_oob s || (Nat.leb 2 (length vs) && Nat.leb N (r_count s))))
        else Some (mkR (r_count s) (set (Some (Loaded vs (r_count s)))) (r_done s) false (r_oob s))
    | Some (Loaded vs v) =>                            (* line 83, write *)
        Some (mkR (S v) (set None) (r_done s ++ [vs]) false (r_oob s))
    end
  end.

(** A schedule is the sequence of thread numbers making the accesses. *)
Fixpoint rrun (N : nat) (sched : list nat) (s : rstate) : option rstate :=
  match sched with
  | [] => Some s
  | t :: ts => match rstep N t s with Some s' => rrun N ts s' | None => None end
  end.
