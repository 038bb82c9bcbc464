(** * Histogram filling from several threads (Source/IO/Output/Histogram.cpp 54, called in the parallel
    loop Source/Exec/QEDCASC.cpp 196-250)

    The histograms are shared by all threads and [m_binValues[index]++] (likewise [m_entries++]) is neither
    atomic nor protected.  In C++ this is a data race; the model gives it the mildest meaning: the load and the
    store of each increment are atomic and the accesses of the threads interleave arbitrarily.  Counts are
    natural numbers (doubles are exact up to 2^53). *)
From Coq Require Import ZArith List Arith.
From Verif Require Import Outcome.
Import ListNotations.

(** A thread: the value loaded for the increment in progress, and the bins it still has to increment
    (the one in progress first). *)
Record hthread := mkHT { ht_loaded : option nat; ht_todo : list nat }.
Record hstate := mkHS { hs_bins : list nat; hs_threads : list hthread }.

(** One memory access by thread [t]. *)
Definition hstep (t : nat) (s : hstate) : option hstate :=
  match nth_error (hs_threads s) t with
  | None => None
  | Some th =>
    match ht_todo th with
    | [] => None
    | b :: rest =>
      match ht_loaded th with
      | None => Some (mkHS (hs_bins s) (upd (hs_threads s) t (mkHT (Some (nth b (hs_bins s) 0)) (b :: rest))))
      | Some v => Some (mkHS (upd (hs_bins s) b (v + 1)) (upd (hs_threads s) t (mkHT None rest)))
      end
    end
  end.

Fixpoint hrun (sched : list nat) (s : hstate) : option hstate :=
  match sched with
  | [] => Some s
  | t :: ts => match hstep t s with Some s' => hrun ts s' | None => None end
  end.

Definition hstart (bins : list nat) (work : list (list nat)) : hstate := mkHS bins (map (mkHT None) work).
Definition finished (s : hstate) : Prop := forall th, In th (hs_threads s) -> ht_todo th = [].
