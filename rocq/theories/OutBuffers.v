(** * Buffers and destruction of the output manager (Source/IO/Output/OutputManager.cpp, HDF5Output.cpp)

    Output.v keeps the values of the event buffers; here the buffers are addresses on the heap, so that what the
    calls allocate and what the destructors free can be followed. *)
From Coq Require Import String ZArith List.
From Verif Require Import Num Outcome Particle ParticleList Hdf5 Output.
Import ListNotations.

(** OutputManager.hh 75-78: the vectors [m_primaryEvent], [m_electronEvent], [m_positronEvent], [m_photonEvent] of pointers ([None] is
    null), the live allocations and the next address. *)
Record bufs := mkBufs { bf_prim : list (option nat); bf_el : list (option nat); bf_po : list (option nat); bf_ph : list (option nat);
                        bf_heap : heap; bf_next : nat }.

(** OutputManager.cpp 4-38: the vectors are empty at first. *)
Definition bufs_new : bufs := mkBufs [] [] [] [] [] 0.

(** [v[id] = pointer] (234, 310-312). *)
Definition b_set (v : list (option nat)) (id : Z) (a : nat) : res (list (option nat)) :=
  let* _ := get v id in Ok (upd v (Z.to_nat id) (Some a)).

(** OutputManager.cpp 210-219: the vectors are replaced by vectors of null pointers; the buffers stay allocated. *)
Definition b_init (b : bufs) (n : Z) : bufs :=
  let v := repeat None (Z.to_nat n) in mkBufs v v v v (bf_heap b) (bf_next b).
(** OutputManager.cpp 221-234. *)
Definition b_primary (b : bufs) (id : Z) : res bufs :=
  let a := bf_next b in
  let* v := b_set (bf_prim b) id a in
  Ok (mkBufs v (bf_el b) (bf_po b) (bf_ph b) (a :: bf_heap b) (S a)).
(** OutputManager.cpp 236-313: one buffer per species. *)
Definition b_final (b : bufs) (id : Z) : res bufs :=
  let a := bf_next b in
  let* e := b_set (bf_el b) id a in
  let* p := b_set (bf_po b) id (S a) in
  let* g := b_set (bf_ph b) id (S (S a)) in
  Ok (mkBufs (bf_prim b) e p g (S (S a) :: S a :: a :: bf_heap b) (S (S (S a)))).
(** OutputManager.cpp 198: the buffer of ListProperties has no other owner than the local variable. *)
Definition b_props (b : bufs) : bufs :=
  mkBufs (bf_prim b) (bf_el b) (bf_po b) (bf_ph b) (bf_next b :: bf_heap b) (S (bf_next b)).

(** The calls of the output manager (Output.v, [exec]).  The buffers of OutputEvents (338-428, 460-495) and OutEMField (510-533) are
    freed by the call that allocates them (if it is not left by an exception), those of the other calls are on the stack. *)
Definition b_exec {T} (b : bufs) (o : op T) : res bufs :=
  match o with
  | OInit n => Ok (b_init b n)
  | OPrimary _ id => b_primary b id
  | OFinal _ id => b_final b id
  | OListProps _ _ => Ok (b_props b)
  | _ => Ok b
  end.
Fixpoint b_exec_all {T} (b : bufs) (os : list (op T)) : res bufs :=
  match os with
  | [] => Ok b
  | o :: t => let* b' := b_exec b o in b_exec_all b' t
  end.

(** [delete [] p]: nothing happens for a null pointer. *)
Definition free_ptr (p : option nat) (h : heap) : res heap :=
  match p with None => Ok h | Some a => free a h end.

(** OutputManager.cpp 52-58: the loop is over the size of the first vector. *)
Fixpoint free_slots (prim el po ph : list (option nat)) (h : heap) : res heap :=
  match prim with
  | [] => Ok h
  | p :: prim' =>
      let* h := free_ptr p h in
      match el, po, ph with
      | e :: el', q :: po', g :: ph' =>
          let* h := free_ptr e h in
          let* h := free_ptr q h in
          let* h := free_ptr g h in
          free_slots prim' el' po' ph' h
      | _, _, _ => UB OutOfBounds
      end
  end.

(** HDF5Output.cpp 22-26: [delete m_group; delete m_file]. *)
Definition file_delete {T} (f : file T) : res unit :=
  match f_group f with GFreed => UB DoubleFree | _ => Ok tt end.

(** OutputManager.cpp 40-59 (without MPI); the result is what is still allocated of the event buffers and the buffers of ListProperties. *)
Definition om_delete {T} (f : file T) (b : bufs) : res heap :=
  let* _ := file_delete f in
  free_slots (bf_prim b) (bf_el b) (bf_po b) (bf_ph b) (bf_heap b).
