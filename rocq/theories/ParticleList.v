(** * The event list (Source/Particles/ParticleList.{hh,cpp}) *)
From Coq Require Import ZArith String List.
From Verif Require Import Outcome.
Import ListNotations.
Local Open Scope Z_scope.

Section PList.
Context {A : Type}.

(** ParticleList.hh 29-33.  [pl_items] are the first [m_particleNumber] entries of the array (the
    remaining entries are null and never reachable through [GetNPart]); [pl_lost] are the
    objects passed to AddParticle that were not stored (and never freed). *)
Record plist := mkPL { pl_name : string; pl_max : Z; pl_items : list A; pl_lost : list A }.

(** ParticleList.cpp 8-12. *)
Definition pl_new (name : string) (max : Z) : plist := mkPL name max [] [].

(** ParticleList.hh 15: default capacity 1e6. *)
Definition default_max : Z := 1000000.

(** ParticleList.hh 21: GetNPart. *)
Definition pl_n (l : plist) : Z := Z.of_nat (length (pl_items l)).

(** ParticleList.cpp 22-33. *)
Definition pl_add (l : plist) (a : A) : plist :=
  if pl_n l <? pl_max l then mkPL (pl_name l) (pl_max l) (pl_items l ++ [a]) (pl_lost l)
  else mkPL (pl_name l) (pl_max l) (pl_items l) (pl_lost l ++ [a]).

(** ParticleList.hh 23: GetParticle; an index in [GetNPart, max) yields a null pointer, beyond
    that it is out of bounds. *)
Definition pl_get (l : plist) (i : Z) : res A :=
  if ((i <? 0) || (pl_max l <=? i))%bool then UB OutOfBounds
  else match nth_error (pl_items l) (Z.to_nat i) with
       | Some a => Ok a
       | None => UB NullDeref
       end.

(** Mutation of the object that GetParticle(i) points to. *)
Definition pl_set (l : plist) (i : Z) (a : A) : plist :=
  mkPL (pl_name l) (pl_max l) (upd (pl_items l) (Z.to_nat i) a) (pl_lost l).

End PList.
Arguments plist : clear implicits.

(** The heap of live object addresses. *)
Definition heap := list nat.

(** [delete p]: freeing an address that is not live is a double free. *)
Fixpoint remove1 (p : nat) (h : heap) : option heap :=
  match h with
  | [] => None
  | q :: t => if Nat.eqb p q then Some t
              else match remove1 p t with Some t' => Some (q :: t') | None => None end
  end.
Definition free (p : nat) (h : heap) : res heap :=
  match remove1 p h with Some h' => Ok h' | None => UB DoubleFree end.

(** ParticleList.cpp 14-20: the destructor deletes the first m_particleNumber pointers in order. *)
Fixpoint free_all (ps : list nat) (h : heap) : res heap :=
  match ps with
  | [] => Ok h
  | p :: t => let* h' := free p h in free_all t h'
  end.
Definition pl_delete (l : plist nat) (h : heap) : res heap := free_all (pl_items l) h.
