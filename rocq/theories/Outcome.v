(** * Outcomes of C++ calls: normal return, process exit, uncaught exception,
    undefined behaviour. *)
From Coq Require Import ZArith List.
Import ListNotations.

(** Kinds of undefined behaviour that the modelled code can run into. *)
Inductive ub := OutOfBounds | DoubleFree | UseAfterFree | NullDeref | NullString | Uninitialised.

(** Result of a call.  [Exit c] is [std::exit(c)]; [Throw] an exception that
    leaves the function; [Fuel]: the call has not returned within the given
    number of loop iterations (only loops without an evident bound have it). *)
Inductive res (A : Type) :=
| Ok (a : A)
| Exit (code : Z)
| Throw
| UB (why : ub)
| Fuel.
Arguments Ok {A} a.
Arguments Exit {A} code.
Arguments Throw {A}.
Arguments UB {A} why.
Arguments Fuel {A}.

Definition bind {A B} (x : res A) (f : A -> res B) : res B :=
  match x with
  | Ok a => f a
  | Exit c => Exit c
  | Throw => Throw
  | UB w => UB w
  | Fuel => Fuel
  end.
Notation "'let*' x := e 'in' f" := (bind e (fun x => f))
  (at level 200, x pattern, e at level 100, f at level 200, right associativity).

Definition rmap {A B} (f : A -> B) (x : res A) : res B := bind x (fun a => Ok (f a)).

(** Array read through a raw pointer or [std::vector::operator[]]: no bounds
    check, an index outside the array is undefined behaviour. *)
Definition get {A} (l : list A) (i : Z) : res A :=
  if ((i <? 0) || (Z.of_nat (length l) <=? i))%Z%bool then UB OutOfBounds
  else match nth_error l (Z.to_nat i) with
       | Some a => Ok a
       | None => UB OutOfBounds
       end.

(** Unsigned 32-bit ([unsigned int]) and 64-bit ([size_t]) wrap-around, and conversion
    of a 64-bit value to [int] (two's complement). *)
Definition u32 (z : Z) : Z := (z mod 2 ^ 32)%Z.
Definition u64 (z : Z) : Z := (z mod 2 ^ 64)%Z.
Definition s32 (z : Z) : Z := (let m := z mod 2 ^ 32 in if m <? 2 ^ 31 then m else m - 2 ^ 32)%Z.

(** Replace one entry of a list (no effect outside). *)
Fixpoint upd {A} (l : list A) (i : nat) (a : A) : list A :=
  match l, i with
  | [], _ => []
  | _ :: t, O => a :: t
  | h :: t, S j => h :: upd t j a
  end.
