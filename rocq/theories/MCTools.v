(** * Random numbers (Source/Tools/MCTools.{hh,cpp}) *)
From Coq Require Import ZArith List.
From Verif Require Import Num Outcome.
Import ListNotations.

(** MCTools.hh 36-37: the generator object, an arbitrary state machine.
    [e_canon] is [std::generate_canonical]: one double (in [0,1) for a correct library);
    [e_normals n] are [n] successive draws of one fresh standard [normal_distribution].
    The seed taken from [std::random_device] is the arbitrary initial state. *)
Record Engine (T : Type) := mkEngine {
  est : Type;
  e_canon : est -> T * est;
  e_normals : nat -> est -> list T * est
}.
Arguments est {T} e.
Arguments e_canon {T} e _.
Arguments e_normals {T} e _ _.

Section MC.
Context {T : Type} `{Num T}.
Variable E : Engine T.
Local Open Scope num_scope.

(** MCTools.cpp 10-14: uniform_real_distribution(low, high), canonical*(high-low)+low. *)
Definition rand_double (low high : T) (g : est E) : T * est E :=
  let '(u, g') := e_canon E g in (u * (high - low) + low, g').

(** MCTools.cpp 31-38: partial sums of the weights. *)
Fixpoint cdf_from (acc : T) (d : list T) : list T :=
  match d with
  | [] => []
  | x :: t => (acc + x) :: cdf_from (acc + x) t
  end.
Definition cdf_of (d : list T) : list T :=
  match d with
  | [] => []
  | x :: t => x :: cdf_from x t
  end.

(** MCTools.cpp 40-47: first index i >= 1 with rand < cdf[i], or 0. *)
Fixpoint first_cdf (c : list T) (i : Z) (r : T) : Z :=
  match c with
  | [] => 0%Z
  | x :: t => if r <? x then i else first_cdf t (i + 1)%Z r
  end.

(** MCTools.cpp 28-49.  An empty table writes cdf[0] out of bounds. *)
Definition rand_discrete (d : list T) (g : est E) : res (Z * est E) :=
  match cdf_of d with
  | [] => UB OutOfBounds
  | c0 :: ct =>
      let '(r, g') := rand_double n0 (last (c0 :: ct) c0) g in
      Ok (first_cdf ct 1%Z r, g')
  end.

(** MCTools.cpp 95-106: mean + sig * standard normal. *)
Definition sample_norm (mean sig : T) (n : nat) (g : est E) : list T * est E :=
  let '(l, g') := e_normals E n g in (map (fun z => z * sig + mean) l, g').

(** MCTools.cpp 108-119. *)
Fixpoint sample_uniform (low high : T) (n : nat) (g : est E) : list T * est E :=
  match n with
  | O => ([], g)
  | S k => let '(u, g1) := rand_double low high g in
           let '(l, g2) := sample_uniform low high k g1 in (u :: l, g2)
  end.

(** MCTools.cpp 16-20: one draw of a fresh normal_distribution. *)
Definition rand_norm (mean sig : T) (g : est E) : T * est E :=
  let '(l, g') := sample_norm mean sig 1 g in (hd mean l, g').

(** *** The whole module as a state machine
    The C library generator behind [std::srand]/[std::rand] is the second component of the world;
    [SetSeed] (MCTools.cpp 5-8) only touches that one. *)
Record world := mkWorld { w_engine : est E; w_crand : Z }.

Inductive mc_call :=
| CSetSeed (seed : Z)
| CRandDouble (low high : T)
| CRandNorm (mean sig : T)
| CRandDiscrete (d : list T)
| CSampleNorm (mean sig : T) (n : nat)
| CSampleUniform (low high : T) (n : nat).

Inductive mc_result :=
| RUnit
| RNum (x : T)
| RIndex (i : Z)
| RList (l : list T)
| RUndefined.

(** One call: result and new world. *)
Definition mc_step (c : mc_call) (w : world) : mc_result * world :=
  let with_engine g := mkWorld g (w_crand w) in
  match c with
  | CSetSeed s => (RUnit, mkWorld (w_engine w) s)
  | CRandDouble a b => let '(x, g) := rand_double a b (w_engine w) in (RNum x, with_engine g)
  | CRandNorm a b => let '(x, g) := rand_norm a b (w_engine w) in (RNum x, with_engine g)
  | CRandDiscrete d => match rand_discrete d (w_engine w) with
                       | Ok (i, g) => (RIndex i, with_engine g)
                       | _ => (RUndefined, w)
                       end
  | CSampleNorm a b n => let '(l, g) := sample_norm a b n (w_engine w) in (RList l, with_engine g)
  | CSampleUniform a b n => let '(l, g) := sample_uniform a b n (w_engine w) in (RList l, with_engine g)
  end.

(** A sequence of calls. *)
Fixpoint mc_run (cs : list mc_call) (w : world) : list mc_result * world :=
  match cs with
  | [] => ([], w)
  | c :: t => let '(r, w1) := mc_step c w in
              let '(rs, w2) := mc_run t w1 in (r :: rs, w2)
  end.

End MC.
Arguments CSetSeed {T} seed.
Arguments CRandDouble {T} low high.
Arguments CRandNorm {T} mean sig.
Arguments CRandDiscrete {T} d.
Arguments CSampleNorm {T} mean sig n.
Arguments CSampleUniform {T} low high n.
