(** * Properties C12, C13, C15: random numbers and units *)
From Coq Require Import String ZArith Reals Lra Lia List Bool.
From Verif Require Import Num RNum Outcome MCTools Units MCFacts.
Import ListNotations.
Local Open Scope R_scope.

(** C12: for every engine and arithmetic; [draws] keeps the results of the calls that draw.
    Removing all SetSeed calls (equivalently, inserting any) changes no drawn value and leaves
    the same generator state. *)
Theorem C12_seed_has_no_effect : forall (T : Type) (N : Num T) (E : Engine T)
    (cs : list (mc_call (T := T))) (w1 w2 : world E),
  w_engine E w1 = w_engine E w2 ->
  draws cs (fst (mc_run E cs w1))
  = fst (mc_run E (filter (fun c => negb (is_seed c)) cs) w2) /\
  w_engine E (snd (mc_run E cs w1))
  = w_engine E (snd (mc_run E (filter (fun c => negb (is_seed c)) cs) w2)).
Proof. intros T N. exact (@seed_irrelevant T N). Qed.
Print Assumptions C12_seed_has_no_effect.

(** So a fixed seed does not make runs reproducible: if the initial generator states (from
    std::random_device) differ in their first draw, so do the programs' first numbers. *)
Theorem C12_reproducible_seed_refuted : forall (E : Engine R) (s z : Z) (g1 g2 : est E),
  fst (e_canon E g1) <> fst (e_canon E g2) ->
  fst (mc_run E [CSetSeed s; CRandDouble n0 n1] (mkWorld E g1 z))
  <> fst (mc_run E [CSetSeed s; CRandDouble n0 n1] (mkWorld E g2 z)).
Proof.
  intros. apply seed_not_reproducible; auto. intros u v. rnum. lra.
Qed.
Print Assumptions C12_reproducible_seed_refuted.

(** an engine for the examples: the state is the number returned next *)
Definition toy : Engine R := mkEngine R R (fun s => (s, s / 2)) (fun n s => (repeat s n, s)).

Example C12_case :
  draws [CSetSeed 7; CRandDouble 0 4; CSetSeed 9; CRandDouble 0 4]
    (fst (mc_run toy [CSetSeed 7; CRandDouble 0 4; CSetSeed 9; CRandDouble 0 4] (mkWorld toy (1/2) 0)))
  = [RNum 2; RNum 1].
Proof.
  cbn -[Rmult Rplus Rminus Rdiv]. unfold rand_double; cbn -[Rmult Rplus Rminus Rdiv].
  f_equal; [f_equal; lra|]. f_equal. f_equal. lra.
Qed.

(** C13 *)
Theorem C13_discrete_index : forall (E : Engine R) (d : list R) (g : est E),
  (2 <= length d)%nat -> nonneg d -> 0 < psum d (length d) -> 0 <= fst (e_canon E g) < 1 ->
  exists i : nat, rand_discrete E d g = Ok (Z.of_nat i, snd (e_canon E g)) /\ (1 <= i < length d)%nat.
Proof. intros. destruct (rand_discrete_spec E d g) as (i & ? & ? & _); eauto. Qed.
Print Assumptions C13_discrete_index.

Theorem C13_discrete_intervals : forall (E : Engine R) (d : list R) (g g' : est E) (z : Z),
  (2 <= length d)%nat -> nonneg d -> 0 < psum d (length d) -> 0 <= fst (e_canon E g) < 1 ->
  rand_discrete E d g = Ok (z, g') ->
  let r := fst (e_canon E g) * psum d (length d) in
  (1 <= z < Z.of_nat (length d))%Z /\
  (z = 1%Z <-> r < psum d 2) /\
  (forall i, (2 <= i < length d)%nat -> (z = Z.of_nat i <-> psum d i <= r < psum d (S i))).
Proof. exact rand_discrete_characterised. Qed.
Print Assumptions C13_discrete_intervals.

Theorem C13_discrete_degenerate :
  (forall (E : Engine R) (x : R) (g : est E), rand_discrete E [x] g = Ok (0%Z, snd (e_canon E g))) /\
  (forall (T : Type) (N : Num T) (E : Engine T) (g : est E), rand_discrete E [] g = UB OutOfBounds).
Proof. split; [exact rand_discrete_single | intros; apply rand_discrete_empty]. Qed.
Print Assumptions C13_discrete_degenerate.

Example C13_case : nonneg [5; 1; 2] /\ 0 < psum [5; 1; 2] 3 /\
  rand_discrete toy [5; 1; 2] (1 / 10) = Ok (1%Z, 1 / 10 / 2) /\
  rand_discrete toy [5; 1; 2] (9 / 10) = Ok (2%Z, 9 / 10 / 2).
Proof.
  split; [intros x [<-|[<-|[<-|[]]]]; lra|]. split; [cbn; lra|].
  split.
  - unfold rand_discrete, rand_double. cbn [cdf_of cdf_from last e_canon toy first_cdf]. rnum.
    replace (Rltb _ (5 + 1)) with true by (symmetry; apply Rltb_true; lra). reflexivity.
  - unfold rand_discrete, rand_double. cbn [cdf_of cdf_from last e_canon toy first_cdf]. rnum.
    replace (Rltb _ (5 + 1)) with false by (symmetry; apply Rltb_false; lra).
    replace (Rltb _ (5 + 1 + 2)) with true by (symmetry; apply Rltb_true; lra). reflexivity.
Qed.

(** C15 *)
Theorem C15_units_coherent : forall (name : string) (u : units R),
  units_system name = Ok u ->
  let c := 299792458 in
  ref_length u = c * ref_time u /\ ref_eField u = c * ref_bField u /\
  ref_energy u = c * ref_momentum u /\ ref_momentum u = si_me * c /\
  si_qe * ref_eField u * ref_time u = ref_momentum u /\
  ref_freq u * ref_time u = 1 /\
  g4_time u * ref_time u = 1 / 1000000000 /\ g4_length u * ref_length u = 1 / 1000 /\
  g4_energy u * ref_energy u = 1000000 * si_qe.
Proof. exact units_coherent. Qed.
Print Assumptions C15_units_coherent.

Theorem C15_units_round_trip : forall (name : string) (u : units R) (x : R),
  units_system name = Ok u ->
  x / ref_time u * ref_time u = x /\ x / ref_length u * ref_length u = x /\
  x / ref_eField u * ref_eField u = x /\ x / ref_bField u * ref_bField u = x /\
  x / ref_energy u * ref_energy u = x /\ x / ref_momentum u * ref_momentum u = x.
Proof. exact units_round_trip. Qed.
Print Assumptions C15_units_round_trip.

Theorem C15_unit_names : forall name : string,
  (name = "SI"%string \/ name = "si"%string -> exists u : units R, units_system name = Ok u) /\
  (name <> "SI"%string -> name <> "si"%string -> units_system name = (Exit 1 : res (units R))).
Proof. intros. split; [intros H; eexists; apply (units_names name); exact H | apply units_names]. Qed.
Print Assumptions C15_unit_names.
