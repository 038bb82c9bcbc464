(** * Property C112: the life of the network process *)
From Coq Require Import String ZArith List Bool Lia Reals Lra.
From Verif Require Import Num RNum Outcome OutcomeFacts Vec Units MCTools Text Tables Geant NetProcess.
Import ListNotations.
Local Open Scope string_scope.
Local Open Scope list_scope.

Section Any.
Context {T : Type} `{Num T}.
Variable E : Engine T.
Variable skewed : vec T * vec T * vec T -> est E -> vec T * est E.
Variable poisson : T -> est E -> nat * est E.
Variable graphs : string -> gfile T.
Variable disk : string -> option text.
Variable session_ok : nat -> bool.

Notation run := (net_run E skewed poisson graphs disk session_ok).
Notation step := (net_step E skewed poisson).
Notation testing := (net_test E skewed poisson).

(** ** Specification *)

(** The text begins with these numbers, and what is left after them. *)
Inductive numbers : text -> list T -> text -> Prop :=
| numbers_none t : numbers t [] t
| numbers_more t u x r xs rest : skip_space t = u -> u <> [] -> stream_double u = Some (x, r) -> numbers r xs rest ->
    numbers t (x :: xs) rest.

(** The file cannot be read, or it ends before the [k]-th number. *)
Definition short (k : nat) (file : option text) : Prop :=
  match file with
  | None => True
  | Some t => exists xs rest, numbers t xs rest /\ (length xs < k)%nat /\ skip_space rest = []
  end.

Definition is_load (c : net_call T) : Prop := match c with NLoad _ _ _ => True | _ => False end.
Definition loads (cs : list (net_call T)) : nat :=
  length (filter (fun c => match c with NLoad _ _ _ => true | _ => false end) cs).
Fixpoint completed (cs : list (net_call T)) (out : list (net_seen T)) : nat :=
  match cs, out with
  | NLoad _ _ _ :: cs', NNothing :: out' => S (completed cs' out')
  | _ :: cs', _ :: out' => completed cs' out'
  | _, _ => 0%nat
  end.
(** The time lag that the calls leave. *)
Fixpoint lag_after (cs : list (net_call T)) (lag : T) : T :=
  match cs with
  | [] => lag
  | NLag t :: r => lag_after r t
  | _ :: r => lag_after r lag
  end.

(** What the network is given. *)
Definition normalised (a0 a1 a2 a3 a4 a5 : T) (momentum position : vec T) (time : T) : list T :=
  let e := g4_energy si_units in
  [ndiv (nmul (vx momentum) e) (nadd a0 n1); ndiv (nmul (vy momentum) e) (nadd a1 n1); ndiv (nmul (vz momentum) e) a2;
   ndiv (vx position) a3; ndiv (vy position) a4; ndiv time a5].

(** ** Facts *)
Lemma do_posi : forall c p g x, net_do E skewed poisson graphs disk session_ok c p g = Ok x -> nt_posi (fst (fst x)) = nt_posi p.
Proof using Type.
  intros c p g x. destruct c; cbn [net_do].
  - unfold load_graphs. destruct (new_graph _ _ _ _ _ _) as [[e|] n1']; [|intros Q; injection Q as <-; reflexivity].
    destruct (new_graph _ _ _ _ _ n1') as [[f|] n2']; [|intros Q; injection Q as <-; reflexivity].
    destruct (new_graph _ _ _ _ _ n2') as [[d|] n3']; intros Q; injection Q as <-; reflexivity.
  - intros Q; injection Q as <-; reflexivity.
  - destruct (mean_free_path _ _) as [d s]. intros Q; injection Q as <-; reflexivity.
  - intros Q. apply bind_ok in Q as (r & _ & Q). injection Q as <-. reflexivity.
  - intros Q. apply bind_ok in Q as (r & _ & Q). injection Q as <-. reflexivity.
Qed.
Lemma run_ind : forall (P : net T -> Prop) (C : net_call T -> Prop),
  (forall c p g x, C c -> P p -> net_do E skewed poisson graphs disk session_ok c p g = Ok x -> P (fst (fst x))) ->
  forall cs p g p' g' out, (forall c, In c cs -> C c) -> P p -> run cs p g = Ok (p', g', out) -> P p'.
Proof using Type.
  intros P C Hs. induction cs as [|c cs IH]; intros p g p' g' out HC HP R; cbn [net_run] in R.
  - injection R as <- _ _. exact HP.
  - apply bind_ok in R as (x & D & R). apply bind_ok in R as (y & R & Q). injection Q as Qa Qb Qc. subst.
    destruct y as [[py gy] oy]. cbn [fst] in *.
    refine (IH _ _ _ _ _ (fun c' I => HC c' (or_intror I)) _ R). exact (Hs _ _ _ _ (HC c (or_introl eq_refl)) HP D).
Qed.
Lemma do_same : forall c p g x, ~ is_load c -> net_do E skewed poisson graphs disk session_ok c p g = Ok x ->
  let q := fst (fst x) in
  nt_elec q = nt_elec p /\ nt_phot q = nt_phot p /\ nt_count q = nt_count p /\ nt_in q = nt_in p /\ nt_el q = nt_el p /\ nt_ph q = nt_ph p /\
  nt_lag q = lag_after [c] (nt_lag p) /\ nt_sessions q = nt_sessions p.
Proof using Type.
  intros c p g x N. destruct c; cbn [net_do lag_after].
  - destruct N. exact I.
  - intros Q; injection Q as <-. repeat split.
  - destruct (mean_free_path _ _) as [d s]. intros Q; injection Q as <-. repeat split.
  - intros Q. apply bind_ok in Q as (r & _ & Q). injection Q as <-. repeat split.
  - intros Q. apply bind_ok in Q as (r & _ & Q). injection Q as <-. repeat split.
Qed.
Lemma run_same : forall cs p g p' g' out, (forall c, In c cs -> ~ is_load c) -> run cs p g = Ok (p', g', out) ->
  nt_elec p' = nt_elec p /\ nt_phot p' = nt_phot p /\ nt_count p' = nt_count p /\ nt_in p' = nt_in p /\ nt_el p' = nt_el p /\ nt_ph p' = nt_ph p /\
  nt_lag p' = lag_after cs (nt_lag p).
Proof using Type.
  induction cs as [|c cs IH]; intros p g p' g' out HC R; cbn [net_run] in R.
  - injection R as <- _ _. repeat split.
  - apply bind_ok in R as (x & D & R). apply bind_ok in R as (y & R & Q). injection Q as Qa Qb Qc. subst.
    destruct y as [[py gy] oy]. cbn [fst snd] in *.
    destruct (do_same _ _ _ _ (HC c (or_introl eq_refl)) D) as (A1 & A2 & A3 & A4 & A5 & A6 & A7 & _).
    destruct (IH _ _ _ _ _ (fun c' I => HC c' (or_intror I)) R) as (B1 & B2 & B3 & B4 & B5 & B6 & B7).
    repeat split; try congruence. rewrite B7, A7. destruct c; reflexivity.
Qed.
Lemma in_params_short : forall k s olds, length olds = k -> short k s -> (0 < k)%nat -> nth_error (in_params s olds) (k - 1) = nth_error olds (k - 1).
Proof using Type.
  assert (N : forall olds, in_params None olds = olds).
  { induction olds as [|o r IH]; [reflexivity|]. cbn [in_params in_param]. f_equal. exact IH. }
  intros k [t|] olds L Sh K; [|now rewrite N].
  destruct Sh as (xs & rest & Nu & Lx & Sp). revert k olds L Lx K. induction Nu as [t|t u x r xs rest Su Un Sd Nu IH]; intros k olds L Lx K.
  - destruct olds as [|o olds]; [cbn in L; lia|]. cbn [in_params in_param]. rewrite Sp. rewrite N. reflexivity.
  - destruct olds as [|o olds]; [cbn in L; lia|]. cbn [length] in *. cbn [in_params in_param]. rewrite Su.
    destruct u as [|u0 us]; [congruence|]. rewrite Sd.
    destruct k as [|[|k]]; try lia. replace (S (S k) - 1)%nat with (S k) by lia. cbn [nth_error].
    specialize (IH Sp (S k) olds). replace (S k - 1)%nat with k in IH by lia. apply IH; lia.
Qed.
Lemma in_params_full : forall t xs rest, numbers t xs rest -> forall olds, length olds = length xs -> in_params (Some t) olds = map Some xs.
Proof using Type.
  intros t xs rest Nu. induction Nu as [t|t u x r xs rest Su Un Sd Nu IH]; intros olds L.
  - destruct olds; [reflexivity|discriminate].
  - destruct olds as [|o olds]; [discriminate|]. cbn [length] in L. cbn [in_params in_param map]. rewrite Su. destruct u as [|u0 us]; [congruence|].
    rewrite Sd. f_equal. apply IH. lia.
Qed.
Lemma all_initialised_hole : forall (l : list (option T)) i, nth_error l i = Some None -> all_initialised l = UB Uninitialised.
Proof using Type.
  induction l as [|x l IH]; intros [|i] E1; cbn [nth_error] in E1; try discriminate.
  - injection E1 as ->. reflexivity.
  - cbn [all_initialised]. destruct x as [a|]; [|reflexivity]. cbn [initialised bind]. now rewrite (IH _ E1).
Qed.
Lemma all_initialised_full : forall xs : list T, all_initialised (map Some xs) = Ok xs.
Proof using Type. induction xs as [|x xs IH]; [reflexivity|]. cbn [map all_initialised initialised bind]. now rewrite IH. Qed.
Lemma load_length : forall a b d p, length (nt_in (fst (load_graphs graphs disk session_ok a b d p))) = length (nt_in p) /\
  length (nt_el (fst (load_graphs graphs disk session_ok a b d p))) = length (nt_el p) /\
  length (nt_ph (fst (load_graphs graphs disk session_ok a b d p))) = length (nt_ph p).
Proof using Type.
  assert (N : forall olds s, length (in_params s olds) = length olds).
  { induction olds as [|o r IH]; intros s; [reflexivity|]. cbn [in_params]. destruct (in_param s o). cbn [length]. now rewrite IH. }
  intros a b d p. unfold load_graphs. destruct (new_graph _ _ _ _ _ _) as [[e|] n1']; [|repeat split].
  destruct (new_graph _ _ _ _ _ n1') as [[f|] n2']; [|repeat split].
  destruct (new_graph _ _ _ _ _ n2') as [[q|] n3']; [|repeat split]. cbn [fst nt_in nt_el nt_ph]. now rewrite !N.
Qed.
Lemma run_length : forall cs p g p' g' out, run cs p g = Ok (p', g', out) ->
  length (nt_in p') = length (nt_in p) /\ length (nt_el p') = length (nt_el p) /\ length (nt_ph p') = length (nt_ph p).
Proof using Type.
  intros cs p g p' g' out R.
  refine (run_ind (fun q => length (nt_in q) = length (nt_in p) /\ length (nt_el q) = length (nt_el p) /\ length (nt_ph q) = length (nt_ph p))
            (fun _ => True) _ cs p g p' g' out (fun _ _ => I) (conj eq_refl (conj eq_refl eq_refl)) R).
  intros c q gq x _ (L1 & L2 & L3) D. destruct c as [a b d| | | |].
  2-5: apply do_same in D; [|exact (fun z => z)]; destruct D as (_ & _ & _ & E1 & E2 & E3 & _); rewrite E1, E2, E3; now repeat split.
  cbn [net_do] in D. destruct (load_length a b d q) as (M1 & M2 & M3). destruct (load_graphs _ _ _ _ _ _ q) as [q' y]. injection D as <-.
  cbn [fst] in *. now rewrite M1, M2, M3.
Qed.

(** ** C112 *)

(** Whatever was done with the process, its destructor has undefined behaviour (the positron graph is never set). *)
Theorem C112_destructor : forall n cs g p g' out, run cs (new_net n) g = Ok (p, g', out) -> net_destroy p = UB Uninitialised.
Proof using Type.
  intros n cs g p g' out R.
  assert (Q : nt_posi p = None).
  { refine (run_ind (fun q => nt_posi q = None) (fun _ => True) _ cs (new_net n) g p g' out (fun _ _ => I) eq_refl R).
    intros c q gq x _ Hq D. now rewrite (do_posi _ _ _ _ D). }
  unfold net_destroy. rewrite Q. destruct (nt_elec p); reflexivity.
Qed.

(** A process for which the graphs were never loaded can be asked for free paths, but a step and a test are undefined. *)
Theorem C112_not_loaded : forall n cs g p g' out, (forall c, In c cs -> ~ is_load c) -> run cs (new_net n) g = Ok (p, g', out) ->
  (forall momentum position time g1, step p momentum position time g1 = UB Uninitialised) /\ (forall g1, testing p g1 = UB Uninitialised) /\
  (forall c, In c cs -> exists t, c = NLag t \/ c = NPath t).
Proof using Type.
  intros n cs g p g' out N R. destruct (run_same _ _ _ _ _ _ N R) as (A1 & _ & _ & A4 & _). cbn in A1, A4.
  assert (U : forall q, nt_elec q = None -> nt_in q = repeat None 6 ->
    (forall momentum position time g1, step q momentum position time g1 = UB Uninitialised) /\ (forall g1, testing q g1 = UB Uninitialised)).
  { intros q Q1 Q2. split.
    - intros. unfold net_step. rewrite Q2. reflexivity.
    - intros. unfold net_test, run_all. rewrite Q1. reflexivity. }
  destruct (U p A1 A4) as [U1 U2]. split; [exact U1|]. split; [exact U2|].
  clear A1 A4 U1 U2. assert (E0 : nt_elec (new_net (T := T) n) = None) by reflexivity. assert (I0 : nt_in (new_net (T := T) n) = repeat None 6) by reflexivity.
  generalize dependent (new_net (T := T) n). revert g out. induction cs as [|c cs IH]; intros g out q R E0 I0 c' [].
  - subst c'. destruct c as [| t | t | m x t |]; [destruct (N (NLoad seedPath elecPath photPath) (or_introl eq_refl) I)|eauto|eauto| |];
      destruct (U q E0 I0) as [U1 U2]; cbn [net_run net_do] in R; rewrite ?U1, ?U2 in R; discriminate.
  - cbn [net_run] in R. apply bind_ok in R as (x & D & R). apply bind_ok in R as (y & R & Q). injection Q as Qa Qb Qc. subst.
    destruct y as [[py gy] oy]. cbn [fst snd] in *.
    destruct (do_same _ _ _ _ (N c (or_introl eq_refl)) D) as (B1 & _ & _ & B4 & _).
    refine (IH (fun c0 I0 => N c0 (or_intror I0)) _ _ _ R _ _ c' H0); congruence.
Qed.

(** The same if the file with the parameters of the incoming electron is missing or too short, at every load: a step is undefined, no
    matter what else happened. *)
Theorem C112_parameters_missing : forall n cs g p g' out,
  (forall a b d, In (NLoad a b d) cs -> short 6 (disk (a ++ "/in_meta.dat"))) -> run cs (new_net n) g = Ok (p, g', out) ->
  forall momentum position time g1, step p momentum position time g1 = UB Uninitialised.
Proof using Type.
  intros n cs g p g' out Sh R momentum position time g1.
  assert (Q : length (nt_in p) = 6%nat /\ nth_error (nt_in p) 5 = Some None).
  { refine (run_ind (fun q => length (nt_in q) = 6%nat /\ nth_error (nt_in q) 5 = Some None)
              (fun c => match c with NLoad a b d => short 6 (disk (a ++ "/in_meta.dat")) | _ => True end) _ cs (new_net n) g p g' out _ _ R).
    - intros c q gq x Hc [L Hq] D. destruct c as [a b d| | | |].
      2-5: apply do_same in D; [|exact (fun z => z)]; destruct D as (_ & _ & _ & E1 & _); rewrite E1; now split.
      cbn [net_do] in D. split.
      + pose proof (load_length a b d q) as (M1 & _). destruct (load_graphs _ _ _ _ _ _ q) as [q' y]. injection D as <-. cbn [fst] in *. congruence.
      + revert D. unfold load_graphs. destruct (new_graph _ _ _ _ _ _) as [[e|] n1']; [|intros Z; injection Z as <-; exact Hq].
        destruct (new_graph _ _ _ _ _ n1') as [[f|] n2']; [|intros Z; injection Z as <-; exact Hq].
        destruct (new_graph _ _ _ _ _ n2') as [[k|] n3']; intros Z; injection Z as <-; [|exact Hq]. cbn [fst nt_in].
        exact (eq_trans (in_params_short 6 _ _ L Hc ltac:(lia)) Hq).
    - intros c I. destruct c; try exact Logic.I. now apply Sh with (1 := I).
    - split; reflexivity. }
  unfold net_step. now rewrite (all_initialised_hole _ 5 (proj2 Q)).
Qed.

(** After a load that returned, with complete parameter files, a step gives the normalised track to the three networks and proposes what the
    density of the electron and the mean number of photons yield; other calls in between change nothing but the time lag. *)
Theorem C112_step : forall n before g p g0 out a b d cs p' g' out' ne nf nc te tf tc a0 a1 a2 a3 a4 a5 e0 e1 e2 f0 f1 f2 we me ce se wf mf cf sf m ms momentum position time g1,
  run before (new_net n) g = Ok (p, g0, out) -> (forall c, In c cs -> ~ is_load c) ->
  run (NLoad a b d :: cs) p g0 = Ok (p', g', NNothing :: out') ->
  graphs (b ++ "/param_graph.pb") = Graph ne -> graphs (d ++ "/param_graph.pb") = Graph nf -> graphs (d ++ "/count_graph.pb") = Graph nc ->
  disk (a ++ "/in_meta.dat") = Some te -> (exists rest, numbers te [a0; a1; a2; a3; a4; a5] rest) ->
  disk (b ++ "/meta.dat") = Some tf -> (exists rest, numbers tf [e0; e1; e2] rest) ->
  disk (d ++ "/meta.dat") = Some tc -> (exists rest, numbers tc [f0; f1; f2] rest) ->
  let input := normalised a0 a1 a2 a3 a4 a5 momentum position (nsub time (lag_after cs (lag_after before n0))) in
  ne ["frac"; "mean"; "sigma"; "skew"] input = Some [Row we; Rows me; Rows ce; Rows se] ->
  nf ["frac"; "mean"; "sigma"; "skew"] input = Some [Row wf; Rows mf; Rows cf; Rows sf] ->
  nc ["mean"] input = Some [Row (m :: ms)] ->
  step p' momentum position time g1 =
    rmap (fun r => (Some (fst r), snd r))
      (tf_step E skewed poisson (mkGraph we (combine (combine me ce) se)) (mkGraph wf (combine (combine mf cf) sf)) m (mkV e0 e1 e2) (mkV f0 f1 f2) g1).
Proof using Type.
  intros n before g p g0 out a b d cs p' g' out' ne nf nc te tf tc a0 a1 a2 a3 a4 a5 e0 e1 e2 f0 f1 f2 we me ce se wf mf cf sf m ms momentum position time g1
    R0 N R G1 G2 G3 D1 (r1 & M1) D2 (r2 & M2) D3 (r3 & M3) input I1 I2 I3.
  assert (Lb : nt_lag p = lag_after before n0).
  { clear - R0. change (n0 (T := T)) with (nt_lag (new_net (T := T) n)). revert R0. generalize (new_net (T := T) n). revert g out.
    induction before as [|c cs IH]; intros g out q R; cbn [net_run] in R.
    - injection R as <- _ _. reflexivity.
    - apply bind_ok in R as (x & D & R). apply bind_ok in R as (y & R & Q). injection Q as Qa Qb Qc. subst.
      destruct y as [[py gy] oy]. cbn [fst snd] in *. rewrite (IH _ _ _ R). destruct c as [a b d| | | |].
      2-5: apply do_same in D; [|exact (fun z => z)]; destruct D as (_ & _ & _ & _ & _ & _ & E1 & _); rewrite E1; reflexivity.
      cbn [lag_after]. f_equal. cbn [net_do] in D. revert D. unfold load_graphs.
      destruct (new_graph _ _ _ _ _ _) as [[e|] n1']; [|intros Z; injection Z as <-; reflexivity].
      destruct (new_graph _ _ _ _ _ n1') as [[f|] n2']; [|intros Z; injection Z as <-; reflexivity].
      destruct (new_graph _ _ _ _ _ n2') as [[k|] n3']; intros Z; injection Z as <-; reflexivity. }
  destruct (run_length _ _ _ _ _ _ R0) as (L1 & L2 & L3). cbn in L1, L2, L3.
  cbn [net_run] in R. apply bind_ok in R as (x & D & R). apply bind_ok in R as (y & R & Q). injection Q as Qa Qb Qc Qd. subst.
  destruct y as [[py gy] oy]. cbn [fst snd] in *.
  destruct (run_same _ _ _ _ _ _ N R) as (A1 & A2 & A3 & A4 & A5 & A6 & A7).
  cbn [net_do] in D. revert D. unfold load_graphs, new_graph. rewrite G1, G2, G3, D1, D2, D3.
  destruct (session_ok (nt_sessions p)); [|intros Z; injection Z as <-; discriminate].
  destruct (session_ok _); [|intros Z; injection Z as <-; discriminate].
  destruct (session_ok _); [|intros Z; injection Z as <-; discriminate].
  intros Z. injection Z as <-. cbn [fst nt_elec nt_phot nt_count nt_in nt_el nt_ph nt_lag] in *.
  rewrite (in_params_full _ _ _ M1) in A4 by exact L1. rewrite (in_params_full _ _ _ M2) in A5 by exact L2. rewrite (in_params_full _ _ _ M3) in A6 by exact L3.
  unfold net_step. rewrite A4, all_initialised_full. cbn [bind net_input]. rewrite A7, Lb.
  match goal with |- (let* _ := run_all py ?i in _) = _ => change i with input end.
  unfold run_all. rewrite A1, A2, A3. cbn [initialised bind run_graph go_shape go_net go_outputs].
  assert (F : first_values 6 0 input = Ok input) by reflexivity. unfold run_graph. cbn [go_shape go_net go_outputs]. rewrite F. cbn [bind].
  unfold density_outputs. rewrite I1, I2, I3. cbn [bind density photon_mean].
  rewrite A5, A6, !all_initialised_full. cbn [bind vec3]. unfold components.
  destruct (tf_step _ _ _ _ _ _ _ _ _); reflexivity.
Qed.

(** The stand-alone test draws the random numbers of a step on the same input, no more and no fewer. *)
Theorem C112_test : forall p momentum position time g pr g' a0 a1 a2 a3 a4 a5,
  nt_in p = map Some [a0; a1; a2; a3; a4; a5] ->
  normalised a0 a1 a2 a3 a4 a5 momentum position (nsub time (nt_lag p)) = [n0; n0; nlit 8 (-1); nlit 5 (-1); nlit 5 (-1); n1] ->
  step p momentum position time g = Ok (Some pr, g') -> testing p g = Ok (false, g').
Proof using Type.
  intros p momentum position time g pr g' a0 a1 a2 a3 a4 a5 I1 I2 S. unfold net_step in S. rewrite I1, all_initialised_full in S. cbn [bind net_input] in S.
  match type of S with (let* _ := run_all p ?i in _) = _ => change i with (normalised a0 a1 a2 a3 a4 a5 momentum position (nsub time (nt_lag p))) in S end.
  rewrite I2 in S. unfold net_test, test_input. apply bind_ok in S as (r & R & S). rewrite R. cbn [bind].
  destruct r as [[[ge gf] m]|]; [|discriminate]. apply bind_ok in S as (el & _ & S). apply bind_ok in S as (es & _ & S).
  assert (P : forall k ps sample g1 r, tf_photons E skewed k ge gf ps sample g1 = Ok r -> test_photons E skewed k ge gf g1 = Ok (snd r)).
  { clear. induction k as [|k IH]; intros ps sample g1 r Q; cbn [tf_photons test_photons] in *.
    - now injection Q as <-.
    - apply bind_ok in Q as (x & Q1 & Q). destruct x as [[dd ee] gg]. apply bind_ok in Q as (y & Q2 & Q). injection Q as <-. cbn [snd].
      unfold tf_photon in Q1. apply bind_ok in Q1 as (i & J1 & Q1). apply bind_ok in Q1 as (c & J2 & Q1).
      rewrite J1. cbn [bind]. rewrite J2. cbn [bind]. destruct (skewed c (snd i)) as [v g2] eqn:Sk. injection Q1 as _ _ <-. cbn [snd]. exact (IH _ _ _ _ Q2). }
  assert (W : forall sc r, tf_step E skewed poisson ge gf m es sc g = Ok r ->
    (let* i := rand_discrete E (gr_frac ge) g in let* c := get (gr_comp ge) (fst i) in
     let '(n, g1) := poisson m (snd (skewed c (snd i))) in let* g2 := test_photons E skewed n ge gf g1 in Ok (false, g2)) = Ok (false, snd r)).
  { intros sc r Q. unfold tf_step in Q. apply bind_ok in Q as (i & J1 & Q). apply bind_ok in Q as (c & J2 & Q). rewrite J1. cbn [bind]. rewrite J2. cbn [bind].
    destruct (skewed c (snd i)) as [v g2]. cbn [snd]. destruct (poisson m g2) as [n g3]. apply bind_ok in Q as (x & J3 & Q). injection Q as <-.
    rewrite (P _ _ _ _ _ J3). reflexivity. }
  destruct (all_initialised (nt_ph p)) as [ph| | | |].
  - apply bind_ok in S as (ps & _ & S). apply bind_ok in S as (x & S & Q). injection Q as _ <-. exact (W _ _ S).
  - apply bind_ok in S as (x & S & Q). destruct (pr_photons (fst x)); [|discriminate]. injection Q as _ <-. exact (W _ _ S).
  - apply bind_ok in S as (x & S & Q). destruct (pr_photons (fst x)); [|discriminate]. injection Q as _ <-. exact (W _ _ S).
  - apply bind_ok in S as (x & S & Q). destruct (pr_photons (fst x)); [|discriminate]. injection Q as _ <-. exact (W _ _ S).
  - apply bind_ok in S as (x & S & Q). destruct (pr_photons (fst x)); [|discriminate]. injection Q as _ <-. exact (W _ _ S).
Qed.
(** and where the step throws, having drawn nothing, so does the test *)
Theorem C112_test_throws : forall p momentum position time g g' a0 a1 a2 a3 a4 a5,
  nt_in p = map Some [a0; a1; a2; a3; a4; a5] ->
  normalised a0 a1 a2 a3 a4 a5 momentum position (nsub time (nt_lag p)) = [n0; n0; nlit 8 (-1); nlit 5 (-1); nlit 5 (-1); n1] ->
  step p momentum position time g = Ok (None, g') -> g' = g /\ testing p g = Ok (true, g).
Proof using Type.
  intros p momentum position time g g' a0 a1 a2 a3 a4 a5 I1 I2 S. unfold net_step in S. rewrite I1, all_initialised_full in S. cbn [bind net_input] in S.
  match type of S with (let* _ := run_all p ?i in _) = _ => change i with (normalised a0 a1 a2 a3 a4 a5 momentum position (nsub time (nt_lag p))) in S end.
  rewrite I2 in S. unfold net_test, test_input. apply bind_ok in S as (r & R & S). rewrite R. cbn [bind].
  destruct r as [[[ge gf] m]|]; [exfalso|injection S as <-; auto]. apply bind_ok in S as (el & _ & S). apply bind_ok in S as (es & _ & S).
  destruct (all_initialised (nt_ph p)) as [ph| | | |].
  { apply bind_ok in S as (ps & _ & S). apply bind_ok in S as (x & S & Q). discriminate. }
  all: apply bind_ok in S as (x & S & Q); destruct (pr_photons (fst x)); discriminate.
Qed.

(** Sessions pile up: three for every load that returned, up to three for every load that failed. *)
Theorem C112_sessions : forall n cs g p g' out, run cs (new_net n) g = Ok (p, g', out) ->
  (n + 3 * completed cs out <= nt_sessions p <= n + 3 * loads cs)%nat.
Proof using Type.
  intros n cs g p g' out R. change n with (nt_sessions (new_net (T := T) n)). revert R. generalize (new_net (T := T) n). clear n. revert g out.
  induction cs as [|c cs IH]; intros g out q R; cbn [net_run] in R.
  - injection R as <- _ <-. unfold loads. cbn. lia.
  - apply bind_ok in R as (x & D & R). apply bind_ok in R as (y & R & Q). injection Q as Qa Qb Qc. subst.
    destruct y as [[py gy] oy]. cbn [fst snd] in *. specialize (IH _ _ _ R). destruct c as [a b d| | | |].
    2-5: apply do_same in D; [|exact (fun z => z)]; destruct D as (_ & _ & _ & _ & _ & _ & _ & E1); cbn [completed loads filter length] in *; rewrite E1 in IH; exact IH.
    cbn [net_do] in D. revert D. unfold load_graphs, new_graph.
    change (loads (NLoad a b d :: cs)) with (S (loads cs)).
    destruct (session_ok (nt_sessions q)); [|intros Z; injection Z as <-; cbn [fst snd nt_sessions completed] in *; lia].
    destruct (graphs (b ++ "/param_graph.pb")); try (intros Z; injection Z as <-; cbn [fst snd nt_sessions completed] in *; lia).
    destruct (session_ok _); [|intros Z; injection Z as <-; cbn [fst snd nt_sessions completed] in *; lia].
    destruct (graphs (d ++ "/param_graph.pb")); try (intros Z; injection Z as <-; cbn [fst snd nt_sessions completed] in *; lia).
    destruct (session_ok _); [|intros Z; injection Z as <-; cbn [fst snd nt_sessions completed] in *; lia].
    destruct (graphs (d ++ "/count_graph.pb")); intros Z; injection Z as <-; cbn [fst snd nt_sessions completed] in *; lia.
Qed.
End Any.
Print Assumptions C112_destructor.
Print Assumptions C112_not_loaded.
Print Assumptions C112_parameters_missing.
Print Assumptions C112_step.
Print Assumptions C112_test.
Print Assumptions C112_test_throws.
Print Assumptions C112_sessions.

(** ** Exact reals *)
From Verif Require Import MCFacts PropsMC VecFacts RotationFacts.
Local Open Scope R_scope.

(** Only the time since the lag counts. *)
Theorem C112_lag : forall (E : Engine R) skewed poisson (p q : net R) momentum position time d g,
  nt_elec q = nt_elec p -> nt_phot q = nt_phot p -> nt_count q = nt_count p -> nt_in q = nt_in p -> nt_el q = nt_el p -> nt_ph q = nt_ph p ->
  nt_lag q = nt_lag p + d ->
  net_step E skewed poisson q momentum position (time + d) g = net_step E skewed poisson p momentum position time g.
Proof.
  intros E skewed poisson p q momentum position time d g E1 E2 E3 E4 E5 E6 E7. unfold net_step, run_all. rewrite E1, E2, E3, E4, E5, E6, E7.
  destruct (all_initialised (nt_in p)) as [a| | | |]; try reflexivity. cbn [bind].
  replace (net_input a momentum position (time + d) (nt_lag p + d)) with (net_input a momentum position time (nt_lag p)); [reflexivity|].
  unfold net_input. destruct a as [|a0 [|a1 [|a2 [|a3 [|a4 [|a5 [|]]]]]]]; try reflexivity. rnum.
  replace (time + d - (nt_lag p + d)) with (time - nt_lag p) by ring. reflexivity.
Qed.

Lemma get_tail : forall A (x y : A) l i, (1 <= i)%nat -> get (x :: l) (Z.of_nat i) = get (y :: l) (Z.of_nat i).
Proof. intros A x y l i I. unfold get. rewrite Nat2Z.id. cbn [length]. destruct i; [lia|]. reflexivity. Qed.
Lemma psum_positive : forall d w, nonneg d -> In w d -> 0 < w -> 0 < psum d (length d).
Proof.
  induction d as [|x d IH]; intros w Nn I P; [destruct I|]. cbn [length psum].
  assert (Nd : nonneg d) by (intros y Iy; apply Nn; now right). assert (0 <= x) by (apply Nn; now left).
  destruct I as [<-|I].
  - assert (0 <= psum d (length d)); [|lra]. pose proof (psum_mono d 0 (length d) Nd ltac:(lia)). destruct d; cbn [psum] in *; lra.
  - pose proof (IH _ Nd I P). lra.
Qed.

(** With two or more components the first one is never used, neither for the electron nor for the photons: mean, width and skew of the
    first components have no influence on the step. *)
Theorem C112_first_component_unused : forall (E : Engine R) skewed poisson w0 w1 ws wf c c' rest f f' restf m es ps g,
  (forall s, 0 <= fst (e_canon E s) < 1) -> (forall w, In w (w0 :: w1 :: ws) -> 0 <= w) -> (exists w, In w (w0 :: w1 :: ws) /\ 0 < w) ->
  tf_step E skewed poisson (mkGraph (w0 :: w1 :: ws) (c :: rest)) (mkGraph wf (f :: restf)) m es ps g =
  tf_step E skewed poisson (mkGraph (w0 :: w1 :: ws) (c' :: rest)) (mkGraph wf (f' :: restf)) m es ps g.
Proof.
  intros E skewed poisson w0 w1 ws wf c c' rest f f' restf m es ps g Cn Nn (w & Iw & Pw).
  assert (D : forall g, exists i, rand_discrete E (w0 :: w1 :: ws) g = Ok (Z.of_nat i, snd (e_canon E g)) /\ (1 <= i)%nat).
  { intros g0. destruct (C13_discrete_index E (w0 :: w1 :: ws) g0) as (i & R & B); [cbn; lia|exact Nn|exact (psum_positive _ _ Nn Iw Pw)|apply Cn|].
    exists i. split; [exact R|lia]. }
  assert (P : forall k s g, tf_photons E skewed k (mkGraph (w0 :: w1 :: ws) (c :: rest)) (mkGraph wf (f :: restf)) ps s g =
                          tf_photons E skewed k (mkGraph (w0 :: w1 :: ws) (c' :: rest)) (mkGraph wf (f' :: restf)) ps s g).
  { induction k as [|k IH]; intros s g0; [reflexivity|]. cbn [tf_photons]. unfold tf_photon. cbn [gr_frac gr_comp].
    destruct (D g0) as (i & Q & B). rewrite Q. cbn [bind fst snd]. rewrite (get_tail _ f f' restf i B).
    destruct (get (f' :: restf) (Z.of_nat i)) as [x| | | |]; try reflexivity. cbn [bind]. destruct (skewed x _) as [v g1]. cbn [bind]. now rewrite IH. }
  unfold tf_step. cbn [gr_frac gr_comp]. destruct (D g) as (i & Q & B). rewrite Q. cbn [bind fst snd]. rewrite (get_tail _ c c' rest i B).
  destruct (get (c' :: rest) (Z.of_nat i)) as [x| | | |]; try reflexivity. cbn [bind]. destruct (skewed x _) as [v g1]. destruct (poisson m g1) as [n g2]. now rewrite P.
Qed.

(** ** A concrete process *)
Definition half : Engine R := mkEngine R unit (fun _ => (1 / 2, tt)) (fun n _ => (repeat 0 n, tt)).
Definition density_net (v : vec R) : network (T := R) := fun outputs _ =>
  match outputs with [_; _; _; _] => Some [Row [1]; Rows [v]; Rows [v]; Rows [v]] | _ => Some [Row [1]] end.
Definition demo_graphs (path : string) : gfile R :=
  if String.eqb path "e/param_graph.pb" then Graph (density_net (mkV 1 0 0))
  else if String.eqb path "f/param_graph.pb" then Graph (density_net (mkV 0 1 0))
  else if String.eqb path "p/param_graph.pb" then Graph (density_net (mkV 0 0 1))
  else if String.eqb path "p/count_graph.pb" then Graph (density_net (mkV 0 0 1))
  else Unreadable.
Definition demo_disk (path : string) : option text :=
  if String.eqb path "s/in_meta.dat" then Some (tx "1 2 3 4 5 6")
  else if String.eqb path "e/meta.dat" then Some (tx "1 1 1")
  else if String.eqb path "p/meta.dat" then Some (tx "1 2 3")
  else None.
Definition demo_skewed (c : vec R * vec R * vec R) (g : unit) : vec R * unit := (fst (fst c), g).
Definition demo_poisson (m : R) (g : unit) : nat * unit := (2%nat, g).
Notation demo_run := (net_run half demo_skewed demo_poisson demo_graphs demo_disk (fun _ => true)).
Notation demo_step := (net_step half demo_skewed demo_poisson).

Lemma demo_numbers : (exists rest, numbers (tx "1 2 3 4 5 6") [nlit 1 0; nlit 2 0; nlit 3 0; nlit 4 0; nlit 5 0; nlit 6 0 : R] rest) /\
  (exists rest, numbers (tx "1 1 1") [nlit 1 0; nlit 1 0; nlit 1 0 : R] rest) /\ (exists rest, numbers (tx "1 2 3") [nlit 1 0; nlit 2 0; nlit 3 0 : R] rest).
Proof.
  repeat split; eexists;
  repeat (eapply numbers_more; [reflexivity|discriminate|reflexivity|]); apply numbers_none.
Qed.

Lemma unit_x : vnorm (scale3 (mkV 1 0 0) (mkV (nlit 1 0) (nlit 1 0) (nlit 1 0))) = mkV 1 0 0 :> vec R.
Proof.
  unfold vnorm, mag, mag2, dot, scale3, vdivs. cbn [vx vy vz]. rnum. rlit.
  replace (1 * 1 * (1 * 1) + 0 * 1 * (0 * 1) + 0 * 1 * (0 * 1)) with (1 * 1) by ring. rewrite sqrt_square by lra. f_equal; field.
Qed.
Lemma unit_y : vnorm (scale3 (mkV 0 1 0) (mkV (nlit 1 0) (nlit 1 0) (nlit 1 0))) = mkV 0 1 0 :> vec R.
Proof.
  unfold vnorm, mag, mag2, dot, scale3, vdivs. cbn [vx vy vz]. rnum. rlit.
  replace (0 * 1 * (0 * 1) + 1 * 1 * (1 * 1) + 0 * 1 * (0 * 1)) with (1 * 1) by ring. rewrite sqrt_square by lra. f_equal; field.
Qed.

(** Loaded, a time lag set, the test run: the hypotheses of [C112_step] hold. *)
Example C112_case : forall momentum position time, exists p out,
  demo_run [NLoad "s" "e" "p"; NLag 1; NTest] (new_net 0) tt = Ok (p, tt, NNothing :: out) /\
  exists pr, demo_step p momentum position time tt = Ok (Some pr, tt) /\ pr_dir pr = mkV 1 0 0 /\ length (pr_photons pr) = 2%nat.
Proof.
  intros. eexists. eexists. split; [reflexivity|].
  destruct demo_numbers as (N1 & N2 & N3).
  rewrite (C112_step half demo_skewed demo_poisson demo_graphs demo_disk (fun _ => true) 0 [] tt (new_net 0) tt [] "s" "e" "p" [NLag 1; NTest] _ tt
     [NNothing; NNothing] (density_net (mkV 1 0 0)) (density_net (mkV 0 0 1)) (density_net (mkV 0 0 1)) (tx "1 2 3 4 5 6") (tx "1 1 1") (tx "1 2 3")
     (nlit 1 0) (nlit 2 0) (nlit 3 0) (nlit 4 0) (nlit 5 0) (nlit 6 0) (nlit 1 0) (nlit 1 0) (nlit 1 0) (nlit 1 0) (nlit 2 0) (nlit 3 0)
     [1] [mkV 1 0 0] [mkV 1 0 0] [mkV 1 0 0] [1] [mkV 0 0 1] [mkV 0 0 1] [mkV 0 0 1] 1 [] momentum position time tt eq_refl);
   [| intros c [<-|[<-|[]]] B; exact B | reflexivity|reflexivity|reflexivity|reflexivity|reflexivity|exact N1|reflexivity|exact N2|reflexivity|exact N3|reflexivity|reflexivity|reflexivity].
  eexists. split; [reflexivity|]. split; [|reflexivity]. apply unit_x.
Qed.

(** A network that cannot be run on its input: the step throws, and with the numbers of the test as input so does the test. *)
Definition broken : net R := mkNet (Some (mkGobj 6 [] (fun _ _ => None))) None None None (map Some [0; 0; 1; 1; 1; 1]) [] [] 0 false 3.
Example C112_throws_case :
  normalised 0 0 1 1 1 1 (mkV 0 0 (nlit 8 (-1) / g4_energy si_units)) (mkV (nlit 5 (-1)) (nlit 5 (-1)) 0) (nsub n1 (nt_lag broken))
    = [n0; n0; nlit 8 (-1); nlit 5 (-1); nlit 5 (-1); n1] /\
  net_step half demo_skewed demo_poisson broken (mkV 0 0 (nlit 8 (-1) / g4_energy si_units)) (mkV (nlit 5 (-1)) (nlit 5 (-1)) 0) n1 tt = Ok (None, tt) /\
  net_test half demo_skewed demo_poisson broken tt = Ok (true, tt).
Proof.
  assert (G : g4_energy si_units <> 0 :> R) by (unfold g4_energy, si_units; cbn; rnum; rlit; lra).
  assert (I : normalised 0 0 1 1 1 1 (mkV 0 0 (nlit 8 (-1) / g4_energy si_units)) (mkV (nlit 5 (-1)) (nlit 5 (-1)) 0) (nsub n1 (nt_lag broken))
    = [n0; n0; nlit 8 (-1); nlit 5 (-1); nlit 5 (-1); n1]).
  { unfold normalised, broken. cbn [vx vy vz nt_lag]. revert G. generalize (g4_energy si_units : R). intros e G. rnum. rlit.
    repeat (f_equal; [field; lra|]). f_equal. field. }
  split; [exact I|]. split; [reflexivity|].
  exact (proj2 (C112_test_throws half demo_skewed demo_poisson broken _ _ _ tt tt 0 0 1 1 1 1 eq_refl I eq_refl)).
Qed.

Lemma demo_after : forall momentum position time, exists q1 q2,
  let p1 := fst (load_graphs demo_graphs demo_disk (fun _ => true) "s" "e" "p" (new_net 0)) in
  let p2 := fst (load_graphs demo_graphs demo_disk (fun _ => true) "s" "f" "none" p1) in
  demo_step p1 momentum position time tt = Ok (Some q1, tt) /\ demo_step p2 momentum position time tt = Ok (Some q2, tt) /\
  pr_dir q1 = mkV 1 0 0 /\ pr_dir q2 = mkV 0 1 0.
Proof.
  intros. eexists. eexists. cbv zeta. split; [reflexivity|]. split; [reflexivity|]. split; [apply unit_x|apply unit_y].
Qed.

(** A load that fails half way is not undone: the next step mixes the new electron network with the old parameters. *)
Theorem C112_load_is_atomic_refuted : exists (E : Engine R) skewed poisson graphs disk session_ok g cs c p1 g1 p2 g2 out,
  net_run E skewed poisson graphs disk session_ok cs (new_net 0) g = Ok (p1, g1, out) /\
  net_do E skewed poisson graphs disk session_ok c p1 g1 = Ok (p2, g2, NRaised) /\
  (forall momentum position time pr1 g3 pr2 g4, net_step E skewed poisson p1 momentum position time g1 = Ok (Some pr1, g3) ->
     net_step E skewed poisson p2 momentum position time g2 = Ok (Some pr2, g4) -> pr_dir pr1 <> pr_dir pr2) /\
  (exists momentum position time pr1 g3 pr2 g4, net_step E skewed poisson p1 momentum position time g1 = Ok (Some pr1, g3) /\
     net_step E skewed poisson p2 momentum position time g2 = Ok (Some pr2, g4)).
Proof.
  exists half, demo_skewed, demo_poisson, demo_graphs, demo_disk, (fun _ => true), tt, [NLoad "s" "e" "p"], (NLoad "s" "f" "none").
  eexists _, tt, _, tt, _. split; [reflexivity|]. split; [reflexivity|]. split.
  - intros momentum position time pr1 g3 pr2 g4 S1 S2.
    destruct (demo_after momentum position time) as (q1 & q2 & T1 & T2 & U1 & U2).
    assert (X1 : Ok (Some pr1, g3) = Ok (Some q1, tt)) by (rewrite <- T1; symmetry; exact S1).
    assert (X2 : Ok (Some pr2, g4) = Ok (Some q2, tt)) by (rewrite <- T2; symmetry; exact S2).
    injection X1 as -> _. injection X2 as -> _. rewrite U1, U2. intros X. injection X as X _. lra.
  - destruct (demo_after (mkV 0 0 0) (mkV 0 0 0) 0) as (q1 & q2 & T1 & T2 & _). do 7 eexists. split; [exact T1|exact T2].
Qed.
Print Assumptions C112_lag.
Print Assumptions C112_first_component_unused.
Print Assumptions C112_load_is_atomic_refuted.
