(** * The Python module built with OpenMP: C140 *)
From Coq Require Import String ZArith Reals List Bool Lia Permutation SpecFloat.
From Verif Require Import Num RNum Outcome OutcomeFacts Vec Units Numerics MCTools Particle ParticleList Source SourceFacts Fields Pusher Process Sim
  RunManager RunFacts PropsRun PropsTables Program ProgramFacts Shipped PropsShipped PropsUse PyExample PropsExample PropsPyExample
  Threads ThreadFacts ThreadSerial ThreadReplay ThreadProgram ThreadSafe PyThreads PyThreadFacts PySerial PropsThreads PropsThreadSafe PySession PySched.
Import ListNotations.
Local Open Scope string_scope.
Local Open Scope list_scope.

Section Main.
Context {T : Type} `{NT : Num T}.
Variable E : Engine T.
Variable load_em : res (em_tables T).
Variable load_bw : res (bw_tables T).
Variable fuel : nat.
Notation serial E := (session E load_em load_bw (RunManager.serial_loop E fuel)).
Notation threaded := (threaded_session E load_em load_bw fuel).

(** Whatever the order of the accesses and however the events are dealt out: what a session with threads shows, or fails with, a session of the
    module built without OpenMP shows, or fails with, in which every beamOn has one thread; and if it does not fail the random numbers of that one are
    those of the other in another order (the normal deviates of each sample in another order, the uniform numbers in another order). *)
Theorem C140_serialises : forall dom domn cs g x, delivers E -> draws_in dom domn E -> Forall has_threads cs -> threaded cs g x ->
  exists ns' us', serial (replay dom domn) false (map one_thread cs) (ns', us') = x /\
    forall v, x = Ok v -> exists ns us g', delivered E g ns us g' /\ Forall2 (@Permutation T) ns ns' /\ Permutation us us'.
Proof.
  intros dom domn cs g x DL DI HT (y & TC & ->). unfold session.
  destruct (calls_replay E dom domn load_em load_bw fuel DL DI cs HT new_manager new_manager g y (alike_refl _) TC)
    as [(mf & gf & sn & -> & ns & us & ns' & us' & mf' & D & P1 & P2 & (t' & -> & JT) & R)|(NK & ns' & us' & R)]; exists ns', us'.
  - specialize (R [] []). rewrite !app_nil_r in R. rewrite R. cbn [bind fst snd]. split; [reflexivity|]. intros v _. exists ns, us, gf. auto.
  - destruct y as [y| | | |]; [exfalso; exact (NK y eq_refl)|..]; (split; [|discriminate]);
      destruct (do_calls (replay dom domn) load_em load_bw (RunManager.serial_loop (replay dom domn) fuel) false (map one_thread cs) new_manager (ns', us')); cbn in R; try discriminate R; cbn; congruence.
Qed.

(** So what all sessions without threads end with, all sessions with threads end with. *)
Theorem C140_transfers : forall (dom domn : T -> bool) cs (P : res (list (seen T) * nat) -> Prop), dom n0 = true -> domn n0 = true ->
  (forall (E' : Engine T) g, delivers E' -> draws_in dom domn E' -> P (serial E' false (map one_thread cs) g)) ->
  delivers E -> draws_in dom domn E -> Forall has_threads cs -> forall g x, threaded cs g x -> P x.
Proof.
  intros dom domn cs P D0 DN0 HP DL DM HT g x X. destruct (C140_serialises dom domn cs g x DL DM HT X) as (ns' & us' & <- & _).
  exact (HP (replay dom domn) (ns', us') (replay_delivers dom domn) (conj (replay_domain dom domn D0) (replay_normals dom domn DN0))).
Qed.

(** One call: the tables are those of events simulated one after the other, one event for each requested one. *)
Theorem C140_events : forall dom domn n t loop m g m' g' b, charges_differ (T := T) -> delivers E -> draws_in dom domn E -> (1 <= t)%Z -> set_up m = true ->
  py_possible E load_em load_bw fuel (BeamOn n t) m g loop -> beam_on E load_em load_bw loop true n t m g = Ok (m', g', b) ->
  exists w src g0 g1 evs, build_world load_em load_bw m = Ok w /\ b = false /\ build_source (replay dom domn) m n g0 = Ok (src, g1) /\
    simulated (replay dom domn) fuel w (m_timeEnd m) src g1 evs ([], []) /\ Z.of_nat (length evs) = (n mod 2 ^ 32)%Z /\
    (forall tb, get_table tb m' = spec_table tb evs) /\ (exists ns us, delivered E g ns us g' /\ Forall2 (@Permutation T) ns (fst g0) /\ Permutation us (snd g0)).
Proof.
  intros dom domn n t loop m g m' g' b CD DL DI T1 SU PO BO.
  destruct (call_replay E dom domn load_em load_bw fuel DL DI (BeamOn n t) m m g loop (alike_refl m) T1 PO) as [(m1 & g1 & sn & Q & ns & us & ns' & us' & m1' & D & P1 & P2 & (t' & -> & JT) & R)|(NK & _)].
  2:{ exfalso. cbn [do_call] in NK. rewrite BO in NK. exact (NK _ eq_refl). }
  cbn [do_call] in Q. rewrite BO in Q. cbn [bind fst snd] in Q. injection Q as <- <- Q.
  specialize (R [] []). rewrite !app_nil_r in R. cbn [one_thread do_call] in R.
  destruct (beam_on (replay dom domn) load_em load_bw (RunManager.serial_loop (replay dom domn) fuel) false n 1 m (ns', us')) as [[[m2 g2] b2]| | | |] eqn:B2; cbn [bind fst snd] in R; try discriminate R.
  injection R as -> -> Q2.
  destruct (C73_serial_tables CD (replay dom domn) load_em load_bw fuel n m (ns', us') _ _ _ SU B2) as (w & src & g3 & evs & BW & BS & -> & SI & LE & TB & _).
  exists w, src, (ns', us'), g3, evs. split; [exact BW|]. split. { destruct b; [subst sn; discriminate Q2|reflexivity]. }
  split; [exact BS|]. split; [exact SI|]. split; [exact LE|]. split; [|exists ns, us; auto].
  intros tb. rewrite <- (proj1 (TB tb)). unfold get_table, to_array. change (m_tables (with_tables t' m')) with t'. now rewrite JT.
Qed.

(** ** Schedules *)
Lemma serial_calls cs : Forall has_threads cs -> forall m g, threaded_calls E load_em load_bw fuel cs m g (do_calls E load_em load_bw (RunManager.serial_loop E fuel) true cs m g).
Proof.
  intros HT. induction HT as [|c cs HC HT IH]; intros m g; cbn [threaded_calls do_calls]; [reflexivity|].
  exists (RunManager.serial_loop E fuel). split.
  { destruct c; cbn [py_possible]; auto. cbn [has_threads] in HC. intros w s g1 _ _ _. apply first_thread. lia. }
  destruct (do_call E load_em load_bw (RunManager.serial_loop E fuel) true c m g) as [y| | | |]; cbn [bind rmap]; try reflexivity. eexists. split; [apply IH|]. reflexivity.
Qed.
(** The session in which the first thread does all the work is a possible one, also if it fails: there is an outcome. *)
Theorem C140_serial_schedule : forall cs g, Forall has_threads cs -> threaded cs g (serial E true cs g).
Proof. intros cs g HT. eexists. split; [apply serial_calls; exact HT|]. reflexivity. Qed.

(** With one thread the outcome is that of the module without OpenMP. *)
Definition single (c : call T) : Prop := match c with BeamOn _ t => t = 1%Z | _ => True end.
Lemma single_calls cs : Forall single cs -> forall m g x, threaded_calls E load_em load_bw fuel cs m g x <-> x = do_calls E load_em load_bw (RunManager.serial_loop E fuel) false cs m g.
Proof.
  intros HT. induction HT as [|c cs HC HT IH]; intros m g x; cbn [threaded_calls do_calls]; [reflexivity|].
  assert (DC : forall loop, py_possible E load_em load_bw fuel c m g loop -> do_call E load_em load_bw loop true c m g = do_call E load_em load_bw (RunManager.serial_loop E fuel) false c m g).
  { intros loop PO. destruct c as [| | | | | |n th|]; try reflexivity. cbn [single] in HC. subst. cbn [do_call py_possible] in *. unfold beam_on. cbn [negb andb Z.eqb Pos.eqb].
    destruct (delete (m_pusher m)); cbn [bind]; try reflexivity. destruct (delete (m_generator m)); cbn [bind]; try reflexivity. destruct (delete (m_field m)); cbn [bind]; try reflexivity.
    destruct (set_up m); [|reflexivity]. destruct (build_world load_em load_bw m) as [w| | | |]; cbn [bind]; try reflexivity. destruct (build_source E m n g) as [[s g1]| | | |]; cbn [bind fst snd]; try reflexivity.
    specialize (PO w s g1 eq_refl eq_refl ltac:(lia)). change (1 <? 0)%Z with false. cbv iota. change (Z.to_nat 1) with 1%nat in *. apply single_loop in PO. now rewrite PO. }
  split.
  - intros (loop & PO & X). rewrite (DC loop PO) in X. destruct (do_call E load_em load_bw (RunManager.serial_loop E fuel) false c m g) as [y| | | |]; cbn [bind rmap] in *; try exact X.
    destruct X as (z & Z & ->). apply IH in Z. now rewrite Z.
  - intros ->. assert (PO : py_possible E load_em load_bw fuel c m g (RunManager.serial_loop E fuel)).
    { destruct c; cbn [py_possible]; auto. cbn [single] in HC. intros w s g1 _ _ _. apply first_thread. lia. }
    exists (RunManager.serial_loop E fuel). split; [exact PO|]. rewrite (DC _ PO). destruct (do_call E load_em load_bw (RunManager.serial_loop E fuel) false c m g) as [y| | | |]; cbn [bind rmap]; try reflexivity.
    eexists. split; [apply IH; reflexivity|]. reflexivity.
Qed.
Theorem C140_single_thread : forall cs g x, Forall single cs -> threaded cs g x <-> x = serial E false cs g.
Proof.
  intros cs g x HT. unfold threaded_session, session. split.
  - intros (y & TC & ->). apply (single_calls cs HT) in TC. now rewrite TC.
  - intros ->. eexists. split; [apply (single_calls cs HT); reflexivity|]. reflexivity.
Qed.

(** The threads may run whole, in any order, with any shares of the events ([plan n t]: the shares of [t] threads for [n] events, and the order). *)
Definition ordered (plan : nat -> nat -> list nat * list nat) (w : world T) (s : source T) (threads : nat) (tEnd : T) (g : est E) : res (tables T * est E) :=
  let p := plan (Z.to_nat (s_nPart s)) threads in
  rmap (fun s => (py_tabs E s, py_rng E s)) (run_threads E (snd p) (py_threads fuel w tEnd s (fst p)) (mkPy E g s (empty_tables threads))).
Definition fair (plan : nat -> nat -> list nat * list nat) : Prop := forall n t, (1 <= t)%nat ->
  length (fst (plan n t)) = t /\ list_sum (fst (plan n t)) = n /\ Permutation (seq 0 t) (snd (plan n t)).
Theorem C140_any_order : forall plan cs g, fair plan -> Forall has_threads cs -> threaded cs g (session E load_em load_bw (ordered plan) true cs g).
Proof.
  intros plan cs g FP HT. eexists. split; [|reflexivity]. generalize (new_manager (T := T)). intros m. revert m g.
  induction HT as [|c cs HC HT IH]; intros m g; cbn [threaded_calls do_calls]; [reflexivity|]. exists (ordered plan). split.
  { destruct c as [| | | | | |n t|]; cbn [py_possible]; auto. cbn [has_threads] in HC. intros w s g1 _ _ _. destruct (FP (Z.to_nat (s_nPart s)) (Z.to_nat t)) as (L & S & P); [lia|].
    exists (fst (plan (Z.to_nat (s_nPart s)) (Z.to_nat t))). eexists. split; [exact L|]. split; [exact S|]. split; [|reflexivity]. apply par_order.
    intros i c N. left. apply (Permutation_in _ P). apply in_seq. assert (I : (i < length (py_threads fuel w (m_timeEnd m) s (fst (plan (Z.to_nat (s_nPart s)) (Z.to_nat t)))))%nat) by (apply nth_error_Some; congruence).
    unfold py_threads in I. rewrite map_length, combine_length, seq_length, L in I. lia. }
  destruct (do_call E load_em load_bw (ordered plan) true c m g) as [y| | | |]; cbn [bind rmap]; try reflexivity. eexists. split; [apply IH|]. reflexivity.
Qed.

(** There is no endless sequence of accesses; and threads that have not all ended can go on or fail. *)
Definition py_moves (x y : list (co T unit) * pyshared E) : Prop :=
  exists t c c' s', nth_error (fst x) t = Some c /\ c <> Now (Ok tt) /\ py_act E c (snd x) = Ok (c', s') /\ y = (upd (fst x) t c', s').
Lemma py_move_child c s c' s' : c <> Now (Ok tt) -> py_act E c s = Ok (c', s') -> child c' c.
Proof.
  destruct c as [r|k|k|i p k|x k]; cbn [py_act]; intros NE X.
  - destruct r as [[]| | | |]; cbn [bind] in X; try discriminate X. contradiction.
  - destruct (e_canon E (py_rng E s)) as [u g]. injection X as <- _. constructor.
  - destruct (take (py_src E s)); cbn [bind] in X; try discriminate X. injection X as <- _. constructor.
  - injection X as <- _. constructor.
  - destruct (py_store x (py_tabs E s)); cbn [bind] in X; try discriminate X. injection X as <- _. constructor.
Qed.
Theorem C140_schedules_end : forall x, Acc (fun z y => py_moves y z) x.
Proof.
  intros [ts s]. revert s. induction (children_acc ts) as [ts _ IH]. intros s. constructor. intros [ts' s2] (t & c & c' & s' & N & NE & X & Q). cbn [fst snd] in *.
  injection Q as -> ->. apply IH. exists t, c, c'. split; [exact N|]. split; [|reflexivity]. eapply py_move_child; eauto.
Qed.
Theorem C140_schedules_go_on : forall ts s c, In c ts -> c <> Now (Ok tt) -> (exists y, py_moves (ts, s) y) \/ py_par E ts s (rmap snd (py_act E c s)).
Proof.
  intros ts s c HI NE. destruct (py_act E c s) as [[c' s']| | | |] eqn:X.
  { left. apply In_nth_error in HI as (t & N). exists (upd ts t c', s'), t, c, c', s'. auto. }
  1-4: right; eapply py_fail; [exact HI| |rewrite X; reflexivity]; intros y; rewrite X; discriminate.
Qed.
End Main.
Print Assumptions C140_serialises.
Print Assumptions C140_transfers.
Print Assumptions C140_events.
Print Assumptions C140_serial_schedule.
Print Assumptions C140_single_thread.
Print Assumptions C140_any_order.
Print Assumptions C140_schedules_end.
Print Assumptions C140_schedules_go_on.

(** ** The shipped Python example as it stands, with its two threads, in exact arithmetic and with the shipped tables: it completes with 1000 primaries,
    1000 electrons and at most two million photons, or the program ends with code -1. *)
Theorem C140_script : forall (E : Engine R) path t lbw fuel g x, delivers E -> with_emission_tables path t -> (two_thousand <= fuel)%nat ->
  threaded_session E (Ok t) lbw fuel example_script g x ->
  x = Exit (-1) \/
  exists inp el ph, x = Ok (repeat Nothing 6 ++ [Table inp; Table el; Table ph], 1%nat) /\
    Z.of_nat (length inp) = 1000%Z /\ Z.of_nat (length el) = 1000%Z /\ (Z.of_nat (length ph) <= 2000000)%Z.
Proof.
  intros E path t lbw fuel g x DL HT FU X.
  destruct (C140_serialises E (Ok t) lbw fuel (fun _ => true) (fun _ => true) example_script g x DL) as (ns & us & Q & _); [split; reflexivity| |exact X|].
  { unfold example_script, script_with. repeat constructor; discriminate. }
  change (map one_thread example_script) with (script_with (T := R) 1) in Q. rewrite <- Q.
  exact (C129_one_thread (replay (fun _ => true) (fun _ => true)) path t lbw fuel (ns, us) (replay_delivers _ _) HT FU).
Qed.
Print Assumptions C140_script.

(** ** Concrete sessions in binary64: two photons of different energies, two threads *)
Definition p_calls (threads : Z) : list (call spec_float) :=
  [SetTime (f64_lit 1 (-15)) (f64_lit 25 (-16));
   SetField "gaussian" (f64_lit 1 0) (f64_lit 8 (-7)) (f64_lit 1 (-14)) (f64_lit 2 (-6)) (f64_lit 0 0) (c_vec 0 0 (-1)) (c_vec 0 0 0);
   SetPhysics "Quantum";
   SetGenerator "photon" "gaussian" (f64_lit 1 (-10)) (f64_lit 1 (-11)) (f64_lit 0 0) (f64_lit 0 0) (f64_lit 0 0) (c_vec 0 0 0) (c_vec 0 0 1);
   BeamOn 2 threads; Get TInput; Get TPhoton].
Definition p_plan (order : list nat) (n t : nat) : list nat * list nat :=
  if Nat.eqb t 2 then (if Nat.eqb n 2 then [1; 1] else [n; 0], order)%nat else (n :: repeat 0 (t - 1), seq 0 t)%nat.
Notation p_ordered order := (@session _ (Num_F64 c_libm) t_engine (Ok c_em) Throw (@ordered _ (Num_F64 c_libm) t_engine 10 (p_plan order)) true (p_calls 2) 0%nat) (only parsing).
Notation p_threaded := (@threaded_session _ (Num_F64 c_libm) t_engine (Ok c_em) Throw 10 (p_calls 2) 0%nat) (only parsing).
Lemma p_fair order : Permutation (seq 0 2) order -> fair (p_plan order).
Proof.
  intros P n t T1. unfold p_plan. destruct (Nat.eqb_spec t 2) as [->|N2]; [destruct (Nat.eqb_spec n 2) as [->|N3]|]; cbn [fst snd].
  - auto.
  - cbn. repeat split; [lia|exact P].
  - cbn [length]. rewrite repeat_length. split; [lia|]. split; [|apply Permutation_refl]. change ((n + list_sum (repeat 0 (t - 1)))%nat = n).
    assert (Q : forall k, list_sum (repeat 0%nat k) = 0%nat) by (induction k; cbn; auto). rewrite Q. lia.
Qed.
Lemma p_tables : exists l1 l2, p_ordered [0%nat; 1%nat] = Ok (l1, 1%nat) /\ p_ordered [1%nat; 0%nat] = Ok (l2, 1%nat) /\ l1 <> l2.
Proof. do 2 eexists. split; [vm_compute; reflexivity|]. split; [vm_compute; reflexivity|]. vm_compute. discriminate. Qed.
Lemma p_has threads : (1 <= threads)%Z -> Forall has_threads (p_calls threads).
Proof. intros L. unfold p_calls. repeat constructor. exact L. Qed.

(** What is shown is not determined by the calls and the generator: the second thread may take the first sample. *)
Theorem C140_one_result_refuted : exists x1 x2, p_threaded (Ok x1) /\ p_threaded (Ok x2) /\ x1 <> x2.
Proof.
  destruct p_tables as (l1 & l2 & A & B & C). exists (l1, 1%nat), (l2, 1%nat). split; [|split; [|congruence]].
  - rewrite <- A. apply C140_any_order; [apply p_fair, Permutation_refl|apply p_has; lia].
  - rewrite <- B. apply C140_any_order; [apply p_fair, perm_swap|apply p_has; lia].
Qed.
Print Assumptions C140_one_result_refuted.

(** a session without threads for the second of these schedules *)
Example C140_case : exists l2 ns us g' ns' us', p_ordered [1%nat; 0%nat] = Ok (l2, 1%nat) /\ p_threaded (Ok (l2, 1%nat)) /\
  delivered t_engine 0%nat ns us g' /\ Forall2 (@Permutation spec_float) ns ns' /\ Permutation us us' /\
  @session _ (Num_F64 c_libm) (@replay _ (Num_F64 c_libm) (fun _ => true) (fun _ => true)) (Ok c_em) Throw
    (@RunManager.serial_loop _ (Num_F64 c_libm) (@replay _ (Num_F64 c_libm) (fun _ => true) (fun _ => true)) 10) false (p_calls 1) (ns', us') = Ok (l2, 1%nat).
Proof.
  destruct p_tables as (_ & l2 & _ & B & _).
  assert (TH : p_threaded (Ok (l2, 1%nat))) by (rewrite <- B; apply C140_any_order; [apply p_fair, perm_swap|apply p_has; lia]).
  destruct (@C140_serialises _ (Num_F64 c_libm) t_engine (Ok c_em) Throw 10 (fun _ => true) (fun _ => true) (p_calls 2) 0%nat (Ok (l2, 1%nat))) as (ns' & us' & R & K).
  - intros n g. cbn. rewrite map_length. apply seq_length.
  - split; reflexivity.
  - apply p_has. lia.
  - exact TH.
  - destruct (K _ eq_refl) as (ns & us & g' & D & P1 & P2). exists l2, ns, us, g', ns', us'. exact (conj B (conj TH (conj D (conj P1 (conj P2 R))))).
Qed.
