(** * Schedules of beamOn on several threads (lemmas for C140) *)
From Coq Require Import String ZArith List Bool Lia Permutation.
From Verif Require Import Num Outcome OutcomeFacts Vec Units Numerics MCTools Particle ParticleList Source SourceFacts Fields Pusher Process Sim Histogram Hdf5 Output
  RunManager RunFacts Threads ThreadFacts ThreadSerial ThreadReplay ThreadProgram ThreadSafe ThreadFail PyThreads PyThreadFacts PySerial.
Import ListNotations.
Local Open Scope list_scope.

Section PySched.
Context {T : Type} `{NT : Num T}.
Variable E : Engine T.

(** a computation that runs alone *)
Fixpoint prun {A} (c : co T A) (s : pyshared E) : res (A * pyshared E) :=
  match c with
  | Now r => let* a := r in Ok (a, s)
  | Draw k => let '(u, g) := e_canon E (py_rng E s) in prun (k u) (mkPy E g (py_src E s) (py_tabs E s))
  | Take k => let* r := take (py_src E s) in prun (k (fst r)) (mkPy E (py_rng E s) (snd r) (py_tabs E s))
  | Count _ _ k => prun k s
  | Store c k => let* t := py_store c (py_tabs E s) in prun k (mkPy E (py_rng E s) (py_src E s) t)
  end.
Lemma prun_bind {A B} (c : co T A) (f : A -> co T B) : forall s, prun (cbind c f) s = let* r := prun c s in prun (f (fst r)) (snd r).
Proof.
  induction c as [r|k IH|k IH|i p k IH|c k IH]; intros s; cbn [cbind prun].
  - destruct r; reflexivity.
  - destruct (e_canon E (py_rng E s)). apply IH.
  - destruct (take (py_src E s)); cbn [bind]; try reflexivity. apply IH.
  - apply IH.
  - destruct (py_store c (py_tabs E s)); cbn [bind]; try reflexivity. apply IH.
Qed.
Lemma prun_still {A} (c : co T A) : still c -> forall g src t, prun c (mkPy E g src t) = let* y := crun E n0 c (solo E g src) in Ok (fst y, mkPy E (sh_rng E (snd y)) src t).
Proof.
  intros S. induction S as [r|k S IH]; intros g src t; cbn [prun crun].
  - destruct r; reflexivity.
  - cbn [solo sh_rng py_rng]. destruct (e_canon E g) as [u g']. apply IH.
Qed.

Lemma act_prun (c : co T unit) s c' s' : py_act E c s = Ok (c', s') -> prun c' s' = prun c s.
Proof.
  destruct c as [r|k|k|i p k|c k]; cbn [py_act prun].
  - destruct r; cbn; try discriminate. intros [= <- <-]. reflexivity.
  - destruct (e_canon E (py_rng E s)). intros [= <- <-]. reflexivity.
  - destruct (take (py_src E s)); cbn; try discriminate. intros [= <- <-]. reflexivity.
  - intros [= <- <-]. reflexivity.
  - destruct (py_store c (py_tabs E s)); cbn; try discriminate. intros [= <- <-]. reflexivity.
Qed.
Lemma act_fails_prun (c : co T unit) s : (forall y, py_act E c s <> Ok y) -> rmap snd (py_act E c s) = rmap snd (prun c s).
Proof.
  destruct c as [r|k|k|i p k|c k]; cbn [py_act prun]; intros N.
  - destruct r; try reflexivity.
  - destruct (e_canon E (py_rng E s)). exfalso. exact (N _ eq_refl).
  - destruct (take (py_src E s)); try reflexivity. exfalso. exact (N _ eq_refl).
  - exfalso. exact (N _ eq_refl).
  - destruct (py_store c (py_tabs E s)); try reflexivity. exfalso. exact (N _ eq_refl).
Qed.
Lemma upd_len {A} (l : list A) i a : length (upd l i a) = length l.
Proof. revert i. induction l as [|b l IH]; intros [|i]; cbn; auto. Qed.
Lemma upd_nth {A} (l : list A) i a b : nth_error l i = Some b -> nth_error (upd l i a) i = Some a.
Proof. revert i. induction l as [|c l IH]; intros [|i] Q; cbn in *; try discriminate; auto. Qed.
Lemma upd_upd {A} (l : list A) i a b : upd (upd l i a) i b = upd l i b.
Proof. revert i. induction l as [|c l IH]; intros [|i]; cbn; auto. now rewrite IH. Qed.

(** one thread after the other *)
Lemma par_alone (c : co T unit) : forall ts t s, nth_error ts t = Some c ->
  match prun c s with
  | Ok (_, s1) => forall x, py_par E (upd ts t (Now (Ok tt))) s1 x -> py_par E ts s x
  | bad => py_par E ts s (rmap snd bad)
  end.
Proof.
  assert (step : forall (c : co T unit) c' s s' ts t, nth_error ts t = Some c -> py_act E c s = Ok (c', s') ->
     (forall ts t s, nth_error ts t = Some c' -> match prun c' s with Ok (_, s1) => forall x, py_par E (upd ts t (Now (Ok tt))) s1 x -> py_par E ts s x | bad => py_par E ts s (rmap snd bad) end) ->
     match prun c s with Ok (_, s1) => forall x, py_par E (upd ts t (Now (Ok tt))) s1 x -> py_par E ts s x | bad => py_par E ts s (rmap snd bad) end).
  { intros c0 c' s s' ts t N A H. specialize (H (upd ts t c') t s' (upd_nth _ _ _ _ N)). rewrite (act_prun _ _ _ _ A) in H.
    destruct (prun c0 s) as [[u s1]| | | |]; try (eapply py_step; eassumption).
    intros x X. eapply py_step; [exact N|exact A|]. apply H. rewrite upd_upd. exact X. }
  assert (fail : forall (c : co T unit) s ts t, nth_error ts t = Some c -> (forall y, py_act E c s <> Ok y) -> (forall y, prun c s <> Ok y) ->
     match prun c s with Ok (_, s1) => forall x, py_par E (upd ts t (Now (Ok tt))) s1 x -> py_par E ts s x | bad => py_par E ts s (rmap snd bad) end).
  { intros c0 s ts t N A NP. pose proof (act_fails_prun c0 s A) as Q. destruct (prun c0 s) as [y| | | |]; [exfalso; exact (NP y eq_refl)|..]; rewrite <- Q; (eapply py_fail; [exact (nth_error_In _ _ N)|exact A|reflexivity]). }
  induction c as [r|k IH|k IH|i p k IH|c k IH]; intros ts t s N.
  - destruct r as [[]| | | |]; [|apply fail; try exact N; cbn; discriminate..].
    cbn [prun bind]. intros x X. eapply py_step; [exact N|reflexivity|exact X].
  - destruct (e_canon E (py_rng E s)) as [u g] eqn:Q. eapply step; [exact N|cbn [py_act]; rewrite Q; reflexivity|]. apply IH.
  - destruct (take (py_src E s)) as [r| | | |] eqn:Q; [eapply step; [exact N|cbn [py_act]; rewrite Q; reflexivity|]; apply IH|..]; (apply fail; [exact N|cbn [py_act]|cbn [prun]]; rewrite Q; discriminate).
  - eapply step; [exact N|reflexivity|]. apply IH.
  - destruct (py_store c (py_tabs E s)) as [r| | | |] eqn:Q; [eapply step; [exact N|cbn [py_act]; rewrite Q; reflexivity|]; apply IH|..]; (apply fail; [exact N|cbn [py_act]|cbn [prun]]; rewrite Q; discriminate).
Qed.

(** with a single thread there is one outcome *)
Lemma par_single c s x : py_par E [c] s x -> x = rmap snd (prun c s).
Proof.
  remember [c] as ts eqn:QT. intros P. revert c QT. induction P as [ts s D|ts s t c c' s' x N A P IH|ts s x c I A ->]; intros c0 ->.
  - rewrite (D c0) by (left; reflexivity). reflexivity.
  - destruct t as [|[|t]]; cbn in N; try discriminate N. injection N as ->. rewrite (IH c' eq_refl). now rewrite (act_prun _ _ _ _ A).
  - destruct I as [->|[]]. apply act_fails_prun. exact A.
Qed.

(** a thread that runs alone does what the loop without OpenMP does *)
Lemma crun_solo {A} (c : co T A) : still c -> forall g src a s', crun E n0 c (solo E g src) = Ok (a, s') -> s' = solo E (sh_rng E s') src.
Proof.
  intros S. induction S as [r|k S IH]; intros g src a s'; cbn [crun].
  - destruct r; cbn; try discriminate. intros [= _ <-]. reflexivity.
  - cbn [solo sh_rng]. destruct (e_canon E g) as [u g']. apply (IH u g').
Qed.
Lemma generate_next s g l s' g' : s_count s <> s_nPart s -> generate_list E s g = Ok (l, s', g') -> s' = next s.
Proof.
  intros NE Q. pose proof (gen_run E s g NE) as R. rewrite Q in R. cbn [bind] in R. apply crun_solo in R; [|apply s_sampled]. injection R as R. exact R.
Qed.
Definition shown {A} (x : A * pyshared E) : tables T * est E := (py_tabs E (snd x), py_rng E (snd x)).
Lemma prun_thread fuel w tEnd src k : forall c g t,
  rmap shown (prun (py_thread fuel w tEnd src 0 k) (mkPy E g (with_count src c) t)) = serial_events E fuel k w tEnd (with_count src c) t g.
Proof.
  induction k as [|k IH]; intros c g t; [reflexivity|]. cbn [serial_events py_thread]. rewrite prun_bind. unfold co_generate. cbn [prun].
  cbn [py_src]. destruct (Z.eq_dec c (s_nPart src)) as [->|NE].
  { unfold take. cbn [with_count s_count s_nPart]. rewrite Z.eqb_refl. cbn [bind rmap].
    replace (generate_list E (with_count src (s_nPart src)) g) with (@Exit (plist (particle T) * source T * est E) 1); [reflexivity|]. unfold generate_list. cbn [with_count s_count s_nPart]. now rewrite Z.eqb_refl. }
  assert (TK : take (with_count src c) = Ok (c, next (with_count src c))).
  { unfold take, next. cbn [with_count s_count s_nPart]. destruct (Z.eqb_spec c (s_nPart src)); [contradiction|reflexivity]. }
  rewrite TK. cbn [bind fst snd py_rng py_tabs].
  match goal with |- context [prun ?x (mkPy E g (next _) t)] => change x with (sampled (with_count src c) (s_count (with_count src c))) end.
  rewrite prun_still by apply s_sampled. rewrite gen_run by exact NE.
  destruct (generate_list E (with_count src c) g) as [[[l s1] g1]| | | |] eqn:GL; cbn [bind fst snd rmap]; try reflexivity.
  apply generate_next in GL; [|exact NE]. subst s1. unfold next. rewrite with_count_twice. cbn [with_count s_count].
  cbn [prun py_store py_tabs py_rng py_src solo sh_rng]. change (pl_items (anon l)) with (pl_items l). change (Z.to_nat (Z.of_nat 0)) with 0%nat.
  destruct (do_pushes 0 t (input_pushes (pl_items l))) as [t1| | | |]; cbn [bind rmap]; try reflexivity.
  rewrite prun_bind, prun_still by apply s_time_loop. rewrite loop_run.
  destruct (time_loop E w [] _ fuel tEnd _) as [st| | | |]; cbn [bind fst snd rmap]; try reflexivity.
  cbn [prun py_store py_tabs py_rng py_src solo sh_rng lo_ev]. change (pl_items (anon (st_ev E st))) with (pl_items (st_ev E st)). change (Z.to_nat (Z.of_nat 0)) with 0%nat.
  destruct (do_pushes 0 t1 (final_pushes (pl_items (st_ev E st)))) as [t2| | | |]; cbn [bind rmap]; try reflexivity. apply IH.
Qed.

Lemma single_loop fuel w src tEnd g x : py_loop E fuel w src 1 tEnd g x <-> x = RunManager.serial_loop E fuel w src 1 tEnd g.
Proof.
  unfold py_loop, RunManager.serial_loop. pose proof (prun_thread fuel w tEnd src (Z.to_nat (s_nPart src)) (s_count src) g (empty_tables 1)) as R. rewrite with_count_same in R.
  split.
  - intros (ks & y & L & KS & P & ->). destruct ks as [|k [|k2 ks]]; try discriminate L. cbn in KS. rewrite Nat.add_0_r in KS. subst k. cbn in P.
    apply par_single in P. subst y. rewrite <- R. destruct (prun _ _); reflexivity.
  - intros ->. exists [Z.to_nat (s_nPart src)], (rmap snd (prun (py_thread fuel w tEnd src 0 (Z.to_nat (s_nPart src))) (mkPy E g src (empty_tables 1)))).
    split; [reflexivity|]. split; [cbn; lia|]. split; [|rewrite <- R; destruct (prun _ _); reflexivity].
    pose proof (par_alone (py_thread fuel w tEnd src 0 (Z.to_nat (s_nPart src))) [py_thread fuel w tEnd src 0 (Z.to_nat (s_nPart src))] 0 (mkPy E g src (empty_tables 1)) eq_refl) as Q.
    change (py_threads fuel w tEnd src [Z.to_nat (s_nPart src)]) with [py_thread fuel w tEnd src 0 (Z.to_nat (s_nPart src))].
    destruct (prun _ _) as [[[] s1]| | | |]; try exact Q. apply Q. cbn [rmap snd bind]. apply py_end. intros c [<-|[]]. reflexivity.
Qed.

(** all work on the first of several threads *)
Lemma idle_threads fuel w tEnd src n : forall o c, In c (map (fun x => py_thread fuel w tEnd src (fst x) (snd x)) (combine (seq o n) (repeat 0%nat n))) -> c = Now (Ok tt).
Proof. induction n as [|n IH]; intros o c; cbn; [contradiction|]. intros [<-|I]; [reflexivity|]. exact (IH _ _ I). Qed.
Lemma first_thread fuel w src threads tEnd g : (1 <= threads)%nat -> py_loop E fuel w src threads tEnd g (RunManager.serial_loop E fuel w src threads tEnd g).
Proof.
  intros L1. unfold py_loop, RunManager.serial_loop. set (n := Z.to_nat (s_nPart src)). pose proof (prun_thread fuel w tEnd src n (s_count src) g (empty_tables threads)) as R. rewrite with_count_same in R.
  destruct threads as [|m]; [lia|]. exists (n :: repeat 0%nat m), (rmap snd (prun (py_thread fuel w tEnd src 0 n) (mkPy E g src (empty_tables (S m))))).
  split; [cbn; now rewrite repeat_length|]. split. { change ((n + list_sum (repeat 0 m))%nat = n). assert (Q : list_sum (repeat 0%nat m) = 0%nat) by (clear; induction m; cbn; auto). lia. }
  split; [|rewrite <- R; destruct (prun _ _); reflexivity].
  unfold py_threads. cbn [length seq combine map fst snd]. rewrite repeat_length. set (rest := map _ _).
  pose proof (par_alone (py_thread fuel w tEnd src 0 n) (py_thread fuel w tEnd src 0 n :: rest) 0 (mkPy E g src (empty_tables (S m))) eq_refl) as Q.
  destruct (prun _ _) as [[[] s1]| | | |]; try exact Q. apply Q. cbn [rmap snd bind]. apply py_end. intros c [<-|I]; [reflexivity|]. exact (idle_threads _ _ _ _ _ _ _ I).
Qed.


(** the threads run whole, in a given order *)
Fixpoint run_threads (order : list nat) (ts : list (co T unit)) (s : pyshared E) : res (pyshared E) :=
  match order with
  | [] => Ok s
  | t :: r => match nth_error ts t with
              | Some c => let* y := prun c s in run_threads r (upd ts t (Now (Ok tt))) (snd y)
              | None => run_threads r ts s
              end
  end.
Lemma par_order order : forall ts s, (forall t c, nth_error ts t = Some c -> In t order \/ c = Now (Ok tt)) -> py_par E ts s (run_threads order ts s).
Proof.
  induction order as [|t r IH]; intros ts s A; cbn [run_threads].
  - apply py_end. intros c I. apply In_nth_error in I as (t & N). destruct (A t c N) as [[]|Q]. exact Q.
  - destruct (nth_error ts t) as [c|] eqn:N.
    + pose proof (par_alone c ts t s N) as P. destruct (prun c s) as [[u s1]| | | |]; cbn [bind snd rmap] in *; try exact P. apply P. apply IH.
      intros t' c' N'. destruct (Nat.eq_dec t t') as [->|NE].
      * rewrite (upd_nth _ _ _ _ N) in N'. right. congruence.
      * rewrite nth_error_upd_other in N' by exact NE. destruct (A t' c' N') as [[I|I]|Q]; [contradiction|left; exact I|right; exact Q].
    + apply IH. intros t' c' N'. destruct (A t' c' N') as [[I|I]|Q]; [congruence|left; exact I|right; exact Q].
Qed.
End PySched.
