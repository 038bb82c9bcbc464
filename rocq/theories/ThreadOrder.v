(** * Schedules that run whole iterations one after the other *)
From Coq Require Import String ZArith List Bool Lia Permutation.
From Verif Require Import Num Outcome OutcomeFacts Vec Units Numerics MCTools Particle ParticleList Source SourceFacts Fields Pusher Process Sim Histogram Hdf5
  Output Text Ini IniReader Program Threads ThreadFacts ThreadSerial ThreadReplay.
From Verif Require FileParser.
Import ListNotations.
Local Open Scope string_scope.
Local Open Scope list_scope.

Section Order.
Context {T : Type} `{Num T}.
Variable E : Engine T.
Variable garbage : T.

(** Letting iteration [t] run to its end. *)
Lemma par_whole c : forall ts t s x, nth_error ts t = Some c ->
  match crun E garbage c s with Ok (_, s1) => par E garbage (upd ts t (Now (Ok tt))) s1 x | bad => x = rmap snd bad end -> par E garbage ts s x.
Proof.
  induction c as [r|k IH|k IH|i p k IH|c k IH]; intros ts t s x N P; cbn [crun] in P.
  - destruct r as [[]| | | |]; cbn [bind] in P; [rewrite (upd_same ts t _ N) in P; exact P|..];
      (eapply par_fail; [exact (nth_error_In _ _ N)|cbn; discriminate|cbn; exact P]).
  - destruct (e_canon E (sh_rng E s)) as [u g] eqn:X. eapply par_step; [exact N|cbn [act]; rewrite X; reflexivity|].
    eapply IH; [apply nth_error_upd_same; exact (nth_error_len _ _ _ N)|]. rewrite upd_upd. exact P.
  - destruct (take (sh_src E s)) as [r| | | |] eqn:X; cbn [bind] in P;
      [|eapply par_fail; [exact (nth_error_In _ _ N)|cbn [act]; rewrite X; cbn; discriminate|cbn [act]; rewrite X; exact P]..].
    eapply par_step; [exact N|cbn [act]; rewrite X; reflexivity|]. eapply IH; [apply nth_error_upd_same; exact (nth_error_len _ _ _ N)|]. rewrite upd_upd. exact P.
  - destruct (count i p (sh_hists E s)) as [r| | | |] eqn:X; cbn [bind] in P;
      [|eapply par_fail; [exact (nth_error_In _ _ N)|cbn [act]; rewrite X; cbn; discriminate|cbn [act]; rewrite X; exact P]..].
    eapply par_step; [exact N|cbn [act]; rewrite X; reflexivity|]. eapply IH; [apply nth_error_upd_same; exact (nth_error_len _ _ _ N)|]. rewrite upd_upd. exact P.
  - destruct (store garbage c (sh_om E s)) as [r| | | |] eqn:X; cbn [bind] in P;
      [|eapply par_fail; [exact (nth_error_In _ _ N)|cbn [act]; rewrite X; cbn; discriminate|cbn [act]; rewrite X; exact P]..].
    eapply par_step; [exact N|cbn [act]; rewrite X; reflexivity|]. eapply IH; [apply nth_error_upd_same; exact (nth_error_len _ _ _ N)|]. rewrite upd_upd. exact P.
Qed.

(** Iterations in the given order. *)
Fixpoint run_order (its : list (co T unit)) (order : list nat) (s : shared E) : res (shared E) :=
  match order with
  | [] => Ok s
  | t :: r => let* x := crun E garbage (nth t its (ret tt)) s in run_order its r (snd x)
  end.
Lemma order_par its order : forall ts s, NoDup order -> length ts = length its ->
  (forall t, In t order -> nth_error ts t = Some (nth t its (ret tt))) -> (forall t c, ~ In t order -> nth_error ts t = Some c -> c = Now (Ok tt)) ->
  par E garbage ts s (run_order its order s).
Proof.
  induction order as [|t order IH]; intros ts s ND L A B; cbn [run_order].
  - apply par_end. intros c I. apply In_nth_error in I as (t & I). eapply B; eauto.
  - apply NoDup_cons_iff in ND as [N1 N2]. pose proof (A t (or_introl eq_refl)) as NT. eapply par_whole; [exact NT|].
    destruct (crun E garbage (nth t its (ret tt)) s) as [[u s1]| | | |]; cbn [bind snd rmap]; try reflexivity.
    apply IH; [exact N2|rewrite length_upd; exact L| |].
    + intros j J. rewrite nth_error_upd_other by (intros ->; contradiction). apply A. now right.
    + intros j c J X. destruct (Nat.eq_dec t j) as [<-|D]; [rewrite nth_error_upd_same in X by exact (nth_error_len _ _ _ NT); now injection X as <-|].
      rewrite nth_error_upd_other in X by exact D. apply (B j c); [|exact X]. intros [Q|Q]; contradiction.
Qed.
Lemma order_all its order s : Permutation (seq 0 (length its)) order -> par E garbage its s (run_order its order s).
Proof.
  intros P. apply order_par; [exact (Permutation_NoDup P (seq_NoDup _ _))|reflexivity| |].
  - intros t I. apply (Permutation_in _ (Permutation_sym P)) in I. apply in_seq in I. apply nth_error_nth'. lia.
  - intros t c N X. exfalso. apply N. apply (Permutation_in _ P). apply in_seq. apply nth_error_len in X. lia.
Qed.

Lemma crun_plan {A} (src : source T) (c : co T A) : forall s a s', crun E garbage c s = Ok (a, s') -> (exists c0, sh_src E s = with_count src c0) ->
  plan_of (sh_hists E s') = plan_of (sh_hists E s) /\ exists c', sh_src E s' = with_count src c'.
Proof.
  induction c as [r|k IH|k IH|i p k IH|c k IH]; intros s a s' R X; cbn [crun] in R.
  - apply bind_ok in R as (b & -> & R). injection R as <- <-. auto.
  - destruct (e_canon E (sh_rng E s)). apply IH in R; [exact R|exact X].
  - apply bind_ok in R as ([d s1] & R1 & R). apply IH in R; [exact R|]. destruct X as (c0 & X). cbn [sh_src snd]. unfold take in R1. cbv zeta in R1. destruct (_ =? _)%Z; [discriminate|].
    injection R1 as <- <-. rewrite X. eexists. apply with_count_twice.
  - apply bind_ok in R as (hs & R1 & R). apply IH in R; [|exact X]. cbn [sh_hists] in R. rewrite (count1_plan (i, p) _ _ R1) in R. exact R.
  - apply bind_ok in R as (o & R1 & R). apply IH in R; [exact R|exact X].
Qed.

(** In the order of their numbers: the serial loop. *)
Lemma run_order_serial w pl fuel tEnd output tracking src n : forall k js its (s : shared E) c, its = map (fun j => iteration w pl fuel tEnd output tracking src (Z.of_nat j)) (seq 0 n) ->
  js = seq k (n - k) -> sh_src E s = with_count src c -> plan_of (sh_hists E s) = pl ->
  rmap (prog_of E) (run_order its js s) = source_events E garbage fuel w tEnd output tracking (n - k) (Z.of_nat k) (sh_src E s) (prog_of E s).
Proof.
  intros k js its s c ->. remember (n - k)%nat as m eqn:M. revert k js s c M. induction m as [|m IH]; intros k js s c M -> S1 P; cbn [seq run_order source_events]; [reflexivity|].
  replace (nth k (map (fun j => iteration w pl fuel tEnd output tracking src (Z.of_nat j)) (seq 0 n)) (ret tt)) with (iteration w pl fuel tEnd output tracking src (Z.of_nat k)).
  2:{ rewrite (nth_indep _ (ret tt) (iteration w pl fuel tEnd output tracking src (Z.of_nat 0))) by (rewrite map_length, seq_length; lia). rewrite (map_nth (fun j => iteration w pl fuel tEnd output tracking src (Z.of_nat j))). rewrite seq_nth by lia. reflexivity. }
  pose proof (run_iteration E garbage w pl fuel tEnd output tracking src c (Z.of_nat k) s S1 P) as R. rewrite R.
  destruct (one_event E garbage fuel w tEnd output tracking (Z.of_nat k) (sh_src E s) (prog_of E s)) as [[src1 p1]| | | |] eqn:X; cbn [bind fst snd rmap]; try reflexivity.
  cbn [bind fst snd] in R. replace (Z.of_nat k + 1)%Z with (Z.of_nat (S k)) by lia. destruct p1 as [o1 h1 g1]. cbn [pg_om pg_hists pg_rng] in *.
  destruct (crun_plan src _ s _ _ R) as [P1 (c' & P2)]; [eauto|]. cbn [sh_hists sh_src] in P1, P2.
  apply (IH (S k) _ (mkSh E g1 src1 h1 o1) c'); [lia|reflexivity|exact P2|cbn [sh_hists]; congruence].
Qed.
End Order.
