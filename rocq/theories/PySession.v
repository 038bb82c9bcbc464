(** * Sessions of the Python module with threads (lemmas for C140) *)
From Coq Require Import String ZArith List Bool Lia Permutation.
From Verif Require Import Num Outcome OutcomeFacts Vec Units Numerics MCTools Particle ParticleList Source SourceFacts Fields Pusher Process Sim
  Program RunManager RunFacts Threads ThreadFacts ThreadSerial ThreadReplay ThreadProgram ThreadSafe PyThreads PyThreadFacts PySerial PropsThreads.
From Verif Require FileParser.
Import ListNotations.
Local Open Scope string_scope.
Local Open Scope list_scope.

Section PySession.
Context {T : Type} `{NT : Num T}.
Variable E : Engine T.
Variables dom domn : T -> bool.
Variable load_em : res (em_tables T).
Variable load_bw : res (bw_tables T).
Variable fuel : nat.
Notation RE := (replay dom domn).
Hypothesis DL : delivers E.
Hypothesis DI : draws_in dom domn E.

(** the calls with one thread each *)
Definition one_thread (c : call T) : call T := match c with BeamOn n t => BeamOn n 1 | _ => c end.
Definition has_threads (c : call T) : Prop := match c with BeamOn _ t => (1 <= t)%Z | _ => True end.

(** managers that differ in how the vectors of the tables are cut *)
Definition with_tables (t : tables T) (m : manager T) : manager T := with_pointers (m_field m) (m_pusher m) (m_generator m) (m_lost m) t m.
Definition joined (t t' : tables T) : Prop := forall tb, concat (of_table tb t') = concat (of_table tb t).
Definition alike (m m' : manager T) : Prop := exists t', m' = with_tables t' m /\ joined (m_tables m) t'.
Lemma alike_refl m : alike m m.
Proof. exists (m_tables m). split; [destruct m; reflexivity|]. intros tb. reflexivity. Qed.

Notation do_threaded loop := (do_call E load_em load_bw loop true).
Notation do_serial := (do_call RE load_em load_bw (RunManager.serial_loop RE fuel) false).

Lemma source_fresh m n g s g1 : build_source E m n g = Ok (s, g1) -> fresh s /\
  exists ns us, delivered E g ns us g1 /\ forall sg, arranges sg s -> exists ns' us', Forall2 (@Permutation T) ns ns' /\ Permutation us us' /\
    forall nr ur, build_source RE m n (ns' ++ nr, us' ++ ur) = Ok (shuffle sg s, (nr, ur)).
Proof.
  unfold build_source. destruct (m_genPar m) as [q|]; [|discriminate]. intros Q. injection Q as Q.
  assert (B : (0 <= u32 n < 2 ^ 32)%Z) by (apply Z.mod_pos_bound; reflexivity). split.
  - pose proof (new_source_wf E (g_type q) (g_dist q) (u32 n) (g_energy1 q) (g_energy2 q) (g_radius q) (g_duration q) (g_divergence q) (g_position q) (g_direction q) false g DL B) as W.
    rewrite Q in W. cbv zeta in W. cbn [fst] in W. destruct W as (W1 & W2 & _). unfold wf_source in W1. unfold fresh. tauto.
  - set (p := FileParser.mkParticle (u32 n) "" (g_type q) (g_dist q) (g_position q) (g_direction q) (g_energy1 q) (g_energy2 q) (g_radius q) (g_divergence q) (g_duration q) false).
    destruct (source_replay E dom domn (proj1 DI) (proj2 DI) DL false p g s g1) as (ns & us & D & R); [cbn; lia|exact Q|]. exists ns, us. split; [exact D|].
    intros sg AR. destruct (R sg AR) as (ns' & us' & P1 & P2 & P3). exists ns', us'. split; [exact P1|]. split; [exact P2|]. intros nr ur. f_equal. exact (P3 nr ur).
Qed.

Lemma call_replay c m m' g loop : alike m m' -> has_threads c -> py_possible E load_em load_bw fuel c m g loop ->
  (exists m1 g1 sn, do_threaded loop c m g = Ok (m1, g1, sn) /\ exists ns us ns' us' m1', delivered E g ns us g1 /\ Forall2 (@Permutation T) ns ns' /\ Permutation us us' /\ alike m1 m1' /\
     forall nr ur, do_serial (one_thread c) m' (ns' ++ nr, us' ++ ur) = Ok (m1', (nr, ur), sn)) \/
  ((forall v, do_threaded loop c m g <> Ok v) /\ exists ns' us', quietly (do_serial (one_thread c) m' (ns', us')) = quietly (do_threaded loop c m g)).
Proof.
  intros (t' & -> & JT) HT PO. destruct c as [a b|ty a b c d e s f|p|ty di a b c d e p q|f|b|n t|tb].
  1-6: left; eexists _, g, Nothing; (split; [reflexivity|]); exists [], [], [], []; eexists; (split; [constructor|]); (split; [constructor|]); (split; [constructor|]); (split; [|intros; reflexivity]);
       exists t'; (split; [|exact JT || (unfold set_field, set_physics, set_sample_fraction; repeat destruct (_ || _)%bool; repeat destruct (_ && _)%bool; exact JT)]);
       destruct m; try reflexivity; unfold set_field, set_physics, set_sample_fraction; repeat destruct (_ || _)%bool; repeat destruct (_ && _)%bool; reflexivity.
  - cbn [has_threads] in HT. cbn [one_thread do_call]. unfold beam_on. cbn [negb andb Z.eqb Pos.eqb].
    change (m_pusher (with_tables t' m)) with (m_pusher m). change (m_generator (with_tables t' m)) with (m_generator m). change (m_field (with_tables t' m)) with (m_field m).
    change (set_up (with_tables t' m)) with (set_up m). change (build_world load_em load_bw (with_tables t' m)) with (build_world load_em load_bw m).
    destruct (delete (m_pusher m)) as [pu| | | |]; cbn [bind]; try (right; split; [discriminate|]; exists [], []; reflexivity).
    destruct (delete (m_generator m)) as [ge| | | |]; cbn [bind]; try (right; split; [discriminate|]; exists [], []; reflexivity).
    destruct (delete (m_field m)) as [fi| | | |]; cbn [bind]; try (right; split; [discriminate|]; exists [], []; reflexivity).
    destruct (set_up m); cbn [bind fst snd].
    2:{ left. eexists _, g, Nothing. split; [reflexivity|]. exists [], [], [], []. eexists. do 3 (split; [constructor|]). split; [|intros; reflexivity]. exists t'. split; [reflexivity|exact JT]. }
    destruct (build_world load_em load_bw m) as [w| | | |] eqn:BW; cbn [bind]; try (right; split; [discriminate|]; exists [], []; reflexivity).
    destruct (build_source E m n g) as [[s g1]| | | |] eqn:BS; cbn [bind fst snd].
    2-5: right; (split; [discriminate|]); exists [], []; unfold build_source in *; change (m_genPar (with_tables t' m)) with (m_genPar m); destruct (m_genPar m); try discriminate BS; cbn [bind]; try rewrite BS; try (injection BS as <-); reflexivity.
    destruct (t <? 0)%Z eqn:TN; [apply Z.ltb_lt in TN; lia|]. change (1 <? 0)%Z with false. cbv iota. change (Z.to_nat 1) with 1%nat.
    destruct (source_fresh _ _ _ _ _ BS) as (FR & ns & us & D & R).
    specialize (PO w s g1 BW BS ltac:(lia)). change (m_timeEnd (with_tables t' m)) with (m_timeEnd m).
    destruct (loop_replay dom domn fuel w (m_timeEnd m) E (proj1 DI) s (Z.to_nat t) g1 _ FR PO) as [(tt1 & g2 & sg & vs & vs' & t2 & -> & AR & D2 & PV & JT2 & R2)|(NK & sg & vs' & AR & R2)]; destruct (R sg AR) as (ns' & us' & P1 & P2 & P3).
    + left. cbn [bind fst snd]. eexists _, g2, Nothing. split; [reflexivity|]. exists (ns ++ []), (us ++ vs), ns', (us' ++ vs'). eexists.
      split; [eapply delivered_app; [exact D|apply drawn_delivered; exact D2]|]. split; [rewrite app_nil_r; exact P1|]. split; [apply Permutation_app; assumption|].
      split; cycle 1.
      { intros nr ur. change (build_source RE (with_tables t' m)) with (build_source RE m). rewrite <- app_assoc, P3. cbn [bind fst snd]. rewrite R2. cbn [bind fst snd]. reflexivity. }
      exists t2. split; [reflexivity|exact JT2].
    + right. set (x := loop w s (Z.to_nat t) (m_timeEnd m) g1) in *. split. { intros v Q. destruct x; try discriminate Q. exact (NK _ eq_refl). }
      exists ns', (us' ++ vs'). change (build_source RE (with_tables t' m)) with (build_source RE m). rewrite <- (app_nil_r ns'). rewrite P3. cbn [bind fst snd].
      specialize (R2 [] []). rewrite app_nil_r in R2. destruct x; [exfalso; exact (NK _ eq_refl)|..]; destruct (RunManager.serial_loop RE fuel w (shuffle sg s) 1 (m_timeEnd m) ([], vs')); cbn in R2; try discriminate R2; cbn; congruence.
  - left. eexists m, g, _. split; [reflexivity|]. exists [], [], [], []. eexists. do 3 (split; [constructor|]). split; [exists t'; split; [reflexivity|exact JT]|].
    intros nr ur. cbn [one_thread do_call app]. unfold get_table, to_array. change (m_tables (with_tables t' m)) with t'. now rewrite JT.
Qed.

Lemma calls_replay cs : Forall has_threads cs -> forall m m' g x, alike m m' -> threaded_calls E load_em load_bw fuel cs m g x ->
  (exists mf gf sn, x = Ok (mf, gf, sn) /\ exists ns us ns' us' mf', delivered E g ns us gf /\ Forall2 (@Permutation T) ns ns' /\ Permutation us us' /\ alike mf mf' /\
     forall nr ur, do_calls RE load_em load_bw (RunManager.serial_loop RE fuel) false (map one_thread cs) m' (ns' ++ nr, us' ++ ur) = Ok (mf', (nr, ur), sn)) \/
  ((forall v, x <> Ok v) /\ exists ns' us', quietly (do_calls RE load_em load_bw (RunManager.serial_loop RE fuel) false (map one_thread cs) m' (ns', us')) = quietly x).
Proof.
  intros HT. induction HT as [|c cs HC HT IH]; intros m m' g x AL X; cbn [threaded_calls map do_calls] in *.
  - left. exists m, g, []. split; [exact X|]. exists [], [], [], [], m'. do 3 (split; [constructor|]). split; [exact AL|]. reflexivity.
  - destruct X as (loop & PO & X). destruct (call_replay c m m' g loop AL HC PO) as [(m1 & g1 & sn & Q & ns & us & ns' & us' & m1' & D & P1 & P2 & AL1 & R)|(NK & ns' & us' & R)].
    + rewrite Q in X. cbn [fst snd] in X. destruct X as (z & Z & ->).
      destruct (IH m1 m1' g1 z AL1 Z) as [(mf & gf & sns & -> & ms & vs & ms' & vs' & mf' & D2 & Q1 & Q2 & ALF & R2)|(NK & ms' & vs' & R2)].
      * left. cbn [bind fst snd]. exists mf, gf, (sn :: sns). split; [reflexivity|]. exists (ns ++ ms), (us ++ vs), (ns' ++ ms'), (us' ++ vs'), mf'.
        split; [eapply delivered_app; eassumption|]. split; [apply Forall2_app; assumption|]. split; [apply Permutation_app; assumption|]. split; [exact ALF|].
        intros nr ur. rewrite <- !app_assoc, R. cbn [bind fst snd]. rewrite R2. reflexivity.
      * right. split. { intros v Q'. destruct z; try discriminate Q'. exact (NK _ eq_refl). }
        exists (ns' ++ ms'), (us' ++ vs'). rewrite R. cbn [bind fst snd]. destruct z; [exfalso; exact (NK _ eq_refl)|..];
          destruct (do_calls RE load_em load_bw (RunManager.serial_loop RE fuel) false (map one_thread cs) m1' (ms', vs')); cbn in R2; try discriminate R2; cbn; congruence.
    + right. destruct (do_threaded loop c m g) as [v| | | |]; [exfalso; exact (NK v eq_refl)|..]; subst x; (split; [discriminate|]); exists ns', us';
        destruct (do_serial (one_thread c) m' (ns', us')); cbn in R; try discriminate R; cbn; congruence.
Qed.
End PySession.
