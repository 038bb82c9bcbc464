(** * beamOn on several threads: the serial run with the same events *)
From Coq Require Import String ZArith List Bool Lia Permutation.
From Verif Require Import Num Outcome OutcomeFacts Vec Units Numerics MCTools Particle ParticleList Source SourceFacts Fields Pusher Process Sim Histogram Hdf5 Output
  RunManager RunFacts Threads ThreadFacts ThreadSerial ThreadReplay ThreadProgram ThreadSafe ThreadFail PyThreads PyThreadFacts.
Import ListNotations.
Local Open Scope list_scope.

Section PySerial.
Context {T : Type} `{NT : Num T}.

(** the time loop without histograms *)
Section Unit.
Variable E : Engine T.
Definition rehist {S1 S2} (st : state E S1) (h : S2) : state E S2 := mkSt (st_time E st) (st_ev E st) (st_rng E st) (st_hc E st) h.
Lemma loop_rehist {S1 S2} (f1 : nat -> T -> list (particle T) -> S1 -> res S1) (f2 : nat -> T -> list (particle T) -> S2 -> res S2) w fuel tEnd : forall st h,
  time_loop E w [] f2 fuel tEnd (rehist st h) = let* st' := time_loop E w [] f1 fuel tEnd st in Ok (rehist st' h).
Proof.
  induction fuel as [|f IH]; intros st h; cbn [time_loop]; change (st_time E (rehist st h)) with (st_time E st); destruct (nltb _ _); try reflexivity.
  unfold time_step, hist_check. change (st_hc E (rehist st h)) with (st_hc E st).
  replace (nth_error (@nil T) (st_hc E st)) with (@None T) by (destruct (st_hc E st); reflexivity). cbn [bind].
  change (st_ev E (rehist st h)) with (st_ev E st). change (st_rng E (rehist st h)) with (st_rng E st). destruct (pass E w (st_ev E st) (st_rng E st)) as [[l g]| | | |]; cbn [bind]; try reflexivity.
  rewrite <- IH. reflexivity.
Qed.
Definition no_output : om T := mkOM file_new None false false false [] (Output.mkTab [] []) (Output.mkTab [] []) (Output.mkTab [] []) [].
Definition solo (g : est E) (s : source T) : shared E := mkSh E g s [] no_output.
Notation nohist := (fun _ _ _ (h : unit) => Ok h).
Variable fuel : nat.
Variable w : world T.
Variable tEnd : T.
(** GenerateList and the time loop in terms of Threads.v *)
Definition next (s : source T) : source T := with_count s (u32 (s_count s + 1)).
Lemma gen_run s g : s_count s <> s_nPart s ->
  crun E n0 (sampled s (s_count s)) (solo g (next s)) = let* r := generate_list E s g in let '(l, s', g') := r in Ok (anon l, solo g' s').
Proof.
  intros NE. pose proof (run_generate E n0 s (s_count s) (solo g s)) as R. cbn [solo sh_src sh_rng] in R. rewrite with_count_same in R. specialize (R eq_refl).
  unfold co_generate in R. cbn [crun] in R. unfold take in R. change (sh_src E (solo g s)) with s in R. change (sh_rng E (solo g s)) with g in R. cbv zeta in R. destruct (s_count s =? s_nPart s)%Z eqn:Q; [apply Z.eqb_eq in Q; contradiction|]. cbn [bind fst snd] in R.
  exact R.
Qed.
Lemma loop_run l g s : crun E n0 (co_time_loop w [] fuel tEnd (mkLoc n0 (anon l) 0)) (solo g s) =
  let* st := time_loop E w [] nohist fuel tEnd (mkSt (E := E) n0 l g 0 tt) in Ok (mkLoc (st_time E st) (anon (st_ev E st)) (st_hc E st), solo (st_rng E st) s).
Proof.
  pose proof (run_time_loop E n0 w [] tEnd fuel (rehist (mkSt (E := E) n0 l g 0 tt) []) (solo g s) eq_refl) as R.
  unfold loc, glo, rehist in R. cbn [st_time st_ev st_hc st_rng st_hist solo sh_src sh_om map] in R. unfold solo at 1. rewrite R. clear R. unfold back2.
  pose proof (loop_rehist nohist hist_fill w fuel tEnd (mkSt (E := E) n0 l g 0 tt) (@nil (hist T))) as Q. unfold rehist at 1 in Q. cbn [st_time st_ev st_hc st_rng st_hist] in Q. rewrite Q.
  destruct (time_loop E w [] nohist fuel tEnd _) as [st| | | |]; reflexivity.
Qed.

End Unit.

Variables dom domn : T -> bool.
Notation RE := (replay dom domn).
Variable fuel : nat.
Variable w : world T.
Variable tEnd : T.
Notation inside := (Forall (fun u => dom u = true)).

Lemma fails_quietly {A B} (r : res A) (r' : res B) : fails r r' -> quietly r = quietly r' /\ (forall a, r <> Ok a) /\ (forall b, r' <> Ok b).
Proof. destruct r, r'; cbn; intros F; try contradiction; subst; repeat split; discriminate. Qed.
Lemma walk_fails {A} (c : co T A) t d : walk c t d -> forall r, d = Now r -> (forall a, r <> Ok a) -> still c -> inside (tr_d t) -> forall ns rest s,
  quietly (crun RE n0 c (solo RE (ns, tr_d t ++ rest) s)) = quietly r.
Proof.
  intros W. induction W as [c|k u t d W IH|k c t d W IH|i p k t d W IH|c k t d W IH]; intros r Q NR ST DD ns rest s; [|inversion ST; subst..].
  - subst c. destruct r; reflexivity.
  - cbn [tapp tr_d app] in DD |- *. apply Forall_cons_iff in DD as [D1 D2]. cbn [crun solo sh_rng replay e_canon snd fst]. rewrite D1. apply (IH r); auto.
Qed.
Lemma tr_runs {A} (c : co T A) a t : tr c a t -> still c -> inside (tr_d t) -> forall ns rest s, crun RE n0 c (solo RE (ns, tr_d t ++ rest) s) = Ok (a, solo RE (ns, rest) s).
Proof.
  intros X ST DD ns rest s. destruct (still_tr _ _ _ ST X) as (Q1 & Q2 & Q3). apply (replay_tr dom domn n0 c a t X DD); cbn [solo sh_rng sh_src sh_hists sh_om]; rewrite ?Q1, ?Q2, ?Q3; try reflexivity. constructor.
Qed.

(** one event of the serial loop *)
Lemma event_runs (src s : source T) (e : pyev) : event_tr fuel w tEnd src e -> inside (ev_d e) -> sampled s (s_count s) = sampled src (ev_c e) -> s_count s <> s_nPart s ->
  forall t, RunFacts.shape 1 t -> exists t', RunFacts.shape 1 t' /\ (forall tb, buffer tb t' 0 = buffer tb t 0 ++ values_of tb (ev_pushes e)) /\
    forall n ns rest, serial_events RE fuel (S n) w tEnd s t (ns, ev_d e ++ rest) = serial_events RE fuel n w tEnd (next s) t' (ns, rest).
Proof.
  intros (t1 & t2 & st & X1 & X2 & QF & QD) DD SQ NE t SH. rewrite QD in *. apply Forall_app in DD as [DD1 DD2].
  destruct (do_pushes_ok 1 0 (input_pushes (pl_items (ev_l e))) t SH) as (ta & P1 & S1 & B1); [lia|].
  destruct (do_pushes_ok 1 0 (final_pushes (pl_items (ev_f e))) ta S1) as (tb' & P2 & S2 & B2); [lia|].
  exists tb'. split; [exact S2|]. split. { intros tb. rewrite B2, B1. cbn [Nat.eqb]. unfold ev_pushes. rewrite values_app, app_assoc. reflexivity. }
  intros n ns rest. cbn [serial_events].
  pose proof (tr_runs _ _ _ X1 (s_sampled _ _) DD1 ns (tr_d t2 ++ rest) (next s)) as R1. rewrite <- SQ, gen_run in R1 by exact NE. rewrite <- app_assoc.
  destruct (generate_list RE s (ns, tr_d t1 ++ tr_d t2 ++ rest)) as [[[l s'] g']| | | |]; cbn [bind] in R1; try discriminate R1. unfold solo in R1. injection R1 as Q1 -> ->. cbn [bind].
  rewrite <- Q1 in P1. cbn [anon pl_items] in P1. rewrite P1. cbn [bind].
  pose proof (tr_runs _ _ _ X2 (s_time_loop _ _ _ _) DD2 ns rest (next s)) as R2. rewrite <- Q1, loop_run in R2.
  destruct (time_loop RE w [] _ fuel tEnd _) as [st'| | | |]; cbn [bind] in R2; try discriminate R2. unfold solo in R2. injection R2 as R2 R3. cbn [bind]. rewrite <- R2 in QF. cbn [lo_ev] in QF. rewrite QF in P2. cbn [anon pl_items] in P2. rewrite P2. cbn [bind]. rewrite R3. reflexivity.
Qed.
Lemma event_runs_bad {B} (src s : source T) c ds (r : res B) : event_fails fuel w tEnd src c ds r -> inside ds -> sampled s (s_count s) = sampled src c -> s_count s <> s_nPart s ->
  forall t n ns rest, RunFacts.shape 1 t -> quietly (serial_events RE fuel (S n) w tEnd s t (ns, ds ++ rest)) = quietly r.
Proof.
  intros EF DD SQ NE t n ns rest SH. cbn [serial_events]. destruct EF as [(t1 & r1 & W & F & ->)|(l & t1 & t2 & r2 & X1 & W & F & ->)].
  - destruct (fails_quietly _ _ F) as (Q & NR & _). pose proof (walk_fails _ _ _ W r1 eq_refl NR (s_sampled _ _) DD ns rest (next s)) as R1. rewrite <- SQ, gen_run in R1 by exact NE.
    rewrite <- Q, <- R1. destruct (generate_list RE s _) as [[[l s'] g']| | | |]; try reflexivity. exfalso. destruct r1; try discriminate R1. exact (NR _ eq_refl).
  - apply Forall_app in DD as [DD1 DD2]. destruct (fails_quietly _ _ F) as (Q & NR & _).
    pose proof (tr_runs _ _ _ X1 (s_sampled _ _) DD1 ns (tr_d t2 ++ rest) (next s)) as R1. rewrite <- SQ, gen_run in R1 by exact NE. rewrite <- app_assoc.
    destruct (generate_list RE s (ns, tr_d t1 ++ tr_d t2 ++ rest)) as [[[l' s'] g']| | | |]; cbn [bind] in R1; try discriminate R1. unfold solo in R1. injection R1 as Q1 -> ->. cbn [bind].
    destruct (do_pushes_ok 1 0 (input_pushes (pl_items l')) t SH) as (ta & P1 & S1 & B1); [lia|]. rewrite P1. cbn [bind].
    pose proof (walk_fails _ _ _ W r2 eq_refl NR (s_time_loop _ _ _ _) DD2 ns rest (next s)) as R2. rewrite <- Q1, loop_run in R2. rewrite <- Q, <- R2.
    destruct (time_loop RE w [] _ fuel tEnd _) as [st'| | | |]; try reflexivity. exfalso. destruct r2; try discriminate R2. exact (NR _ eq_refl).
Qed.

(** all events *)
Lemma next_count s k : (Z.of_nat k < s_nPart s < 2 ^ 32)%Z -> next (with_count s (Z.of_nat k)) = with_count s (Z.of_nat (S k)).
Proof. intros B. unfold next. rewrite with_count_twice. cbn [s_count with_count]. f_equal. unfold u32. rewrite Z.mod_small; lia. Qed.
Lemma events_run (src : source T) sg : fresh src -> forall evs k, Forall (event_tr fuel w tEnd src) evs -> inside (concat (map ev_d evs)) ->
  (forall i e, nth_error evs i = Some e -> nth_error sg (k + i) = Some (Z.to_nat (ev_c e)) /\ (0 <= ev_c e < s_nPart src)%Z) -> (k + length evs <= Z.to_nat (s_nPart src))%nat ->
  forall t, RunFacts.shape 1 t -> exists t', RunFacts.shape 1 t' /\ (forall tb, buffer tb t' 0 = buffer tb t 0 ++ values_of tb (flat_map ev_pushes evs)) /\
    forall ns rest, serial_events RE fuel (length evs) w tEnd (with_count (shuffle sg src) (Z.of_nat k)) t (ns, concat (map ev_d evs) ++ rest) = Ok (t', (ns, rest)).
Proof.
  intros FR. pose proof FR as (B & C0 & _). induction evs as [|e evs IH]; intros k F DD NS LK t SH.
  - exists t. split; [exact SH|]. split; [intros tb; cbn; now rewrite app_nil_r|]. reflexivity.
  - cbn [length map concat flat_map] in *. apply Forall_cons_iff in F as [F1 F2]. apply Forall_app in DD as [DD1 DD2].
    destruct (NS 0%nat e eq_refl) as [N0 B0]. rewrite Nat.add_0_r in N0.
    assert (SQ : sampled (with_count (shuffle sg src) (Z.of_nat k)) (s_count (with_count (shuffle sg src) (Z.of_nat k))) = sampled src (ev_c e)).
    { change (sampled (with_count (shuffle sg src) (Z.of_nat k)) (s_count (with_count (shuffle sg src) (Z.of_nat k)))) with (sampled (shuffle sg src) (Z.of_nat k)).
      rewrite (sampled_shuffle sg src k _ FR N0) by lia. f_equal. lia. }
    destruct (event_runs src _ e F1 DD1 SQ) with (t := t) as (t1 & S1 & B1 & R1); [cbn; lia|exact SH|].
    destruct (IH (S k) F2 DD2) with (t := t1) as (t2 & S2 & B2 & R2); [|lia|exact S1|].
    { intros i e' N. replace (S k + i)%nat with (k + S i)%nat by lia. exact (NS (S i) e' N). }
    exists t2. split; [exact S2|]. split; [intros tb; rewrite B2, B1, values_app, app_assoc; reflexivity|]. intros ns rest. rewrite <- app_assoc, R1, next_count by (cbn [shuffle s_nPart]; lia). apply R2.
Qed.

(** the loop of a call of beamOn *)
Variable E : Engine T.
Hypothesis DOM : forall g, dom (fst (e_canon E g)) = true.
Lemma loop_replay src threads g x : fresh src -> py_loop E fuel w src threads tEnd g x ->
  (exists t g' sg us us' t', x = Ok (t, g') /\ arranges sg src /\ drawn E g us g' /\ Permutation us us' /\ (forall tb, concat (of_table tb t') = concat (of_table tb t)) /\
     forall ns rest, serial_loop RE fuel w (shuffle sg src) 1 tEnd (ns, us' ++ rest) = Ok (t', (ns, rest))) \/
  ((forall v, x <> Ok v) /\ exists sg us', arranges sg src /\ forall ns rest, quietly (serial_loop RE fuel w (shuffle sg src) 1 tEnd (ns, us' ++ rest)) = quietly x).
Proof.
  intros FR (ks & y & LK & KS & P & ->). subst threads. pose proof FR as (B & C0 & _).
  assert (W0 : forall sg, with_count (shuffle sg src) (Z.of_nat 0) = shuffle sg src).
  { intros sg. rewrite <- (with_count_same (shuffle sg src)) at 2. cbn [shuffle s_count]. now rewrite C0. }
  destruct (threads_outcome E fuel w tEnd src ks g y FR KS P) as [(s' & evs & us & -> & L & F & D & PD & PC & TB)|(NK & c & ds & us & g' & BC & D & IC & EF)].
  - left. set (sg := map (fun e => Z.to_nat (ev_c e)) evs).
    assert (AR : arranges sg src).
    { unfold arranges, sg. rewrite <- map_map. rewrite <- PC, map_map. rewrite (map_ext _ (fun i => i)) by (intros; apply Nat2Z.id). now rewrite map_id. }
    assert (IN : inside (concat (map ev_d evs))) by (eapply Permutation_Forall; [exact PD|exact (drawn_dom E dom DOM _ _ _ D)]).
    destruct (events_run src sg FR evs 0 F IN) with (t := empty_tables (T := T) 1) as (t' & S' & B' & R).
    { intros i e N. unfold sg. cbn [Nat.add]. rewrite (map_nth_error _ _ _ N). split; [reflexivity|].
      assert (I : In (ev_c e) (map ev_c evs)) by (apply in_map; exact (nth_error_In _ _ N)). apply (Permutation_in _ (Permutation_sym PC)) in I. apply in_map_iff in I as (j & <- & I). apply in_seq in I. lia. }
    { lia. } { apply empty_shape. }
    exists (py_tabs E s'), (py_rng E s'), sg, us, (concat (map ev_d evs)), t'. split; [reflexivity|]. split; [exact AR|]. split; [exact D|]. split; [exact PD|]. split.
    + intros tb. rewrite TB. specialize (B' tb). rewrite empty_buffer in B'. cbn [app] in B'. rewrite <- B'. unfold buffer. specialize (S' tb). destruct (of_table tb t') as [|b1 [|b2 r]]; try discriminate S'. cbn. now rewrite app_nil_r.
    + intros ns rest. unfold serial_loop. cbn [shuffle s_nPart]. rewrite <- L. rewrite <- (W0 sg) at 1. apply R.
  - right. split. { intros v Q. destruct y; try discriminate Q. exact (NK _ eq_refl). }
    destruct (sample_first (Z.to_nat (s_nPart src)) (Z.to_nat c) ltac:(lia)) as (sg & AR). exists (Z.to_nat c :: sg), ds. split; [exact AR|]. intros ns rest.
    assert (IN : inside ds). { apply Forall_forall. intros u I. pose proof (drawn_dom E dom DOM _ _ _ D) as DD. rewrite Forall_forall in DD. auto. }
    assert (SQ : sampled (shuffle (Z.to_nat c :: sg) src) (s_count (shuffle (Z.to_nat c :: sg) src)) = sampled src c).
    { cbn [shuffle s_count]. rewrite C0. change 0%Z with (Z.of_nat 0). rewrite (sampled_shuffle (Z.to_nat c :: sg) src 0 (Z.to_nat c) FR eq_refl) by lia. f_equal. lia. }
    unfold serial_loop. change (s_nPart (shuffle (Z.to_nat c :: sg) src)) with (s_nPart src). replace (Z.to_nat (s_nPart src)) with (S (Z.to_nat (s_nPart src) - 1)) by lia.
    rewrite (event_runs_bad src _ c ds y EF IN SQ) by (first [cbn [shuffle s_count s_nPart]; lia|apply empty_shape]). destruct y; reflexivity.
Qed.
End PySerial.
