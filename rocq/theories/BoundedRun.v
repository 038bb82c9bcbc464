(** * Runs in which no process ends the program as long as a property of the particles, which may depend on the number of
      passes made, is kept *)
From Coq Require Import String ZArith List Bool Lia.
From Verif Require Import Num Outcome OutcomeFacts Vec MCTools Particle ParticleFacts ParticleList Fields Pusher Process ProcessFacts ProcessSafe Sim SimFacts SimTime
  CompleteFacts.
Import ListNotations.

Section Run.
Context {T : Type} `{Num T}.
Variable E : Engine T.
Variable w : world T.
Variable N : nat.
Variable Q : nat -> particle T -> Prop.
(** a push takes the particle to the next pass; the processes then return, keep it there and add only particles that are
    good at every pass *)
Definition push_keeps_bound : Prop := forall n p, (n < N)%nat -> Q n p -> Q (S n) (push_particle (w_force w) (w_field w) (w_dt w) p).
Definition process_keeps_bound : Prop := forall n pr p l g, (n < N)%nat -> In pr (w_procs w) -> Q (S n) p ->
  exists p' l' g' news, interact E pr p l g = Ok (p', l', g') /\ Q (S n) p' /\ l' = add_all news l /\ Forall (fun x => forall m, Q m x) news.
Hypothesis HP : push_keeps_bound.
Hypothesis HI : process_keeps_bound.

(** within pass n: the particles before place k are through, the others not yet *)
Definition within (n k : nat) (l : event T) : Prop :=
  forall i p, nth_error (pl_items l) i = Some p -> if Nat.ltb i k then Q (S n) p else Q n p.

Lemma upd_nth {A} (l : list A) k a i b : nth_error (upd l k a) i = Some b -> (i = k /\ b = a) \/ (i <> k /\ nth_error l i = Some b).
Proof.
  revert k i. induction l as [|x l IH]; intros [|k] [|i]; cbn; intros HX; try discriminate.
  - injection HX; auto.
  - right. auto.
  - right. auto.
  - destruct (IH k i HX) as [[-> ->]|[HN HX']]; auto.
Qed.

Lemma process_bound n k pr l g p : (n < N)%nat -> In pr (w_procs w) -> wf l -> nth_error (pl_items l) k = Some p -> Q (S n) p ->
  (forall i x, i <> k -> nth_error (pl_items l) i = Some x -> if Nat.ltb i (S k) then Q (S n) x else Q n x) ->
  exists l' g' p', call_process E (Z.of_nat k) pr l g = Ok (l', g') /\ wf l' /\ pl_max l' = pl_max l /\ nth_error (pl_items l') k = Some p' /\ Q (S n) p' /\
    (forall i x, i <> k -> nth_error (pl_items l') i = Some x -> if Nat.ltb i (S k) then Q (S n) x else Q n x).
Proof.
  intros Hn HIn HW HN HQ HO. assert (LK : (k < length (pl_items l))%nat) by (apply nth_error_Some; congruence).
  destruct (HI n pr p l g Hn HIn HQ) as (p' & l1 & g' & news & HX & HQ' & HL & HF).
  assert (HC : call_process E (Z.of_nat k) pr l g = Ok (pl_set l1 (Z.of_nat k) p', g')).
  { unfold call_process. destruct (pl_get_ok l (Z.of_nat k) HW) as [p0 HG]; [unfold pl_n; lia|].
    pose proof (pl_get_inv _ _ _ HG) as [_ HG']. rewrite Nat2Z.id in HG'. assert (p0 = p) by congruence. subst p0.
    rewrite HG. cbn [bind]. rewrite HX. reflexivity. }
  exists (pl_set l1 (Z.of_nat k) p'), g', p'. split; [exact HC|].
  pose proof (call_process_n E _ _ _ _ _ _ HC) as [N1 _].
  destruct (add_all_items news l) as (st & lo & HNs & I1 & I2). destruct (add_all_cap news l) as [C1 C2].
  split; [auto|]. split; [cbn; subst l1; exact C1|]. subst l1. unfold pl_set. cbn [pl_items]. rewrite Nat2Z.id, I1.
  split; [|split; [exact HQ'|]].
  - rewrite upd_app by exact LK. rewrite nth_error_app1 by (rewrite length_upd; exact LK). clear -LK. revert LK.
    generalize (pl_items l). intros m. revert k. induction m as [|x m IH]; intros [|k] LK; cbn in *; try lia; auto. apply IH. lia.
  - intros i x NE HX'. apply upd_nth in HX'. destruct HX' as [[E0 _]|[_ HX']]; [contradiction|].
    destruct (Nat.lt_ge_cases i (length (pl_items l))) as [LI|LI].
    + rewrite nth_error_app1 in HX' by exact LI. now apply HO.
    + rewrite nth_error_app2 in HX' by exact LI. apply nth_error_In in HX'. assert (HX2 : In x news) by (rewrite HNs; apply in_or_app; now left).
      rewrite Forall_forall in HF. specialize (HF x HX2). destruct (Nat.ltb i (S k)); apply HF.
Qed.
Lemma processes_bound n k prs : (n < N)%nat -> (forall pr, In pr prs -> In pr (w_procs w)) -> forall l g p, wf l -> nth_error (pl_items l) k = Some p -> Q (S n) p ->
  (forall i x, i <> k -> nth_error (pl_items l) i = Some x -> if Nat.ltb i (S k) then Q (S n) x else Q n x) ->
  exists l' g', call_processes E (Z.of_nat k) prs l g = Ok (l', g') /\ wf l' /\ pl_max l' = pl_max l /\ within n (S k) l'.
Proof.
  intros Hn. induction prs as [|pr prs IH]; intros HIn l g p HW HN HQ HO; cbn [call_processes].
  - exists l, g. split; [reflexivity|]. split; [auto|]. split; [auto|]. intros i x HX. destruct (Nat.eq_dec i k) as [->|NE]; [|now apply HO].
    replace (Nat.ltb k (S k)) with true by (symmetry; apply Nat.ltb_lt; lia).
    assert (x = p) by congruence. now subst x.
  - destruct (process_bound n k pr l g p Hn (HIn pr (or_introl eq_refl)) HW HN HQ HO) as (l1 & g1 & p1 & -> & W1 & M1 & N1 & Q1 & O1).
    cbn [bind fst snd]. destruct (IH (fun q Hq => HIn q (or_intror Hq)) l1 g1 p1 W1 N1 Q1 O1) as (l2 & g2 & -> & W2 & M2 & R2).
    exists l2, g2. split; [reflexivity|]. split; [auto|]. split; [congruence|auto].
Qed.
Lemma visit_bound n k l g : (n < N)%nat -> wf l -> (k < length (pl_items l))%nat -> within n k l ->
  exists l' g', visit E w (Z.of_nat k) l g = Ok (l', g') /\ wf l' /\ pl_max l' = pl_max l /\ within n (S k) l'.
Proof.
  intros Hn HW Hk HB. unfold visit. destruct (pl_get_ok l (Z.of_nat k) HW) as [p HG]; [unfold pl_n; lia|]. rewrite HG. cbn [bind].
  pose proof (pl_get_inv _ _ _ HG) as [_ HN]. rewrite Nat2Z.id in HN.
  pose proof (push_change w (Z.of_nat k) l p HG) as (_ & C1 & _ & C2 & _ & C3). rewrite Nat2Z.id, app_nil_r in C1.
  set (q := push_particle (w_force w) (w_field w) (w_dt w) p) in *. set (l1 := pl_set l (Z.of_nat k) q) in *.
  assert (HQ : Q (S n) q).
  { apply HP; [exact Hn|]. pose proof (HB k p HN) as HQ. now rewrite Nat.ltb_irrefl in HQ. }
  destruct (processes_bound n k (w_procs w) Hn (fun _ h => h) l1 g q) as (l' & g' & HX & W' & M' & B'); auto.
  - rewrite C1. clear -Hk. revert Hk. generalize (pl_items l). intros m. revert k. induction m as [|x m IH]; intros [|k] LK; cbn in *; try lia; auto.
    apply IH. lia.
  - intros i x NE HX. rewrite C1 in HX. apply upd_nth in HX. destruct HX as [[E0 _]|[_ HX]]; [contradiction|].
    pose proof (HB i x HX) as HQ'. destruct (Nat.ltb_spec i k); destruct (Nat.ltb_spec i (S k)); auto; lia.
  - exists l', g'. split; [exact HX|]. split; [auto|]. split; [rewrite M'; exact C2|exact B'].
Qed.
Lemma pass_from_bound n : (n < N)%nat -> forall fuel k l g, wf l -> (pl_max l - Z.of_nat k <= Z.of_nat fuel)%Z -> within n k l ->
  (k <= length (pl_items l))%nat ->
  exists l' g', pass_from E w fuel (Z.of_nat k) l g = Ok (l', g') /\ wf l' /\ Forall (Q (S n)) (pl_items l').
Proof.
  intros Hn. induction fuel as [|f IH]; intros k l g HW HF HB Hk; cbn [pass_from]; destruct (Z.ltb_spec (Z.of_nat k) (pl_n l)) as [LK|LK];
    unfold wf, pl_n in *; try lia.
  - exists l, g. split; [reflexivity|]. split; [auto|]. apply Forall_forall. intros x HX. apply In_nth_error in HX. destruct HX as [i HX].
    assert (i < length (pl_items l))%nat by (apply nth_error_Some; congruence). pose proof (HB i x HX) as HQ.
    destruct (Nat.ltb_spec i k); [auto|lia].
  - destruct (visit_bound n k l g Hn HW ltac:(lia) HB) as (l1 & g1 & HX & W1 & M1 & B1). rewrite HX. cbn [bind fst snd].
    replace (Z.of_nat k + 1)%Z with (Z.of_nat (S k)) by lia.
    assert (L1 : (length (pl_items l) <= length (pl_items l1))%nat).
    { pose proof (visit_facts E w _ _ _ _ _ HX) as (_ & _ & X3). unfold pl_n in *. lia. }
    apply IH; unfold wf, pl_n; auto; lia.
  - exists l, g. split; [reflexivity|]. split; [auto|]. apply Forall_forall. intros x HX. apply In_nth_error in HX. destruct HX as [i HX].
    assert (i < length (pl_items l))%nat by (apply nth_error_Some; congruence). pose proof (HB i x HX) as HQ.
    destruct (Nat.ltb_spec i k); [auto|lia].
Qed.
Lemma pass_bound n l g : (n < N)%nat -> wf l -> Forall (Q n) (pl_items l) ->
  exists l' g', pass E w l g = Ok (l', g') /\ wf l' /\ Forall (Q (S n)) (pl_items l').
Proof.
  intros Hn HW HF. unfold pass. change 0%Z with (Z.of_nat 0). apply pass_from_bound; auto; try lia.
  intros i x HX. rewrite Forall_forall in HF. cbn. apply HF. eapply nth_error_In; eauto.
Qed.

Variable S : Type.
Variable htimes : list T.
Variable fill : nat -> T -> list (particle T) -> S -> res S.
Variable good : S -> Prop.
Hypothesis HF : fills_well S htimes fill good.
Notation st := (state E S).

Lemma step_bound n (s : st) : (n < N)%nat -> wf (st_ev _ s) -> Forall (Q n) (pl_items (st_ev _ s)) -> good (st_hist _ s) ->
  exists s', time_step E w htimes fill s = Ok s' /\ wf (st_ev _ s') /\ Forall (Q (Datatypes.S n)) (pl_items (st_ev _ s')) /\ good (st_hist _ s') /\
    st_time _ s' = nadd (st_time _ s) (w_dt w).
Proof.
  intros Hn HW HB HG. unfold time_step.
  assert (HC : exists s1, hist_check E htimes fill s = Ok s1 /\ good (st_hist _ s1)).
  { unfold hist_check. destruct (nth_error htimes (st_hc _ s)) eqn:EN; [|eauto]. destruct (nleb _ _); [|eauto].
    destruct (HF (st_hc _ s) (st_time _ s) (pl_items (st_ev _ s)) (st_hist _ s)) as (h & HX & HY); [apply nth_error_Some; congruence|auto|].
    rewrite HX. cbn. eauto. }
  destruct HC as (s1 & HC & G1). rewrite HC. cbn [bind]. pose proof (hist_check_ev E htimes fill _ _ HC) as (C1 & C2 & C3). rewrite C1, C2.
  destruct (pass_bound n (st_ev _ s) (st_rng _ s) Hn HW HB) as (l' & g' & HX & HW' & HB'). rewrite HX. cbn [bind]. eexists. split; [reflexivity|].
  cbn. rewrite C3. auto.
Qed.
Lemma loop_bound tEnd : forall (s : st) t0 a, st_time _ s = clock t0 (w_dt w) a -> (a <= N)%nat ->
  wf (st_ev _ s) -> Forall (Q a) (pl_items (st_ev _ s)) -> good (st_hist _ s) -> nltb (clock t0 (w_dt w) N) tEnd = false -> forall fuel, (N - a <= fuel)%nat ->
  exists s' b, time_loop E w htimes fill fuel tEnd s = Ok s' /\ good (st_hist _ s') /\ (a <= b <= N)%nat /\ Forall (Q b) (pl_items (st_ev _ s')).
Proof.
  intros s t0 a HT HA HW HB HG HE fuel. revert s a HT HA HW HB HG. induction fuel as [|f IH]; intros s a HT HA HW HB HG HL; cbn.
  - assert (a = N) by lia. subst a. rewrite HT, HE. exists s, N. auto.
  - destruct (nltb (st_time _ s) tEnd) eqn:ET; [|exists s, a; auto]. destruct (Nat.eq_dec a N) as [->|NE]; [congruence|].
    destruct (step_bound a s ltac:(lia) HW HB HG) as (s1 & ES & HW1 & HB1 & HG1 & HT1). rewrite ES. cbn.
    destruct (IH s1 (Datatypes.S a)) as (s' & b & HX & HY & HZ & HQ); auto; try lia; [rewrite HT1, HT; reflexivity|].
    exists s', b. split; [auto|]. split; [auto|]. split; [lia|auto].
Qed.
Lemma run_bound tEnd l g h : wf l -> Forall (Q 0) (pl_items l) -> good h -> nltb (clock n0 (w_dt w) N) tEnd = false ->
  forall fuel, (N <= fuel)%nat -> exists s' b, run_event E w htimes fill fuel tEnd l g h = Ok s' /\ good (st_hist _ s') /\
    (b <= N)%nat /\ Forall (Q b) (pl_items (st_ev _ s')).
Proof.
  intros HW HB HG HE fuel HL. unfold run_event.
  destruct (loop_bound tEnd (mkSt n0 l g 0 h) n0 0 eq_refl (Nat.le_0_l _) HW HB HG HE fuel ltac:(lia)) as (s & b & HX & HG' & Hb & HQ).
  rewrite HX. cbn [bind].
  destruct (loop_gen E w htimes fill l g n0 tEnd fuel (mkSt n0 l g 0 h) _ 0%nat eq_refl eq_refl (Nat.le_0_l _) HX) as
    (? & ? & ? & _ & _ & _ & _ & _ & _ & _ & HC & _).
  destruct (rest_ok E S htimes fill good (length htimes - st_hc E s) HF s ltac:(lia) HG') as (s' & HR & HGs). rewrite HR. exists s', b.
  split; [reflexivity|]. split; [auto|]. split; [lia|].
  apply fill_rest_ev in HR. destruct HR as [-> _]. exact HQ.
Qed.
End Run.
