(** * The time loop: number of steps and histogram schedule, any arithmetic *)
From Coq Require Import String ZArith List Bool Lia.
From Verif Require Import Num Outcome OutcomeFacts Vec MCTools Particle ParticleList Fields Pusher Process ProcessSafe Sim SimFacts.
Import ListNotations.

(** ** Specification vocabulary *)
Section Spec.
Context {T : Type} `{Num T}.

(** the clock after [n] steps *)
Fixpoint clock (t0 dt : T) (n : nat) : T := match n with O => t0 | S m => nadd (clock t0 dt m) dt end.

(** [n] is the number of executed steps: the clock is below the end exactly before them *)
Definition step_count (t0 dt tEnd : T) (n : nat) : Prop :=
  (forall m, (m < n)%nat -> nltb (clock t0 dt m) tEnd = true) /\ nltb (clock t0 dt n) tEnd = false.

(** [schedule t0 dt N a hts ns]: of the pending histogram times [hts], looked at from step [a] on and
    before step [N], the first ones are taken at the steps [ns]: each at the first step after the previous one
    at which its time has come *)
Inductive schedule (t0 dt : T) (N : nat) : nat -> list T -> list nat -> Prop :=
| sch_empty a : schedule t0 dt N a [] []
| sch_none a ht rest : (forall n, (a <= n < N)%nat -> nleb ht (clock t0 dt n) = false) ->
    schedule t0 dt N a (ht :: rest) []
| sch_take a ht rest n ns : (a <= n < N)%nat -> nleb ht (clock t0 dt n) = true ->
    (forall m, (a <= m < n)%nat -> nleb ht (clock t0 dt m) = false) ->
    schedule t0 dt N (n + 1) rest ns -> schedule t0 dt N a (ht :: rest) (n :: ns).

(** the histogram calls made with a list of snapshots, in order *)
Fixpoint fills {S} (fill : nat -> T -> list (particle T) -> S -> res S) (i : nat)
    (snaps : list (T * list (particle T))) (h : S) : res S :=
  match snaps with
  | [] => Ok h
  | (t, ps) :: r => let* h' := fill i t ps h in fills fill (i + 1) r h'
  end.
End Spec.

Section Time.
Context {T : Type} `{Num T}.
Variable E : Engine T.
Variable w : world T.

(** [n] particle loops in a row *)
Fixpoint passes (n : nat) (l : event T) (g : est E) : res (event T * est E) :=
  match n with
  | O => Ok (l, g)
  | S m => let* r := passes m l g in pass E w (fst r) (snd r)
  end.

Context {S : Type}.
Variable htimes : list T.
Variable fill : nat -> T -> list (particle T) -> S -> res S.
Notation st := (state E S).

Definition snapshot (l : event T) (g : est E) (t0 : T) (n : nat) (sn : T * list (particle T)) : Prop :=
  exists l' g', passes n l g = Ok (l', g') /\ sn = (clock t0 (w_dt w) n, pl_items l').

Lemma schedule_later t0 dt N a ht rest ns : nleb ht (clock t0 dt a) = false ->
  schedule t0 dt N (a + 1) (ht :: rest) ns -> schedule t0 dt N a (ht :: rest) ns.
Proof.
  intros HA HS. inversion HS as [|a' ht' rest' HQ|a' ht' rest' n' ns' HQ1 HQ2 HQ3 HQ4]; subst.
  - apply sch_none. intros n Hn. destruct (Nat.eq_dec n a) as [->|]; [auto|]. apply HQ. lia.
  - apply sch_take; auto; [lia|]. intros m Hm. destruct (Nat.eq_dec m a) as [->|]; [auto|]. apply HQ3. lia.
Qed.

Lemma skipn_cons {A} (l : list A) i a : nth_error l i = Some a -> skipn i l = a :: skipn (i + 1) l.
Proof.
  revert i. induction l as [|x l IH]; intros [|i] HX; try discriminate; cbn in *; [injection HX; intros ->; auto|]. apply IH; auto.
Qed.

Lemma loop_gen l g t0 tEnd fuel : forall (s s' : st) a,
  st_time _ s = clock t0 (w_dt w) a -> passes a l g = Ok (st_ev _ s, st_rng _ s) ->
  (st_hc _ s <= length htimes)%nat ->
  time_loop E w htimes fill fuel tEnd s = Ok s' ->
  exists N ns snaps, (a <= N <= a + fuel)%nat /\
    (forall m, (a <= m < N)%nat -> nltb (clock t0 (w_dt w) m) tEnd = true) /\
    nltb (clock t0 (w_dt w) N) tEnd = false /\
    st_time _ s' = clock t0 (w_dt w) N /\ passes N l g = Ok (st_ev _ s', st_rng _ s') /\
    schedule t0 (w_dt w) N a (skipn (st_hc _ s) htimes) ns /\ st_hc _ s' = (st_hc _ s + length ns)%nat /\
    (st_hc _ s' <= length htimes)%nat /\
    Forall2 (snapshot l g t0) ns snaps /\ fills fill (st_hc _ s) snaps (st_hist _ s) = Ok (st_hist _ s').
Proof.
  assert (DONE : forall (s : st) a, st_time _ s = clock t0 (w_dt w) a -> passes a l g = Ok (st_ev _ s, st_rng _ s) ->
    (st_hc _ s <= length htimes)%nat -> nltb (st_time _ s) tEnd = false -> forall fuel,
    exists N ns snaps, (a <= N <= a + fuel)%nat /\
    (forall m, (a <= m < N)%nat -> nltb (clock t0 (w_dt w) m) tEnd = true) /\
    nltb (clock t0 (w_dt w) N) tEnd = false /\
    st_time _ s = clock t0 (w_dt w) N /\ passes N l g = Ok (st_ev _ s, st_rng _ s) /\
    schedule t0 (w_dt w) N a (skipn (st_hc _ s) htimes) ns /\ st_hc _ s = (st_hc _ s + length ns)%nat /\
    (st_hc _ s <= length htimes)%nat /\
    Forall2 (snapshot l g t0) ns snaps /\ fills fill (st_hc _ s) snaps (st_hist _ s) = Ok (st_hist _ s)).
  { intros s a H1 H2 H3 H4 f. exists a, [], []. split; [lia|]. split; [intros; lia|]. rewrite <- H1. split; [auto|]. split; [auto|].
    split; [auto|]. split; [destruct (skipn _ _); [apply sch_empty|apply sch_none; intros; lia]|]. cbn. split; [lia|]. auto. }
  induction fuel as [|f IH]; intros s s' a H1 H2 H3 HX; cbn in HX; destruct (nltb (st_time _ s) tEnd) eqn:ET; try discriminate.
  - injection HX; intros; subst. apply DONE; auto.
  - apply bind_ok in HX. destruct HX as [s2 [HS HX]]. unfold time_step in HS.
    apply bind_ok in HS. destruct HS as [s1 [HC HS]]. apply bind_ok in HS. destruct HS as [[l1 g1] [HP HS]]. cbn [fst snd] in HS.
    injection HS; intros E2. clear HS.
    pose proof (hist_check_ev E htimes fill _ _ HC) as (C1 & C2 & C3).
    assert (T2 : st_time _ s2 = clock t0 (w_dt w) (a + 1)).
    { rewrite <- E2. cbn. rewrite C3, H1. rewrite Nat.add_comm. reflexivity. }
    assert (P2 : passes (a + 1) l g = Ok (st_ev _ s2, st_rng _ s2)).
    { rewrite <- E2. cbn [st_ev st_rng]. rewrite Nat.add_comm. cbn. rewrite H2. cbn. rewrite <- C1, <- C2. exact HP. }
    assert (CASES : (st_hc _ s1 = st_hc _ s /\ st_hist _ s1 = st_hist _ s /\
        (skipn (st_hc _ s) htimes = [] \/ exists ht rest, skipn (st_hc _ s) htimes = ht :: rest /\ nleb ht (clock t0 (w_dt w) a) = false)) \/
      (st_hc _ s1 = (st_hc _ s + 1)%nat /\ (st_hc _ s < length htimes)%nat /\
        (exists ht, skipn (st_hc _ s) htimes = ht :: skipn (st_hc _ s + 1) htimes /\ nleb ht (clock t0 (w_dt w) a) = true) /\
        fill (st_hc _ s) (st_time _ s) (pl_items (st_ev _ s)) (st_hist _ s) = Ok (st_hist _ s1))).
    { unfold hist_check in HC. destruct (nth_error htimes (st_hc _ s)) as [ht|] eqn:EN.
      - pose proof (skipn_cons _ _ _ EN) as HK. destruct (nleb ht (st_time _ s)) eqn:EL.
        + apply bind_ok in HC. destruct HC as [h [HF HC]]. injection HC; intros <-. cbn. right. split; [auto|].
          split; [apply nth_error_Some; congruence|]. split; [|exact HF]. exists ht. rewrite <- H1. auto.
        + injection HC; intros <-. left. split; [auto|]. split; [auto|]. right. exists ht, (skipn (st_hc _ s + 1) htimes). rewrite <- H1. auto.
      - injection HC; intros <-. left. split; [auto|]. split; [auto|]. left. apply skipn_all2. apply nth_error_None. auto. }
    assert (HC2 : st_hc _ s2 = st_hc _ s1 /\ st_hist _ s2 = st_hist _ s1) by (rewrite <- E2; auto). destruct HC2 as [HC2 HH2].
    assert (L2 : (st_hc _ s2 <= length htimes)%nat) by (rewrite HC2; destruct CASES as [(-> & _)|(-> & HL & _)]; lia).
    destruct (IH s2 s' (a + 1)%nat T2 P2 L2 HX) as (N & ns & snaps & R1 & R2 & R3 & R4 & R5 & R6 & R7 & R8 & R9 & R10).
    assert (R2' : forall m, (a <= m < N)%nat -> nltb (clock t0 (w_dt w) m) tEnd = true).
    { intros m Hm. destruct (Nat.eq_dec m a) as [->|]; [rewrite <- H1; auto|apply R2; lia]. }
    rewrite HC2 in R6, R7, R10. rewrite HH2 in R10.
    destruct CASES as [(K1 & K2 & K3)|(K1 & K2 & (ht & K3 & K4) & K5)].
    + exists N, ns, snaps. rewrite K1 in R6, R7, R10. rewrite K2 in R10. split; [lia|]. split; [auto|]. split; [auto|]. split; [auto|]. split; [auto|].
      split; [|auto]. destruct K3 as [K3|(ht & rest & K3 & K4)].
      * rewrite K3 in R6 |- *. inversion R6; subst. apply sch_empty.
      * rewrite K3 in R6 |- *. apply schedule_later; auto.
    + exists N, (a :: ns), ((st_time _ s, pl_items (st_ev _ s)) :: snaps). rewrite K1 in R6, R7, R10.
      split; [lia|]. split; [auto|]. split; [auto|]. split; [auto|]. split; [auto|].
      split; [rewrite K3; apply sch_take; auto; [lia|intros; lia]|]. split; [cbn; lia|]. split; [auto|].
      split; [constructor; [exists (st_ev _ s), (st_rng _ s); rewrite <- H1; auto|auto]|]. cbn. rewrite K5. exact R10.
  - injection HX; intros; subst. apply DONE; auto.
Qed.

Lemma fill_rest_spec n : forall (s s' : st), fill_rest E fill n s = Ok s' ->
  st_hc _ s' = (st_hc _ s + n)%nat /\
  fills fill (st_hc _ s) (repeat (st_time _ s, pl_items (st_ev _ s)) n) (st_hist _ s) = Ok (st_hist _ s').
Proof.
  induction n as [|n IH]; intros s s' HX; cbn in HX; [injection HX; intros; subst; split; [lia|reflexivity]|].
  apply bind_ok in HX. destruct HX as [h [HF HX]]. apply IH in HX. cbn [st_hc st_time st_ev st_hist] in HX.
  destruct HX as [HX1 HX2]. split; [lia|]. cbn. rewrite HF. exact HX2.
Qed.

Lemma fills_app i a b h h1 h2 : fills fill i a h = Ok h1 -> fills fill (i + length a) b h1 = Ok h2 -> fills fill i (a ++ b) h = Ok h2.
Proof.
  revert i h. induction a as [|[t ps] a IH]; intros i h H1 H2; cbn in *.
  - injection H1; intros; subst. rewrite Nat.add_0_r in H2. exact H2.
  - apply bind_ok in H1. destruct H1 as [h' [-> H1]]. cbn. apply IH; auto. rewrite <- Nat.add_assoc. exact H2.
Qed.

(** everything about a completed event *)
Lemma run_decompose fuel tEnd l g h (s' : st) : run_event E w htimes fill fuel tEnd l g h = Ok s' ->
  exists N ns snaps, step_count n0 (w_dt w) tEnd N /\ (N <= fuel)%nat /\ passes N l g = Ok (st_ev _ s', st_rng _ s') /\
    schedule n0 (w_dt w) N 0 htimes ns /\ (length ns <= length htimes)%nat /\
    Forall2 (snapshot l g n0) (ns ++ repeat N (length htimes - length ns)) snaps /\
    fills fill 0 snaps h = Ok (st_hist _ s') /\ st_hc _ s' = length htimes /\ st_time _ s' = clock n0 (w_dt w) N.
Proof.
  unfold run_event. intros HX. apply bind_ok in HX. destruct HX as [s [H1 HX]].
  destruct (loop_gen l g n0 tEnd fuel (mkSt n0 l g 0 h) _ 0%nat eq_refl eq_refl (Nat.le_0_l _) H1) as
    (N & ns & snaps & R1 & R2 & R3 & R4 & R5 & R6 & R7 & R8 & R9 & R10). cbn [st_hc st_hist] in *.
  pose proof (fill_rest_ev E fill _ _ _ HX) as (F1 & F2 & F3). apply fill_rest_spec in HX. destruct HX as [F4 F5].
  exists N, ns, (snaps ++ repeat (st_time _ s, pl_items (st_ev _ s)) (length htimes - st_hc _ s)).
  split; [split; [intros; apply R2; lia|auto]|]. split; [lia|]. rewrite F1, F2, F3. split; [auto|]. split; [exact R6|].
  cbn in R7. split; [lia|]. split; [|split; [|split; [lia|auto]]].
  - apply Forall2_app; [exact R9|]. rewrite R7. generalize (length htimes - length ns)%nat. intros k.
    induction k; cbn; constructor; auto. exists (st_ev _ s), (st_rng _ s). rewrite <- R4. auto.
  - eapply fills_app; [exact R10|]. rewrite Nat.add_0_l.
    assert (HL : length snaps = st_hc _ s) by (rewrite (Forall2_length _ _ _ R9); lia). rewrite HL. exact F5.
Qed.

(** ** Termination and non-termination *)
Lemma loop_fuel tEnd N : forall (s : st) t0 a, st_time _ s = clock t0 (w_dt w) a -> (a <= N)%nat ->
  (forall m, (a <= m < N)%nat -> nltb (clock t0 (w_dt w) m) tEnd = true) -> nltb (clock t0 (w_dt w) N) tEnd = false ->
  forall fuel, (N - a <= fuel)%nat -> time_loop E w htimes fill fuel tEnd s = time_loop E w htimes fill (N - a) tEnd s.
Proof.
  intros s t0 a. remember (N - a)%nat as d eqn:ED. revert s a ED.
  induction d as [|d IH]; intros s a ED HT HL HB HE fuel HF.
  - assert (a = N) by lia. subst a. destruct fuel; cbn; rewrite HT, HE; reflexivity.
  - destruct fuel as [|f]; [lia|]. cbn. rewrite HT, (HB a) by lia.
    destruct (time_step E w htimes fill s) as [s1| | | |] eqn:ES; cbn; auto.
    assert (T1 : st_time _ s1 = clock t0 (w_dt w) (a + 1)).
    { unfold time_step in ES. apply bind_ok in ES. destruct ES as [s2 [HC ES]]. apply bind_ok in ES. destruct ES as [[l1 g1] [_ ES]].
      injection ES; intros <-. cbn. rewrite Nat.add_comm. cbn. apply hist_check_ev in HC. destruct HC as (_ & _ & ->). rewrite HT. reflexivity. }
    apply (IH s1 (a + 1)%nat); auto; try lia. intros m Hm. apply HB. lia.
Qed.

Lemma loop_endless tEnd : forall (s : st) t0 a, st_time _ s = clock t0 (w_dt w) a ->
  (forall m, (a <= m)%nat -> nltb (clock t0 (w_dt w) m) tEnd = true) ->
  forall fuel s', time_loop E w htimes fill fuel tEnd s <> Ok s'.
Proof.
  intros s t0 a HT HB fuel s'. revert s a HT HB. induction fuel as [|f IH]; intros s a HT HB; cbn; rewrite HT, HB by lia; [discriminate|].
  destruct (time_step E w htimes fill s) as [s1| | | |] eqn:ES; cbn; try discriminate.
  apply (IH s1 (a + 1)%nat).
  - unfold time_step in ES. apply bind_ok in ES. destruct ES as [s2 [HC ES]]. apply bind_ok in ES. destruct ES as [[l1 g1] [_ ES]].
    injection ES; intros <-. cbn. rewrite Nat.add_comm. cbn. apply hist_check_ev in HC. destruct HC as (_ & _ & ->). rewrite HT. reflexivity.
  - intros m Hm. apply HB. lia.
Qed.

(** with good tables and filling that always returns: a step returns or ends the program with code -1 *)
Lemma step_safe (s : st) : (forall pr, In pr (w_procs w) -> process_ok pr) -> (forall i t ps h, exists h', fill i t ps h = Ok h') ->
  wf (st_ev _ s) ->
  (exists s', time_step E w htimes fill s = Ok s' /\ wf (st_ev _ s')) \/ time_step E w htimes fill s = Exit (-1).
Proof.
  intros HO HF HW. unfold time_step.
  assert (HC : exists s1, hist_check E htimes fill s = Ok s1).
  { unfold hist_check. destruct (nth_error _ _); [|eauto]. destruct (nleb _ _); [|eauto].
    destruct (HF (st_hc _ s) (st_time _ s) (pl_items (st_ev _ s)) (st_hist _ s)) as [h ->]. cbn. eauto. }
  destruct HC as [s1 HC]. rewrite HC. cbn. pose proof (hist_check_ev E htimes fill _ _ HC) as (C1 & C2 & _). rewrite C1, C2.
  destruct (pass_safe E w (st_ev _ s) (st_rng _ s) HO HW) as [(l' & g' & -> & HW')| ->]; cbn; [|auto].
  left. eexists. split; [reflexivity|]. exact HW'.
Qed.

Lemma loop_safe tEnd fuel : (forall pr, In pr (w_procs w) -> process_ok pr) -> (forall i t ps h, exists h', fill i t ps h = Ok h') ->
  forall s : st, wf (st_ev _ s) ->
  (exists s', time_loop E w htimes fill fuel tEnd s = Ok s' /\ wf (st_ev _ s')) \/ time_loop E w htimes fill fuel tEnd s = Exit (-1) \/
  time_loop E w htimes fill fuel tEnd s = Fuel.
Proof.
  intros HO HF. induction fuel as [|f IH]; intros s HW; cbn; destruct (nltb _ _); eauto.
  destruct (step_safe s HO HF HW) as [(s1 & -> & HW1)| ->]; cbn; auto.
Qed.

Lemma fill_rest_safe n : (forall i t ps h, exists h', fill i t ps h = Ok h') -> forall s : st, exists s', fill_rest E fill n s = Ok s'.
Proof.
  intros HF. induction n as [|n IH]; intros s; cbn; [eauto|].
  destruct (HF (st_hc _ s) (st_time _ s) (pl_items (st_ev _ s)) (st_hist _ s)) as [h ->]. cbn. apply IH.
Qed.

Lemma loop_not_fuel tEnd N : forall (s : st) t0 a, st_time _ s = clock t0 (w_dt w) a -> (a <= N)%nat ->
  (forall pr, In pr (w_procs w) -> process_ok pr) -> (forall i t ps h, exists h', fill i t ps h = Ok h') -> wf (st_ev _ s) ->
  nltb (clock t0 (w_dt w) N) tEnd = false ->
  forall fuel, (N - a <= fuel)%nat ->
  (exists s', time_loop E w htimes fill fuel tEnd s = Ok s') \/ time_loop E w htimes fill fuel tEnd s = Exit (-1).
Proof.
  intros s t0 a HT HA HO HF HW HE fuel. revert s a HT HA HW. induction fuel as [|f IH]; intros s a HT HA HW HL; cbn.
  - assert (a = N) by lia. subst a. rewrite HT, HE. eauto.
  - destruct (nltb (st_time _ s) tEnd) eqn:ET; [|eauto]. destruct (Nat.eq_dec a N) as [->|NE]; [congruence|].
    destruct (step_safe s HO HF HW) as [(s1 & ES & HW1)| ->]; cbn; [|auto]. rewrite ES. cbn.
    apply (IH s1 (a + 1)%nat); auto; try lia.
    unfold time_step in ES. apply bind_ok in ES. destruct ES as [s2 [HC ES]]. apply bind_ok in ES. destruct ES as [[l1 g1] [_ ES]].
    injection ES; intros <-. cbn. rewrite Nat.add_comm. cbn. apply hist_check_ev in HC. destruct HC as (_ & _ & ->). rewrite HT. reflexivity.
Qed.
End Time.
