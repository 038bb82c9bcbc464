(** * binary64: particles that take no further part in a run (facts for PropsNan) *)
From Coq Require Import String ZArith Reals Lra List Bool Lia.
From Coq Require Import Floats.SpecFloat.
From Verif Require Import Num Outcome OutcomeFacts Vec MCTools Particle ParticleList Fields Pusher PusherFacts
  Process ProcessFacts PropsProcess Sim SimFacts F64Facts F64Real F64Draw F64Kin F64Zero NanFacts.
Import ListNotations.

Lemma nth_upd_same {A} (l : list A) i a b : nth_error l i = Some b -> nth_error (upd l i a) i = Some a.
Proof. revert i. induction l as [|x l IH]; intros [|i] HN; try discriminate; cbn in *; auto. Qed.
Lemma nth_upd_other {A} (l : list A) i k a : i <> k -> nth_error (upd l k a) i = nth_error l i.
Proof. revert i k. induction l as [|x l IH]; intros [|i] [|k] HN; cbn; try congruence; auto. Qed.

(** ** A property of a particle that pushes keep and that silences the processes *)
Section Keep.
Context {T : Type} `{Num T}.
Variable E : Engine T.
Variable w : world T.
Variable Q : particle T -> Prop.
Hypothesis Q_push : forall p, Q p -> Q (push_particle (w_force w) (w_field w) (w_dt w) p).
Hypothesis Q_proc : forall pr p l g p' l' g', In pr (w_procs w) -> Q p -> interact E pr p l g = Ok (p', l', g') -> l' = l /\ Q p'.

Definition keep_one (i : nat) (a b : event T * est E) : Prop :=
  forall p, nth_error (pl_items (fst a)) i = Some p -> Q p ->
  exists p', nth_error (pl_items (fst b)) i = Some p' /\ Q p' /\ same_identity p p'.
Definition keep_all (a b : event T * est E) : Prop :=
  Forall Q (pl_items (fst a)) ->
  Forall Q (pl_items (fst b)) /\ length (pl_items (fst b)) = length (pl_items (fst a)) /\ pl_lost (fst b) = pl_lost (fst a).

Lemma push_identity F fld (dt : T) p : same_identity p (push_particle F fld dt p).
Proof. destruct (PusherFacts.push_keeps F fld dt p) as (P1&P2&P3&P4&P5&P6&P7&P8). unfold same_identity. auto 10. Qed.

Lemma one_refl i s : keep_one i s s.
Proof. intros p HP HQ. exists p. split; [auto|]. split; [auto|]. apply same_identity_refl. Qed.
Lemma one_trans i a b c : keep_one i a b -> keep_one i b c -> keep_one i a c.
Proof.
  intros H1 H2 p HP HQ. destruct (H1 p HP HQ) as (q & A & B & C). destruct (H2 q A B) as (r & D & F & G).
  exists r. split; [auto|]. split; [auto|]. eapply same_identity_trans; eauto.
Qed.
Lemma one_push i k l g p : pl_get l k = Ok p -> keep_one i (l, g) (pl_set l k (push_particle (w_force w) (w_field w) (w_dt w) p), g).
Proof.
  intros HG q HN HQ. apply pl_get_inv in HG. destruct HG as [_ HG]. cbn in *.
  destruct (Nat.eq_dec i (Z.to_nat k)) as [->|NE].
  - assert (q = p) by congruence. subst q. eexists. split; [eapply nth_upd_same; eauto|]. split; [auto|apply push_identity].
  - exists q. rewrite nth_upd_other by auto. split; [auto|]. split; [auto|apply same_identity_refl].
Qed.
Lemma one_proc i k pr l g l' g' : In pr (w_procs w) -> call_process E k pr l g = Ok (l', g') -> keep_one i (l, g) (l', g').
Proof.
  intros HI HX q HN HQ. cbn in *. apply call_process_change in HX.
  destruct HX as (_ & p & p' & st & lo & (C1 & C2 & _) & _ & SI & _ & _ & _ & l1 & HX & HL).
  destruct (Nat.eq_dec i (Z.to_nat k)) as [->|NE].
  - assert (q = p) by congruence. subst q. destruct (Q_proc _ _ _ _ _ _ _ HI HQ HX) as [-> QP].
    exists p'. subst l'. cbn. split; [eapply nth_upd_same; eauto|]. auto.
  - exists q. rewrite C2. assert (i < length (pl_items l))%nat by (apply nth_error_Some; congruence).
    rewrite nth_error_app1 by (rewrite length_upd; auto). rewrite nth_upd_other by auto. split; [auto|]. split; [auto|apply same_identity_refl].
Qed.
Lemma Forall_upd (l : list (particle T)) k p : Forall Q l -> Q p -> Forall Q (upd l k p).
Proof. intros HF HQ. revert k. induction HF; intros [|k]; cbn; auto. Qed.
Lemma all_refl s : keep_all s s.
Proof. intros HF. auto. Qed.
Lemma all_trans a b c : keep_all a b -> keep_all b c -> keep_all a c.
Proof. intros H1 H2 HF. destruct (H1 HF) as (A & B & C). destruct (H2 A) as (D & F & G). split; [auto|]. split; congruence. Qed.
Lemma all_push k l g p : pl_get l k = Ok p -> keep_all (l, g) (pl_set l k (push_particle (w_force w) (w_field w) (w_dt w) p), g).
Proof.
  intros HG HF. apply pl_get_inv in HG. destruct HG as [_ HG]. cbn in *. rewrite length_upd. split; [|auto].
  apply Forall_upd; auto. apply Q_push. rewrite Forall_forall in HF. apply HF. eapply nth_error_In; eauto.
Qed.
Lemma all_proc k pr l g l' g' : In pr (w_procs w) -> call_process E k pr l g = Ok (l', g') -> keep_all (l, g) (l', g').
Proof.
  intros HI HX HF. cbn in *. apply call_process_change in HX.
  destruct HX as (_ & p & p' & st & lo & (C1 & C2 & _) & _ & SI & _ & _ & _ & l1 & HX & HL).
  assert (HQ : Q p) by (rewrite Forall_forall in HF; apply HF; eapply nth_error_In; eauto).
  destruct (Q_proc _ _ _ _ _ _ _ HI HQ HX) as [-> QP]. subst l'. cbn. rewrite length_upd. split; [|auto]. now apply Forall_upd.
Qed.

Context {S : Type}.
Variable htimes : list T.
Variable fill : nat -> T -> list (particle T) -> S -> res S.
Lemma run_keep_one fuel tEnd l g h (s' : state E S) i p : run_event E w htimes fill fuel tEnd l g h = Ok s' ->
  nth_error (pl_items l) i = Some p -> Q p ->
  exists p', nth_error (pl_items (st_ev _ s')) i = Some p' /\ Q p' /\ same_identity p p'.
Proof.
  intros HX HN HQ. apply (lift_run E w (keep_one i)) in HX; [exact (HX p HN HQ)| | | |].
  - apply one_refl.
  - apply one_trans.
  - apply one_push.
  - apply one_proc.
Qed.
Lemma run_keep_all fuel tEnd l g h (s' : state E S) : run_event E w htimes fill fuel tEnd l g h = Ok s' -> keep_all (l, g) (st_ev _ s', st_rng _ s').
Proof.
  intros HX. apply (lift_run E w keep_all) in HX; [exact HX| | | |].
  - apply all_refl.
  - apply all_trans.
  - apply all_push.
  - apply all_proc.
Qed.
Lemma loop_keep_all fuel tEnd (s s' : state E S) : time_loop E w htimes fill fuel tEnd s = Ok s' ->
  keep_all (st_ev _ s, st_rng _ s) (st_ev _ s', st_rng _ s').
Proof.
  intros HX. apply (lift_loop E w keep_all) in HX; [exact HX| | | |].
  - apply all_refl.
  - apply all_trans.
  - apply all_push.
  - apply all_proc.
Qed.
End Keep.

(** ** Leptons at rest *)
Section Rest.
Variable L : Libm.
Notation N := (Num_F64 L).
Variable E : Engine spec_float.
Variable w : world spec_float.

Definition deaf (p : particle spec_float) : Prop := p_depth p = NaN.
(** a lepton (mass in a wide range) at rest *)
Definition at_rest (p : particle spec_float) : Prop :=
  p_alive p = true /\ p_type p = PLepton /\ zerov (p_mom p) /\ finite (p_charge p) /\
  exists mu, dbl (p_mass p) mu /\ (two (-10) <= mu <= two 400)%R.
Definition silent_at (t0 : spec_float) : Prop :=
  forall t x, step_time L t0 (w_dt w) t -> zerov (fst (w_field w t x)) /\ zerov (snd (w_field w t x)).

Hypothesis F_lorentz : w_force w = @lorentz_force _ N.
Hypothesis dt_ok : exists d, dbl (w_dt w) d /\ (Rabs d <= two 1000)%R.
Hypothesis procs_depth : Forall depth_process (w_procs w).

Lemma mass_not_zero m mu : dbl m mu -> (two (-10) <= mu)%R -> @neqb _ N m (@n0 _ N) = false.
Proof.
  intros (b & <- & HF & HR) HM. assert (P : (0 < two (-10))%R) by apply two_pos.
  destruct b as [s|s| |s mm e HB]; try discriminate; [cbn in HR; lra|]. destruct s; reflexivity.
Qed.

Lemma push_rest p : at_rest p -> silent_at (p_time p) -> at_rest (@push_particle _ N (w_force w) (w_field w) (w_dt w) p).
Proof.
  intros (HA & HT & HZ & HQ & mu & HM & HB) HS. destruct dt_ok as (d & DD & BD).
  destruct (@PusherFacts.push_keeps _ N (w_force w) (w_field w) (w_dt w) p) as (P1&P2&P3&P4&P5&P6&P7&P8).
  unfold at_rest. rewrite P1, P3, P4, P8. split; [auto|]. split; [auto|]. split; [|eauto].
  rewrite F_lorentz. pose proof (mass_not_zero _ _ HM (proj1 HB)) as NZ.
  assert (Z0 : (Rabs 0 <= two 490)%R) by (rewrite Rabs_R0; apply Rlt_le, two_pos).
  pose proof (rk4_zero_at L (w_field w) (w_dt w) d p mu 0 0 0 HS DD BD HM HB HQ HZ Z0 Z0 Z0) as R.
  unfold push_particle. rewrite HA, NZ. destruct (@rk4_step _ N _ _ _ p) as [x m]. cbn [snd] in R.
  unfold update_track. destruct (p_tracking p); exact R.
Qed.

Lemma untouched_rest p p' : untouched p p' -> at_rest p -> at_rest p'.
Proof. intros [d ->]. auto. Qed.

Lemma proc_rest pr p l g p' l' g' : depth_process pr -> at_rest p -> @interact _ N E pr p l g = Ok (p', l', g') ->
  l' = l /\ at_rest p' /\ (deaf p -> deaf p') /\ (forall c, pr = Stochastic c -> deaf p').
Proof.
  intros HD HR HX. pose proof HR as (HA & HT & HZ & HQ & mu & HM & HB). pose proof (mass_not_zero _ _ HM (proj1 HB)) as NZ.
  assert (DD : deaf p -> deaf p') by (intros HN; exact (proj2 (proj2 (proj2 (interact_deaf L E pr p l g p' l' g' HD HN HX))))).
  destruct pr as [c|c cl|c]; [|contradiction|].
  - destruct (stochastic_nan L E c p l g p' l' g' (eta_rest L _ _ HZ) HX) as (A & _ & B & C).
    split; [auto|]. split; [eapply untouched_rest; eauto|]. split; [auto|]. intros. now apply C.
  - cbn [interact] in HX. unfold breit_wheeler_interact in HX. rewrite HT in HX. cbn [orb] in HX.
    apply ok3 in HX. destruct HX as (-> & -> & ->). split; [auto|]. split; [auto|]. split; [auto|]. discriminate.
Qed.

Definition others_same (k : nat) (l l' : event spec_float) : Prop :=
  (forall i, i <> k -> nth_error (pl_items l') i = nth_error (pl_items l) i) /\
  length (pl_items l') = length (pl_items l) /\ pl_lost l' = pl_lost l /\ pl_max l' = pl_max l.
Lemma others_set (l : event spec_float) k p : others_same (Z.to_nat k) l (pl_set l k p).
Proof. split; [intros i HI; cbn; now apply nth_upd_other|]. cbn. rewrite length_upd. auto. Qed.
Lemma others_trans k a b c : others_same k a b -> others_same k b c -> others_same k a c.
Proof. intros (A & B & C & D) (A' & B' & C' & D'). split; [intros i HI; rewrite A', A; auto|]. split; [congruence|]. split; congruence. Qed.

Lemma procs_rest k prs : Forall depth_process prs -> forall l g l' g' p,
  nth_error (pl_items l) (Z.to_nat k) = Some p -> at_rest p ->
  @call_processes _ N E k prs l g = Ok (l', g') ->
  others_same (Z.to_nat k) l l' /\
  exists p', nth_error (pl_items l') (Z.to_nat k) = Some p' /\ (deaf p -> deaf p') /\ ((exists c, In (Stochastic c) prs) -> deaf p').
Proof.
  induction prs as [|pr t IH]; intros HD l g l' g' p HN HR HX; cbn [call_processes] in HX.
  - injection HX; intros; subst. split; [split; auto|]. exists p. split; [auto|]. split; [auto|]. intros [c []].
  - inversion HD; subst. apply bind_ok in HX. destruct HX as [[l1 g1] [H3 HX]].
    apply call_process_change in H3.
    destruct H3 as (_ & q & q' & st & lo & (C1 & _) & _ & _ & _ & _ & _ & l2 & H4 & HL).
    assert (q = p) by congruence. subst q.
    destruct (proc_rest pr p l g q' l2 g1 H1 HR H4) as (-> & HR' & D1 & D2). subst l1.
    assert (HN' : nth_error (pl_items (pl_set l k q')) (Z.to_nat k) = Some q') by (cbn; eapply nth_upd_same; eauto).
    destruct (IH H2 _ _ _ _ q' HN' HR' HX) as (O1 & p' & A & B & C).
    split; [eapply others_trans; [apply others_set|exact O1]|]. exists p'. split; [auto|]. split; [auto|].
    intros [c [->|HI]]; [apply B, (D2 c); auto|apply C; eauto].
Qed.

Variable c0 : em_cfg spec_float.
Hypothesis has_stochastic : In (Stochastic c0) (w_procs w).

Lemma visit_rest k l g l' g' p : @visit _ N E w k l g = Ok (l', g') ->
  nth_error (pl_items l) (Z.to_nat k) = Some p -> at_rest p -> silent_at (p_time p) ->
  others_same (Z.to_nat k) l l' /\ exists p', nth_error (pl_items l') (Z.to_nat k) = Some p' /\ deaf p'.
Proof.
  unfold visit. intros HX HN HR HS. apply bind_ok in HX. destruct HX as [q [HG HX]].
  apply pl_get_inv in HG. destruct HG as [_ HG]. assert (q = p) by congruence. subst q.
  pose proof (push_rest p HR HS) as HR'. set (p1 := @push_particle _ N _ _ _ p) in *.
  assert (HN' : nth_error (pl_items (pl_set l k p1)) (Z.to_nat k) = Some p1) by (cbn; eapply nth_upd_same; eauto).
  destruct (procs_rest k (w_procs w) procs_depth _ _ _ _ p1 HN' HR' HX) as (O1 & p' & A & _ & C).
  split; [eapply others_trans; [apply others_set|exact O1]|]. exists p'. split; [auto|]. apply C. eauto.
Qed.

Definition waiting (p : particle spec_float) : Prop := at_rest p /\ silent_at (p_time p).

(** the first pass makes every particle deaf and creates nothing *)
Lemma pass_rest fuel : forall k l g l' g', (0 <= k)%Z ->
  (forall i p, nth_error (pl_items l) i = Some p -> (i < Z.to_nat k)%nat -> deaf p) ->
  (forall i p, nth_error (pl_items l) i = Some p -> (Z.to_nat k <= i)%nat -> waiting p) ->
  @pass_from _ N E w fuel k l g = Ok (l', g') ->
  Forall deaf (pl_items l') /\ length (pl_items l') = length (pl_items l) /\ pl_lost l' = pl_lost l.
Proof.
  induction fuel as [|f IH]; intros k l g l' g' HK H1 H2 HX; cbn [pass_from] in HX; destruct (Z.ltb k (pl_n l)) eqn:EK; try discriminate.
  1,3: injection HX; intros; subst; split; [|auto]; apply Z.ltb_ge in EK; unfold pl_n in EK;
    rewrite Forall_forall; intros p HI; apply In_nth_error in HI; destruct HI as [i HI];
    apply (H1 i p HI); assert (i < length (pl_items l'))%nat by (apply nth_error_Some; congruence); lia.
  apply bind_ok in HX. destruct HX as [[l1 g1] [HV HX]]. cbn [fst snd] in HX. apply Z.ltb_lt in EK. unfold pl_n in EK.
  destruct (nth_error (pl_items l) (Z.to_nat k)) as [p|] eqn:EN; [|apply nth_error_None in EN; lia].
  destruct (H2 _ _ EN (le_n _)) as [W1 W2].
  destruct (visit_rest k l g l1 g1 p HV EN W1 W2) as ((O1 & O2 & O3 & O4) & p' & A & B).
  assert (K1 : Z.to_nat (k + 1) = S (Z.to_nat k)) by lia.
  destruct (IH (k + 1)%Z l1 g1 l' g') as (R1 & R2 & R3); [lia| | |exact HX|split; [auto|split; congruence]].
  - intros i q HI HL. destruct (Nat.eq_dec i (Z.to_nat k)) as [->|NE]; [congruence|]. rewrite O1 in HI by auto. apply (H1 i); [auto|lia].
  - intros i q HI HL. rewrite O1 in HI by lia. apply (H2 i); [auto|lia].
Qed.

Context {S : Type}.
Variable htimes : list spec_float.
Variable fill : nat -> spec_float -> list (particle spec_float) -> S -> res S.

Lemma deaf_keep pr p l g p' l' g' : In pr (w_procs w) -> deaf p -> @interact _ N E pr p l g = Ok (p', l', g') -> l' = l /\ deaf p'.
Proof.
  intros HI HN HX. rewrite Forall_forall in procs_depth.
  destruct (interact_deaf L E pr p l g p' l' g' (procs_depth _ HI) HN HX) as (A & _ & _ & B). auto.
Qed.
Lemma deaf_push F fld dt p : deaf p -> deaf (@push_particle _ N F fld dt p).
Proof. destruct (@PusherFacts.push_keeps _ N F fld dt p) as (P1&P2&P3&P4&P5&P6&P7&P8). unfold deaf. now rewrite P6. Qed.

Lemma run_rest fuel tEnd l g h (s' : state E S) : Forall waiting (pl_items l) ->
  @run_event _ N E w _ htimes fill fuel tEnd l g h = Ok s' ->
  length (pl_items (st_ev _ s')) = length (pl_items l) /\ pl_lost (st_ev _ s') = pl_lost l.
Proof.
  intros HW HX. unfold run_event in HX. apply bind_ok in HX. destruct HX as [s [HL HX]]. apply fill_rest_ev in HX.
  destruct HX as (-> & _ & _). destruct fuel as [|f]; cbn [time_loop] in HL; destruct (@nltb _ N _ _) eqn:EL; try discriminate;
    try (injection HL; intros; subst; auto).
  apply bind_ok in HL. destruct HL as [s1 [HS HL]]. unfold time_step in HS. apply bind_ok in HS. destruct HS as [s0 [HC HS]].
  apply hist_check_ev in HC. destruct HC as (C1 & C2 & _). cbn in C1. apply bind_ok in HS. destruct HS as [[l1 g1] [HP HS]].
  rewrite C1 in HP. rewrite Forall_forall in HW.
  unfold pass in HP.
  destruct (pass_rest (Z.to_nat (pl_max l)) 0 l (st_rng E s0) l1 g1 (Z.le_refl 0)) as (R1 & R2 & R3); [| |exact HP|].
  { intros i p HI HJ. exfalso. cbn in HJ. lia. }
  { intros i p HI _. apply HW. eapply nth_error_In; eauto. }
  injection HS; intros <-. cbn [st_ev] in *.
  destruct (loop_keep_all E w deaf (deaf_push _ _ _) deaf_keep htimes fill _ _ _ _ HL R1) as (_ & A & B). cbn in A, B. split; congruence.
Qed.
End Rest.
