(** * The time loop in exact reals: number of steps, particle clocks, charge sums *)
From Coq Require Import String ZArith Reals Lra Psatz List Bool Lia Permutation.
From Verif Require Import Num RNum Outcome OutcomeFacts Vec MCTools Particle ParticleList Fields Pusher PusherFacts
  Process ProcessFacts ProcessSafe Sim SimFacts SimTime.
Import ListNotations.
Local Open Scope R_scope.

(** ** Number of steps *)
Lemma clock_R t0 dt n : clock t0 dt n = t0 + INR n * dt.
Proof. induction n; [cbn; lra|]. rewrite S_INR. cbn [clock]. rewrite IHn. change (nadd (T := R)) with Rplus. lra. Qed.

Lemma least_nat (P : nat -> bool) N : P N = true -> exists n, (n <= N)%nat /\ P n = true /\ forall m, (m < n)%nat -> P m = false.
Proof.
  revert P. induction N as [|N IH]; intros P HN.
  - exists O. split; [lia|]. split; [auto|]. intros; lia.
  - destruct (P O) eqn:E0; [exists O; split; [lia|]; split; [auto|]; intros; lia|].
    destruct (IH (fun n => P (S n)) HN) as (n & H1 & H2 & H3). exists (S n). split; [lia|]. split; [auto|].
    intros [|m] Hm; [auto|]. apply H3. lia.
Qed.

Lemma step_count_R t0 dt tEnd n : step_count t0 dt tEnd n <->
  (tEnd <= t0 + INR n * dt /\ forall m, (m < n)%nat -> t0 + INR m * dt < tEnd).
Proof.
  unfold step_count. split.
  - intros [H1 H2]. rewrite clock_R in H2. split; [apply Rltb_false in H2; lra|]. intros m Hm. specialize (H1 m Hm).
    rewrite clock_R in H1. apply Rltb_true in H1. exact H1.
  - intros [H1 H2]. split.
    + intros m Hm. rewrite clock_R. apply Rltb_true. auto.
    + rewrite clock_R. apply Rltb_false. lra.
Qed.

Lemma step_count_exists dt tEnd : 0 < dt -> exists n, step_count 0 dt tEnd n.
Proof.
  intros Hd. destruct (archimed (tEnd / dt)) as [HA _].
  assert (HK : tEnd <= INR (Z.to_nat (Z.max 0 (up (tEnd / dt)))) * dt).
  { rewrite INR_IZR_INZ, Z2Nat.id by lia.
    assert (IZR (up (tEnd / dt)) <= IZR (Z.max 0 (up (tEnd / dt)))) by (apply IZR_le; lia).
    assert (HT : tEnd = tEnd / dt * dt) by (field; lra). rewrite HT at 1. apply Rmult_le_compat_r; lra. }
  destruct (least_nat (fun n => Rleb tEnd (INR n * dt)) _ (proj2 (Rleb_true _ _) HK)) as (n & _ & H1 & H2).
  exists n. apply step_count_R. apply Rleb_true in H1. split; [lra|]. intros m Hm. specialize (H2 m Hm). apply Rleb_false in H2. lra.
Qed.

Lemma step_count_unique {T} `{Num T} (t0 dt tEnd : T) n m : step_count t0 dt tEnd n -> step_count t0 dt tEnd m -> n = m.
Proof.
  intros [A1 A2] [B1 B2]. destruct (Nat.lt_trichotomy n m) as [L|[L|L]]; auto.
  - rewrite B1 in A2 by auto. discriminate.
  - rewrite A1 in B2 by auto. discriminate.
Qed.

(** ** Clocks *)
(** the generation numbers: 0 for the first [n] (primaries), otherwise one more than that of some earlier particle *)
Definition lineage (n : nat) (gens : list nat) : Prop :=
  forall i gi, nth_error gens i = Some gi ->
    ((i < n)%nat -> gi = O) /\ ((n <= i)%nat -> exists j gj, (j < i)%nat /\ nth_error gens j = Some gj /\ gi = S gj).

(** clock of live particles when those below [k] have been pushed in the current step *)
Definition ahead (t dt : R) (k : nat) (ps : list (particle R)) (gens : list nat) : Prop :=
  length gens = length ps /\
  forall i p gi, nth_error ps i = Some p -> nth_error gens i = Some gi -> p_alive p = true ->
    p_time p = t + INR gi * dt + (if (i <? k)%nat then dt else 0).

Section Clock.
Variable E : Engine R.
Variable w : world R.
Variable n0' : nat.
Notation dt := (w_dt w).

Lemma ahead_push t k ps gens p : ahead t dt k ps gens -> nth_error ps k = Some p ->
  ahead t dt (k + 1) (upd ps k (push_particle (w_force w) (w_field w) dt p)) gens.
Proof.
  intros [HL HA] HN. split; [rewrite length_upd; auto|]. intros i q gi Hq Hg Hal.
  destruct (Nat.eq_dec i k) as [->|NE].
  - rewrite nth_error_upd_same in Hq by (apply nth_error_Some; congruence). injection Hq; intros <-.
    assert (HP : p_alive p = true).
    { destruct (push_keeps (w_force w) (w_field w) dt p) as (_&_&_&_&_&_&_&K). congruence. }
    rewrite push_time by auto. rewrite (HA k p gi HN Hg HP). rewrite Nat.ltb_irrefl.
    assert (HB : (k <? k + 1)%nat = true) by (apply Nat.ltb_lt; lia). rewrite HB. lra.
  - rewrite nth_error_upd_other in Hq by auto. rewrite (HA i q gi Hq Hg Hal).
    assert (HB : (i <? k + 1)%nat = (i <? k)%nat).
    { destruct (i <? k)%nat eqn:EB; [apply Nat.ltb_lt in EB; apply Nat.ltb_lt; lia|apply Nat.ltb_ge in EB; apply Nat.ltb_ge; lia]. }
    rewrite HB. reflexivity.
Qed.

Lemma nth_error_repeat {A} (a : A) n i x : nth_error (repeat a n) i = Some x -> x = a.
Proof. revert i. induction n; intros [|i]; cbn; intros HX; try discriminate; [congruence|eauto]. Qed.

Lemma ahead_proc t k pr l g l' g' gens : (0 <= k)%Z -> call_process E k pr l g = Ok (l', g') ->
  ahead t dt (Z.to_nat k + 1) (pl_items l) gens -> lineage n0' gens -> (n0' <= length gens)%nat ->
  exists more, ahead t dt (Z.to_nat k + 1) (pl_items l') (gens ++ more) /\ lineage n0' (gens ++ more).
Proof.
  intros Hk0 HX [HL HA] HG HN. apply call_process_change in HX.
  destruct HX as (Hk & p & p' & st & lo & (C1 & C2 & C3 & _) & [HB _] & _ & HT & _ & HAl & l1 & HI & HL1).
  set (kk := Z.to_nat k) in *.
  assert (Hkk : (kk < length (pl_items l))%nat) by (apply nth_error_Some; congruence).
  destruct (nth_error gens kk) as [gk|] eqn:EG; [|apply nth_error_None in EG; lia].
  exists (repeat (S gk) (length st)). split.
  - split; [rewrite C2, !app_length, length_upd, repeat_length, HL; auto|].
    intros i q gi Hq Hgi Hal. rewrite C2 in Hq.
    destruct (Nat.lt_ge_cases i (length (pl_items l))) as [Hi|Hi].
    + rewrite nth_error_app1 in Hq by (rewrite length_upd; auto). rewrite nth_error_app1 in Hgi by lia.
      destruct (Nat.eq_dec i kk) as [->|NE].
      * rewrite nth_error_upd_same in Hq by auto. injection Hq; intros <-. rewrite HT.
        apply HA; auto. destruct HAl as [HAl|HAl]; [auto|]. rewrite <- HAl. auto.
      * rewrite nth_error_upd_other in Hq by auto. apply HA; auto.
    + rewrite nth_error_app2 in Hq by (rewrite length_upd; auto). rewrite length_upd in Hq.
      rewrite nth_error_app2 in Hgi by lia. apply nth_error_repeat in Hgi. subst gi.
      assert (HIn : In q (st ++ lo)) by (apply in_or_app; left; eapply nth_error_In; eauto).
      destruct (HB q HIn) as (_ & _ & HQT & _). rewrite HQT.
      assert (HPA : p_alive p = true).
      { destruct (p_alive p) eqn:EA; [auto|exfalso]. destruct (interact_dead_inv E pr p l g p' l1 g' HI EA) as (-> & -> & _).
        rewrite HL1 in C2. cbn [pl_set pl_items] in C2. apply (f_equal (@length _)) in C2. rewrite app_length, !length_upd in C2.
        destruct st; [destruct (i - length (pl_items l))%nat; discriminate|cbn in C2; lia]. }
      rewrite (HA kk p gk C1 EG HPA).
      assert (HB1 : (kk <? kk + 1)%nat = true) by (apply Nat.ltb_lt; lia).
      assert (HB2 : (i <? kk + 1)%nat = false) by (apply Nat.ltb_ge; lia). rewrite HB1, HB2, S_INR. lra.
  - intros i gi Hgi. destruct (Nat.lt_ge_cases i (length gens)) as [Hi|Hi].
    + rewrite nth_error_app1 in Hgi by auto. destruct (HG i gi Hgi) as [G1 G2]. split; [auto|]. intros HI2.
      destruct (G2 HI2) as (j & gj & J1 & J2 & J3). exists j, gj. split; [auto|]. rewrite nth_error_app1 by lia. auto.
    + rewrite nth_error_app2 in Hgi by auto. apply nth_error_repeat in Hgi. split; [intros; lia|]. intros _.
      exists kk, gk. split; [lia|]. rewrite nth_error_app1 by lia. auto.
Qed.

Lemma ahead_procs t k prs : (0 <= k)%Z -> forall l g l' g' gens, call_processes E k prs l g = Ok (l', g') ->
  ahead t dt (Z.to_nat k + 1) (pl_items l) gens -> lineage n0' gens -> (n0' <= length gens)%nat ->
  exists more, ahead t dt (Z.to_nat k + 1) (pl_items l') (gens ++ more) /\ lineage n0' (gens ++ more).
Proof.
  intros Hk. induction prs as [|pr tl IH]; intros l g l' g' gens HX HA HG HN; cbn in HX.
  - injection HX; intros; subst. exists []. rewrite app_nil_r. auto.
  - apply bind_ok in HX. destruct HX as [[l1 g1] [H1 HX]].
    destruct (ahead_proc t k pr l g l1 g1 gens Hk H1 HA HG HN) as (m1 & A1 & G1).
    destruct (IH _ _ _ _ _ HX A1 G1) as (m2 & A2 & G2); [rewrite app_length; lia|].
    exists (m1 ++ m2). rewrite app_assoc. auto.
Qed.

Lemma ahead_visit t k l g l' g' gens : (0 <= k)%Z -> visit E w k l g = Ok (l', g') ->
  ahead t dt (Z.to_nat k) (pl_items l) gens -> lineage n0' gens -> (n0' <= length gens)%nat ->
  exists more, ahead t dt (Z.to_nat k + 1) (pl_items l') (gens ++ more) /\ lineage n0' (gens ++ more).
Proof.
  intros Hk HX HA HG HN. unfold visit in HX. apply bind_ok in HX. destruct HX as [p [HP HX]]. apply pl_get_inv in HP. destruct HP as [_ HP].
  eapply ahead_procs; eauto. cbn [pl_set pl_items]. apply ahead_push; auto.
Qed.

Lemma ahead_visits t i j l g l' g' : visits E w i j l g l' g' -> forall gens, (0 <= i)%Z ->
  ahead t dt (Z.to_nat i) (pl_items l) gens -> lineage n0' gens -> (n0' <= length gens)%nat ->
  exists more, ahead t dt (Z.to_nat j) (pl_items l') (gens ++ more) /\ lineage n0' (gens ++ more).
Proof.
  induction 1 as [i l g|i j l g l1 g1 l2 g2 H1 H2 IH]; intros gens Hi HA HG HN; [exists []; rewrite app_nil_r; auto|].
  destruct (ahead_visit t i l g l1 g1 gens Hi H1 HA HG HN) as (m1 & A1 & G1).
  destruct (IH (gens ++ m1)) as (m2 & A2 & G2); auto; [lia| |rewrite app_length; lia|].
  - replace (Z.to_nat (i + 1)) with (Z.to_nat i + 1)%nat by lia. auto.
  - exists (m1 ++ m2). rewrite app_assoc. auto.
Qed.

Lemma ahead_pass t l g l' g' gens : pass E w l g = Ok (l', g') ->
  ahead t dt 0 (pl_items l) gens -> lineage n0' gens -> (n0' <= length gens)%nat ->
  exists more, ahead (t + dt) dt 0 (pl_items l') (gens ++ more) /\ lineage n0' (gens ++ more).
Proof.
  intros HX HA HG HN. apply pass_from_visits in HX; [|apply pl_n_nonneg].
  destruct (ahead_visits t _ _ _ _ _ _ HX gens) as (more & [A1 A2] & G); auto; [lia|].
  exists more. split; [|auto]. split; [auto|]. intros i p gi Hp Hg Ha. rewrite (A2 i p gi Hp Hg Ha).
  assert (HI : (i <? Z.to_nat (pl_n l'))%nat = true).
  { apply Nat.ltb_lt. unfold pl_n. rewrite Nat2Z.id. apply nth_error_Some. congruence. }
  rewrite HI. cbn. lra.
Qed.

Lemma ahead_passes t n : forall l g l' g' gens, passes E w n l g = Ok (l', g') ->
  ahead t dt 0 (pl_items l) gens -> lineage n0' gens -> (n0' <= length gens)%nat ->
  exists more, ahead (t + INR n * dt) dt 0 (pl_items l') (gens ++ more) /\ lineage n0' (gens ++ more).
Proof.
  induction n as [|n IH]; intros l g l' g' gens HX HA HG HN; cbn in HX.
  - injection HX; intros; subst. exists []. rewrite app_nil_r. cbn. rewrite Rmult_0_l, Rplus_0_r. auto.
  - apply bind_ok in HX. destruct HX as [[l1 g1] [H1 HX]]. destruct (IH _ _ _ _ _ H1 HA HG HN) as (m1 & A1 & G1).
    destruct (ahead_pass _ _ _ _ _ _ HX A1 G1) as (m2 & A2 & G2); [rewrite app_length; lia|].
    exists (m1 ++ m2). rewrite app_assoc. split; [|auto]. rewrite S_INR.
    replace (t + (INR n + 1) * dt) with (t + INR n * dt + dt) by ring. auto.
Qed.
End Clock.

Lemma lineage_start n : lineage n (repeat O n).
Proof.
  intros i gi Hg. split; [intros; eapply nth_error_repeat; eauto|]. intros Hi.
  assert (i < length (repeat O n))%nat by (apply nth_error_Some; congruence). rewrite repeat_length in *. lia.
Qed.

(** ** Charge sums *)
Definition sumR (l : list R) : R := fold_right Rplus 0 l.
Lemma sumR_app a b : sumR (a ++ b) = sumR a + sumR b.
Proof. unfold sumR. induction a as [|x a IH]; simpl; [ring|]. rewrite IH. ring. Qed.
Lemma sumR_perm a b : Permutation a b -> sumR a = sumR b.
Proof. unfold sumR. induction 1 as [|x l l' _ IH|x y l|l1 l2 l3 _ IH1 _ IH2]; simpl; [reflexivity|rewrite IH; ring|ring|congruence]. Qed.
Lemma sumR_repeat x n : sumR (repeat x n) = INR n * x.
Proof. unfold sumR. induction n as [|n IH]; [simpl; ring|]. rewrite S_INR. simpl repeat. simpl fold_right. rewrite IH. ring. Qed.

(** live charge *)
Definition live_charge (ps : list (particle R)) : R := sumR (map (fun p => if p_alive p then p_charge p else 0) ps).
Definition neutral_photons (ps : list (particle R)) : Prop := forall p, In p ps -> p_type p = PPhoton -> p_charge p = 0.

Lemma live_app a b : live_charge (a ++ b) = live_charge a + live_charge b.
Proof. unfold live_charge. rewrite map_app. apply sumR_app. Qed.

Section Live.
Variable E : Engine R.
Variable w : world R.
Definition live_rel (a b : event R * est E) : Prop :=
  neutral_photons (pl_items (fst a)) ->
  neutral_photons (pl_items (fst b)) /\
  live_charge (pl_items (fst b) ++ pl_lost (fst b)) = live_charge (pl_items (fst a) ++ pl_lost (fst a)).

Lemma live_change k (l : event R) p p' st lo l' : change k l p p' st lo l' ->
  live_charge (pl_items l' ++ pl_lost l') = live_charge (pl_items l ++ pl_lost l) + live_charge (st ++ lo)
    + ((if p_alive p' then p_charge p' else 0) - (if p_alive p then p_charge p else 0)).
Proof.
  intros (C1 & C2 & C3 & _). rewrite C2, C3.
  destruct (upd_split (pl_items l) k p p' C1) as (l1 & l2 & H1 & _ & H2). rewrite H2, H1.
  rewrite !live_app. change (p' :: l2) with ([p'] ++ l2). change (p :: l2) with ([p] ++ l2). rewrite !live_app.
  unfold live_charge at 2 8. cbn. lra.
Qed.

Lemma neutral_change k (l : event R) p p' st lo l' : change k l p p' st lo l' -> same_identity p p' ->
  neutral_photons (pl_items l) -> (forall q, In q st -> p_type q = PPhoton -> p_charge q = 0) -> neutral_photons (pl_items l').
Proof.
  intros (C1 & C2 & _) (I1 & _ & _ & I2 & _) HN HS q Hq Ht. rewrite C2 in Hq. apply in_app_or in Hq. destruct Hq as [Hq|Hq]; [|auto].
  destruct (upd_split (pl_items l) k p p' C1) as (l1 & l2 & H1 & _ & H2). rewrite H2 in Hq.
  apply in_app_or in Hq. destruct Hq as [Hq|[<-|Hq]].
  - apply HN; auto. rewrite H1. apply in_or_app; auto.
  - rewrite I2. apply HN; [rewrite H1; apply in_or_app; right; left; auto|congruence].
  - apply HN; auto. rewrite H1. apply in_or_app; right; right; auto.
Qed.

Lemma run_live {S} htimes fill fuel tEnd l g h (s' : state E S) :
  run_event E w htimes fill fuel tEnd l g h = Ok s' -> live_rel (l, g) (st_ev _ s', st_rng _ s').
Proof.
  apply (lift_run E w live_rel).
  - intros s HN. auto.
  - intros a b c HAB HBC HN. destruct (HAB HN) as [N1 L1]. destruct (HBC N1) as [N2 L2]. split; [auto|congruence].
  - intros k l0 g0 p HP HN. cbn [fst] in *. pose proof (push_change w k l0 p HP) as HC.
    destruct (push_keeps (w_force w) (w_field w) (w_dt w) p) as (K1&K2&K3&K4&K5&_&K7&K8).
    split; [eapply neutral_change; [exact HC| |auto|intros q []]; unfold same_identity; auto 10|].
    rewrite (live_change _ _ _ _ _ _ _ HC). rewrite K8, K4. unfold live_charge at 2. cbn. lra.
  - intros k pr l0 g0 l1 g1 _ HX HN. cbn [fst] in *. apply call_process_change in HX.
    destruct HX as (_ & p & p' & st & lo & HC & [HB1 HB] & HI & _ & _ & HA & l2 & HIn & _).
    split.
    + eapply neutral_change; eauto. intros q Hq Hty.
      assert (HQ : In q (st ++ lo)) by (apply in_or_app; auto).
      destruct HB as [[HB _]|[(ph & HB & (_ & _ & _ & HPh) & _)|(po & el & HB & (T1 & _) & (T2 & _) & _)]]; rewrite HB in HQ.
      * destruct HQ.
      * destruct HQ as [<-|[]]. rewrite HPh. apply n0_R.
      * destruct HQ as [<-|[<-|[]]]; congruence.
    + rewrite (live_change _ _ _ _ _ _ _ HC). destruct HI as (I1 & _ & _ & I2 & _). rewrite I2.
      destruct HB as [[HB HAl]|[(ph & HB & (_ & _ & _ & HPh) & HAl & HAl')|(po & el & HB & (T1 & _ & _ & Q1) & (T2 & _ & _ & Q2) & _ & _ & TP & HD)]]; rewrite HB in *.
      * rewrite HAl. unfold live_charge at 2. cbn. lra.
      * destruct (HB1 ph (or_introl eq_refl)) as (Hph & _). rewrite HAl, HAl'. unfold live_charge at 2. cbn. rewrite Hph, HPh. rewrite n0_R. lra.
      * destruct (HB1 po (or_introl eq_refl)) as (Hpo & _). destruct (HB1 el (or_intror (or_introl eq_refl))) as (Hel & _).
        assert (HQ : p_charge p = 0) by (apply HN; auto; destruct HC as (C1 & _); eapply nth_error_In; eauto). rewrite HQ.
        unfold live_charge at 2. cbn. rewrite Hpo, Hel, Q1, Q2, n1_R. rlit. destruct (p_alive p'), (p_alive p); lra.
Qed.
End Live.
