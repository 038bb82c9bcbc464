(** * Proof rules for the message-passing programs *)
From Coq Require Import String ZArith List Bool Lia Arith.
From Verif Require Import Num Outcome OutcomeFacts Vec Units Particle ParticleList Fields Sim SimFacts Histogram Hdf5 Output OutFacts OutFile Mpi.
Import ListNotations.

Section Rules.
Context {T : Type}.

(** Every schedule of [p] against the pending actions [ps] of the other ranks ends in [Q]; messages are received in the order in
    which they are sent, so blocking sends cannot block for ever. *)
Fixpoint wp {A} (p : prog T A) (ps : list (list (act T))) (Q : A -> list (list (act T)) -> Prop) : Prop :=
  match p with
  | Ret a => Q a ps
  | Fail => False
  | Probe i tag k => exists m r, nth_error ps i = Some (ASend m :: r) /\ m_tag m = tag /\ wp (k (psize (m_data m))) ps Q
  | RecvD (Some i) tag mx k =>
      exists l r, nth_error ps i = Some (ASend (mkMsg tag (PD l)) :: r) /\ (Z.of_nat (length l) <= mx)%Z /\ wp (k l) (upd ps i r) Q
  | RecvD None tag mx k =>
      (exists i m r, nth_error ps i = Some (ASend m :: r)) /\
      forall i m r, nth_error ps i = Some (ASend m :: r) ->
        exists l, m = mkMsg tag (PD l) /\ (Z.of_nat (length l) <= mx)%Z /\ wp (k l) (upd ps i r) Q
  | RecvI i tag mx k =>
      exists l r, nth_error ps i = Some (ASend (mkMsg tag (PI l)) :: r) /\ (Z.of_nat (length l) <= mx)%Z /\ wp (k l) (upd ps i r) Q
  | Barrier k => (forall p, In p ps -> exists r, p = ABar :: r) /\ wp k (map (@tl _) ps) Q
  end.

Lemma wp_mono {A} (p : prog T A) : forall ps (Q R : A -> list (list (act T)) -> Prop), (forall a ps', Q a ps' -> R a ps') -> wp p ps Q -> wp p ps R.
Proof.
  induction p as [a| |i tag k IH|[i|] tag mx k IH|i tag mx k IH|k IH]; intros ps Q R HQ HW; cbn [wp] in *; auto.
  - destruct HW as (m & r & A1 & A2 & A3). exists m, r. split; [auto|]. split; [auto|]. eapply IH; eauto.
  - destruct HW as (l & r & A1 & A2 & A3). exists l, r. split; [auto|]. split; [auto|]. eapply IH; eauto.
  - destruct HW as [HE HW]. split; [auto|]. intros i m r HN. destruct (HW i m r HN) as (l & A1 & A2 & A3). exists l. split; [auto|]. split; [auto|]. eapply IH; eauto.
  - destruct HW as (l & r & A1 & A2 & A3). exists l, r. split; [auto|]. split; [auto|]. eapply IH; eauto.
  - destruct HW as [HB HW]. split; [auto|]. eapply IH; eauto.
Qed.
Lemma wp_bind {A B} (p : prog T A) (f : A -> prog T B) : forall ps Q, wp p ps (fun a ps' => wp (f a) ps' Q) -> wp (pbind p f) ps Q.
Proof.
  induction p as [a| |i tag k IH|[i|] tag mx k IH|i tag mx k IH|k IH]; intros ps Q HW; cbn [wp pbind] in *; auto.
  - destruct HW as (m & r & A1 & A2 & A3). exists m, r. split; [auto|]. split; [auto|]. apply IH; auto.
  - destruct HW as (l & r & A1 & A2 & A3). exists l, r. split; [auto|]. split; [auto|]. apply IH; auto.
  - destruct HW as [HE HW]. split; [auto|]. intros i m r HN. destruct (HW i m r HN) as (l & A1 & A2 & A3). exists l. split; [auto|]. split; [auto|]. apply IH; auto.
  - destruct HW as (l & r & A1 & A2 & A3). exists l, r. split; [auto|]. split; [auto|]. apply IH; auto.
  - destruct HW as [HB HW]. split; [auto|]. apply IH; auto.
Qed.

Definition pend (sl : slave T) : list (act T) := map (fun x => ASend (fst x)) (sl_queue sl) ++ sl_rest sl.
Definition flags (sl : slave T) : Prop := exists n, map snd (sl_queue sl) = repeat false n ++ (if sl_wait sl then [true] else []).
Definition inv {A} (w : world T A) (Q : A -> list (list (act T)) -> Prop) : Prop :=
  wp (w_master w) (map pend (w_slaves w)) Q /\ Forall flags (w_slaves w).

Lemma map_upd {X Y} (f : X -> Y) l : forall i x, map f (upd l i x) = upd (map f l) i (f x).
Proof. induction l as [|y l IH]; intros [|i] x; cbn; auto. rewrite IH. auto. Qed.
Lemma upd_same {X} (l : list X) : forall i x, nth_error l i = Some x -> upd l i x = l.
Proof. induction l as [|y l IH]; intros [|i] x HN; cbn in *; try discriminate; [congruence|]. rewrite IH; auto. Qed.
Lemma Forall_upd {X} (P : X -> Prop) l : forall i x, Forall P l -> P x -> Forall P (upd l i x).
Proof. induction l as [|y l IH]; intros [|i] x HF HP; cbn; inversion HF; subst; constructor; auto. Qed.
Lemma nth_pend (ss : list (slave T)) i sl : nth_error ss i = Some sl -> nth_error (map pend ss) i = Some (pend sl).
Proof. intros HN. rewrite nth_error_map, HN. reflexivity. Qed.

(** receiving the first pending message *)
Lemma recv_head sl tag m b q x r : take tag (sl_queue sl) = Some (m, b, q) -> pend sl = ASend x :: r -> m_tag x = tag -> flags sl ->
  m = x /\ pend (received sl b q) = r /\ flags (received sl b q).
Proof.
  destruct sl as [queue rest wait]. unfold pend, flags, received. cbn [sl_queue sl_rest sl_wait]. intros HT HP HX (n & HF).
  destruct queue as [|[y c] queue]; [discriminate|]. cbn [map fst app] in HP. injection HP; intros HR ->. cbn [take fst] in HT.
  rewrite HX, Z.eqb_refl in HT. injection HT; intros <- <- <-. split; [auto|]. split; [auto|]. cbn [map snd] in HF.
  destruct n as [|n].
  - cbn [repeat app] in HF. destruct wait; [|discriminate]. injection HF; intros HE ->. exists 0%nat. cbn [repeat app]. exact HE.
  - cbn [repeat app] in HF. injection HF; intros HE ->. exists n. exact HE.
Qed.
Lemma take_nonempty tag (q : list (msg T * bool)) y r : take tag q = Some (y, r) -> exists x q', q = x :: q'.
Proof. destruct q; [discriminate|eauto]. Qed.

Lemma inv_step {A} (w w' : world T A) Q : step w w' -> inv w Q -> inv w' Q.
Proof.
  intros HS [HW HF]. destruct HS as [P ss i sl m r b HN H1 H2|ss src tag k sl m b q HN HT|ss src tag mx k i sl m b q l HN HI HT HD HL|ss src tag mx k i sl m b q HN HI HT HB
     |ss src tag mx k sl m b q l HN HT HD HL|ss src tag mx k sl m b q HN HT HB|ss k HB]; cbn [w_master w_slaves] in *.
  - assert (FS : flags sl) by (rewrite Forall_forall in HF; apply HF; eapply nth_error_In; eauto). split; cbn [w_master w_slaves].
    + rewrite map_upd. replace (pend (mkSl (sl_queue sl ++ [(m, b)]) r b)) with (pend sl).
      * rewrite upd_same; [auto|apply nth_pend; auto].
      * unfold pend. cbn [sl_queue sl_rest]. rewrite map_app, <- app_assoc, H2. reflexivity.
    + apply Forall_upd; auto. destruct FS as (n & FS). rewrite H1, app_nil_r in FS. unfold flags. cbn [sl_queue sl_wait]. rewrite map_app, FS. cbn [map snd].
      destruct b; [exists n; auto|]. exists (n + 1)%nat. rewrite app_nil_r. rewrite repeat_app. reflexivity.
  - cbn [wp] in HW. destruct HW as (x & r & A1 & A2 & A3). rewrite (nth_pend _ _ _ HN) in A1. injection A1; intros A1'.
    assert (FS : flags sl) by (rewrite Forall_forall in HF; apply HF; eapply nth_error_In; eauto).
    destruct (recv_head sl tag m b q x r HT A1' A2 FS) as (-> & _). split; auto.
  - assert (FS : flags sl) by (rewrite Forall_forall in HF; apply HF; eapply nth_error_In; eauto). destruct src as [j|]; cbn [wp from] in *.
    + subst j. destruct HW as (l' & r & A1 & A2 & A3). rewrite (nth_pend _ _ _ HN) in A1. injection A1; intros A1'.
      destruct (recv_head sl tag m b q _ r HT A1' eq_refl FS) as (-> & P1 & F1). cbn [m_data] in HD. injection HD; intros ->. split; cbn [w_master w_slaves]; [rewrite map_upd, P1; auto|apply Forall_upd; auto].
    + destruct HW as [_ HW]. destruct (take_nonempty _ _ _ _ HT) as ([x c] & q' & EQ).
      assert (PE : pend sl = ASend x :: map (fun x => ASend (fst x)) q' ++ sl_rest sl) by (unfold pend; rewrite EQ; reflexivity).
      destruct (HW i x _ (eq_trans (nth_pend _ _ _ HN) (f_equal Some PE))) as (l' & A1 & A2 & A3).
      destruct (recv_head sl tag m b q x _ HT PE) as (-> & P1 & F1); [rewrite A1; auto|auto|]. rewrite A1 in HD. cbn [m_data] in HD. injection HD; intros ->.
      split; cbn [w_master w_slaves]; [rewrite map_upd, P1; auto|apply Forall_upd; auto].
  - exfalso. apply HB. assert (FS : flags sl) by (rewrite Forall_forall in HF; apply HF; eapply nth_error_In; eauto). destruct src as [j|]; cbn [wp from] in *.
    + subst j. destruct HW as (l' & r & A1 & A2 & A3). rewrite (nth_pend _ _ _ HN) in A1. injection A1; intros A1'.
      destruct (recv_head sl tag m b q _ r HT A1' eq_refl FS) as (-> & _). exists l'; auto.
    + destruct HW as [_ HW]. destruct (take_nonempty _ _ _ _ HT) as ([x c] & q' & EQ).
      assert (PE : pend sl = ASend x :: map (fun x => ASend (fst x)) q' ++ sl_rest sl) by (unfold pend; rewrite EQ; reflexivity).
      destruct (HW i x _ (eq_trans (nth_pend _ _ _ HN) (f_equal Some PE))) as (l' & A1 & A2 & A3).
      destruct (recv_head sl tag m b q x _ HT PE) as (-> & P1 & F1); [rewrite A1; auto|auto|]. rewrite A1. exists l'; auto.
  - assert (FS : flags sl) by (rewrite Forall_forall in HF; apply HF; eapply nth_error_In; eauto). cbn [wp] in HW.
    destruct HW as (l' & r & A1 & A2 & A3). rewrite (nth_pend _ _ _ HN) in A1. injection A1; intros A1'.
    destruct (recv_head sl tag m b q _ r HT A1' eq_refl FS) as (-> & P1 & F1). cbn [m_data] in HD. injection HD; intros ->. split; cbn [w_master w_slaves]; [rewrite map_upd, P1; auto|apply Forall_upd; auto].
  - exfalso. apply HB. assert (FS : flags sl) by (rewrite Forall_forall in HF; apply HF; eapply nth_error_In; eauto). cbn [wp] in HW.
    destruct HW as (l' & r & A1 & A2 & A3). rewrite (nth_pend _ _ _ HN) in A1. injection A1; intros A1'.
    destruct (recv_head sl tag m b q _ r HT A1' eq_refl FS) as (-> & _). exists l'; auto.
  - cbn [wp] in HW. destruct HW as [HP HW]. split; cbn [w_master w_slaves].
    + assert (HE : map (@tl _) (map pend ss) = map pend (map (fun sl => mkSl (sl_queue sl) (tl (sl_rest sl)) (sl_wait sl)) ss)); [|rewrite <- HE; exact HW]. rewrite !map_map. apply map_ext_in. intros sl Hsl.
      destruct (HP (pend sl)) as (r & EP); [apply in_map; auto|]. unfold pend in *. cbn [sl_queue sl_rest]. destruct (sl_queue sl); [reflexivity|discriminate].
    + apply Forall_forall. intros sl Hsl. apply in_map_iff in Hsl. destruct Hsl as (sl0 & <- & Hsl). rewrite Forall_forall in HF. apply (HF _ Hsl).
Qed.

Lemma inv_reach {A} (w w' : world T A) Q : reach w w' -> inv w Q -> inv w' Q.
Proof. induction 1; intros HI; auto. eapply inv_step; eauto. Qed.

Definition nothing_left {A} (Q : A -> Prop) (a : A) (ps : list (list (act T))) : Prop := Q a /\ Forall (fun p => p = []) ps.

Lemma inv_progress {A} (w : world T A) Q : inv w (nothing_left Q) -> (exists a, done w a /\ Q a) \/ exists w', step w w'.
Proof.
  destruct w as [P ss]. intros [HW HF]. cbn [w_master w_slaves] in *.
  assert (HEAD : forall i x r, nth_error (map pend ss) i = Some (ASend x :: r) ->
     exists sl, nth_error ss i = Some sl /\ (exists b q, take (m_tag x) (sl_queue sl) = Some (x, b, q)) \/ exists w', step (mkW P ss) w').
  { intros i x r HN. rewrite nth_error_map in HN. destruct (nth_error ss i) as [sl|] eqn:EN; [|discriminate]. cbn in HN. injection HN; intros HP. exists sl.
    unfold pend in HP. destruct (sl_queue sl) as [|[y c] q] eqn:EQ.
    - right. cbn in HP. assert (FS : flags sl) by (rewrite Forall_forall in HF; apply HF; eapply nth_error_In; eauto). destruct FS as (n & FS). rewrite EQ in FS. cbn in FS.
      destruct (sl_wait sl) eqn:EW; [destruct n; discriminate|]. eexists. eapply (st_send P ss i sl x r false); eauto.
    - left. cbn [map fst app] in HP. injection HP; intros _ ->. split; [auto|]. exists c, q. cbn [take fst]. rewrite Z.eqb_refl. reflexivity. }
  destruct P as [a| |i tag k|[i|] tag mx k|i tag mx k|k]; cbn [wp] in HW.
  - left. exists a. destruct HW as [HQ HN]. split; [|auto]. split; [reflexivity|]. cbn [w_slaves]. rewrite Forall_forall in *. intros sl Hsl.
    pose proof (HN (pend sl) (in_map _ _ _ Hsl)) as HP. unfold pend in HP. apply app_eq_nil in HP. destruct HP as [HP1 HP2]. apply map_eq_nil in HP1.
    split; [auto|]. split; [auto|]. destruct (HF _ Hsl) as (n & FS). rewrite HP1 in FS. destruct (sl_wait sl); [destruct n; discriminate|reflexivity].
  - contradiction.
  - right. destruct HW as (m & r & A1 & A2 & A3). destruct (HEAD _ _ _ A1) as (sl & [(HN & b & q & HT)|HS]); [|exact HS]. rewrite A2 in HT. eexists. eapply st_probe; eauto.
  - right. destruct HW as (l & r & A1 & A2 & A3). destruct (HEAD _ _ _ A1) as (sl & [(HN & b & q & HT)|HS]); [|exact HS]. eexists. eapply (st_recvd ss (Some i)); eauto; reflexivity.
  - right. destruct HW as [(i & m & r & A1) HW]. destruct (HW _ _ _ A1) as (l & -> & A2 & A3). destruct (HEAD _ _ _ A1) as (sl & [(HN & b & q & HT)|HS]); [|exact HS].
    eexists. eapply (st_recvd ss None); eauto; try reflexivity; exact I.
  - right. destruct HW as (l & r & A1 & A2 & A3). destruct (HEAD _ _ _ A1) as (sl & [(HN & b & q & HT)|HS]); [|exact HS]. eexists. eapply st_recvi; eauto; reflexivity.
  - right. destruct HW as [HB HW]. eexists. apply st_barrier. intros sl Hsl. destruct (HB (pend sl) (in_map _ _ _ Hsl)) as (r & HP).
    rewrite Forall_forall in HF. destruct (HF _ Hsl) as (n & FS). unfold pend in HP. destruct (sl_queue sl) as [|x q]; [|discriminate]. cbn in HP, FS.
    split; [destruct (sl_wait sl); [destruct n; discriminate|reflexivity]|]. eauto.
Qed.

(** no run is infinite, whatever the programs *)
Definition todo (ss : list (slave T)) : nat := fold_right (fun sl n => length (sl_rest sl) + n)%nat 0%nat ss.
Lemma todo_cons s ss : todo (s :: ss) = (length (sl_rest s) + todo ss)%nat.
Proof. reflexivity. Qed.
Lemma todo_upd ss : forall i sl sl', nth_error ss i = Some sl -> (length (sl_rest sl') < length (sl_rest sl))%nat -> (todo (upd ss i sl') < todo ss)%nat.
Proof.
  induction ss as [|s ss IH]; intros [|i] sl sl' HN HL; cbn [nth_error upd] in *; try discriminate; rewrite !todo_cons; [injection HN; intros ->; lia|].
  specialize (IH _ _ _ HN HL). lia.
Qed.
Lemma step_acc {A} (P : prog T A) : forall ss, Acc (fun w' w => step w w') (mkW P ss).
Proof.
  induction P as [a| |i tag k IH|src tag mx k IH|i tag mx k IH|k IH]; intros ss; remember (todo ss) as n eqn:EN; revert ss EN;
   induction n as [n IHn] using lt_wf_ind; intros ss ->; constructor; intros w' HS; inversion HS; subst; auto.
  all: try (eapply IHn; [|reflexivity]; eapply todo_upd; eauto; cbn [sl_rest]; match goal with HR : sl_rest _ = _ :: _ |- _ => rewrite HR end; cbn [length]; lia).
  all: clear; remember (todo ss) as n eqn:EN; revert ss EN; induction n as [n IHn] using lt_wf_ind; intros ss ->; constructor; intros w' HS; inversion HS; subst;
    eapply IHn; [|reflexivity]; eapply todo_upd; eauto; cbn [sl_rest]; match goal with HR : sl_rest _ = _ :: _ |- _ => rewrite HR end; cbn [length]; lia.
Qed.

(** What [wp] means for all schedules: no failure, no deadlock, no infinite run, and the final result. *)
Theorem wp_sound {A} (P : prog T A) rs Q : wp P rs (nothing_left Q) ->
  Acc (fun w' w => step w w') (start P rs) /\
  forall w, reach (start P rs) w -> w_master w <> Fail /\ ((exists a, done w a /\ Q a) \/ exists w', step w w') /\ (forall a, w_master w = Ret a -> Q a).
Proof.
  intros HW. split; [apply step_acc|]. intros w HR.
  assert (I0 : inv (start P rs) (nothing_left Q)).
  { split; cbn [start w_master w_slaves].
    - rewrite map_map. cbn. rewrite map_id. auto.
    - apply Forall_forall. intros sl Hsl. apply in_map_iff in Hsl. destruct Hsl as (r & <- & _). exists 0%nat. reflexivity. }
  pose proof (inv_reach _ _ _ HR I0) as IW. split; [|split].
  - intros HX. destruct IW as [HWP _]. rewrite HX in HWP. exact HWP.
  - apply inv_progress. auto.
  - intros a HA. destruct IW as [HWP _]. rewrite HA in HWP. apply HWP.
Qed.
End Rules.
