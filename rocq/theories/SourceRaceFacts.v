(** * Concurrent GenerateList: proofs over all schedules *)
From Coq Require Import ZArith Lia List Bool.
From Verif Require Import Outcome OutcomeFacts SourceRace.
Import ListNotations.

Definition active (s : rstate) : nat := length (filter (fun c => match c with Some _ => true | None => false end) (r_calls s)).
(** calls begun so far, including one that ended the program *)
Definition begun (s : rstate) : nat := length (r_done s) + active s + (if r_exit s then 1 else 0).

Lemma filter_upd {A} (f : A -> bool) (l : list A) t a x : nth_error l t = Some a ->
  length (filter f (upd l t x)) + (if f a then 1 else 0) = length (filter f l) + (if f x then 1 else 0).
Proof.
  revert t; induction l as [|y l IH]; intros [|t] Hn; cbn in Hn; try discriminate.
  - injection Hn as ->. cbn. destruct (f a), (f x); cbn; lia.
  - cbn. specialize (IH t Hn). destruct (f y); cbn; lia.
Qed.

Definition rinv (N : nat) (s : rstate) : Prop :=
  r_count s <= length (r_done s) /\
  (forall vs v, In (Some (Loaded vs v)) (r_calls s) -> v <= length (r_done s)) /\
  (r_exit s = true -> N < begun s) /\
  (r_oob s = true -> N < begun s) /\
  (forall vs, In vs (r_done s) -> length vs = reads) /\
  (forall vs v, In (Some (Loaded vs v)) (r_calls s) -> length vs = reads) /\
  (forall vs, In (Some (Reading vs)) (r_calls s) -> length vs <= reads).

Lemma in_upd {A} (l : list A) t x y : In y (upd l t x) -> y = x \/ In y l.
Proof.
  revert t; induction l as [|z l IH]; intros [|t]; cbn; auto.
  - intros [->|H]; auto.
  - intros [->|H]; auto. destruct (IH t H); auto.
Qed.

Lemma repeat_none_active k : length (filter (fun c : option call => match c with Some _ => true | None => false end) (repeat None k)) = 0.
Proof. induction k; auto. Qed.

Lemma rinit_inv N k : rinv N (rinit k).
Proof.
  unfold rinv, rinit, begun, active; cbn. repeat split; try discriminate; auto; try tauto.
  - intros vs v Hi. apply repeat_spec in Hi. discriminate.
  - intros vs v Hi. apply repeat_spec in Hi. discriminate.
  - intros vs Hi. apply repeat_spec in Hi. discriminate.
Qed.

Lemma rstep_inv N t s s' : rinv N s -> rstep N t s = Some s' -> rinv N s' /\ begun s <= begun s'.
Proof.
  intros (I1 & I2 & I3 & I4 & I5 & I6 & I7) Hs. unfold rstep in Hs.
  destruct (nth_error (r_calls s) t) as [c|] eqn:Et; [|discriminate].
  destruct (r_exit s) eqn:Ee; [discriminate|].
  assert (Ht : forall x, length (filter (fun c => match c with Some _ => true | None => false end) (upd (r_calls s) t x))
     + (match c with Some _ => 1 | None => 0 end) = active s + (match x with Some _ => 1 | None => 0 end)).
  { intros x. pose proof (filter_upd (fun c => match c with Some _ => true | None => false end) (r_calls s) t c x Et).
    unfold active. destruct c, x; cbn in *; lia. }
  assert (Hact : match c with Some _ => 1 <= active s | None => True end).
  { destruct c; auto. specialize (Ht None). cbn in Ht. lia. }
  pose proof (nth_error_In _ _ Et) as Hin.
  destruct c as [[vs|vs v]|].
  - destruct (Nat.ltb_spec (length vs) reads).
    + injection Hs as <-. unfold rinv, begun, active in *; cbn [r_count r_calls r_done r_exit r_oob].
      specialize (Ht (Some (Reading (vs ++ [r_count s])))). cbn in Ht.
      split; [|rewrite Ee; lia].
      split; [auto|]. split. { intros ws v Hi. apply in_upd in Hi. destruct Hi as [C|Hi]; [discriminate|eauto]. }
      split; [discriminate|]. split.
      { intros Ho. apply orb_true_iff in Ho. destruct Ho as [Ho|Ho].
        - specialize (I4 Ho). rewrite Ee in I4. lia.
        - apply andb_true_iff in Ho. destruct Ho as [_ Ho]. apply Nat.leb_le in Ho. lia. }
      split; [auto|]. split.
      { intros ws v Hi. apply in_upd in Hi. destruct Hi as [C|Hi]; [discriminate|eauto]. }
      intros ws Hi. apply in_upd in Hi. destruct Hi as [C|Hi]; [|eauto].
      injection C as ->. rewrite app_length. cbn. lia.
    + injection Hs as <-. unfold rinv, begun, active in *; cbn [r_count r_calls r_done r_exit r_oob].
      specialize (Ht (Some (Loaded vs (r_count s)))). cbn in Ht.
      split; [|rewrite Ee; lia].
      split; [auto|]. split. { intros ws v Hi. apply in_upd in Hi. destruct Hi as [C|Hi]; [injection C as -> ->; auto|eauto]. }
      split; [discriminate|]. split.
      { intros Ho. specialize (I4 Ho). rewrite Ee in I4. lia. }
      split; [auto|]. split.
      { intros ws v Hi. apply in_upd in Hi. destruct Hi as [C|Hi]; [|eauto]. injection C as -> ->.
        specialize (I7 vs Hin). lia. }
      intros ws Hi. apply in_upd in Hi. destruct Hi as [C|Hi]; [discriminate|eauto].
  - injection Hs as <-. unfold rinv, begun, active in *; cbn [r_count r_calls r_done r_exit r_oob].
    specialize (Ht None). cbn in Ht. rewrite app_length. cbn [length].
    split; [|rewrite Ee; lia].
    specialize (I2 vs v Hin) as Hv.
    split; [lia|]. split.
    { intros ws w Hi. apply in_upd in Hi. destruct Hi as [C|Hi]; [discriminate|]. specialize (I2 ws w Hi). lia. }
    split; [discriminate|]. split. { intros Ho. specialize (I4 Ho). rewrite Ee in I4. lia. }
    split. { intros ws Hi. apply in_app_or in Hi. destruct Hi as [Hi|[<-|[]]]; eauto. }
    split.
    { intros ws w Hi. apply in_upd in Hi. destruct Hi as [C|Hi]; [discriminate|eauto]. }
    intros ws Hi. apply in_upd in Hi. destruct Hi as [C|Hi]; [discriminate|eauto].
  - destruct (Nat.eqb_spec (r_count s) N).
    + injection Hs as <-. unfold rinv, begun, active in *; cbn [r_count r_calls r_done r_exit r_oob].
      specialize (Ht None). cbn in Ht.
      split; [|rewrite Ee; lia].
      split; [auto|]. split. { intros ws w Hi. apply in_upd in Hi. destruct Hi as [C|Hi]; [discriminate|eauto]. }
      split; [lia|]. split; [lia|]. split; [auto|]. split.
      { intros ws w Hi. apply in_upd in Hi. destruct Hi as [C|Hi]; [discriminate|eauto]. }
      intros ws Hi. apply in_upd in Hi. destruct Hi as [C|Hi]; [discriminate|eauto].
    + injection Hs as <-. unfold rinv, begun, active in *; cbn [r_count r_calls r_done r_exit r_oob].
      specialize (Ht (Some (Reading [r_count s]))). cbn in Ht.
      split; [|rewrite Ee; lia].
      split; [auto|]. split. { intros ws w Hi. apply in_upd in Hi. destruct Hi as [C|Hi]; [discriminate|eauto]. }
      split; [discriminate|]. split. { intros Ho. specialize (I4 Ho). rewrite Ee in I4. lia. }
      split; [auto|]. split.
      { intros ws w Hi. apply in_upd in Hi. destruct Hi as [C|Hi]; [discriminate|eauto]. }
      intros ws Hi. apply in_upd in Hi. destruct Hi as [C|Hi]; [|eauto]. injection C as ->. cbn. unfold reads. lia.
Qed.

Lemma rrun_inv N sched : forall s s', rinv N s -> rrun N sched s = Some s' -> rinv N s'.
Proof.
  induction sched as [|t ts IH]; intros s s' Hi Hr; cbn in Hr; [congruence|].
  destruct (rstep N t s) as [s1|] eqn:E1; [|discriminate]. apply (IH s1); auto.
  eapply rstep_inv; eauto.
Qed.

Lemma race_safe N k sched s : rrun N sched (rinit k) = Some s -> begun s <= N ->
  r_exit s = false /\ r_oob s = false /\ (forall vs, In vs (r_done s) -> length vs = reads).
Proof.
  intros Hr Hb. destruct (rrun_inv N sched _ _ (rinit_inv N k) Hr) as (_ & _ & I3 & I4 & I5 & _).
  repeat split; auto.
  - destruct (r_exit s); auto. specialize (I3 eq_refl). lia.
  - destruct (r_oob s); auto. specialize (I4 eq_refl). lia.
Qed.

(** ** Non-overlapping calls *)
Lemma rrun_app N a b s : rrun N (a ++ b) s = match rrun N a s with Some s' => rrun N b s' | None => None end.
Proof. revert s; induction a; intros; cbn; auto. destruct (rstep N a s); auto. Qed.

(** one whole call by thread [t] while the others idle (or are stopped anywhere) *)
Definition one_call (t : nat) : list nat := repeat t (reads + 2).

Lemma upd_upd {A} (l : list A) t x y : upd (upd l t x) t y = upd l t y.
Proof. revert t; induction l; intros [|t]; cbn; auto. f_equal; auto. Qed.
Lemma upd_self {A} (l : list A) t x : nth_error l t = Some x -> upd l t x = l.
Proof. revert t; induction l; intros [|t] Ht; cbn in *; try discriminate; try congruence. f_equal; auto. Qed.
Lemma nth_error_upd_lt {A} (l : list A) t x y : nth_error l t = Some y -> nth_error (upd l t x) t = Some x.
Proof. intros H. apply nth_error_upd_same. apply nth_error_Some. congruence. Qed.

Lemma rstep_start N t s : nth_error (r_calls s) t = Some None -> r_exit s = false -> r_count s < N ->
  rstep N t s = Some (mkR (r_count s) (upd (r_calls s) t (Some (Reading [r_count s]))) (r_done s) false (r_oob s)).
Proof.
  intros H1 H2 H3. unfold rstep. rewrite H1, H2. destruct (Nat.eqb_spec (r_count s) N); [lia|]. reflexivity.
Qed.
Lemma rstep_read N t c cs d o vs : nth_error cs t = Some (Some (Reading vs)) -> length vs < reads -> c < N ->
  rstep N t (mkR c cs d false o) = Some (mkR c (upd cs t (Some (Reading (vs ++ [c])))) d false o).
Proof.
  intros H1 H2 H3. unfold rstep. cbn [r_calls r_exit r_count r_done r_oob]. rewrite H1. destruct (Nat.ltb_spec (length vs) reads); [|lia].
  destruct (Nat.leb_spec N c); [lia|]. rewrite andb_false_r, orb_false_r. reflexivity.
Qed.
Lemma rrun_reads N t c d o : forall m vs cs,
  nth_error cs t = Some (Some (Reading vs)) -> c < N -> length vs + m <= reads ->
  rrun N (repeat t m) (mkR c cs d false o) = Some (mkR c (upd cs t (Some (Reading (vs ++ repeat c m)))) d false o).
Proof.
  induction m as [|m IH]; intros vs cs H1 H2 H3.
  - cbn. rewrite app_nil_r, upd_self; auto.
  - cbn [repeat rrun]. rewrite (rstep_read N t c cs d o vs) by (auto; lia).
    rewrite (IH (vs ++ [c])).
    + rewrite upd_upd, <- app_assoc. reflexivity.
    + eapply nth_error_upd_lt; eauto.
    + auto.
    + rewrite app_length. cbn. lia.
Qed.
Lemma rrun_finish N t c cs d o vs : nth_error cs t = Some (Some (Reading vs)) -> length vs = reads ->
  rrun N [t; t] (mkR c cs d false o) = Some (mkR (S c) (upd cs t None) (d ++ [vs]) false o).
Proof.
  intros H1 H2. cbn [rrun]. unfold rstep at 1. cbn [r_calls r_exit r_count r_done r_oob]. rewrite H1.
  destruct (Nat.ltb_spec (length vs) reads); [lia|].
  unfold rstep. cbn [r_calls r_exit r_count r_done r_oob].
  rewrite (nth_error_upd_lt cs t _ _ H1). rewrite upd_upd. reflexivity.
Qed.

Lemma whole_call N t s : nth_error (r_calls s) t = Some None -> r_exit s = false -> r_count s < N ->
  rrun N (one_call t) s
  = Some (mkR (S (r_count s)) (r_calls s) (r_done s ++ [repeat (r_count s) reads]) false (r_oob s)).
Proof.
  intros H1 H2 H3. unfold one_call. change (reads + 2) with (1 + (10 + 2)).
  rewrite repeat_app, rrun_app. cbn [repeat rrun]. rewrite rstep_start by auto.
  change (repeat t (10 + 2)) with (repeat t (10 + 2)). rewrite (repeat_app t 10 2), rrun_app.
  rewrite (rrun_reads N t _ _ _ 10 [r_count s]).
  - change (repeat t 2) with [t; t]. rewrite upd_upd.
    rewrite (rrun_finish N t _ _ _ _ ([r_count s] ++ repeat (r_count s) 10)).
    + rewrite upd_upd, upd_self by auto. reflexivity.
    + eapply nth_error_upd_lt; eauto.
    + reflexivity.
  - eapply nth_error_upd_lt; eauto.
  - auto.
  - cbn. unfold reads. lia.
Qed.

Lemma serial_calls N k ts : forall s,
  r_calls s = repeat None k -> r_exit s = false -> (forall t, In t ts -> t < k) ->
  r_count s + length ts <= N ->
  rrun N (flat_map one_call ts) s
  = Some (mkR (r_count s + length ts) (repeat None k)
       (r_done s ++ map (fun i => repeat i reads) (seq (r_count s) (length ts))) false (r_oob s)).
Proof.
  induction ts as [|t ts IH]; intros s Hc He Ht HN.
  - cbn. rewrite app_nil_r, Nat.add_0_r. destruct s; cbn in *; subst; auto.
  - cbn [flat_map length seq map]. rewrite rrun_app, whole_call; auto.
    + rewrite IH; cbn [r_calls r_exit r_count r_done r_oob]; auto.
      * rewrite <- app_assoc. cbn. do 2 f_equal. lia.
      * intros; apply Ht; right; auto.
      * cbn in HN. lia.
    + rewrite Hc. specialize (Ht t (or_introl eq_refl)). clear -Ht.
      revert t Ht; induction k; intros t Ht; [lia|]. destruct t; cbn; auto. apply IHk. lia.
    + cbn in HN. lia.
Qed.

Lemma serial_from_start N k ts : (forall t, In t ts -> t < k) -> length ts <= N ->
  rrun N (flat_map one_call ts) (rinit k)
  = Some (mkR (length ts) (repeat None k) (map (fun i => repeat i reads) (seq 0 (length ts))) false false).
Proof. intros. rewrite (serial_calls N k ts (rinit k)); auto. Qed.

(** ** Bad schedules, for every number of events N >= 2 and of threads >= 2 *)
Lemma nth_repeat_none (k t : nat) : t < k -> nth_error (repeat (@None call) k) t = Some None.
Proof. revert t; induction k; intros t Ht; [lia|]. destruct t; cbn; auto. apply IHk. lia. Qed.

Definition dup_schedule (N : nat) : list nat :=
  repeat 0 reads ++ repeat 1 reads ++ [0; 0] ++ [1; 1] ++ flat_map one_call (repeat 0 (N - 2)).

Lemma race_duplicate N k : 2 <= N -> 2 <= k ->
  rrun N (dup_schedule N) (rinit k)
  = Some (mkR N (repeat None k)
      (repeat 0 reads :: repeat 0 reads :: map (fun i => repeat i reads) (seq 2 (N - 2))) false false).
Proof.
  intros HN Hk. unfold dup_schedule.
  destruct k as [|[|k]]; try lia.
  change (repeat 0 reads) with (repeat 0 (1 + 10)) at 1. change (repeat 1 reads) with (repeat 1 (1 + 10)) at 1.
  rewrite (repeat_app 0 1 10), (repeat_app 1 1 10).
  rewrite !rrun_app. cbn [repeat].
  replace (rrun N [0] (rinit (S (S k)))) with (Some (mkR 0 (Some (Reading [0]) :: None :: repeat None k) [] false false)).
  2:{ cbn [rrun]. rewrite rstep_start; cbn; auto. lia. }
  rewrite (rrun_reads N 0 0 [] false 10 [0]); cbn [nth_error length]; auto; try (unfold reads; lia).
  cbn [upd].
  rewrite !rrun_app.
  match goal with |- context [rrun N [1] ?S0] =>
    replace (rrun N [1] S0) with
      (Some (mkR 0 (Some (Reading (repeat 0 11)) :: Some (Reading [0]) :: repeat None k) [] false false)) end.
  2:{ cbn [rrun]. rewrite rstep_start; cbn; auto. lia. }
  rewrite (rrun_reads N 1 0 [] false 10 [0]); cbn [nth_error length]; auto; try (unfold reads; lia).
  cbn [upd].
  rewrite rrun_app.
  rewrite (rrun_finish N 0 0 _ [] false (repeat 0 11)); [|reflexivity|reflexivity]. cbn [upd].
  rewrite rrun_app.
  rewrite (rrun_finish N 1 1 _ _ false ([0] ++ repeat 0 10)); [|reflexivity|reflexivity]. cbn [upd].
  change (None :: None :: repeat None k) with (repeat (@None call) (S (S k))).
  rewrite (serial_calls N (S (S k)) (repeat 0 (N - 2))); cbn [r_calls r_exit r_count r_done r_oob]; auto.
  - rewrite repeat_length. f_equal. f_equal. lia.
  - intros t Ht. apply repeat_spec in Ht. lia.
  - rewrite repeat_length. lia.
Qed.

(** sample 1 is used by no event *)
Lemma race_skip N i vs : In vs (repeat 0 reads :: repeat 0 reads :: map (fun i => repeat i reads) (seq 2 (N - 2))) ->
  In i vs -> i <> 1.
Proof.
  intros [<-|[<-|Hi]] Hv; try (apply repeat_spec in Hv; lia).
  apply in_map_iff in Hi. destruct Hi as (j & <- & Hj). apply repeat_spec in Hv. apply in_seq in Hj. lia.
Qed.

(** a lost increment: both threads load 0 and store 1, so N + 1 calls are served and none ends the program *)
Definition lost_schedule (N : nat) : list nat :=
  repeat 0 reads ++ repeat 1 reads ++ [0; 1; 0; 1] ++ flat_map one_call (repeat 0 (N - 1)).

Lemma race_lost N k : 1 <= N -> 2 <= k ->
  rrun N (lost_schedule N) (rinit k)
  = Some (mkR N (repeat None k)
      (repeat 0 reads :: repeat 0 reads :: map (fun i => repeat i reads) (seq 1 (N - 1))) false false).
Proof.
  intros HN Hk. unfold lost_schedule.
  destruct k as [|[|k]]; try lia.
  change (repeat 0 reads) with (repeat 0 (1 + 10)) at 1. change (repeat 1 reads) with (repeat 1 (1 + 10)) at 1.
  rewrite (repeat_app 0 1 10), (repeat_app 1 1 10).
  rewrite !rrun_app. cbn [repeat].
  replace (rrun N [0] (rinit (S (S k)))) with (Some (mkR 0 (Some (Reading [0]) :: None :: repeat None k) [] false false)).
  2:{ cbn [rrun]. rewrite rstep_start; cbn; auto. }
  rewrite (rrun_reads N 0 0 [] false 10 [0]); cbn [nth_error length]; auto; try (unfold reads; lia).
  cbn [upd].
  rewrite !rrun_app.
  match goal with |- context [rrun N [1] ?S0] =>
    replace (rrun N [1] S0) with
      (Some (mkR 0 (Some (Reading (repeat 0 11)) :: Some (Reading [0]) :: repeat None k) [] false false)) end.
  2:{ cbn [rrun]. rewrite rstep_start; cbn; auto. }
  rewrite (rrun_reads N 1 0 [] false 10 [0]); cbn [nth_error length]; auto; try (unfold reads; lia).
  cbn [upd].
  rewrite rrun_app.
  match goal with |- context [rrun N [0; 1; 0; 1] ?S0] =>
    replace (rrun N [0; 1; 0; 1] S0) with
      (Some (mkR 1 (repeat None (S (S k))) [repeat 0 reads; repeat 0 reads] false false)) end.
  2:{ reflexivity. }
  rewrite (serial_calls N (S (S k)) (repeat 0 (N - 1))); cbn [r_calls r_exit r_count r_done r_oob]; auto.
  - rewrite repeat_length. f_equal. f_equal. lia.
  - intros t Ht. apply repeat_spec in Ht. lia.
  - rewrite repeat_length. lia.
Qed.

Definition torn_schedule : list nat := repeat 0 4 ++ one_call 1 ++ repeat 0 (reads - 4) ++ [0; 0].
Lemma race_torn : rrun 2 torn_schedule (rinit 2)
  = Some (mkR 2 [None; None] [repeat 0 reads; repeat 0 4 ++ repeat 1 7] false false).
Proof. reflexivity. Qed.

(** one call too many can read behind the tables *)
Definition oob_schedule : list nat := [0] ++ one_call 1 ++ [0; 0].
Lemma race_oob : exists s, rrun 1 oob_schedule (rinit 2) = Some s /\ r_oob s = true /\ begun s = 2.
Proof.
  destruct (rrun 1 oob_schedule (rinit 2)) as [s|] eqn:Er; [|vm_compute in Er; discriminate].
  exists s. split; auto. vm_compute in Er. injection Er as <-. split; reflexivity.
Qed.
