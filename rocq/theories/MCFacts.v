(** * Random numbers and units: proofs *)
From Coq Require Import String ZArith Reals Lra Lia List Bool.
From Verif Require Import Num RNum Outcome OutcomeFacts MCTools Units SpecTable.
Import ListNotations.
Local Open Scope R_scope.

(** ** C12 *)
Definition is_seed {T} (c : mc_call (T := T)) : bool :=
  match c with CSetSeed _ => true | _ => false end.

(** results of the calls that are not SetSeed *)
Fixpoint draws {T} (cs : list (mc_call (T := T))) (rs : list (mc_result (T := T))) : list (mc_result (T := T)) :=
  match cs, rs with
  | c :: ct, r :: rt => if is_seed c then draws ct rt else r :: draws ct rt
  | _, _ => []
  end.

Lemma step_engine {T} `{Num T} (E : Engine T) c (w1 w2 : world E) :
  w_engine E w1 = w_engine E w2 ->
  fst (mc_step E c w1) = fst (mc_step E c w2) /\
  w_engine E (snd (mc_step E c w1)) = w_engine E (snd (mc_step E c w2)) /\
  (is_seed c = true -> w_engine E (snd (mc_step E c w1)) = w_engine E w1).
Proof.
  intros Hw. destruct c as [sd | lo hi | mn sg | ds | mn sg n | lo hi n]; cbn [mc_step is_seed]; rewrite <- Hw.
  - cbn; auto.
  - destruct (rand_double E lo hi (w_engine E w1)); cbn; repeat split; auto; discriminate.
  - destruct (rand_norm E mn sg (w_engine E w1)); cbn; repeat split; auto; discriminate.
  - destruct (rand_discrete E ds (w_engine E w1)) as [[r g]| | | | ]; cbn; repeat split; auto; discriminate.
  - destruct (sample_norm E mn sg n (w_engine E w1)); cbn; repeat split; auto; discriminate.
  - destruct (sample_uniform E lo hi n (w_engine E w1)); cbn; repeat split; auto; discriminate.
Qed.

Lemma seed_irrelevant {T} `{Num T} (E : Engine T) : forall cs (w1 w2 : world E),
  w_engine E w1 = w_engine E w2 ->
  draws cs (fst (mc_run E cs w1))
  = fst (mc_run E (filter (fun c => negb (is_seed c)) cs) w2) /\
  w_engine E (snd (mc_run E cs w1))
  = w_engine E (snd (mc_run E (filter (fun c => negb (is_seed c)) cs) w2)).
Proof.
  induction cs as [|c cs IH]; intros w1 w2 Hw; [split; auto|].
  destruct (step_engine E c w1 w2 Hw) as (H1 & H2 & H3).
  cbn [filter]. destruct (is_seed c) eqn:Ec; cbn [negb].
  - specialize (H3 eq_refl). specialize (IH (snd (mc_step E c w1)) w2 (eq_trans H3 Hw)).
    cbn [mc_run]. destruct (mc_step E c w1) as [r w'].
    cbn [fst snd] in *. destruct (mc_run E cs w') as [rs w''] eqn:E1.
    cbn [fst snd draws] in *. rewrite Ec. auto.
  - specialize (IH _ _ H2). cbn [mc_run].
    destruct (mc_step E c w1) as [r w'], (mc_step E c w2) as [r2 w2']. cbn [fst snd] in *.
    destruct (mc_run E cs w') as [rs w''] eqn:E1.
    destruct (mc_run E (filter _ cs) w2') as [rs' w2''] eqn:E2.
    cbn [fst snd draws] in *. rewrite Ec. destruct IH. split; congruence.
Qed.

Lemma seed_not_reproducible {T} `{Num T} (E : Engine T) (s : Z) (g1 g2 : est E) (z : Z) :
  fst (e_canon E g1) <> fst (e_canon E g2) ->
  (forall u v : T, nadd (nmul u (nsub n1 n0)) n0 = nadd (nmul v (nsub n1 n0)) n0 -> u = v) ->
  fst (mc_run E [CSetSeed s; CRandDouble n0 n1] (mkWorld E g1 z))
  <> fst (mc_run E [CSetSeed s; CRandDouble n0 n1] (mkWorld E g2 z)).
Proof.
  intros Hne Hinj. cbn. unfold rand_double.
  destruct (e_canon E g1) as [u1 h1], (e_canon E g2) as [u2 h2]. cbn in *.
  intros Heq. injection Heq as Heq. apply Hne. apply Hinj. exact Heq.
Qed.

(** ** C13 *)
(** sum of the first [k] weights *)
Fixpoint psum (d : list R) (k : nat) : R :=
  match k, d with
  | S k', x :: t => x + psum t k'
  | _, _ => 0
  end.

Definition nonneg (d : list R) : Prop := forall x, In x d -> 0 <= x.

Lemma psum_all d k : (length d <= k)%nat -> psum d k = psum d (length d).
Proof.
  revert k; induction d; intros [|k] Hk; cbn in *; try lia; auto. rewrite (IHd k) by lia. reflexivity.
Qed.

Lemma psum_mono d j k : nonneg d -> (j <= k)%nat -> psum d j <= psum d k.
Proof.
  revert j k; induction d as [|x d IH]; intros j k Hd Hjk; destruct j, k; cbn; try lra; try lia.
  - specialize (IH 0%nat k). assert (0 <= x) by (apply Hd; left; auto).
    assert (nonneg d) by (intros y Hy; apply Hd; right; auto).
    assert (psum d 0 <= psum d k) by (apply IH; auto; lia).
    destruct d; cbn [psum] in *; lra.
  - assert (nonneg d) by (intros y Hy; apply Hd; right; auto).
    specialize (IH j k H). assert (psum d j <= psum d k) by (apply IH; lia). lra.
Qed.

Lemma cdf_from_nth d acc i : (i < length d)%nat ->
  nth i (cdf_from acc d) 0 = acc + psum d (S i).
Proof.
  revert acc i; induction d as [|x d IH]; intros acc i Hi; cbn in Hi; [lia|].
  destruct i; cbn [cdf_from nth psum]; rnum.
  - destruct d; cbn; lra.
  - rewrite IH by lia. cbn [psum]. lra.
Qed.
Lemma cdf_from_len (d : list R) acc : length (cdf_from acc d) = length d.
Proof. revert acc; induction d; intros; cbn; auto. Qed.

Lemma last_cdf d acc : last (acc :: cdf_from acc d) acc = acc + psum d (length d).
Proof.
  revert acc; induction d as [|x d IH]; intros acc; [cbn; lra|].
  cbn [cdf_from length psum]. rnum.
  change (last (acc :: (acc + x) :: cdf_from (acc + x) d) acc) with (last ((acc + x) :: cdf_from (acc + x) d) acc).
  assert (HL : forall (l : list R) a b c, last (c :: l) a = last (c :: l) b).
  { induction l as [|y l IHl]; intros; [reflexivity|].
    change (last (c :: y :: l) a) with (last (y :: l) a).
    change (last (c :: y :: l) b) with (last (y :: l) b). apply IHl. }
  rewrite (HL _ acc (acc + x)), IH. lra.
Qed.

Lemma first_cdf_spec (c : list R) (i : Z) r :
  (0 < i)%Z ->
  (exists k, (k < length c)%nat /\ first_cdf c i r = (i + Z.of_nat k)%Z /\ r < nth k c 0 /\
             forall j, (j < k)%nat -> nth j c 0 <= r) \/
  (first_cdf c i r = 0%Z /\ forall j, (j < length c)%nat -> nth j c 0 <= r).
Proof.
  revert i; induction c as [|x c IH]; intros i Hi; cbn [first_cdf].
  - right. split; auto. cbn; lia.
  - rnum. destruct (Rltb r x) eqn:E1; rdestr.
    + left. exists 0%nat. cbn. repeat split; try lia; auto.
    + destruct (IH (i + 1)%Z) as [(k & Hk & H1 & H2 & H3) | [H1 H2]]; [lia| |].
      * left. exists (S k). cbn. repeat split; try lia; auto.
        intros [|j] Hj; auto. apply H3; lia.
      * right. split; auto. intros [|j] Hj; cbn in *; auto. apply H2; lia.
Qed.

(** The two-sided characterisation of the returned index. *)
Lemma rand_discrete_spec (E : Engine R) (d : list R) (g : est E) :
  (2 <= length d)%nat -> nonneg d -> 0 < psum d (length d) ->
  0 <= fst (e_canon E g) < 1 ->
  exists i : nat,
    rand_discrete E d g = Ok (Z.of_nat i, snd (e_canon E g)) /\
    (1 <= i < length d)%nat /\
    fst (e_canon E g) * psum d (length d) < psum d (S i) /\
    ((2 <= i)%nat -> psum d i <= fst (e_canon E g) * psum d (length d)).
Proof.
  intros Hn Hnn Hpos Hu. destruct d as [|x d]; [cbn in Hn; lia|].
  unfold rand_discrete. cbn [cdf_of].
  destruct (e_canon E g) as [u g'] eqn:EG. cbn [fst snd] in *.
  unfold rand_double. rewrite EG. rewrite last_cdf.
  rnum. set (tot := x + psum d (length d)).
  assert (Ht : psum (x :: d) (length (x :: d)) = tot) by reflexivity.
  rewrite Ht in *.
  replace (u * (tot - 0) + 0) with (u * tot) by ring.
  assert (Hr : 0 <= u * tot < tot) by (split; nra).
  set (r := u * tot) in *.
  destruct (first_cdf_spec (cdf_from x d) 1 r) as [(k & Hk & H1 & H2 & H3) | [H1 H2]]; [lia| |].
  - rewrite cdf_from_len in Hk. rewrite cdf_from_nth in H2 by auto.
    exists (S k). rewrite H1. cbn [length] in *. repeat split; try lia.
    + do 2 f_equal. lia.
    + change (psum (x :: d) (S (S k))) with (x + psum d (S k)). auto.
    + intros Hk2. destruct k as [|k]; [lia|]. specialize (H3 k ltac:(lia)).
      rewrite cdf_from_nth in H3 by lia. exact H3.
  - exfalso. destruct d as [|y d]; [cbn in Hn; lia|].
    specialize (H2 (length d)). rewrite cdf_from_len in H2. cbn [length] in *.
    specialize (H2 ltac:(lia)). rewrite cdf_from_nth in H2 by (cbn; lia).
    unfold tot in Hr. lra.
Qed.

Lemma psum_sep d i j r : nonneg d ->
  psum d i <= r -> r < psum d (S i) -> psum d j <= r -> r < psum d (S j) -> i = j.
Proof.
  intros Hd A1 A2 B1 B2. destruct (lt_eq_lt_dec i j) as [[H|H]|H]; auto; exfalso.
  - assert (psum d (S i) <= psum d j) by (apply psum_mono; auto). lra.
  - assert (psum d (S j) <= psum d i) by (apply psum_mono; auto). lra.
Qed.

Lemma rand_discrete_characterised (E : Engine R) (d : list R) (g g' : est E) (z : Z) :
  (2 <= length d)%nat -> nonneg d -> 0 < psum d (length d) ->
  0 <= fst (e_canon E g) < 1 ->
  rand_discrete E d g = Ok (z, g') ->
  let r := fst (e_canon E g) * psum d (length d) in
  (1 <= z < Z.of_nat (length d))%Z /\
  (z = 1%Z <-> r < psum d 2) /\
  (forall i, (2 <= i < length d)%nat -> (z = Z.of_nat i <-> psum d i <= r < psum d (S i))).
Proof.
  intros Hn Hnn Hpos Hu HR r.
  destruct (rand_discrete_spec E d g Hn Hnn Hpos Hu) as (k & HR' & Hk & H1 & H2).
  rewrite HR in HR'. injection HR' as Hz _. subst z. fold r in H1, H2.
  repeat split; try lia; intros.
  - assert (k = 1%nat) by lia. subst k. auto.
  - destruct (le_lt_dec 2 k); [|lia]. exfalso.
    assert (psum d 2 <= psum d k) by (apply psum_mono; auto). specialize (H2 l). lra.
  - assert (k = i) by lia. subst k. apply H2; lia.
  - assert (k = i) by lia. subst k. auto.
  - f_equal. destruct (le_lt_dec 2 k) as [l|l].
    + apply (psum_sep d k i r); auto; tauto.
    + exfalso. assert (k = 1%nat) by lia. subst k.
      assert (psum d 2 <= psum d i) by (apply psum_mono; auto; lia). lra.
Qed.

Lemma rand_discrete_single (E : Engine R) (x : R) (g : est E) :
  rand_discrete E [x] g = Ok (0%Z, snd (e_canon E g)).
Proof. unfold rand_discrete, rand_double; cbn. destruct (e_canon E g); reflexivity. Qed.

Lemma rand_discrete_empty {T} `{Num T} (E : Engine T) g : rand_discrete E [] g = UB OutOfBounds.
Proof. reflexivity. Qed.

(** ** C15 *)
Definition pos_units (u : units R) : Prop :=
  0 < ref_freq u /\ 0 < ref_time u /\ 0 < ref_length u /\ 0 < ref_eField u /\ 0 < ref_bField u /\
  0 < ref_momentum u /\ 0 < ref_energy u.

Lemma c_R : (si_c : R) = 299792458. Proof. unfold si_c. rlit. reflexivity. Qed.
Lemma me_pos : 0 < (si_me : R). Proof. unfold si_me. rlit. lra. Qed.
Lemma qe_pos : 0 < (si_qe : R). Proof. unfold si_qe. rlit. lra. Qed.
Lemma es_pos : 0 < (si_eSchw : R). Proof. unfold si_eSchw. rlit. lra. Qed.

Lemma units_pos (u : units R) : units_system "SI" = Ok u -> pos_units u.
Proof.
  intros H. injection H as <-. unfold pos_units, si_units. rnum.
  cbn [ref_freq ref_time ref_length ref_eField ref_bField ref_momentum ref_energy].
  pose proof me_pos; pose proof qe_pos; pose proof es_pos; assert (0 < (si_c : R)) by (rewrite c_R; lra).
  set (me := si_me : R) in *; set (q := si_qe : R) in *; set (es := si_eSchw : R) in *; set (c := si_c : R) in *.
  assert (0 < me * c) by (apply Rmult_lt_0_compat; auto).
  assert (0 < es * q / (me * c)) by (apply Rdiv_lt_0_compat; auto; apply Rmult_lt_0_compat; auto).
  repeat split; auto; try (apply Rdiv_lt_0_compat; auto; lra).
  apply Rmult_lt_0_compat; auto.
Qed.

Lemma units_coherent (name : string) (u : units R) :
  units_system name = Ok u ->
  let c := 299792458 in
  ref_length u = c * ref_time u /\ ref_eField u = c * ref_bField u /\
  ref_energy u = c * ref_momentum u /\ ref_momentum u = si_me * c /\
  si_qe * ref_eField u * ref_time u = ref_momentum u /\
  ref_freq u * ref_time u = 1 /\
  g4_time u * ref_time u = 1 / 1000000000 /\ g4_length u * ref_length u = 1 / 1000 /\
  g4_energy u * ref_energy u = 1000000 * si_qe.
Proof.
  intros H. assert (H' : units_system "SI" = Ok u).
  { unfold units_system in *. destruct (String.eqb name "SI" || String.eqb name "si")%bool; [exact H|discriminate]. }
  pose proof (units_pos u H') as (P1 & P2 & P3 & P4 & P5 & P6 & P7).
  injection H' as <-. revert P1 P2 P3 P4 P5 P6 P7. unfold si_units. rnum.
  cbn [ref_freq ref_time ref_length ref_eField ref_bField ref_momentum ref_energy g4_time g4_length g4_energy].
  pose proof me_pos; pose proof qe_pos; pose proof es_pos; assert (0 < (si_c : R)) by (rewrite c_R; lra).
  rewrite <- c_R.
  set (me := si_me : R) in *; set (q := si_qe : R) in *; set (es := si_eSchw : R) in *; set (c := si_c : R) in *.
  clearbody me q es c.
  intros. rlit. repeat split; field; repeat split; lra.
Qed.

Lemma units_names (name : string) :
  (name = "SI"%string \/ name = "si"%string -> units_system name = Ok (si_units : units R)) /\
  (name <> "SI"%string -> name <> "si"%string -> units_system name = (Exit 1 : res (units R))).
Proof.
  split.
  - intros [->| ->]; reflexivity.
  - intros H1 H2. unfold units_system.
    destruct (String.eqb_spec name "SI"); [tauto|]. destruct (String.eqb_spec name "si"); [tauto|]. reflexivity.
Qed.

Lemma units_round_trip (name : string) (u : units R) (x : R) :
  units_system name = Ok u ->
  x / ref_time u * ref_time u = x /\ x / ref_length u * ref_length u = x /\
  x / ref_eField u * ref_eField u = x /\ x / ref_bField u * ref_bField u = x /\
  x / ref_energy u * ref_energy u = x /\ x / ref_momentum u * ref_momentum u = x.
Proof.
  intros H. assert (H' : units_system "SI" = Ok u).
  { unfold units_system in *. destruct (String.eqb name "SI" || String.eqb name "si")%bool; [exact H|discriminate]. }
  pose proof (units_pos u H') as (P1 & P2 & P3 & P4 & P5 & P6 & P7).
  repeat split; field; lra.
Qed.
