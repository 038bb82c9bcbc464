(** * Facts about histograms *)
From Coq Require Import String ZArith Reals Lra Psatz List Bool Lia Permutation.
From Verif Require Import Num RNum Outcome OutcomeFacts Vec Numerics SpecTable NumericsFacts NumericsExtra Particle Histogram.
Import ListNotations.

(** ** Any arithmetic *)
Section Any.
Context {T : Type} `{Num T}.

(** a usable histogram: at least one bin, both arrays allocated *)
Definition hwf (h : hist T) : Prop :=
  (1 <= hi_n h < 2 ^ 31)%Z /\ Z.of_nat (length (hi_centres h)) = hi_n h /\ Z.of_nat (length (hi_values h)) = hi_n h.

(** same configuration and binning *)
Definition same_axes (h h' : hist T) : Prop :=
  hi_name h' = hi_name h /\ hi_particle h' = hi_particle h /\ hi_type h' = hi_type h /\ hi_time h' = hi_time h /\
  hi_n h' = hi_n h /\ hi_centres h' = hi_centres h.

Lemma same_axes_refl h : same_axes h h.
Proof. repeat split. Qed.
Lemma same_axes_trans a b c : same_axes a b -> same_axes b c -> same_axes a c.
Proof. unfold same_axes. intuition congruence. Qed.

Lemma app_energy h p : hi_n h <> 0%Z -> app_particle h p = add_value h (get_energy p).
Proof.
  intros HN. unfold app_particle. destruct (Z.eqb_spec (hi_n h) 0); [contradiction|]. unfold type_is, literal. rewrite Bool.orb_true_r. reflexivity.
Qed.
Lemma fill_energy h ps : hi_n h <> 0%Z -> fill_list h ps = rmap normalise (add_values h (map get_energy ps)).
Proof.
  intros HN. unfold fill_list. destruct (Z.eqb_spec (hi_n h) 0); [contradiction|]. unfold type_is, literal. rewrite Bool.orb_true_r. reflexivity.
Qed.

Definition set_counts (h : hist T) (e : Z) (vals : list T) : hist T :=
  mkH (hi_name h) (hi_particle h) (hi_type h) (hi_time h) (hi_n h) e (hi_centres h) vals.
Definition lo (h : hist T) : T := nth 0 (hi_centres h) n0.
Definition hi (h : hist T) : T := nth (length (hi_centres h) - 1) (hi_centres h) n0.

Lemma add_value_eq h v : hwf h -> exists i : nat, (i < length (hi_values h))%nat /\
  array_index (hi_centres h) (hi_n h) v = Ok (Z.of_nat i) /\
  add_value h v = Ok (set_counts h (u32 (hi_entries h + 1))
    (if (nltb (lo h) v && nltb v (hi h))%bool then upd (hi_values h) i (nadd (nth i (hi_values h) n0) n1) else hi_values h)).
Proof.
  intros ((H1 & H2) & HC & HV).
  destruct (array_index_range (hi_centres h) v) as (i & HI & HB); [lia|lia|]. rewrite HC in HI, HB.
  exists (Z.to_nat i). split; [lia|]. split; [rewrite Z2Nat.id by lia; auto|].
  unfold add_value. rewrite (get_Z (hi_centres h) 0 n0) by lia. cbn [bind]. change (Z.to_nat 0) with 0%nat. fold (lo h).
  destruct (nltb (lo h) v); [|reflexivity]. rewrite u32_id by lia.
  rewrite (get_Z (hi_centres h) (hi_n h - 1) n0) by lia. cbn [bind].
  replace (nth (Z.to_nat (hi_n h - 1)) (hi_centres h) n0) with (hi h) by (unfold hi; f_equal; lia).
  destruct (nltb v (hi h)); [|reflexivity]. cbn [andb]. rewrite HI. cbn [bind]. rewrite u32_id by lia.
  rewrite (get_Z (hi_values h) i n0) by lia. reflexivity.
Qed.

Lemma set_counts_wf h e vals : hwf h -> length vals = length (hi_values h) -> hwf (set_counts h e vals).
Proof. intros (A & B & C) HL. unfold hwf, set_counts; cbn. rewrite HL. auto. Qed.
Lemma set_counts_axes h e vals : same_axes h (set_counts h e vals).
Proof. repeat split. Qed.

Lemma add_value_ok h v : hwf h -> exists h', add_value h v = Ok h' /\ hwf h' /\ same_axes h h' /\
  hi_entries h' = u32 (hi_entries h + 1) /\
  (hi_values h' = hi_values h \/ exists i, (i < length (hi_values h))%nat /\ hi_values h' = upd (hi_values h) i (nadd (nth i (hi_values h) n0) n1)).
Proof.
  intros HW. destruct (add_value_eq h v HW) as (i & HI & _ & HE). eexists. split; [exact HE|].
  split; [apply set_counts_wf; auto; destruct (_ && _)%bool; rewrite ?length_upd; auto|]. split; [apply set_counts_axes|].
  split; [reflexivity|]. cbn. destruct (_ && _)%bool; [right; eauto|auto].
Qed.

Lemma add_values_ok vs : forall h, hwf h -> exists h', add_values h vs = Ok h' /\ hwf h' /\ same_axes h h' /\
  hi_entries h' = if (length vs =? 0)%nat then hi_entries h else u32 (hi_entries h + Z.of_nat (length vs)).
Proof.
  induction vs as [|v vs IH]; intros h HW; cbn [add_values].
  - exists h. split; [auto|]. split; [auto|]. split; [apply same_axes_refl|auto].
  - destruct (add_value_ok h v HW) as (h1 & -> & W1 & A1 & E1 & _). cbn [bind].
    destruct (IH h1 W1) as (h2 & H2 & W2 & A2 & E2). exists h2. split; [auto|]. split; [auto|]. split; [eapply same_axes_trans; eauto|].
    rewrite E2, E1. cbn [length Nat.eqb]. destruct vs as [|w vs]; cbn [length Nat.eqb]; [f_equal; lia|].
    unfold u32. rewrite Zplus_mod_idemp_l. f_equal. lia.
Qed.

(** the particles a run adds to a histogram *)
Definition named (h : hist T) (ps : list (particle T)) : list (particle T) :=
  filter (fun p => String.eqb (hi_particle h) (p_name p)) ps.
Lemma app_named_eq ps : forall h, hwf h -> app_named h ps = add_values h (map get_energy (named h ps)).
Proof.
  induction ps as [|p ps IH]; intros h HW; cbn [app_named named filter]; [reflexivity|].
  destruct (String.eqb (hi_particle h) (p_name p)); [|apply IH; auto].
  rewrite app_energy by (destruct HW as ((A & B) & _); lia). cbn [map add_values].
  destruct (add_value_ok h (get_energy p) HW) as (h1 & HE & W1 & (_ & A1 & _) & _). rewrite HE. cbn [bind].
  rewrite (IH h1 W1). unfold named. rewrite A1. reflexivity.
Qed.

Lemma initialise_wf h0 nm pa ty t mn mx n : (1 <= n < 2 ^ 31)%Z -> hwf (initialise h0 nm pa ty t mn mx n).
Proof.
  intros HN. unfold hwf, initialise; cbn [hi_n hi_centres hi_values]. rewrite map_length, seq_length, repeat_length. lia.
Qed.
End Any.

(** ** Exact reals: counting *)
Local Open Scope R_scope.

(** [i] is the bin whose centre is nearest to [v] (the upper one in case of a tie) *)
Definition nearest (sp : list R) (v : R) (i : nat) : Prop :=
  (i < length sp)%nat /\
  (forall j, (j < length sp)%nat -> Rabs (v - at_ sp i) <= Rabs (v - at_ sp j)) /\
  (forall j, (j < length sp)%nat -> Rabs (v - at_ sp i) = Rabs (v - at_ sp j) -> (j <= i)%nat).
(** strictly between the first and the last centre *)
Definition inside (sp : list R) (v : R) : bool :=
  if Rlt_dec (at_ sp 0) v then if Rlt_dec v (at_ sp (length sp - 1)) then true else false else false.

Lemma nearest_unique sp v i j : nearest sp v i -> nearest sp v j -> i = j.
Proof.
  intros (A1 & A2 & A3) (B1 & B2 & B3).
  assert (HE : Rabs (v - at_ sp i) = Rabs (v - at_ sp j)) by (apply Rle_antisym; auto).
  apply Nat.le_antisymm; auto.
Qed.

Definition count (idx : list nat) (i : nat) : nat := count_occ Nat.eq_dec idx i.

Lemma add_value_R (h : hist R) v : hwf h -> increasing (hi_centres h) ->
  exists h', add_value h v = Ok h' /\ hwf h' /\ same_axes h h' /\
    (inside (hi_centres h) v = false -> hi_values h' = hi_values h) /\
    (inside (hi_centres h) v = true -> exists i, nearest (hi_centres h) v i /\ hi_values h' = upd (hi_values h) i (at_ (hi_values h) i + 1)).
Proof.
  intros HW HI. destruct (add_value_ok h v HW) as (h' & HE & W & A & _). exists h'. split; [auto|]. split; [auto|]. split; [auto|].
  destruct (add_value_eq h v HW) as (i & Hi & HA & HE2). rewrite HE in HE2.
  assert (HQ : forall a b : hist R, Ok a = Ok b -> a = b) by congruence. apply HQ in HE2. subst h'.
  destruct HW as ((H1 & H2) & HC & HV).
  destruct (nearest_bin (hi_centres h) v) as (k & K1 & K2 & K3 & K4); [lia|lia|auto|]. rewrite HC in K2.
  assert (k = i) by (rewrite K2 in HA; injection HA; lia). subst k.
  assert (HB : (nltb (lo h) v && nltb v (hi h))%bool = inside (hi_centres h) v).
  { unfold inside, lo, hi, at_. rewrite n0_R. cbn [nltb Num_R]. unfold Rltb. destruct (Rlt_dec _ v); [|reflexivity]. destruct (Rlt_dec v _); reflexivity. }
  unfold set_counts. cbn [hi_values]. rewrite HB. split; intros HX; rewrite HX; [auto|].
  exists i. split; [split; auto|]. rewrite n1_R, n0_R. reflexivity.
Qed.

Lemma at_upd_same l i x : (i < length l)%nat -> at_ (upd l i x) i = x.
Proof. apply nth_upd_same. Qed.
Lemma at_upd_other l i j x : i <> j -> at_ (upd l i x) j = at_ l j.
Proof. apply nth_upd_other. Qed.

(** any sequence of additions *)
Lemma add_values_R vs : forall h : hist R, hwf h -> increasing (hi_centres h) ->
  exists h' idx, add_values h vs = Ok h' /\ hwf h' /\ same_axes h h' /\
    Forall2 (nearest (hi_centres h)) (filter (inside (hi_centres h)) vs) idx /\
    length (hi_values h') = length (hi_values h) /\
    forall i, at_ (hi_values h') i = at_ (hi_values h) i + INR (count idx i).
Proof.
  induction vs as [|v vs IH]; intros h HW HI; cbn [add_values filter].
  - exists h, []. split; [auto|]. split; [auto|]. split; [apply same_axes_refl|]. split; [constructor|]. split; [auto|]. intros i. cbn. lra.
  - destruct (add_value_R h v HW HI) as (h1 & HE & W1 & A1 & N1 & N2). rewrite HE. cbn [bind].
    assert (AC : hi_centres h1 = hi_centres h) by apply A1.
    destruct (IH h1 W1) as (h2 & idx & H2 & W2 & A2 & F2 & L2 & V2); [rewrite AC; auto|]. rewrite AC in F2.
    destruct (inside (hi_centres h) v) eqn:EI.
    + destruct (N2 eq_refl) as (i & HN & HV). exists h2, (i :: idx). split; [auto|]. split; [auto|]. split; [eapply same_axes_trans; eauto|].
      split; [constructor; auto|]. split; [rewrite L2, HV, length_upd; auto|]. intros j. rewrite V2, HV. unfold count. cbn [count_occ].
      destruct (Nat.eq_dec i j) as [->|NE].
      * rewrite at_upd_same. { rewrite S_INR. lra. }
        destruct HN as (HN & _). destruct HW as (_ & E1 & E2). lia.
      * rewrite at_upd_other by auto. lra.
    + exists h2, idx. rewrite (N1 eq_refl) in L2, V2. split; [auto|]. split; [auto|]. split; [eapply same_axes_trans; eauto|]. auto.
Qed.

Definition rsum (l : list R) : R := fold_right Rplus 0 l.
Lemma rsum_app a b : rsum (a ++ b) = rsum a + rsum b.
Proof. induction a; simpl; lra. Qed.
Lemma fold_left_rsum l : forall a, fold_left Rplus l a = a + rsum l.
Proof. induction l as [|x l IH]; intros a; simpl; [lra|]. rewrite IH. lra. Qed.
Lemma rsum_upd l i x : (i < length l)%nat -> rsum (upd l i x) = rsum l - at_ l i + x.
Proof.
  revert i. induction l as [|y l IH]; intros [|i] Hi; simpl in *; try lia; [unfold at_; simpl; lra|].
  rewrite IH by lia. unfold at_. simpl. lra.
Qed.
Lemma list_eq_at (a b : list R) : length a = length b -> (forall i, at_ a i = at_ b i) -> a = b.
Proof.
  intros HL HA. apply (nth_ext _ _ 0 0); [auto|]. intros i _. apply HA.
Qed.
Lemma rsum_counts (idx : list nat) : forall (a b : list R), length b = length a ->
  (forall i, In i idx -> (i < length a)%nat) ->
  (forall i, at_ b i = at_ a i + INR (count idx i)) -> rsum b = rsum a + INR (length idx).
Proof.
  induction idx as [|k idx IH]; intros a b HL HI HA.
  - rewrite (list_eq_at b a HL); [simpl; lra|]. intros i. rewrite HA. cbn. lra.
  - assert (Hk : (k < length a)%nat) by (apply HI; left; auto).
    rewrite (IH (upd a k (at_ a k + 1)) b).
    + rewrite rsum_upd by auto. cbn [length]. rewrite S_INR. lra.
    + rewrite length_upd. auto.
    + intros i Hi. rewrite length_upd. apply HI. right; auto.
    + intros i. rewrite HA. unfold count. cbn [count_occ]. destruct (Nat.eq_dec k i) as [->|NE].
      * rewrite at_upd_same by auto. rewrite S_INR. lra.
      * rewrite at_upd_other by auto. lra.
Qed.
Lemma rsum_repeat0 n : rsum (repeat 0 n) = 0.
Proof. induction n; simpl; lra. Qed.

(** the axis *)
Lemma initialise_axis h0 nm pa ty (t mn mx : R) n : (2 <= n < 2 ^ 31)%Z -> mn < mx ->
  let h := initialise h0 nm pa ty t mn mx n in
  hwf h /\ increasing (hi_centres h) /\ at_ (hi_centres h) 0 = mn /\ at_ (hi_centres h) (Z.to_nat n - 1) = mx /\
  length (hi_centres h) = Z.to_nat n /\
  (forall i, (i < Z.to_nat n)%nat -> at_ (hi_centres h) i = mn + INR i * ((mx - mn) / (IZR n - 1))) /\
  hi_values h = repeat 0 (Z.to_nat n).
Proof.
  intros HN HM. cbv zeta. split; [apply initialise_wf; lia|].
  assert (HD : 1 <= IZR n - 1) by (assert (2 <= IZR n) by (apply IZR_le; lia); lra).
  assert (HC : forall i, (i < Z.to_nat n)%nat -> at_ (hi_centres (initialise h0 nm pa ty t mn mx n)) i = mn + INR i * ((mx - mn) / (IZR n - 1))).
  { intros i Hi. unfold initialise, at_; cbn [hi_centres]. set (f := fun i : nat => nadd _ _).
    rewrite (nth_indep _ 0 (f 0%nat)) by (rewrite map_length, seq_length; auto).
    rewrite map_nth, seq_nth by auto. unfold f. rewrite !nZ_R, n1_R, <- INR_IZR_INZ. cbn [Nat.add]. reflexivity. }
  assert (HL : length (hi_centres (initialise h0 nm pa ty t mn mx n)) = Z.to_nat n) by (unfold initialise; cbn; rewrite map_length, seq_length; auto).
  assert (HP : 0 < (mx - mn) / (IZR n - 1)) by (apply Rdiv_lt_0_compat; lra).
  split; [|split; [|split; [|split; [|split]]]]; auto.
  - intros i j [Hij Hj]. rewrite HL in Hj. rewrite !HC by lia. apply lt_INR in Hij. nra.
  - rewrite HC by lia. simpl. lra.
  - rewrite HC by lia. rewrite minus_INR by lia. rewrite INR_IZR_INZ, Z2Nat.id by lia. simpl. field. lra.
  - unfold initialise; cbn [hi_values]. rewrite n0_R. reflexivity.
Qed.

(** ** Merging *)
Lemma add_lists_length {T} `{Num T} (a b : list T) : length (add_lists a b) = length a.
Proof. revert b. induction a as [|x a IH]; intros [|y b]; cbn; auto. Qed.
Lemma at_add_lists (a b : list R) i : length b = length a -> at_ (add_lists a b) i = at_ a i + at_ b i.
Proof.
  revert b i. induction a as [|x a IH]; intros [|y b] i HL; try discriminate; [unfold at_; destruct i; simpl; lra|].
  destruct i as [|i]; [reflexivity|]. cbn in HL. apply (IH b i). lia.
Qed.

(** the two histograms have the same number of bins and the same first and last centre *)
Definition same_binning (h k : hist R) : Prop :=
  hi_n h = hi_n k /\ at_ (hi_centres h) 0 = at_ (hi_centres k) 0 /\
  at_ (hi_centres h) (length (hi_centres h) - 1) = at_ (hi_centres k) (length (hi_centres k) - 1).
Definition same_binning_b (h k : hist R) : bool :=
  (Z.eqb (hi_n h) (hi_n k) && Reqb (at_ (hi_centres h) 0) (at_ (hi_centres k) 0) &&
   Reqb (at_ (hi_centres h) (length (hi_centres h) - 1)) (at_ (hi_centres k) (length (hi_centres k) - 1)))%bool.
Lemma same_binning_iff h k : same_binning_b h k = true <-> same_binning h k.
Proof.
  unfold same_binning, same_binning_b. rewrite !andb_true_iff, Z.eqb_eq, !Reqb_true. tauto.
Qed.
Lemma compatible_R (h k : hist R) : hwf h -> hwf k -> compatible h k = Ok (same_binning_b h k).
Proof.
  intros ((A1 & A2) & A3 & A4) ((B1 & B2) & B3 & B4). unfold compatible, same_binning_b.
  destruct (Z.eqb_spec (hi_n h) (hi_n k)) as [HN|HN]; [|reflexivity]. cbn [andb].
  rewrite (get_Z (hi_centres h) 0 0) by lia. cbn [bind]. rewrite (get_Z (hi_centres k) 0 0) by lia. cbn [bind].
  change (Z.to_nat 0) with 0%nat. fold (at_ (hi_centres h) 0) (at_ (hi_centres k) 0). cbn [neqb Num_R].
  destruct (Reqb (at_ (hi_centres h) 0) (at_ (hi_centres k) 0)); [|reflexivity]. cbn [andb]. rewrite u32_id by lia.
  rewrite (get_Z (hi_centres h) _ 0) by lia. cbn [bind]. rewrite (get_Z (hi_centres k) _ 0) by lia. cbn [bind].
  replace (Z.to_nat (hi_n h - 1)) with (length (hi_centres h) - 1)%nat by lia.
  replace (length (hi_centres k) - 1)%nat with (length (hi_centres h) - 1)%nat by lia. reflexivity.
Qed.
Lemma absorb_wf (h k : hist R) : hwf h -> hwf (absorb h k).
Proof. intros (A & B & C). unfold hwf, absorb; cbn [hi_n hi_centres hi_values]. rewrite add_lists_length. auto. Qed.
