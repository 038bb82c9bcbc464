(** * The first two rows of the shipped emission table, and what their extrapolation below eta = 1e-5 gives (exact reals) *)
From Coq Require Import String ZArith Reals Lra Psatz List Bool Ascii Lia.
From Verif Require Import Num RNum Outcome OutcomeFacts Vec SpecTable Numerics NumericsFacts MCTools Particle ParticleList ParticleFacts Fields Process ProcessFacts ProcessRFacts ProcessSafe
  Text SpecNumeral SpecLoad Tables TablesFacts SampleFacts PropsLoad PropsSample Shipped ShippedData ShippedFacts ShippedTables PropsShipped
  ShippedReal PropsUse.
Import ListNotations.
Local Open Scope R_scope.

(** the column at which a row (straight lines between the entries) has the value q, read in segment j *)
Definition column (r : list R) (j : nat) (q : R) : R := INR j + (q - at_ r j) / (at_ r (S j) - at_ r j).
(** the segment that belongs to q; below the first entry it is the first *)
Definition in_segment (r : list R) (j : nat) (q : R) : Prop :=
  (j < 99)%nat /\ (j = 0%nat \/ at_ r j <= q) /\ q <= at_ r (S j) /\ at_ r j < at_ r (S j).

Lemma steps_in : forall l k j, (S j < length l)%nat -> In ((k + Z.of_nat j)%Z, nth j l 0%Z, nth (S j) l 0%Z) (steps k l).
Proof.
  induction l as [|a l IH]; intros k j L; [cbn in L; lia|]. destruct l as [|b l]; [cbn in L; lia|].
  change (steps k (a :: b :: l)) with ((k, a, b) :: steps (k + 1) (b :: l)). destruct j as [|j].
  - left. cbn [nth]. f_equal. f_equal. lia.
  - right. specialize (IH (k + 1)%Z j). cbn [length] in *. replace (k + Z.of_nat (S j))%Z with (k + 1 + Z.of_nat j)%Z by lia.
    apply IH. lia.
Qed.

Definition unit30 : R := / IZR (10 ^ 30).
Lemma unit30_pos : 0 < unit30.
Proof. unfold unit30. apply Rinv_0_lt_compat. apply IZR_lt. reflexivity. Qed.
Lemma scaled_R d : (0 <= d_exp d + 30)%Z -> dec_value d = IZR (scaled d) * unit30.
Proof.
  intros H. rewrite dec_R. rewrite (dcmp_scale d (-30)) by lia. unfold scaled. replace (d_exp d - -30)%Z with (d_exp d + 30)%Z by lia.
  f_equal. unfold unit30. rewrite <- (p10_int 30) by lia. change (-30)%Z with (- (30))%Z. rewrite powerRZ_neg' by lra. reflexivity.
Qed.

(** affine functions between two points *)
Lemma affine_between (s c lo hi q : R) : lo <= q <= hi -> 0 <= s * lo + c -> 0 <= s * hi + c -> 0 <= s * q + c.
Proof. intros [H1 H2] A B. destruct (Rle_dec 0 s); nra. Qed.

Lemma ahead_R j i a a' b b' q : ahead (j, a, a') (i, b, b') = true -> (a < a')%Z -> (b < b')%Z ->
  0 <= q <= IZR (10 ^ 30 - 10 ^ 14) -> (j = 0%Z \/ IZR a <= q) -> q <= IZR a' -> (i = 0%Z \/ IZR b <= q) -> q <= IZR b' ->
  IZR j + (q - IZR a) / (IZR a' - IZR a) + /1000000000 <= IZR i + (q - IZR b) / (IZR b' - IZR b).
Proof.
  intros H LA LB Q J QA I QB. unfold ahead in H.
  set (lo := Z.max (if (j =? 0)%Z then 0%Z else a) (if (i =? 0)%Z then 0%Z else b)) in *.
  set (hi := Z.min (Z.min a' b') (10 ^ 30 - 10 ^ 14)) in *.
  assert (LO : IZR lo <= q).
  { unfold lo. destruct (Z.max_spec (if (j =? 0)%Z then 0%Z else a) (if (i =? 0)%Z then 0%Z else b)) as [[_ ->]|[_ ->]].
    - destruct (Z.eqb_spec i 0); [lra|]. destruct I; [contradiction|auto].
    - destruct (Z.eqb_spec j 0); [lra|]. destruct J; [contradiction|auto]. }
  assert (HI : q <= IZR hi).
  { unfold hi. destruct (Z.min_spec (Z.min a' b') (10 ^ 30 - 10 ^ 14)) as [[_ ->]|[_ ->]]; [|exact (proj2 Q)].
    destruct (Z.min_spec a' b') as [[_ ->]|[_ ->]]; auto. }
  apply orb_true_iff in H. destruct H as [H|H]; [apply Z.ltb_lt, IZR_lt in H; lra|].
  apply andb_true_iff in H. destruct H as [H1 H2]. unfold ahead_at in H1, H2. apply Z.leb_le, IZR_le in H1. apply Z.leb_le, IZR_le in H2.
  apply IZR_lt in LA. apply IZR_lt in LB. clearbody lo hi. clear J I.
  change (10 ^ 9)%Z with 1000000000%Z in *.
  repeat rewrite ?mult_IZR, ?plus_IZR, ?minus_IZR in H1. repeat rewrite ?mult_IZR, ?plus_IZR, ?minus_IZR in H2.
  clear Q. revert LA LB QA QB H1 H2. generalize (IZR a) (IZR a') (IZR b) (IZR b') (IZR i) (IZR j). intros ra ra' rb rb' ri rj LA LB QA QB H1 H2.
  set (A := ra' - ra) in *. set (B := rb' - rb) in *. assert (PA : 0 < A) by (unfold A; lra). assert (PB : 0 < B) by (unfold B; lra).
  pose proof (affine_between ((A - B) * 1000000000) (((ri - rj) * A * B - rb * A + ra * B) * 1000000000 - A * B) (IZR lo) (IZR hi) q
     (conj LO HI) ltac:(lra) ltac:(lra)) as K.
  apply Rmult_le_reg_r with (A * B); [apply Rmult_lt_0_compat; lra|].
  replace ((rj + (q - ra) / A + / 1000000000) * (A * B)) with (rj * A * B + (q - ra) * B + A * B / 1000000000) by (field; lra).
  replace ((ri + (q - rb) / B) * (A * B)) with (ri * A * B + (q - rb) * A) by (field; lra). lra.
Qed.

Lemma ratio_scale x y z u : u <> 0 -> z - y <> 0 -> (x * u - y * u) / (z * u - y * u) = (x - y) / (z - y).
Proof. intros U Z. rewrite <- !Rmult_minus_distr_r. field. auto. Qed.
Lemma nth_scaled l j : nth j (map scaled l) 0%Z = scaled (dnth l j).
Proof. unfold dnth. change 0%Z with (scaled (dlit 0 0)) at 1. apply map_nth. Qed.

Lemma apart_R r s : apart r s = true -> length r = 100%nat -> length s = 100%nat -> forall j i q,
  0 <= q <= 1 - /10000000000000000 -> in_segment (map dec_value r) j q -> in_segment (map dec_value s) i q ->
  column (map dec_value r) j q + /1000000000 <= column (map dec_value s) i q.
Proof.
  intros H LR LS j i q Q (J1 & J2 & J3 & J4) (I1 & I2 & I3 & I4). unfold apart in H. apply andb_true_iff in H. destruct H as [HE H].
  apply andb_true_iff in HE. destruct HE as [HE _].
  assert (ER : forall k, (k < 100)%nat -> at_ (map dec_value r) k = IZR (scaled (dnth r k)) * unit30).
  { intros k Hk. rewrite at_dec by lia. apply scaled_R. rewrite forallb_forall in HE.
    apply Z.leb_le, (HE (dnth r k)). apply in_or_app. left. apply nth_In. lia. }
  assert (ES : forall k, (k < 100)%nat -> at_ (map dec_value s) k = IZR (scaled (dnth s k)) * unit30).
  { intros k Hk. rewrite at_dec by lia. apply scaled_R. rewrite forallb_forall in HE.
    apply Z.leb_le, (HE (dnth s k)). apply in_or_app. right. apply nth_In. lia. }
  rewrite forallb_forall in H.
  pose proof (steps_in (map scaled r) 0 j ltac:(rewrite map_length; lia)) as S1. rewrite !nth_scaled in S1.
  pose proof (steps_in (map scaled s) 0 i ltac:(rewrite map_length; lia)) as S2. rewrite !nth_scaled in S2.
  specialize (H _ S1). rewrite forallb_forall in H. specialize (H _ S2). rewrite !Z.add_0_l in H.
  unfold column. rewrite !ER, !ES in * by lia.
  set (a := scaled (dnth r j)) in *. set (a' := scaled (dnth r (S j))) in *. set (b := scaled (dnth s i)) in *. set (b' := scaled (dnth s (S i))) in *.
  clearbody a a' b b'. clear S1 S2 ER ES HE. pose proof unit30_pos as U.
  assert (QU : q = q / unit30 * unit30) by (field; lra). set (Q' := q / unit30) in *. clearbody Q'. subst q.
  assert (LE : forall x y, x * unit30 <= y * unit30 -> x <= y) by (intros; eapply Rmult_le_reg_r; eauto).
  assert (LT : forall x y, x * unit30 < y * unit30 -> x < y) by (intros; eapply Rmult_lt_reg_r; eauto).
  apply LT, lt_IZR in J4. apply LT, lt_IZR in I4. apply LE in J3. apply LE in I3.
  pose proof (ahead_R _ _ _ _ _ _ Q' H J4 I4) as K. rewrite <- !INR_IZR_INZ in K.
  apply IZR_lt in J4. apply IZR_lt in I4.
  rewrite !ratio_scale by lra.
  apply K; auto.
  - split; [apply LE; lra|]. apply LE. apply Rle_trans with (1 := proj2 Q). rewrite minus_IZR. unfold unit30.
    change (10 ^ 30)%Z with 1000000000000000000000000000000%Z. change (10 ^ 14)%Z with 100000000000000%Z. lra.
  - destruct J2 as [->|J2]; [now left|right; now apply LE].
  - destruct I2 as [->|I2]; [now left|right; now apply LE].
Qed.

Lemma apart_low r s : apart r s = true -> length s = 100%nat -> at_ (map dec_value s) 0 <= 11 * (at_ (map dec_value s) 1 - at_ (map dec_value s) 0).
Proof.
  intros H LS. unfold apart in H. apply andb_true_iff in H. destruct H as [H _]. apply andb_true_iff in H. destruct H as [HE H].
  assert (ES : forall k, (k < 100)%nat -> at_ (map dec_value s) k = IZR (scaled (dnth s k)) * unit30).
  { intros k Hk. rewrite at_dec by lia. apply scaled_R. rewrite forallb_forall in HE.
    apply Z.leb_le, (HE (dnth s k)). apply in_or_app. right. apply nth_In. lia. }
  rewrite !ES by lia. apply Z.leb_le, IZR_le in H. rewrite mult_IZR, minus_IZR in H. pose proof unit30_pos. nra.
Qed.

Definition chimin0 : R := 5000000000000005/1000000000000000000000000000000000.
Definition chimin1 : R := 5748784976988682/1000000000000000000000000000000000.

Lemma em_slope path disk junk jl t : tables_at path disk -> load_em junk jl (Some path) disk = Ok t ->
  (forall j i q, 0 <= q <= 1 - /10000000000000000 -> in_segment (row_of (ph_data t) 0) j q -> in_segment (row_of (ph_data t) 1) i q ->
     column (row_of (ph_data t) 0) j q + /1000000000 <= column (row_of (ph_data t) 1) i q) /\
  at_ (row_of (ph_data t) 1) 0 <= 11 * (at_ (row_of (ph_data t) 1) 1 - at_ (row_of (ph_data t) 1) 0) /\
  (forall i c, (i, c) = (0%nat, chimin0) \/ (i, c) = (1%nat, chimin1) ->
     forall j, (j < 100)%nat -> at_ (row_of (ph_chi t) i) j = log10 c + INR j * ((at_ (ph_axis t) i - log10 2 - log10 c) / 99)).
Proof.
  intros H HL. destruct (disk_em path disk H) as (D1 & D2 & D3).
  destruct (h_contents h_text h_checked) as (hc & rows & r1 & hl & W1 & B1 & C1 & L1 & F1 & G1).
  destruct (k_contents ksi_text k_checked) as (ec & cc & lmin & lmax & data & r2 & dx & dy & kl & W2 & B2 & C2 & C3 & I1 & I2 & X1 & X2 & L2 & FL & F2 & G2 & _ & GA).
  destruct (c_contents chimin_text c_checked) as (mins & r3 & cl & W3 & B3 & L3 & F3 & M3 & G3 & _ & G30 & G31).
  destruct (C97_emission_tables junk jl path disk h_text ksi_text chimin_text hc rows r1 ec cc lmin lmax data r2 mins r3 100)
      as (t0 & HL0 & E1 & E2 & E3 & E4 & E5 & E6 & E7 & E8); auto; try congruence.
  rewrite HL in HL0. inversion HL0; subst t0. clear HL0. rewrite L1 in E1. rewrite L2 in E4, E7, E8.
  change (Z.of_nat 500) with 500%Z in *. change (Z.of_nat 100) with 100%Z in *.
  rewrite (values_dec_rows data kl F2) in E6.
  pose proof (Forall2_len _ _ _ F2) as LK. rewrite L2 in LK. pose proof (Forall2_len _ _ _ F3) as LC. rewrite L3 in LC.
  assert (LR : forall i, (i < 100)%nat -> length (nth i kl []) = 100%nat).
  { intros i Hi. pose proof (forallb_nth _ _ [] i G2 ltac:(lia)) as RG. apply row_good_R in RG. destruct RG as [RL _]. now rewrite map_length in RL. }
  rewrite E6, !row_map. split; [|split].
  - apply apart_R; auto; apply LR; lia.
  - eapply apart_low; eauto. apply LR. lia.
  - assert (LA : length (ph_axis t) = 100%nat) by (rewrite E7; unfold eta_axis; rewrite map_length, seq_length; reflexivity).
    assert (K : forall i, (i < 100)%nat -> forall j, (j < 100)%nat ->
       at_ (row_of (ph_chi t) i) j = log10 (dec_value (dnth cl i)) + INR j * ((at_ (ph_axis t) i - log10 2 - log10 (dec_value (dnth cl i))) / 99)).
    { intros i Hi.
      assert (EC : row_of (ph_chi t) i = chi_row 100 100 (at_ (ph_axis t) i) (dec_value (dnth cl i))).
      { rewrite E8. unfold row_of.
        rewrite nth_indep with (d' := (fun x => chi_row 100 100 (fst x) (entry_value (snd x))) (0, (NoSign, mkNumeral [] None None)))
          by (rewrite map_length, combine_length; lia).
        rewrite (map_nth (fun x => chi_row 100 100 (fst x) (entry_value (snd x)))), combine_nth by (transitivity 100%nat; [exact LA|symmetry; exact L3]). cbn [fst snd]. f_equal.
        rewrite <- (map_nth (entry_value (T := R))). rewrite (values_dec mins cl F3). unfold dnth.
        rewrite nth_indep with (d' := dec_value (dlit 0 0)) by (rewrite map_length; lia). apply map_nth. }
      rewrite EC. intros j Hj. unfold chi_row, at_ at 1. rewrite nth_map_seq by (change (Z.to_nat 100) with 100%nat; lia). cbn [plus].
      change (nlog10 (T := R)) with log10. rnum. rewrite <- INR_IZR_INZ. replace (100 - 1) with 99 by lra. reflexivity. }
    apply deq_R in G30. apply deq_R in G31.
    intros i c [E|E] j Hj; inversion E; subst i c; rewrite K by lia.
    + replace (dec_value (dnth cl 0)) with chimin0; [reflexivity|]. rewrite G30. unfold chimin0. dnum. reflexivity.
    + replace (dec_value (dnth cl 1)) with chimin1; [reflexivity|]. rewrite G31. unfold chimin1. dnum. reflexivity.
Qed.

Lemma power_step : 9999999999999 * 5000000000000005 ^ 33 <= 100000000000 * 5748784976988682 ^ 33.
Proof.
  rewrite !pow_IZR, <- !mult_IZR. apply IZR_le. apply Z.leb_le. vm_compute. reflexivity.
Qed.
(** the logarithms of the two smallest chi are the axis step apart, up to rounding of the file *)
Lemma chimin_step : 2/33 - /100000000000 <= log10 chimin1 - log10 chimin0.
Proof.
  assert (P0 : 0 < chimin0) by (unfold chimin0; lra). assert (P1 : 0 < chimin1) by (unfold chimin1; lra).
  assert (E1 : 1 <= ln 10).
  { rewrite <- (ln_exp 1). destruct (Rle_dec 10 (exp 1)) as [C|C]; [pose proof exp_le_3; lra|].
    apply Rlt_le, ln_increasing; [apply exp_pos|lra]. }
  set (k := (chimin1 / chimin0) ^ 33).
  assert (HK : 100 - /100000000000 <= k).
  { pose proof power_step as PS. unfold k. replace (chimin1 / chimin0) with (5748784976988682 * / 5000000000000005) by (unfold chimin1, chimin0; field).
    rewrite Rpow_mult_distr, pow_inv. revert PS. assert (0 < 5000000000000005 ^ 33) by (apply pow_lt; lra). revert H.
    generalize (5748784976988682 ^ 33) (5000000000000005 ^ 33). intros x y Y PS.
    apply Rmult_le_reg_r with y; [exact Y|]. rewrite Rmult_assoc, Rinv_l by lra. lra. }
  assert (EK : 33 * (log10 chimin1 - log10 chimin0) = ln k / ln 10).
  { unfold k. rewrite ln_pow by (apply Rdiv_lt_0_compat; lra).
    replace (ln (chimin1 / chimin0)) with (ln chimin1 - ln chimin0) by (unfold Rdiv; rewrite ln_mult, ln_Rinv by (try apply Rinv_0_lt_compat; lra); ring).
    unfold log10. replace (INR 33) with 33 by (cbn [INR]; lra). field. lra. }
  assert (LK : 2 * ln 10 - /100000000000 <= ln k).
  { replace (2 * ln 10) with (ln 100) by (replace 100 with (10 ^ 2) by lra; rewrite ln_pow by lra; cbn [INR]; lra).
    assert (ln (100 / k) <= 100 / k - 1).
    { assert (0 < 100 / k) by (apply Rdiv_lt_0_compat; lra). pose proof (exp_ineq1_le (ln (100 / k))) as Q. rewrite exp_ln in Q by auto. lra. }
    assert (100 / k <= 1 + /100000000000).
    { apply Rmult_le_reg_r with k; [lra|]. replace (100 / k * k) with 100 by (field; lra). lra. }
    replace (ln (100 / k)) with (ln 100 - ln k) in H by (unfold Rdiv; rewrite ln_mult, ln_Rinv by (try apply Rinv_0_lt_compat; lra); ring). lra. }
  apply Rmult_le_reg_l with 33; [lra|]. rewrite EK. apply Rmult_le_reg_r with (ln 10); [lra|].
  replace (ln k / ln 10 * ln 10) with (ln k) by (field; lra). lra.
Qed.

Lemma column_le r j q : in_segment r j q -> column r j q <= 99.
Proof.
  intros (H1 & _ & H3 & H4). unfold column. assert ((q - at_ r j) / (at_ r (S j) - at_ r j) <= 1).
  { apply Rmult_le_reg_r with (at_ r (S j) - at_ r j); [lra|]. replace ((q - at_ r j) / (at_ r (S j) - at_ r j) * (at_ r (S j) - at_ r j)) with (q - at_ r j) by (field; lra). lra. }
  pose proof (le_INR (S j) 99 ltac:(lia)) as L. rewrite S_INR in L. replace (INR 99) with 99 in L by (cbn [INR]; lra). lra.
Qed.

(** the value read from a row with equally spaced chi *)
Lemma row_value (r ch : list R) a w q : emission_row r -> length ch = 100%nat ->
  (forall j, (j < 100)%nat -> at_ ch j = a + INR j * ((w - a) / 99)) -> 0 <= q < 1 ->
  exists j, in_segment r j q /\ interpolate1d r ch 100 q = Ok (a + (w - a) / 99 * column r j q).
Proof.
  intros (L & M & R1 & R2 & R3) LC HC Q.
  assert (SEG : forall j, (j < 99)%nat -> at_ r j < at_ r (S j) -> segment r ch j q = a + (w - a) / 99 * column r j q).
  { intros j Hj LT. unfold segment, line, column. rewrite !HC by lia. rewrite S_INR. field. lra. }
  destruct (Rlt_dec q (at_ r 0)) as [A|A].
  - exists 0%nat. split; [unfold in_segment; repeat split; [lia|now left|lra|lra]|].
    rewrite <- SEG by (try lia; lra). replace 100%Z with (Z.of_nat (length r)) by (rewrite L; reflexivity).
    apply interp_below; auto; try lia.
  - destruct (interp_inside r ch ltac:(lia) ltac:(lia) ltac:(rewrite L; reflexivity) q) as (i & I1 & I2 & I3); [rewrite L; cbn [Nat.sub]; lra|].
    rewrite L in I1, I3. exists i. split; [unfold in_segment; repeat split; [lia|right; lra|lra|lra]|].
    rewrite <- SEG by (try lia; lra). exact I3.
Qed.

(** below the table: the chi drawn is still at most eta / 2 *)
Lemma low_chi (E : Engine R) path t eta g chi g' : with_emission_tables path t ->
  (forall g, 0 <= fst (e_canon E g) <= 1 - /10000000000000000) -> 0 < eta <= 1/100000 ->
  calculate_chi E t eta g = Ok (chi, g') -> chi <= eta / 2.
Proof.
  intros (disk & junk & jl & HA & HL) HU He.
  destruct (em_real path disk junk jl t HA HL) as [_ (K1 & K2 & K3 & K4 & K5 & K6 & K7 & _ & K8)].
  destruct (em_slope path disk junk jl t HA HL) as (AP & LOW & CH).
  pose proof (CH 0%nat chimin0 (or_introl eq_refl)) as CH0. pose proof (CH 1%nat chimin1 (or_intror eq_refl)) as CH1. clear CH.
  destruct (K8 0%nat ltac:(lia)) as (_ & _ & _ & LC0 & _). destruct (K8 1%nat ltac:(lia)) as (_ & _ & _ & LC1 & _). clear K8.
  unfold calculate_chi. rewrite rand01. specialize (HU g). destruct (e_canon E g) as [u g1]. cbn [fst snd] in HU |- *.
  change (nlog10 eta) with (log10 eta).
  assert (LE : log10 eta <= -5).
  { change (-5) with (- (5)). replace 5 with (INR 5) by (cbn; ring). rewrite <- log10_inv_pow. apply log10_le. cbn [pow]. lra. }
  assert (INC : increasing (ph_axis t)) by (apply em_axis_inc; auto).
  destruct (closest_points_spec (ph_axis t) (log10 eta) ltac:(lia) ltac:(rewrite K3; reflexivity) INC) as (_ & S2 & _).
  rewrite K3 in S2. change (Z.of_nat 100) with 100%Z in S2. cbn [Nat.sub] in S2.
  destruct S2 as (i & f & HC & _ & I2 & _ & I4); [rewrite K6 by lia; cbn [INR]; lra|lia|].
  destruct I4 as [F0 ->]; [rewrite K6 by lia; cbn [INR]; lra|]. rewrite K1, HC. cbn [bind fst snd].
  change (Z.of_nat 0 + 1)%Z with (Z.of_nat 1). rewrite !get_row_of by lia. cbn [bind]. rewrite K2.
  destruct (row_value (row_of (ph_data t) 0) (row_of (ph_chi t) 0) (log10 chimin0) (at_ (ph_axis t) 0 - log10 2) u (K7 0%nat ltac:(lia)) LC0 CH0
    ltac:(lra)) as (j & J1 & ->).
  destruct (row_value (row_of (ph_data t) 1) (row_of (ph_chi t) 1) (log10 chimin1) (at_ (ph_axis t) 1 - log10 2) u (K7 1%nat ltac:(lia)) LC1 CH1
    ltac:(lra)) as (k & J2 & ->).
  cbn [bind]. pose proof (AP j k u HU J1 J2) as D. pose proof (column_le _ _ _ J1) as U1. pose proof (column_le _ _ _ J2) as U2.
  assert (LB : -11 <= column (row_of (ph_data t) 1) k u).
  { destruct J2 as (_ & [->|P] & _ & P4).
    - unfold column. cbn [INR]. set (b := at_ (row_of (ph_data t) 1) 0) in *. set (b' := at_ (row_of (ph_data t) 1) 1) in *.
      apply Rmult_le_reg_r with (b' - b); [lra|]. replace ((0 + (u - b) / (b' - b)) * (b' - b)) with (u - b) by (field; lra). lra.
    - unfold column. pose proof (pos_INR k).
      assert (0 <= (u - at_ (row_of (ph_data t) 1) k) / (at_ (row_of (ph_data t) 1) (S k) - at_ (row_of (ph_data t) 1) k)); [|lra].
      apply Rmult_le_pos; [lra|]. apply Rlt_le, Rinv_0_lt_compat. lra. }
  intros HE. inversion HE. rnum. rewrite Rpow_Rpower by lra.
  rewrite <- (pow_log (eta / 2)) by lra. apply pow_le. rewrite log10_half by lra.
  rewrite !K6 in * by lia. cbn [INR] in *. rewrite I2. clear I2 HE.
  pose proof chimin_step as ST.
  assert (A0 : log10 chimin0 <= -17).
  { change (-17) with (- (17)). replace 17 with (INR 17) by (cbn; ring). rewrite <- log10_inv_pow. apply log10_le. unfold chimin0. cbn [pow]. lra. }
  assert (L2 : 0 < log10 2 <= 1).
  { split; [replace 0 with (log10 1) by (unfold log10; rewrite ln_1; field; pose proof ln10_pos; lra); apply log10_lt; lra|].
    replace 1 with (INR 1) by reflexivity. rewrite <- log10_pow. apply log10_le. lra. }
  revert A0 L2 ST D U1 U2 LB. generalize (log10 chimin0) (log10 chimin1) (log10 2) (column (row_of (ph_data t) 0) j u) (column (row_of (ph_data t) 1) k u).
  intros a0 a1 l2 v w A0 L2 ST D U1 U2 LB.
  assert (HL' : a0 + (-5 + 0 * (6/99) - l2 - a0) / 99 * v <= -5 - l2) by nra.
  assert (HG : 6/99 <= (a1 + (-5 + 1 * (6/99) - l2 - a1) / 99 * w) - (a0 + (-5 + 0 * (6/99) - l2 - a0) / 99 * v)).
  { set (e := a0 + 2/33 - a1). assert (He' : e <= /100000000000) by (unfold e; lra). replace a1 with (a0 + 2/33 - e) by (unfold e; lra).
    assert (0 <= (-5 - l2 - a0) * (w - v) - e * (99 - w)); [|lra].
    assert (11 * /1000000000 <= (-5 - l2 - a0) * (w - v)) by nra. assert (e * (99 - w) <= /100000000000 * 110) by nra. lra. }
  nra.
Qed.
