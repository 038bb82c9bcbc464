(** * The shipped tables as tables of real numbers *)
From Coq Require Import String ZArith Reals Lra Psatz List Bool Ascii Lia.
From Verif Require Import Num RNum Outcome Text SpecNumeral SpecLoad SpecTable Process Tables TablesFacts SampleFacts
  PropsLoad PropsSample Shipped ShippedData ShippedFacts ShippedTables PropsShipped.
Import ListNotations.
Local Open Scope R_scope.

Lemma deq_R a b : deq a b = true -> dec_value a = dec_value b :> R.
Proof. unfold deq. intros H. apply andb_true_iff in H. destruct H as [H1 H2]. apply dle_R in H1. apply dle_R in H2. lra. Qed.
Lemma between_R a b d : between a b d = true -> (dec_value a : R) <= dec_value d <= dec_value b.
Proof. unfold between. intros H. apply andb_true_iff in H. destruct H as [H1 H2]. apply dle_R in H1. apply dle_R in H2. lra. Qed.
Ltac dnum := rewrite ?dlit_R, ?Rlit_0, ?Rlit_pos, ?Rlit_neg in *; ev_pow.

Lemma row_map (l : list (list dec)) i : row_of (map (map (dec_value (T := R))) l) i = map dec_value (nth i l []).
Proof. unfold row_of. change (@nil R) with (map (dec_value (T := R)) []). apply map_nth. Qed.
Lemma forallb_nth {A} (f : A -> bool) l d i : forallb f l = true -> (i < length l)%nat -> f (nth i l d) = true.
Proof. rewrite forallb_forall. intros H L. apply H, nth_In, L. Qed.

(** a row of ksi_sokolov.table *)
Definition emission_row (r : list R) : Prop :=
  length r = 100%nat /\ (forall j k, (j <= k < 100)%nat -> at_ r j <= at_ r k) /\ at_ r 0 < at_ r 1 /\ at_ r 99 = 1 /\ 4/1000 <= at_ r 0 <= 1/100.
Lemma row_good_R r : row_good r = true -> emission_row (map dec_value r).
Proof.
  unfold row_good. intros H. do 4 (apply andb_true_iff in H; destruct H as [H ?]). apply Nat.eqb_eq in H.
  unfold emission_row. rewrite map_length. split; [exact H|]. split; [intros; apply chain_monotone; [auto|lia]|].
  rewrite !at_dec by lia. split; [now apply dlt_R|].
  match goal with H : deq _ _ = true |- _ => apply deq_R in H; rewrite H; clear H end.
  match goal with H : between _ _ _ = true |- _ => apply between_R in H; revert H end. generalize (dec_value (T := R) (dnth r 0)). dnum.
  intros. lra.
Qed.

Lemma em_real path disk junk jl t : tables_at path disk -> load_em junk jl (Some path) disk = Ok t ->
  (h_len t = 500%Z /\ length (h_axis t) = 500%nat /\ length (h_data t) = 500%nat /\ increasing (h_axis t) /\
   at_ (h_axis t) 0 = -5 /\ at_ (h_axis t) 1 = -4987975951903808/1000000000000000 /\ at_ (h_axis t) 499 = 1 /\
   (forall i, (i < 500)%nat -> 3459150912836859/10000000000000000 <= at_ (h_data t) i <= 7189960759048358/10000000000000000) /\
   at_ (h_data t) 0 = 7189960759048358/10000000000000000 /\ at_ (h_data t) 1 = 7189959234513367/10000000000000000 /\
   at_ (h_data t) 499 = 3459150912836859/10000000000000000) /\
  (ph_etaLen t = 100%Z /\ ph_chiLen t = 100%Z /\ length (ph_axis t) = 100%nat /\ length (ph_data t) = 100%nat /\ length (ph_chi t) = 100%nat /\
   (forall i, (i < 100)%nat -> at_ (ph_axis t) i = -5 + INR i * (6/99)) /\
   (forall i, (i < 100)%nat -> emission_row (row_of (ph_data t) i)) /\
   (forall i, i = 46%nat \/ i = 47%nat -> at_ (row_of (ph_data t) i) 85 <= 9999/10000) /\
   (forall i, (i < 100)%nat -> exists c, 5/1000000000000000000 <= c <= 51/100000000 /\ ((46 <= i)%nat -> 1/1000000000000 <= c) /\ length (row_of (ph_chi t) i) = 100%nat /\
      forall j, (j < 100)%nat -> at_ (row_of (ph_chi t) i) j = log10 c + INR j * ((at_ (ph_axis t) i - log10 2 - log10 c) / 99))).
Proof.
  intros H HL. destruct (disk_em path disk H) as (D1 & D2 & D3).
  destruct (h_contents h_text h_checked) as (hc & rows & r1 & hl & W1 & B1 & C1 & L1 & F1 & G1).
  destruct (k_contents ksi_text k_checked) as (ec & cc & lmin & lmax & data & r2 & dx & dy & kl & W2 & B2 & C2 & C3 & I1 & I2 & X1 & X2 & L2 & FL & F2 & G2 & G2' & _).
  destruct (c_contents chimin_text c_checked) as (mins & r3 & cl & W3 & B3 & L3 & F3 & M3 & G3 & G3' & _).
  destruct (C97_emission_tables junk jl path disk h_text ksi_text chimin_text hc rows r1 ec cc lmin lmax data r2 mins r3 100)
      as (t0 & HL0 & E1 & E2 & E3 & E4 & E5 & E6 & E7 & E8); auto; try congruence.
  rewrite HL in HL0. inversion HL0; subst t0. clear HL0. rewrite L1 in E1. rewrite L2 in E4, E7, E8.
  change (Z.of_nat 500) with 500%Z in *. change (Z.of_nat 100) with 100%Z in *.
  rewrite (values_dec_fst rows hl F1) in E2. rewrite (values_dec_snd rows hl F1) in E3. rewrite (values_dec_rows data kl F2) in E6.
  rewrite (entry_dec lmin dx I1), (entry_dec lmax dy I2) in E7. apply deq_R in X1. apply deq_R in X2. rewrite X1, X2 in E7. clear X1 X2 I1 I2.
  pose proof (Forall2_len _ _ _ F1) as LH. pose proof (Forall2_len _ _ _ F2) as LK. rewrite L1 in LH. rewrite L2 in LK.
  pose proof (Forall2_len _ _ _ F3) as LC. rewrite L3 in LC.
  rewrite <- (map_map fst dec_value) in E2. rewrite <- (map_map snd dec_value) in E3. split.
  - unfold h_good in G1. do 7 (apply andb_true_iff in G1; destruct G1 as [G1 ?]).
    assert (LX : length (map fst hl) = 500%nat) by (rewrite map_length; congruence).
    assert (LY : length (map snd hl) = 500%nat) by (rewrite map_length; congruence).
    set (xs := map fst hl) in *. set (ys := map snd hl) in *. rewrite E2, E3, !map_length.
    split; [exact E1|]. split; [exact LX|]. split; [exact LY|]. split; [now apply chain_increasing|].
    rewrite !at_dec by lia.
    repeat match goal with H : deq _ _ = true |- _ => apply deq_R in H; rewrite H; clear H end.
    split; [dnum; lra|]. split; [dnum; lra|]. split; [dnum; lra|]. split.
    { intros i Hi. rewrite at_dec by lia. unfold dnth.
      match goal with H : forallb _ ys = true |- _ => pose proof (between_R _ _ _ (forallb_nth _ _ (dlit 0 0) i H ltac:(lia))) as Q end.
      revert Q. generalize (dec_value (T := R) (nth i ys (dlit 0 0))). dnum. intros. lra. }
    split; [dnum; lra|]. split; dnum; lra.
  - assert (LA : length (ph_axis t) = 100%nat) by (rewrite E7; unfold eta_axis; rewrite map_length, seq_length; reflexivity).
    split; [exact E4|]. split; [exact E5|]. split; [exact LA|].
    split; [rewrite E6, map_length; congruence|].
    split; [rewrite E8, map_length, combine_length; lia|].
    assert (HA : forall i, (i < 100)%nat -> at_ (ph_axis t) i = -5 + INR i * (6/99)).
    { intros i Hi. rewrite E7. unfold eta_axis, at_. rewrite nth_map_seq by (change (Z.to_nat 100) with 100%nat; lia). cbn [plus]. rnum. dnum.
      rewrite <- INR_IZR_INZ. field. }
    split; [exact HA|]. split; [|split].
    + intros i Hi. rewrite E6, row_map. apply row_good_R. apply forallb_nth; [exact G2|lia].
    + intros i Hi. rewrite E6, row_map.
      assert (Hk : nth i kl [] = nth (i - 46) (firstn 2 (skipn 46 kl)) []).
      { clear - Hi LK. rewrite <- (firstn_skipn 46 kl) at 1. rewrite app_nth2; rewrite firstn_length; [|lia].
        replace (Nat.min 46 (length kl)) with 46%nat by lia.
        rewrite <- (firstn_skipn 2 (skipn 46 kl)) at 1. rewrite app_nth1; [reflexivity|]. rewrite firstn_length, skipn_length. lia. }
      pose proof (forallb_nth _ _ [] i G2 ltac:(lia)) as RG. apply row_good_R in RG. destruct RG as [RL _]. rewrite map_length in RL.
      rewrite at_dec by lia. rewrite Hk.
      pose proof (dle_R _ _ (forallb_nth _ _ [] (i - 46) G2' ltac:(rewrite firstn_length, skipn_length; lia))) as Q.
      eapply Rle_trans; [exact Q|]. dnum. lra.
    + intros i Hi. exists (dec_value (dnth cl i)).
      pose proof (between_R _ _ _ (forallb_nth _ _ (dlit 0 0) i G3 ltac:(lia))) as Q. fold (dnth cl i) in Q.
      assert (EC : row_of (ph_chi t) i = chi_row 100 100 (at_ (ph_axis t) i) (dec_value (dnth cl i))).
      { rewrite E8. unfold row_of.
        rewrite nth_indep with (d' := (fun x => chi_row 100 100 (fst x) (entry_value (snd x))) (0, (NoSign, mkNumeral [] None None)))
          by (rewrite map_length, combine_length; lia).
        rewrite (map_nth (fun x => chi_row 100 100 (fst x) (entry_value (snd x)))), combine_nth by (transitivity 100%nat; [exact LA|symmetry; exact L3]). cbn [fst snd]. f_equal.
        rewrite <- (map_nth (entry_value (T := R))). rewrite (values_dec mins cl F3). unfold dnth.
        rewrite nth_indep with (d' := dec_value (dlit 0 0)) by (rewrite map_length; lia). apply map_nth. }
      rewrite EC. split; [|split; [|split]].
      * revert Q. generalize (dec_value (T := R) (dnth cl i)). dnum. intros. lra.
      * intros Hi'. apply Rle_trans with (dec_value (dnth cl 46)).
        -- apply dle_R in G3'. eapply Rle_trans; [|exact G3']. dnum. lra.
        -- rewrite <- !at_dec by lia. destruct (Nat.eq_dec 46 i) as [<-|]; [lra|]. apply Rlt_le, chain_increasing; auto. rewrite map_length. lia.
      * unfold chi_row. rewrite map_length, seq_length. reflexivity.
      * intros j Hj. unfold chi_row, at_ at 1. rewrite nth_map_seq by (change (Z.to_nat 100) with 100%nat; lia). cbn [plus].
        change (nlog10 (T := R)) with log10. rnum. rewrite <- INR_IZR_INZ. replace (100 - 1) with 99 by lra. reflexivity.
Qed.

(** a row of e_split.table *)
Definition split_row (r : list R) : Prop :=
  length r = 100%nat /\ (forall j k, (j <= k < 100)%nat -> at_ r j <= at_ r k) /\ 0 <= at_ r 0 /\ at_ r 99 = 1.
Lemma srow_good_R r : srow_good r = true -> split_row (map dec_value r).
Proof.
  unfold srow_good. intros H. do 3 (apply andb_true_iff in H; destruct H as [H ?]). apply Nat.eqb_eq in H.
  unfold split_row. rewrite map_length. split; [exact H|]. split; [intros; apply chain_monotone; [auto|lia]|].
  rewrite !at_dec by lia.
  match goal with H : deq _ _ = true |- _ => apply deq_R in H; rewrite H; clear H end.
  match goal with H : dle _ _ = true |- _ => apply dle_R in H; revert H end. generalize (dec_value (T := R) (dnth r 0)). dnum.
  intros. lra.
Qed.
Lemma dadd_scale (a b c : dec) : exists e (x y z : Z), 0 < e /\
  (dec_value a : R) = IZR x * e /\ (dec_value b : R) = IZR y * e /\ (dec_value c : R) = IZR z * e /\
  forall rel, dadd_cmp rel a b c = rel (2 * x)%Z (y + z)%Z.
Proof.
  set (e := Z.min (d_exp a) (Z.min (d_exp b) (d_exp c))).
  exists (powerRZ 10 e), (d_int a * 10 ^ (d_exp a - e))%Z, (d_int b * 10 ^ (d_exp b - e))%Z, (d_int c * 10 ^ (d_exp c - e))%Z.
  split; [apply p10_pos|]. rewrite !dec_R. repeat split; apply dcmp_scale; unfold e; lia.
Qed.
Lemma dadd_le_R a b c : dadd_cmp Z.leb a b c = true -> 2 * dec_value a <= dec_value b + dec_value c.
Proof.
  destruct (dadd_scale a b c) as (e & x & y & z & P & -> & -> & -> & ->). intros H. apply Z.leb_le, IZR_le in H.
  rewrite mult_IZR, plus_IZR in H. nra.
Qed.
Lemma dadd_ge_R a b c : dadd_cmp (fun x y => y <=? x)%Z a b c = true -> dec_value b + dec_value c <= 2 * dec_value a.
Proof.
  destruct (dadd_scale a b c) as (e & x & y & z & P & -> & -> & -> & ->). intros H. apply Z.leb_le, IZR_le in H.
  rewrite mult_IZR, plus_IZR in H. nra.
Qed.

Lemma bw_real path disk junk jl t : tables_at path disk -> load_bw junk jl (Some path) disk = Ok t ->
  (t_len t = 1301%Z /\ length (t_axis t) = 1301%nat /\ length (t_data t) = 1301%nat /\ increasing (t_axis t) /\
   at_ (t_axis t) 0 = -5 /\ at_ (t_axis t) 1300 = 8 /\
   (forall i, (i < 1301)%nat -> -580 <= at_ (t_data t) i <= -695/1000)) /\
  (s_len t = 100%Z /\ length (s_chi t) = 100%nat /\ length (s_fract t) = 100%nat /\ length (s_data t) = 100%nat /\
   increasing (s_chi t) /\ at_ (s_chi t) 0 = -23010299956639813/10000000000000000 /\
   1982/1000 <= at_ (s_chi t) 80 <= 1983/1000 /\ 2036/1000 <= at_ (s_chi t) 81 <= 2037/1000 /\
   at_ (s_chi t) 98 = 29464542424680418/10000000000000000 /\
   increasing (s_fract t) /\ at_ (s_fract t) 0 = 1/100 /\ at_ (s_fract t) 1 = 2/100 /\ at_ (s_fract t) 99 = 10000000000000007/10000000000000000 /\
   (forall i, (i < 100)%nat -> split_row (row_of (s_data t) i)) /\
   (forall i, (i <= 80)%nat -> 2 * at_ (row_of (s_data t) i) 0 <= at_ (row_of (s_data t) i) 1) /\
   (forall i, (81 <= i < 100)%nat -> at_ (row_of (s_data t) i) 0 < at_ (row_of (s_data t) i) 1 <= 2 * at_ (row_of (s_data t) i) 0 - 6/10000)).
Proof.
  intros H HL. destruct (disk_bw path disk H) as (D1 & D2 & D3 & D4).
  destruct (t_contents pairs_text t_checked) as (tc & rows & r1 & hl & W1 & B1 & C1 & L1 & F1 & G1).
  destruct (s_contents split_text s_checked) as (fc & data & r2 & kl & W2 & B2 & C2 & L2 & FL & F2 & G2 & G2a & G2b).
  destruct (e_contents eps_text e_checked) as (eps & r3 & el & W3 & B3 & L3 & F3 & M3 & P1 & P2 & P3).
  destruct (l_contents logchi_text l_checked) as (chis & r4 & ll & W4 & B4 & L4 & F4 & M4 & Q1 & Q2 & Q3 & Q4).
  destruct (C97_pair_tables junk jl path disk pairs_text split_text eps_text logchi_text tc rows r1 fc data r2 eps r3 chis r4)
      as (t0 & HL0 & E1 & E2 & E3 & E4 & E5 & E6 & E7); auto; try congruence; try (rewrite L2; assumption).
  rewrite HL in HL0. inversion HL0; subst t0. clear HL0. rewrite L1 in E1. rewrite L2 in E4.
  change (Z.of_nat 1301) with 1301%Z in *. change (Z.of_nat 100) with 100%Z in *.
  rewrite (values_dec_fst rows hl F1) in E2. rewrite (values_dec_snd rows hl F1) in E3. rewrite (values_dec_rows data kl F2) in E5.
  rewrite (values_dec chis ll F4) in E6. rewrite (values_dec eps el F3) in E7.
  pose proof (Forall2_len _ _ _ F1) as LH. pose proof (Forall2_len _ _ _ F2) as LK. rewrite L1 in LH. rewrite L2 in LK.
  pose proof (Forall2_len _ _ _ F3) as LE. rewrite L3 in LE. pose proof (Forall2_len _ _ _ F4) as LL. rewrite L4 in LL.
  rewrite <- (map_map fst dec_value) in E2. rewrite <- (map_map snd dec_value) in E3.
  assert (SR : forall i, (i < 100)%nat -> split_row (row_of (s_data t) i)).
  { intros i Hi. rewrite E5, row_map. apply srow_good_R. apply forallb_nth; [exact G2|lia]. }
  split.
  - unfold t_good in G1. do 5 (apply andb_true_iff in G1; destruct G1 as [G1 ?]).
    assert (LX : length (map fst hl) = 1301%nat) by (rewrite map_length; congruence).
    assert (LY : length (map snd hl) = 1301%nat) by (rewrite map_length; congruence).
    set (xs := map fst hl) in *. set (ys := map snd hl) in *. rewrite E2, E3, !map_length.
    split; [exact E1|]. split; [exact LX|]. split; [exact LY|]. split; [now apply chain_increasing|].
    rewrite !at_dec by lia.
    repeat match goal with H : deq _ _ = true |- _ => apply deq_R in H; rewrite ?H; clear H end.
    split; [dnum; lra|]. split; [dnum; lra|].
    intros i Hi. rewrite at_dec by lia. unfold dnth.
    match goal with H : forallb _ ys = true |- _ => pose proof (between_R _ _ _ (forallb_nth _ _ (dlit 0 0) i H ltac:(lia))) as Q end.
    revert Q. generalize (dec_value (T := R) (nth i ys (dlit 0 0))). dnum. intros. lra.
  - assert (LSC : length (s_chi t) = 100%nat) by (rewrite E6, map_length; auto).
    assert (LSF : length (s_fract t) = 100%nat) by (rewrite E7, map_length; auto).
    split; [exact E4|]. split; [exact LSC|]. split; [exact LSF|].
    split; [rewrite E5, map_length; auto|]. split; [rewrite E6; now apply chain_increasing|].
    apply deq_R in Q1. apply between_R in Q2. apply between_R in Q3. apply deq_R in Q4.
    apply deq_R in P1. apply deq_R in P2. apply deq_R in P3.
    assert (AC : forall i, (i < 100)%nat -> at_ (s_chi t) i = dec_value (dnth ll i)) by (intros; rewrite E6; apply at_dec; lia).
    assert (AF : forall i, (i < 100)%nat -> at_ (s_fract t) i = dec_value (dnth el i)) by (intros; rewrite E7; apply at_dec; lia).
    rewrite !AC, !AF by lia. rewrite Q1, Q4, P1, P2, P3.
    revert Q2 Q3. generalize (dec_value (T := R) (dnth ll 80)) (dec_value (T := R) (dnth ll 81)). intros a b Q2 Q3.
    split; [dnum; lra|]. split; [dnum; lra|]. split; [dnum; lra|]. split; [dnum; lra|].
    split; [rewrite E7; now apply chain_increasing|]. split; [dnum; lra|]. split; [dnum; lra|]. split; [dnum; lra|]. clear Q2 Q3.
    split; [exact SR|]. split.
    + intros i Hi.
      assert (Hk : nth i kl [] = nth i (firstn 81 kl) []).
      { clear - Hi LK. rewrite <- (firstn_skipn 81 kl) at 1. rewrite app_nth1; [reflexivity|]. rewrite firstn_length. lia. }
      destruct (SR i ltac:(lia)) as [RL _]. rewrite E5, row_map in *. rewrite map_length in RL. rewrite !at_dec by lia. rewrite Hk.
      pose proof (dadd_le_R _ _ _ (forallb_nth _ _ [] i G2a ltac:(rewrite firstn_length; lia))) as Q. revert Q.
      generalize (dec_value (T := R) (dnth (nth i (firstn 81 kl) []) 0)) (dec_value (T := R) (dnth (nth i (firstn 81 kl) []) 1)). intros a' b'. dnum. intros. lra.
    + intros i Hi.
      assert (Hk : nth i kl [] = nth (i - 81) (skipn 81 kl) []).
      { clear - Hi LK. rewrite <- (firstn_skipn 81 kl) at 1. rewrite app_nth2; rewrite firstn_length; [|lia]. f_equal. lia. }
      destruct (SR i ltac:(lia)) as [RL _]. rewrite E5, row_map in *. rewrite map_length in RL. rewrite !at_dec by lia. rewrite Hk.
      pose proof (forallb_nth _ _ [] (i - 81) G2b ltac:(rewrite skipn_length; lia)) as Q. apply andb_true_iff in Q. destruct Q as [Qa Qb].
      apply dlt_R in Qa. apply dadd_ge_R in Qb. revert Qa Qb.
      generalize (dec_value (T := R) (dnth (nth (i - 81) (skipn 81 kl) []) 0)) (dec_value (T := R) (dnth (nth (i - 81) (skipn 81 kl) []) 1)).
      intros a' b'. dnum. intros. lra.
Qed.

(** the row of pairprod.table for chi = 1000 *)
Lemma pair_rate_1000 path disk junk jl t : tables_at path disk -> load_bw junk jl (Some path) disk = Ok t ->
  at_ (t_axis t) 800 = 3 /\ at_ (t_data t) 800 = -123028883219917/100000000000000.
Proof.
  intros H HL. destruct (disk_bw path disk H) as (D1 & D2 & D3 & D4).
  destruct (t_contents pairs_text t_checked) as (tc & rows & r1 & hl & W1 & B1 & C1 & L1 & F1 & G1).
  destruct (s_contents split_text s_checked) as (fc & data & r2 & kl & W2 & B2 & C2 & L2 & FL & F2 & _).
  destruct (e_contents eps_text e_checked) as (eps & r3 & el & W3 & B3 & L3 & F3 & _).
  destruct (l_contents logchi_text l_checked) as (chis & r4 & ll & W4 & B4 & L4 & F4 & _).
  destruct (C97_pair_tables junk jl path disk pairs_text split_text eps_text logchi_text tc rows r1 fc data r2 eps r3 chis r4)
      as (t0 & HL0 & E1 & E2 & E3 & _); auto; try congruence; try (rewrite L2; assumption).
  rewrite HL in HL0. inversion HL0; subst t0. clear HL0.
  rewrite (values_dec_fst rows hl F1) in E2. rewrite (values_dec_snd rows hl F1) in E3.
  pose proof (Forall2_len _ _ _ F1) as LH. rewrite L1 in LH.
  rewrite <- (map_map fst dec_value) in E2. rewrite <- (map_map snd dec_value) in E3.
  unfold t_good in G1. apply andb_true_iff in G1. destruct G1 as [G1 Y]. apply andb_true_iff in G1. destruct G1 as [_ X].
  assert (LX : length (map fst hl) = 1301%nat) by (rewrite map_length; congruence).
  assert (LY : length (map snd hl) = 1301%nat) by (rewrite map_length; congruence).
  set (xs := map fst hl) in *. set (ys := map snd hl) in *. rewrite E2, E3. rewrite !at_dec by lia.
  apply deq_R in X. apply deq_R in Y. rewrite X, Y. split; dnum; lra.
Qed.
