(** * Sampling from the loaded tables (exact reals): facts *)
From Coq Require Import String ZArith Reals Lra Psatz List Bool Lia.
From Verif Require Import Num RNum Outcome OutcomeFacts Vec SpecVec SpecDyn SpecTable Units Numerics NumericsFacts MCTools Particle ParticleList
  ParticleFacts Fields Process ProcessFacts ProcessRFacts ProcessSafe Tables TablesFacts.
Import ListNotations.
Local Open Scope R_scope.

Definition log10 (x : R) : R := ln x / ln 10.
(** A table of the cumulative probability that reaches 1 and rises at its start. *)
Definition cumulative (row : list R) : Prop := at_ row 0 < at_ row 1 /\ 1 <= at_ row (length row - 1).

Lemma ln10_pos : 0 < ln 10.
Proof. rewrite <- ln_1. apply ln_increasing; lra. Qed.
Lemma pow_log x : 0 < x -> Rpower 10 (log10 x) = x.
Proof.
  intros Hx. unfold Rpower, log10. replace (ln x / ln 10 * ln 10) with (ln x). now apply exp_ln.
  field. pose proof ln10_pos. lra.
Qed.
Lemma log10_half x : 0 < x -> log10 (x / 2) = log10 x - log10 2.
Proof. intros Hx. unfold log10. unfold Rdiv at 2. rewrite ln_mult, ln_Rinv by lra. unfold Rdiv. ring. Qed.
Lemma pow_le x y : x <= y -> Rpower 10 x <= Rpower 10 y.
Proof. intros [L| ->]; [left; apply Rpower_lt; lra|lra]. Qed.

Lemma sample_below row ax q hi : (2 <= length row)%nat -> length ax = length row -> (Z.of_nat (length row) < 2 ^ 31)%Z ->
  q < 1 -> cumulative row -> at_ ax 0 <= at_ ax 1 -> (forall j, (j < length ax)%nat -> at_ ax j <= hi) ->
  exists v, interpolate1d row ax (Z.of_nat (length row)) q = Ok v /\ v <= hi.
Proof.
  intros N L B Q [C1 C2] U HI. destruct (Rlt_dec q (at_ row 0)) as [A|A].
  - eexists. split; [apply interp_below; auto|]. unfold segment, line.
    apply Rle_trans with (at_ ax 0); [|apply HI; lia].
    assert (0 <= (at_ ax 1 - at_ ax 0) / (at_ row 1 - at_ row 0)).
    { apply Rmult_le_pos; [lra|]. apply Rlt_le, Rinv_0_lt_compat. lra. }
    unfold Rdiv in *. nra.
  - destruct (interp_inside row ax N L B q) as (i & I1 & I2 & I3); [lra|].
    eexists. split; [exact I3|]. pose proof (segment_between row ax i q ltac:(lra) ltac:(lra)) as [_ S].
    eapply Rle_trans; [exact S|]. apply Rmax_lub; apply HI; lia.
Qed.
Lemma sample_inside row ax q lo hi : (2 <= length row)%nat -> length ax = length row -> (Z.of_nat (length row) < 2 ^ 31)%Z ->
  at_ row 0 <= q < 1 -> 1 <= at_ row (length row - 1) -> (forall j, (j < length ax)%nat -> lo <= at_ ax j <= hi) ->
  exists v, interpolate1d row ax (Z.of_nat (length row)) q = Ok v /\ lo <= v <= hi.
Proof.
  intros N L B Q C2 HI. destruct (interp_inside row ax N L B q) as (i & I1 & I2 & I3); [lra|].
  eexists. split; [exact I3|]. pose proof (segment_between row ax i q ltac:(lra) ltac:(lra)) as [S1 S2].
  split.
  - eapply Rle_trans; [|exact S1]. apply Rmin_glb; apply HI; lia.
  - eapply Rle_trans; [exact S2|]. apply Rmax_lub; apply HI; lia.
Qed.

Definition row_of {A} (rows : list (list A)) (i : nat) : list A := nth i rows [].

Lemma get_row_of (rows : list (list R)) i : (i < length rows)%nat -> get rows (Z.of_nat i) = Ok (row_of rows i).
Proof. intros L. rewrite (get_Z rows (Z.of_nat i) []) by lia. unfold row_of. now rewrite Nat2Z.id. Qed.
Lemma row_len (rows : list (list R)) i m : (i < length rows)%nat -> (forall r, In r rows -> Z.of_nat (length r) = m) ->
  Z.of_nat (length (row_of rows i)) = m.
Proof. intros L F. apply F. apply nth_In. exact L. Qed.

(** *** the photon energy *)
Lemma chi_upper (E : Engine R) t eta g chi g' : em_tables_ok t -> increasing (ph_axis t) ->
  (forall i, (i < length (ph_axis t))%nat -> cumulative (row_of (ph_data t) i) /\
     at_ (row_of (ph_chi t) i) 0 <= at_ (row_of (ph_chi t) i) 1 /\
     forall j, (Z.of_nat j < ph_chiLen t)%Z -> at_ (row_of (ph_chi t) i) j <= at_ (ph_axis t) i - log10 2) ->
  fst (e_canon E g) < 1 -> 0 < eta -> at_ (ph_axis t) 0 <= log10 eta ->
  calculate_chi E t eta g = Ok (chi, g') -> chi <= eta / 2.
Proof.
  intros (_ & _ & _ & _ & K1 & K2 & K3 & K4 & K5 & K6 & K7) INC HR Q He Hlo. unfold calculate_chi. rewrite rand01.
  destruct (e_canon E g) as [u g1]. cbn [fst snd] in Q |- *. rewrite K2.
  change (nlog10 eta) with (log10 eta).
  destruct (closest_points_spec (ph_axis t) (log10 eta) K1 ltac:(lia) INC) as (S1 & S2 & S3).
  destruct (Rlt_dec (at_ (ph_axis t) (length (ph_axis t) - 2)) (log10 eta)) as [A|A].
  { rewrite S1 by assumption. discriminate. }
  destruct (Nat.eq_dec (length (ph_axis t)) 2) as [A2|A2]; [rewrite S3 by (auto; lra); discriminate|].
  destruct (S2 ltac:(lra) ltac:(lia)) as (i & f & HC & I1 & I2 & I3 & I4). rewrite HC. cbn [bind fst snd].
  assert (F01 : 0 <= f <= 1).
  { destruct (Rlt_dec (at_ (ph_axis t) 0) (log10 eta)) as [B|B]; [specialize (I3 B); lra|].
    destruct (I4 ltac:(lra)) as [F0 ->]. assert (log10 eta = at_ (ph_axis t) 0) by lra.
    pose proof (INC 0%nat 1%nat ltac:(lia)). assert (f * (at_ (ph_axis t) 1 - at_ (ph_axis t) 0) = 0) by lra. nra. }
  assert (G : forall k, (k < length (ph_axis t))%nat -> exists v,
    get (ph_data t) (Z.of_nat k) = Ok (row_of (ph_data t) k) /\ get (ph_chi t) (Z.of_nat k) = Ok (row_of (ph_chi t) k) /\
    interpolate1d (row_of (ph_data t) k) (row_of (ph_chi t) k) (ph_chiLen t) u = Ok v /\ v <= at_ (ph_axis t) k - log10 2).
  { intros k Hk. destruct (HR k Hk) as (R1 & R2 & R3).
    pose proof (row_len (ph_data t) k (ph_chiLen t) ltac:(lia) ltac:(auto)) as L1.
    pose proof (row_len (ph_chi t) k (ph_chiLen t) ltac:(lia) ltac:(auto)) as L2.
    destruct (sample_below (row_of (ph_data t) k) (row_of (ph_chi t) k) u (at_ (ph_axis t) k - log10 2)) as (v & V1 & V2);
      [lia|lia|lia|lra|auto|auto|intros j Hj; apply R3; lia|].
    exists v. rewrite !get_row_of by lia. rewrite L1 in V1. auto. }
  destruct (G i ltac:(lia)) as (v & -> & -> & V1 & V2). cbn [bind]. rewrite V1. cbn [bind].
  replace (Z.of_nat i + 1)%Z with (Z.of_nat (S i)) by lia.
  destruct (G (S i) ltac:(lia)) as (w & -> & -> & W1 & W2). cbn [bind]. rewrite W1. cbn [bind].
  intros HE. inversion HE. rnum. rewrite Rpow_Rpower by lra.
  rewrite <- (pow_log (eta / 2)) by lra. apply pow_le. rewrite log10_half by lra. nra.
Qed.

(** *** the loaded axes *)
Lemma load_em_axes junk jl env disk (t : em_tables R) : load_em junk jl env disk = Ok t -> (2 <= length (ph_axis t))%nat ->
  length (ph_chi t) = length (ph_axis t) /\ ph_etaLen t = Z.of_nat (length (ph_axis t)) /\
  forall i, (i < length (ph_axis t))%nat -> exists s, forall j, (Z.of_nat j < ph_chiLen t)%Z ->
    at_ (row_of (ph_chi t) i) j = s + INR j * ((at_ (ph_axis t) i - log10 2 - s) / (INR (length (ph_axis t)) - 1)).
Proof.
  unfold load_em. destruct env as [path|]; [|discriminate]. destruct (disk _) as [h|]; [|discriminate].
  destruct (disk _) as [ph|]; [|discriminate]. destruct (disk _) as [cm|]; [|discriminate].
  intros HE. inversion HE as [HE']. clear HE HE'. unfold read_em.
  destruct (in_unsigned (Some h) jl) as [hs hn]. destruct (in_unsigned (Some ph) jl) as [s1 en].
  destruct (in_unsigned s1 jl) as [s2 cn]. destruct (in_double s2 (junk 0%nat 0%nat)) as [s3 logMin].
  destruct (in_double s3 (junk 0%nat 1%nat)) as [s4 logMax].
  set (mins := fst (in_array junk (Z.to_nat en) 1 0 (Some cm))).
  assert (LM : length mins = Z.to_nat en) by apply array_length. cbn [ph_axis ph_chi ph_etaLen ph_chiLen].
  assert (LA : length (eta_axis en logMin logMax) = Z.to_nat en) by (unfold eta_axis; rewrite map_length, seq_length; reflexivity).
  rewrite LA. intros N2. rewrite map_length, combine_length, LA, LM. split; [lia|]. split; [lia|].
  intros i Hi. exists (nlog10 (nth i mins 0)). intros j Hj.
  assert (ER : row_of (map (fun x => chi_row en cn (fst x) (snd x)) (combine (eta_axis en logMin logMax) mins)) i =
    chi_row en cn (at_ (eta_axis en logMin logMax) i) (nth i mins 0)).
  { unfold row_of. rewrite nth_indep with (d' := (fun x => chi_row en cn (fst x) (snd x)) (0, 0))
      by (rewrite map_length, combine_length, LA, LM; lia).
    rewrite (map_nth (fun x => chi_row en cn (fst x) (snd x))).
    rewrite combine_nth by congruence. reflexivity. }
  rewrite ER. unfold chi_row, at_ at 1. rewrite nth_map_seq by lia. cbn [plus]. rnum.
  rewrite <- INR_IZR_INZ. replace (IZR en) with (INR (Z.to_nat en)) by (rewrite INR_IZR_INZ, Z2Nat.id by lia; reflexivity).
  reflexivity.
Qed.

Lemma load_em_ok {T} `{Num T} junk jl env disk (t : em_tables T) : (0 <= jl < 2 ^ 32)%Z -> load_em junk jl env disk = Ok t ->
  (2 <= h_len t < 2 ^ 31)%Z -> (2 <= ph_etaLen t < 2 ^ 31)%Z -> (2 <= ph_chiLen t < 2 ^ 31)%Z -> em_tables_ok t.
Proof.
  intros J. unfold load_em. destruct env as [path|]; [|discriminate]. destruct (disk _) as [h|]; [|discriminate].
  destruct (disk _) as [ph|]; [|discriminate]. destruct (disk _) as [cm|]; [|discriminate].
  intros HE. inversion HE as [HE']. clear HE HE'. unfold read_em.
  destruct (in_unsigned (Some h) jl) as [hs hn]. destruct (in_unsigned (Some ph) jl) as [s1 en].
  destruct (in_unsigned s1 jl) as [s2 cn]. destruct (in_double s2 (junk 0%nat 0%nat)) as [s3 logMin].
  destruct (in_double s3 (junk 0%nat 1%nat)) as [s4 logMax]. cbn [h_len ph_etaLen ph_chiLen]. intros B1 B2 B3.
  unfold em_tables_ok. cbn [h_axis h_data h_len ph_axis ph_chi ph_data ph_etaLen ph_chiLen].
  destruct (rows_length junk (Z.to_nat en) (Z.to_nat cn) 2 s4) as [L1 L2].
  unfold eta_axis. rewrite !map_length, combine_length, map_length, seq_length, pairs_length, array_length, L1.
  repeat split; try lia.
  intros row [I|I].
  - rewrite Forall_forall in L2. rewrite (L2 _ I). lia.
  - apply in_map_iff in I. destruct I as (x & <- & _). unfold chi_row. rewrite map_length, seq_length. lia.
Qed.

Lemma load_bw_ok {T} `{Num T} junk jl env disk (t : bw_tables T) : (0 <= jl < 2 ^ 32)%Z -> load_bw junk jl env disk = Ok t ->
  (2 <= t_len t < 2 ^ 31)%Z -> (2 <= s_len t < 2 ^ 31)%Z -> bw_tables_ok t.
Proof.
  intros J. unfold load_bw. destruct env as [path|]; [|discriminate]. destruct (disk _) as [tb|]; [|discriminate].
  destruct (disk _) as [fr|]; [|discriminate]. destruct (disk _) as [ep|]; [|discriminate]. destruct (disk _) as [lc|]; [|discriminate].
  intros HE. inversion HE as [HE']. clear HE HE'. unfold read_bw.
  destruct (in_unsigned (Some tb) jl) as [ts tn]. pose proof (pairs_length (Z.to_nat tn) ts (junk 0%nat 0%nat) (junk 0%nat 1%nat)) as LP.
  destruct (in_pairs _ _ _ _) as [tp lch]. cbn [fst] in LP.
  destruct (in_unsigned (Some fr) jl) as [fs fn]. cbn [t_len s_len]. intros B1 B2.
  unfold bw_tables_ok. cbn [t_axis t_data t_len s_chi s_fract s_data s_len].
  destruct (rows_length junk (Z.to_nat fn) (Z.to_nat fn) 2 fs) as [L1 L2].
  rewrite !map_length, LP, column_length, array_length, L1. repeat split; try lia.
  intros row I. rewrite Forall_forall in L2. rewrite (L2 _ I). lia.
Qed.
