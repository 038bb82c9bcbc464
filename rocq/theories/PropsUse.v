(** * Properties C124 to C126: the processes with the shipped tables *)
From Coq Require Import String ZArith Reals Lra Psatz List Bool Ascii Lia.
From Verif Require Import Num RNum Outcome OutcomeFacts Vec SpecVec VecFacts VecExtra SpecDyn SpecTable Units Numerics NumericsFacts MCTools Particle
  ParticleList ParticleFacts Fields FieldFacts PusherFacts Process ProcessFacts ProcessRFacts ProcessSafe Text SpecNumeral SpecLoad Tables TablesFacts
  SampleFacts Sim PropsProcess PropsSim PropsLoad PropsSample Shipped ShippedFacts ShippedTables PropsShipped ShippedReal.
Import ListNotations.
Local Open Scope R_scope.

(** an emission process, a pair process with the tables that come with the program *)
Definition with_emission_tables {T} `{Num T} (path : string) (t : em_tables T) : Prop :=
  exists disk junk jl, tables_at path disk /\ load_em junk jl (Some path) disk = Ok t.
Definition with_pair_tables {T} `{Num T} (path : string) (t : bw_tables T) : Prop :=
  exists disk junk jl, tables_at path disk /\ load_bw junk jl (Some path) disk = Ok t.

(** ** Logarithms *)
Lemma log10_le x y : 0 < x <= y -> log10 x <= log10 y.
Proof.
  intros [H1 H2]. unfold log10. apply Rmult_le_compat_r; [apply Rlt_le, Rinv_0_lt_compat, ln10_pos|].
  destruct H2 as [H2| ->]; [apply Rlt_le, ln_increasing; auto|lra].
Qed.
Lemma log10_lt x y : 0 < x < y -> log10 x < log10 y.
Proof.
  intros [H1 H2]. unfold log10. apply Rmult_lt_compat_r; [apply Rinv_0_lt_compat, ln10_pos|]. apply ln_increasing; auto.
Qed.
Lemma log10_pow n : log10 (10 ^ n) = INR n.
Proof. unfold log10. rewrite ln_pow by lra. field. pose proof ln10_pos. lra. Qed.
Lemma log10_inv_pow n : log10 (/ 10 ^ n) = - INR n.
Proof. unfold log10. rewrite ln_Rinv, ln_pow by (try apply pow_lt; lra). field. pose proof ln10_pos. lra. Qed.
(** comparison by integer powers: x ^ q <= 10 ^ p *)
Lemma log10_le_frac x p q : 0 < x -> (0 < q)%nat -> x ^ q <= 10 ^ p -> log10 x <= INR p / INR q.
Proof.
  intros Hx Hq HP. assert (0 < INR q) by (apply lt_0_INR; lia).
  apply Rmult_le_reg_l with (INR q); [lra|]. replace (INR q * (INR p / INR q)) with (INR p) by (field; lra).
  rewrite <- (log10_pow p). replace (INR q * log10 x) with (log10 (x ^ q)).
  - apply log10_le. split; [now apply pow_lt|exact HP].
  - unfold log10. rewrite ln_pow by lra. unfold Rdiv. ring.
Qed.
Lemma log10_ge_frac x p q : 0 < x -> (0 < q)%nat -> 10 ^ p < x ^ q -> INR p / INR q < log10 x.
Proof.
  intros Hx Hq HP. assert (0 < INR q) by (apply lt_0_INR; lia).
  apply Rmult_lt_reg_l with (INR q); [lra|]. replace (INR q * (INR p / INR q)) with (INR p) by (field; lra).
  rewrite <- (log10_pow p). replace (INR q * log10 x) with (log10 (x ^ q)).
  - apply log10_lt. split; [apply pow_lt; lra|exact HP].
  - unfold log10. rewrite ln_pow by lra. unfold Rdiv. ring.
Qed.

(** ** C124 *)
Lemma shipped_em_ok {T} `{Num T} path (t : em_tables T) : with_emission_tables path t -> em_tables_ok t.
Proof.
  intros (disk & junk & jl & HA & HL). destruct (C123_emission_tables (T := T) path disk HA) as (t' & HL' & E1 & E2 & E3 & _).
  pose proof (HL' junk 0%Z) as K. rewrite HL' in HL. inversion HL; subst t'. clear HL.
  eapply (load_em_ok junk 0%Z (Some path) disk); eauto; lia.
Qed.
Lemma shipped_bw_ok {T} `{Num T} path (t : bw_tables T) : with_pair_tables path t -> bw_tables_ok t.
Proof.
  intros (disk & junk & jl & HA & HL). destruct (C123_pair_tables (T := T) path disk HA) as (t' & HL' & E1 & E2 & _).
  pose proof (HL' junk 0%Z) as K. rewrite HL' in HL. inversion HL; subst t'. clear HL.
  eapply (load_bw_ok junk 0%Z (Some path) disk); eauto; lia.
Qed.

Lemma em_axis_inc (t : em_tables R) : length (ph_axis t) = 100%nat ->
  (forall i, (i < 100)%nat -> at_ (ph_axis t) i = -5 + INR i * (6/99)) -> increasing (ph_axis t).
Proof.
  intros L H i j Hij. rewrite L in Hij. rewrite !H by lia. assert (INR i < INR j) by (apply lt_INR; lia). lra.
Qed.

(** exact reals: the tables are cumulative distributions of chi between chimin and eta / 2 over -5 <= log10 eta <= 1 *)
Theorem C124_sampling_table : forall path t, with_emission_tables path t ->
  sampling_table t /\ ph_chiLen t = ph_etaLen t /\
  at_ (ph_axis t) 0 = -5 /\ at_ (ph_axis t) 98 = 31/33 /\ at_ (ph_axis t) 99 = 1 /\
  forall i, (i < 100)%nat -> forall j k, (j <= k < 100)%nat -> at_ (row_of (ph_data t) i) j <= at_ (row_of (ph_data t) i) k.
Proof.
  intros path t (disk & junk & jl & HA & HL).
  destruct (em_real path disk junk jl t HA HL) as [(H1 & _) (K1 & K2 & K3 & K4 & K5 & K6 & K7 & _ & K8)].
  split; [|split; [congruence|]].
  - unfold sampling_table. rewrite H1, K1, K2. repeat (split; [lia|]). split; [now apply em_axis_inc|].
    rewrite K3. intros i Hi. destruct (K7 i Hi) as (R1 & R2 & R3 & R4 & R5). split.
    + unfold cumulative. rewrite R1. cbn [Nat.sub]. split; lra.
    + destruct (K8 i Hi) as (c & C1 & _ & C2 & C3). rewrite C3 by lia. cbn [INR]. rewrite Rmult_0_l, Rplus_0_r.
      apply Rplus_le_reg_r with (log10 2). replace (at_ (ph_axis t) i - log10 2 + log10 2) with (at_ (ph_axis t) i) by ring.
      replace (log10 c + log10 2) with (log10 (c * 2)) by (unfold log10; rewrite ln_mult by lra; unfold Rdiv; ring).
      rewrite K6 by lia. apply Rle_trans with (-5).
      * change (-5) with (- (5)). replace 5 with (INR 5) by (cbn; ring). rewrite <- log10_inv_pow. apply log10_le. cbn [pow]. lra.
      * pose proof (pos_INR i). lra.
  - rewrite !K6 by lia. cbn [INR]. split; [lra|]. split; [lra|]. split; [lra|].
    intros i Hi j k Hjk. destruct (K7 i Hi) as (_ & R2 & _). auto.
Qed.
Print Assumptions C124_sampling_table.

(** the photon takes at most the emitter's energy, for eta of 1e-5 and above *)
Theorem C124_photon_energy : forall (E : Engine R) path c p l g p' l' g',
  with_emission_tables path (em_tab c) -> (forall g, 0 <= fst (e_canon E g) < 1) ->
  p_type p = PLepton -> 0 < p_mass p -> p_mom p <> rzero -> p_alive p = true -> 1/100000 <= eta_of (em_field c) p ->
  interact E (Stochastic c) p l g = Ok (p', l', g') ->
  exists k, 0 <= k <= lorentz_factor (p_mass p) (p_mom p) /\
    p_mom p' = rminus (p_mom p) (rscale k (runit (p_mom p))) /\
    (l' = l \/ exists ph, l' = pl_add l ph /\ p_type ph = PPhoton /\ get_energy ph <= lorentz_factor (p_mass p) (p_mom p)).
Proof.
  intros E path c p l g p' l' g' HT HU H1 H2 H3 H4 He HI.
  destruct (C124_sampling_table path (em_tab c) HT) as (ST & SQ & A0 & _).
  destruct HT as (disk & junk & jl & HA & HL).
  destruct (C123_emission_tables (T := R) path disk HA) as (t' & HL' & _).
  rewrite HL' in HL. inversion HL; subst t'. clear HL.
  eapply (C99_photon_energy E junk 0%Z (Some path) disk c p l g p' l' g'); eauto; [lia|lra|].
  rewrite A0. change (-5) with (- (5)). replace 5 with (INR 5) by (cbn; ring). rewrite <- log10_inv_pow. apply log10_le. cbn [pow]. lra.
Qed.
Print Assumptions C124_photon_energy.

(** below eta = 8.69 the table never ends the program; above 8.7 no photon is emitted at all: when one is due the program
    ends *)
Theorem C124_range : forall (E : Engine R) path c p l g, with_emission_tables path (em_tab c) ->
  p_type p = PLepton -> 0 < p_mass p -> p_mom p <> rzero -> p_alive p = true ->
  let eta := eta_of (em_field c) p in
  (0 < eta <= 869/100 -> exists p' l' g', interact E (Stochastic c) p l g = Ok (p', l', g')) /\
  (87/10 <= eta -> interact E (Stochastic c) p l g = Exit (-1) \/
     exists p', interact E (Stochastic c) p l g = Ok (p', l, g) /\ 0 <= p_depth p' /\ p' = set_depth p (p_depth p')).
Proof.
  intros E path c p l g HT H1 H2 H3 H4 eta.
  pose proof (shipped_em_ok path _ HT) as OK.
  destruct (C124_sampling_table path (em_tab c) HT) as ((_ & _ & _ & INC & _) & _ & _ & A98 & _).
  destruct HT as (disk & junk & jl & HA & HL).
  destruct (em_real path disk junk jl _ HA HL) as [_ (_ & _ & L & _)].
  destruct (C77_no_undefined_access E (Stochastic c) p l g OK) as [(p' & l' & g' & HI)|HX].
  - split; intros He; [eauto|]. right.
    destruct (stochastic_cases E c p l g p' l' g') as (y & _ & HC); [repeat split; auto|auto|exact HI|]. cbv zeta in HC. fold eta in HC.
    destruct HC as [(D & HP & -> & ->)|(_ & chi & g1 & g2 & HC & _)].
    + exists p'. split; [exact HI|]. rewrite HP. cbn [set_depth p_depth]. split; [exact D|reflexivity].
    + exfalso. assert (HE : calculate_chi E (em_tab c) eta g = Exit (-1)); [|congruence].
      apply chi_exit_iff; auto; [lia|]. rewrite L. change (100 - 2)%nat with 98%nat. rewrite A98.
      change (ln eta / ln 10) with (log10 eta). replace (31/33) with (INR 31 / INR 33) by (rewrite !INR_IZR_INZ; cbn [Z.of_nat]; f_equal).
      apply Rlt_le_trans with (log10 (87/10)); [|apply log10_le; lra].
      apply log10_ge_frac; [lra|lia|]. cbn [pow]. lra.
  - split; intros He; [|now left]. exfalso.
    pose proof (C77_exit_beyond_table E c p l g OK INC ltac:(lia) H1 H2 H3 ltac:(fold eta; lra) HX) as HB.
    rewrite L in HB. change (100 - 2)%nat with 98%nat in HB. rewrite A98 in HB. fold eta in HB.
    change (ln eta / ln 10) with (log10 eta) in HB.
    assert (log10 eta <= 31/33); [|lra]. replace (31/33) with (INR 31 / INR 33) by (rewrite !INR_IZR_INZ; cbn [Z.of_nat]; f_equal).
    apply Rle_trans with (log10 (869/100)); [apply log10_le; lra|]. apply log10_le_frac; [lra|lia|]. cbn [pow]. lra.
Qed.
Print Assumptions C124_range.

(** the number of photons expected in a step, for every eta below 10: between that of the last table entry and that of the
    classical limit 0.7193 *)
Lemma h_value path c eta : with_emission_tables path (em_tab c) -> 0 <= eta < 10 ->
  exists y, h_lookup c eta = Ok y /\ 3459150912836859/10000000000000000 <= y <= 7193/10000.
Proof.
  intros (disk & junk & jl & HA & HL) He.
  destruct (em_real path disk junk jl _ HA HL) as [(H1 & H2 & H3 & H4 & H5 & H6 & H7 & H8 & H9 & H10 & H11) _].
  unfold h_lookup. destruct (Rltb eta (1 / 1000000000000)) eqn:EL; rdestr; [eexists; split; [reflexivity|lra]|].
  assert (Q1 : log10 eta < 1).
  { rewrite <- (log10_pow 1) at 1. apply log10_lt. rewrite pow_1. lra. }
  assert (Q0 : -12 <= log10 eta).
  { replace (-12) with (- INR 12) by (cbn; ring). rewrite <- log10_inv_pow. apply log10_le.
    replace (/ 10 ^ 12) with (1/1000000000000) by lra. split; lra. }
  change (nlog10 eta) with (log10 eta). replace (h_len (em_tab c)) with (Z.of_nat (length (h_axis (em_tab c)))) by (rewrite H2, H1; reflexivity).
  destruct (Rlt_dec (log10 eta) (-5)) as [B|B].
  - rewrite interp_below; [|lia|lia|lra]. eexists. split; [reflexivity|]. unfold segment, line. rewrite H5, H6, H9, H10. split; nra.
  - destruct (interp_inside_full (h_axis (em_tab c)) (h_data (em_tab c)) (log10 eta)) as (i & r & I1 & I2 & I3 & _ & I4);
      [lia|lia|rewrite H2; lia|auto|rewrite H2; cbn [Nat.sub]; lra|].
    exists r. split; [exact I3|]. pose proof (H8 i ltac:(lia)). pose proof (H8 (S i) ltac:(lia)).
    split; [eapply Rle_trans; [|apply I4]; apply Rmin_glb; lra|eapply Rle_trans; [apply I4|]; apply Rmax_lub; lra].
Qed.

Theorem C124_emission_number : forall (E : Engine R) path c p l g p' l' g', with_emission_tables path (em_tab c) ->
  p_type p = PLepton -> 0 < p_mass p -> p_mom p <> rzero -> p_alive p = true -> 0 <= em_dt c ->
  eta_of (em_field c) p < 10 ->
  interact E (Stochastic c) p l g = Ok (p', l', g') ->
  let number h := emission_number (em_dt c) (eta_of (em_field c) p) (Rpower 10 h) (lorentz_factor (p_mass p) (p_mom p)) in
  exists d, number (3459150912836859/10000000000000000) <= d <= number (7193/10000) /\
    (d <= p_depth p /\ p' = set_depth p (p_depth p - d) /\ l' = l /\ g' = g \/ p_depth p < d).
Proof.
  intros E path c p l g p' l' g' HT H1 H2 H3 H4 Hdt He HI number.
  destruct (stochastic_cases E c p l g p' l' g') as (y & HY & HC); [repeat split; auto|auto|exact HI|]. cbv zeta in HC.
  pose proof (eta_of_nonneg (em_field c) p) as Hn.
  destruct (h_value path c (eta_of (em_field c) p) HT ltac:(lra)) as (y' & HY' & Y1 & Y2). rewrite HY in HY'. inversion HY'; subst y'.
  rewrite Rpow_Rpower in HC by lra. exists (number y). split.
  - assert (G : forall a b, a <= b -> number a <= number b).
    { intros a b Hab. unfold number, emission_number. pose proof c_alpha_pos. pose proof c_pi_pos. pose proof (sqrt_pos 3).
      pose proof (gamma_pos (p_mass p) (p_mom p) ltac:(lra)) as GP. pose proof (pow_le a b Hab) as PL.
      apply Rmult_le_compat_r; [exact Hdt|]. apply Rmult_le_compat_l.
      - apply Rmult_le_pos; [nra|]. apply Rlt_le, Rinv_0_lt_compat. lra.
      - apply Rmult_le_compat_r; [apply Rlt_le, Rinv_0_lt_compat; lra|]. now apply Rmult_le_compat_l. }
    split; apply G; lra.
  - fold (number y) in HC. destruct HC as [(D & HP & HL & HG)|(D & _)]; [left; repeat split; auto; lra|right; lra].
Qed.
Print Assumptions C124_emission_number.

(** at eta = 10 exactly, the last entry of the table (0.3459) is not used: the line through the first two entries is, which gives more
    than twice the number of photons *)
Theorem C124_last_entry_refuted : forall path t, with_emission_tables path t ->
  exists y, interpolate1d (h_axis t) (h_data t) (h_len t) (log10 10) = Ok y /\
    at_ (h_axis t) 499 = log10 10 /\ at_ (h_data t) 499 = 3459150912836859/10000000000000000 /\
    7189/10000 < y /\ 2 * Rpower 10 (at_ (h_data t) 499) < Rpower 10 y.
Proof.
  intros path t (disk & junk & jl & HA & HL).
  destruct (em_real path disk junk jl _ HA HL) as [(H1 & H2 & H3 & H4 & H5 & H6 & H7 & H8 & H9 & H10 & H11) _].
  assert (L1 : log10 10 = 1) by (rewrite <- (pow_1 10) at 1; rewrite log10_pow; reflexivity).
  pose proof (interp_last (h_axis t) (h_data t) ltac:(lia) ltac:(lia) ltac:(rewrite H2; lia) H4) as K.
  rewrite H2 in K. cbn [Nat.sub] in K. rewrite H7 in K. rewrite L1, H7, H11, H1. change 500%Z with (Z.of_nat 500). rewrite K.
  eexists. split; [reflexivity|]. split; [reflexivity|]. split; [reflexivity|].
  unfold segment, line. rewrite H5, H6, H9, H10.
  set (y := _ + _). assert (HY : 7189/10000 < y) by (unfold y; lra). split; [exact HY|].
  apply Rlt_trans with (Rpower 10 (1/3) * Rpower 10 (3459150912836859 / 10000000000000000)).
  - apply Rmult_lt_compat_r; [apply exp_pos|].
    replace 2 with (Rpower 10 (log10 2)) by (apply pow_log; lra). apply Rpower_lt; [lra|].
    apply Rle_lt_trans with (INR 31/INR 100); [|cbn; lra]. apply log10_le_frac; [lra|lia|]. cbn [pow]. lra.
  - rewrite <- Rpower_plus. apply Rpower_lt; lra.
Qed.
Print Assumptions C124_last_entry_refuted.

(** *** the continuous models *)
Lemma continuous_energy (E : Engine R) c cl p l g p' l' g' :
  moving_lepton p -> p_alive p = true -> 0 <= em_eMin c ->
  continuous_interact E c cl p l g = Ok (p', l', g') ->
  let eta := eta_of (em_field c) p in let gam := lorentz_factor (p_mass p) (p_mom p) in
  l' = l \/ exists ph chi g1 g2, l' = pl_add l ph /\ p_type ph = PPhoton /\ 0 < eta /\
    p_mom ph = rscale (2 * chi * gam / eta) (runit (p_mom p)) /\ 0 < 2 * chi * gam / eta /\
    (((cl = true \/ eta < 1/1000000000000) /\ exists a0 chi0, get (h_axis (em_tab c)) 0 = Ok a0 /\
        calculate_chi E (em_tab c) (exp a0) g1 = Ok (chi0, g2) /\ chi = chi0 * (eta / exp a0) * (eta / exp a0)) \/
     (cl = false /\ 1/1000000000000 <= eta /\ calculate_chi E (em_tab c) eta g1 = Ok (chi, g2))).
Proof.
  intros Hml Ha HE. pose proof Hml as (Ht & Hm & Hp). unfold continuous_interact.
  assert (HG : (neqb (p_mass p) n0 || negb (p_alive p))%bool = false).
  { rewrite Ha. rnum. rewrite orb_false_r. apply Reqb_false. lra. }
  rewrite HG. cbv zeta. rewrite rand01. destruct (e_canon E g) as [u g1]. cbn [fst snd].
  change (nltb (em_frac c) u) with (Rltb (em_frac c) u).
  destruct (Rltb (em_frac c) u) eqn:EF; rdestr; [intros HX; injection HX; auto|].
  rewrite calculate_eta_R by auto. intros HX.
  apply bind_ok in HX. destruct HX as [[[y chi] g2] [HY HX]].
  rewrite gamma_R in HX by auto.
  rewrite emission_depth_R in HX by (apply gamma_pos; lra).
  set (eta := eta_of (em_field c) p) in *. set (gam := lorentz_factor _ _) in *.
  pose proof (eta_of_nonneg (em_field c) p) as He. fold eta in He.
  change (nltb (em_eMin c)) with (Rltb (em_eMin c)) in HX.
  replace (ndiv (nmul (nmul n2 chi) gam) eta) with (2 * chi * gam / eta) in HX by (rnum; reflexivity).
  set (k := 2 * chi * gam / eta) in *.
  destruct (Rltb (em_eMin c) k) eqn:EM; rdestr; [|injection HX; auto].
  right.
  match type of HX with context [new_photon_energy E ?a ?b ?c ?d ?e ?f ?g] =>
      pose proof (photon_born E a b c d e f g) as PB; destruct (new_photon_energy E a b c d e f g) as [ph g3] end.
  cbn [fst] in PB. injection HX; intros; subst p' l' g'. exists ph, chi, g1, g2.
  assert (He0 : 0 < eta).
  { destruct (Req_dec eta 0) as [E0|E0]; [|lra]. exfalso. unfold k, Rdiv in EM. rewrite E0, Rinv_0, Rmult_0_r in EM. lra. }
  destruct PB as (P1 & _ & _ & _ & _ & _ & _ & _ & _ & P10). destruct P1 as (P1 & _).
  split; [auto|]. split; [auto|]. split; [auto|]. split.
  { rewrite P10. unfold get_direction. rewrite !vnorm_R, runit_of_unit by (apply rlen2_unit; auto). reflexivity. }
  split; [fold k; lra|].
  revert HY. rnum. replace (Rlit 1 (-12)) with (1 / 1000000000000) by (rlit; lra).
  destruct (Rltb eta (1 / 1000000000000)) eqn:EL; [|destruct cl]; cbn [orb]; intros HY; rdestr.
  - left. split; [auto|]. apply bind_ok in HY. destruct HY as [a0 [HA HY]]. apply bind_ok in HY. destruct HY as [[ch gg] [HC HY]].
    cbn [fst snd] in HY. injection HY; intros; subst. exists a0, ch. auto.
  - left. split; [auto|]. apply bind_ok in HY. destruct HY as [a0 [HA HY]]. apply bind_ok in HY. destruct HY as [[ch gg] [HC HY]].
    cbn [fst snd] in HY. injection HY; intros; subst. exists a0, ch. auto.
  - right. apply bind_ok in HY. destruct HY as [a0 [HA HY]]. apply bind_ok in HY. destruct HY as [[ch gg] [HC HY]].
    cbn [fst snd] in HY. injection HY; intros; subst. repeat split; auto; lra.
Qed.

Lemma h_first path c : with_emission_tables path (em_tab c) -> get (h_axis (em_tab c)) 0 = Ok (-5).
Proof.
  intros (disk & junk & jl & HA & HL). destruct (em_real path disk junk jl _ HA HL) as [(_ & H2 & _ & _ & H5 & _) _].
  rewrite (get_atZ (h_axis (em_tab c)) 0) by lia. cbn [Z.to_nat]. now rewrite H5.
Qed.
Lemma shipped_chi (E : Engine R) path t eta g chi g' : with_emission_tables path t -> (forall g, 0 <= fst (e_canon E g) < 1) ->
  1/100000 <= eta -> calculate_chi E t eta g = Ok (chi, g') -> 0 < chi <= eta / 2.
Proof.
  intros HT HU He HC. destruct (C124_sampling_table path t HT) as (ST & SQ & A0 & _).
  destruct HT as (disk & junk & jl & HA & HL). destruct (C123_emission_tables (T := R) path disk HA) as (t' & HL' & _).
  rewrite HL' in HL. inversion HL; subst t'. clear HL.
  eapply (C99_photon_parameter E junk 0%Z (Some path) disk); eauto; [lia|apply HU|lra|].
  rewrite A0. change (-5) with (- (5)). replace 5 with (INR 5) by (cbn; ring). rewrite <- log10_inv_pow. apply log10_le. cbn [pow]. lra.
Qed.

(** bounds of e ^ x *)
Lemma exp_half_ge x a b : 0 <= a -> a <= exp (x / 2) -> b <= a * a -> b <= exp x.
Proof. intros H0 H1 H2. replace x with (x / 2 + x / 2) by field. rewrite exp_plus. nra. Qed.
Lemma exp_1_ge : 27/10 <= exp 1.
Proof.
  apply (exp_half_ge _ (51349/31250)); [lra| |lra]. apply (exp_half_ge _ (640931/500000)); [lra| |lra]. apply (exp_half_ge _ (566097/500000)); [lra| |lra]. apply (exp_half_ge _ (1064047/1000000)); [lra| |lra]. apply (exp_half_ge _ (1031527/1000000)); [lra| |lra]. apply (exp_half_ge _ (507821/500000)); [lra| |lra]. apply (exp_half_ge _ (1007791/1000000)); [lra| |lra]. apply (exp_half_ge _ (62743/62500)); [lra| |lra]. eapply Rle_trans; [|apply exp_ineq1_le]. lra.
Qed.
Lemma ln10_bounds : 165/73 < ln 10 <= 165/71.
Proof.
  split.
  - apply Rlt_le_trans with (2261/1000); [lra|]. rewrite <- (ln_exp (2261/1000)). apply Rnot_lt_le. intros H. apply ln_lt_inv in H; [|lra|apply exp_pos].
    assert (K : 1/10 <= exp (- (2261/1000))).
    { apply (exp_half_ge _ (31622777/100000000)); [lra| |lra]. apply (exp_half_ge _ (56234133/100000000)); [lra| |lra]. apply (exp_half_ge _ (37494711/50000000)); [lra| |lra]. apply (exp_half_ge _ (86596433/100000000)); [lra| |lra]. apply (exp_half_ge _ (18611441/20000000)); [lra| |lra]. apply (exp_half_ge _ (96466163/100000000)); [lra| |lra]. apply (exp_half_ge _ (9821719/10000000)); [lra| |lra]. apply (exp_half_ge _ (99104587/100000000)); [lra| |lra]. apply (exp_half_ge _ (99551287/100000000)); [lra| |lra]. eapply Rle_trans; [|apply exp_ineq1_le]. lra. }
    rewrite exp_Ropp in K. assert (/ exp (2261/1000) < / 10); [|lra]. apply Rinv_lt_contravar; [|exact H]. apply Rmult_lt_0_compat; [lra|apply exp_pos].
  - rewrite <- (ln_exp (165/71)). destruct (Rle_lt_or_eq_dec 10 (exp (165/71))) as [H|H].
    + apply (exp_half_ge _ (316227767/100000000)); [lra| |lra]. apply (exp_half_ge _ (88913971/50000000)); [lra| |lra]. apply (exp_half_ge _ (8334509/6250000)); [lra| |lra]. apply (exp_half_ge _ (115478199/100000000)); [lra| |lra]. apply (exp_half_ge _ (6716299/6250000)); [lra| |lra]. apply (exp_half_ge _ (51831647/50000000)); [lra| |lra]. apply (exp_half_ge _ (101815173/100000000)); [lra| |lra]. apply (exp_half_ge _ (20180701/20000000)); [lra| |lra]. apply (exp_half_ge _ (100450737/100000000)); [lra| |lra]. eapply Rle_trans; [|apply exp_ineq1_le]. lra.
    + apply Rlt_le, ln_increasing; [lra|exact H].
    + rewrite H. lra.
Qed.

Lemma exp_m5 : exp (-5) = / exp 5.
Proof. replace (-5) with (- (5)) by lra. apply exp_Ropp. Qed.

(** in the semiclassical model the photons of an electron with eta >= 1e-5 have at most its energy; in the classical model they
    have at most e^5 eta times its energy *)
Theorem C124_continuous_energy : forall (E : Engine R) path c cl p l g p' l' g', with_emission_tables path (em_tab c) ->
  (forall g, 0 <= fst (e_canon E g) < 1) ->
  p_type p = PLepton -> 0 < p_mass p -> p_mom p <> rzero -> p_alive p = true -> 0 <= em_eMin c ->
  interact E (Continuous c cl) p l g = Ok (p', l', g') ->
  let eta := eta_of (em_field c) p in let gamma := lorentz_factor (p_mass p) (p_mom p) in
  l' = l \/ exists ph, l' = pl_add l ph /\ p_type ph = PPhoton /\
    (cl = false -> 1/100000 <= eta -> get_energy ph <= gamma) /\
    (cl = true -> get_energy ph <= exp 5 * eta * gamma).
Proof.
  intros E path c cl p l g p' l' g' HT HU H1 H2 H3 H4 HM HI eta gamma.
  destruct (continuous_energy E c cl p l g p' l' g' ltac:(repeat split; auto) H4 HM HI) as [->|(ph & chi & g1 & g2 & HL & T1 & He & PM & KP & HC)]; [now left|].
  right. exists ph. split; [exact HL|]. split; [exact T1|]. fold eta gamma in PM, KP, HC, He.
  assert (HG : 0 < gamma) by (apply gamma_pos; lra).
  assert (EN : get_energy ph = 2 * chi * gamma / eta).
  { unfold get_energy. rewrite T1, mag_R, PM, rlen_scale, Rabs_right by lra.
    assert (rlen (runit (p_mom p)) = 1) by (unfold rlen; rewrite rlen2_unit by auto; apply sqrt_1). nra. }
  rewrite EN. destruct HC as [(HB & a0 & chi0 & HA & HC & ->)|(-> & He2 & HC)].
  - rewrite (h_first path c HT) in HA. inversion HA; subst a0. clear HA.
    assert (M5 : 1/100000 <= exp (-5)).
    { rewrite exp_m5. replace 5 with (1+1+1+1+1) by lra. rewrite !exp_plus. pose proof exp_le_3. pose proof (exp_pos 1).
      assert (B1 : exp 1 * exp 1 * exp 1 * exp 1 * exp 1 <= 3 * 3 * 3 * 3 * 3).
      { repeat (apply Rmult_le_compat; try (repeat apply Rmult_le_pos); try lra). }
      apply Rle_trans with (/ (3 * 3 * 3 * 3 * 3)); [lra|]. apply Rinv_le_contravar; [|exact B1]. repeat apply Rmult_lt_0_compat; lra. }
    destruct (shipped_chi E path (em_tab c) (exp (-5)) g1 chi0 g2 HT HU M5 HC) as [B1 B2].
    assert (MP := exp_pos (-5)).
    assert (EB : 2 * (chi0 * (eta / exp (-5)) * (eta / exp (-5))) * gamma / eta <= exp 5 * eta * gamma).
    { replace (exp 5) with (/ exp (-5)) by (rewrite exp_m5, Rinv_inv; reflexivity). set (m := exp (-5)) in *.
      replace (2 * (chi0 * (eta / m) * (eta / m)) * gamma / eta) with ((2 * chi0) * (/ m * / m * (eta * gamma))) by (field; lra).
      replace (/ m * eta * gamma) with (m * (/ m * / m * (eta * gamma))) by (field; lra).
      apply Rmult_le_compat_r; [|lra]. assert (0 < / m) by (apply Rinv_0_lt_compat; lra). apply Rmult_le_pos; nra. }
    split; [|intros _; exact EB]. intros -> He2. destruct HB as [HB|HB]; [discriminate|lra].
  - split; [|discriminate]. intros _ He3. destruct (shipped_chi E path (em_tab c) eta g1 chi g2 HT HU He3 HC) as [B1 B2].
    apply Rmult_le_reg_r with eta; [exact He|]. unfold Rdiv. rewrite Rmult_assoc, Rinv_l by lra. nra.
Qed.
Print Assumptions C124_continuous_energy.

(** a draw above 0.9999 in the row of exp (-5): the classical model gives a photon of more than the emitter's energy for every eta of
    1/5 and more *)
Lemma interp_from row ax q lo : (2 <= length row)%nat -> length ax = length row -> (Z.of_nat (length row) < 2 ^ 31)%Z ->
  (forall j k, (j <= k < length row)%nat -> at_ row j <= at_ row k) -> (lo < length row)%nat ->
  at_ row lo <= q < at_ row (length row - 1) -> (forall j, (lo <= j < length row)%nat -> at_ ax lo <= at_ ax j) ->
  exists v, interpolate1d row ax (Z.of_nat (length row)) q = Ok v /\ at_ ax lo <= v.
Proof.
  intros N L B MON HL Q HA. pose proof (MON 0%nat lo ltac:(lia)).
  destruct (interp_inside row ax N L B q) as (i & I1 & I2 & I3); [lra|].
  assert (Hi : (lo <= i)%nat).
  { destruct (Nat.le_gt_cases lo i) as [A|A]; auto. exfalso. pose proof (MON (S i) lo ltac:(lia)). lra. }
  eexists. split; [exact I3|]. pose proof (segment_between row ax i q ltac:(lra) ltac:(lra)) as [S1 _].
  eapply Rle_trans; [|exact S1]. apply Rmin_glb; apply HA; lia.
Qed.

Theorem C124_classical_excess : forall (E : Engine R) path c p l g, with_emission_tables path (em_tab c) ->
  p_type p = PLepton -> 0 < p_mass p -> p_mom p <> rzero -> p_alive p = true ->
  1/5 <= eta_of (em_field c) p -> em_eMin c <= lorentz_factor (p_mass p) (p_mom p) ->
  fst (e_canon E g) <= em_frac c -> 9999/10000 <= fst (e_canon E (snd (e_canon E g))) < 1 ->
  exists ph g', interact E (Continuous c true) p l g = Ok (p, pl_add l ph, g') /\ p_type ph = PPhoton /\
    lorentz_factor (p_mass p) (p_mom p) < get_energy ph.
Proof.
  intros E path c p l g HT Ht Hm Hp Ha He HM HF HU. pose proof (shipped_em_ok path _ HT) as OK.
  pose proof (h_first path c HT) as HA0. pose proof HT as (disk & junk & jl & HA & HL).
  destruct (em_real path disk junk jl _ HA HL) as [_ (K1 & K2 & K3 & K4 & K5 & K6 & K7 & K7' & K8)].
  pose proof (em_axis_inc _ K3 K6) as INC. set (t := em_tab c) in *.
  set (eta := eta_of (em_field c) p) in *. set (gam := lorentz_factor (p_mass p) (p_mom p)) in *.
  assert (Hml : moving_lepton p) by (repeat split; auto).
  assert (HG : 0 < gam) by (apply gamma_pos; lra).
  set (m := exp (-5)). assert (MP : 0 < m) by apply exp_pos.
  assert (LM : log10 m = -5 / ln 10) by (unfold log10, m; now rewrite ln_exp).
  assert (PB : at_ (ph_axis t) 46 < log10 m <= at_ (ph_axis t) 47).
  { rewrite !K6 by lia. rewrite LM. pose proof ln10_bounds as [B1 B2]. rewrite !INR_IZR_INZ. cbn [Z.of_nat Pos.of_succ_nat Pos.succ].
    assert (E5 : -5 / ln 10 * ln 10 = -5) by (field; lra). set (x := -5 / ln 10) in *. split; nra. }
  set (g1 := snd (e_canon E g)) in *. set (u := fst (e_canon E g1)) in *.
  assert (CH : exists chi0, calculate_chi E t m g1 = Ok (chi0, snd (e_canon E g1)) /\ m / 2 * Rpower 10 (-7/5) <= chi0).
  { assert (ROW : forall i, i = 46%nat \/ i = 47%nat -> exists v,
      get (ph_data t) (Z.of_nat i) = Ok (row_of (ph_data t) i) /\ get (ph_chi t) (Z.of_nat i) = Ok (row_of (ph_chi t) i) /\
      interpolate1d (row_of (ph_data t) i) (row_of (ph_chi t) i) 100 u = Ok v /\ at_ (ph_axis t) i - log10 2 - 7/5 <= v).
    { intros i Hi. destruct (K7 i ltac:(lia)) as (R1 & R2 & R3 & R4 & R5). destruct (K8 i ltac:(lia)) as (cm & C1 & C2 & C3 & C4).
      specialize (C2 ltac:(lia)).
      assert (LC : -12 <= log10 cm).
      { replace (-12) with (- INR 12) by (cbn; ring). rewrite <- log10_inv_pow. apply log10_le.
        replace (/ 10 ^ 12) with (1/1000000000000) by lra. split; lra. }
      assert (LC2 : log10 cm <= -6).
      { replace (-6) with (- INR 6) by (cbn; ring). rewrite <- log10_inv_pow. apply log10_le. replace (/ 10 ^ 6) with (1/1000000) by lra. lra. }
      assert (L2 : 0 <= log10 2 <= 1).
      { split; [replace 0 with (INR 0) by reflexivity; rewrite <- log10_pow; apply log10_le; cbn [pow]; lra|].
        replace 1 with (INR 1) by reflexivity. rewrite <- log10_pow. apply log10_le. cbn [pow]. lra. }
      assert (AX : -22/10 - 3/100 <= at_ (ph_axis t) i <= -215/100).
      { destruct Hi; subst i; rewrite K6 by lia; rewrite !INR_IZR_INZ; cbn [Z.of_nat Pos.of_succ_nat Pos.succ]; lra. }
      destruct (interp_from (row_of (ph_data t) i) (row_of (ph_chi t) i) u 85) as (v & V1 & V2); try lia; rewrite ?R1; try lia.
      - exact R2.
      - cbn [Nat.sub]. pose proof (K7' i Hi). lra.
      - intros j Hj. rewrite !C4 by lia. apply Rplus_le_compat_l, Rmult_le_compat_r; [lra|apply le_INR; lia].
      - exists v. rewrite !get_row_of by lia. rewrite R1 in V1. repeat split; auto. rewrite C4 in V2 by lia.
        rewrite (INR_IZR_INZ 85) in V2. cbn [Z.of_nat Pos.of_succ_nat Pos.succ] in V2. lra. }
    destruct (ROW 46%nat ltac:(auto)) as (v & V1 & V2 & V3 & V4). destruct (ROW 47%nat ltac:(auto)) as (w & W1 & W2 & W3 & W4).
    assert (N2 : (2 <= length (ph_axis t))%nat) by lia.
    destruct (closest_points_spec (ph_axis t) (log10 m) N2 ltac:(lia) INC) as (_ & S2 & _).
    destruct (closest_at (ph_axis t) (log10 m) 46 N2 ltac:(lia) INC ltac:(lia) PB) as (f & HC & F1 & HQ).
    unfold calculate_chi. rewrite rand01. change (nlog10 m) with (log10 m). fold u.
    destruct (e_canon E g1) as [u' g2] eqn:EU. cbn [fst snd] in u |- *. subst u.
    rewrite K3 in HC. rewrite K1. change 100%Z with (Z.of_nat 100) at 1. rewrite HC. cbn [bind fst snd].
    rewrite V1. cbn [bind]. rewrite V2. cbn [bind]. rewrite K2, V3. cbn [bind]. change (Z.of_nat 46 + 1)%Z with (Z.of_nat 47).
    rewrite W1. cbn [bind]. rewrite W2. cbn [bind]. rewrite W3. cbn [bind]. eexists. split; [reflexivity|].
    rnum. rewrite Rpow_Rpower by lra. rewrite <- (pow_log (m / 2)) by lra. rewrite <- Rpower_plus. apply pow_le.
    rewrite log10_half by lra. rewrite HQ. nra. }
  destruct CH as (chi0 & HC & B0).
  assert (KG : gam < 2 * (chi0 * (eta / m) * (eta / m)) * gam / eta).
  { assert (E5 : 143 <= / m).
    { unfold m. rewrite exp_m5, Rinv_inv. replace 5 with (1+1+1+1+1) by lra. rewrite !exp_plus. pose proof exp_1_ge as X1. set (x := exp 1) in *.
      assert (X2 : 729/100 <= x * x) by nra. assert (X4 : 5314/100 <= x * x * x * x) by nra. nra. }
    assert (T5 : 1/26 <= Rpower 10 (-7/5)).
    { rewrite <- (pow_log (1/26)) by lra. apply pow_le. replace (1/26) with (/ 26) by lra. unfold log10. rewrite ln_Rinv by lra.
      assert (7/5 <= log10 26); [|unfold log10 in *; lra]. replace (7/5) with (INR 7/INR 5) by (rewrite !INR_IZR_INZ; cbn; lra).
      apply Rlt_le, log10_ge_frac; [lra|lia|cbn [pow]; lra]. }
    set (r := Rpower 10 (-7/5)) in *. set (mi := / m) in *. assert (M1 : m * mi = 1) by (unfold mi; field; lra).
    replace (2 * (chi0 * (eta / m) * (eta / m)) * gam / eta) with (gam * (2 * chi0 * mi * (mi * eta))) by (unfold mi; field; lra).
    assert (Q1 : r <= 2 * chi0 * mi) by nra. assert (Q2 : 143/5 <= mi * eta) by nra.
    assert (1 < 2 * chi0 * mi * (mi * eta)) by nra. nra. }
  set (k := 2 * (chi0 * (eta / m) * (eta / m)) * gam / eta) in *.
  assert (HX : exists ph g', continuous_interact E c true p l g = Ok (p, pl_add l ph, g') /\ new_photon_like ph /\ p_mom ph = rscale k (runit (p_mom p))).
  { unfold continuous_interact.
    assert (HG0 : (neqb (p_mass p) n0 || negb (p_alive p))%bool = false).
    { rewrite Ha. rnum. rewrite orb_false_r. apply Reqb_false. lra. }
    rewrite HG0. cbv zeta. rewrite rand01. destruct (e_canon E g) as [u0 g10]. cbn [fst snd] in HF, g1 |- *. subst g1.
    change (nltb (em_frac c) u0) with (Rltb (em_frac c) u0). replace (Rltb (em_frac c) u0) with false by (symmetry; apply Rltb_false; lra).
    rewrite calculate_eta_R by auto. fold eta t. rewrite orb_true_r. rewrite HA0. cbn [bind].
    change (nexp (-5)) with m. rewrite HC. cbn [bind fst snd]. rewrite gamma_R by auto. fold gam.
    change (nltb (em_eMin c)) with (Rltb (em_eMin c)).
    replace (ndiv (nmul (nmul n2 (nmul (nmul chi0 (ndiv eta m)) (ndiv eta m))) gam) eta) with k by (unfold k; rnum; reflexivity).
    replace (Rltb (em_eMin c) k) with true by (symmetry; apply Rltb_true; lra).
    match goal with |- context [new_photon_energy E ?a ?b ?c ?d ?e ?f ?g] =>
      pose proof (photon_born E a b c d e f g) as PBn; destruct (new_photon_energy E a b c d e f g) as [ph g3] end.
    cbn [fst] in PBn. exists ph, g3. split; [reflexivity|]. destruct PBn as (P1 & _ & _ & _ & _ & _ & _ & _ & _ & P10). split; [exact P1|].
    rewrite P10. unfold get_direction. rewrite !vnorm_R, runit_of_unit by (apply rlen2_unit; auto). reflexivity. }
  destruct HX as (ph & g' & HI & (T1 & _) & PM). exists ph, g'. split; [exact HI|]. split; [exact T1|].
  unfold get_energy. rewrite T1, mag_R, PM, rlen_scale, Rabs_right by lra.
  assert (rlen (runit (p_mom p)) = 1) by (unfold rlen; rewrite rlen2_unit by auto; apply sqrt_1). nra.
Qed.
Print Assumptions C124_classical_excess.

(** such tables exist; an electron along a field of strength 1 has eta = 1 *)
Lemma have_emission_tables {T} `{Num T} : exists t : em_tables T, with_emission_tables "Tables" t.
Proof.
  destruct (C123_emission_tables (T := T) "Tables" _ (proj1 C123_case)) as (t & HL & _).
  exists t, (one_disk "Tables" shipped_tables), (fun _ _ => n0), 0%Z. split; [apply C123_case|apply HL].
Qed.
Definition along_field (s : R) : field R := fun _ _ => (v3 s 0 0, rzero).
Definition fast_electron : particle R := mkP PLepton "Electron" 1 (-1) 1 0 0 false true (v3 0 0 0) (v3 1000 0 0) [] [] [] [].
Lemma fast_eta s : eta_of (along_field s) fast_electron = Rabs s.
Proof.
  assert (P : p_mom fast_electron <> rzero) by (cbn; apply v3_neq; left; lra).
  rewrite <- (C36_longitudinal_field s fast_electron (along_field s)); auto.
  - rewrite calculate_eta_R; [reflexivity|]. repeat split; auto. cbn. lra.
  - cbn. lra.
  - unfold along_field. f_equal. cbn [fast_electron p_mom]. unfold runit.
    rewrite (rlen_of_len2 (v3 1000 0 0) 1000) by (try lra; runf; ring). runf. f_equal; field.
Qed.
Example C124_case : exists t, with_emission_tables "Tables" t /\
  let c := mkEm (along_field 1) (1/10) 1 0 false t in
  eta_of (em_field c) fast_electron = 1 /\ p_type fast_electron = PLepton /\ 0 < p_mass fast_electron /\ p_mom fast_electron <> rzero /\
  (forall g, 0 <= fst (e_canon neg_engine g) < 1) /\
  exists p' l' g', interact neg_engine (Stochastic c) fast_electron ex_list tt = Ok (p', l', g').
Proof.
  destruct (have_emission_tables (T := R)) as (t & HT). exists t. split; [exact HT|]. intros c.
  assert (P : p_mom fast_electron <> rzero) by (cbn; apply v3_neq; left; lra).
  assert (HE : eta_of (em_field c) fast_electron = 1) by (cbn [c em_field]; rewrite fast_eta; apply Rabs_right; lra).
  split; [exact HE|]. split; [reflexivity|]. split; [cbn; lra|]. split; [exact P|]. split; [intros; cbn; lra|].
  apply (C124_range neg_engine "Tables" c); auto; [cbn; lra|rewrite HE; lra].
Qed.

(** with the shipped tables, the classical model and draws of 0.9999 an electron of energy 1000 gives a photon of more than 1000 *)
Theorem C124_classical_energy_refuted : exists (E : Engine R) t g p' ph g', with_emission_tables "Tables" t /\
  (forall g, 0 <= fst (e_canon E g) < 1) /\
  interact E (Continuous (mkEm (along_field 1) (1/10) 1 0 false t) true) fast_electron ex_list g = Ok (p', pl_add ex_list ph, g') /\
  p_type ph = PPhoton /\ lorentz_factor (p_mass fast_electron) (p_mom fast_electron) < get_energy ph.
Proof.
  destruct (have_emission_tables (T := R)) as (t & HT).
  set (E := mkEngine R unit (fun g => (9999/10000, g)) (fun n g => (repeat 0 n, g))).
  assert (P : p_mom fast_electron <> rzero) by (cbn; apply v3_neq; left; lra).
  destruct (C124_classical_excess E "Tables" (mkEm (along_field 1) (1/10) 1 0 false t) fast_electron ex_list tt) as (ph & g' & HI & HP & HQ);
    auto; try (cbn; lra).
  - cbn [em_field]. rewrite fast_eta, Rabs_right; lra.
  - cbn [em_eMin]. apply Rlt_le, gamma_pos. cbn. lra.
  - exists E, t, tt, fast_electron, ph, g'. split; [exact HT|]. split; [intros; cbn; lra|]. split; [exact HI|]. split; [exact HP|exact HQ].
Qed.
Print Assumptions C124_classical_energy_refuted.
