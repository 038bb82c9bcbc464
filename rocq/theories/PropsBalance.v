(** * Properties C105, C106: what emission and pair production do to energy and momentum *)
From Coq Require Import String ZArith Reals Lra Psatz List Bool.
From Verif Require Import Num RNum Outcome OutcomeFacts Vec SpecVec VecFacts VecExtra SpecDyn Units MCTools Particle ParticleList
  ParticleFacts Fields FieldFacts Process ProcessFacts ProcessRFacts ProcessSafe SpecTable NumericsFacts SampleFacts PropsProcess.
Import ListNotations.
Local Open Scope R_scope.

(** ** Specification: energy of a mass [m] with momentum [x] *)
Definition energy (m x : R) : R := sqrt (m * m + x * x).
(** energy minus momentum: positive and falling from the rest energy to 0 *)
Lemma energy_sq m x : energy m x * energy m x = m * m + x * x.
Proof. apply sqrt_sqrt. nra. Qed.
Lemma energy_nonneg m x : 0 <= energy m x. Proof. apply sqrt_pos. Qed.
Lemma energy_abs m x : energy m (Rabs x) = energy m x.
Proof. unfold energy. f_equal. pose proof (Rsqr_abs x). unfold Rsqr in *. lra. Qed.
Lemma gap_pos m x : 0 < m -> 0 < energy m x - x.
Proof. intros Hm. pose proof (energy_sq m x). pose proof (energy_nonneg m x). nra. Qed.
Lemma gap_falls m x y : 0 < m -> x < y -> energy m y - y < energy m x - x.
Proof.
  intros Hm HL. pose proof (energy_sq m x). pose proof (energy_sq m y). pose proof (gap_pos m x Hm). pose proof (gap_pos m y Hm).
  assert (energy m y - energy m x < y - x); [|lra].
  assert (0 < energy m y + energy m x) by (pose proof (energy_nonneg m x); pose proof (energy_nonneg m y); nra).
  apply (Rmult_lt_reg_r (energy m y + energy m x)); [auto|].
  replace ((energy m y - energy m x) * (energy m y + energy m x)) with ((y - x) * (y + x)) by nra.
  apply Rmult_lt_compat_l; lra.
Qed.
Lemma gap_zero m : 0 < m -> energy m 0 = m.
Proof. intros Hm. unfold energy. rewrite Rmult_0_l, Rplus_0_r. apply sqrt_square. lra. Qed.

Lemma lepton_energy (p : particle R) : p_type p = PLepton -> 0 < p_mass p -> get_energy p = energy (p_mass p) (rlen (p_mom p)).
Proof.
  intros Ht Hm. destruct (lepton_kinematics p (p_mass p) Hm (conj Ht eq_refl)) as (_ & E2 & E0 & _).
  unfold energy. rewrite rlen_sq, <- E2. symmetry. apply sqrt_square. lra.
Qed.

(** ** C105: every stored photon comes with newly created energy: more than nothing, less than a rest energy *)
Theorem C105_emission_creates_energy : forall (E : Engine R) (c : em_cfg R) (p : particle R) l g p' l' g',
  p_type p = PLepton -> 0 < p_mass p -> p_mom p <> rzero -> p_alive p = true -> 0 <= em_eMin c ->
  interact E (Stochastic c) p l g = Ok (p', l', g') -> l' <> l -> p_mom p' <> rzero ->
  exists ph, l' = pl_add l ph /\ get_energy p < get_energy p' + get_energy ph /\
    (get_energy ph < rlen (p_mom p) ->
       get_energy p' + get_energy ph < get_energy p + p_mass p /\
       get_energy p' + get_energy ph - get_energy p =
         (get_energy p' - rlen (p_mom p')) - (get_energy p - rlen (p_mom p))).
Proof.
  intros E c p l g p' l' g' Ht Hm Hp Ha HE HX HN HP'.
  destruct (C38_momentum_balance E c p l g p' l' g' Ht Hm Hp Ha HE HX HN) as (ph & k & HL & _ & _ & _ & _ & _ & Hk & _ & HM & B1 & B2).
  destruct (C38_emitter_frame E c p l g p' l' g' HX) as (T' & _ & M' & _). exists ph. split; [exact HL|].
  pose proof (rlen_pos (p_mom p) Hp) as L0.
  assert (R' : rlen (p_mom p') = Rabs (rlen (p_mom p) - k)).
  { rewrite HM, recoil_form by exact Hp. rewrite rlen_scale, rlen_unit by exact Hp. ring. }
  assert (P0 : 0 < rlen (p_mom p')) by (apply rlen_pos; exact HP').
  rewrite (lepton_energy p), (lepton_energy p') by congruence. rewrite M'. set (m := p_mass p) in *. set (x := rlen (p_mom p)) in *.
  destruct (Rtotal_order k x) as [Q|[Q|Q]].
  - destruct (B1 Q) as (-> & _). rewrite R', Rabs_pos_eq by lra.
    pose proof (gap_falls m (x - k) x Hm ltac:(lra)). pose proof (gap_falls m 0 (x - k) Hm ltac:(lra)) as G0. rewrite gap_zero in G0 by exact Hm. pose proof (gap_pos m x Hm).
    split; [lra|]. intros _. split; lra.
  - exfalso. subst k. rewrite R', Rminus_diag_eq, Rabs_R0 in P0 by reflexivity. lra.
  - destruct (B2 Q) as (-> & _). rewrite R', Rabs_left by lra. split; [|lra].
    pose proof (gap_falls m 0 x Hm ltac:(lra)) as G0. rewrite gap_zero in G0 by exact Hm.
    pose proof (gap_pos m (- (x - k)) Hm). pose proof (energy_sq m (- (x - k))). pose proof (energy_nonneg m (- (x - k))).
    assert (m <= energy m (- (x - k))) by nra. lra.
Qed.
Print Assumptions C105_emission_creates_energy.

(** ** C106: pair production takes momentum away, less than two rest energies *)
Theorem C106_pair_loses_momentum : forall (E : Engine R) (c : bw_cfg R) (p : particle R) l g p' l' g' s g1,
  p_type p = PPhoton -> p_alive p = true -> p_mom p <> rzero -> 0 < chi_of (bw_field c) p ->
  interact E (BreitWheeler c) p l g = Ok (p', l', g') -> p_alive p' = false ->
  calculate_split E (bw_tab c) (chi_of (bw_field c) p) g = Ok (s, g1) -> 1 < s * get_energy p -> 1 < (1 - s) * get_energy p ->
  exists po el d, l' = pl_add (pl_add l po) el /\ get_energy po + get_energy el = get_energy p /\
    0 < d < 2 /\ rplus (p_mom po) (p_mom el) = rminus (p_mom p) (rscale d (runit (p_mom p))).
Proof.
  intros E c p l g p' l' g' s g1 Ht Ha Hp Hchi HX HD HS S1 S2.
  cbn [interact] in HX. assert (HEn : get_energy p = rlen (p_mom p)) by (unfold get_energy; rewrite Ht; apply mag_R).
  destruct (breit_wheeler_cases E c p l g p' l' g' Ht Ha Hp HX) as (y & _ & HC). cbv zeta in HC.
  destruct HC as [(_ & HP & _)|(_ & _ & s' & g1' & po & el & HS' & HL & (A1&A2&A3&A4) & (B1&B2&B3&B4) & _ & _ & _ & _ & M1 & M2)].
  { rewrite HP in HD. cbn [set_depth p_alive] in HD. congruence. }
  rewrite HS in HS'. injection HS' as <- <-. rewrite n1_R in A3, B3. rewrite HEn in *.
  pose proof (rlen2_unit (p_mom p) Hp) as HU. set (en := rlen (p_mom p)) in *.
  set (a := s * en) in *. set (b := (1 - s) * en) in *. assert (AB : a + b = en) by (unfold a, b; ring).
  exists po, el, (en - sqrt (a * a - 1) - sqrt (b * b - 1)). split; [exact HL|]. split.
  { rewrite (lepton_energy_from a (runit (p_mom p)) po), (lepton_energy_from b (runit (p_mom p)) el) by (auto; lra). exact AB. }
  assert (ROOT : forall e, 1 < e -> 0 < e - sqrt (e * e - 1) < 1).
  { intros e He. assert (Q : sqrt (e * e - 1) * sqrt (e * e - 1) = e * e - 1) by (apply sqrt_sqrt; nra). pose proof (sqrt_pos (e * e - 1)). nra. }
  pose proof (ROOT a S1). pose proof (ROOT b S2). split; [lra|].
  rewrite M1, M2. rewrite (runit_eq (p_mom p) Hp) at 3. fold en. generalize (runit (p_mom p)) (sqrt (a * a - 1)) (sqrt (b * b - 1)). intros v q r. vring.
Qed.
Print Assumptions C106_pair_loses_momentum.

(** a photon is really stored, and its energy is below the emitter's momentum *)
Lemma ex_chi_small g chi g' : calculate_chi ex_engine ex_tab 1 g = Ok (chi, g') -> 0 < chi <= 1 / 100.
Proof.
  intros HC. split; [eapply chi_pos; exact HC|]. revert HC. unfold calculate_chi. rewrite rand01. cbn [e_canon ex_engine fst snd].
  destruct ex_ok as (_ & _ & INC & _). change (nlog10 1) with (log10 1).
  assert (Z0 : log10 1 = 0) by (unfold log10; rewrite ln_1; unfold Rdiv; ring). rewrite Z0.
  destruct (closest_points_spec (ph_axis ex_tab) 0 ltac:(cbn; lia) ltac:(cbn; lia) INC) as (_ & S2 & _).
  destruct (S2 ltac:(cbn; lra) ltac:(cbn; lia)) as (i & f & HC & I1 & I2 & I3 & I4). change (ph_etaLen ex_tab) with (Z.of_nat (length (ph_axis ex_tab))). rewrite HC. cbn [bind fst snd].
  destruct (I4 ltac:(cbn; lra)) as [F0 ->]. assert (f = 0) as -> by (cbn in I2; lra).
  destruct (sample_inside [0; 1] [-3; -2] (3 / 4) (-3) (-2)) as (v & V1 & V2); [cbn; lia|reflexivity|cbn; lia|cbn; lra|cbn; lra|intros j Hj; destruct j as [|[|j]]; cbn in *; lra || lia|].
  cbn [get ex_tab ph_data ph_chi ph_chiLen Z.of_nat Z.add Z.to_nat Pos.to_nat nth_error bind length] in *.
  change (get [[0; 1]; [0; 1]; [0; 1]] 0) with (Ok [0; 1]). change (get [[-3; -2]; [-3; -2]; [-3; -2]] 0) with (Ok [-3; -2]).
  change (get [[0; 1]; [0; 1]; [0; 1]] 1) with (Ok [0; 1]). change (get [[-3; -2]; [-3; -2]; [-3; -2]] 1) with (Ok [-3; -2]).
  cbn [bind]. change (Z.pos (Pos.of_succ_nat 1)) with 2%Z in V1. rewrite V1. cbn [bind]. intros HE. inversion HE. rnum. rewrite Rpow_Rpower by lra.
  assert (HT : Rpower 10 (-2) = 1 / 100) by (replace (-2) with (- INR 2) by (cbn; lra); rewrite Rpower_Ropp, Rpower_pow by lra; field).
  rewrite <- HT. apply pow_le. lra.
Qed.
Example C105_case : exists p' ph g', interact ex_engine (Stochastic (ex_em (1/2))) ex_lepton ex_list tt = Ok (p', pl_add ex_list ph, g') /\
  pl_add ex_list ph <> ex_list /\ moving_lepton ex_lepton /\ 0 <= em_eMin (ex_em (1/2)) /\ p_mom p' <> rzero /\ get_energy ph < rlen (p_mom ex_lepton).
Proof.
  destruct ex_emission as (p' & ph & g' & HX & _). exists p', ph, g'. split; [exact HX|]. split; [discriminate|]. split; [apply ex_moving|]. split; [cbn; lra|].
  pose proof HX as HX'. cbn [interact] in HX.
  destruct (stochastic_cases _ _ _ _ _ _ _ _ ex_moving eq_refl HX) as (y & HY & HC). cbv zeta in HC.
  destruct HC as [(_ & _ & HL & _)|(_ & chi & g1 & g2 & HCC & Hchi & HM & _ & _ & [[HL _]|HC])]; try discriminate.
  cbn [ex_em em_field em_tab] in HCC. rewrite ?calculate_eta_R, ?ex_eta in HCC by apply ex_moving. apply ex_chi_small in HCC.
  cbn [ex_em em_field] in HM. rewrite ex_eta in HM. cbn [ex_lepton p_mass p_mom] in HM. rewrite ex_gamma in HM.
  assert (S2 : 0 < sqrt 2 < 2) by (split; [apply sqrt_lt_R0; lra|]; rewrite <- (sqrt_square 2) at 2 by lra; apply sqrt_lt_1_alt; lra).
  set (k := 2 * chi * sqrt 2 / 1) in *. assert (HK : 0 < k < 1) by (unfold k; split; nra).
  assert (N0 : v3 1 0 0 <> rzero) by (apply v3_neq; left; lra).
  assert (L1 : rlen (v3 1 0 0) = 1) by (apply rlen_of_len2; [lra|]; runf; ring).
  assert (NZ : p_mom p' <> rzero).
  { rewrite HM, recoil_form by exact N0. intros Q. assert (Q2 : rlen (rscale (rlen (v3 1 0 0) - k) (runit (v3 1 0 0))) = 0) by (rewrite Q; apply rlen_of_len2; [lra|]; runf; ring).
    rewrite rlen_scale, rlen_unit, L1 in Q2 by exact N0. rewrite Rabs_pos_eq in Q2 by lra. lra. }
  split; [exact NZ|].
  destruct (C38_momentum_balance ex_engine (ex_em (1/2)) ex_lepton ex_list tt p' _ g' eq_refl ltac:(cbn; lra) N0 eq_refl ltac:(cbn; lra) HX' ltac:(discriminate)) as (ph' & k' & HL' & _ & _ & _ & _ & _ & _ & _ & HM' & B1 & _).
  assert (ph' = ph) as -> by (injection HL'; auto).
  assert (k' = k) as ->.
  { rewrite HM in HM'. change (p_mom ex_lepton) with (v3 1 0 0) in HM'. rewrite !recoil_form in HM' by exact N0. rewrite L1 in HM'. injection HM' as Q _ _. rewrite L1 in Q. lra. }
  change (p_mom ex_lepton) with (v3 1 0 0) in *. rewrite L1 in *. destruct (B1 ltac:(lra)) as (-> & _). lra.
Qed.
Lemma ex_split g : exists g1, calculate_split ex_engine ex_btab 2 g = Ok (5 / 8, g1).
Proof.
  unfold calculate_split. rewrite rand01. cbn [e_canon ex_engine fst snd]. destruct ex_ok as (_ & _ & _ & INC).
  assert (B : 0 < log10 2 < 1) .
  { unfold log10. pose proof ln10_pos. assert (0 < ln 2) by (rewrite <- ln_1; apply ln_increasing; lra). assert (ln 2 < ln 10) by (apply ln_increasing; lra).
    split; [apply Rdiv_lt_0_compat; lra|]. apply Rmult_lt_reg_r with (ln 10); [lra|]. unfold Rdiv. rewrite Rmult_assoc, Rinv_l; lra. }
  change (nlog10 2) with (log10 2).
  destruct (closest_points_spec (s_chi ex_btab) (log10 2) ltac:(cbn; lia) ltac:(cbn; lia) INC) as (_ & S2 & _).
  destruct (S2 ltac:(cbn; lra) ltac:(cbn; lia)) as (i & f & HC & I1 & I2 & _). change (s_len ex_btab) with (Z.of_nat (length (s_chi ex_btab))). rewrite HC. cbn [bind fst snd].
  assert (i = 0%nat) as -> by (cbn in I1; lia).
  destruct (interp_inside [0; 1 / 2; 1] [1 / 4; 1 / 2; 3 / 4] ltac:(cbn; lia) eq_refl ltac:(cbn; lia) (3 / 4)) as (j & J1 & J2 & J3); [cbn; lra|].
  cbn [ex_btab s_data s_fract s_chi length Z.of_nat Pos.of_succ_nat Pos.succ Z.add] in *.
  change (get [[0; 1 / 2; 1]; [0; 1 / 2; 1]; [0; 1 / 2; 1]] 0) with (Ok [0; 1 / 2; 1]). change (get [[0; 1 / 2; 1]; [0; 1 / 2; 1]; [0; 1 / 2; 1]] 1) with (Ok [0; 1 / 2; 1]).
  cbn [bind]. rewrite J3. cbn [bind]. eexists. f_equal. f_equal. rnum.
  destruct j as [|[|j]]; cbn in J1, J2; try lia; try lra. unfold segment, line, at_. cbn [nth]. rnum. field.
Qed.
Example C106_case : exists p' l' g' s g1, interact ex_engine (BreitWheeler ex_bw) ex_photon ex_list tt = Ok (p', l', g') /\
  p_alive p' = false /\ 0 < chi_of (bw_field ex_bw) ex_photon /\
  calculate_split ex_engine (bw_tab ex_bw) (chi_of (bw_field ex_bw) ex_photon) tt = Ok (s, g1) /\ 1 < s * get_energy ex_photon /\ 1 < (1 - s) * get_energy ex_photon.
Proof.
  destruct C41_case as (p' & l' & g' & HX & HD & HE & HC). destruct (ex_split tt) as [g1 HS]. exists p', l', g', (5 / 8), g1. rewrite HE.
  split; [exact HX|]. split; [exact HD|]. split; [exact HC|]. cbn [ex_bw bw_field bw_tab]. rewrite ex_chi. split; [exact HS|]. lra.
Qed.
