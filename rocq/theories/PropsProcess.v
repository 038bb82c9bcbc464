(** * Properties C31, C36-C42, C77: processes *)
From Coq Require Import String ZArith Reals Lra Psatz List Bool.
From Coq Require Import Floats.SpecFloat.
From Flocq Require Import IEEE754.BinarySingleNaN.
From Verif Require Import Num RNum Outcome OutcomeFacts Vec SpecVec VecFacts VecExtra SpecDyn SpecTable Units Numerics NumericsFacts MCTools Particle ParticleList
  ParticleFacts Fields FieldFacts Pusher PusherFacts Process ProcessFacts ProcessRFacts ProcessSafe F64Facts.
Import ListNotations.
Local Open Scope R_scope.

(** ** C31, any arithmetic: no change, no random number drawn, nothing created *)
Theorem C31_dead_not_pushed : forall {T} `{Num T} (F : force T) (fld : field T) (dt : T) (p : particle T),
  p_alive p = false -> push_particle F fld dt p = p.
Proof. intros. apply push_dead; auto. Qed.
Print Assumptions C31_dead_not_pushed.

Theorem C31_dead_ignored : forall {T} `{Num T} (E : Engine T) (pr : process T) (p : particle T) (l : event T) (g : est E),
  p_alive p = false -> interact E pr p l g = Ok (p, l, g).
Proof. intros. apply interact_dead; auto. Qed.
Print Assumptions C31_dead_ignored.

(** Processes act on their own kind of particle only *)
Theorem C31_other_species_ignored : forall {T} `{Num T} (E : Engine T) (pr : process T) (p : particle T) (l : event T) (g : est E),
  (match pr with
   | BreitWheeler _ => p_type p = PLepton
   | Stochastic _ | Continuous _ _ => neqb (p_mass p) n0 = true
   end) -> interact E pr p l g = Ok (p, l, g).
Proof.
  intros T H E pr p l g HX. destruct pr; cbn; unfold stochastic_interact, continuous_interact, breit_wheeler_interact;
  rewrite HX; reflexivity.
Qed.
Print Assumptions C31_other_species_ignored.

(** ** example configuration: a lepton crossing a magnetic field, a photon likewise *)
Definition ex_lepton : particle R := mkP PLepton "Electron" 1 (-1) 5 0 0 false true (v3 0 0 0) (v3 1 0 0) [] [] [] [].
Definition ex_photon : particle R := mkP PPhoton "Photon" 0 0 5 0 0 false true (v3 0 0 0) (v3 4 0 0) [] [] [] [].
Definition ex_field : field R := static_field rzero (v3 0 1 0).
Definition ex_tab : em_tables R := mkEmT [-20; 20] [0; 0] 2
  [0; 50; 100] [[-3; -2]; [-3; -2]; [-3; -2]] [[0; 1]; [0; 1]; [0; 1]] 3 2.
Definition ex_btab : bw_tables R := mkBwT [-20; 20] [0; 0] 2
  [-50; 50; 100] [1/4; 1/2; 3/4] [[0; 1/2; 1]; [0; 1/2; 1]; [0; 1/2; 1]] 3.
Definition ex_em (frac : R) : em_cfg R := mkEm ex_field 1 frac 0 false ex_tab.
Definition ex_bw : bw_cfg R := mkBw ex_field 1 false ex_btab.
Definition ex_engine : Engine R := mkEngine R unit (fun g => (3/4, g)) (fun n g => (repeat 0 n, g)).
Definition ex_list : event R := pl_new "event"%string 10.

Lemma ex_ok : em_tables_ok ex_tab /\ bw_tables_ok ex_btab /\ increasing (ph_axis ex_tab) /\ increasing (s_chi ex_btab).
Proof.
  split; [|split; [|split]].
  - unfold em_tables_ok, ex_tab; cbn [h_axis h_data h_len ph_axis ph_chi ph_data ph_etaLen ph_chiLen length].
    do 9 (split; [try reflexivity; lia|]). split; [lia|].
    intros row [HX|HX]; repeat destruct HX as [<-|HX]; try reflexivity; destruct HX.
  - unfold bw_tables_ok, ex_btab; cbn [t_axis t_data t_len s_chi s_fract s_data s_len length].
    do 9 (split; [try reflexivity; lia|]).
    intros row HX; repeat destruct HX as [<-|HX]; try reflexivity; destruct HX.
  - intros i j Hij. cbn in Hij. destruct i as [|[|[|i]]], j as [|[|[|j]]]; try lia; cbn; lra.
  - intros i j Hij. cbn in Hij. destruct i as [|[|[|i]]], j as [|[|[|j]]]; try lia; cbn; lra.
Qed.

Lemma ex_moving : moving_lepton ex_lepton.
Proof. split; [reflexivity|]. split; [cbn; lra|]. cbn. apply v3_neq. left. lra. Qed.

Lemma ex_gamma : lorentz_factor 1 (v3 1 0 0) = sqrt 2.
Proof. unfold lorentz_factor. f_equal. runf. field. Qed.
Lemma ex_eta : eta_of ex_field ex_lepton = 1.
Proof.
  unfold eta_of, ex_field, static_field. cbn [ex_lepton p_mass p_mom]. unfold invariant, invariant2, velocity.
  rewrite ex_gamma. rewrite Rmult_1_l.
  assert (H2 : sqrt 2 * sqrt 2 = 2) by (apply sqrt_sqrt; lra).
  assert (Hp : 0 < sqrt 2) by (apply sqrt_lt_R0; lra).
  assert (Hk : / sqrt 2 * / sqrt 2 = 1 / 2).
  { rewrite <- Rinv_mult. rewrite H2. lra. }
  rewrite H2. transitivity (sqrt 1); [|apply sqrt_1]. f_equal. set (k := / sqrt 2) in *. clearbody k. runf. nra.
Qed.
Lemma ex_number h : 0 < h -> 0 < emission_number 1 1 h (sqrt 2).
Proof.
  intros Hh. unfold emission_number. pose proof c_alpha_pos. pose proof c_pi_pos.
  assert (0 < sqrt 3) by (apply sqrt_lt_R0; lra). assert (0 < sqrt 2) by (apply sqrt_lt_R0; lra).
  rewrite Rmult_1_r. apply Rmult_lt_0_compat; [|apply Rdiv_lt_0_compat; lra].
  apply Rdiv_lt_0_compat; [apply Rmult_lt_0_compat; auto|lra].
Qed.

(** ** C36 *)
Theorem C36_quantum_parameter : forall (fld : field R) (p : particle R),
  p_type p = PLepton -> 0 < p_mass p -> p_mom p <> rzero ->
  let '(e, b) := fld (p_time p) (p_pos p) in
  calculate_eta fld p = invariant (p_mass p) (p_mom p) e b /\ 0 <= calculate_eta fld p /\
  calculate_eta fld p * calculate_eta fld p = invariant2 (p_mass p) (p_mom p) e b.
Proof.
  intros fld p Ht Hm Hp. pose proof (calculate_eta_R fld p (conj Ht (conj Hm Hp))) as HE.
  unfold eta_of in HE. destruct (fld (p_time p) (p_pos p)) as [e b]. rewrite HE. split; [auto|].
  split; [apply invariant_nonneg|]. apply sqrt_sqrt, invariant2_nonneg; auto.
Qed.
Print Assumptions C36_quantum_parameter.

Theorem C36_zero_without_field : forall (fld : field R) (p : particle R),
  p_type p = PLepton -> 0 < p_mass p -> p_mom p <> rzero ->
  fld (p_time p) (p_pos p) = (rzero, rzero) -> calculate_eta fld p = 0.
Proof.
  intros fld p Ht Hm Hp HF. rewrite calculate_eta_R by (repeat split; auto). unfold eta_of. rewrite HF.
  unfold invariant. rewrite invariant2_zero, sqrt_0. reflexivity.
Qed.
Print Assumptions C36_zero_without_field.

Theorem C36_linear_in_field : forall (k : R) (fld : field R) (p : particle R),
  p_type p = PLepton -> 0 < p_mass p -> p_mom p <> rzero -> 0 <= k ->
  calculate_eta (fun t x => (rscale k (fst (fld t x)), rscale k (snd (fld t x)))) p = k * calculate_eta fld p.
Proof.
  intros k fld p Ht Hm Hp Hk. rewrite !calculate_eta_R by (repeat split; auto). unfold eta_of.
  destruct (fld (p_time p) (p_pos p)) as [e b]. cbn [fst snd]. unfold invariant.
  rewrite <- (sqrt_square k) at 3 by auto. rewrite <- sqrt_mult_alt by nra. f_equal.
  unfold invariant2. generalize (velocity (p_mass p) (p_mom p)) (lorentz_factor (p_mass p) (p_mom p)). intros v g. cbv zeta. vring.
Qed.
Print Assumptions C36_linear_in_field.

(** purely longitudinal electric field counts without the factor gamma *)
Theorem C36_longitudinal_field : forall (s : R) (p : particle R) (fld : field R),
  p_type p = PLepton -> 0 < p_mass p -> p_mom p <> rzero ->
  fld (p_time p) (p_pos p) = (rscale s (runit (p_mom p)), rzero) -> calculate_eta fld p = Rabs s.
Proof.
  intros s p fld Ht Hm Hp HF. rewrite calculate_eta_R by (repeat split; auto). unfold eta_of. rewrite HF.
  unfold invariant, invariant2.
  assert (Hm0 : p_mass p <> 0) by lra.
  pose proof (vel_len2 (p_mass p) (p_mom p) Hm0) as VL. pose proof (gamma_pos (p_mass p) (p_mom p) Hm0) as G.
  assert (HV : velocity (p_mass p) (p_mom p) = rscale (/ (p_mass p * lorentz_factor (p_mass p) (p_mom p)) * rlen (p_mom p)) (runit (p_mom p))).
  { unfold velocity. rewrite <- rscale_scale. rewrite <- runit_eq by auto. reflexivity. }
  pose proof (rlen2_unit (p_mom p) Hp) as HU. rewrite HV in VL |- *. rewrite rlen2_scale, HU in VL.
  set (b := / _ * _) in *. set (g := lorentz_factor _ _) in *. set (u := runit (p_mom p)) in *.
  rewrite <- sqrt_Rsqr_abs. f_equal. unfold Rsqr. cbv zeta.
  replace (rlen2 (rplus (rscale s u) (rcross (rscale b u) rzero)) - rdot (rscale b u) (rscale s u) * rdot (rscale b u) (rscale s u))
    with (s * s * rlen2 u - b * b * (s * s) * (rlen2 u * rlen2 u)) by (clearbody b g u; vring).
  rewrite HU. assert (HB : b * b = 1 - 1 / (g * g)) by lra. rewrite HB. field. lra.
Qed.
Print Assumptions C36_longitudinal_field.

Example C36_case : moving_lepton ex_lepton /\ calculate_eta ex_field ex_lepton = 1.
Proof. split; [apply ex_moving|]. rewrite calculate_eta_R by apply ex_moving. apply ex_eta. Qed.

(** ** C37 *)
Theorem C37_depth_discipline : forall (E : Engine R) (c : em_cfg R) (p : particle R) l g p' l' g',
  (forall g, 0 <= fst (e_canon E g) < 1) ->
  p_type p = PLepton -> 0 < p_mass p -> p_mom p <> rzero -> p_alive p = true -> 0 <= p_depth p ->
  interact E (Stochastic c) p l g = Ok (p', l', g') ->
  0 <= p_depth p' /\
  exists y, h_lookup c (eta_of (em_field c) p) = Ok y /\
  let d := emission_number (em_dt c) (eta_of (em_field c) p) (Rpower 10 y) (lorentz_factor (p_mass p) (p_mom p)) in
  (0 <= p_depth p - d -> p' = set_depth p (p_depth p - d) /\ l' = l /\ g' = g) /\
  (p_mom p' <> p_mom p \/ l' <> l -> p_depth p - d < 0).
Proof.
  intros E c p l g p' l' g' HE Ht Hm Hp Ha Hd HX. cbn [interact] in HX.
  destruct (stochastic_cases E c p l g p' l' g' (conj Ht (conj Hm Hp)) Ha HX) as (y & HY & HC). cbv zeta in HC.
  rewrite Rpow_Rpower in HC by lra.
  set (d := emission_number _ _ _ _) in *.
  split; [|exists y; split; [auto|]; fold d].
  - destruct HC as [(H0 & -> & _ & _)|(_ & chi & g1 & g2 & _ & _ & _ & -> & _)]; [exact H0|].
    rewrite draw_depth_R. cbn. apply depth_nonneg, HE.
  - destruct HC as [(H0 & HP & HL & HG)|(H0 & _)]; split; auto; [|intros; lra].
    intros [HN|HN]; [|congruence]. exfalso. apply HN. rewrite HP. reflexivity.
Qed.
Print Assumptions C37_depth_discipline.

(** when the depth runs out an emission always happens: momentum is lost along the direction of flight *)
Theorem C37_emission_when_depth_runs_out : forall (E : Engine R) (c : em_cfg R) (p : particle R) l g p' l' g' y,
  p_type p = PLepton -> 0 < p_mass p -> p_mom p <> rzero -> p_alive p = true -> 0 < eta_of (em_field c) p ->
  interact E (Stochastic c) p l g = Ok (p', l', g') ->
  h_lookup c (eta_of (em_field c) p) = Ok y ->
  p_depth p < emission_number (em_dt c) (eta_of (em_field c) p) (Rpower 10 y) (lorentz_factor (p_mass p) (p_mom p)) ->
  exists k, 0 < k /\ p_mom p' = rminus (p_mom p) (rscale k (runit (p_mom p))) /\ p_mom p' <> p_mom p.
Proof.
  intros E c p l g p' l' g' y Ht Hm Hp Ha He HX HY Hd. cbn [interact] in HX.
  destruct (stochastic_cases E c p l g p' l' g' (conj Ht (conj Hm Hp)) Ha HX) as (y' & HY' & HC). cbv zeta in HC.
  rewrite HY in HY'. injection HY'; intros <-. rewrite Rpow_Rpower in HC by lra.
  destruct HC as [(H0 & _)|(_ & chi & g1 & g2 & _ & Hchi & HM & _)]; [lra|].
  eexists. split; [|split; [exact HM|]].
  - apply Rdiv_lt_0_compat; auto. pose proof (gamma_pos (p_mass p) (p_mom p) ltac:(lra)). nra.
  - rewrite HM. set (k := 2 * chi * _ / _).
    assert (Hk : 0 < k) by (apply Rdiv_lt_0_compat; auto; pose proof (gamma_pos (p_mass p) (p_mom p) ltac:(lra)); nra).
    intros HQ. assert (HZ : rlen2 (rscale k (runit (p_mom p))) = 0).
    { assert (HQ2 : rscale k (runit (p_mom p)) = rzero).
      { revert HQ. generalize (runit (p_mom p)) (p_mom p). intros u m HQ. destruct u, m. unfold rminus, rscale, rzero in *. cbn in *.
        injection HQ; intros. apply vec_eq; cbn; lra. }
      rewrite HQ2. runf. ring. }
    rewrite rlen2_scale, rlen2_unit in HZ by auto. nra.
Qed.
Print Assumptions C37_emission_when_depth_runs_out.

(** the hypotheses hold in a run in which a photon really is emitted *)
Lemma ex_emission : exists p' ph g', interact ex_engine (Stochastic (ex_em (1/2))) ex_lepton ex_list tt
   = Ok (p', pl_add ex_list ph, g') /\ new_photon_like ph.
Proof.
  destruct ex_ok as (O1 & _ & O3 & _).
  destruct (interact_safe ex_engine (Stochastic (ex_em (1/2))) ex_lepton ex_list tt O1) as [(p' & l' & g' & HX)|HX].
  - cbn [interact] in HX.
    destruct (stochastic_cases _ _ _ _ _ _ _ _ ex_moving eq_refl HX) as (y & HY & HC). cbv zeta in HC.
    cbn [ex_em em_field em_dt em_eMin em_frac ex_lepton p_depth p_mass p_mom] in HC. fold ex_lepton in HC.
    rewrite ex_eta, ex_gamma in HC.
    pose proof (ex_number (Rpow 10 y) ltac:(apply Rpow_pos; lra)) as HN.
    destruct HC as [(H0 & _)|(_ & chi & g1 & g2 & _ & Hchi & _ & _ & _ & [[_ [[Hk _]|[_ [Hk _]]]]|HC])]; [lra| | |].
    + exfalso. assert (0 < sqrt 2) by (apply sqrt_lt_R0; lra).
      assert (0 < 2 * chi * sqrt 2 / 1) by (apply Rdiv_lt_0_compat; nra). lra.
    + exfalso. cbn in Hk. lra.
    + destruct HC as (ph & -> & _ & _ & HP & _). cbn [interact]. eauto.
  - exfalso. cbn [interact] in HX. apply stochastic_exit in HX; [|exact O1].
    rewrite calculate_eta_R in HX by apply ex_moving. cbn [ex_em em_field em_tab] in HX. rewrite ex_eta in HX.
    apply chi_exit_iff in HX; [|exact O1|exact O3|cbn; lia]. rewrite ln_1 in HX. cbn in HX. unfold Rdiv in HX. rewrite Rmult_0_l in HX. lra.
Qed.
Example C37_case : (forall g, 0 <= fst (e_canon ex_engine g) < 1) /\ moving_lepton ex_lepton /\ p_alive ex_lepton = true /\
  0 <= p_depth ex_lepton /\ 0 < eta_of ex_field ex_lepton.
Proof. split; [intros g; cbn; lra|]. split; [apply ex_moving|]. split; [auto|]. split; [cbn; lra|]. rewrite ex_eta. lra. Qed.

(** ** C38 *)
Lemma runit_pos_scale k u : rlen2 u = 1 -> 0 < k -> runit (rscale k u) = u.
Proof.
  intros HU Hk. unfold runit. rewrite rlen_scale.
  assert (HL : rlen u = 1) by (unfold rlen; rewrite HU; apply sqrt_1). rewrite HL, Rabs_pos_eq, rscale_scale by lra.
  replace (/ (k * 1) * k) with 1 by (field; lra). apply rscale_1.
Qed.
Lemma runit_neg_scale k u : rlen2 u = 1 -> k < 0 -> runit (rscale k u) = rscale (-1) u.
Proof.
  intros HU Hk. unfold runit. rewrite rlen_scale.
  assert (HL : rlen u = 1) by (unfold rlen; rewrite HU; apply sqrt_1). rewrite HL, Rabs_left, rscale_scale by lra.
  f_equal. field. lra.
Qed.
Lemma recoil_form p k : p <> rzero -> rminus p (rscale k (runit p)) = rscale (rlen p - k) (runit p).
Proof. intros Hp. rewrite (runit_eq p Hp) at 1. generalize (runit p) (rlen p). intros u n. vring. Qed.

(** momentum balance, and what happens beyond it: a photon more energetic than the emitter's momentum is stored
    flying backwards, so twice its momentum is missing *)
Theorem C38_momentum_balance : forall (E : Engine R) (c : em_cfg R) (p : particle R) l g p' l' g',
  p_type p = PLepton -> 0 < p_mass p -> p_mom p <> rzero -> p_alive p = true -> 0 <= em_eMin c ->
  interact E (Stochastic c) p l g = Ok (p', l', g') -> l' <> l ->
  exists ph k, l' = pl_add l ph /\ p_type ph = PPhoton /\ p_mass ph = 0 /\ p_charge ph = 0 /\
    p_pos ph = p_pos p /\ p_time ph = p_time p /\
    em_eMin c < k /\ p_weight ph = p_weight p / em_frac c /\
    p_mom p' = rminus (p_mom p) (rscale k (runit (p_mom p))) /\
    (k < rlen (p_mom p) ->
       get_energy ph = k /\ p_mom ph = rscale k (runit (p_mom p)) /\
       rplus (p_mom ph) (p_mom p') = p_mom p /\ runit (p_mom p') = runit (p_mom p)) /\
    (rlen (p_mom p) < k ->
       get_energy ph = k /\ p_mom ph = rscale (- k) (runit (p_mom p)) /\
       rplus (p_mom ph) (p_mom p') = rminus (p_mom p) (rscale (2 * k) (runit (p_mom p))) /\
       runit (p_mom p') = rscale (-1) (runit (p_mom p))).
Proof.
  intros E c p l g p' l' g' Ht Hm Hp Ha HE HX HN. cbn [interact] in HX.
  destruct (stochastic_cases E c p l g p' l' g' (conj Ht (conj Hm Hp)) Ha HX) as (y & HY & HC). cbv zeta in HC.
  destruct HC as [(_ & _ & HL & _)|(_ & chi & g1 & g2 & _ & Hchi & HM & _ & _ & [[HL _]|HC])]; try congruence.
  destruct HC as (ph & HL & Hk & _ & (B1 & B2 & B3 & B4) & (B5 & B6 & B7 & _) & HW & _ & HPM).
  set (k := 2 * chi * _ / _) in *. exists ph, k.
  pose proof (n0_R) as HZ. rewrite HZ in B3, B4.
  split; [auto|]. split; [auto|]. split; [auto|]. split; [auto|]. split; [auto|]. split; [auto|].
  split; [auto|]. split; [auto|]. split; [auto|].
  pose proof (rlen2_unit (p_mom p) Hp) as HU. pose proof (rlen_pos (p_mom p) Hp) as HL0.
  rewrite recoil_form in HPM, HM by auto.
  set (u := runit (p_mom p)) in *.
  assert (HEn : forall s, p_mom ph = rscale s u -> get_energy ph = Rabs s).
  { intros s Hs. unfold get_energy. rewrite B1, mag_R, Hs, rlen_scale.
    unfold rlen. rewrite HU, sqrt_1. ring. }
  split; intros HK.
  - assert (HD : runit (rscale (rlen (p_mom p) - k) u) = u) by (apply runit_pos_scale; auto; lra).
    rewrite HD in HPM. rewrite runit_of_unit in HPM by auto.
    split; [rewrite (HEn _ HPM), Rabs_pos_eq; lra|]. split; [auto|]. rewrite HPM, HM. split; [|auto].
    rewrite (runit_eq (p_mom p) Hp) at 2. fold u. generalize (rlen (p_mom p)). intros n. clearbody u. vring.
  - assert (HD : runit (rscale (rlen (p_mom p) - k) u) = rscale (-1) u) by (apply runit_neg_scale; auto; lra).
    rewrite HD in HPM. rewrite runit_of_unit in HPM by (rewrite rlen2_scale, HU; ring).
    assert (HPM' : p_mom ph = rscale (- k) u) by (rewrite HPM, rscale_scale; f_equal; ring).
    split; [rewrite (HEn _ HPM'), Rabs_left; lra|]. split; [auto|]. rewrite HPM', HM. split; [|auto].
    rewrite (runit_eq (p_mom p) Hp) at 2. fold u. generalize (rlen (p_mom p)). intros n. clearbody u. vring.
Qed.
Print Assumptions C38_momentum_balance.

(** everything else about the emitter is unchanged, any arithmetic *)
Theorem C38_emitter_frame : forall {T} `{Num T} (E : Engine T) (c : em_cfg T) (p : particle T) l g p' l' g',
  interact E (Stochastic c) p l g = Ok (p', l', g') ->
  p_type p' = p_type p /\ p_name p' = p_name p /\ p_mass p' = p_mass p /\ p_charge p' = p_charge p /\
  p_weight p' = p_weight p /\ p_tracking p' = p_tracking p /\ p_pos p' = p_pos p /\ p_time p' = p_time p /\
  p_alive p' = p_alive p.
Proof.
  intros T H E c p l g p' l' g' HX. destruct (stochastic_shape E c p l g p' l' g' HX) as ((A1&A2&A3&A4&A5&A6) & A7 & A8 & A9 & _).
  repeat (split; [auto; fail|]). 
  revert HX. cbn [interact]. unfold stochastic_interact. destruct (_ || _)%bool; [intros HX; injection HX; intros; subst; auto|].
  cbv zeta. intros HX. apply bind_ok in HX. destruct HX as [y [_ HX]]. destruct (nltb _ _) in HX; [|injection HX; intros; subst; auto].
  apply bind_ok in HX. destruct HX as [cg [_ HX]]. destruct (if nltb (em_eMin c) _ then _ else _) as [keep g2].
  set (p1 := update_depth p _) in *.
  match type of HX with context [update_track p1 ?x ?m] => destruct (update_track_id p1 x m) as (_ & _ & U3 & _); set (p2 := update_track p1 x m) in * end.
  destruct (if keep then _ else _) as [l3 g3]. unfold init_depth in HX. destruct (draw_depth E g3) as [d g4].
  injection HX; intros; subst. cbn [set_depth p_alive]. rewrite U3. reflexivity.
Qed.
Print Assumptions C38_emitter_frame.

(** ** C39 *)
(** in any arithmetic: a photon is stored only if some draw of the engine exceeds the sample fraction *)
Theorem C39_photon_needs_large_draw : forall {T} `{Num T} (E : Engine T) (c : em_cfg T) (p : particle T) l g p' l' g',
  interact E (Stochastic c) p l g = Ok (p', l', g') -> l' <> l ->
  exists g1, nltb (em_frac c) (fst (rand_double E n0 n1 g1)) = true.
Proof.
  intros T H E c p l g p' l' g' HX HN. revert HX. cbn [interact]. unfold stochastic_interact.
  destruct (_ || _)%bool; [intros HX; injection HX; intros; subst; congruence|].
  cbv zeta. intros HX. apply bind_ok in HX. destruct HX as [y [_ HX]]. destruct (nltb _ _) in HX; [|injection HX; intros; subst; congruence].
  apply bind_ok in HX. destruct HX as [[chi g1] [_ HX]]. cbn [fst snd] in HX. exists g1.
  destruct (rand_double E n0 n1 g1) as [r g2]. cbn [fst]. 
  destruct (nltb (em_eMin c) _).
  - destruct (nltb (em_frac c) r); [reflexivity|]. destruct (init_depth E _ g2). injection HX; intros; subst. congruence.
  - destruct (init_depth E _ g1). injection HX; intros; subst. congruence.
Qed.
Print Assumptions C39_photon_needs_large_draw.

(** with fraction 1 (the default of the input file) no interaction stores a photon *)
Theorem C39_default_fraction_no_photon : forall (E : Engine R) (c : em_cfg R) (p : particle R) l g p' l' g',
  (forall g, 0 <= fst (e_canon E g) < 1) -> 1 <= em_frac c ->
  interact E (Stochastic c) p l g = Ok (p', l', g') -> l' = l.
Proof.
  intros E c p l g p' l' g' HE HF HX.
  destruct (stochastic_shape E c p l g p' l' g' HX) as (_ & _ & _ & _ & news & HL & _ & [[HB _]|HB]).
  - subst news. exact HL.
  - exfalso.
    assert (HN : l' <> l).
    { intros HQ. assert (HLen : (length (pl_items l') + length (pl_lost l') = length (pl_items l) + length (pl_lost l))%nat) by (rewrite HQ; auto).
      destruct (add_all_items news l) as (st & lo & HS & I1 & I2). rewrite HL, I1, I2, !app_length in HLen.
      destruct HB as [(ph & Hn & _)|(po & el & Hn & _)]; rewrite Hn in HS; apply (f_equal (@length _)) in HS; rewrite app_length in HS; cbn in HS; lia. }
    destruct (C39_photon_needs_large_draw E c p l g p' l' g' HX HN) as [g1 HG]. rewrite rand01 in HG.
    change (nltb (em_frac c)) with (Rltb (em_frac c)) in HG. apply Rltb_true in HG. pose proof (HE g1). lra.
Qed.
Print Assumptions C39_default_fraction_no_photon.

(** the emitter recoils all the same *)
Example C39_case : exists p' g', interact ex_engine (Stochastic (ex_em 1)) ex_lepton ex_list tt = Ok (p', ex_list, g') /\
  p_mom p' <> p_mom ex_lepton.
Proof.
  destruct ex_ok as (O1 & _ & O3 & _).
  destruct (interact_safe ex_engine (Stochastic (ex_em 1)) ex_lepton ex_list tt O1) as [(p' & l' & g' & HX)|HX].
  - assert (l' = ex_list) by (eapply C39_default_fraction_no_photon; [| |exact HX]; [intros g; cbn; lra|cbn; lra]). subst l'.
    exists p', g'. split; [exact HX|].
    assert (HY : exists y, h_lookup (ex_em 1) (eta_of ex_field ex_lepton) = Ok y).
    { unfold h_lookup. destruct (Rltb _ _); [eauto|]. apply interp_ok; try reflexivity. cbn. lia. }
    destruct HY as [y HY]. destruct ex_moving as (M1 & M2 & M3).
    destruct (C37_emission_when_depth_runs_out ex_engine (ex_em 1) ex_lepton ex_list tt p' ex_list g' y M1 M2 M3 eq_refl) as (k & _ & _ & HN); auto.
    + cbn [ex_em em_field]. rewrite ex_eta. lra.
    + cbn [ex_em em_field em_dt]. rewrite ex_eta. cbn [ex_lepton p_mass p_mom p_depth]. rewrite ex_gamma. apply ex_number. apply exp_pos.
  - exfalso. cbn [interact] in HX. apply stochastic_exit in HX; [|exact O1].
    rewrite calculate_eta_R in HX by apply ex_moving. cbn [ex_em em_field em_tab] in HX. rewrite ex_eta in HX.
    apply chi_exit_iff in HX; [|exact O1|exact O3|cbn; lia]. rewrite ln_1 in HX. cbn in HX. unfold Rdiv in HX. rewrite Rmult_0_l in HX. lra.
Qed.

(** ** C40 *)
(** any arithmetic: the emitter is untouched, at most one photon is appended *)
Theorem C40_emitter_untouched : forall {T} `{Num T} (E : Engine T) (c : em_cfg T) cl (p : particle T) l g p' l' g',
  interact E (Continuous c cl) p l g = Ok (p', l', g') ->
  p' = p /\ (l' = l \/ exists ph, l' = pl_add l ph /\ p_type ph = PPhoton /\ p_alive ph = true /\ p_pos ph = p_pos p /\ p_time ph = p_time p).
Proof.
  intros T H E c cl p l g p' l' g' HX. destruct (continuous_frame E c cl p l g p' l' g' HX) as [HP [HL|(ph & HL & (B1&_) & (B2 & B3 & B4 & _))]]; eauto 10.
Qed.
Print Assumptions C40_emitter_untouched.

(** exact reals: energy above the minimum, direction of flight, and weight = emitter weight * emission number / fraction *)
Theorem C40_continuous_photon : forall (E : Engine R) (c : em_cfg R) cl (p : particle R) l g p' l' g',
  p_type p = PLepton -> 0 < p_mass p -> p_mom p <> rzero -> p_alive p = true -> 0 <= em_eMin c ->
  interact E (Continuous c cl) p l g = Ok (p', l', g') -> l' <> l ->
  fst (e_canon E g) <= em_frac c /\
  exists ph y, l' = pl_add l ph /\ em_eMin c < get_energy ph /\ runit (p_mom ph) = runit (p_mom p) /\
    (if cl then y = 7193 / 10000 else h_lookup c (eta_of (em_field c) p) = Ok y) /\
    p_weight ph = p_weight p *
      emission_number (em_dt c) (eta_of (em_field c) p) (Rpower 10 y) (lorentz_factor (p_mass p) (p_mom p)) / em_frac c.
Proof.
  intros E c cl p l g p' l' g' Ht Hm Hp Ha HE HX HN. cbn [interact] in HX.
  destruct (continuous_cases E c cl p l g p' l' g' (conj Ht (conj Hm Hp)) Ha HE HX) as (_ & [HL|HC]); [congruence|].
  destruct HC as (ph & y & chi & k & HL & Hk & HF & Hy & Hchi & Hkk & (B1 & _) & _ & _ & HPM & HW).
  split; [auto|]. exists ph, y. split; [auto|].
  pose proof (rlen2_unit (p_mom p) Hp) as HU.
  split.
  - unfold get_energy. rewrite B1, mag_R, HPM, rlen_scale, Rabs_pos_eq by lra. rewrite rlen_unit by auto. lra.
  - split; [rewrite HPM; apply runit_pos_scale; auto; lra|]. split; [auto|]. rewrite HW, Rpow_Rpower by lra. reflexivity.
Qed.
Print Assumptions C40_continuous_photon.

(** a call that does create a photon *)
Example C40_case : exists ph g', interact ex_engine (Continuous (ex_em 1) false) ex_lepton ex_list tt = Ok (ex_lepton, pl_add ex_list ph, g').
Proof.
  destruct ex_ok as (O1 & _ & O3 & _). cbn [interact]. unfold continuous_interact.
  assert (HG : (neqb (p_mass ex_lepton) n0 || negb (p_alive ex_lepton))%bool = false).
  { cbn [ex_lepton p_alive p_mass]. rnum. rewrite orb_false_r. apply Reqb_false. lra. }
  rewrite HG. rewrite rand01. cbn [e_canon ex_engine]. cbv zeta.
  assert (HF : nltb (em_frac (ex_em 1)) (3 / 4) = false) by (cbn; apply Rltb_false; lra). rewrite HF.
  rewrite calculate_eta_R by apply ex_moving. cbn [ex_em em_field em_tab em_eMin]. rewrite ex_eta.
  assert (HL : (nltb 1 (nlit 1 (-12)) || false)%bool = false).
  { rewrite orb_false_r. rnum. apply Rltb_false. rlit. lra. }
  rewrite HL. destruct (interp_ok (h_axis ex_tab) (h_data ex_tab) (h_len ex_tab) (nlog10 1)) as [y ->]; [reflexivity|reflexivity|cbn; lia|].
  cbn [bind]. destruct (chi_safe ex_engine ex_tab 1 tt O1) as [(chi & g2 & HC)|HC].
  - pose proof (chi_pos _ _ _ _ _ _ HC) as Hchi. cbn [est ex_engine] in *. rewrite HC. cbn [bind fst snd].
    assert (HK : nltb 0 (ndiv (nmul (nmul n2 chi) (get_gamma ex_lepton)) 1) = true).
    { rewrite gamma_R by reflexivity. cbn [ex_lepton p_mass p_mom]. rewrite ex_gamma. rnum. apply Rltb_true.
      assert (0 < sqrt 2) by (apply sqrt_lt_R0; lra). apply Rdiv_lt_0_compat; nra. }
    rewrite HK. destruct (new_photon_energy _ _ _ _ _ _ _ _) as [ph g3]. eauto.
  - exfalso. apply chi_exit_iff in HC; [|exact O1|exact O3|cbn; lia]. rewrite ln_1 in HC. cbn in HC. unfold Rdiv in HC. rewrite Rmult_0_l in HC. lra.
Qed.

(** ** C41 *)
(** any arithmetic: either nothing is created and only the depth changed, or the photon died and was replaced by
    a positron followed by an electron at its place, time and weight *)
Theorem C41_pair_or_nothing : forall {T} `{Num T} (E : Engine T) (c : bw_cfg T) (p : particle T) l g p' l' g',
  p_type p = PPhoton -> p_alive p = true ->
  interact E (BreitWheeler c) p l g = Ok (p', l', g') ->
  (p_alive p' = true /\ l' = l /\ g' = g /\ exists d, p' = set_depth p d) \/
  (p_alive p' = false /\ (exists d, p' = kill (set_depth p d)) /\
   exists po el, l' = pl_add (pl_add l po) el /\
     p_charge po = n1 /\ p_charge el = nlit (-1) 0 /\ p_mass po = n1 /\ p_mass el = n1 /\
     forall q, q = po \/ q = el -> p_type q = PLepton /\ p_alive q = true /\ p_pos q = p_pos p /\ p_time q = p_time p /\ p_weight q = p_weight p).
Proof.
  intros T H E c p l g p' l' g' Ht Ha HX. cbn [interact] in HX.
  destruct (breit_wheeler_shape E c p l g p' l' g' HX) as (_ & _ & _ & _ & news & HL & HB & HS).
  revert HX. unfold breit_wheeler_interact. rewrite Ht, Ha. cbn [orb negb]. cbv zeta. intros HX.
  apply bind_ok in HX. destruct HX as [y [_ HX]].
  set (p1 := update_depth p _) in *.
  destruct (nltb (p_depth p1) n0).
  2:{ left. injection HX; intros; subst. split; [exact Ha|]. split; [auto|]. split; [auto|]. eexists. reflexivity. }
  right. apply bind_ok in HX. destruct HX as [[s g1] [_ HX]].
  destruct (new_lepton E n1 n1 _ _ _ _ _ _) as [po g2]. destruct (new_lepton E n1 (nlit (-1) 0) _ _ _ _ _ g2) as [el g3].
  injection HX; intros; subst p' g'. split; [reflexivity|]. split; [eexists; reflexivity|].
  destruct HS as [[HS _]|[(ph & _ & _ & HS & _)|(po' & el' & Hn & (P1&P2&P3&P4) & (Q1&Q2&Q3&Q4) & W1 & W2 & _)]].
  - subst news. exfalso. assert (HLen : (length (pl_items l') + length (pl_lost l') = length (pl_items l) + length (pl_lost l))%nat) by (rewrite HL; reflexivity).
    rewrite <- H1 in HLen. unfold pl_add in HLen. destruct (Z.ltb (pl_n l) _); cbn in HLen;
      match type of HLen with context [Z.ltb ?a ?b] => destruct (Z.ltb a b) end; cbn in HLen; rewrite ?app_length in HLen; cbn in HLen; lia.
  - discriminate.
  - exists po', el'. subst news. split; [exact HL|].
    split; [auto|]. split; [auto|]. split; [auto|]. split; [auto|].
    intros q [-> | ->].
    + destruct (HB po' (or_introl eq_refl)) as (B1 & B2 & B3 & _). auto.
    + destruct (HB el' (or_intror (or_introl eq_refl))) as (B1 & B2 & B3 & _). auto.
Qed.
Print Assumptions C41_pair_or_nothing.

Lemma lepton_energy_from e u (q : particle R) : p_type q = PLepton -> p_mass q = 1 -> rlen2 u = 1 -> 1 <= e ->
  p_mom q = rscale (sqrt (e * e - 1)) u -> get_energy q = e.
Proof.
  intros Ht Hm HU He HM. unfold get_energy. rewrite Ht, Hm. rewrite gamma_R by auto. rewrite Hm, HM. unfold lorentz_factor.
  rewrite rlen2_scale, HU, sqrt_sqrt by nra. rnum. replace (1 + (e * e - 1) * 1 / (1 * 1)) with (e * e) by field.
  rewrite sqrt_square by lra. ring.
Qed.

(** exact reals: when it happens, directions and energies *)
Theorem C41_pair_kinematics : forall (E : Engine R) (c : bw_cfg R) (p : particle R) l g p' l' g',
  p_type p = PPhoton -> p_alive p = true -> p_mom p <> rzero -> 0 < chi_of (bw_field c) p ->
  interact E (BreitWheeler c) p l g = Ok (p', l', g') ->
  exists y, interpolate1d (t_axis (bw_tab c)) (t_data (bw_tab c)) (t_len (bw_tab c)) (ln (chi_of (bw_field c) p) / ln 10) = Ok y /\
  let d := c_alpha * chi_of (bw_field c) p * Rpower 10 y / get_energy p * bw_dt c in
  (0 <= p_depth p - d -> p' = set_depth p (p_depth p - d) /\ l' = l) /\
  (p_depth p - d < 0 -> p_alive p' = false /\
     exists s g1 po el, calculate_split E (bw_tab c) (chi_of (bw_field c) p) g = Ok (s, g1) /\ l' = pl_add (pl_add l po) el /\
       p_charge po = 1 /\ p_charge el = -1 /\ p_name po = "Positron"%string /\ p_name el = "Electron"%string /\
       (1 < s * get_energy p -> get_energy po = s * get_energy p /\ runit (p_mom po) = runit (p_mom p)) /\
       (1 < (1 - s) * get_energy p -> get_energy el = (1 - s) * get_energy p /\ runit (p_mom el) = runit (p_mom p)) /\
       (1 <= s * get_energy p -> 1 <= (1 - s) * get_energy p -> get_energy po + get_energy el = get_energy p)).
Proof.
  intros E c p l g p' l' g' Ht Ha Hp Hchi HX. cbn [interact] in HX.
  assert (HEn : get_energy p = rlen (p_mom p)) by (unfold get_energy; rewrite Ht; apply mag_R).
  destruct (breit_wheeler_cases E c p l g p' l' g' Ht Ha Hp HX) as (y & HY & HC). cbv zeta in HC.
  exists y. split; [exact HY|]. rewrite Rpow_Rpower in HC by lra. rewrite HEn. cbv zeta.
  set (d := c_alpha * _ * _ / _ * _) in *.
  pose proof (rlen2_unit (p_mom p) Hp) as HU.
  destruct HC as [(H0 & HP & HL & _)|(H0 & HP & s & g1 & po & el & HS & HL & (A1&A2&A3&A4) & (B1&B2&B3&B4) & _ & _ & _ & _ & M1 & M2)].
  - split; [auto|intros; lra].
  - split; [intros; lra|]. intros _. split; [rewrite HP; reflexivity|].
    rewrite n1_R in A3, B3.
    exists s, g1, po, el. split; [auto|]. split; [auto|]. split; [auto|]. split; [auto|].
    split; [rewrite A2, lepton_name_spec; destruct (Req_EM_T 1 (-1)); [lra|reflexivity]|].
    split; [rewrite B2, lepton_name_spec; destruct (Req_EM_T (-1) (-1)); [reflexivity|lra]|].
    set (en := rlen (p_mom p)) in *.
    assert (G1 : 1 <= s * en -> get_energy po = s * en) by (intros; eapply lepton_energy_from; eauto).
    assert (G2 : 1 <= (1 - s) * en -> get_energy el = (1 - s) * en) by (intros; eapply lepton_energy_from; eauto).
    assert (HD : forall e q, 1 < e -> p_mom q = rscale (sqrt (e * e - 1)) (runit (p_mom p)) -> runit (p_mom q) = runit (p_mom p)).
    { intros e q He HM. rewrite HM. apply runit_pos_scale; auto. apply sqrt_lt_R0. nra. }
    split; [intros; split; [apply G1; lra|eapply HD; eauto]|].
    split; [intros; split; [apply G2; lra|eapply HD; eauto]|].
    intros HA HB. rewrite G1, G2 by auto. ring.
Qed.
Print Assumptions C41_pair_kinematics.

Lemma ex_chi : chi_of ex_field ex_photon = 2.
Proof.
  unfold chi_of, ex_field, static_field. cbn [ex_photon p_mom].
  assert (HL : rlen (v3 4 0 0) = 4) by (apply rlen_of_len2; [lra|]; runf; ring).
  unfold runit. rewrite HL.
  match goal with |- _ * rlen ?w = _ => assert (HW : rlen w = 1) by (apply rlen_of_len2; [lra|]; runf; field) end.
  rewrite HW. lra.
Qed.
(** a photon of energy 4 that really converts, with split 5/8: both members get more than the rest energy *)
Example C41_case : exists p' l' g', interact ex_engine (BreitWheeler ex_bw) ex_photon ex_list tt = Ok (p', l', g') /\
  p_alive p' = false /\ get_energy ex_photon = 4 /\ 0 < chi_of (bw_field ex_bw) ex_photon.
Proof.
  destruct ex_ok as (_ & O2 & _ & O4).
  assert (HE : get_energy ex_photon = 4).
  { unfold get_energy. cbn [ex_photon p_type p_mom]. rewrite mag_R. apply rlen_of_len2; [lra|]; runf; ring. }
  assert (HP0 : p_mom ex_photon <> rzero) by (cbn; apply v3_neq; left; lra).
  destruct (interact_safe ex_engine (BreitWheeler ex_bw) ex_photon ex_list tt O2) as [(p' & l' & g' & HX)|HX].
  - exists p', l', g'. split; [auto|].
    assert (Hc : 0 < chi_of (bw_field ex_bw) ex_photon) by (cbn [ex_bw bw_field]; rewrite ex_chi; lra).
    split; [|split; auto].
    destruct (C41_pair_kinematics ex_engine ex_bw ex_photon ex_list tt p' l' g' eq_refl eq_refl HP0 Hc HX) as (y & _ & _ & HB).
    apply HB. rewrite HE. cbn [ex_bw bw_field bw_dt ex_photon p_depth]. fold ex_photon. rewrite ex_chi.
    pose proof c_alpha_pos. assert (0 < Rpower 10 y) by apply exp_pos.
    assert (0 < c_alpha * 2 * Rpower 10 y / 4 * 1); [|lra].
    rewrite Rmult_1_r. apply Rdiv_lt_0_compat; [|lra]. apply Rmult_lt_0_compat; lra.
  - exfalso. cbn [interact] in HX. apply breit_wheeler_exit in HX; [|exact O2].
    rewrite photon_chi_R in HX by reflexivity. cbn [ex_bw bw_field bw_tab] in HX. rewrite ex_chi in HX.
    apply split_exit_iff in HX; [|exact O2|exact O4|cbn; lia]. cbn in HX.
    assert (ln 2 < ln 10) by (apply ln_increasing; lra). assert (0 < ln 2) by (rewrite <- ln_1; apply ln_increasing; lra).
    assert (ln 2 / ln 10 < 1) by (apply Rmult_lt_reg_r with (ln 10); [lra|]; unfold Rdiv; rewrite Rmult_assoc, Rinv_l by lra; lra). lra.
Qed.

(** ** C42: binary64, any maths library *)
Definition double_between (lo hi : R) (x : spec_float) : Prop :=
  exists b : binary_float 53 1024, x = B2SF b /\ is_finite b = true /\ lo <= B2R b <= hi.
Definition all_nan (v : vec spec_float) : Prop := vx v = S754_nan /\ vy v = S754_nan /\ vz v = S754_nan.

(** a lepton that is given an energy in [0, rest energy) gets the momentum (NaN, NaN, NaN) *)
Lemma momentum_nan : forall (L : Libm) (e : spec_float) (dir : vec spec_float),
  (exists b : binary_float 53 1024, e = B2SF b /\ is_finite b = true /\ 0 <= B2R b < 1) ->
  all_nan (@smul _ (Num_F64 L) (@nsqrt _ (Num_F64 L) (@nsub _ (Num_F64 L) (@nmul _ (Num_F64 L) e e) (@n1 _ (Num_F64 L)))) dir).
Proof.
  intros L e dir (b & -> & HF & HB). unfold all_nan, smul, n1.
  cbn [nsqrt nsub nmul nlit Num_F64]. rewrite (below_rest_energy b HF HB). auto.
Qed.

(** every pair made from a photon of energy below 2 has such a member, whatever the split in [0,1] *)
Theorem C42_pair_below_threshold : forall (L : Libm) (E : Engine spec_float) (c : bw_cfg spec_float) (p : particle spec_float)
    l g p' l' g',
  p_alive p = true -> p_alive p' = false ->
  @interact _ (Num_F64 L) E (BreitWheeler c) p l g = Ok (p', l', g') ->
  (exists b : binary_float 53 1024, @get_energy _ (Num_F64 L) p = B2SF b /\ is_finite b = true /\ 0 <= B2R b < 2) ->
  (forall s g1, @calculate_split _ (Num_F64 L) E (bw_tab c) (@photon_chi _ (Num_F64 L) (bw_field c) p) g = Ok (s, g1) -> double_between 0 1 s) ->
  exists po el, l' = pl_add (pl_add l po) el /\ (all_nan (p_mom po) \/ all_nan (p_mom el)).
Proof.
  intros L E c p l g p' l' g' Ha Hd HX (b & HE & HF & HB) HS. cbn [interact] in HX.
  destruct (@breit_wheeler_pair _ (Num_F64 L) E c p l g p' l' g' HX Ha Hd) as (_ & s & g1 & po & el & HC & HL & _ & _ & M1 & M2).
  destruct (HS s g1 HC) as (sb & Hs & Fs & Bs).
  exists po, el. split; [auto|]. rewrite HE in M1, M2. rewrite M1, M2. subst s.
  destruct (pair_threshold sb b Fs HF Bs HB) as [[F1 B1]|[F1 B1]].
  - left. apply momentum_nan. exists (Bmult mode_NE sb b). split; [apply mul_B|auto].
  - right. apply momentum_nan. exists (Bmult mode_NE (Bminus mode_NE b1 sb) b). split; [|auto].
    rewrite <- mul_B, <- sub_B. reflexivity.
Qed.
Print Assumptions C42_pair_below_threshold.

(** concrete run in binary64: photon of energy 1.5, split 0.5; both members are NaN *)
Definition f_lit (m e : Z) := f64_lit m e.
Definition ex_libm : Libm := Build_Libm (fun x => x) (fun x => x) (fun x => x) (fun _ _ => f_lit 1 0) (fun x => x) (fun x => x) (fun x => x).
Definition ex_engine64 : Engine spec_float := mkEngine _ unit (fun g => (f_lit 5 (-1), g)) (fun n g => ([], g)).
Definition ex_photon64 : particle spec_float :=
  mkP PPhoton "Photon" (f_lit 0 0) (f_lit 0 0) (f_lit 1 0) (f_lit 0 0) (f_lit 0 0) false true
    (mkV (f_lit 0 0) (f_lit 0 0) (f_lit 0 0)) (mkV (f_lit 15 (-1)) (f_lit 0 0) (f_lit 0 0)) [] [] [] [].
Definition ex_bw64 : bw_cfg spec_float :=
  mkBw (fun _ _ => (mkV (f_lit 0 0) (f_lit 0 0) (f_lit 0 0), mkV (f_lit 0 0) (f_lit 1 0) (f_lit 0 0))) (f_lit 1 0) false
    (mkBwT [f_lit (-20) 0; f_lit 20 0] [f_lit 0 0; f_lit 0 0] 2 [f_lit (-50) 0; f_lit 50 0; f_lit 100 0]
       [f_lit 0 0; f_lit 5 (-1); f_lit 1 0] (repeat [f_lit 0 0; f_lit 5 (-1); f_lit 1 0] 3) 3).
Example C42_case : exists p' l' g',
  @interact _ (Num_F64 ex_libm) ex_engine64 (BreitWheeler ex_bw64) ex_photon64 (pl_new "event"%string 10) tt = Ok (p', l', g') /\
  p_alive p' = false /\ map (fun q => vx (p_mom q)) (pl_items l') = [S754_nan; S754_nan] /\
  @get_energy _ (Num_F64 ex_libm) ex_photon64 = f_lit 15 (-1) /\
  @calculate_split _ (Num_F64 ex_libm) ex_engine64 (bw_tab ex_bw64) (@photon_chi _ (Num_F64 ex_libm) (bw_field ex_bw64) ex_photon64) tt = Ok (f_lit 5 (-1), tt).
Proof. eexists _, _, _. split; [vm_compute; reflexivity|]. repeat split; vm_compute; reflexivity. Qed.

(** ** C77: table access *)
Theorem C77_no_undefined_access : forall {T} `{Num T} (E : Engine T) (pr : process T) (p : particle T) l g,
  process_ok pr ->
  (exists p' l' g', interact E pr p l g = Ok (p', l', g')) \/ interact E pr p l g = Exit (-1).
Proof. intros. apply interact_safe; auto. Qed.
Print Assumptions C77_no_undefined_access.

(** exact reals: the program is ended only if an event is sampled beyond the last but one row of its table *)
Theorem C77_exit_beyond_table : forall (E : Engine R) (c : em_cfg R) (p : particle R) l g,
  em_tables_ok (em_tab c) -> increasing (ph_axis (em_tab c)) -> (3 <= length (ph_axis (em_tab c)))%nat ->
  p_type p = PLepton -> 0 < p_mass p -> p_mom p <> rzero -> 0 < eta_of (em_field c) p ->
  interact E (Stochastic c) p l g = Exit (-1) ->
  at_ (ph_axis (em_tab c)) (length (ph_axis (em_tab c)) - 2) < ln (eta_of (em_field c) p) / ln 10.
Proof.
  intros E c p l g HO HI H3 Ht Hm Hp He HX. cbn [interact] in HX. apply stochastic_exit in HX; auto.
  rewrite calculate_eta_R in HX by (repeat split; auto). apply chi_exit_iff in HX; auto.
Qed.
Print Assumptions C77_exit_beyond_table.

Theorem C77_pair_exit_beyond_table : forall (E : Engine R) (c : bw_cfg R) (p : particle R) l g,
  bw_tables_ok (bw_tab c) -> increasing (s_chi (bw_tab c)) -> (3 <= length (s_chi (bw_tab c)))%nat ->
  p_type p = PPhoton -> 0 < chi_of (bw_field c) p ->
  interact E (BreitWheeler c) p l g = Exit (-1) ->
  at_ (s_chi (bw_tab c)) (length (s_chi (bw_tab c)) - 2) < ln (chi_of (bw_field c) p) / ln 10.
Proof.
  intros E c p l g HO HI H3 Ht He HX. cbn [interact] in HX. apply breit_wheeler_exit in HX; auto.
  rewrite photon_chi_R in HX by auto. apply split_exit_iff in HX; auto.
Qed.
Print Assumptions C77_pair_exit_beyond_table.

Example C77_case : process_ok (Stochastic (ex_em 1)) /\ process_ok (BreitWheeler ex_bw) /\
  increasing (ph_axis ex_tab) /\ (3 <= length (ph_axis ex_tab))%nat.
Proof. destruct ex_ok as (A & B & C & _). split; [exact A|]. split; [exact B|]. split; [exact C|]. cbn. lia. Qed.
