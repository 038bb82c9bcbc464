(** * Processes: proofs over the exact reals *)
From Coq Require Import String ZArith Reals Lra Psatz List Bool.
From Verif Require Import Num RNum Outcome OutcomeFacts Vec SpecVec VecFacts VecExtra SpecDyn Units Numerics MCTools Particle ParticleList
  ParticleFacts Fields FieldFacts Pusher PusherFacts Process ProcessFacts.
Import ListNotations.
Local Open Scope R_scope.

Lemma Rpow_pos x y : 0 < x -> 0 < Rpow x y.
Proof.
  intros Hx. unfold Rpow. destruct (Req_EM_T _ _).
  - apply powerRZ_lt; auto.
  - destruct (Rlt_dec 0 x); [apply exp_pos | lra].
Qed.
Lemma Rpow_Rpower x y : 0 < x -> Rpow x y = Rpower x y.
Proof.
  intros Hx. unfold Rpow. destruct (Req_EM_T _ _) as [E|E].
  - rewrite E at 2. rewrite powerRZ_Rpower; auto.
  - destruct (Rlt_dec 0 x); [auto | lra].
Qed.

(** spec side: the invariant field strength of a particle in a field *)
Definition eta_of (fld : field R) (p : particle R) : R :=
  let '(e, b) := fld (p_time p) (p_pos p) in invariant (p_mass p) (p_mom p) e b.
Definition moving_lepton (p : particle R) : Prop := p_type p = PLepton /\ 0 < p_mass p /\ p_mom p <> rzero.
(** expected number of emissions in a step dt: sqrt 3 alpha / (2 pi) eta h / gamma dt *)
Definition emission_number (dt eta h gamma : R) : R := sqrt 3 * c_alpha / (2 * c_pi) * (eta * h / gamma) * dt.

Lemma gamma_R p : p_type p = PLepton -> get_gamma p = lorentz_factor (p_mass p) (p_mom p).
Proof. intros Ht. unfold get_gamma. rewrite Ht. apply gamma_lf. Qed.

Lemma calculate_eta_R fld p : moving_lepton p -> calculate_eta fld p = eta_of fld p.
Proof.
  intros (Ht & Hm & Hp). unfold calculate_eta, eta_of, get_beta, get_direction. rewrite Ht. rewrite gamma_R by auto.
  destruct (fld (p_time p) (p_pos p)) as [e b]. cbv zeta. vmodel. rnum. rewrite Rpow_2.
  pose proof (eta_core (p_mass p) (p_mom p) e b Hm Hp) as HC. cbv zeta in HC.
  rewrite HC. unfold invariant, invariant2.
  pose proof (gamma_pos (p_mass p) (p_mom p) ltac:(lra)) as G.
  set (g := lorentz_factor _ _) in *. set (q := rlen2 _ - _) in *.
  rewrite (Rmult_comm (sqrt q) g). rewrite sqrt_mult_alt by nra. rewrite sqrt_square by lra. reflexivity.
Qed.

(** also at rest, where the direction is the zero vector in exact reals (the program divides 0 by 0, see C131) *)
Lemma calculate_eta_any fld p : p_type p = PLepton -> 0 < p_mass p -> calculate_eta fld p = eta_of fld p.
Proof.
  intros Ht Hm. destruct (Req_dec (rlen2 (p_mom p)) 0) as [Z|Z].
  2:{ apply calculate_eta_R. repeat split; auto. intros E. apply Z. rewrite E. runf. ring. }
  apply rlen2_zero in Z. unfold calculate_eta, eta_of, get_beta, get_direction. rewrite Ht, gamma_R, Z by auto.
  destruct (fld (p_time p) (p_pos p)) as [e b]. cbv zeta. vmodel. rnum. rewrite Rpow_2.
  assert (G : lorentz_factor (p_mass p) rzero = 1).
  { unfold lorentz_factor. replace (1 + rlen2 rzero / (p_mass p * p_mass p)) with 1 by (runf; field; lra). apply sqrt_1. }
  assert (U : runit rzero = rzero) by (unfold runit, rzero; runf; f_equal; ring).
  rewrite U. unfold invariant, invariant2, velocity. rewrite G. rewrite Rmult_1_r. f_equal.
  replace (rscale (/ (p_mass p * 1)) rzero) with rzero by (runf; f_equal; ring). destruct e, b. runf. field.
Qed.

Lemma eta_of_nonneg fld p : 0 <= eta_of fld p.
Proof. unfold eta_of. destruct (fld _ _). apply invariant_nonneg. Qed.

Lemma c_pi_pos : 0 < c_pi.
Proof. unfold c_pi. rlit. lra. Qed.

Lemma emission_depth_R dt eta logh g : 0 < g -> emission_depth dt eta logh g = emission_number dt eta (Rpow 10 logh) g.
Proof. intros Hg. unfold emission_depth, emission_number. rnum. pose proof c_pi_pos. field. lra. Qed.

Lemma chi_pos (E : Engine R) tab eta g chi g1 : calculate_chi E tab eta g = Ok (chi, g1) -> 0 < chi.
Proof.
  unfold calculate_chi. destruct (rand_double E n0 n1 g) as [r g']. intros HX.
  repeat (apply bind_ok in HX; destruct HX as [? [_ HX]]).
  injection HX; intros; subst. rnum. apply Rpow_pos. lra.
Qed.

Lemma photon_tracking (E : Engine R) en x d w t tr g : p_tracking (fst (new_photon_energy E en x d w t tr g)) = tr.
Proof. unfold new_photon_energy, new_particle. destruct (draw_depth E g). reflexivity. Qed.

(** *** stochastic emission, case by case *)
Definition h_lookup (c : em_cfg R) (eta : R) : res R :=
  if Rltb eta (1 / 1000000000000) then Ok (7193 / 10000)
  else interpolate1d (h_axis (em_tab c)) (h_data (em_tab c)) (h_len (em_tab c)) (nlog10 eta).

Lemma stochastic_cases_any (E : Engine R) c p l g p' l' g' :
  p_type p = PLepton -> 0 < p_mass p -> p_alive p = true ->
  stochastic_interact E c p l g = Ok (p', l', g') ->
  exists y, h_lookup c (eta_of (em_field c) p) = Ok y /\
  let eta := eta_of (em_field c) p in
  let gam := lorentz_factor (p_mass p) (p_mom p) in
  let d := emission_number (em_dt c) eta (Rpow 10 y) gam in
  (0 <= p_depth p - d /\ p' = set_depth p (p_depth p - d) /\ l' = l /\ g' = g) \/
  (p_depth p - d < 0 /\ exists chi g1 g2,
     calculate_chi E (em_tab c) eta g = Ok (chi, g1) /\ 0 < chi /\
     let k := 2 * chi * gam / eta in
     p_mom p' = rminus (p_mom p) (rscale k (runit (p_mom p))) /\
     p_depth p' = fst (draw_depth E g2) /\ g' = snd (draw_depth E g2) /\
     ((l' = l /\ (k <= em_eMin c /\ g2 = g1 \/
                  em_eMin c < k /\ fst (e_canon E g1) <= em_frac c /\ g2 = snd (e_canon E g1))) \/
      (exists ph, l' = pl_add l ph /\ em_eMin c < k /\ em_frac c < fst (e_canon E g1) /\ new_photon_like ph /\
         born_at p ph /\
         p_weight ph = p_weight p / em_frac c /\ p_tracking ph = em_track c /\
         p_mom ph = rscale k (runit (runit (rminus (p_mom p) (rscale k (runit (p_mom p))))))))).
Proof.
  intros Ht Hm Ha. unfold stochastic_interact.
  assert (HG : (neqb (p_mass p) n0 || negb (p_alive p))%bool = false).
  { rewrite Ha. rnum. rewrite orb_false_r. apply Reqb_false. lra. }
  rewrite HG. cbv zeta. rewrite calculate_eta_any by auto. intros HX.
  apply bind_ok in HX. destruct HX as [y [HY HX]]. exists y. split.
  { unfold h_lookup. rewrite <- HY. rnum. rlit. reflexivity. }
  assert (HD : p_depth p - emission_number (em_dt c) (eta_of (em_field c) p) (Rpow 10 y) (lorentz_factor (p_mass p) (p_mom p))
     = p_depth (update_depth p (emission_depth (em_dt c) (eta_of (em_field c) p) y (get_gamma p)))).
  { rewrite gamma_R, emission_depth_R by (try apply gamma_pos; auto; lra). reflexivity. }
  set (p1 := update_depth p _) in *.
  assert (HP1 : p1 = set_depth p (p_depth p1)) by reflexivity.
  rewrite HD. clear HD.
  assert (Hlt : nltb (p_depth p1) n0 = Rltb (p_depth p1) 0) by (rnum; reflexivity). rewrite Hlt in HX. clear Hlt.
  destruct (Rltb (p_depth p1) 0) eqn:EL; rdestr.
  2:{ left. injection HX; intros; subst. auto. }
  right. split; [lra|]. apply bind_ok in HX. destruct HX as [[chi g1] [HC HX]]. cbn [fst snd] in HX.
  pose proof (chi_pos _ _ _ _ _ _ HC) as Hchi.
  assert (HM1 : p_mom p1 = p_mom p) by reflexivity.
  assert (HX1 : p_pos p1 = p_pos p) by reflexivity.
  assert (HT1 : p_time p1 = p_time p) by reflexivity.
  assert (HK : ndiv (nmul (nmul n2 chi) (get_gamma p1)) (eta_of (em_field c) p)
     = 2 * chi * lorentz_factor (p_mass p) (p_mom p) / eta_of (em_field c) p).
  { rewrite gamma_R by auto. rewrite HM1. rnum. reflexivity. }
  rewrite HK in HX. set (k := 2 * chi * _ / _) in *.
  assert (HDir : get_direction p1 = runit (p_mom p)) by (unfold get_direction; rewrite vnorm_R; reflexivity).
  rewrite HDir in HX. set (p2 := update_track p1 _ _) in *.
  destruct (update_track_id p1 (p_pos p1) (vsub (p_mom p1) (smul k (runit (p_mom p))))) as (U1 & U2 & U3 & U4 & U5 & U6).
  fold p2 in U1, U2, U3, U4, U5, U6.
  assert (HM2 : p_mom p2 = rminus (p_mom p) (rscale k (runit (p_mom p)))) by (rewrite U5; reflexivity).
  assert (Hlt2 : nltb (em_eMin c) k = Rltb (em_eMin c) k) by reflexivity. rewrite Hlt2 in HX.
  exists chi, g1.
  destruct (Rltb (em_eMin c) k) eqn:EM; rdestr.
  - rewrite rand01 in HX. destruct (e_canon E g1) as [u gu]. cbn [fst snd].
    change (nltb (em_frac c) u) with (Rltb (em_frac c) u) in HX.
    destruct (Rltb (em_frac c) u) eqn:EF; rdestr.
    + pose proof (photon_born E k (p_pos p2) (get_direction p2) (ndiv (p_weight p2) (em_frac c)) (p_time p2) (em_track c) gu) as PB.
      pose proof (photon_tracking E k (p_pos p2) (get_direction p2) (ndiv (p_weight p2) (em_frac c)) (p_time p2) (em_track c) gu) as HT.
      destruct (new_photon_energy E k (p_pos p2) (get_direction p2) (ndiv (p_weight p2) (em_frac c)) (p_time p2) (em_track c) gu) as [ph g3].
      cbn [fst] in PB, HT. unfold init_depth in HX. destruct (draw_depth E g3) as [d g4] eqn:ED. injection HX; intros; subst p' l' g'.
      exists g3. rewrite ED. cbn [fst snd set_depth p_mom p_depth]. 
      split; [auto|]. split; [auto|]. split; [auto|]. split; [auto|]. split; [auto|].
      right. exists ph. destruct PB as (P1 & P2 & P3 & P4 & P5 & P6 & P7 & P8 & P9 & P10).
      split; [auto|]. split; [auto|]. split; [auto|]. split; [auto|].
      split; [repeat split; auto; congruence|]. split; [rewrite P5; destruct U1 as (_&_&_&_&W&_); rewrite W; reflexivity|].
      split; [auto|]. rewrite P10. unfold get_direction. rewrite !vnorm_R, HM2. reflexivity.
    + unfold init_depth in HX. destruct (draw_depth E gu) as [d g4] eqn:ED. injection HX; intros; subst p' l' g'.
      exists gu. rewrite ED. cbn [fst snd set_depth p_mom p_depth].
      split; [auto|]. split; [auto|]. split; [auto|]. split; [auto|]. split; [auto|]. left. split; [auto|]. right. auto.
  - unfold init_depth in HX. destruct (draw_depth E g1) as [d g4] eqn:ED. injection HX; intros; subst p' l' g'.
    exists g1. rewrite ED. cbn [fst snd set_depth p_mom p_depth].
    split; [auto|]. split; [auto|]. split; [auto|]. split; [auto|]. split; [auto|]. left. split; [auto|]. left. auto.
Qed.

Definition stochastic_cases (E : Engine R) c p l g p' l' g' (Hml : moving_lepton p) :=
  stochastic_cases_any E c p l g p' l' g' (proj1 Hml) (proj1 (proj2 Hml)).

(** *** continuous emission *)
Lemma L7193 : Rlit 7193 (-4) = 7193 / 10000.
Proof. rlit. lra. Qed.

Lemma continuous_cases (E : Engine R) c cl p l g p' l' g' :
  moving_lepton p -> p_alive p = true -> 0 <= em_eMin c ->
  continuous_interact E c cl p l g = Ok (p', l', g') ->
  p' = p /\
  (l' = l \/
   exists ph y chi k, l' = pl_add l ph /\ em_eMin c < k /\ fst (e_canon E g) <= em_frac c /\
     (if cl then y = 7193 / 10000 else h_lookup c (eta_of (em_field c) p) = Ok y) /\ 0 < chi /\
     k = 2 * chi * lorentz_factor (p_mass p) (p_mom p) / eta_of (em_field c) p /\
     new_photon_like ph /\ born_at p ph /\ p_tracking ph = em_track c /\
     p_mom ph = rscale k (runit (p_mom p)) /\
     p_weight ph = p_weight p * emission_number (em_dt c) (eta_of (em_field c) p) (Rpow 10 y)
                                  (lorentz_factor (p_mass p) (p_mom p)) / em_frac c).
Proof.
  intros Hml Ha HE HX. split; [eapply continuous_frame; eauto|]. revert HX.
  pose proof Hml as (Ht & Hm & Hp). unfold continuous_interact.
  assert (HG : (neqb (p_mass p) n0 || negb (p_alive p))%bool = false).
  { rewrite Ha. rnum. rewrite orb_false_r. apply Reqb_false. lra. }
  rewrite HG. cbv zeta. rewrite rand01. destruct (e_canon E g) as [u g1]. cbn [fst snd].
  change (nltb (em_frac c) u) with (Rltb (em_frac c) u).
  destruct (Rltb (em_frac c) u) eqn:EF; rdestr; [intros HX; injection HX; auto|].
  rewrite calculate_eta_R by auto. intros HX.
  apply bind_ok in HX. destruct HX as [[[y chi] g2] [HY HX]].
  rewrite gamma_R in HX by auto.
  rewrite emission_depth_R in HX by (apply gamma_pos; lra).
  set (eta := eta_of (em_field c) p) in *. set (gam := lorentz_factor _ _) in *.
  pose proof (eta_of_nonneg (em_field c) p) as He. fold eta in He.
  assert (Hchi : (0 < eta -> 0 < chi) /\ (if cl then y = 7193 / 10000 else h_lookup c eta = Ok y)).
  { unfold h_lookup. revert HY. rnum. 
    replace (Rlit 1 (-12)) with (1 / 1000000000000) by (rlit; lra).
    destruct (Rltb eta (1 / 1000000000000)) eqn:EL; cbn [orb]; intros HY.
    - apply bind_ok in HY. destruct HY as [a0 [_ HY]]. apply bind_ok in HY. destruct HY as [[ch gg] [HC HY]].
      cbn [fst snd] in HY. injection HY; intros; subst. pose proof (chi_pos _ _ _ _ _ _ HC). split; [|destruct cl; rewrite ?L7193; auto].
      intros. apply Rmult_lt_0_compat; [apply Rmult_lt_0_compat; auto|]; apply Rdiv_lt_0_compat; auto; apply exp_pos.
    - destruct cl.
      + apply bind_ok in HY. destruct HY as [a0 [_ HY]]. apply bind_ok in HY. destruct HY as [[ch gg] [HC HY]].
        cbn [fst snd] in HY. injection HY; intros; subst. pose proof (chi_pos _ _ _ _ _ _ HC). split; [|rewrite ?L7193; auto].
        intros. apply Rmult_lt_0_compat; [apply Rmult_lt_0_compat; auto|]; apply Rdiv_lt_0_compat; auto; apply exp_pos.
      + apply bind_ok in HY. destruct HY as [a0 [HA HY]]. apply bind_ok in HY. destruct HY as [[ch gg] [HC HY]].
        cbn [fst snd] in HY. injection HY; intros; subst. pose proof (chi_pos _ _ _ _ _ _ HC). split; auto. }
  destruct Hchi as [Hchi Hy].
  change (nltb (em_eMin c)) with (Rltb (em_eMin c)) in HX.
  replace (ndiv (nmul (nmul n2 chi) gam) eta) with (2 * chi * gam / eta) in HX by (rnum; reflexivity).
  set (k := 2 * chi * gam / eta) in *.
  destruct (Rltb (em_eMin c) k) eqn:EM; rdestr; [|injection HX; auto].
  right.
  match type of HX with context [new_photon_energy E ?a ?b ?c ?d ?e ?f ?g] =>
      pose proof (photon_born E a b c d e f g) as PB; pose proof (photon_tracking E a b c d e f g) as PT;
      destruct (new_photon_energy E a b c d e f g) as [ph g3] end.
  cbn [fst] in PB, PT. injection HX; intros; subst p' l' g'. exists ph, y, chi, k.
  assert (He0 : 0 < eta).
  { destruct (Req_dec eta 0) as [E0|E0]; [|lra]. exfalso. unfold k, Rdiv in EM. rewrite E0, Rinv_0, Rmult_0_r in EM. lra. }
  destruct PB as (P1 & P2 & P3 & P4 & P5 & P6 & P7 & P8 & P9 & P10).
  split; [auto|]. split; [auto|]. split; [auto|]. split; [auto|]. split; [auto|]. split; [auto|]. split; [auto|].
  split; [repeat split; auto|]. split; [auto|]. split.
  - rewrite P10. unfold get_direction. rewrite !vnorm_R, runit_of_unit by (apply rlen2_unit; auto). reflexivity.
  - rewrite P5. reflexivity.
Qed.

(** *** pair creation *)
(** spec side: half the photon energy times the transverse force field it sees *)
Definition chi_of (fld : field R) (p : particle R) : R :=
  let '(e, b) := fld (p_time p) (p_pos p) in
  let d := runit (p_mom p) in
  rlen (p_mom p) / 2 * rlen (rplus (rminus e (rscale (rdot e d) d)) (rcross d b)).

Lemma photon_chi_R fld p : p_type p = PPhoton -> photon_chi fld p = chi_of fld p.
Proof.
  intros Ht. unfold photon_chi, chi_of, get_direction, get_energy. rewrite Ht. destruct (fld _ _) as [e b].
  cbv zeta. vmodel. rnum. rlit. f_equal. lra.
Qed.

Lemma breit_wheeler_cases (E : Engine R) c p l g p' l' g' :
  p_type p = PPhoton -> p_alive p = true -> p_mom p <> rzero ->
  breit_wheeler_interact E c p l g = Ok (p', l', g') ->
  let chi := chi_of (bw_field c) p in
  let en := rlen (p_mom p) in
  exists y, interpolate1d (t_axis (bw_tab c)) (t_data (bw_tab c)) (t_len (bw_tab c)) (ln chi / ln 10) = Ok y /\
  let d := c_alpha * chi * Rpow 10 y / en * bw_dt c in
  (0 <= p_depth p - d /\ p' = set_depth p (p_depth p - d) /\ l' = l /\ g' = g) \/
  (p_depth p - d < 0 /\ p' = kill (set_depth p (p_depth p - d)) /\
   exists s g1 po el, calculate_split E (bw_tab c) chi g = Ok (s, g1) /\ l' = pl_add (pl_add l po) el /\
     new_lepton_like 1 po /\ new_lepton_like (-1) el /\ born_at p po /\ born_at p el /\
     p_weight po = p_weight p /\ p_weight el = p_weight p /\
     p_mom po = rscale (sqrt (s * en * (s * en) - 1)) (runit (p_mom p)) /\
     p_mom el = rscale (sqrt ((1 - s) * en * ((1 - s) * en) - 1)) (runit (p_mom p))).
Proof.
  intros Ht Ha Hp. unfold breit_wheeler_interact. rewrite Ht, Ha. cbn [orb negb]. cbv zeta.
  rewrite photon_chi_R by auto.
  assert (HE : get_energy p = rlen (p_mom p)) by (unfold get_energy; rewrite Ht; apply mag_R).
  intros HX. apply bind_ok in HX. destruct HX as [y [HY HX]]. exists y. split; [exact HY|].
  set (chi := chi_of (bw_field c) p) in *. set (en := rlen (p_mom p)) in *.
  assert (HD : p_depth p - c_alpha * chi * Rpow 10 y / en * bw_dt c
     = p_depth (update_depth p (ndiv (nmul (nmul (nmul (bw_dt c) c_alpha) chi) (npow (nlit 10 0) y)) (get_energy p)))).
  { rewrite HE. unfold update_depth. cbn [set_depth p_depth]. rnum. f_equal. unfold Rdiv. ring. }
  set (p1 := update_depth p _) in *.
  assert (HP1 : p1 = set_depth p (p_depth p1)) by reflexivity.
  rewrite HD. clear HD.
  assert (Hlt : nltb (p_depth p1) n0 = Rltb (p_depth p1) 0) by (rnum; reflexivity). rewrite Hlt in HX. clear Hlt.
  destruct (Rltb (p_depth p1) 0) eqn:EL; rdestr.
  2:{ left. injection HX; intros; subst. auto. }
  right. split; [lra|]. apply bind_ok in HX. destruct HX as [[s g1] [HC HX]]. cbn [fst snd] in HX.
  assert (HE1 : get_energy p1 = en) by exact HE. rewrite HE1 in HX.
  assert (HDir : get_direction p1 = runit (p_mom p)) by (unfold get_direction; rewrite vnorm_R; reflexivity).
  rewrite HDir in HX.
  assert (HX1 : p_pos p1 = p_pos p) by reflexivity.
  assert (HT1 : p_time p1 = p_time p) by reflexivity.
  assert (HW1 : p_weight p1 = p_weight p) by reflexivity.
  rewrite HX1, HT1, HW1 in HX.
  match type of HX with context [new_lepton E n1 n1 ?b ?c ?d ?e ?f ?g] =>
    pose proof (lepton_born E n1 n1 b c d e f g) as PB; destruct (new_lepton E n1 n1 b c d e f g) as [po g2] end.
  match type of HX with context [new_lepton E n1 (nlit (-1) 0) ?b ?c ?d ?e ?f ?g] =>
    pose proof (lepton_born E n1 (nlit (-1) 0) b c d e f g) as EB; destruct (new_lepton E n1 (nlit (-1) 0) b c d e f g) as [el g3] end.
  cbn [fst] in PB, EB. injection HX; intros; subst p' l' g'. split; [rewrite HP1; reflexivity|].
  exists s, g1, po, el.
  destruct PB as (P1&P2&P3&P4&P5&P6&P7&P8&P9&P10&P11&P12&P13).
  destruct EB as (Q1&Q2&Q3&Q4&Q5&Q6&Q7&Q8&Q9&Q10&Q11&Q12&Q13).
  assert (H1 : (n1 : R) = 1) by apply n1_R. assert (Hm1 : (nlit (-1) 0 : R) = -1) by (rewrite nlit_R; apply Rlit_0).
  split; [auto|]. split; [reflexivity|].
  split; [rewrite <- H1; repeat split; auto|]. split; [rewrite <- Hm1; repeat split; auto|].
  split; [repeat split; auto|]. split; [repeat split; auto|]. split; [auto|]. split; [auto|].
  split; [rewrite P9 | rewrite Q9]; rewrite smul_R; rnum; reflexivity.
Qed.

