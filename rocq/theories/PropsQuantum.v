(** * Property C132: stochastic emission with the shipped tables for every eta, and runs with it *)
From Coq Require Import String ZArith Reals Lra Psatz List Bool Ascii Lia.
From Verif Require Import Num RNum Outcome OutcomeFacts Vec SpecVec VecFacts SpecDyn SpecTable Units Numerics NumericsFacts MCTools Particle
  ParticleList ParticleFacts Fields FieldFacts Pusher PusherFacts Process ProcessFacts ProcessRFacts ProcessSafe Text SpecNumeral SpecLoad Tables TablesFacts
  SampleFacts Sim SimFacts SimTime PropsProcess PropsSim PropsLoad PropsSample Shipped ShippedFacts ShippedTables PropsShipped ShippedReal PropsUse
  ShippedSlope CompleteFacts SimClock PropsExample BoundedRun.
Import ListNotations.
Local Open Scope R_scope.

(** draws that a double below one can be: the largest is 1 - 2^-53 = 1 - 1.11e-16 *)
Definition double_draws (E : Engine R) : Prop := forall g, 0 <= fst (e_canon E g) <= 1 - /10000000000000000.

Lemma chi_half (E : Engine R) path t eta g chi g' : with_emission_tables path t -> double_draws E -> 0 < eta ->
  calculate_chi E t eta g = Ok (chi, g') -> 0 < chi <= eta / 2.
Proof.
  intros HT HU He HC. split; [eapply chi_pos; eauto|]. destruct (Rle_dec eta (1/100000)) as [L|L].
  - eapply low_chi; eauto.
  - eapply shipped_chi; eauto; [|lra]. intros g0. specialize (HU g0). lra.
Qed.

(** ** One call *)
(** the photon takes at most the emitter's energy, however small eta is *)
Theorem C132_photon_energy : forall (E : Engine R) path c p l g p' l' g',
  with_emission_tables path (em_tab c) -> double_draws E ->
  p_type p = PLepton -> 0 < p_mass p -> p_alive p = true -> 0 < eta_of (em_field c) p ->
  interact E (Stochastic c) p l g = Ok (p', l', g') ->
  exists k, 0 <= k <= lorentz_factor (p_mass p) (p_mom p) /\
    p_mom p' = rminus (p_mom p) (rscale k (runit (p_mom p))) /\
    (l' = l \/ exists ph, l' = pl_add l ph /\ p_type ph = PPhoton /\ get_energy ph <= lorentz_factor (p_mass p) (p_mom p)).
Proof.
  intros E path c p l g p' l' g' HT HU Ht Hm Ha He HI.
  destruct (stochastic_cases_any E c p l g p' l' g' Ht Hm Ha HI) as (y & HY & HC). cbv zeta in HC.
  set (gam := lorentz_factor (p_mass p) (p_mom p)) in *. set (eta := eta_of (em_field c) p) in *.
  assert (HG : 0 < gam) by (apply gamma_pos; lra).
  destruct HC as [(_ & HP & HLl & _)|(_ & chi & g1 & g2 & HC & Hchi & HM & _ & _ & HLl)].
  - exists 0. split; [lra|]. split; [|now left]. rewrite HP. cbn [set_depth p_mom]. destruct (p_mom p); runf; f_equal; ring.
  - pose proof (chi_half E path (em_tab c) eta g chi g1 HT HU He HC) as [_ HB].
    assert (K : 0 <= 2 * chi * gam / eta <= gam).
    { split.
      - apply Rlt_le. apply Rdiv_lt_0_compat; nra.
      - apply Rmult_le_reg_r with eta; [exact He|]. unfold Rdiv. rewrite Rmult_assoc, Rinv_l by lra. nra. }
    exists (2 * chi * gam / eta). split; [exact K|]. split; [exact HM|].
    destruct HLl as [[-> _]|(ph & HLl & _ & _ & NP & _ & _ & _ & PM)]; [now left|right].
    destruct NP as (T1 & _). exists ph. split; [exact HLl|]. split; [exact T1|].
    unfold get_energy. rewrite T1, mag_R, PM, rlen_scale, Rabs_right by lra.
    pose proof (rlen_unit_le (runit (rminus (p_mom p) (rscale (2 * chi * gam / eta) (runit (p_mom p)))))).
    pose proof (sqrt_pos (rlen2 (runit (runit (rminus (p_mom p) (rscale (2 * chi * gam / eta) (runit (p_mom p)))))))) as P.
    fold (rlen (runit (runit (rminus (p_mom p) (rscale (2 * chi * gam / eta) (runit (p_mom p))))))) in P. nra.
Qed.
Print Assumptions C132_photon_energy.

(** taking away at most the energy along the momentum leaves at most the old momentum, or one (in units of m c) *)
Lemma recoil_le p k : 0 <= k <= lorentz_factor 1 p -> rlen (rminus p (rscale k (runit p))) <= Rmax (rlen p) 1.
Proof.
  intros [K1 K2]. destruct (Req_dec (rlen2 p) 0) as [Z|Z].
  - apply rlen2_zero in Z. subst p. replace (rminus rzero (rscale k (runit rzero))) with rzero by (unfold runit; runf; f_equal; ring).
    apply Rmax_l.
  - assert (NZ : p <> rzero) by (intros ->; apply Z; runf; ring).
    assert (E : rminus p (rscale k (runit p)) = rscale (rlen p - k) (runit p)).
    { rewrite (runit_eq p NZ) at 1. generalize (rlen p) (runit p). intros a u. destruct u; runf; f_equal; ring. }
    rewrite E, rlen_scale, rlen_unit, Rmult_1_r by auto. pose proof (rlen_nonneg p) as P.
    assert (G : lorentz_factor 1 p <= rlen p + 1).
    { unfold lorentz_factor. rewrite <- (rlen_sq p). apply Rle_trans with (sqrt ((rlen p + 1) * (rlen p + 1))); [apply sqrt_le_1_alt; nra|].
      rewrite sqrt_square by lra. lra. }
    apply Rabs_le. pose proof (Rmax_l (rlen p) 1). pose proof (Rmax_r (rlen p) 1). lra.
Qed.

Theorem C132_momentum_after_emission : forall (E : Engine R) path c p l g p' l' g',
  with_emission_tables path (em_tab c) -> double_draws E ->
  p_type p = PLepton -> p_mass p = 1 -> p_alive p = true -> 0 < eta_of (em_field c) p ->
  interact E (Stochastic c) p l g = Ok (p', l', g') -> rlen (p_mom p') <= Rmax (rlen (p_mom p)) 1.
Proof.
  intros E path c p l g p' l' g' HT HU Ht Hm Ha He HI.
  destruct (C132_photon_energy E path c p l g p' l' g' HT HU Ht ltac:(lra) Ha He HI) as (k & HK & -> & _).
  apply recoil_le. rewrite Hm in HK. exact HK.
Qed.
Print Assumptions C132_momentum_after_emission.

(** ** Bounds along a run *)
Definition field_within (A B : R) (f : field R) : Prop := forall t x, rlen (fst (f t x)) <= A /\ rlen (snd (f t x)) <= B.

Lemma rcross_len a b : rlen (rcross a b) <= rlen a * rlen b.
Proof.
  unfold rlen. rewrite <- sqrt_mult_alt by apply rlen2_nonneg. apply sqrt_le_1_alt.
  assert (I : rlen2 (rcross a b) = rlen2 a * rlen2 b - rdot a b * rdot a b) by (destruct a, b; runf; ring).
  rewrite I. pose proof (Rle_0_sqr (rdot a b)) as Q. unfold Rsqr in Q. lra.
Qed.
Lemma lorentz_len m q p e b A B : m <> 0 -> Rabs q <= 1 -> rlen e <= A -> rlen b <= B -> rlen (lorentz m q p e b) <= A + B.
Proof.
  intros Hm Hq He Hb. unfold lorentz. rewrite rlen_scale. pose proof (rlen_nonneg e). pose proof (rlen_nonneg b).
  pose proof (triangle e (rcross (velocity m p) b)) as T. pose proof (rcross_len (velocity m p) b) as C.
  pose proof (vel_len_lt m p Hm) as V. pose proof (rlen_nonneg (velocity m p)). pose proof (Rabs_pos q).
  pose proof (rlen_nonneg (rplus e (rcross (velocity m p) b))). assert (rlen (rplus e (rcross (velocity m p) b)) <= A + B) by nra. nra.
Qed.
Lemma rk4_mean_le a b c d F : rlen a <= F -> rlen b <= F -> rlen c <= F -> rlen d <= F -> rlen (rk4_mean a b c d) <= 6 * F.
Proof.
  intros. rewrite rk4_mean_R.
  pose proof (triangle (rplus (rplus a (rscale 2 b)) (rscale 2 c)) d).
  pose proof (triangle (rplus a (rscale 2 b)) (rscale 2 c)).
  pose proof (triangle a (rscale 2 b)).
  rewrite !rlen_scale in *. rewrite !(Rabs_pos_eq 2) in * by lra. lra.
Qed.

(** a push of the Lorentz pusher changes the momentum by at most dt (A + B) *)
Lemma push_len fld dt A B (p : particle R) : field_within A B fld -> 0 <= dt -> p_alive p = true -> p_mass p <> 0 -> Rabs (p_charge p) <= 1 ->
  rlen (p_mom (push_particle lorentz_force fld dt p)) <= rlen (p_mom p) + dt * (A + B).
Proof.
  intros HF Hdt Ha Hm Hq. destruct (push_massive lorentz_force fld dt p Ha Hm) as (_ & -> & _).
  unfold rk4_step.
  do 4 match goal with |- context [match fld ?t ?x with pair _ _ => _ end] =>
    let Q := fresh "Q" in pose proof (HF t x) as Q; destruct (fld t x); cbn [fst snd] in Q end. cbn [snd].
  rewrite !lorentz_force_R.
  match goal with |- context [rk4_mean ?a ?b ?c ?d] =>
    assert (HL : rlen (rk4_mean a b c d) <= 6 * (A + B)) by (apply rk4_mean_le; apply lorentz_len; tauto);
    set (k := rk4_mean a b c d) in * end.
  clearbody k. rewrite vadd_R, smul_R. rnum. eapply Rle_trans; [apply triangle|]. rewrite rlen_scale, Rabs_pos_eq by lra. nra.
Qed.

(** eta is at most gamma times the fields *)
Lemma eta_le fld A B p : field_within A B fld -> 0 < p_mass p ->
  eta_of fld p <= lorentz_factor (p_mass p) (p_mom p) * (A + B).
Proof.
  intros HF Hm. unfold eta_of. pose proof (HF (p_time p) (p_pos p)) as [HE HB]. destruct (fld (p_time p) (p_pos p)) as [e b]. cbn [fst snd] in *.
  pose proof (gamma_pos (p_mass p) (p_mom p) ltac:(lra)) as G. set (g := lorentz_factor (p_mass p) (p_mom p)) in *.
  set (v := velocity (p_mass p) (p_mom p)). pose proof (vel_len_lt (p_mass p) (p_mom p) ltac:(lra)) as V. fold v in V.
  pose proof (rlen_nonneg v). pose proof (rlen_nonneg e). pose proof (rlen_nonneg b).
  assert (F : rlen (rplus e (rcross v b)) <= A + B).
  { pose proof (triangle e (rcross v b)). pose proof (rcross_len v b). nra. }
  pose proof (rlen_nonneg (rplus e (rcross v b))).
  unfold invariant, invariant2. fold v g. cbv zeta. rewrite <- (rlen_sq (rplus e (rcross v b))).
  apply Rle_trans with (sqrt ((g * (A + B)) * (g * (A + B)))); [apply sqrt_le_1_alt|rewrite sqrt_square by nra; lra].
  pose proof (Rle_0_sqr (rdot v e)) as Q. unfold Rsqr in Q. set (f := rlen (rplus e (rcross v b))) in *.
  assert (f * f <= (A + B) * (A + B)) by nra. replace (g * (A + B) * (g * (A + B))) with (g * g * ((A + B) * (A + B))) by ring.
  apply Rmult_le_compat_l; [nra|lra].
Qed.
Lemma gamma_mono p M : rlen p <= M -> lorentz_factor 1 p <= sqrt (1 + M * M).
Proof.
  intros H. unfold lorentz_factor. apply sqrt_le_1_alt. rewrite <- (rlen_sq p). pose proof (rlen_nonneg p).
  replace (1 * 1) with 1 by ring. unfold Rdiv. rewrite Rinv_1, Rmult_1_r. nra.
Qed.

(** ** Runs *)
(** an emission process (any of the three kinds) with the shipped tables in a field within the bounds *)
Definition shipped_emission (path : string) (A B : R) (pr : process R) : Prop :=
  match pr with
  | Stochastic c | Continuous c _ => with_emission_tables path (em_tab c) /\ field_within A B (em_field c) /\ 0 <= em_dt c
  | BreitWheeler _ => False
  end.
(** a particle of the list: a photon, or an electron or positron with a momentum up to M and an optical depth that is not negative *)
Definition slower (M : R) (p : particle R) : Prop :=
  p_mass p = 0 \/ (p_type p = PLepton /\ p_mass p = 1 /\ Rabs (p_charge p) <= 1 /\ 0 <= p_depth p /\ rlen (p_mom p) <= M).

Lemma chi_returns (E : Engine R) path t eta g : with_emission_tables path t -> log10 eta <= 31/33 -> exists r, calculate_chi E t eta g = Ok r.
Proof.
  intros HT He. pose proof (shipped_em_ok path _ HT) as OK.
  destruct (C124_sampling_table path t HT) as ((_ & _ & _ & INC & _) & _ & _ & A98 & _).
  destruct HT as (disk & junk & jl & HA & HL). destruct (em_real path disk junk jl _ HA HL) as [_ (_ & _ & L & _)].
  destruct (chi_safe E t eta g OK) as [(chi & g1 & HC)|HC]; [eauto|]. exfalso.
  apply chi_exit_iff in HC; auto; [|lia]. rewrite L in HC. change (100 - 2)%nat with 98%nat in HC. rewrite A98 in HC.
  change (ln eta / ln 10) with (log10 eta) in HC. lra.
Qed.
Lemma log10_869 eta : 0 < eta <= 869/100 -> log10 eta <= 31/33.
Proof.
  intros He. replace (31/33) with (INR 31 / INR 33) by (rewrite !INR_IZR_INZ; cbn [Z.of_nat]; f_equal).
  apply Rle_trans with (log10 (869/100)); [apply log10_le; lra|]. apply log10_le_frac; [lra|lia|]. cbn [pow]. lra.
Qed.
Lemma draw_nonneg (E : Engine R) g : double_draws E -> 0 <= fst (draw_depth E g).
Proof.
  intros HU. specialize (HU g). unfold draw_depth. rewrite rand01. destruct (e_canon E g) as [u g1]. cbn [fst] in *. unfold depth_of_draw. rnum. rlit.
  assert (ln (1 - u) <= 0); [|lra]. destruct (Req_dec u 0) as [->|NE]; [replace (1 - 0) with 1 by ring; rewrite ln_1; lra|].
  rewrite <- ln_1. apply Rlt_le, ln_increasing; lra.
Qed.

Lemma stochastic_bound (E : Engine R) path c p l g A B M : with_emission_tables path (em_tab c) -> field_within A B (em_field c) -> 0 <= em_dt c ->
  double_draws E -> 1 <= M -> sqrt (1 + M * M) * (A + B) <= 869/100 -> slower M p ->
  exists p' l' g' news, stochastic_interact E c p l g = Ok (p', l', g') /\ slower M p' /\ l' = add_all news l /\ Forall (fun x => p_mass x = 0) news.
Proof.
  intros HT HF Hdt HU HM HB HS.
  assert (HA : 0 <= A /\ 0 <= B).
  { destruct (HF 0 rzero) as [Q1 Q2]. pose proof (rlen_nonneg (fst (em_field c 0 rzero))). pose proof (rlen_nonneg (snd (em_field c 0 rzero))). lra. }
  destruct HS as [Z|(Ht & Hm & Hq & Hd & Hp)].
  { exists p, l, g, []. unfold stochastic_interact. replace (neqb (p_mass p) n0) with true by (symmetry; rnum; apply Reqb_true; auto).
    cbn [orb]. split; [reflexivity|]. split; [left; auto|]. split; [reflexivity|constructor]. }
  destruct (p_alive p) eqn:Ha.
  2:{ exists p, l, g, []. unfold stochastic_interact. rewrite Ha. cbn [negb]. rewrite orb_true_r. split; [reflexivity|]. split; [right; auto|]. split; [reflexivity|constructor]. }
  pose proof (eta_of_nonneg (em_field c) p) as E0. pose proof (eta_le (em_field c) A B p HF ltac:(lra)) as E1.
  rewrite Hm in E1. pose proof (gamma_mono (p_mom p) M Hp) as G. pose proof (gamma_pos 1 (p_mom p) ltac:(lra)) as G0.
  assert (E2 : eta_of (em_field c) p <= 869/100) by nra. set (eta := eta_of (em_field c) p) in *.
  destruct (h_value path c eta HT ltac:(lra)) as (y & HY & _).
  assert (HI : exists r, stochastic_interact E c p l g = Ok r).
  { unfold stochastic_interact. rewrite Ha. replace (neqb (p_mass p) n0) with false by (symmetry; rnum; apply Reqb_false; lra).
    cbn [negb orb]. cbv zeta. rewrite calculate_eta_any by (auto; lra). fold eta. unfold h_lookup in HY.
    replace (nltb eta (nlit 1 (-12))) with (Rltb eta (1 / 1000000000000)) by (rnum; rlit; reflexivity).
    replace (nlit (T := R) 7193 (-4)) with (7193 / 10000) by (rnum; rlit; lra). rewrite HY. cbn [bind].
    destruct (nltb _ _) eqn:EL; [|eauto].
    assert (NZ : 0 < eta).
    { destruct (Req_dec eta 0) as [Z|Z]; [exfalso|lra]. revert EL. unfold update_depth. cbn [set_depth p_depth]. unfold emission_depth. rewrite Z. rnum.
      intros EL. rdestr. revert EL. match goal with |- ?a - ?b < 0 -> False => assert (b = 0) as -> by (unfold Rdiv; ring) end. lra. }
    destruct (chi_returns E path (em_tab c) eta g HT (log10_869 eta ltac:(lra))) as [[chi g1] ->]. cbn [bind].
    destruct (if nltb (em_eMin c) _ then _ else _) as [keep g2]. destruct keep.
    - destruct (new_photon_energy _ _ _ _ _ _ _ _) as [ph g3]. destruct (init_depth E _ g3) as [p4 g4]. eauto.
    - destruct (init_depth E _ g2) as [p4 g4]. eauto. }
  destruct HI as [[[p' l'] g'] HI]. exists p', l', g'.
  destruct (interact_shape E (Stochastic c) p l g p' l' g' HI) as ((S1 & S2 & S3 & S4 & _) & _ & _ & _ & news & HN & BR).
  exists news. split; [exact HI|].
  assert (NP : Forall (fun x => p_mass x = 0) news).
  { destruct BR as [_ [[-> _]|[(ph & -> & P & _)|(q1 & q2 & _ & _ & _ & _ & _ & PT & _)]]]; [constructor| |congruence].
    constructor; [|constructor]. destruct P as (_ & _ & P & _). rewrite P. rnum. reflexivity. }
  split; [|split; [exact HN|exact NP]]. right. rewrite S1, S3, S4. split; [auto|]. split; [auto|]. split; [auto|].
  destruct (stochastic_cases_any E c p l g p' l' g' Ht ltac:(lra) Ha HI) as (y' & HY' & HC). cbv zeta in HC.
  destruct HC as [(D & -> & _)|(D & chi & g1 & g2 & _ & _ & _ & D' & _)].
  - cbn [set_depth p_depth p_mom]. auto.
  - split; [rewrite D'; now apply draw_nonneg|].
    assert (NZ : 0 < eta_of (em_field c) p).
    { destruct (Req_dec (eta_of (em_field c) p) 0) as [Z|Z]; [exfalso|fold eta; fold eta in Z; lra]. rewrite Z in D. unfold emission_number in D.
      revert D. match goal with |- ?a - ?b < 0 -> False => assert (b = 0) as -> by (unfold Rdiv; ring) end. lra. }
    eapply Rle_trans; [eapply C132_momentum_after_emission; eauto|]. apply Rmax_lub; auto.
Qed.

Lemma continuous_bound (E : Engine R) path c cl p l g A B M : with_emission_tables path (em_tab c) -> field_within A B (em_field c) ->
  sqrt (1 + M * M) * (A + B) <= 869/100 -> slower M p ->
  exists p' l' g' news, continuous_interact E c cl p l g = Ok (p', l', g') /\ slower M p' /\ l' = add_all news l /\ Forall (fun x => p_mass x = 0) news.
Proof.
  intros HT HF HB HS.
  assert (HA : 0 <= A /\ 0 <= B).
  { destruct (HF 0 rzero) as [Q1 Q2]. pose proof (rlen_nonneg (fst (em_field c 0 rzero))). pose proof (rlen_nonneg (snd (em_field c 0 rzero))). lra. }
  assert (HI : exists r, continuous_interact E c cl p l g = Ok r).
  { unfold continuous_interact. destruct HS as [Z|(Ht & Hm & Hq & Hd & Hp)].
    { replace (neqb (p_mass p) n0) with true by (symmetry; rnum; apply Reqb_true; auto). cbn [orb]. eauto. }
    destruct (_ || _)%bool; [eauto|]. destruct (rand_double E n0 n1 g) as [r g1]. destruct (nltb _ _); [eauto|]. cbv zeta.
    rewrite calculate_eta_any by (auto; lra).
    pose proof (eta_of_nonneg (em_field c) p) as E0. pose proof (eta_le (em_field c) A B p HF ltac:(lra)) as E1.
    rewrite Hm in E1. pose proof (gamma_mono (p_mom p) M Hp) as G. pose proof (gamma_pos 1 (p_mom p) ltac:(lra)) as G0.
    assert (E2 : eta_of (em_field c) p <= 869/100) by nra. set (eta := eta_of (em_field c) p) in *.
    replace (nltb eta (nlit 1 (-12))) with (Rltb eta (1 / 1000000000000)) by (rnum; rlit; reflexivity).
    match goal with |- exists r, bind ?a _ = _ => assert (HL : exists x, a = Ok x) end.
    { destruct (_ || _)%bool eqn:EO.
      - rewrite (h_first path c HT). cbn [bind].
        destruct (chi_returns E path (em_tab c) (nexp (-5)) g1 HT) as [[chi g2] ->]; [|cbn [bind]; eauto].
        unfold log10. rnum. rewrite ln_exp. pose proof ln10_pos. assert (0 < / ln 10) by (now apply Rinv_0_lt_compat). unfold Rdiv. nra.
      - apply orb_false_iff in EO. destruct EO as [EL _]. rdestr.
        destruct (h_value path c eta HT ltac:(lra)) as (y & HY & _). unfold h_lookup in HY.
        replace (Rltb eta (1 / 1000000000000)) with false in HY by (symmetry; apply Rltb_false; lra). rewrite HY. cbn [bind].
        destruct (chi_returns E path (em_tab c) eta g1 HT (log10_869 eta ltac:(lra))) as [[chi g2] ->]. cbn [bind]. eauto. }
    destruct HL as [[[y chi] g2] ->]. cbn [bind]. destruct (nltb _ _); [|eauto]. destruct (new_photon_energy E _ _ _ _ _ _ _). eauto. }
  destruct HI as [[[p' l'] g'] HI]. exists p', l', g'.
  destruct (continuous_frame E c cl p l g p' l' g' HI) as [-> [->|(ph & -> & P & _)]].
  - exists []. auto.
  - exists [ph]. split; [exact HI|]. split; [auto|]. split; [reflexivity|]. constructor; [|constructor]. destruct P as (_ & _ & P & _). rewrite P. rnum. reflexivity.
Qed.

Section Run.
Variable E : Engine R.
Variable w : world R.
Variables (path : string) (A B P : R) (N : nat).
Hypothesis HU : double_draws E.
Hypothesis HL : w_force w = lorentz_force.
Hypothesis HF : field_within A B (w_field w).
Hypothesis HD : 0 <= w_dt w.
Hypothesis HPr : forall pr, In pr (w_procs w) -> shipped_emission path A B pr.
Notation bound n := (Rmax P 1 + INR n * (w_dt w * (A + B))).
Hypothesis HB : sqrt (1 + bound N * bound N) * (A + B) <= 869/100.

Lemma fields_nonneg : 0 <= A /\ 0 <= B.
Proof.
  destruct (HF 0 rzero) as [Q1 Q2]. pose proof (rlen_nonneg (fst (w_field w 0 rzero))). pose proof (rlen_nonneg (snd (w_field w 0 rzero))). lra.
Qed.
Lemma bound_one n : 1 <= bound n.
Proof.
  pose proof fields_nonneg. pose proof (Rmax_r P 1). pose proof (pos_INR n). assert (0 <= w_dt w * (A + B)) by nra. nra.
Qed.
Lemma bound_mono n : (n <= N)%nat -> sqrt (1 + bound n * bound n) * (A + B) <= 869/100.
Proof.
  intros Hn. pose proof fields_nonneg as F. eapply Rle_trans; [|exact HB]. apply Rmult_le_compat_r; [lra|]. apply sqrt_le_1_alt.
  pose proof (bound_one n). pose proof (le_INR n N Hn). assert (0 <= w_dt w * (A + B)) by nra. assert (bound n <= bound N) by nra. nra.
Qed.
Lemma lorentz_keeps : push_keeps_bound w N (fun n => slower (bound n)).
Proof.
  intros n p Hn HS. rewrite HL. pose proof fields_nonneg as F. assert (DF : 0 <= w_dt w * (A + B)) by nra.
  destruct (PusherFacts.push_keeps lorentz_force (w_field w) (w_dt w) p) as (K1 & K2 & K3 & K4 & K5 & K6 & K7 & K8).
  destruct HS as [Z|(Ht & Hm & Hq & Hd & Hp)]; [left; congruence|right].
  split; [congruence|]. split; [congruence|]. split; [congruence|].
  rewrite S_INR. destruct (p_alive p) eqn:Ha.
  - split; [congruence|]. pose proof (push_len (w_field w) (w_dt w) A B p HF HD Ha ltac:(lra) Hq). lra.
  - rewrite push_dead by exact Ha. split; [exact Hd|]. lra.
Qed.
Lemma emission_keeps : process_keeps_bound E w N (fun n => slower (bound n)).
Proof.
  intros n pr p l g Hn HIn HS. specialize (HPr pr HIn).
  assert (K : exists p' l' g' news, interact E pr p l g = Ok (p', l', g') /\ slower (bound (S n)) p' /\ l' = add_all news l /\ Forall (fun x => p_mass x = 0) news).
  { destruct pr as [c|c cl|c]; cbn [shipped_emission interact] in *; [| |contradiction]; destruct HPr as (H1 & H2 & H3).
    - eapply stochastic_bound; eauto; [apply bound_one|apply bound_mono; lia].
    - eapply continuous_bound; eauto. apply bound_mono. lia. }
  destruct K as (p' & l' & g' & news & K1 & K2 & K3 & K4). exists p', l', g', news. split; [exact K1|]. split; [exact K2|]. split; [exact K3|].
  eapply Forall_impl; [|exact K4]. intros x Hx m. now left.
Qed.
End Run.

(** Electrons, positrons and photons with momenta up to P under the Lorentz pusher and emission processes with the shipped tables, in fields up to A
    and B: if sqrt (1 + p^2) (A + B) <= 8.69 for the largest momentum p = max P 1 + N dt (A + B) that the fields can give in N steps,
    the run of N steps completes (no process ends the program), and no momentum exceeds that bound.  The histograms may be filled in any way that itself returns.  Exact reals; a particle at rest has direction zero here, the program's is NaN and
    then takes no further part (C131). *)
Theorem C132_run_completes : forall (E : Engine R) (w : world R) path A B P N,
  double_draws E -> w_force w = lorentz_force -> field_within A B (w_field w) -> 0 <= w_dt w ->
  (forall pr, In pr (w_procs w) -> shipped_emission path A B pr) ->
  let pmax := Rmax P 1 + INR N * (w_dt w * (A + B)) in sqrt (1 + pmax * pmax) * (A + B) <= 869/100 ->
  forall (S : Type) htimes fill (good : S -> Prop), fills_well S htimes fill good ->
  forall tEnd l g h, wf l -> Forall (slower P) (pl_items l) -> good h -> tEnd <= INR N * w_dt w ->
  forall fuel, (N <= fuel)%nat ->
  exists s', run_event E w htimes fill fuel tEnd l g h = Ok s' /\ good (st_hist _ s') /\
    forall p, In p (pl_items (st_ev _ s')) -> p_mass p = 0 \/ rlen (p_mom p) <= pmax.
Proof.
  intros E w path A B P N HU HL HF HD HPr pmax HB S htimes fill good HW tEnd l g h Hwf HS HG HT fuel HN.
  pose proof (fields_nonneg w A B HF) as FN. assert (DF : 0 <= w_dt w * (A + B)) by nra.
  destruct (run_bound E w N (fun n => slower (Rmax P 1 + INR n * (w_dt w * (A + B)))) (lorentz_keeps w A B P N HL HF HD)
     (emission_keeps E w path A B P N HU HF HD HPr HB) S htimes fill good HW tEnd l g h Hwf) with (fuel := fuel) as (s' & b & HX & HG' & Hb & HQ); auto.
  - eapply Forall_impl; [|exact HS]. intros p [Z|(H1 & H2 & H3 & H4 & H5)]; [now left|right]. repeat (split; [assumption|]). cbn [INR].
    pose proof (Rmax_l P 1). lra.
  - rnum. apply Rltb_false. rewrite clock_R. lra.
  - exists s'. split; [exact HX|]. split; [exact HG'|]. intros p HIn. rewrite Forall_forall in HQ. destruct (HQ p HIn) as [Z|(_ & _ & _ & _ & H5)]; [now left|right].
    pose proof (le_INR b N Hb). unfold pmax. nra.
Qed.
Print Assumptions C132_run_completes.

(** an electron of momentum 1000 across a field of one thousandth (eta = 1), all three emission processes, 100 steps *)
Definition across_field : field R := fun _ _ => (v3 0 (1/1000) 0, rzero).
Definition across_world (t : em_tables R) : world R :=
  let c := mkEm across_field 10 1 0 false t in mkWorld lorentz_force across_field 10 [Stochastic c; Continuous c false; Continuous c true].
Example C132_case : exists t, with_emission_tables "Tables" t /\ double_draws neg_engine /\ field_within (1/1000) 0 across_field /\
  (forall pr, In pr (w_procs (across_world t)) -> shipped_emission "Tables" (1/1000) 0 pr) /\
  0 < eta_of across_field fast_electron /\
  exists s, run_event neg_engine (across_world t) [] (fun _ _ _ (x : unit) => Ok x) 100 1000 (pl_add (pl_new "event" 10) fast_electron) tt tt = Ok s.
Proof.
  destruct (have_emission_tables (T := R)) as (t & HT). exists t. split; [exact HT|].
  assert (HU : double_draws neg_engine) by (intros g; cbn; lra).
  assert (L1 : rlen (v3 0 (1/1000) 0) = 1/1000).
  { replace (v3 0 (1/1000) 0) with (rscale (1/1000) (v3 0 1 0)) by (runf; f_equal; ring). rewrite rlen_scale, Rabs_pos_eq by lra.
    assert (rlen (v3 0 1 0) = 1) as ->; [|lra]. unfold rlen. replace (rlen2 (v3 0 1 0)) with 1 by (runf; ring). apply sqrt_1. }
  assert (L0 : rlen rzero = 0) by (unfold rlen; replace (rlen2 rzero) with 0 by (runf; ring); apply sqrt_0).
  assert (HF : field_within (1/1000) 0 across_field) by (intros u x; cbn [across_field fst snd]; rewrite L1, L0; lra).
  assert (HP : forall pr, In pr (w_procs (across_world t)) -> shipped_emission "Tables" (1/1000) 0 pr).
  { intros pr. cbn [across_world w_procs In]. intros [<-|[<-|[<-|[]]]]; cbn [shipped_emission em_tab em_field em_dt]; (split; [exact HT|split; [exact HF|lra]]). }
  split; [exact HU|]. split; [exact HF|]. split; [exact HP|].
  assert (LP : rlen (p_mom fast_electron) <= 1000).
  { cbn [fast_electron p_mom]. unfold rlen. replace (rlen2 (v3 1000 0 0)) with (1000 * 1000) by (runf; ring). rewrite sqrt_square; lra. }
  assert (HB : let pmax := Rmax 1000 1 + INR 100 * (10 * (1/1000 + 0)) in sqrt (1 + pmax * pmax) * (1/1000 + 0) <= 869/100).
  { cbv zeta. rewrite Rmax_left by lra. rewrite INR_IZR_INZ. cbn [Z.of_nat Pos.of_succ_nat Pos.succ].
    apply Rle_trans with (sqrt (2000 * 2000) * (1/1000 + 0)); [apply Rmult_le_compat_r; [lra|]; apply sqrt_le_1_alt; lra|]. rewrite sqrt_square; lra. }
  split.
  - unfold eta_of, invariant. cbn [across_field fast_electron p_mom p_mass]. apply sqrt_lt_R0. unfold invariant2. cbv zeta.
    assert (X : rdot (velocity 1 (v3 1000 0 0)) (v3 0 (1/1000) 0) = 0) by (unfold velocity; runf; ring). rewrite X.
    replace (rplus (v3 0 (1/1000) 0) (rcross (velocity 1 (v3 1000 0 0)) rzero)) with (v3 0 (1/1000) 0) by (generalize (velocity 1 (v3 1000 0 0)); intros []; runf; f_equal; ring).
    rewrite <- rlen_sq, L1. pose proof (gamma_pos 1 (v3 1000 0 0) ltac:(lra)). nra.
  - destruct (C132_run_completes neg_engine (across_world t) "Tables" (1/1000) 0 1000 100 HU eq_refl HF ltac:(cbn; lra) HP HB
      unit [] (fun _ _ _ x => Ok x) (fun _ => True) ltac:(intros i u ps x _ _; exists x; auto) 1000 (pl_add (pl_new "event" 10) fast_electron) tt tt) with (fuel := 100%nat)
      as (s & HS & _); auto.
    + unfold wf. vm_compute. discriminate.
    + constructor; [|constructor]. right. repeat (split; [reflexivity|]). split; [cbn; apply Rabs_le; lra|]. split; [cbn; lra|exact LP].
    + cbn [across_world w_dt]. rewrite INR_IZR_INZ. cbn [Z.of_nat Pos.of_succ_nat Pos.succ]. rnum. lra.
    + exists s. exact HS.
Qed.
