(** * Properties C99, C100: energies sampled from the tables (exact reals) *)
From Coq Require Import String ZArith Reals Lra Psatz List Bool Lia.
From Verif Require Import Num RNum Outcome OutcomeFacts Vec SpecVec VecFacts VecExtra SpecDyn SpecTable Units Numerics NumericsFacts MCTools Particle ParticleList
  ParticleFacts Fields FieldFacts PusherFacts Process ProcessFacts ProcessRFacts ProcessSafe Text SpecNumeral SpecLoad Tables TablesFacts SampleFacts PropsProcess PropsLoad.
Import ListNotations.
Local Open Scope R_scope.

(** the loaded tables are sampling tables: at least three values of eta, in increasing order; for each of them a
    cumulative distribution over values of chi starting at or below eta / 2 *)
Definition sampling_table (t : em_tables R) : Prop :=
  (2 <= h_len t < 2 ^ 31)%Z /\ (2 <= ph_etaLen t < 2 ^ 31)%Z /\ (2 <= ph_chiLen t < 2 ^ 31)%Z /\
  increasing (ph_axis t) /\
  forall i, (i < length (ph_axis t))%nat ->
    cumulative (row_of (ph_data t) i) /\ at_ (row_of (ph_chi t) i) 0 <= at_ (ph_axis t) i - log10 2.

(** ** C99 *)
Theorem C99_photon_parameter : forall (E : Engine R) junk jl env disk t eta g chi g',
  (0 <= jl < 2 ^ 32)%Z -> load_em junk jl env disk = Ok t -> sampling_table t -> ph_chiLen t = ph_etaLen t ->
  fst (e_canon E g) < 1 -> 0 < eta -> at_ (ph_axis t) 0 <= log10 eta ->
  calculate_chi E t eta g = Ok (chi, g') -> 0 < chi <= eta / 2.
Proof.
  intros E junk jl env disk t eta g chi g' J HL (H1 & H2 & H3 & INC & HR) SQ Q He Hlo HC.
  pose proof (load_em_ok junk jl env disk t J HL H1 H2 H3) as OK.
  split; [eapply chi_pos; eauto|].
  assert (N : (2 <= length (ph_axis t))%nat) by (destruct OK as (_ & _ & _ & _ & K & _); exact K).
  destruct (load_em_axes junk jl env disk t HL N) as (L1 & L2 & AX).
  eapply chi_upper; eauto. intros i Hi. destruct (HR i Hi) as [R1 R2]. split; [exact R1|].
  destruct (AX i Hi) as (s & HS).
  assert (HN : 1 < INR (length (ph_axis t))) by (change 1 with (INR 1); apply lt_INR; lia).
  assert (S0 : at_ (row_of (ph_chi t) i) 0 = s) by (rewrite HS by lia; cbn [INR]; lra).
  set (w := at_ (ph_axis t) i - log10 2) in *. set (n := INR (length (ph_axis t))) in *.
  assert (P : 0 <= (w - s) / (n - 1)) by (apply Rmult_le_pos; [lra|]; apply Rlt_le, Rinv_0_lt_compat; lra).
  split.
  - rewrite S0, HS by lia. cbn [INR]. lra.
  - intros j Hj. rewrite HS by assumption.
    assert (INR j <= n - 1).
    { unfold n. replace (INR (length (ph_axis t)) - 1) with (INR (length (ph_axis t) - 1)) by (rewrite minus_INR by lia; reflexivity).
      apply le_INR. lia. }
    assert (INR j * ((w - s) / (n - 1)) <= (n - 1) * ((w - s) / (n - 1))) by (apply Rmult_le_compat_r; lra).
    replace ((n - 1) * ((w - s) / (n - 1))) with (w - s) in * by (field; lra). lra.
Qed.
Print Assumptions C99_photon_parameter.

Lemma rlen_unit_le v : rlen (runit v) <= 1.
Proof.
  unfold runit. rewrite rlen_scale. pose proof (sqrt_pos (rlen2 v)) as P. fold (rlen v) in P.
  destruct (Req_dec (rlen v) 0) as [Z|Z]; [rewrite Z; lra|].
  rewrite Rabs_right by (apply Rle_ge, Rlt_le, Rinv_0_lt_compat; lra). rewrite Rinv_l by lra. lra.
Qed.

(** the photon takes at most the emitter's energy (mass 1: gamma) *)
Theorem C99_photon_energy : forall (E : Engine R) junk jl env disk c p l g p' l' g',
  (0 <= jl < 2 ^ 32)%Z -> load_em junk jl env disk = Ok (em_tab c) -> sampling_table (em_tab c) ->
  ph_chiLen (em_tab c) = ph_etaLen (em_tab c) ->
  (forall g, 0 <= fst (e_canon E g) < 1) ->
  p_type p = PLepton -> 0 < p_mass p -> p_mom p <> rzero -> p_alive p = true ->
  0 < eta_of (em_field c) p -> at_ (ph_axis (em_tab c)) 0 <= log10 (eta_of (em_field c) p) ->
  interact E (Stochastic c) p l g = Ok (p', l', g') ->
  exists k, 0 <= k <= lorentz_factor (p_mass p) (p_mom p) /\
    p_mom p' = rminus (p_mom p) (rscale k (runit (p_mom p))) /\
    (l' = l \/ exists ph, l' = pl_add l ph /\ p_type ph = PPhoton /\ get_energy ph <= lorentz_factor (p_mass p) (p_mom p)).
Proof.
  intros E junk jl env disk c p l g p' l' g' J HL ST SQ HU Ht Hm Hp Ha He Hlo HI.
  destruct (stochastic_cases E c p l g p' l' g') as (y & HY & HC); [repeat split; auto|auto|exact HI|]. cbv zeta in HC.
  set (gam := lorentz_factor (p_mass p) (p_mom p)) in *. set (eta := eta_of (em_field c) p) in *.
  assert (HG : 0 < gam) by (apply gamma_pos; lra).
  destruct HC as [(_ & HP & HLl & _)|(_ & chi & g1 & g2 & HC & Hchi & HM & _ & _ & HLl)].
  - exists 0. split; [lra|]. split; [|now left]. rewrite HP. cbn [set_depth p_mom]. destruct (p_mom p); runf; f_equal; ring.
  - pose proof (C99_photon_parameter E junk jl env disk (em_tab c) eta g chi g1 J HL ST SQ ltac:(apply HU) He Hlo HC) as [_ HB].
    assert (K : 0 <= 2 * chi * gam / eta <= gam).
    { split.
      - apply Rlt_le. apply Rdiv_lt_0_compat; nra.
      - apply Rmult_le_reg_r with eta; [exact He|]. unfold Rdiv. rewrite Rmult_assoc, Rinv_l by lra. nra. }
    exists (2 * chi * gam / eta). split; [exact K|]. split; [exact HM|].
    destruct HLl as [[-> _]|(ph & HLl & _ & _ & NP & _ & _ & _ & PM)]; [now left|right].
    destruct NP as (T1 & _). exists ph. split; [exact HLl|]. split; [exact T1|].
    unfold get_energy. rewrite T1, mag_R, PM, rlen_scale, Rabs_right by lra.
    pose proof (rlen_unit_le (runit (rminus (p_mom p) (rscale (2 * chi * gam / eta) (runit (p_mom p)))))).
    pose proof (sqrt_pos (rlen2 (runit (runit (rminus (p_mom p) (rscale (2 * chi * gam / eta) (runit (p_mom p)))))))) as P.
    fold (rlen (runit (runit (rminus (p_mom p) (rscale (2 * chi * gam / eta) (runit (p_mom p))))))) in P. nra.
Qed.
Print Assumptions C99_photon_energy.

(** With more values of chi than of eta the axis goes beyond eta / 2: at every inner value of eta, each draw above the
    etaLength-th entry of its row gives a photon of more than the emitter's energy. *)
Theorem C99_wide_table : forall (E : Engine R) junk jl env disk t i g chi g' (gamma : R),
  (0 <= jl < 2 ^ 32)%Z -> load_em junk jl env disk = Ok t -> sampling_table t -> (ph_etaLen t < ph_chiLen t)%Z ->
  (1 <= i <= length (ph_axis t) - 2)%nat ->
  (forall j k, (j <= k)%nat -> (Z.of_nat k < ph_chiLen t)%Z -> at_ (row_of (ph_data t) i) j <= at_ (row_of (ph_data t) i) k) ->
  at_ (row_of (ph_chi t) i) 0 < at_ (ph_axis t) i - log10 2 ->
  at_ (row_of (ph_data t) i) (length (ph_axis t) - 1) < fst (e_canon E g) < 1 -> 0 < gamma ->
  let eta := Rpower 10 (at_ (ph_axis t) i) in
  calculate_chi E t eta g = Ok (chi, g') -> eta / 2 < chi /\ gamma < 2 * chi * gamma / eta.
Proof.
  intros E junk jl env disk t i g chi g' gamma J HL (H1 & H2 & H3 & INC & HR) WD Hi MON ST Q HG eta.
  pose proof (load_em_ok junk jl env disk t J HL H1 H2 H3) as OK.
  pose proof OK as (_ & _ & _ & _ & K1 & K2 & K3 & K4 & K5 & K6 & K7).
  destruct (load_em_axes junk jl env disk t HL K1) as (L1 & L2 & AX).
  assert (EL : log10 eta = at_ (ph_axis t) i).
  { unfold eta, log10, Rpower. rewrite ln_exp. field. pose proof ln10_pos. lra. }
  assert (PE : 0 < eta) by (unfold eta, Rpower; apply exp_pos).
  intros HX.
  cut (eta / 2 < chi).
  { intros HC. split; [exact HC|]. apply Rmult_lt_reg_r with eta; [exact PE|]. unfold Rdiv. rewrite Rmult_assoc, Rinv_l by lra. nra. }
  revert HX. unfold calculate_chi. rewrite rand01. destruct (e_canon E g) as [u g1]. cbn [fst snd] in Q |- *. rewrite K2.
  change (nlog10 eta) with (log10 eta). rewrite EL.
  destruct (closest_points_spec (ph_axis t) (at_ (ph_axis t) i) K1 ltac:(lia) INC) as (_ & S2 & _).
  assert (LE : at_ (ph_axis t) i <= at_ (ph_axis t) (length (ph_axis t) - 2)).
  { destruct (Nat.eq_dec i (length (ph_axis t) - 2)) as [->|D]; [lra|]. apply Rlt_le, INC. lia. }
  destruct (S2 LE ltac:(lia)) as (k & f & HC & I1 & I2 & I3 & _). rewrite HC. cbn [bind fst snd].
  specialize (I3 (INC 0%nat i ltac:(lia))).
  assert (GK : at_ (ph_axis t) k < at_ (ph_axis t) (S k)) by (apply INC; lia).
  assert (Ek : i = S k).
  { destruct (Nat.lt_trichotomy i (S k)) as [A|[A|A]]; auto; exfalso.
    - assert (at_ (ph_axis t) i <= at_ (ph_axis t) k); [|nra].
      destruct (Nat.eq_dec i k) as [->|D]; [lra|]. apply Rlt_le, INC. lia.
    - pose proof (INC (S k) i ltac:(lia)). nra. }
  assert (Ef : f = 1) by (subst i; nra).
  assert (G : forall k, (k < length (ph_axis t))%nat -> exists v,
    get (ph_data t) (Z.of_nat k) = Ok (row_of (ph_data t) k) /\ get (ph_chi t) (Z.of_nat k) = Ok (row_of (ph_chi t) k) /\
    interpolate1d (row_of (ph_data t) k) (row_of (ph_chi t) k) (ph_chiLen t) u = Ok v).
  { intros q Hq. pose proof (row_len (ph_data t) q (ph_chiLen t) ltac:(lia) ltac:(auto)) as R1.
    pose proof (row_len (ph_chi t) q (ph_chiLen t) ltac:(lia) ltac:(auto)) as R2.
    destruct (interp_ok (row_of (ph_data t) q) (row_of (ph_chi t) q) (ph_chiLen t) u R1 R2 K6) as [v HV].
    exists v. rewrite !get_row_of by lia. auto. }
  destruct (G k ltac:(lia)) as (v & -> & -> & V1). cbn [bind]. rewrite V1. cbn [bind].
  replace (Z.of_nat k + 1)%Z with (Z.of_nat i) by lia.
  destruct (G i ltac:(lia)) as (w & -> & -> & W1). cbn [bind]. rewrite W1. cbn [bind].
  assert (W2 : at_ (ph_axis t) i - log10 2 < w).
  { pose proof (row_len (ph_data t) i (ph_chiLen t) ltac:(lia) ltac:(auto)) as R1.
    pose proof (row_len (ph_chi t) i (ph_chiLen t) ltac:(lia) ltac:(auto)) as R2.
    destruct (HR i ltac:(lia)) as [[_ C2] _].
    set (n := length (ph_axis t)) in *.
    destruct (interp_inside (row_of (ph_data t) i) (row_of (ph_chi t) i) ltac:(lia) ltac:(lia) ltac:(lia) u) as (j & J1 & J2 & J3).
    { split; [|lra]. apply Rle_trans with (at_ (row_of (ph_data t) i) (n - 1)); [apply MON; lia|lra]. }
    rewrite R1, W1 in J3. inversion J3 as [HW]. clear J3.
    assert (Hj : (n - 1 <= j)%nat).
    { destruct (Nat.le_gt_cases (n - 1) j) as [A|A]; auto. exfalso.
      assert (at_ (row_of (ph_data t) i) (S j) <= at_ (row_of (ph_data t) i) (n - 1)) by (apply MON; lia). lra. }
    destruct (AX i ltac:(lia)) as (s & HS).
    assert (HN : 1 < INR n) by (change 1 with (INR 1); apply lt_INR; lia).
    assert (S0 : at_ (row_of (ph_chi t) i) 0 = s) by (rewrite HS by lia; cbn [INR]; lra).
    set (b := at_ (ph_axis t) i - log10 2) in *.
    set (d := (b - s) / (INR n - 1)) in *.
    assert (PD : 0 < d) by (apply Rdiv_lt_0_compat; lra).
    assert (VB : s + (INR n - 1) * d = b) by (unfold d; field; lra).
    assert (GE : INR n - 1 <= INR j).
    { replace (INR n - 1) with (INR (n - 1)) by (rewrite minus_INR by lia; reflexivity). apply le_INR. exact Hj. }
    unfold segment, line. rewrite !HS by lia. rewrite S_INR.
    set (x0 := at_ (row_of (ph_data t) i) j) in *. set (x1 := at_ (row_of (ph_data t) i) (S j)) in *.
    replace ((u - x0) * (s + (INR j + 1) * d - (s + INR j * d)) / (x1 - x0)) with ((u - x0) / (x1 - x0) * d) by (field; lra).
    destruct (Nat.eq_dec j (n - 1)) as [Ej|Dj].
    - assert (0 < (u - x0) / (x1 - x0)) by (apply Rdiv_lt_0_compat; [unfold x0; rewrite Ej|]; lra). nra.
    - assert (INR n <= INR j) by (apply le_INR; lia).
      assert (0 <= (u - x0) / (x1 - x0)) by (apply Rmult_le_pos; [lra|]; apply Rlt_le, Rinv_0_lt_compat; lra). nra. }
  intros HX. inversion HX. rnum. rewrite Rpow_Rpower by lra. rewrite Ef.
  replace ((1 - 1) * v + 1 * w) with w by ring.
  rewrite <- (pow_log (eta / 2)) by lra. apply Rpower_lt; [lra|]. rewrite log10_half by lra. rewrite EL. lra.
Qed.
Print Assumptions C99_wide_table.

(** *** concrete tables: a square one and one with more chi than eta *)
Definition decimal_of (a b : string) : numeral := mkNumeral (tx a) (Some (tx b)) None.
Definition sq_ph : text := tab_text "3 3 -1 1|0 0.5 1|0 0.5 1|0 0.5 1|".
Lemma sq_ph_written : written sq_ph ((NoSign, digits_of "3") :: (NoSign, digits_of "3") :: (Minus, digits_of "1") :: (NoSign, digits_of "1") :: concat [[(NoSign, digits_of "0"); (NoSign, decimal_of "0" "5"); (NoSign, digits_of "1")]; [(NoSign, digits_of "0"); (NoSign, decimal_of "0" "5"); (NoSign, digits_of "1")]; [(NoSign, digits_of "0"); (NoSign, decimal_of "0" "5"); (NoSign, digits_of "1")]]) (tab_text "|").
Proof.
  number_at (tab_text "") NoSign (digits_of "3") (tab_text " 3 -1 1|0 0.5 1|0 0.5 1|0 0.5 1|").
  number_at (tab_text " ") NoSign (digits_of "3") (tab_text " -1 1|0 0.5 1|0 0.5 1|0 0.5 1|").
  number_at (tab_text " ") Minus (digits_of "1") (tab_text " 1|0 0.5 1|0 0.5 1|0 0.5 1|").
  number_at (tab_text " ") NoSign (digits_of "1") (tab_text "|0 0.5 1|0 0.5 1|0 0.5 1|").
  number_at (tab_text "|") NoSign (digits_of "0") (tab_text " 0.5 1|0 0.5 1|0 0.5 1|").
  number_at (tab_text " ") NoSign (decimal_of "0" "5") (tab_text " 1|0 0.5 1|0 0.5 1|").
  number_at (tab_text " ") NoSign (digits_of "1") (tab_text "|0 0.5 1|0 0.5 1|").
  number_at (tab_text "|") NoSign (digits_of "0") (tab_text " 0.5 1|0 0.5 1|").
  number_at (tab_text " ") NoSign (decimal_of "0" "5") (tab_text " 1|0 0.5 1|").
  number_at (tab_text " ") NoSign (digits_of "1") (tab_text "|0 0.5 1|").
  number_at (tab_text "|") NoSign (digits_of "0") (tab_text " 0.5 1|").
  number_at (tab_text " ") NoSign (decimal_of "0" "5") (tab_text " 1|").
  number_at (tab_text " ") NoSign (digits_of "1") (tab_text "|").
  constructor.
Qed.
Definition wd_ph : text := tab_text "3 4 -1 1|0 0.2 0.5 1|0 0.2 0.5 1|0 0.2 0.5 1|".
Lemma wd_ph_written : written wd_ph ((NoSign, digits_of "3") :: (NoSign, digits_of "4") :: (Minus, digits_of "1") :: (NoSign, digits_of "1") :: concat [[(NoSign, digits_of "0"); (NoSign, decimal_of "0" "2"); (NoSign, decimal_of "0" "5"); (NoSign, digits_of "1")]; [(NoSign, digits_of "0"); (NoSign, decimal_of "0" "2"); (NoSign, decimal_of "0" "5"); (NoSign, digits_of "1")]; [(NoSign, digits_of "0"); (NoSign, decimal_of "0" "2"); (NoSign, decimal_of "0" "5"); (NoSign, digits_of "1")]]) (tab_text "|").
Proof.
  number_at (tab_text "") NoSign (digits_of "3") (tab_text " 4 -1 1|0 0.2 0.5 1|0 0.2 0.5 1|0 0.2 0.5 1|").
  number_at (tab_text " ") NoSign (digits_of "4") (tab_text " -1 1|0 0.2 0.5 1|0 0.2 0.5 1|0 0.2 0.5 1|").
  number_at (tab_text " ") Minus (digits_of "1") (tab_text " 1|0 0.2 0.5 1|0 0.2 0.5 1|0 0.2 0.5 1|").
  number_at (tab_text " ") NoSign (digits_of "1") (tab_text "|0 0.2 0.5 1|0 0.2 0.5 1|0 0.2 0.5 1|").
  number_at (tab_text "|") NoSign (digits_of "0") (tab_text " 0.2 0.5 1|0 0.2 0.5 1|0 0.2 0.5 1|").
  number_at (tab_text " ") NoSign (decimal_of "0" "2") (tab_text " 0.5 1|0 0.2 0.5 1|0 0.2 0.5 1|").
  number_at (tab_text " ") NoSign (decimal_of "0" "5") (tab_text " 1|0 0.2 0.5 1|0 0.2 0.5 1|").
  number_at (tab_text " ") NoSign (digits_of "1") (tab_text "|0 0.2 0.5 1|0 0.2 0.5 1|").
  number_at (tab_text "|") NoSign (digits_of "0") (tab_text " 0.2 0.5 1|0 0.2 0.5 1|").
  number_at (tab_text " ") NoSign (decimal_of "0" "2") (tab_text " 0.5 1|0 0.2 0.5 1|").
  number_at (tab_text " ") NoSign (decimal_of "0" "5") (tab_text " 1|0 0.2 0.5 1|").
  number_at (tab_text " ") NoSign (digits_of "1") (tab_text "|0 0.2 0.5 1|").
  number_at (tab_text "|") NoSign (digits_of "0") (tab_text " 0.2 0.5 1|").
  number_at (tab_text " ") NoSign (decimal_of "0" "2") (tab_text " 0.5 1|").
  number_at (tab_text " ") NoSign (decimal_of "0" "5") (tab_text " 1|").
  number_at (tab_text " ") NoSign (digits_of "1") (tab_text "|").
  constructor.
Qed.
Definition sq_cm : text := tab_text "0.01|0.01|0.01|".
Lemma sq_cm_written : written sq_cm ([(NoSign, decimal_of "0" "01"); (NoSign, decimal_of "0" "01"); (NoSign, decimal_of "0" "01")]) (tab_text "|").
Proof.
  number_at (tab_text "") NoSign (decimal_of "0" "01") (tab_text "|0.01|0.01|").
  number_at (tab_text "|") NoSign (decimal_of "0" "01") (tab_text "|0.01|").
  number_at (tab_text "|") NoSign (decimal_of "0" "01") (tab_text "|").
  constructor.
Qed.

Definition sq_disk (ph : text) (f : string) : option text :=
  if String.eqb f "T/hsokolov.table" then Some ex_h else if String.eqb f "T/ksi_sokolov.table" then Some ph
  else if String.eqb f "T/chimin.table" then Some sq_cm else None.
Lemma count3 : count_of (NoSign, digits_of "3") 3.
Proof. exists (tx "3"). repeat split. Qed.
Lemma count4 : count_of (NoSign, digits_of "4") 4.
Proof. exists (tx "4"). repeat split. Qed.

Ltac entries := unfold entry_value, number, mantissa, exponent; cbn; rewrite ?Rlit_0, ?Rlit_neg; ev_pow.

Lemma log10_100 : log10 (1 / 100) = -2.
Proof.
  unfold log10. replace (1 / 100) with (/ (10 * 10)) by lra. rewrite ln_Rinv, ln_mult by lra. field. pose proof ln10_pos. lra.
Qed.
Lemma log10_2_bound : 0 < log10 2 < 1.
Proof.
  unfold log10. pose proof ln10_pos. assert (0 < ln 2) by (rewrite <- ln_1; apply ln_increasing; lra).
  assert (ln 2 < ln 10) by (apply ln_increasing; lra). split; [apply Rdiv_lt_0_compat; lra|].
  apply Rmult_lt_reg_r with (ln 10); [lra|]. unfold Rdiv. rewrite Rmult_assoc, Rinv_l; lra.
Qed.

Lemma sq_tables ph m data t junk jl : load_em junk jl (Some "T"%string) (sq_disk ph) = Ok t ->
  h_len t = 2%Z -> ph_etaLen t = 3%Z -> ph_chiLen t = Z.of_nat m -> (2 <= m <= 4)%nat -> ph_data t = [data; data; data] -> cumulative data ->
  ph_axis t = eta_axis 3 (-1) 1 ->
  ph_chi t = map (fun x => chi_row 3 (Z.of_nat m) (fst x) (entry_value (snd x))) (combine (ph_axis t)
     [(NoSign, decimal_of "0" "01"); (NoSign, decimal_of "0" "01"); (NoSign, decimal_of "0" "01")]) ->
  sampling_table t /\ length (ph_axis t) = 3%nat /\ (forall i, (i < 3)%nat -> at_ (ph_axis t) i = INR i - 1 /\
    row_of (ph_data t) i = data /\ at_ (row_of (ph_chi t) i) 0 = -2).
Proof.
  intros HL A1 A2 A3 Hm A4 A5 A6 A7.
  assert (LA : length (ph_axis t) = 3%nat) by (rewrite A6; reflexivity).
  assert (HX : forall i, (i < 3)%nat -> at_ (ph_axis t) i = INR i - 1).
  { intros i Hi. rewrite A6. unfold eta_axis, at_. rewrite nth_map_seq by lia. cbn [plus]. rnum. rewrite <- INR_IZR_INZ. lra. }
  assert (HD : forall i, (i < 3)%nat -> row_of (ph_data t) i = data).
  { intros i Hi. rewrite A4. destruct i as [|[|[|i]]]; try reflexivity. lia. }
  assert (EV : entry_value (NoSign, decimal_of "0" "01") = 1 / 100) by (entries; reflexivity).
  assert (HC : forall i, (i < 3)%nat -> at_ (row_of (ph_chi t) i) 0 = -2).
  { intros i Hi. rewrite A7. revert LA. generalize (ph_axis t). intros ax LA.
    assert (R0 : forall a, at_ (chi_row 3 (Z.of_nat m) a (1 / 100)) 0 = -2).
    { intros a. unfold chi_row, at_. rewrite nth_map_seq by lia. change (nlog10 (1 / 100)) with (log10 (1 / 100)).
      rewrite log10_100. rnum. cbn [plus Z.of_nat]. lra. }
    destruct ax as [|x0 [|x1 [|x2 [|]]]]; try discriminate LA. cbn [combine map fst snd]. rewrite EV.
    destruct i as [|[|[|i]]]; [| | |lia]; unfold row_of; cbn [nth]; apply R0. }
  split; [|split; [exact LA|intros i Hi; auto]].
  pose proof log10_2_bound. unfold sampling_table. rewrite A1, A2, A3, LA.
  split; [lia|]. split; [lia|]. split; [lia|]. split.
  - intros i j Hij. rewrite !HX by lia. pose proof (lt_INR i j ltac:(lia)). lra.
  - intros i Hi. rewrite HD, HC, HX by lia. split; [exact A5|]. pose proof (pos_INR i). lra.
Qed.

Example C99_case : forall junk, exists t, load_em junk 0 (Some "T"%string) (sq_disk sq_ph) = Ok t /\ sampling_table t /\
  ph_chiLen t = ph_etaLen t /\ at_ (ph_axis t) 0 <= log10 1.
Proof.
  intros junk.
  destruct (C97_emission_tables (T := R) junk 0%Z "T"%string (sq_disk sq_ph) ex_h sq_ph sq_cm _ _ _ _ _ _ _ _ _ _ _ 3%nat
    eq_refl eq_refl eq_refl ex_h_written ex_count sq_ph_written count3 count3 ltac:(repeat constructor) sq_cm_written eq_refl)
    as (t & HL & A1 & _ & _ & A2 & A3 & A4 & A5 & A6).
  exists t. split; [exact HL|].
  destruct (sq_tables sq_ph 3 [0; 5 / 10; 1] t junk 0%Z HL A1 A2 A3 ltac:(lia)) as (S1 & S2 & S3); auto.
  - rewrite A4. cbn [map]. entries. reflexivity.
  - split; unfold at_; cbn [nth length Nat.sub]; lra.
  - rewrite A5. cbn [length]. f_equal; entries; reflexivity.
  - split; [exact S1|]. split; [rewrite A2, A3; reflexivity|]. destruct (S3 0%nat ltac:(lia)) as [-> _].
    unfold log10. rewrite ln_1. cbn [INR]. unfold Rdiv. rewrite Rmult_0_l. lra.
Qed.

(** a table of 3 times 4 entries with which an electron in a field of eta = 1 emits a photon of more than its energy *)
Theorem C99_photon_energy_refuted : exists (E : Engine R) junk disk t eta g chi g' (gamma : R),
  load_em junk 0 (Some "T"%string) disk = Ok t /\ sampling_table t /\ (forall g, 0 <= fst (e_canon E g) < 1) /\
  at_ (ph_axis t) 0 <= log10 eta /\ 0 < gamma /\
  calculate_chi E t eta g = Ok (chi, g') /\ eta / 2 < chi /\ gamma < 2 * chi * gamma / eta.
Proof.
  set (junk := fun _ _ : nat => 0).
  destruct (C97_emission_tables (T := R) junk 0%Z "T"%string (sq_disk wd_ph) ex_h wd_ph sq_cm _ _ _ _ _ _ _ _ _ _ _ 4%nat
    eq_refl eq_refl eq_refl ex_h_written ex_count wd_ph_written count3 count4 ltac:(repeat constructor) sq_cm_written eq_refl)
    as (t & HL & A1 & _ & _ & A2 & A3 & A4 & A5 & A6).
  destruct (sq_tables wd_ph 4 [0; 2 / 10; 5 / 10; 1] t junk 0%Z HL A1 A2 A3 ltac:(lia)) as (S1 & S2 & S3); auto.
  { rewrite A4. cbn [map]. entries. reflexivity. }
  { split; unfold at_; cbn [nth length Nat.sub]; lra. }
  { rewrite A5. cbn [length]. f_equal; entries; reflexivity. }
  destruct (S3 0%nat ltac:(lia)) as (X0 & _ & _). destruct (S3 1%nat ltac:(lia)) as (X1 & D1 & C1). cbn [INR] in X0, X1.
  set (E := mkEngine R unit (fun g => (9 / 10, g)) (fun _ g => ([], g))).
  destruct (calculate_chi E t (Rpower 10 (at_ (ph_axis t) 1)) tt) as [[chi g']|c| |u|] eqn:HC.
  - exists E, junk, (sq_disk wd_ph), t, (Rpower 10 (at_ (ph_axis t) 1)), tt, chi, g', 1.
    split; [exact HL|]. split; [exact S1|]. split; [intros; cbn; lra|]. split.
    { unfold log10, Rpower. rewrite ln_exp. rewrite X0, X1. unfold Rdiv. rewrite Rmult_assoc, Rinv_r by (pose proof ln10_pos; lra). lra. }
    split; [lra|]. split; [exact HC|].
    apply (C99_wide_table E junk 0%Z (Some "T"%string) (sq_disk wd_ph) t 1 tt chi g' 1); auto; try lia; try lra.
    + rewrite A2, A3. cbn. lia.
    + rewrite D1. rewrite A3. intros j k Hjk Hk. unfold at_.
      destruct k as [|[|[|[|k]]]]; try (cbn in Hk; lia); destruct j as [|[|[|[|j]]]]; try lia; cbn [nth]; lra.
    + rewrite C1, X1. pose proof log10_2_bound. lra.
    + rewrite D1, S2. cbn. lra.
  - exfalso. destruct S1 as (H1 & H2 & H3 & INC & HR).
    assert (OK : em_tables_ok t) by (eapply load_em_ok; eauto; lia).
    assert (c = -1)%Z by (destruct (chi_safe E t (Rpower 10 (at_ (ph_axis t) 1)) tt OK) as [(a & b & X)|X]; congruence). subst c.
    apply chi_exit_iff in HC; auto; [|lia]. rewrite S2 in HC. cbn [Nat.sub] in HC.
    unfold Rpower in HC. rewrite ln_exp in HC. unfold Rdiv in HC. rewrite Rmult_assoc, Rinv_r in HC by (pose proof ln10_pos; lra). lra.
  - exfalso. destruct S1 as (H1 & H2 & H3 & INC & HR).
    assert (OK : em_tables_ok t) by (eapply load_em_ok; eauto; lia).
    destruct (chi_safe E t (Rpower 10 (at_ (ph_axis t) 1)) tt OK) as [(a & b & X)|X]; congruence.
  - exfalso. destruct S1 as (H1 & H2 & H3 & INC & HR).
    assert (OK : em_tables_ok t) by (eapply load_em_ok; eauto; lia).
    destruct (chi_safe E t (Rpower 10 (at_ (ph_axis t) 1)) tt OK) as [(a & b & X)|X]; congruence.
  - exfalso. destruct S1 as (H1 & H2 & H3 & INC & HR).
    assert (OK : em_tables_ok t) by (eapply load_em_ok; eauto; lia).
    destruct (chi_safe E t (Rpower 10 (at_ (ph_axis t) 1)) tt OK) as [(a & b & X)|X]; congruence.
Qed.
Print Assumptions C99_photon_energy_refuted.

(** ** C100: the energy split of a pair *)
Lemma closest_at (sp : list R) q k : (2 <= length sp)%nat -> (Z.of_nat (length sp) < 2 ^ 31)%Z -> increasing sp ->
  (S k <= length sp - 2)%nat -> at_ sp k < q <= at_ sp (S k) ->
  exists f, closest_points sp (Z.of_nat (length sp)) q = Ok (Z.of_nat k, f) /\ 0 < f <= 1 /\ q = at_ sp k + f * (at_ sp (S k) - at_ sp k).
Proof.
  intros N B INC Hk Hq. destruct (closest_points_spec sp q N B INC) as (_ & S2 & _).
  assert (LE : at_ sp (S k) <= at_ sp (length sp - 2)).
  { destruct (Nat.eq_dec (S k) (length sp - 2)) as [<-|D]; [lra|]. apply Rlt_le, INC. lia. }
  assert (GE : at_ sp 0 <= at_ sp k) by (destruct k; [lra|apply Rlt_le, INC; lia]).
  destruct (S2 ltac:(lra) ltac:(lia)) as (i & f & HC & I1 & I2 & I3 & _). specialize (I3 ltac:(lra)).
  assert (GI : at_ sp i < at_ sp (S i)) by (apply INC; lia).
  assert (i = k); [|subst; exists f; auto].
  destruct (Nat.lt_trichotomy i k) as [A|[A|A]]; auto; exfalso.
  - assert (at_ sp (S i) <= at_ sp k); [|nra]. destruct (Nat.eq_dec (S i) k) as [<-|D]; [lra|]. apply Rlt_le, INC. lia.
  - assert (at_ sp (S k) <= at_ sp i); [|nra]. destruct (Nat.eq_dec (S k) i) as [<-|D]; [lra|]. apply Rlt_le, INC. lia.
Qed.

Lemma split_value (E : Engine R) t chi g k : bw_tables_ok t -> increasing (s_chi t) -> (S k <= length (s_chi t) - 2)%nat ->
  at_ (s_chi t) k < log10 chi <= at_ (s_chi t) (S k) ->
  exists f v w, 0 < f <= 1 /\
    interpolate1d (row_of (s_data t) k) (s_fract t) (s_len t) (fst (e_canon E g)) = Ok v /\
    interpolate1d (row_of (s_data t) (S k)) (s_fract t) (s_len t) (fst (e_canon E g)) = Ok w /\
    calculate_split E t chi g = Ok ((1 - f) * v + f * w, snd (e_canon E g)).
Proof.
  intros (_ & _ & _ & _ & K1 & K2 & K3 & K4 & K5 & K7) INC Hk Hq. unfold calculate_split. rewrite rand01.
  destruct (e_canon E g) as [u g1]. cbn [fst snd].
  destruct (closest_at (s_chi t) (log10 chi) k K1 ltac:(lia) INC Hk Hq) as (f & HC & HF & _).
  change (nlog10 chi) with (log10 chi). rewrite <- K2 in HC. rewrite HC. cbn [bind fst snd].
  pose proof (row_len (s_data t) k (s_len t) ltac:(lia) K7) as R1. pose proof (row_len (s_data t) (S k) (s_len t) ltac:(lia) K7) as R2.
  destruct (interp_ok (row_of (s_data t) k) (s_fract t) (s_len t) u) as [v HV]; [lia|lia|lia|].
  destruct (interp_ok (row_of (s_data t) (S k)) (s_fract t) (s_len t) u) as [w HW]; [lia|lia|lia|].
  exists f, v, w. split; [exact HF|]. split; [exact HV|]. split; [exact HW|].
  rewrite get_row_of by lia. cbn [bind]. rewrite HV. cbn [bind].
  replace (Z.of_nat k + 1)%Z with (Z.of_nat (S k)) by lia. rewrite get_row_of by lia. cbn [bind]. rewrite HW. cbn [bind]. rnum. reflexivity.
Qed.

(** a draw within the two neighbouring cumulative tables gives a fraction between the ends of the fraction axis *)
Theorem C100_split_inside : forall (E : Engine R) t chi g k lo hi,
  bw_tables_ok t -> increasing (s_chi t) -> (S k <= length (s_chi t) - 2)%nat ->
  at_ (s_chi t) k < log10 chi <= at_ (s_chi t) (S k) ->
  (forall i, i = k \/ i = S k -> at_ (row_of (s_data t) i) 0 <= fst (e_canon E g) /\
     1 <= at_ (row_of (s_data t) i) (length (s_chi t) - 1)) -> fst (e_canon E g) < 1 ->
  (forall j, (j < length (s_chi t))%nat -> lo <= at_ (s_fract t) j <= hi) ->
  exists s g', calculate_split E t chi g = Ok (s, g') /\ lo <= s <= hi.
Proof.
  intros E t chi g k lo hi OK INC Hk Hq HR HU HF.
  destruct (split_value E t chi g k OK INC Hk Hq) as (f & v & w & F & HV & HW & ->).
  destruct OK as (_ & _ & _ & _ & K1 & K2 & K3 & K4 & K5 & K7).
  assert (G : forall i x, i = k \/ i = S k -> interpolate1d (row_of (s_data t) i) (s_fract t) (s_len t) (fst (e_canon E g)) = Ok x -> lo <= x <= hi).
  { intros i x Hi HX. destruct (HR i Hi) as [R1 R2].
    pose proof (row_len (s_data t) i (s_len t) ltac:(lia) K7) as RL.
    assert (EL : length (row_of (s_data t) i) = length (s_chi t)) by lia.
    destruct (sample_inside (row_of (s_data t) i) (s_fract t) (fst (e_canon E g)) lo hi) as (y & Y1 & Y2);
      [lia|lia|lia|lra|rewrite EL; lra|intros j Hj; apply HF; lia|]. rewrite RL in Y1. rewrite HX in Y1. inversion Y1. lra. }
  pose proof (G k v ltac:(auto) HV). pose proof (G (S k) w ltac:(auto) HW).
  eexists. eexists. split; [reflexivity|]. split; nra.
Qed.
Print Assumptions C100_split_inside.

(** a draw below the first cumulative entry is extrapolated, and the fraction is negative for small enough draws *)
Theorem C100_split_negative : forall (E : Engine R) t chi g k,
  bw_tables_ok t -> increasing (s_chi t) -> (S k <= length (s_chi t) - 2)%nat ->
  at_ (s_chi t) k < log10 chi <= at_ (s_chi t) (S k) -> 0 < at_ (s_fract t) 0 < at_ (s_fract t) 1 ->
  (forall i, i = k \/ i = S k -> at_ (row_of (s_data t) i) 0 < at_ (row_of (s_data t) i) 1 /\
     fst (e_canon E g) < at_ (row_of (s_data t) i) 0
       - at_ (s_fract t) 0 * ((at_ (row_of (s_data t) i) 1 - at_ (row_of (s_data t) i) 0) / (at_ (s_fract t) 1 - at_ (s_fract t) 0))) ->
  exists s g', calculate_split E t chi g = Ok (s, g') /\ s < 0.
Proof.
  intros E t chi g k OK INC Hk Hq HF HR.
  destruct (split_value E t chi g k OK INC Hk Hq) as (f & v & w & F & HV & HW & ->).
  destruct OK as (_ & _ & _ & _ & K1 & K2 & K3 & K4 & K5 & K7). set (u := fst (e_canon E g)) in *.
  assert (G : forall i x, i = k \/ i = S k -> interpolate1d (row_of (s_data t) i) (s_fract t) (s_len t) u = Ok x -> x < 0).
  { intros i x Hi HX. destruct (HR i Hi) as [R1 R2].
    pose proof (row_len (s_data t) i (s_len t) ltac:(lia) K7) as RL.
    assert (PD : 0 < at_ (s_fract t) 0 * ((at_ (row_of (s_data t) i) 1 - at_ (row_of (s_data t) i) 0) / (at_ (s_fract t) 1 - at_ (s_fract t) 0))).
    { apply Rmult_lt_0_compat; [lra|]. apply Rdiv_lt_0_compat; lra. }
    rewrite <- RL in HX. rewrite interp_below in HX; [|lia|lia|lra]. inversion HX as [HX']. clear HX. unfold segment, line.
    set (a := at_ (s_fract t) 0) in *. set (b := at_ (s_fract t) 1) in *.
    set (r0 := at_ (row_of (s_data t) i) 0) in *. set (r1 := at_ (row_of (s_data t) i) 1) in *.
    assert (HM : (u - r0) * (b - a) < - a * (r1 - r0)).
    { apply Rlt_le_trans with (- (a * ((r1 - r0) / (b - a))) * (b - a)).
      - apply Rmult_lt_compat_r; lra.
      - right. field. lra. }
    apply Rmult_lt_reg_r with (r1 - r0); [lra|].
    replace ((a + (u - r0) * (b - a) / (r1 - r0)) * (r1 - r0)) with (a * (r1 - r0) + (u - r0) * (b - a)) by (field; lra). lra. }
  pose proof (G k v ltac:(auto) HV). pose proof (G (S k) w ltac:(auto) HW).
  eexists. eexists. split; [reflexivity|]. nra.
Qed.
Print Assumptions C100_split_negative.

(** the energies given to a pair: the magnitudes of the two shares, so energy is conserved exactly for fractions
    between 0 and 1 *)
Theorem C100_pair_energy : forall (E : Engine R) (c : bw_cfg R) (p : particle R) l g p' l' g' s g1,
  p_type p = PPhoton -> p_alive p = true -> p_mom p <> rzero ->
  interact E (BreitWheeler c) p l g = Ok (p', l', g') -> p_alive p' = false ->
  calculate_split E (bw_tab c) (chi_of (bw_field c) p) g = Ok (s, g1) ->
  1 <= Rabs s * get_energy p -> 1 <= Rabs (1 - s) * get_energy p ->
  exists po el, l' = pl_add (pl_add l po) el /\
    get_energy po + get_energy el = (Rabs s + Rabs (1 - s)) * get_energy p /\
    (get_energy po + get_energy el = get_energy p <-> 0 <= s <= 1) /\
    (s < 0 \/ 1 < s -> get_energy p < get_energy po + get_energy el).
Proof.
  intros E c p l g p' l' g' s g1 Ht Ha Hp HI Hd HS H1 H2.
  assert (HE : get_energy p = rlen (p_mom p)) by (unfold get_energy; rewrite Ht; apply mag_R).
  pose proof (breit_wheeler_cases E c p l g p' l' g' Ht Ha Hp HI) as HC. cbv zeta in HC.
  destruct HC as (y & _ & [(_ & HP & _)|(_ & _ & s' & g2 & po & el & HS' & HL & (A1&A2&A3&A4) & (B1&B2&B3&B4) & _ & _ & _ & _ & M1 & M2)]).
  { exfalso. rewrite HP in Hd. cbn [set_depth p_alive] in Hd. congruence. }
  rewrite HS in HS'. inversion HS'; subst s' g2. rewrite n1_R in A3, B3.
  pose proof (rlen2_unit (p_mom p) Hp) as HU. set (en := rlen (p_mom p)) in *. rewrite HE in *.
  assert (PE : 0 < en) by (pose proof (Rabs_pos s); nra).
  assert (SQ : forall x, Rabs x * en * (Rabs x * en) = x * en * (x * en)) by (intros x; unfold Rabs; destruct (Rcase_abs x); ring).
  assert (G1 : get_energy po = Rabs s * en) by (eapply lepton_energy_from; eauto; rewrite SQ; exact M1).
  assert (G2 : get_energy el = Rabs (1 - s) * en) by (eapply lepton_energy_from; eauto; rewrite SQ; exact M2).
  exists po, el. split; [exact HL|]. rewrite G1, G2. split; [ring|].
  assert (HA : 0 <= s <= 1 -> Rabs s + Rabs (1 - s) = 1) by (intros; rewrite !Rabs_right; lra).
  assert (HB : s < 0 \/ 1 < s -> 1 < Rabs s + Rabs (1 - s)).
  { intros [D|D]; [rewrite Rabs_left, Rabs_right by lra; lra|rewrite Rabs_right, Rabs_left by lra; lra]. }
  split; [split|].
  - intros HQ. destruct (Rlt_dec s 0) as [D|D]; [specialize (HB (or_introl D)); nra|].
    destruct (Rlt_dec 1 s) as [D'|D']; [specialize (HB (or_intror D')); nra|]. lra.
  - intros HQ. specialize (HA HQ). nra.
  - intros HQ. specialize (HB HQ). nra.
Qed.
Print Assumptions C100_pair_energy.

(** the first two columns of a row of the table in the repository (e_split.table, chi = 691) and of its fraction axis:
    a photon of energy 1000 becomes a pair of total energy above 1007 *)
Definition neg_tab : bw_tables R := mkBwT [-20; 20] [0; 0] 2 [0; 50; 100] [1/100; 2/100; 1]
  [[258497/10000000; 445649/10000000; 1]; [258497/10000000; 445649/10000000; 1]; [258497/10000000; 445649/10000000; 1]] 3.
Definition neg_bw : bw_cfg R := mkBw ex_field 1 false neg_tab.
Definition neg_engine : Engine R := mkEngine R unit (fun g => (0, g)) (fun n g => (repeat 0 n, g)).
Definition neg_photon : particle R := mkP PPhoton "Photon" 0 0 5 0 0 false true (v3 0 0 0) (v3 1000 0 0) [] [] [] [].

Lemma neg_ok : bw_tables_ok neg_tab /\ increasing (s_chi neg_tab).
Proof.
  split.
  - unfold bw_tables_ok, neg_tab; cbn [t_axis t_data t_len s_chi s_fract s_data s_len length].
    repeat (split; [try reflexivity; lia|]). intros row I. repeat destruct I as [<-|I]; try reflexivity. destruct I.
  - unfold increasing, neg_tab, at_. cbn [s_chi length]. intros i j Hij.
    destruct j as [|[|[|j]]]; try lia; destruct i as [|[|i]]; try lia; cbn [nth]; lra.
Qed.

Theorem C100_energy_conservation_refuted : exists (E : Engine R) (c : bw_cfg R) (p : particle R) l g p' g' po el,
  (forall g, 0 <= fst (e_canon E g) < 1) /\ p_type p = PPhoton /\ p_alive p = true /\ get_energy p = 1000 /\
  interact E (BreitWheeler c) p l g = Ok (p', pl_add (pl_add l po) el, g') /\ p_alive p' = false /\
  1007 < get_energy po + get_energy el.
Proof.
  assert (HE : get_energy neg_photon = 1000).
  { unfold get_energy. cbn [neg_photon p_type p_mom]. rewrite mag_R. apply rlen_of_len2; [lra|]; runf; ring. }
  assert (HP0 : p_mom neg_photon <> rzero) by (cbn; apply v3_neq; left; lra).
  destruct neg_ok as [O1 O2].
  assert (CH : chi_of ex_field neg_photon = 500).
  { unfold chi_of, ex_field, static_field. cbn [neg_photon p_mom].
    assert (HL : rlen (v3 1000 0 0) = 1000) by (apply rlen_of_len2; [lra|]; runf; ring).
    unfold runit. rewrite HL.
    match goal with |- _ * rlen ?w = _ => assert (HW : rlen w = 1) by (apply rlen_of_len2; [lra|]; runf; field) end.
    rewrite HW. lra. }
  pose proof ln10_pos as L10.
  assert (LG : 0 < log10 500 <= 50).
  { assert (0 < ln 500) by (rewrite <- ln_1; apply ln_increasing; lra).
    assert (ln 500 < ln (10 * (10 * 10))) by (apply ln_increasing; lra). rewrite !ln_mult in H0 by lra.
    split; [apply Rdiv_lt_0_compat; lra|]. apply Rmult_le_reg_r with (ln 10); [lra|].
    unfold log10, Rdiv. rewrite Rmult_assoc, Rinv_l by lra. lra. }
  destruct (split_value neg_engine neg_tab 500 tt 0 O1 O2 ltac:(cbn; lia)) as (f & v & w & HF & HV & HW & HS).
  { unfold at_. cbn [neg_tab s_chi nth]. lra. }
  assert (VW : w = v) by (cbn [neg_tab s_data row_of nth] in HV, HW; rewrite HV in HW; inversion HW; reflexivity). subst w.
  assert (VV : v = 1/100 - 258497/10000000 * (1/100) / (187152/10000000)).
  { cbn [neg_tab s_data s_fract s_len row_of nth neg_engine e_canon fst] in HV.
    change 3%Z with (Z.of_nat (length [258497/10000000; 445649/10000000; 1])) in HV.
    rewrite interp_below in HV; [|cbn; lia|reflexivity|unfold at_; cbn [nth]; lra].
    inversion HV. unfold segment, line, at_. cbn [nth]. lra. }
  replace ((1 - f) * v + f * v) with v in HS by ring.
  destruct (interact_safe neg_engine (BreitWheeler neg_bw) neg_photon ex_list tt O1) as [(p' & l' & g' & HX)|HX].
  - assert (Hd : p_alive p' = false).
    { destruct (C41_pair_kinematics neg_engine neg_bw neg_photon ex_list tt p' l' g' eq_refl eq_refl HP0) as (y & _ & _ & HB); auto.
      { cbn [neg_bw bw_field]. rewrite CH. lra. }
      apply HB. rewrite HE. cbn [neg_bw bw_field bw_dt neg_photon p_depth]. fold neg_photon. rewrite CH.
      pose proof c_alpha_pos. assert (0 < Rpower 10 y) by apply exp_pos.
      assert (0 < c_alpha * 500 * Rpower 10 y / 1000 * 1); [|lra].
      rewrite Rmult_1_r. apply Rdiv_lt_0_compat; [|lra]. apply Rmult_lt_0_compat; lra. }
    assert (A1 : Rabs v = - v) by (apply Rabs_left; lra). assert (A2 : Rabs (1 - v) = 1 - v) by (apply Rabs_right; lra).
    destruct (C100_pair_energy neg_engine neg_bw neg_photon ex_list tt p' l' g' v (snd (e_canon neg_engine tt)) eq_refl eq_refl HP0 HX Hd)
      as (po & el & HL & HEn & _).
    + cbn [neg_bw bw_field bw_tab]. rewrite CH. exact HS.
    + rewrite HE, A1. lra.
    + rewrite HE, A2. lra.
    + subst l'. exists neg_engine, neg_bw, neg_photon, ex_list, tt, p', g', po, el.
      split; [intros; cbn; lra|]. do 3 (split; [auto|]). split; [exact HX|]. split; [exact Hd|].
      rewrite HEn, HE, A1, A2. lra.
  - exfalso. cbn [interact] in HX. apply breit_wheeler_exit in HX; [|exact O1].
    rewrite photon_chi_R in HX by reflexivity. cbn [neg_bw bw_field bw_tab] in HX. rewrite CH, HS in HX. discriminate.
Qed.
Print Assumptions C100_energy_conservation_refuted.

(** a draw of 3/4 in the tables of C41 stays within the fraction axis *)
Example C100_case : exists s g', calculate_split ex_engine ex_btab 2 tt = Ok (s, g') /\ 1/4 <= s <= 3/4.
Proof.
  destruct ex_ok as (_ & O2 & _ & O4).
  apply (C100_split_inside ex_engine ex_btab 2 tt 0 (1/4) (3/4)); auto.
  - unfold at_. cbn [ex_btab s_chi nth]. pose proof log10_2_bound. lra.
  - intros i [->| ->]; unfold at_, row_of; cbn [ex_btab s_data s_chi nth ex_engine e_canon fst length Nat.sub]; lra.
  - cbn. lra.
  - cbn [ex_btab s_chi s_fract length]. intros j Hj. unfold at_. destruct j as [|[|[|j]]]; try lia; cbn [nth]; lra.
Qed.
