(** * C145: free flight in binary64 *)
From Coq Require Import String ZArith Reals Lra Psatz List Lia.
From Coq Require Import Floats.SpecFloat.
From Flocq Require Import Core.Zaux Core.Raux Core.Defs Core.Generic_fmt Core.Float_prop IEEE754.BinarySingleNaN.
From Verif Require Import Num RNum F64Facts F64Real F64Draw F64Kin F64Zero Vec SpecVec VecFacts VecExtra SpecDyn Units MCTools Particle ParticleFacts Fields FieldFacts Pusher PusherFacts PropsPusher PropsOde PropsQuantum Converge PropsConverge F64Orbit PropsRound.
Import ListNotations.
Local Open Scope R_scope.

(** ** One push of a photon *)
Lemma flight_one xs fs as_ hs r f a l h M : dbl xs r -> dbl fs f -> dbl as_ a -> dbl hs h -> (1 - 6 * eps) * l <= f <= (1 + 6 * eps) * l -> Rabs a <= l ->
  two (-401) <= l <= two 492 -> two (-400) <= h -> Rabs r + h <= M -> 1 <= M <= two 500 ->
  nr (f64_add xs (f64_mul (f64_div hs fs) as_)) (r + h * (a / l)) (16 * (eps * M)).
Proof.
  intros DX DF DA DH HF HA HL Hh HR HM. pose proof eps_tiny as ET. pose proof (Rabs_pos r) as R0.
  assert (L0 : 0 < l) by (pose proof (two_pos (-401)); lra). assert (H0 : 0 < h) by (pose proof (two_pos (-400)); lra).
  assert (F1 : 9/10 * l <= f <= 11/10 * l) by (split; nra). assert (F0 : 0 < f) by lra.
  set (w := h / f). assert (W0 : 0 < w) by (apply Rdiv_lt_0_compat; lra). assert (WF : w * f = h) by (unfold w; field; lra).
  assert (WL : Rabs (w * l - h) <= 7 * eps * h).
  { assert (X : w * l <= 12/10 * h) by nra. apply Rabs_le. split.
    - assert (w * f <= w * ((1 + 6 * eps) * l)) by (apply Rmult_le_compat_l; lra). nra.
    - assert (w * ((1 - 6 * eps) * l) <= w * f) by (apply Rmult_le_compat_l; lra). assert (6 * eps * (w * l) <= 6 * eps * (12/10 * h)) by (apply Rmult_le_compat_l; lra).
      assert (w * l <= h + 6 * eps * (w * l)) by lra. assert (w * l <= (1 + 1/1000) * h) by nra. assert (6 * eps * (w * l) <= 6 * eps * ((1 + 1/1000) * h)) by (apply Rmult_le_compat_l; lra). lra. }
  assert (WB : two (-1022) <= w).
  { apply Rmult_le_reg_r with f; [exact F0|]. rewrite WF. apply Rle_trans with (two (-1022) * two 493).
    - apply Rmult_le_compat_l; [apply bpow_ge_0|]. change 493%Z with (1 + 492)%Z. rewrite bpow_plus. change (two 1) with 2. lra.
    - rewrite <- bpow_plus. eapply Rle_trans; [|exact Hh]. apply bpow_le. lia. }
  assert (WH : w <= two 902).
  { apply Rmult_le_reg_r with f; [exact F0|]. rewrite WF. apply Rle_trans with (two 902 * two (-402)).
    - rewrite <- bpow_plus. change (902 + -402)%Z with 500%Z. lra.
    - apply Rmult_le_compat_l; [apply bpow_ge_0|]. assert (two (-402 + 1) <= l) by (change (-402 + 1)%Z with (-401)%Z; lra). rewrite two_double in H. lra. }
  assert (DW : dbl (f64_div hs fs) (rnd w)).
  { apply dbl_div; [exact DH|exact DF|lra|]. fold w. rewrite Rabs_pos_eq by lra. eapply Rle_trans; [exact WH|]. apply two_huge. lia. }
  assert (UW : Rabs (rnd w - w) <= eps * w).
  { pose proof (rnd_rel w) as X. rewrite Rabs_pos_eq in X by lra. apply X. exact WB. }
  set (u := rnd w) in *. apply abs_in in UW, WL.
  assert (UL : Rabs (u * l - h) <= 9 * eps * h).
  { assert (A1 : (u - w) * l <= eps * (w * l)) by (replace (eps * (w * l)) with (eps * w * l) by ring; apply Rmult_le_compat_r; lra).
    assert (A2 : - (eps * (w * l)) <= (u - w) * l) by (replace (- (eps * (w * l))) with (- (eps * w) * l) by ring; apply Rmult_le_compat_r; lra).
    assert (A3 : eps * (w * l) <= eps * (2 * h)) by (apply Rmult_le_compat_l; [lra|]; assert (7 * eps * h <= h) by nra; lra). apply Rabs_le. lra. }
  assert (AL : Rabs (a / l) <= 1) by (unfold Rdiv; rewrite Rabs_mult, Rabs_inv, (Rabs_pos_eq l) by lra; apply Rmult_le_reg_r with l; [exact L0|]; rewrite Rmult_assoc, Rinv_l, Rmult_1_r, Rmult_1_l by lra; exact HA).
  assert (UA : Rabs (u * a - h * (a / l)) <= 9 * eps * M).
  { replace (u * a - h * (a / l)) with (a / l * (u * l - h)) by (field; lra). rewrite Rabs_mult. pose proof (Rabs_pos (u * l - h)). pose proof (Rabs_pos (a / l)).
    apply Rle_trans with (1 * (9 * eps * h)); [apply Rmult_le_compat; lra|]. rewrite Rmult_1_l. apply Rmult_le_compat_l; lra. }
  assert (HT : Rabs (h * (a / l)) <= h) by (rewrite Rabs_mult, (Rabs_pos_eq h) by lra; pose proof (Rabs_pos (a / l)); nra).
  assert (EM : 0 < eps * M <= M / 1000) by nra.
  assert (HG : 2 * M <= huge) by (assert (TH : two (1 + 500) <= huge) by (apply two_huge; lia); rewrite bpow_plus in TH; change (two 1) with 2 in TH; lra).
  assert (X : nr (f64_mul (f64_div hs fs) as_) (h * (a / l)) (11 * (eps * M))).
  { apply abs_in in UA. assert (B : Rabs (u * a) <= 2 * M) by (apply abs_in in HT; apply Rabs_le; lra).
    exists (rnd (u * a)). split; [apply dbl_mul; [exact DW|exact DA|lra]|]. pose proof (rnd_close (u * a) (2 * M) B ltac:(lra)) as C. apply abs_in in C. apply Rabs_le. lra. }
  eapply nr_weak; [apply (nr_add _ _ _ _ _ _ (2 * M) (nr_exact _ _ DX) X)|]; [|lra|exact HG|lra].
  pose proof (Rabs_triang r (h * (a / l))). lra.
Qed.

Lemma zero_is_zero L m : dbl m 0 -> @neqb _ (Num_F64 L) m (@n0 _ (Num_F64 L)) = true.
Proof.
  intros (b & <- & Fb & Rb). destruct b as [s|s| |s mm ee B]; try discriminate; [destruct s; reflexivity|]. exfalso. cbn in Rb. apply eq_0_F2R in Rb. destruct s; discriminate.
Qed.

(** ** C145 *)
(** photons: any force, any field; the momentum keeps its bits, the position follows the ray at the speed of light up to an error that grows
    linearly with the number of pushes *)
Section Photon.
Variable L : Libm.
Local Notation N := (Num_F64 L).
Variables (F : force spec_float) (fld : field spec_float) (hs : spec_float) (h a b c : R) (p : particle spec_float) (x0 : V3) (n : nat).
Let l := sqrt (a * a + b * b + c * c).
Hypothesis Ha : p_alive p = true.
Hypothesis Dm : dbl (p_mass p) 0.
Hypothesis DP : holds (p_mom p) (v3 a b c).
Hypothesis HA : Rabs a <= two 490.
Hypothesis HB : Rabs b <= two 490.
Hypothesis HC : Rabs c <= two 490.
Hypothesis HP : two (-800) <= a * a + b * b + c * c.
Hypothesis DX : holds (p_pos p) x0.
Hypothesis Dh : dbl hs h.
Hypothesis Hh : two (-400) <= h.
Let M := 2 + rlen x0 + INR n * h.
Hypothesis HM : M <= two 500.
Hypothesis Small : INR n * (16 * (eps * M)) <= 1.

Lemma length_facts : (two (-401) <= l <= two 492) /\ (Rabs a <= l /\ Rabs b <= l /\ Rabs c <= l) /\ exists f, dbl (@mag _ N (p_mom p)) f /\ (1 - 6 * eps) * l <= f <= (1 + 6 * eps) * l.
Proof.
  assert (S0 : forall z Q, z * z <= Q -> Rabs z <= sqrt Q) by (intros z Q HZ; rewrite <- (sqrt_Rsqr_abs z); apply sqrt_le_1_alt; exact HZ).
  split; [split|].
  - apply Rle_trans with (two (-400)); [apply bpow_le; lia|]. unfold l. rewrite <- (sqrt_square (two (-400))) by apply bpow_ge_0. apply sqrt_le_1_alt. rewrite <- bpow_plus. exact HP.
  - unfold l. rewrite <- (sqrt_square (two 492)) by apply bpow_ge_0. apply sqrt_le_1_alt. rewrite <- bpow_plus. apply sq_bound in HA, HB, HC. change (490 + 490)%Z with 980%Z in *.
    change (492 + 492)%Z with (4 + 980)%Z. rewrite bpow_plus. change (two 4) with 16. pose proof (bpow_ge_0 radix2 980). lra.
  - split; [repeat split; apply S0; nra|]. destruct (mag2_dbl L _ a b c DP HA HB HC) as (DS & S1 & S2). exists (fmag a b c). split; [apply dbl_sqrt; [exact DS|lra]|]. apply (fmag_err a b c HP).
Qed.
Lemma photon_after k : (k <= n)%nat ->
  let P := @pushes _ N k F fld hs p in
  p_alive P = true /\ p_mass P = p_mass p /\ p_mom P = p_mom p /\
  nrv (p_pos P) (rplus x0 (rscale (INR k * h) (v3 (a / l) (b / l) (c / l)))) (INR k * (16 * (eps * M))).
Proof.
  destruct length_facts as (HL & (AL & BL & CL) & f & DF & HF). destruct DP as (DA & DB & DC). unfold v3 in DA, DB, DC. cbn [vx vy vz] in DA, DB, DC.
  assert (H0 : 0 < h) by (pose proof (two_pos (-400)); lra). pose proof eps_tiny as ET. pose proof (rlen_nonneg x0) as X0.
  assert (M1 : 1 <= M) by (unfold M; pose proof (pos_INR n); assert (0 <= INR n * h) by nra; lra). assert (EM : 0 < eps * M) by nra.
  induction k as [|k IH]; intros LE; cbv zeta.
  { cbn [pushes INR]. repeat split; auto; destruct DX as (A & B & C); (eapply nr_weak; [apply nr_exact|lra]); unfold rplus, rscale, v3; cbn [vx vy vz]; rewrite Rmult_0_l, Rmult_0_l, Rplus_0_r; assumption. }
  destruct (IH ltac:(lia)) as (PA & PM & PP & PX). clear IH. cbn [pushes]. set (P := @pushes _ N k F fld hs p) in *.
  unfold push_particle. rewrite PA, (zero_is_zero L (p_mass P)) by (rewrite PM; exact Dm). cbv zeta. set (xn := @vadd _ N (p_pos P) _).
  assert (G : nrv xn (rplus x0 (rscale (INR (S k) * h) (v3 (a / l) (b / l) (c / l)))) (INR (S k) * (16 * (eps * M)))).
  { rewrite S_INR. assert (KN : INR k + 1 <= INR n) by (rewrite <- S_INR; apply le_INR; lia). pose proof (pos_INR k) as K0.
    assert (ST : INR k * (16 * (eps * M)) <= 1) by (eapply Rle_trans; [|exact Small]; apply Rmult_le_compat_r; lra).
    destruct (comps_le x0) as (C1 & C2 & C3).
    assert (ONE : forall xs as_ r0 d, nr xs (r0 + INR k * h * (d / l)) (INR k * (16 * (eps * M))) -> dbl as_ d -> Rabs d <= l -> Rabs r0 <= rlen x0 ->
      nr (f64_add xs (f64_mul (f64_div hs (@mag _ N (p_mom p))) as_)) (r0 + (INR k + 1) * h * (d / l)) ((INR k + 1) * (16 * (eps * M)))).
    { intros xs as_ r0 d (v & DV & HV) DD LD RD. apply abs_in in HV.
      assert (TD : Rabs (d / l) <= 1) by (unfold Rdiv; rewrite Rabs_mult, Rabs_inv, (Rabs_pos_eq l) by (pose proof (two_pos (-401)); lra); apply Rmult_le_reg_r with l; [pose proof (two_pos (-401)); lra|]; rewrite Rmult_assoc, Rinv_l, Rmult_1_r, Rmult_1_l by (pose proof (two_pos (-401)); lra); exact LD).
      assert (KD : Rabs (INR k * h * (d / l)) <= INR k * h) by (rewrite Rabs_mult, (Rabs_pos_eq (INR k * h)) by nra; pose proof (Rabs_pos (d / l)); assert (0 <= INR k * h) by nra; nra).
      assert (NH : INR k * h + h <= INR n * h) by (replace (INR k * h + h) with ((INR k + 1) * h) by ring; apply Rmult_le_compat_r; lra).
      assert (VB : Rabs v + h <= M) by (apply abs_in in KD, RD; assert (Rabs v <= rlen x0 + INR k * h + 1) by (apply Rabs_le; lra); unfold M; lra).
      destruct (flight_one xs _ as_ hs v f d l h M DV DF DD Dh HF LD HL Hh VB ltac:(lra)) as (z & DZ & HZ). exists z. split; [exact DZ|]. apply abs_in in HZ. apply Rabs_le. lra. }
    destruct PX as (P1 & P2 & P3). unfold xn. rewrite PP. unfold rplus, rscale, v3 in *. cbn [vx vy vz] in *. split; [|split]; apply ONE; assumption. }
  unfold update_track. destruct (p_tracking P); cbn; rewrite ?PA, ?PM, ?PP; auto.
Qed.
End Photon.

Theorem C145_photon : forall L (F : force spec_float) fld n (p : particle spec_float) (x0 k : V3) dt h,
  p_alive p = true -> dbl (p_mass p) 0 -> holds (p_pos p) x0 -> holds (p_mom p) k -> dbl dt h -> two (-400) <= h ->
  Rabs (vx k) <= two 490 -> Rabs (vy k) <= two 490 -> Rabs (vz k) <= two 490 -> two (-400) <= rlen k ->
  let M := 2 + rlen x0 + INR n * h in
  M <= two 500 -> INR n * two (-48) * M <= 1 ->
  let p' := @pushes _ (Num_F64 L) n F fld dt p in
  p_mom p' = p_mom p /\ exists x, holds (p_pos p') x /\ rlen (rminus x (rplus x0 (rscale (INR n * h / rlen k) k))) <= INR n * two (-48) * M.
Proof.
  intros L F fld n p x0 [a b c] dt h Ha Dm DX DP Dh Hh HA HB HC HK M HM HS. cbv zeta. cbn [vx vy vz] in HA, HB, HC.
  assert (LE : rlen (mkV a b c) = sqrt (a * a + b * b + c * c)) by (unfold rlen; f_equal; runf; ring). rewrite LE in *.
  assert (P0 : 0 <= a * a + b * b + c * c) by nra.
  assert (HP : two (-800) <= a * a + b * b + c * c).
  { rewrite <- (sqrt_sqrt (a * a + b * b + c * c)) by exact P0. change (-800)%Z with (-400 + -400)%Z. rewrite bpow_plus. apply Rmult_le_compat; try apply bpow_ge_0; exact HK. }
  assert (E48 : two (-48) = 32 * eps) by (change 32 with (two 5); rewrite <- bpow_plus; reflexivity). rewrite E48 in *.
  assert (M0 : 0 <= M) by (unfold M; pose proof (rlen_nonneg x0); pose proof (pos_INR n); pose proof (two_pos (-400)); assert (0 <= INR n * h) by nra; lra).
  pose proof eps_tiny as ET. assert (NM : 0 <= INR n * (eps * M)) by (apply Rmult_le_pos; [apply pos_INR|nra]).
  destruct (photon_after L F fld dt h a b c p x0 n Ha Dm DP HA HB HC HP DX Dh Hh HM ltac:(fold M; lra) n (Nat.le_refl n)) as (_ & _ & PM & PX). fold M in PX. split; [exact PM|].
  destruct (nrv_values _ _ _ PX) as (x1 & x2 & x3 & DV & LN & _). exists (v3 x1 x2 x3). split; [exact DV|].
  replace (rscale (INR n * h / sqrt (a * a + b * b + c * c)) (mkV a b c)) with (rscale (INR n * h) (v3 (a / sqrt (a * a + b * b + c * c)) (b / sqrt (a * a + b * b + c * c)) (c / sqrt (a * a + b * b + c * c)))).
  - eapply Rle_trans; [exact LN|]. lra.
  - unfold rscale, v3. cbn [vx vy vz]. unfold Rdiv. f_equal; ring.
Qed.
Print Assumptions C145_photon.

(** electrons and positrons where there is no field *)
Lemma free_step_R q t h (x p : V3) : runge_kutta (equation_of_motion 1 q (static_field rzero rzero)) t h (x, p) = (rplus x (rscale h (velocity 1 p)), p).
Proof.
  assert (F0 : forall t y, equation_of_motion 1 q (static_field rzero rzero) t y = (velocity 1 (snd y), rzero)).
  { intros t' y. unfold equation_of_motion, static_field. cbn [fst snd]. f_equal. generalize (velocity 1 (snd y)). intros v. vring. }
  assert (Z : forall s, rplus p (rscale s rzero) = p) by (intros; vring).
  unfold runge_kutta. rewrite !F0. unfold pplus, pscale. cbn [fst snd]. rewrite !Z. f_equal.
  - generalize (velocity 1 p). intros [w1 w2 w3]. destruct x as [x1 x2 x3]. unfold rplus, rscale, v3. cbn [vx vy vz]. f_equal; field.
  - vring.
Qed.

Section Lepton.
Variable L : Libm.
Local Notation N := (Num_F64 L).
Variables (e bf : vec spec_float) (hs : spec_float) (h qr a b c : R) (p : particle spec_float) (x0 : V3) (n : nat).
Hypothesis Ha : p_alive p = true.
Hypothesis Dm : dbl (p_mass p) 1.
Hypothesis Dq : dbl (p_charge p) qr.
Hypothesis Hq : Rabs qr = 1.
Hypothesis HE : holds e rzero.
Hypothesis HB : holds bf rzero.
Hypothesis DX : holds (p_pos p) x0.
Hypothesis DP : holds (p_mom p) (v3 a b c).
Hypothesis Dh : dbl hs h.
Hypothesis Hh : 0 < h <= 1.
Let M := 2 + (rlen x0 + rlen (v3 a b c)) + INR n * h.
Hypothesis HM : M <= two 40.
Hypothesis Small : INR n * (256 * (eps * M)) <= 1.
Let v := velocity 1 (v3 a b c).

Lemma lepton_after k : (k <= n)%nat ->
  let P := @pushes _ N k (@lorentz_force _ N) (static_field e bf) hs p in
  p_alive P = true /\ p_mass P = p_mass p /\ p_charge P = p_charge p /\ holds (p_mom P) (v3 a b c) /\
  nrv (p_pos P) (rplus x0 (rscale (INR k * h) v)) (INR k * (256 * (eps * M))).
Proof.
  pose proof eps_tiny as ET. pose proof (rlen_nonneg x0) as X0. pose proof (rlen_nonneg (v3 a b c)) as P0. pose proof (pos_INR n) as N0.
  assert (NH0 : 0 <= INR n * h) by nra. assert (M1 : 2 <= M) by (unfold M; lra). assert (EM : 0 < eps * M) by nra.
  assert (LZ : rlen rzero = 0) by (unfold rlen; rewrite <- sqrt_0; f_equal; runf; ring).
  destruct (comps_le (v3 a b c)) as (Pa & Pb & Pc). unfold v3 in Pa, Pb, Pc. cbn [vx vy vz] in Pa, Pb, Pc. fold (v3 a b c) in Pa, Pb, Pc.
  assert (PB : rlen (v3 a b c) <= M) by (unfold M; lra). assert (MB : M <= two 490) by (eapply Rle_trans; [exact HM|]; apply bpow_le; lia).
  destruct (comps_le x0) as (C1 & C2 & C3).
  induction k as [|k IH]; intros LE; cbv zeta.
  { cbn [pushes INR]. repeat split; auto; try apply DP; destruct DX as (A & B & C); (eapply nr_weak; [apply nr_exact|lra]); unfold rplus, rscale, v3; cbn [vx vy vz]; rewrite Rmult_0_l, Rmult_0_l, Rplus_0_r; assumption. }
  destruct (IH ltac:(lia)) as (PA & PM & PQ & PP & PX). clear IH. cbn [pushes]. set (P := @pushes _ N k _ _ hs p) in *.
  assert (T10 : two (-10) <= 1 <= two 400) by (split; change 1 with (two 0); apply bpow_le; lia).
  assert (H1000 : Rabs h <= two 1000) by (rewrite Rabs_pos_eq by lra; apply Rle_trans with (two 0); [change (two 0) with 1; lra|apply bpow_le; lia]).
  destruct (F64Zero.push_keeps L (static_field e bf) hs h P 1 a b c (fun _ _ => conj HE HB) Dh H1000 ltac:(rewrite PM; exact Dm) T10 ltac:(exists qr; rewrite PQ; exact Dq) PP) as (_ & _ & KP); [lra|lra|lra|].
  destruct (push_fields L (static_field e bf) hs P PA ltac:(rewrite PM; exact Dm)) as (A1 & A2 & A3 & A4 & _).
  split; [exact A1|]. split; [rewrite A2; exact PM|]. split; [rewrite A3; exact PQ|]. split; [exact KP|]. rewrite A4. clear A1 A2 A3 A4 KP.
  rewrite S_INR. assert (KN : INR k + 1 <= INR n) by (rewrite <- S_INR; apply le_INR; lia). pose proof (pos_INR k) as K0.
  assert (ST : INR k * (256 * (eps * M)) <= 1) by (eapply Rle_trans; [|exact Small]; apply Rmult_le_compat_r; lra).
  pose proof (vel_len_lt 1 (v3 a b c) ltac:(lra)) as VL. fold v in VL. destruct (comps_le v) as (V1 & V2 & V3).
  assert (KH : 0 <= INR k * h <= INR n * h) by (split; [nra|apply Rmult_le_compat_r; lra]).
  destruct PX as ((y1 & D1 & E1) & (y2 & D2 & E2) & (y3 & D3 & E3)). unfold rplus, rscale, v3 in E1, E2, E3. cbn [vx vy vz] in E1, E2, E3.
  assert (SZ : forall y r w, Rabs (y - (r + INR k * h * w)) <= INR k * (256 * (eps * M)) -> Rabs r <= rlen x0 -> Rabs w <= 1 -> Rabs y <= M).
  { intros y r w HY HR HW. assert (Rabs (INR k * h * w) <= INR k * h) by (rewrite Rabs_mult, (Rabs_pos_eq (INR k * h)) by lra; pose proof (Rabs_pos w); nra).
    apply abs_in in HY, HR, H. apply Rabs_le. unfold M. lra. }
  destruct (push_near L (p_mass P) (p_charge P) qr ltac:(rewrite PM; exact Dm) ltac:(rewrite PQ; exact Dq) Hq e bf 0 0 0 0 0 0 1 HE HB) with (hs := hs) (h := h) (M := M) (p := P)
    (x1 := y1) (x2 := y2) (x3 := y3) (p1 := a) (p2 := b) (p3 := c) (t := 0) as [NX _]; auto; try (split; [lra|change 1 with (two 0); apply bpow_le; lia]); try (change (v3 0 0 0) with rzero; lra); try lra.
  { split; [exact D1|split; [exact D2|exact D3]]. }
  { eapply SZ; eauto; lra. } { eapply SZ; eauto; lra. } { eapply SZ; eauto; lra. }
  change (v3 0 0 0) with rzero in NX. rewrite free_step_R in NX. cbn [fst] in NX. fold v in NX.
  destruct NX as ((z1 & F1 & G1) & (z2 & F2 & G2) & (z3 & F3 & G3)). unfold rplus, rscale, v3 in G1, G2, G3. cbn [vx vy vz] in G1, G2, G3.
  apply abs_in in E1, E2, E3, G1, G2, G3.
  unfold rplus, rscale, v3. split; [|split]; cbn [vx vy vz]; [exists z1|exists z2|exists z3]; (split; [assumption|]); apply Rabs_le; lra.
Qed.
End Lepton.

Theorem C145_lepton : forall L n (p : particle spec_float) (q : particle R) e b dt h,
  holds_particle p q -> p_mass q = 1 -> Rabs (p_charge q) = 1 -> holds e rzero -> holds b rzero -> dbl dt h -> 0 < h <= 1 ->
  let M := 2 + (rlen (p_pos q) + rlen (p_mom q)) + INR n * h in
  M <= two 40 -> INR n * two (-44) * M <= 1 ->
  let p' := @pushes _ (Num_F64 L) n (@lorentz_force _ (Num_F64 L)) (static_field e b) dt p in
  holds (p_mom p') (p_mom q) /\
  exists x, holds (p_pos p') x /\ rlen (rminus x (rplus (p_pos q) (rscale (INR n * h) (velocity 1 (p_mom q))))) <= INR n * two (-44) * M.
Proof.
  intros L n p q e b' dt h (Ha & _ & Dm & Dq & DX & DP) M1 Q1 HE HB Dh Hh. cbv zeta. rewrite M1 in Dm. revert DP. generalize (p_mom q). intros [a b c] DP. set (M := 2 + (rlen (p_pos q) + rlen (mkV a b c)) + INR n * h). intros HM HS.
  assert (E44 : two (-44) = 512 * eps) by (change 512 with (two 9); rewrite <- bpow_plus; reflexivity). rewrite E44 in *.
  pose proof (pos_INR n) as N0. assert (M0 : 0 <= M) by (unfold M; pose proof (rlen_nonneg (p_pos q)); pose proof (rlen_nonneg (mkV a b c)); assert (0 <= INR n * h) by nra; lra).
  pose proof eps_tiny as ET. assert (NM : 0 <= INR n * (eps * M)) by (apply Rmult_le_pos; [exact N0|nra]).
  change (mkV a b c) with (v3 a b c) in *.
  destruct (lepton_after L e b' dt h (p_charge q) a b c p (p_pos q) n Ha Dm Dq Q1 HE HB DX DP Dh Hh HM ltac:(fold M; lra) n (Nat.le_refl n)) as (_ & _ & _ & PM & PX). fold M in PX. split; [exact PM|].
  destruct (nrv_values _ _ _ PX) as (x1 & x2 & x3 & DV & LN & _). exists (v3 x1 x2 x3). split; [exact DV|]. eapply Rle_trans; [exact LN|]. lra.
Qed.
Print Assumptions C145_lepton.

(** the bounds on n and M matter: a photon 2^53 away from the origin does not move at all with the step 1/2, however often it is pushed *)
Theorem C145_stalled : forall L (F : force spec_float) fld n (p : particle spec_float), p_alive p = true -> dbl (p_mass p) 0 ->
  p_pos p = mkV (f64_lit 9007199254740992 0) (f64_lit 0 0) (f64_lit 0 0) -> p_mom p = mkV (f64_lit 1 0) (f64_lit 0 0) (f64_lit 0 0) ->
  p_pos (@pushes _ (Num_F64 L) n F fld (f64_lit 5 (-1)) p) = p_pos p.
Proof.
  intros L F fld n p HA HM HX HP.
  assert (G : let P := @pushes _ (Num_F64 L) n F fld (f64_lit 5 (-1)) p in p_alive P = true /\ p_mass P = p_mass p /\ p_pos P = p_pos p /\ p_mom P = p_mom p); [|apply G].
  induction n as [|n IH]; [cbn; auto|]. cbv zeta in *. cbn [pushes]. set (P := @pushes _ (Num_F64 L) n F fld _ p) in *. destruct IH as (A & B & C & D).
  unfold push_particle. rewrite A, (zero_is_zero L (p_mass P)) by (rewrite B; exact HM). cbv zeta. rewrite C, D, HX, HP.
  assert (E : @vadd _ (Num_F64 L) (mkV (f64_lit 9007199254740992 0) (f64_lit 0 0) (f64_lit 0 0)) (@smul _ (Num_F64 L) (@ndiv _ (Num_F64 L) (f64_lit 5 (-1)) (@mag _ (Num_F64 L) (mkV (f64_lit 1 0) (f64_lit 0 0) (f64_lit 0 0)))) (mkV (f64_lit 1 0) (f64_lit 0 0) (f64_lit 0 0)))
    = mkV (f64_lit 9007199254740992 0) (f64_lit 0 0) (f64_lit 0 0)) by (vm_compute; reflexivity).
  rewrite E. unfold update_track. destruct (p_tracking P); cbn; auto.
Qed.
Print Assumptions C145_stalled.

(** a photon and an electron, both starting from the origin along x (the electron with momentum 1), after 128 steps of 2^-7: the photon is within
    2 parts in a million million of (1, 0, 0), the electron within 4 parts in a hundred thousand million of (1 / sqrt 2, 0, 0) *)
Definition photon64 : particle spec_float :=
  mkP PPhoton "photon"%string (f64_lit 0 0) (f64_lit 0 0) (f64_lit 1 0) (f64_lit 0 0) (f64_lit 0 0) false true zero64 unit64 [] [] [] [].
Example C145_case : forall L,
  (exists x, holds (p_pos (@pushes _ (Num_F64 L) 128 (@lorentz_force _ (Num_F64 L)) (static_field unit64 unit64) (f64_lit 78125 (-7)) photon64)) x /\
     rlen (rminus x (v3 1 0 0)) <= 2/1000000000000) /\
  (exists x, holds (p_pos (@pushes _ (Num_F64 L) 128 (@lorentz_force _ (Num_F64 L)) (static_field zero64 zero64) (f64_lit 78125 (-7)) electron64)) x /\
     rlen (rminus x (v3 (1 / sqrt 2) 0 0)) <= 4/100000000000).
Proof.
  intros L. assert (NT : INR 128 * (1/128) = 1) by (rewrite INR_IZR_INZ; cbn; lra). assert (N128 : INR 128 = 128) by (rewrite INR_IZR_INZ; reflexivity).
  assert (LZ : rlen rzero = 0) by (unfold rlen; rewrite <- sqrt_0; f_equal; runf; ring).
  assert (L1 : rlen (v3 1 0 0) = 1) by (rewrite (rlen_abs _ 1) by (runf; ring); apply Rabs_R1).
  assert (T44 : two (-44) = / 17592186044416) by reflexivity. assert (T48 : two (-48) = / 281474976710656) by reflexivity.
  assert (B1 : 1 <= two 490) by (change 1 with (two 0); apply bpow_le; lia).
  assert (SM : forall z, 0 <= z <= 8 -> z <= two 40) by (intros z HZ; apply Rle_trans with (two 3); [change (two 3) with 8; lra|apply bpow_le; lia]).
  assert (Z0 : holds zero64 rzero) by (repeat split; apply dbl_0). assert (U1 : holds unit64 (v3 1 0 0)) by (repeat split; (apply dbl_0 || apply dbl_1)).
  split.
  - destruct (C145_photon L (@lorentz_force _ (Num_F64 L)) (static_field unit64 unit64) 128 photon64 rzero (v3 1 0 0) (f64_lit 78125 (-7)) (1/128) eq_refl dbl_0 Z0 U1 lit_128) as (_ & x & HX & D).
    + apply Rle_trans with (two (-7)); [apply bpow_le; lia|]. change (two (-7)) with (/ 128). lra.
    + unfold v3. cbn [vx]. rewrite Rabs_R1. exact B1.
    + unfold v3. cbn [vy]. rewrite Rabs_R0. lra.
    + unfold v3. cbn [vz]. rewrite Rabs_R0. lra.
    + rewrite L1. change 1 with (two 0). apply bpow_le. lia.
    + rewrite LZ, NT. eapply Rle_trans; [apply (SM (2 + 0 + 1)); lra|]. apply bpow_le. lia.
    + rewrite LZ, NT, N128, T48. lra.
    + exists x. split; [exact HX|]. rewrite LZ, L1, NT, N128, T48 in D. replace (rplus rzero (rscale (1 / 1) (v3 1 0 0))) with (v3 1 0 0) in D by (unfold rplus, rscale, rzero, v3; cbn [vx vy vz]; f_equal; field). lra.
  - set (q := test_particle PLepton 1 (-1) rzero (v3 1 0 0)).
    assert (HQ : holds_particle electron64 q).
    { split; [reflexivity|]. split; [reflexivity|]. split; [apply dbl_1|]. split; [apply lit_m1|]. split; [exact Z0|exact U1]. }
    destruct (C145_lepton L 128 electron64 q zero64 zero64 (f64_lit 78125 (-7)) (1/128) HQ eq_refl) as (_ & x & HX & D); try exact Z0; try apply lit_128.
    + change (p_charge q) with (-1). rewrite Rabs_left; lra.
    + lra.
    + change (p_pos q) with rzero. change (p_mom q) with (v3 1 0 0). rewrite LZ, L1, NT. apply SM. lra.
    + change (p_pos q) with rzero. change (p_mom q) with (v3 1 0 0). rewrite LZ, L1, NT, N128, T44. lra.
    + exists x. split; [exact HX|]. change (p_pos q) with rzero in D. change (p_mom q) with (v3 1 0 0) in D. rewrite LZ, L1, NT, N128, T44 in D.
      replace (rplus rzero (rscale 1 (velocity 1 (v3 1 0 0)))) with (v3 (1 / sqrt 2) 0 0) in D; [lra|].
      assert (G : lorentz_factor 1 (v3 1 0 0) = sqrt 2) by (unfold lorentz_factor; f_equal; runf; field).
      assert (S2 : sqrt 2 <> 0) by (pose proof (sqrt_lt_R0 2 ltac:(lra)); lra).
      unfold velocity. rewrite G. unfold rplus, rscale, rzero, v3. cbn [vx vy vz]. f_equal; field; exact S2.
Qed.
