(** * C136: the simulated orbits converge to the solutions of the equation of motion *)
From Coq Require Import String ZArith Reals Lra Psatz List Lia.
From Verif Require Import Num RNum Vec SpecVec VecFacts VecExtra RotationFacts SpecDyn Units MCTools Particle ParticleFacts Fields FieldFacts Pusher PusherFacts PropsPusher PropsOde PropsQuantum Converge.
Import ListNotations.
Local Open Scope R_scope.

(** ** Specification *)
(** fields of bounded strength that vary by at most [K] per unit of time and length *)
Definition regular (A B K : R) (fld : R -> V3 -> V3 * V3) : Prop :=
  forall t x s y, rlen (fst (fld t x)) <= A /\ rlen (snd (fld t x)) <= B /\
    rlen (rminus (fst (fld t x)) (fst (fld s y))) <= K * (Rabs (t - s) + rlen (rminus x y)) /\
    rlen (rminus (snd (fld t x)) (snd (fld s y))) <= K * (Rabs (t - s) + rlen (rminus x y)).
(** where the particle is after [n] pushes *)
Definition pushed (n : nat) (fld : field R) (dt : R) (p : particle R) : phase :=
  (p_pos (pushes n lorentz_force fld dt p), p_mom (pushes n lorentz_force fld dt p)).
(** a solution of the equation of motion that starts like the particle *)
Definition orbit (fld : field R) (p : particle R) (T : R) (y : R -> phase) : Prop :=
  y (p_time p) = (p_pos p, p_mom p) /\ solves (equation_of_motion (p_mass p) (p_charge p) fld) (p_time p) (p_time p + T) y.

(** ** The equation of motion is bounded and Lipschitz continuous *)
Lemma velocity_root m p : 0 < m -> velocity m p = rscale (/ sqrt (m * m + rlen2 p)) p.
Proof.
  intros Hm. unfold velocity, lorentz_factor. do 2 f_equal. pose proof (rlen2_nonneg p) as P.
  rewrite <- (sqrt_square m) at 1 by lra. rewrite <- sqrt_mult_alt by nra. f_equal. field. lra.
Qed.
Lemma velocity_lipschitz m p q : 0 < m -> rlen (rminus (velocity m p) (velocity m q)) <= rlen (rminus p q) / m.
Proof.
  intros Hm. rewrite !velocity_root by exact Hm. pose proof (rlen2_nonneg p) as P0. pose proof (rlen2_nonneg q) as Q0.
  set (a := sqrt (m * m + rlen2 p)). set (b := sqrt (m * m + rlen2 q)).
  assert (A2 : a * a = m * m + rlen2 p) by (apply sqrt_sqrt; nra). assert (B2 : b * b = m * m + rlen2 q) by (apply sqrt_sqrt; nra).
  assert (AM : m <= a) by (unfold a; rewrite <- (sqrt_square m) at 1 by lra; apply sqrt_le_1_alt; lra).
  assert (BM : m <= b) by (unfold b; rewrite <- (sqrt_square m) at 1 by lra; apply sqrt_le_1_alt; lra).
  assert (D : rlen2 (rminus p q) = rlen2 p + rlen2 q - 2 * rdot p q) by (destruct p, q; runf; ring).
  assert (E : rlen2 (rminus (rscale (/ a) p) (rscale (/ b) q)) = rlen2 p / (a * a) + rlen2 q / (b * b) - 2 * rdot p q / (a * b)) by (destruct p, q; runf; field; lra).
  assert (K : rlen2 (rminus (rscale (/ a) p) (rscale (/ b) q)) <= rlen2 (rminus p q) / (a * b)).
  { rewrite E. replace (rlen2 p) with (a * a - m * m) by lra. replace (rlen2 q) with (b * b - m * m) by lra. rewrite D.
    replace (rlen2 p) with (a * a - m * m) by lra. replace (rlen2 q) with (b * b - m * m) by lra.
    assert (X : (a * a - m * m + (b * b - m * m) - 2 * rdot p q) / (a * b) - ((a * a - m * m) / (a * a) + (b * b - m * m) / (b * b) - 2 * rdot p q / (a * b))
      = ((a - b) * (a - b)) * (/ (a * b)) + (m / a - m / b) * (m / a - m / b)) by (field; lra).
    assert (0 < a * b) by nra. pose proof (Rinv_0_lt_compat _ H) as IV. pose proof (Rle_0_sqr (a - b)) as S1. pose proof (Rle_0_sqr (m / a - m / b)) as S2. unfold Rsqr in S1, S2. nra. }
  unfold rlen at 1. rewrite <- (sqrt_square (rlen (rminus p q) / m)).
  - apply sqrt_le_1_alt. eapply Rle_trans; [exact K|].
    replace (rlen (rminus p q) / m * (rlen (rminus p q) / m)) with (rlen (rminus p q) * rlen (rminus p q) / (m * m)) by (field; lra). rewrite rlen_sq.
    unfold Rdiv. apply Rmult_le_compat_l; [apply rlen2_nonneg|]. apply Rinv_le_contravar; nra.
  - apply Rmult_le_pos; [apply rlen_nonneg|]. left. apply Rinv_0_lt_compat. exact Hm.
Qed.
Section Motion.
Variables (m q A B K : R) (fld : field R).
Hypothesis Hm : 0 < m.
Hypothesis HR : regular A B K fld.
Let f := equation_of_motion m q fld.
Definition lip := 2 * Rabs q * K + (1 + Rabs q * B) / m.
Definition bnd := 1 + Rabs q * (A + B).
Lemma motion_bounded t y : plen (f t y) <= bnd.
Proof.
  unfold plen, f, equation_of_motion, bnd. cbn [fst snd]. destruct (HR t (fst y) t (fst y)) as (E1 & B1 & _).
  pose proof (vel_len_lt m (snd y) ltac:(lra)) as V. set (v := velocity m (snd y)) in *. set (e := fst (fld t (fst y))) in *. set (b := snd (fld t (fst y))) in *.
  rewrite rlen_scale. pose proof (triangle e (rcross v b)) as T. pose proof (rcross_len v b) as C. pose proof (rlen_nonneg v). pose proof (rlen_nonneg b). pose proof (Rabs_pos q).
  assert (rlen (rplus e (rcross v b)) <= A + B) by nra. assert (Rabs q * rlen (rplus e (rcross v b)) <= Rabs q * (A + B)) by (apply Rmult_le_compat_l; lra). lra.
Qed.
Lemma bound_nonneg : 0 <= B.
Proof. destruct (HR 0 rzero 0 rzero) as (_ & B1 & _). pose proof (rlen_nonneg (snd (fld 0 rzero))). lra. Qed.
Lemma lip_nonneg : 0 <= K.
Proof.
  destruct (HR 1 rzero 0 rzero) as (_ & _ & E1 & _). assert (Z : rlen (rminus rzero rzero) = 0) by (unfold rlen; rewrite <- sqrt_0; f_equal; runf; ring).
  rewrite Z, Rminus_0_r, Rabs_R1 in E1. pose proof (rlen_nonneg (rminus (fst (fld 1 rzero)) (fst (fld 0 rzero)))). lra.
Qed.
Lemma motion_lipschitz t s y z : plen (pminus (f t y) (f s z)) <= lip * (Rabs (t - s) + distance y z).
Proof.
  unfold distance, plen, pminus, f, equation_of_motion, lip. cbn [fst snd]. destruct (HR t (fst y) s (fst z)) as (E1 & B1 & E2 & B2). destruct (HR s (fst z) s (fst z)) as (E1' & B1' & _).
  pose proof (vel_len_lt m (snd y) ltac:(lra)) as V. pose proof (vel_len_lt m (snd z) ltac:(lra)) as W. pose proof (velocity_lipschitz m (snd y) (snd z) Hm) as VL.
  set (v := velocity m (snd y)) in *. set (w := velocity m (snd z)) in *. set (e := fst (fld t (fst y))) in *. set (b := snd (fld t (fst y))) in *.
  set (e' := fst (fld s (fst z))) in *. set (b' := snd (fld s (fst z))) in *. set (dx := rlen (rminus (fst y) (fst z))) in *. set (dp := rlen (rminus (snd y) (snd z))) in *. set (dt := Rabs (t - s)) in *.
  assert (SP : rminus (rscale q (rplus e (rcross v b))) (rscale q (rplus e' (rcross w b'))) = rscale q (rplus (rminus e e') (rplus (rcross v (rminus b b')) (rcross (rminus v w) b')))) by (clearbody v w e b e' b'; vring).
  rewrite SP, rlen_scale. pose proof (triangle (rminus e e') (rplus (rcross v (rminus b b')) (rcross (rminus v w) b'))) as T1.
  pose proof (triangle (rcross v (rminus b b')) (rcross (rminus v w) b')) as T2. pose proof (rcross_len v (rminus b b')) as C1. pose proof (rcross_len (rminus v w) b') as C2.
  pose proof (Rabs_pos q) as Q0. pose proof bound_nonneg as B0. pose proof lip_nonneg as K0. pose proof (rlen_nonneg v). pose proof (rlen_nonneg b'). pose proof (rlen_nonneg (rminus v w)). pose proof (rlen_nonneg (rminus b b')).
  assert (DX : 0 <= dx) by apply rlen_nonneg. assert (DP : 0 <= dp) by apply rlen_nonneg. assert (DT : 0 <= dt) by apply Rabs_pos.
  assert (G1 : rlen v * rlen (rminus b b') <= K * (dt + dx)) by nra. assert (G2 : rlen (rminus v w) * rlen b' <= dp / m * B) by (apply Rmult_le_compat; lra).
  set (X := rlen (rplus (rminus e e') _)) in *. assert (HX : X <= 2 * (K * (dt + dx)) + dp / m * B) by lra.
  assert (HQ : Rabs q * X <= Rabs q * (2 * (K * (dt + dx)) + dp / m * B)) by (apply Rmult_le_compat_l; lra).
  assert (IM : 0 < / m) by (apply Rinv_0_lt_compat; exact Hm). assert (Y1 : 0 <= Rabs q * K) by nra. assert (Y2 : 0 <= (1 + Rabs q * B) / m) by (apply Rmult_le_pos; [nra|lra]).
  assert (Y3 : 0 <= Rabs q * K * dp) by nra. assert (Y4 : 0 <= (1 + Rabs q * B) / m * (dt + dx)) by (apply Rmult_le_pos; lra).
  replace ((2 * Rabs q * K + (1 + Rabs q * B) / m) * (dt + (dx + dp))) with
    (2 * (Rabs q * K * (dt + dx)) + 2 * (Rabs q * K * dp) + (1 + Rabs q * B) / m * (dt + dx) + (dp / m + Rabs q * (dp / m * B))) by (field; lra).
  replace (Rabs q * (2 * (K * (dt + dx)) + dp / m * B)) with (2 * (Rabs q * K * (dt + dx)) + Rabs q * (dp / m * B)) in HQ by ring. lra.
Qed.
End Motion.

(** ** C136 *)
Theorem C136_error : forall A B K (fld : field R) (p : particle R) dt n y, p_alive p = true -> 0 < p_mass p -> regular A B K fld ->
  let L := 2 * Rabs (p_charge p) * K + (1 + Rabs (p_charge p) * B) / p_mass p in
  0 <= dt -> dt * L <= 1 -> orbit fld p (INR n * dt) y ->
  distance (pushed n fld dt p) (y (p_time p + INR n * dt)) <= 5/2 * (2 + Rabs (p_charge p) * (A + B)) * (exp (2 * L * (INR n * dt)) - 1) * dt.
Proof.
  intros A B K fld p dt n y Ha Hm HR L D0 DL [Y0 SY]. unfold pushed. rewrite C102_runge_kutta by (auto; lra). rewrite <- Y0.
  pose proof (converges _ (bnd (p_charge p) A B) L (motion_bounded (p_mass p) (p_charge p) A B K fld Hm HR) (motion_lipschitz (p_mass p) (p_charge p) A B K fld Hm HR) (p_time p) dt y n D0 DL SY) as C.
  unfold bnd in C. replace (1 + (1 + Rabs (p_charge p) * (A + B))) with (2 + Rabs (p_charge p) * (A + B)) in C by ring. exact C.
Qed.
Print Assumptions C136_error.

Lemma INR_above x : exists N, x < INR N.
Proof.
  destruct (archimed x) as [U _]. exists (Z.to_nat (up x)). destruct (Z_le_gt_dec 0 (up x)) as [P|P].
  - rewrite INR_IZR_INZ, Z2Nat.id by exact P. exact U.
  - pose proof (pos_INR (Z.to_nat (up x))). assert (IZR (up x) < 0) by (apply IZR_lt; lia). lra.
Qed.
(** with more and more steps for the same time, position and momentum tend to those of the orbit *)
Theorem C136_limit : forall A B K (fld : field R) (p : particle R) T y, p_alive p = true -> 0 < p_mass p -> regular A B K fld -> 0 <= T -> orbit fld p T y ->
  forall eps, 0 < eps -> exists N, forall n, (N <= n)%nat -> distance (pushed n fld (T / INR n) p) (y (p_time p + T)) < eps.
Proof.
  intros A B K fld p T y Ha Hm HR T0 OB eps HE. set (L := 2 * Rabs (p_charge p) * K + (1 + Rabs (p_charge p) * B) / p_mass p).
  set (C := 5/2 * (2 + Rabs (p_charge p) * (A + B)) * (exp (2 * L * T) - 1)).
  assert (AB : 0 <= A /\ 0 <= B) by (destruct (HR 0 rzero 0 rzero) as (E1 & B1 & _); pose proof (rlen_nonneg (fst (fld 0 rzero))); pose proof (rlen_nonneg (snd (fld 0 rzero))); lra).
  pose proof (lip_nonneg A B K fld HR) as K0. pose proof (Rabs_pos (p_charge p)) as Q0.
  assert (L0 : 0 <= L).
  { unfold L. assert (0 <= Rabs (p_charge p) * K) by nra. assert (0 <= (1 + Rabs (p_charge p) * B) / p_mass p) by (apply Rmult_le_pos; [nra|left; apply Rinv_0_lt_compat; exact Hm]). lra. }
  assert (C0 : 0 <= C).
  { unfold C. assert (1 <= exp (2 * L * T)) by (pose proof (exp_ineq1_le (2 * L * T)); assert (0 <= 2 * L * T) by nra; lra). apply Rmult_le_pos; [|lra]. nra. }
  destruct (INR_above (L * T + C * T / eps + 1)) as [N HN]. exists N. intros n LE. apply le_INR in LE.
  assert (S1 : 0 <= L * T) by nra. assert (S2 : 0 <= C * T / eps) by (apply Rmult_le_pos; [nra|left; apply Rinv_0_lt_compat; exact HE]).
  assert (N1 : 1 < INR n) by lra. assert (NT : INR n * (T / INR n) = T) by (field; lra).
  assert (DT : 0 <= T / INR n) by (apply Rmult_le_pos; [exact T0|left; apply Rinv_0_lt_compat; lra]).
  pose proof (C136_error A B K fld p (T / INR n) n y Ha Hm HR) as X. cbv zeta in X. fold L in X. rewrite NT in X. fold C in X.
  assert (DL : T / INR n * L <= 1) by (apply Rmult_le_reg_l with (INR n); [lra|]; replace (INR n * (T / INR n * L)) with (L * T) by (field; lra); lra).
  specialize (X DT DL OB). eapply Rle_lt_trans; [exact X|].
  apply Rmult_lt_reg_l with (INR n); [lra|]. replace (INR n * (C * (T / INR n))) with (C * T / eps * eps) by (field; lra).
  apply Rmult_lt_compat_r; [exact HE|lra].
Qed.
Print Assumptions C136_limit.

(** ** The fields of the program that are regular *)
Lemma zero_len v : rlen (rminus v v) = 0.
Proof. destruct v. unfold rlen. rewrite <- sqrt_0. f_equal. runf. ring. Qed.
Theorem C136_static_regular : forall e b : V3, regular (rlen e) (rlen b) 0 (static_field e b).
Proof. intros e b t x s y. unfold static_field. cbn [fst snd]. rewrite !zero_len. repeat split; lra. Qed.
Print Assumptions C136_static_regular.

Lemma cos_lipschitz a b : Rabs (cos a - cos b) <= Rabs (a - b).
Proof.
  rewrite form2, !Rabs_mult, (Rabs_left (-2)) by lra. pose proof (SIN_bound ((a + b) / 2)) as S. assert (S1 : Rabs (sin ((a + b) / 2)) <= 1) by (apply Rabs_le; lra).
  assert (S2 : Rabs (sin ((a - b) / 2)) <= Rabs ((a - b) / 2)).
  { set (u := (a - b) / 2). clearbody u. destruct (Rtotal_order u 0) as [H|[->|H]].
    - rewrite (Rabs_left u) by lra. apply Rabs_le. pose proof (sin_lt_x (- u) ltac:(lra)) as X. rewrite sin_neg in X. pose proof (SIN_bound u).
      destruct (Rle_dec (-1) u); [|lra]. assert (sin u < 0); [|lra]. replace u with (- (- u)) by ring. rewrite sin_neg. assert (0 < sin (- u)); [|lra]. pose proof PI_RGT_0. pose proof PI2_3_2. apply sin_gt_0; lra.
    - rewrite sin_0. lra.
    - rewrite (Rabs_pos_eq u) by lra. apply Rabs_le. pose proof (sin_lt_x u H) as X. pose proof (SIN_bound u).
      destruct (Rle_dec u 1); [|lra]. pose proof PI2_3_2. assert (0 < sin u) by (apply sin_gt_0; lra). lra. }
  assert (H2 : Rabs ((a - b) / 2) = Rabs (a - b) / 2) by (unfold Rdiv; rewrite Rabs_mult, (Rabs_pos_eq (/ 2)) by lra; reflexivity). rewrite H2 in S2.
  pose proof (Rabs_pos (sin ((a - b) / 2))). pose proof (Rabs_pos (sin ((a + b) / 2))). nra.
Qed.
Theorem C136_plane_regular : forall maxE wl pol (d : V3), good_dir d ->
  regular (Rabs maxE) (Rabs maxE) (Rabs maxE * Rabs (2 * c_pi / wl)) (plane_field (new_plane maxE wl pol d)).
Proof.
  intros maxE wl pol d Hd t x s y. pose proof (plane_shape maxE wl pol d t x Hd) as SH.
  destruct (plane_field (new_plane maxE wl pol d) t x) as [E0 B0] eqn:P0. destruct SH as (_ & _ & EB & EM). cbn [fst snd].
  split; [exact EM|]. split; [lra|]. pose proof (plane_form maxE wl pol d t x Hd) as F1. cbv zeta in F1. rewrite P0 in F1. rewrite (plane_form maxE wl pol d s y Hd). cbv zeta.
  pose proof (f_equal fst F1) as FE. pose proof (f_equal snd F1) as FB. cbn [fst snd] in FE, FB. rewrite FE, FB. clear F1 FE FB P0 EB EM. cbn [fst snd]. set (k := 2 * c_pi / wl). set (c1 := cos _). set (c2 := cos ((rdot (runit d) y - s) * k)).
  assert (CC : Rabs (maxE * c1 - maxE * c2) <= Rabs maxE * Rabs k * (Rabs (t - s) + rlen (rminus x y))).
  { rewrite <- Rmult_minus_distr_l, Rabs_mult, Rmult_assoc. apply Rmult_le_compat_l; [apply Rabs_pos|]. unfold c1, c2. eapply Rle_trans; [apply cos_lipschitz|].
    replace ((rdot (runit d) x - t) * k - (rdot (runit d) y - s) * k) with (k * (rdot (runit d) (rminus x y) - (t - s))) by (generalize (runit d); intros [? ? ?]; destruct x, y; runf; ring).
    rewrite Rabs_mult. apply Rmult_le_compat_l; [apply Rabs_pos|].
    assert (U : Rabs (rdot (runit d) (rminus x y)) <= rlen (rminus x y)).
    { destruct Hd as [Hz _]. pose proof (rlen_unit d Hz) as U1. pose proof (cauchy (runit d) (rminus x y)) as C1. pose proof (cauchy (runit d) (rscale (-1) (rminus x y))) as C2.
      rewrite rlen_scale, (Rabs_left (-1)) in C2 by lra. rewrite U1 in C1, C2.
      assert (SG : rdot (runit d) (rscale (-1) (rminus x y)) = - rdot (runit d) (rminus x y)) by (generalize (runit d) (rminus x y); intros [? ? ?] [? ? ?]; runf; ring). rewrite SG in C2. apply Rabs_le. lra. }
    eapply Rle_trans; [apply Rabs_triang|]. rewrite Rabs_Ropp. lra. }
  assert (LIN : forall u v, rminus (rapply (minverse (rotate_to_axis d ez)) u) (rapply (minverse (rotate_to_axis d ez)) v) = rapply (minverse (rotate_to_axis d ez)) (rminus u v)).
  { generalize (minverse (rotate_to_axis d ez)). intros M u v. destruct M, u, v. unfold rapply, rminus, v3. cbn. f_equal; ring. }
  rewrite !LIN, !(beam_len d Hd).
  replace (rminus (v3 (maxE * c1 * cos pol) (maxE * c1 * sin pol) 0) (v3 (maxE * c2 * cos pol) (maxE * c2 * sin pol) 0)) with (v3 ((maxE * c1 - maxE * c2) * cos pol) ((maxE * c1 - maxE * c2) * sin pol) 0) by (unfold rminus, v3; cbn; f_equal; ring).
  replace (rminus (v3 (maxE * c1 * sin pol) (maxE * c1 * cos pol) 0) (v3 (maxE * c2 * sin pol) (maxE * c2 * cos pol) 0)) with (v3 ((maxE * c1 - maxE * c2) * sin pol) ((maxE * c1 - maxE * c2) * cos pol) 0) by (unfold rminus, v3; cbn; f_equal; ring).
  rewrite (rlen_abs _ _ (trans_len2 _ pol)), (rlen_abs _ _ (trans_len2' _ pol)). split; exact CC.
Qed.
Print Assumptions C136_plane_regular.

(** ** Gyration in a static magnetic field *)
(** the helix of a particle with momentum [p] at time [t0] in the field (0, 0, b) *)
Definition helix (m q b t0 : R) (x p : V3) (t : R) : phase :=
  let w := q * b / (m * lorentz_factor m p) * (t - t0) in
  (v3 (vx x + (vx p * sin w + vy p * (1 - cos w)) / (q * b)) (vy x + (vy p * sin w - vx p * (1 - cos w)) / (q * b))
      (vz x + vz p / (m * lorentz_factor m p) * (t - t0)),
   v3 (vx p * cos w + vy p * sin w) (vy p * cos w - vx p * sin w) (vz p)).
Lemma helix_len m q b t0 x p t : rlen2 (snd (helix m q b t0 x p t)) = rlen2 p.
Proof.
  unfold helix. cbn [snd]. set (w := _ * (t - t0)). pose proof (cos2_sin2 w) as E. destruct p as [a c d]. runf.
  transitivity ((a * a + c * c) * (cos w * cos w + sin w * sin w) + d * d); [ring|rewrite E; ring].
Qed.
Lemma wave_derivative a c d e k t0 t : derivable_pt_lim (fun s => a * cos (k * (s - t0)) + c * sin (k * (s - t0)) + (d + e * (s - t0))) t
  (a * (- sin (k * (t - t0)) * k) + c * (cos (k * (t - t0)) * k) + (0 + e * (1 - 0))).
Proof.
  assert (W : derivable_pt_lim (fun s => s - t0) t (1 - 0)) by (apply (derivable_pt_lim_minus id (fct_cte t0)); [apply derivable_pt_lim_id|apply derivable_pt_lim_const]).
  assert (KW : derivable_pt_lim (fun s => k * (s - t0)) t k) by (pose proof (derivable_pt_lim_scal (fun s => s - t0) k t _ W) as X; rewrite Rminus_0_r, Rmult_1_r in X; exact X).
  apply (derivable_pt_lim_plus (fun s => a * cos (k * (s - t0)) + c * sin (k * (s - t0))) (fun s => d + e * (s - t0))).
  - apply (derivable_pt_lim_plus (fun s => a * cos (k * (s - t0))) (fun s => c * sin (k * (s - t0)))).
    + apply (derivable_pt_lim_scal (fun s => cos (k * (s - t0)))). apply (derivable_pt_lim_comp (fun s => k * (s - t0)) cos); [exact KW|apply derivable_pt_lim_cos].
    + apply (derivable_pt_lim_scal (fun s => sin (k * (s - t0)))). apply (derivable_pt_lim_comp (fun s => k * (s - t0)) sin); [exact KW|apply derivable_pt_lim_sin].
  - apply (derivable_pt_lim_plus (fct_cte d) (fun s => e * (s - t0))); [apply derivable_pt_lim_const|]. apply (derivable_pt_lim_scal (fun s => s - t0)). exact W.
Qed.
Lemma wave a c d e k t0 t g l : (forall s, g s = a * cos (k * (s - t0)) + c * sin (k * (s - t0)) + (d + e * (s - t0))) ->
  l = a * (- sin (k * (t - t0)) * k) + c * (cos (k * (t - t0)) * k) + (0 + e * (1 - 0)) -> derivable_pt_lim g t l.
Proof. intros HG -> eps HE. destruct (wave_derivative a c d e k t0 t eps HE) as [dl HD]. exists dl. intros h H1 H2. rewrite !HG. apply HD; assumption. Qed.
Lemma helix_solves m q b t0 x p T : 0 < m -> q * b <> 0 -> solves (equation_of_motion m q (static_field rzero (v3 0 0 b))) t0 T (helix m q b t0 x p).
Proof.
  intros Hm Hb t _. unfold equation_of_motion, static_field. cbn [fst snd].
  assert (G : lorentz_factor m (snd (helix m q b t0 x p t)) = lorentz_factor m p) by (unfold lorentz_factor; rewrite helix_len; reflexivity).
  unfold velocity. rewrite G. pose proof (lf_ge1 m p ltac:(lra)) as G1. unfold helix. cbv zeta. cbn [fst snd]. set (g := lorentz_factor m p) in *. clearbody g.
  destruct x as [x1 x2 x3], p as [p1 p2 p3]. unfold moves, rscale, rplus, rcross, rzero, v3. cbn [vx vy vz].
  assert (q <> 0 /\ b <> 0) as [Hq Hb'] by (split; intros ->; apply Hb; ring).
  split; (split; [|split]).
  - apply (wave (- p2 / (q * b)) (p1 / (q * b)) (x1 + p2 / (q * b)) 0 (q * b / (m * g)) t0); intros; field; repeat split; lra.
  - apply (wave (p1 / (q * b)) (p2 / (q * b)) (x2 - p1 / (q * b)) 0 (q * b / (m * g)) t0); intros; field; repeat split; lra.
  - apply (wave 0 0 x3 (p3 / (m * g)) (q * b / (m * g)) t0); intros; field; repeat split; lra.
  - apply (wave p1 p2 0 0 (q * b / (m * g)) t0); intros; field; repeat split; lra.
  - apply (wave p2 (- p1) 0 0 (q * b / (m * g)) t0); intros; field; repeat split; lra.
  - apply (wave 0 0 p3 0 (q * b / (m * g)) t0); intros; field; repeat split; lra.
Qed.
(** the simulated particle stays near its helix, and so near its energy *)
Theorem C136_gyration : forall b (p : particle R) dt n, p_alive p = true -> 0 < p_mass p -> p_charge p * b <> 0 ->
  let g := Rabs (p_charge p * b) in
  0 <= dt -> dt * (1 + g) <= p_mass p ->
  distance (pushed n (static_field rzero (v3 0 0 b)) dt p) (helix (p_mass p) (p_charge p) b (p_time p) (p_pos p) (p_mom p) (p_time p + INR n * dt))
    <= 5/2 * (2 + g) * (exp (2 * ((1 + g) / p_mass p) * (INR n * dt)) - 1) * dt.
Proof.
  intros b p dt n Ha Hm Hb g D0 DL.
  assert (LB : rlen (v3 0 0 b) = Rabs b) by (apply rlen_abs; runf; ring).
  assert (LZ : rlen rzero = 0) by (unfold rlen; rewrite <- sqrt_0; f_equal; runf; ring).
  assert (GE : Rabs (p_charge p) * Rabs b = g) by (unfold g; rewrite Rabs_mult; reflexivity).
  pose proof (C136_error _ _ _ _ p dt n (helix (p_mass p) (p_charge p) b (p_time p) (p_pos p) (p_mom p)) Ha Hm (C136_static_regular rzero (v3 0 0 b))) as X.
  cbv zeta in X. rewrite LB, LZ, GE, Rplus_0_l, GE in X. replace (2 * Rabs (p_charge p) * 0 + (1 + g) / p_mass p) with ((1 + g) / p_mass p) in X by ring.
  apply X; [exact D0| |split; [|apply helix_solves; assumption]].
  - apply Rmult_le_reg_l with (p_mass p); [exact Hm|]. replace (p_mass p * (dt * ((1 + g) / p_mass p))) with (dt * (1 + g)) by (field; lra). lra.
  - unfold helix. rewrite Rminus_eq_0, !Rmult_0_r, cos_0, sin_0. destruct (p_pos p) as [x1 x2 x3], (p_mom p) as [q1 q2 q3]. cbn [vx vy vz]. unfold v3. f_equal; f_equal; unfold Rdiv; ring.
Qed.
Print Assumptions C136_gyration.
(** the length of the momentum, constant on the helix, drifts by no more than that *)
Theorem C136_momentum_drift : forall b (p : particle R) dt n, p_alive p = true -> 0 < p_mass p -> p_charge p * b <> 0 ->
  let g := Rabs (p_charge p * b) in
  0 <= dt -> dt * (1 + g) <= p_mass p ->
  Rabs (rlen (p_mom (pushes n lorentz_force (static_field rzero (v3 0 0 b)) dt p)) - rlen (p_mom p))
    <= 5/2 * (2 + g) * (exp (2 * ((1 + g) / p_mass p) * (INR n * dt)) - 1) * dt.
Proof.
  intros b p dt n Ha Hm Hb g D0 DL. pose proof (C136_gyration b p dt n Ha Hm Hb D0 DL) as X. cbv zeta in X. fold g in X.
  eapply Rle_trans; [|exact X]. unfold pushed, distance, plen, pminus. cbn [fst snd].
  set (h := helix _ _ _ _ _ _ _) in *. set (P := pushes _ _ _ _ _) in *.
  assert (HL : rlen (p_mom p) = rlen (snd h)) by (unfold rlen, h; rewrite helix_len; reflexivity). rewrite HL.
  pose proof (rlen_nonneg (rminus (p_pos P) (fst h))) as N.
  pose proof (triangle (rminus (p_mom P) (snd h)) (snd h)) as T1. pose proof (triangle (rminus (snd h) (p_mom P)) (p_mom P)) as T2.
  replace (rplus (rminus (p_mom P) (snd h)) (snd h)) with (p_mom P) in T1 by vring.
  replace (rplus (rminus (snd h) (p_mom P)) (p_mom P)) with (snd h) in T2 by vring.
  assert (SY : rlen (rminus (snd h) (p_mom P)) = rlen (rminus (p_mom P) (snd h))) by (unfold rlen; f_equal; runf; ring).
  apply Rabs_le. lra.
Qed.
Print Assumptions C136_momentum_drift.
(** an electron with momentum 1 in a field of strength 1 turns round in the time pi sqrt 2: with more and more steps for that
    time the program reverses its momentum *)
Example C136_case : let p := test_particle PLepton 1 (-1) (v3 0 0 0) (v3 1 0 0) in let fld := static_field rzero (v3 0 0 1) in let T := PI * sqrt 2 in
  p_alive p = true /\ 0 < p_mass p /\ p_charge p * 1 <> 0 /\ (1/2) * (1 + Rabs (p_charge p * 1)) <= p_mass p /\
  orbit fld p T (helix 1 (-1) 1 7 (v3 0 0 0) (v3 1 0 0)) /\
  forall eps, 0 < eps -> exists N, forall n, (N <= n)%nat -> distance (pushed n fld (T / INR n) p) (v3 0 2 0, v3 (-1) 0 0) < eps.
Proof.
  cbv zeta. set (p := test_particle _ _ _ _ _). set (T := PI * sqrt 2).
  assert (O : orbit (static_field rzero (v3 0 0 1)) p T (helix 1 (-1) 1 7 (v3 0 0 0) (v3 1 0 0))).
  { split; [|apply helix_solves; lra]. unfold helix. cbn [p test_particle p_time p_pos p_mom]. rewrite Rminus_eq_0, !Rmult_0_r, cos_0, sin_0. unfold v3. cbn [vx vy vz]. f_equal; f_equal; field. }
  split; [reflexivity|]. split; [cbn; lra|]. split; [cbn; lra|]. split; [cbn; rewrite Rabs_left; lra|]. split; [exact O|].
  assert (T0 : 0 <= T) by (apply Rmult_le_pos; [left; apply PI_RGT_0|apply sqrt_pos]).
  intros eps HE. destruct (C136_limit _ _ _ _ p T _ eq_refl ltac:(cbn; lra) (C136_static_regular rzero (v3 0 0 1)) T0 O eps HE) as [N HN].
  exists N. intros n Hn. specialize (HN n Hn). cbn [p test_particle p_time] in HN. fold p in HN.
  assert (G : lorentz_factor 1 (v3 1 0 0) = sqrt 2) by (unfold lorentz_factor; f_equal; runf; field).
  assert (S2 : sqrt 2 <> 0) by (pose proof (sqrt_lt_R0 2 ltac:(lra)); lra).
  replace (v3 0 2 0, v3 (-1) 0 0) with (helix 1 (-1) 1 7 (v3 0 0 0) (v3 1 0 0) (7 + T)); [exact HN|].
  unfold helix. rewrite G. replace (-1 * 1 / (1 * sqrt 2) * (7 + T - 7)) with (- PI) by (unfold T; field; exact S2).
  rewrite cos_neg, sin_neg, cos_PI, sin_PI. unfold v3. cbn [vx vy vz]. f_equal; f_equal; field; exact S2.
Qed.
