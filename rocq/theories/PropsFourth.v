(** * C143: in a static magnetic field the error of the orbit is of fourth order in the time step *)
From Coq Require Import String ZArith Reals Lra Psatz List Lia.
From Verif Require Import Num RNum Vec SpecVec VecFacts VecExtra RotationFacts SpecDyn Units MCTools Particle ParticleFacts Fields FieldFacts Pusher PusherFacts PropsPusher PropsOde PropsQuantum Converge PropsConverge Fourth.
Import ListNotations.
Local Open Scope R_scope.

(** The orbit is [helix] of PropsConverge.v, which solves the equation of motion in the field (0, 0, b) (C136); [pushed] is the phase
    space point after a number of pushes of the program, [distance] the sum of the distances in position and momentum. *)

(** one push, from any phase space point: the error is of fifth order *)
Theorem C143_one_push : forall b (p : particle R) dt, p_alive p = true -> 0 < p_mass p -> p_charge p * b <> 0 ->
  let g := Rabs (p_charge p * b) in
  0 <= dt -> dt * g <= p_mass p ->
  distance (pushed 1 (static_field rzero (v3 0 0 b)) dt p) (helix (p_mass p) (p_charge p) b (p_time p) (p_pos p) (p_mom p) (p_time p + dt))
    <= (1 + g) * (g / p_mass p) ^ 4 * dt ^ 5.
Proof.
  intros b p dt Ha Hm Hb g D0 DL. unfold pushed. rewrite C102_runge_kutta by (auto; lra). cbn [trajectory INR]. replace (p_time p + 0 * dt) with (p_time p) by ring.
  destruct (p_pos p) as [x1 x2 x3], (p_mom p) as [q1 q2 q3]. apply (local_fifth_bound (p_mass p) (p_charge p) b dt (p_time p) x1 x2 x3 q1 q2 q3); assumption.
Qed.
Print Assumptions C143_one_push.

(** any number of pushes *)
Theorem C143_gyration : forall b (p : particle R) dt n, p_alive p = true -> 0 < p_mass p -> p_charge p * b <> 0 ->
  let g := Rabs (p_charge p * b) in
  0 <= dt -> dt * (1 + g) <= p_mass p ->
  distance (pushed n (static_field rzero (v3 0 0 b)) dt p) (helix (p_mass p) (p_charge p) b (p_time p) (p_pos p) (p_mom p) (p_time p + INR n * dt))
    <= 1/2 * (p_mass p * (g / p_mass p) ^ 4) * (exp (2 * ((1 + g) / p_mass p) * (INR n * dt)) - 1) * dt ^ 4.
Proof.
  intros b p dt n Ha Hm Hb g D0 DL. unfold pushed. rewrite C102_runge_kutta by (auto; lra).
  assert (G0 : 0 <= g) by apply Rabs_pos. set (m := p_mass p) in *. set (q := p_charge p) in *. set (t0 := p_time p).
  set (L := (1 + g) / m). assert (L0 : 0 < L) by (apply Rdiv_lt_0_compat; lra).
  set (fld := static_field rzero (v3 0 0 b)). set (y := helix m q b t0 (p_pos p) (p_mom p)).
  assert (LB : rlen (v3 0 0 b) = Rabs b) by (apply rlen_abs; runf; ring).
  assert (GE : Rabs q * Rabs b = g) by (unfold g; rewrite Rabs_mult; reflexivity).
  assert (HL : forall t s y z, plen (pminus (equation_of_motion m q fld t y) (equation_of_motion m q fld s z)) <= L * (Rabs (t - s) + distance y z)).
  { pose proof (motion_lipschitz m q _ _ _ fld Hm (C136_static_regular rzero (v3 0 0 b))) as X. unfold lip in X. rewrite LB, GE in X. replace (2 * Rabs q * 0 + (1 + g) / m) with L in X by (unfold L; ring). exact X. }
  assert (Y0 : y t0 = (p_pos p, p_mom p)).
  { unfold y, helix. rewrite Rminus_eq_0, !Rmult_0_r, cos_0, sin_0. destruct (p_pos p) as [x1 x2 x3], (p_mom p) as [q1 q2 q3]. cbn [vx vy vz]. unfold v3. f_equal; f_equal; unfold Rdiv; ring. }
  rewrite <- Y0. set (e := 1/2 * (m * (g / m) ^ 4) * dt ^ 4).
  assert (GM : dt * g <= m) by lra. assert (P4 : 0 <= (g / m) ^ 4) by (apply pow_le; apply Rmult_le_pos; [exact G0|left; apply Rinv_0_lt_compat; exact Hm]).
  assert (D4 : 0 <= dt ^ 4) by (apply pow_le; exact D0). assert (E0 : 0 <= e) by (unfold e; apply Rmult_le_pos; [|exact D4]; nra).
  assert (DS : dt * L <= 1) by (apply Rmult_le_reg_l with m; [exact Hm|]; replace (m * (dt * L)) with (dt * (1 + g)) by (unfold L; field; lra); lra).
  pose proof (global_known (equation_of_motion m q fld) L HL t0 dt y e n D0 DS) as X.
  eapply Rle_trans; [apply X|].
  - intros k _. set (t := t0 + INR k * dt). unfold y at 2. rewrite <- (helix_flow m q b t0 (p_pos p) (p_mom p) t (t + dt) Hm Hb). fold y.
    destruct (y t) as [[x1 x2 x3] [q1 q2 q3]]. cbn [fst snd].
    eapply Rle_trans; [apply (local_fifth_bound m q b dt t x1 x2 x3 q1 q2 q3 Hm Hb D0 GM)|]. fold g. unfold e, L. apply Req_le. field. lra.
  - pose proof (pow_exp (2 * (L * dt)) n ltac:(nra)) as P. replace (INR n * (2 * (L * dt))) with (2 * L * (INR n * dt)) in P by ring.
    replace (1 / 2 * (m * (g / m) ^ 4) * (exp (2 * L * (INR n * dt)) - 1) * dt ^ 4) with (e * (exp (2 * L * (INR n * dt)) - 1)) by (unfold e; ring).
    apply Rmult_le_compat_l; [exact E0|lra].
Qed.
Print Assumptions C143_gyration.

(** for a given duration: multiplying the number of steps by k divides the bound by k^4 *)
Theorem C143_fourth_order : forall b (p : particle R) T, p_alive p = true -> 0 < p_mass p -> p_charge p * b <> 0 -> 0 <= T ->
  exists C, forall n, (0 < n)%nat -> T * (1 + Rabs (p_charge p * b)) <= p_mass p * INR n ->
    distance (pushed n (static_field rzero (v3 0 0 b)) (T / INR n) p) (helix (p_mass p) (p_charge p) b (p_time p) (p_pos p) (p_mom p) (p_time p + T)) <= C / INR n ^ 4.
Proof.
  intros b p T Ha Hm Hb T0. set (g := Rabs (p_charge p * b)).
  exists (1/2 * (p_mass p * (g / p_mass p) ^ 4) * (exp (2 * ((1 + g) / p_mass p) * T) - 1) * T ^ 4). intros n Hn HT. assert (N0 : 0 < INR n) by (apply lt_0_INR; exact Hn).
  assert (NT : INR n * (T / INR n) = T) by (field; lra).
  pose proof (C143_gyration b p (T / INR n) n Ha Hm Hb) as X. cbv zeta in X. fold g in X. rewrite NT in X.
  eapply Rle_trans; [apply X|].
  - apply Rmult_le_pos; [exact T0|left; apply Rinv_0_lt_compat; exact N0].
  - apply Rmult_le_reg_l with (INR n); [exact N0|]. replace (INR n * (T / INR n * (1 + g))) with (T * (1 + g)) by (field; lra). lra.
  - apply Req_le. generalize (exp (2 * ((1 + g) / p_mass p) * T)). intros w. field. split; lra.
Qed.
Print Assumptions C143_fourth_order.

(** the length of the momentum, constant on the orbit, drifts by no more than that *)
Theorem C143_momentum_drift : forall b (p : particle R) dt n, p_alive p = true -> 0 < p_mass p -> p_charge p * b <> 0 ->
  let g := Rabs (p_charge p * b) in
  0 <= dt -> dt * (1 + g) <= p_mass p ->
  Rabs (rlen (p_mom (pushes n lorentz_force (static_field rzero (v3 0 0 b)) dt p)) - rlen (p_mom p))
    <= 1/2 * (p_mass p * (g / p_mass p) ^ 4) * (exp (2 * ((1 + g) / p_mass p) * (INR n * dt)) - 1) * dt ^ 4.
Proof.
  intros b p dt n Ha Hm Hb g D0 DL. pose proof (C143_gyration b p dt n Ha Hm Hb D0 DL) as X. cbv zeta in X. fold g in X.
  eapply Rle_trans; [|exact X]. unfold pushed, distance, plen, pminus. cbn [fst snd].
  set (h := helix _ _ _ _ _ _ _) in *. set (P := pushes _ _ _ _ _) in *.
  assert (HL : rlen (p_mom p) = rlen (snd h)) by (unfold rlen, h; rewrite helix_len; reflexivity). rewrite HL.
  pose proof (rlen_nonneg (rminus (p_pos P) (fst h))) as N.
  pose proof (triangle (rminus (p_mom P) (snd h)) (snd h)) as T1. pose proof (triangle (rminus (snd h) (p_mom P)) (p_mom P)) as T2.
  replace (rplus (rminus (p_mom P) (snd h)) (snd h)) with (p_mom P) in T1 by vring.
  replace (rplus (rminus (snd h) (p_mom P)) (p_mom P)) with (snd h) in T2 by vring.
  assert (SY : rlen (rminus (snd h) (p_mom P)) = rlen (rminus (p_mom P) (snd h))) by (unfold rlen; f_equal; runf; ring).
  apply Rabs_le. lra.
Qed.
Print Assumptions C143_momentum_drift.

(** an electron with momentum 1 in a field of strength 1, followed for the time 1 in 100 steps: position and momentum are right to
    5 parts in ten million (the bound of C136 is 4) *)
Example C143_case : let p := test_particle PLepton 1 (-1) (v3 0 0 0) (v3 1 0 0) in
  p_alive p = true /\ 0 < p_mass p /\ p_charge p * 1 <> 0 /\ 1/100 * (1 + Rabs (p_charge p * 1)) <= p_mass p /\
  distance (pushed 100 (static_field rzero (v3 0 0 1)) (1/100) p) (v3 (sin (1 / sqrt 2)) (1 - cos (1 / sqrt 2)) 0, v3 (cos (1 / sqrt 2)) (sin (1 / sqrt 2)) 0) <= 5/10000000.
Proof.
  cbv zeta. set (p := test_particle _ _ _ _ _).
  assert (A1 : Rabs (p_charge p * 1) = 1) by (cbn; rewrite Rabs_left; lra).
  split; [reflexivity|]. split; [cbn; lra|]. split; [cbn; lra|]. split; [rewrite A1; cbn; lra|].
  pose proof (C143_gyration 1 p (1/100) 100 eq_refl ltac:(cbn; lra) ltac:(cbn; lra)) as X. cbv zeta in X. rewrite A1 in X.
  specialize (X ltac:(lra) ltac:(cbn; lra)). change (p_mass p) with 1 in X. change (p_charge p) with (-1) in X. change (p_time p) with 7 in X. change (p_pos p) with (v3 0 0 0) in X. change (p_mom p) with (v3 1 0 0) in X.
  replace (INR 100 * (1 / 100)) with 1 in X by (rewrite INR_IZR_INZ; cbn; lra).
  assert (EX : exp (2 * ((1 + 1) / 1) * 1) <= 81).
  { replace (2 * ((1 + 1) / 1) * 1) with (1 + 1 + (1 + 1)) by field. rewrite !exp_plus. pose proof exp_le_3 as E3. pose proof (exp_pos 1) as E0. set (w := exp 1) in *. assert (w * w <= 9) by nra. assert (0 <= w * w) by nra. nra. }
  replace (v3 (sin (1 / sqrt 2)) (1 - cos (1 / sqrt 2)) 0, v3 (cos (1 / sqrt 2)) (sin (1 / sqrt 2)) 0) with (helix 1 (-1) 1 7 (v3 0 0 0) (v3 1 0 0) (7 + 1)).
  - eapply Rle_trans; [exact X|]. replace ((1 / 1) ^ 4) with 1 by field. replace ((1 / 100) ^ 4) with (1 / 100000000) by field. set (w := exp _) in *. lra.
  - assert (G : lorentz_factor 1 (v3 1 0 0) = sqrt 2) by (unfold lorentz_factor; f_equal; runf; field).
    assert (S2 : sqrt 2 <> 0) by (pose proof (sqrt_lt_R0 2 ltac:(lra)); lra).
    unfold helix. rewrite G. replace (-1 * 1 / (1 * sqrt 2) * (7 + 1 - 7)) with (- (1 / sqrt 2)) by (field; exact S2).
    rewrite cos_neg, sin_neg. unfold v3. cbn [vx vy vz]. f_equal; f_equal; field; exact S2.
Qed.
