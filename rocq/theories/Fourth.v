(** * The push in a static magnetic field: local error of fifth order (facts for C143) *)
From Coq Require Import Reals Lra Psatz Lia.
From Verif Require Import Num RNum Vec SpecVec VecFacts VecExtra SpecDyn Fields PusherFacts PropsOde FieldFacts Converge PropsConverge.
Local Open Scope R_scope.

Lemma abs_range x a : Rabs x <= a -> - a <= x <= a.
Proof. unfold Rabs. destruct (Rcase_abs x); lra. Qed.
(** ** The inverse square root near 1 *)
Lemma inv_root_low x i : 0 < i -> i * i * (1 + x) = 1 -> -1/4 <= x <= 1 -> 1 - x / 2 <= i.
Proof.
  intros I0 E H. destruct (Rle_dec (1 - x / 2) i) as [L|L]; [exact L|]. apply Rnot_le_lt in L. exfalso.
  set (j := 1 - x / 2) in *. assert (J : j * j * (1 + x) <= 1) by (unfold j; nra).
  assert (i * i < j * j) by nra. assert (0 < 1 + x) by lra. nra.
Qed.
Lemma inv_root_up x i : 0 < i -> i * i * (1 + x) = 1 -> -1/4 <= x <= 1 -> i <= 1 - x / 2 + x * x / 2.
Proof.
  intros I0 E H. destruct (Rle_dec i (1 - x / 2 + x * x / 2)) as [L|L]; [exact L|]. apply Rnot_le_lt in L. exfalso.
  set (j := 1 - x / 2 + x * x / 2) in *.
  assert (J : 1 <= j * j * (1 + x)).
  { replace (j * j * (1 + x)) with (1 + x * x * (1/4 + 3/4 * x - x * x / 4 + x * x * x / 4)) by (unfold j; field).
    assert (0 <= 1/4 + 3/4 * x - x * x / 4 + x * x * x / 4); [|nra].
    destruct (Rle_dec 0 x); [assert (0 <= x * x * x) by nra; nra|]. assert (x * x <= 1/16) by nra. assert (- (1/64) <= x * x * x) by nra. lra. }
  assert (J0 : 0 < j) by (unfold j; nra). assert (j * j < i * i) by nra. assert (0 < 1 + x) by lra. nra.
Qed.
Lemma inv_root_near x i : 0 < i -> i * i * (1 + x) = 1 -> -1/2 <= x <= 1/2 -> Rabs (i - 1) <= Rabs x.
Proof.
  intros I0 E H. unfold Rabs. destruct (Rcase_abs x) as [N|N]; destruct (Rcase_abs (i - 1)) as [M|M].
  - exfalso. assert (i * i < 1) by nra. nra.
  - destruct (Rle_dec (i - 1) (- x)) as [L|L]; [exact L|]. apply Rnot_le_lt in L. exfalso. assert (X : (1 - x) * (1 - x) < i * i) by nra. assert ((1 - x) * (1 - x) * (1 + x) < 1) by nra.
    assert (0 <= - x * (1 + x - x * x)) by (apply Rmult_le_pos; nra). nra.
  - destruct (Rle_dec (- (i - 1)) x) as [L|L]; [exact L|]. apply Rnot_le_lt in L. exfalso. assert (X : i * i < (1 - x) * (1 - x)) by nra. assert (1 < (1 - x) * (1 - x) * (1 + x)) by nra.
    assert (0 <= x * (1 + x - x * x)) by (apply Rmult_le_pos; nra). nra.
  - destruct (Req_dec i 1) as [->|NE]; [lra|]. assert (1 < i * i) by nra. nra.
Qed.

(** ** The four stages, in units of the first: [u] is the square of the angle turned in a step, [be] the share of the momentum that turns,
    [i2], [i3], [i4] the inverse energies of the stages *)
Section Stages.
Variables be u i2 i3 i4 : R.
Hypothesis Hb : 0 <= be <= 1.
Hypothesis Hu : 0 <= u <= 1.
Hypothesis P2 : 0 < i2.
Hypothesis P3 : 0 < i3.
Hypothesis P4 : 0 < i4.
Let X3 := (1 - u * i2 / 4) * (1 - u * i2 / 4) + u * i2 * i2 / 4 - 1.
Let X4 := (1 - u * i2 * i3 / 2) * (1 - u * i2 * i3 / 2) + u * i3 * i3 * ((1 - u * i2 / 4) * (1 - u * i2 / 4)) - 1.
Hypothesis E2 : i2 * i2 * (1 + be * (u / 4)) = 1.
Hypothesis E3 : i3 * i3 * (1 + be * X3) = 1.
Hypothesis E4 : i4 * i4 * (1 + be * X4) = 1.

Lemma uu : 0 <= u * u <= u.
Proof. nra. Qed.
Lemma bu : 0 <= be * u <= u.
Proof. nra. Qed.
Lemma stage2 : 0 <= i2 - (1 - be * u / 8) <= u * u / 32.
Proof.
  pose proof bu as BU. set (x := be * (u / 4)) in *. assert (HX : 0 <= x <= u / 4) by (unfold x; nra). pose proof (inv_root_low x i2 P2 E2 ltac:(lra)). pose proof (inv_root_up x i2 P2 E2 ltac:(lra)).
  assert (x * x <= u * u / 16) by nra. assert (x / 2 = be * u / 8) by (unfold x; field). lra.
Qed.
Lemma i2_range : 7/8 <= i2 <= 1.
Proof.
  pose proof stage2. pose proof bu. pose proof uu. split; [lra|]. destruct (Rle_dec i2 1); [assumption|]. exfalso. assert (1 < i2 * i2) by nra. assert (0 <= be * (u / 4)) by nra. nra.
Qed.
Lemma x3_range : - (u / 4) <= X3 <= - (u / 4) + u * u / 8.
Proof.
  pose proof i2_range as I. pose proof uu as U. set (d := 1 - i2). assert (D : 0 <= d <= u / 8) by (unfold d; pose proof stage2; pose proof bu; lra).
  assert (E : X3 = - (u / 4) + u * (d * d) / 4 + u * u * (i2 * i2) / 16) by (unfold X3, d; field). rewrite E.
  assert (0 <= d * d <= u * u / 64) by nra. assert (0 <= i2 * i2 <= 1) by nra. assert (0 <= u * (d * d) <= u * u / 64) by nra. assert (0 <= u * u * (i2 * i2) <= u * u) by nra. lra.
Qed.
Lemma stage3 : Rabs (i3 - (1 + be * u / 8)) <= u * u / 16.
Proof.
  pose proof x3_range as X. pose proof uu as U. pose proof bu as BU. set (x := be * X3) in *.
  assert (HX : - (be * u / 4) <= x <= - (be * u / 4) + u * u / 8) by (unfold x; nra).
  assert (HX2 : - (u / 4) <= x <= 0) by (split; [lra|unfold x; nra]).
  pose proof (inv_root_low x i3 P3 E3 ltac:(lra)). pose proof (inv_root_up x i3 P3 E3 ltac:(lra)). assert (x * x <= u * u / 16) by nra. apply Rabs_le. lra.
Qed.
Lemma i3_range : 1 <= i3 <= 19/16.
Proof.
  pose proof stage3 as S3. apply abs_range in S3. pose proof uu. pose proof bu. split; [|lra]. destruct (Rle_dec 1 i3); [assumption|]. exfalso. apply Rnot_le_lt in n.
  pose proof x3_range. assert (be * X3 <= 0) by nra. assert (i3 * i3 < 1) by nra. assert (0 < 1 + be * X3) by nra. nra.
Qed.
Lemma x4_range : Rabs X4 <= u * u / 2.
Proof.
  pose proof i2_range as R2. pose proof i3_range as R3. pose proof stage2 as S2. pose proof stage3 as S3. apply abs_range in S3. pose proof uu as U. pose proof bu as BU.
  assert (E : X4 = u * (i3 * (i3 - i2)) - u * u * (i2 * (i3 * i3) * (1/2 - i2 / 4)) + u * (u * u) * (i2 * i2 * (i3 * i3)) / 16) by (unfold X4; field).
  assert (D : 0 <= i3 - i2 <= 11/32 * u) by lra.
  assert (T1 : 0 <= u * (i3 * (i3 - i2)) <= 7/16 * (u * u)).
  { assert (0 <= i3 * (i3 - i2) <= 19/16 * (11/32 * u)) by nra. nra. }
  assert (S : 1 <= i3 * i3 <= 361/256) by nra. assert (W : 0 <= i2 * (i3 * i3) <= 361/256) by nra.
  assert (W2 : 49/64 <= i2 * (i3 * i3) ) by nra.
  assert (Q : 1/4 <= 1/2 - i2 / 4 <= 9/32) by lra.
  assert (T2 : 3/16 <= i2 * (i3 * i3) * (1/2 - i2 / 4) <= 13/32) by nra.
  assert (T2' : 3/16 * (u * u) <= u * u * (i2 * (i3 * i3) * (1/2 - i2 / 4)) <= 13/32 * (u * u)) by nra.
  assert (V : 0 <= i2 * i2 * (i3 * i3) <= 361/256) by nra.
  assert (T3 : 0 <= u * (u * u) <= u * u) by nra.
  assert (T3' : 0 <= u * (u * u) * (i2 * i2 * (i3 * i3)) <= 361/256 * (u * u)) by nra.
  rewrite E. apply Rabs_le. lra.
Qed.
Lemma stage4 : Rabs (i4 - 1) <= u * u / 2.
Proof.
  pose proof x4_range as X. pose proof uu as U. pose proof X as X'. apply abs_range in X'.
  assert (B : Rabs (be * X4) <= Rabs X4) by (rewrite Rabs_mult, (Rabs_pos_eq be) by lra; pose proof (Rabs_pos X4); nra).
  eapply Rle_trans; [apply (inv_root_near (be * X4) i4 P4 E4)|lra]. pose proof (abs_range (be * X4) (1/2) ltac:(lra)). lra.
Qed.
Lemma product23 : Rabs (i2 * i3 - 1) <= u * u / 8.
Proof.
  pose proof stage2 as S2. pose proof stage3 as S3. apply abs_range in S3. pose proof uu as U. pose proof bu as BU.
  set (y := be * u / 8) in *. set (e2 := i2 - (1 - y)) in *. set (e3 := i3 - (1 + y)) in *. assert (Y : 0 <= y <= u / 8) by (unfold y; lra).
  replace (i2 * i3 - 1) with (- (y * y) + e2 * (1 + y) + e3 * (1 - y) + e2 * e3) by (unfold e2, e3; ring).
  assert (0 <= y * y <= u * u / 64) by nra. assert (0 <= e2 * (1 + y) <= u * u / 32 * (9/8)) by nra. assert (- (u * u / 16) <= e3 * (1 - y) <= u * u / 16) by (split; nra).
  assert (- (u * u / 512) <= e2 * e3 <= u * u / 512) by (split; nra). apply Rabs_le. lra.
Qed.
(** the sums of the stages *)
Lemma sum_a : Rabs (1 + 2 * i2 + 2 * ((1 - u * i2 / 4) * i3) + (1 - u * i2 * i3 / 2) * i4 - (6 - u)) <= 3/2 * (u * u).
Proof.
  pose proof stage2 as S2. pose proof stage3 as S3. pose proof stage4 as S4. pose proof product23 as PR. apply abs_range in S3. apply abs_range in S4. apply abs_range in PR. pose proof uu as U. pose proof bu as BU.
  set (e := i2 * i3 - 1) in *. set (f := i4 - 1) in *.
  replace (1 + 2 * i2 + 2 * ((1 - u * i2 / 4) * i3) + (1 - u * i2 * i3 / 2) * i4 - (6 - u)) with
    (2 * (i2 - (1 - be * u / 8)) + 2 * (i3 - (1 + be * u / 8)) + f - u * (e + f / 2 + e * f / 2)) by (unfold e, f; field).
  assert (EF : - (u * u / 16) <= e * f / 2 <= u * u / 16) by (split; nra).
  assert (- (u * u / 2) <= u * (e + f / 2 + e * f / 2) <= u * u / 2) by (split; nra). apply Rabs_le. lra.
Qed.
Lemma sum_b : Rabs (i2 + i2 * i3 + i3 * i4 * (1 - u * i2 / 4) - (3 - u / 4)) <= 3/2 * (u * u).
Proof.
  pose proof stage2 as S2. pose proof stage3 as S3. pose proof stage4 as S4. pose proof product23 as PR. pose proof i3_range as R3. apply abs_range in S3. apply abs_range in S4. apply abs_range in PR. pose proof uu as U. pose proof bu as BU.
  set (e := i2 * i3 - 1) in *. set (f := i4 - 1) in *.
  replace (i2 + i2 * i3 + i3 * i4 * (1 - u * i2 / 4) - (3 - u / 4)) with
    ((i2 - (1 - be * u / 8)) + (i3 - (1 + be * u / 8)) + e + i3 * f - u / 4 * (e + f + e * f)) by (unfold e, f; field).
  assert (EF : - (u * u / 16) <= e * f <= u * u / 16) by (split; nra).
  assert (- (u * u / 4) <= u / 4 * (e + f + e * f) <= u * u / 4) by (split; nra).
  assert (- (19/32 * (u * u)) <= i3 * f <= 19/32 * (u * u)) by (split; nra). apply Rabs_le. lra.
Qed.
Lemma sum_z : Rabs (1 + 2 * i2 + 2 * i3 + i4 - 6) <= u * u.
Proof.
  pose proof stage2 as S2. pose proof stage3 as S3. pose proof stage4 as S4. apply abs_range in S3. apply abs_range in S4. pose proof uu as U. pose proof bu as BU. apply Rabs_le. lra.
Qed.
End Stages.

(** ** Sine and cosine *)
Lemma sin_four_pos a : 0 <= a <= 1 -> Rabs (sin a - (a - a * (a * a) / 6)) <= a * ((a * a) * (a * a)) / 100.
Proof.
  intros H. destruct (pre_sin_bound a 0 ltac:(lra) ltac:(lra)) as [LO UP]. unfold sin_approx, sin_term, sum_f_R0 in LO, UP. cbn in LO, UP.
  set (u := a * a). assert (U : 0 <= u <= 1) by (unfold u; nra). assert (V : 0 <= a * (u * u)) by (apply Rmult_le_pos; nra).
  assert (L1 : a - a * u / 6 <= sin a) by (eapply Rle_trans; [|exact LO]; apply Req_le; unfold u; field).
  assert (L2 : sin a <= a - a * u / 6 + a * (u * u) / 120) by (eapply Rle_trans; [exact UP|]; apply Req_le; unfold u; field).
  apply Rabs_le. lra.
Qed.
Lemma sin_four a : Rabs a <= 1 -> Rabs (sin a - (a - a * (a * a) / 6)) <= Rabs a * ((a * a) * (a * a)) / 100.
Proof.
  intros H. apply abs_range in H. destruct (Rle_dec 0 a) as [P|P].
  - rewrite (Rabs_pos_eq a) by lra. apply sin_four_pos. lra.
  - rewrite (Rabs_left a) by lra. pose proof (sin_four_pos (- a) ltac:(lra)) as X. rewrite sin_neg in X. rewrite <- Rabs_Ropp.
    replace (- (sin a - (a - a * (a * a) / 6))) with (- sin a - (- a - - a * (- a * - a) / 6)) by (field). eapply Rle_trans; [exact X|]. apply Req_le. field.
Qed.
Lemma cos_four a : Rabs a <= 1 -> Rabs (1 - cos a - (a * a / 2 - (a * a) * (a * a) / 24)) <= (a * a) * ((a * a) * (a * a)) / 100.
Proof.
  intros H. apply abs_range in H. destruct (pre_cos_bound a 0 ltac:(lra) ltac:(lra)) as [_ UP]. destruct (pre_cos_bound a 1 ltac:(lra) ltac:(lra)) as [LO _].
  unfold cos_approx, cos_term, sum_f_R0 in LO, UP. set (u := a * a). assert (U : 0 <= u) by (unfold u; nra). assert (V : 0 <= u * (u * u)) by (apply Rmult_le_pos; nra).
  assert (L1 : 1 - u / 2 + u * u / 24 - u * (u * u) / 720 <= cos a).
  { eapply Rle_trans; [|exact LO]. apply Req_le. cbn [Init.Nat.mul Init.Nat.add Nat.mul pow]. replace (INR (fact 6)) with 720 by (rewrite INR_IZR_INZ; reflexivity). cbn. unfold u. field. }
  assert (L2 : cos a <= 1 - u / 2 + u * u / 24) by (eapply Rle_trans; [exact UP|]; apply Req_le; cbn; unfold u; field).
  apply Rabs_le. lra.
Qed.

(** ** One step from a point of the helix *)
Definition turn (P : V3) : V3 := v3 (vy P) (- vx P) 0.
Definition energy_of (m : R) (P : V3) : R := m * lorentz_factor m P.
Lemma energy_pos m P : 0 < m -> m <= energy_of m P.
Proof. intros Hm. unfold energy_of. pose proof (lf_ge1 m P ltac:(lra)). nra. Qed.
Lemma energy_sq m P : 0 < m -> energy_of m P * energy_of m P = m * m + rlen2 P.
Proof. intros Hm. unfold energy_of. pose proof (lf_sq m P ltac:(lra)) as E. replace (m * lorentz_factor m P * (m * lorentz_factor m P)) with (m * m * (lorentz_factor m P * lorentz_factor m P)) by ring. rewrite E. field. lra. Qed.
Lemma motion_form m q b t (y : phase) : equation_of_motion m q (static_field rzero (v3 0 0 b)) t y =
  (rscale (/ energy_of m (snd y)) (snd y), rscale (q * b * / energy_of m (snd y)) (turn (snd y))).
Proof.
  unfold equation_of_motion, static_field, velocity. cbn [fst snd]. fold (energy_of m (snd y)). generalize (/ energy_of m (snd y)). intros k. destruct (snd y) as [y1 y2 y3].
  unfold turn, rscale, rplus, rcross, rzero, v3. cbn [vx vy vz]. f_equal. f_equal; ring.
Qed.
Lemma inverse_energy N1 N2 be X : 0 < N1 -> 0 < N2 -> N2 * N2 = N1 * N1 + be * (N1 * N1) * X -> N1 / N2 * (N1 / N2) * (1 + be * X) = 1.
Proof. intros H1 H2 E. replace (N1 / N2 * (N1 / N2) * (1 + be * X)) with ((N1 * N1 + be * (N1 * N1) * X) / (N2 * N2)) by (field; lra). rewrite <- E. field. lra. Qed.

Section Local.
Variables m q b h : R.
Variables t x1 x2 x3 p1 p2 p3 : R.
Hypothesis Hm : 0 < m.
Hypothesis Hqb : q * b <> 0.
Hypothesis Hh : 0 <= h.
Hypothesis Ha : h * Rabs (q * b) <= m.
Let p := v3 p1 p2 p3.
Let N1 := energy_of m p.
Let a := q * b * h / N1.
Let u := a * a.
Let Q2 := rplus p (rscale (h / 2) (rscale (q * b * / N1) (turn p))).
Let N2 := energy_of m Q2.
Let Q3 := rplus p (rscale (h / 2) (rscale (q * b * / N2) (turn Q2))).
Let N3 := energy_of m Q3.
Let Q4 := rplus p (rscale h (rscale (q * b * / N3) (turn Q3))).
Let N4 := energy_of m Q4.
Let i2 := N1 / N2.
Let i3 := N1 / N3.
Let i4 := N1 / N4.
Let r2 := p1 * p1 + p2 * p2.
Let be := r2 / (N1 * N1).
Let A := 1 + 2 * i2 + 2 * ((1 - u * i2 / 4) * i3) + (1 - u * i2 * i3 / 2) * i4.
Let B := i2 + i2 * i3 + i3 * i4 * (1 - u * i2 / 4).
Let Z := 1 + 2 * i2 + 2 * i3 + i4.
Let eS := a * A / 6 - sin a.
Let eC := u * B / 6 - (1 - cos a).

Lemma N1m : m <= N1. Proof. apply energy_pos, Hm. Qed.
Lemma N2m : m <= N2. Proof. apply energy_pos, Hm. Qed.
Lemma N3m : m <= N3. Proof. apply energy_pos, Hm. Qed.
Lemma N4m : m <= N4. Proof. apply energy_pos, Hm. Qed.
Lemma Q2_form : Q2 = v3 (p1 + a / 2 * p2) (p2 - a / 2 * p1) p3.
Proof. pose proof N1m. unfold Q2, a, turn, rplus, rscale, p, v3. cbn [vx vy vz]. f_equal; field; lra. Qed.
Lemma Q3_form : Q3 = v3 (p1 * (1 - u * i2 / 4) + a * i2 / 2 * p2) (p2 * (1 - u * i2 / 4) - a * i2 / 2 * p1) p3.
Proof. pose proof N1m. pose proof N2m. unfold Q3. rewrite Q2_form. unfold i2, u, a, turn, rplus, rscale, p, v3. cbn [vx vy vz]. f_equal; field; lra. Qed.
Lemma Q4_form : Q4 = v3 (p1 * (1 - u * i2 * i3 / 2) + a * i3 * (1 - u * i2 / 4) * p2) (p2 * (1 - u * i2 * i3 / 2) - a * i3 * (1 - u * i2 / 4) * p1) p3.
Proof. pose proof N1m. pose proof N2m. pose proof N3m. unfold Q4. rewrite Q3_form. unfold i2, i3, u, a, turn, rplus, rscale, p, v3. cbn [vx vy vz]. f_equal; field; lra. Qed.
Lemma N1_sq : N1 * N1 = m * m + (r2 + p3 * p3).
Proof. unfold N1. rewrite energy_sq by exact Hm. unfold p, r2. runf. ring. Qed.
Lemma be_N : be * (N1 * N1) = r2.
Proof. pose proof N1m. unfold be. field. lra. Qed.
Lemma be_range : 0 <= be <= 1.
Proof.
  pose proof N1m. pose proof N1_sq as E. pose proof be_N as BN. assert (R0 : 0 <= r2) by (unfold r2; nra). assert (NN : 0 < N1 * N1) by nra. split.
  - unfold be. apply Rmult_le_pos; [exact R0|left; apply Rinv_0_lt_compat; exact NN].
  - apply Rmult_le_reg_r with (N1 * N1); [exact NN|]. rewrite BN. nra.
Qed.
Lemma eq2 : i2 * i2 * (1 + be * (u / 4)) = 1.
Proof.
  pose proof N1m. pose proof N2m. unfold i2. apply inverse_energy; [lra|lra|]. rewrite be_N, N1_sq. unfold N2. rewrite energy_sq by exact Hm. rewrite Q2_form. unfold r2, u. runf. field.
Qed.
Lemma eq3 : i3 * i3 * (1 + be * ((1 - u * i2 / 4) * (1 - u * i2 / 4) + u * i2 * i2 / 4 - 1)) = 1.
Proof.
  pose proof N1m. pose proof N3m. unfold i3. apply inverse_energy; [lra|lra|]. rewrite be_N, N1_sq. unfold N3. rewrite energy_sq by exact Hm. rewrite Q3_form. unfold r2, u. clearbody i2 a. runf. field.
Qed.
Lemma eq4 : i4 * i4 * (1 + be * ((1 - u * i2 * i3 / 2) * (1 - u * i2 * i3 / 2) + u * i3 * i3 * ((1 - u * i2 / 4) * (1 - u * i2 / 4)) - 1)) = 1.
Proof.
  pose proof N1m. pose proof N4m. unfold i4. apply inverse_energy; [lra|lra|]. rewrite be_N, N1_sq. unfold N4. rewrite energy_sq by exact Hm. rewrite Q4_form. unfold r2, u. clearbody i2 i3 a. runf. field.
Qed.
Lemma a_range : Rabs a <= h * Rabs (q * b) / m.
Proof.
  pose proof N1m. unfold a, Rdiv. rewrite !Rabs_mult. rewrite (Rabs_pos_eq h) by exact Hh. rewrite (Rabs_pos_eq (/ N1)) by (left; apply Rinv_0_lt_compat; lra).
  rewrite <- Rabs_mult. rewrite (Rmult_comm (Rabs (q * b)) h). apply Rmult_le_compat_l; [apply Rmult_le_pos; [exact Hh|apply Rabs_pos]|]. apply Rinv_le_contravar; lra.
Qed.
Lemma a_small : Rabs a <= 1.
Proof. eapply Rle_trans; [apply a_range|]. apply Rmult_le_reg_r with m; [exact Hm|]. replace (h * Rabs (q * b) / m * m) with (h * Rabs (q * b)) by (field; lra). lra. Qed.
Lemma u_range : 0 <= u <= 1.
Proof. pose proof (abs_range a 1 a_small). unfold u. nra. Qed.
Lemma positives : 0 < i2 /\ 0 < i3 /\ 0 < i4.
Proof. pose proof N1m. pose proof N2m. pose proof N3m. pose proof N4m. unfold i2, i3, i4. repeat split; apply Rdiv_lt_0_compat; lra. Qed.
Lemma eS_small : Rabs eS <= 13/50 * (Rabs a * (u * u)).
Proof.
  destruct positives as (P2 & P3 & P4). pose proof (sum_a be u i2 i3 i4 be_range u_range P2 P3 P4 eq2 eq3 eq4) as SA. fold A in SA. pose proof (sin_four a a_small) as SF. fold u in SF.
  replace eS with (a * ((A - (6 - u)) / 6) - (sin a - (a - a * u / 6))) by (unfold eS; field).
  eapply Rle_trans; [apply Rabs_triang|]. rewrite Rabs_Ropp, Rabs_mult. unfold Rdiv at 1. rewrite Rabs_mult, (Rabs_pos_eq (/ 6)) by lra.
  pose proof (Rabs_pos a). assert (Rabs a * (Rabs (A - (6 - u)) * / 6) <= Rabs a * (3 / 2 * (u * u) * / 6)) by (apply Rmult_le_compat_l; lra). lra.
Qed.
Lemma eC_small : Rabs eC <= 13/50 * (Rabs a * (u * u)).
Proof.
  destruct positives as (P2 & P3 & P4). pose proof (sum_b be u i2 i3 i4 be_range u_range P2 P3 P4 eq2 eq3 eq4) as SB. fold B in SB. pose proof (cos_four a a_small) as CF. fold u in CF. pose proof u_range as U.
  replace eC with (u * ((B - (3 - u / 4)) / 6) - (1 - cos a - (u / 2 - u * u / 24))) by (unfold eC; field).
  assert (UA : u <= Rabs a) by (pose proof a_small; pose proof (Rabs_pos a); unfold u; replace (a * a) with (Rabs a * Rabs a) by (rewrite <- Rabs_mult; apply Rabs_pos_eq; nra); nra).
  eapply Rle_trans; [apply Rabs_triang|]. rewrite Rabs_Ropp, Rabs_mult, (Rabs_pos_eq u) by lra. unfold Rdiv at 1. rewrite Rabs_mult, (Rabs_pos_eq (/ 6)) by lra.
  assert (u * (Rabs (B - (3 - u / 4)) * / 6) <= u * (3 / 2 * (u * u) * / 6)) by (apply Rmult_le_compat_l; lra). assert (u * (u * u) <= Rabs a * (u * u)) by nra. lra.
Qed.
Lemma Z_small : Rabs (Z - 6) <= u * u.
Proof. destruct positives as (P2 & P3 & P4). exact (sum_z be u i2 i3 i4 be_range u_range P2 P3 P4 eq2 eq3 eq4). Qed.

Let f := equation_of_motion m q (static_field rzero (v3 0 0 b)).
Lemma step_form : pminus (runge_kutta f t h (v3 x1 x2 x3, p)) (helix m q b t (v3 x1 x2 x3) p (t + h)) =
  (v3 ((eS * p1 + eC * p2) / (q * b)) ((eS * p2 - eC * p1) / (q * b)) (h * p3 / (6 * N1) * (Z - 6)), v3 (eS * p2 - eC * p1) (- eS * p1 - eC * p2) 0).
Proof.
  pose proof N1m. pose proof N2m. pose proof N3m. pose proof N4m.
  rewrite (runge_kutta_stages f t h (v3 x1 x2 x3, p) (rscale (/ N1) p, rscale (q * b * / N1) (turn p)) (rscale (/ N2) Q2, rscale (q * b * / N2) (turn Q2))
    (rscale (/ N3) Q3, rscale (q * b * / N3) (turn Q3)) (rscale (/ N4) Q4, rscale (q * b * / N4) (turn Q4))); try (unfold f; rewrite motion_form; reflexivity).
  unfold helix. cbv zeta. fold (energy_of m p). fold N1. replace (q * b / N1 * (t + h - t)) with a by (unfold a; field; lra). replace (t + h - t) with h by ring.
  rewrite Q2_form, Q3_form, Q4_form. unfold eS, eC, A, B, Z. generalize (sin a) (cos a). intros s c.
  assert (I2 : / N2 = i2 / N1) by (unfold i2; field; lra). assert (I3 : / N3 = i3 / N1) by (unfold i3; field; lra). assert (I4 : / N4 = i4 / N1) by (unfold i4; field; lra). rewrite I2, I3, I4.
  assert (HA : h = a * N1 / (q * b)) by (unfold a; set (w := q * b) in *; field; split; lra).
  unfold u. set (w := q * b) in *. clearbody a i2 i3 i4 N1 w. rewrite HA.
  cbv [pminus pplus pscale rminus rplus rscale turn p v3 fst snd vx vy vz]. f_equal; f_equal; field; repeat split; lra.
Qed.
Lemma local_fifth : distance (runge_kutta f t h (v3 x1 x2 x3, p)) (helix m q b t (v3 x1 x2 x3) p (t + h)) <= (1 + Rabs (q * b)) * h * (u * u).
Proof.
  unfold distance. rewrite step_form. unfold plen. cbn [fst snd]. pose proof N1m as HN. pose proof eS_small as ES. pose proof eC_small as EC. pose proof Z_small as ZS. pose proof N1_sq as NQ.
  assert (G0 : 0 < Rabs (q * b)) by (apply Rabs_pos_lt; exact Hqb). set (g := Rabs (q * b)) in *.
  set (r := sqrt r2). assert (R0 : 0 <= r2) by (unfold r2; nra). assert (RR : r * r = r2) by (apply sqrt_sqrt; exact R0). assert (RP : 0 <= r) by apply sqrt_pos.
  assert (RN : r <= N1) by (destruct (Rle_dec r N1) as [L|L]; [exact L|exfalso; nra]).
  assert (PN : Rabs p3 <= N1) by (apply Rabs_le; split; nra).
  set (e := Rabs eS + Rabs eC). pose proof (Rabs_pos eS) as S0. pose proof (Rabs_pos eC) as C0. assert (E0 : 0 <= e) by (unfold e; lra).
  assert (EE : eS * eS + eC * eC <= e * e).
  { assert (eS * eS = Rabs eS * Rabs eS) as -> by (rewrite <- Rabs_mult; symmetry; apply Rabs_pos_eq; nra). assert (eC * eC = Rabs eC * Rabs eC) as -> by (rewrite <- Rabs_mult; symmetry; apply Rabs_pos_eq; nra). unfold e. nra. }
  (* the momentum *)
  assert (MO : rlen (v3 (eS * p2 - eC * p1) (- eS * p1 - eC * p2) 0) <= e * r).
  { unfold rlen. rewrite <- (sqrt_square (e * r)) by (apply Rmult_le_pos; assumption). apply sqrt_le_1_alt.
    replace (rlen2 (v3 (eS * p2 - eC * p1) (- eS * p1 - eC * p2) 0)) with ((eS * eS + eC * eC) * r2) by (unfold r2; runf; ring).
    replace (e * r * (e * r)) with (e * e * (r * r)) by ring. rewrite RR. apply Rmult_le_compat_r; assumption. }
  (* the position *)
  set (k := h * p3 / (6 * N1) * (Z - 6)).
  assert (PO : rlen (v3 ((eS * p1 + eC * p2) / (q * b)) ((eS * p2 - eC * p1) / (q * b)) k) <= e * r / g + Rabs k).
  { replace (v3 ((eS * p1 + eC * p2) / (q * b)) ((eS * p2 - eC * p1) / (q * b)) k) with (rplus (v3 ((eS * p1 + eC * p2) / (q * b)) ((eS * p2 - eC * p1) / (q * b)) 0) (v3 0 0 k)) by (unfold rplus, v3; cbn [vx vy vz]; f_equal; ring).
    eapply Rle_trans; [apply triangle|]. assert (K : rlen (v3 0 0 k) = Rabs k) by (apply rlen_abs; runf; ring). rewrite K. apply Rplus_le_compat_r.
    assert (ER : 0 <= e * r / g) by (apply Rmult_le_pos; [apply Rmult_le_pos; assumption|left; apply Rinv_0_lt_compat; exact G0]).
    unfold rlen. rewrite <- (sqrt_square (e * r / g)) by exact ER. apply sqrt_le_1_alt.
    assert (GG : g * g = q * b * (q * b)) by (unfold g; rewrite <- Rabs_mult; apply Rabs_pos_eq; nra).
    replace (rlen2 (v3 ((eS * p1 + eC * p2) / (q * b)) ((eS * p2 - eC * p1) / (q * b)) 0)) with ((eS * eS + eC * eC) * r2 * / (q * b * (q * b))).
    - replace (e * r / g * (e * r / g)) with (e * e * (r * r) * / (g * g)) by (field; lra). rewrite RR, GG. apply Rmult_le_compat_r; [left; apply Rinv_0_lt_compat; nra|]. apply Rmult_le_compat_r; assumption.
    - assert (q <> 0 /\ b <> 0) as [Hq Hb] by (split; intros ZZ; apply Hqb; rewrite ZZ; ring). unfold r2. runf. field. split; assumption. }
  assert (AG : Rabs a * N1 = g * h).
  { unfold a, Rdiv. rewrite !Rabs_mult, (Rabs_pos_eq h) by exact Hh. rewrite (Rabs_pos_eq (/ N1)) by (left; apply Rinv_0_lt_compat; lra). unfold g. rewrite Rabs_mult. field. lra. }
  assert (UU : 0 <= u * u) by nra. pose proof (Rabs_pos a) as A0.
  assert (ER : e * r <= 13/25 * (g * h * (u * u))).
  { apply Rle_trans with (13/25 * (Rabs a * (u * u)) * N1); [|rewrite <- AG; lra]. apply Rmult_le_compat; try assumption. unfold e. lra. }
  assert (KK : Rabs k <= h * (u * u) / 6).
  { unfold k. rewrite Rabs_mult. replace (h * p3 / (6 * N1)) with (h / 6 * (p3 / N1)) by (field; lra). rewrite Rabs_mult, (Rabs_pos_eq (h / 6)) by lra.
    assert (PQ : Rabs (p3 / N1) <= 1).
    { unfold Rdiv. rewrite Rabs_mult, (Rabs_pos_eq (/ N1)) by (left; apply Rinv_0_lt_compat; lra). apply Rmult_le_reg_r with N1; [lra|]. rewrite Rmult_assoc, Rinv_l, Rmult_1_r, Rmult_1_l by lra. exact PN. }
    pose proof (Rabs_pos (p3 / N1)). pose proof (Rabs_pos (Z - 6)). assert (Rabs (p3 / N1) * Rabs (Z - 6) <= u * u) by nra. nra. }
  assert (EG : e * r / g <= 13/25 * (h * (u * u))).
  { apply Rmult_le_reg_r with g; [exact G0|]. replace (e * r / g * g) with (e * r) by (field; lra). lra. }
  assert (HU : 0 <= h * (u * u)) by (apply Rmult_le_pos; assumption). assert (GHU : 0 <= g * h * (u * u)) by (apply Rmult_le_pos; [nra|assumption]). lra.
Qed.
Lemma local_fifth_bound : distance (runge_kutta f t h (v3 x1 x2 x3, p)) (helix m q b t (v3 x1 x2 x3) p (t + h)) <= (1 + Rabs (q * b)) * (Rabs (q * b) / m) ^ 4 * h ^ 5.
Proof.
  eapply Rle_trans; [apply local_fifth|]. pose proof a_range as AR. pose proof (Rabs_pos a) as A0. pose proof (Rabs_pos (q * b)) as G0. set (g := Rabs (q * b)) in *.
  assert (U : u <= (h * g / m) * (h * g / m)).
  { unfold u. replace (a * a) with (Rabs a * Rabs a) by (rewrite <- Rabs_mult; apply Rabs_pos_eq; nra). apply Rmult_le_compat; assumption. }
  pose proof u_range as U0. assert (UU : u * u <= (h * g / m) * (h * g / m) * ((h * g / m) * (h * g / m))) by (apply Rmult_le_compat; lra).
  replace ((1 + g) * (g / m) ^ 4 * h ^ 5) with ((1 + g) * h * ((h * g / m) * (h * g / m) * ((h * g / m) * (h * g / m)))) by (field; lra).
  apply Rmult_le_compat_l; [apply Rmult_le_pos; lra|exact UU].
Qed.
End Local.

(** ** The helix from any of its points *)
Lemma helix_flow m q b t0 x p s t : 0 < m -> q * b <> 0 -> let y := helix m q b t0 x p s in helix m q b s (fst y) (snd y) t = helix m q b t0 x p t.
Proof.
  intros Hm Hb y. assert (G : lorentz_factor m (snd y) = lorentz_factor m p) by (unfold lorentz_factor, y; rewrite helix_len; reflexivity).
  pose proof (lf_ge1 m p ltac:(lra)) as G1. assert (q <> 0 /\ b <> 0) as [Hq Hb'] by (split; intros ZZ; apply Hb; rewrite ZZ; ring).
  unfold helix at 1. rewrite G. unfold y. clear G y. unfold helix. cbv zeta. cbn [fst snd]. set (g := lorentz_factor m p) in *. clearbody g.
  set (k := q * b / (m * g)). replace (k * (t - t0)) with (k * (t - s) + k * (s - t0)) by ring. rewrite sin_plus, cos_plus.
  set (s1 := sin (k * (t - s))). set (c1 := cos (k * (t - s))). set (s0 := sin (k * (s - t0))). set (c0 := cos (k * (s - t0))). clearbody s1 c1 s0 c0.
  destruct x as [x1 x2 x3], p as [p1 p2 p3]. unfold v3. cbn [vx vy vz]. f_equal; f_equal; field; repeat split; lra.
Qed.

(** ** Steps with a known local error *)
Section Global.
Variable f : R -> phase -> phase.
Variables F L : R.
Hypothesis HF : forall t y, plen (f t y) <= F.
Hypothesis HL : forall t s y z, plen (pminus (f t y) (f s z)) <= L * (Rabs (t - s) + distance y z).
Lemma global_known t0 h y e n : 0 <= h -> h * L <= 1 -> (forall k, (k < n)%nat -> distance (runge_kutta f (t0 + INR k * h) h (y (t0 + INR k * h))) (y (t0 + INR k * h + h)) <= e * (2 * (L * h))) ->
  distance (trajectory f t0 h (y t0) n) (y (t0 + INR n * h)) <= e * ((1 + 2 * (L * h)) ^ n - 1).
Proof.
  intros H0 HS. pose proof (L_nonneg f L HL) as L0. assert (A0 : 0 <= L * h) by nra.
  induction n as [|n IH]; intros LE.
  { cbn [trajectory pow INR]. replace (t0 + 0 * h) with t0 by ring. unfold distance, plen, pminus. cbn [fst snd]. rewrite !zero_len. lra. }
  cbn [trajectory]. rewrite S_INR in *. specialize (IH (fun k Hk => LE k (Nat.lt_lt_succ_r _ _ Hk))). specialize (LE n (Nat.lt_succ_diag_r n)).
  set (t := t0 + INR n * h) in *. replace (t0 + (INR n + 1) * h) with (t + h) in * by (unfold t; ring).
  pose proof (step_stable f L HL t h (trajectory f t0 h (y t0) n) (y t) H0 HS) as ST. set (z := trajectory f t0 h (y t0) n) in *.
  pose proof (plen_sum (pminus (runge_kutta f t h z) (y (t + h))) (pminus (runge_kutta f t h z) (runge_kutta f t h (y t))) (pminus (runge_kutta f t h (y t)) (y (t + h)))
    ltac:(generalize (runge_kutta f t h z) (runge_kutta f t h (y t)); intros; pring)) as P.
  unfold distance in *. cbn [pow]. set (q := 1 + 2 * (L * h)) in *. set (d := plen (pminus z (y t))) in *.
  assert (Q1 : 1 <= q) by (unfold q; lra).
  assert (M : q * d <= q * (e * (q ^ n - 1))) by (apply Rmult_le_compat_l; lra).
  assert (E : e * (2 * (L * h)) = e * (q - 1)) by (unfold q; ring). rewrite E in LE. lra.
Qed.
End Global.
