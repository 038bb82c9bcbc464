(** * Rounding errors of the Lorentz pusher in a static field (facts for C144) *)
From Coq Require Import ZArith Reals Lra Lia Bool List Psatz.
From Coq Require Import Floats.SpecFloat.
From Flocq Require Import Core.Zaux Core.Raux Core.Defs Core.Generic_fmt Core.Round_NE Core.Ulp IEEE754.BinarySingleNaN.
From Verif Require Import Num Outcome F64Facts F64Real F64Draw F64Kin F64Zero Vec SpecVec VecFacts VecExtra SpecDyn Particle Fields Pusher PusherFacts PropsOde PropsQuantum Converge PropsConverge.
Local Open Scope R_scope.

Notation eps := (two (-53)).
(** a double within [d] of [r] *)
Definition nr (x : spec_float) (r d : R) : Prop := exists v, dbl x v /\ Rabs (v - r) <= d.
Definition nrv (V : vec spec_float) (w : V3) (d : R) : Prop := nr (vx V) (vx w) d /\ nr (vy V) (vy w) d /\ nr (vz V) (vz w) d.

Lemma abs_in x a : Rabs x <= a -> - a <= x <= a.
Proof. unfold Rabs. destruct (Rcase_abs x); lra. Qed.
Lemma eps_tiny : 0 < eps < 1 / 1000000000000000.
Proof. split; [apply two_pos|]. change eps with (/ IZR (2 ^ 53)). cbn [Z.pow Z.pow_pos Pos.iter Z.mul Pos.mul]. lra. Qed.
Lemma rnd_close z M : Rabs z <= M -> 1 <= M -> Rabs (rnd z - z) <= eps * M.
Proof.
  intros H M1. pose proof eps_tiny as E. destruct (Rle_or_lt (two (-1022)) (Rabs z)) as [Q|Q].
  - eapply Rle_trans; [apply rnd_rel; exact Q|]. apply Rmult_le_compat_l; lra.
  - eapply Rle_trans; [apply rnd_abs_err; exact Q|]. pose proof eta_eps. nra.
Qed.
Lemma nr_exact x r : dbl x r -> nr x r 0.
Proof. intros D. exists r. split; [exact D|]. rewrite Rminus_eq_0, Rabs_R0. lra. Qed.
Lemma nr_weak x r d d' : nr x r d -> d <= d' -> nr x r d'.
Proof. intros (v & D & H) L. exists v. split; [exact D|lra]. Qed.
Lemma nr_nonneg x r d : nr x r d -> 0 <= d.
Proof. intros (v & _ & H). pose proof (Rabs_pos (v - r)). lra. Qed.
Lemma nr_add x y r s d d' M : nr x r d -> nr y s d' -> Rabs (r + s) + d + d' <= M -> 1 <= M -> M <= huge -> nr (f64_add x y) (r + s) (d + d' + eps * M).
Proof.
  intros (v & DV & HV) (w & DW & HW) HM M1 MH. apply abs_in in HV. apply abs_in in HW.
  assert (B : Rabs (v + w) <= M) by (pose proof (abs_in _ _ (Rle_refl (Rabs (r + s)))); apply Rabs_le; lra).
  exists (rnd (v + w)). split; [apply dbl_add; auto; lra|]. pose proof (rnd_close (v + w) M B M1) as C. apply abs_in in C. apply Rabs_le. lra.
Qed.
Lemma nr_sub x y r s d d' M : nr x r d -> nr y s d' -> Rabs (r - s) + d + d' <= M -> 1 <= M -> M <= huge -> nr (f64_sub x y) (r - s) (d + d' + eps * M).
Proof.
  intros (v & DV & HV) (w & DW & HW) HM M1 MH. apply abs_in in HV. apply abs_in in HW.
  assert (B : Rabs (v - w) <= M) by (pose proof (abs_in _ _ (Rle_refl (Rabs (r - s)))); apply Rabs_le; lra).
  exists (rnd (v - w)). split; [apply dbl_sub; auto; lra|]. pose proof (rnd_close (v - w) M B M1) as C. apply abs_in in C. apply Rabs_le. lra.
Qed.
Lemma nr_mul x y r s d d' M e : nr x r d -> nr y s d' -> Rabs r * d' + Rabs s * d + d * d' <= e -> Rabs (r * s) + e <= M -> 1 <= M -> M <= huge -> nr (f64_mul x y) (r * s) (e + eps * M).
Proof.
  intros (v & DV & HV) (w & DW & HW) HE HM M1 MH.
  assert (K : Rabs (v * w - r * s) <= e).
  { replace (v * w - r * s) with (r * (w - s) + s * (v - r) + (v - r) * (w - s)) by ring. eapply Rle_trans; [|exact HE].
    eapply Rle_trans; [apply Rabs_triang|]. eapply Rle_trans; [apply Rplus_le_compat_r, Rabs_triang|]. rewrite !Rabs_mult.
    apply Rplus_le_compat; [apply Rplus_le_compat|]; try (apply Rmult_le_compat_l; [apply Rabs_pos|assumption]). apply Rmult_le_compat; auto; apply Rabs_pos. }
  apply abs_in in K. assert (B : Rabs (v * w) <= M) by (pose proof (abs_in _ _ (Rle_refl (Rabs (r * s)))); apply Rabs_le; lra).
  exists (rnd (v * w)). split; [apply dbl_mul; auto; lra|]. pose proof (rnd_close (v * w) M B M1) as C. apply abs_in in C. apply Rabs_le. lra.
Qed.
Lemma nr_half x r d M : nr x r d -> Rabs (r / 2) + d / 2 <= M -> 1 <= M -> M <= huge -> nr (f64_div x (f64_lit 2 0)) (r / 2) (d / 2 + eps * M).
Proof.
  intros (v & DV & HV) HM M1 MH. apply abs_in in HV.
  assert (B : Rabs (v / 2) <= M) by (pose proof (abs_in _ _ (Rle_refl (Rabs (r / 2)))); apply Rabs_le; lra).
  exists (rnd (v / 2)). split; [apply dbl_div; [exact DV|apply lit2|lra|lra]|]. pose proof (rnd_close (v / 2) M B M1) as C. apply abs_in in C. apply Rabs_le. lra.
Qed.

(** ** Velocity and force at a momentum that is exactly given *)
Section Slopes.
Variable L : Libm.
Local Notation N := (Num_F64 L).
Variables (m q : spec_float) (qr : R).
Hypothesis Dm : dbl m 1.
Hypothesis Dq : dbl q qr.
Hypothesis Hq : Rabs qr = 1.

Lemma mass_range : two (-10) <= 1 <= two 400.
Proof. split; change 1 with (two 0); apply bpow_le; lia. Qed.
Lemma gam_facts V a b c : dblv V a b c -> Rabs a <= two 490 -> Rabs b <= two 490 -> Rabs c <= two 490 ->
  let g := sqrt (1 + a * a + b * b + c * c) in
  exists f, dbl (f64_mul m (@lepton_gamma _ N m V)) f /\ 1 <= f /\ (1 - 8 * eps) * g <= f <= (1 + 8 * eps) * g /\ 1 <= g /\ Rabs a <= g /\ Rabs b <= g /\ Rabs c <= g /\ g <= two 495.
Proof.
  intros DV HA HB HC g. destruct (gamma_dbl L m 1 V a b c Dm mass_range DV HA HB HC) as (DG & G1 & G2). exists (fgamma 1 a b c).
  assert (TH : two 502 <= huge) by (apply bpow_le; lia).
  split. { pose proof (dbl_mul _ _ _ _ Dm DG) as Q. rewrite Rmult_1_l, (rnd_rep _ _ DG) in Q. apply Q. rewrite Rabs_pos_eq by lra. lra. }
  split; [exact G1|]. split; [apply fgamma_err|]. assert (P : 0 <= 1 + a * a + b * b + c * c) by nra. assert (GG : g * g = 1 + a * a + b * b + c * c) by (apply sqrt_sqrt; exact P).
  assert (G0 : 0 <= g) by apply sqrt_pos. split; [nra|]. split; [apply Rabs_le; nra|]. split; [apply Rabs_le; nra|]. split; [apply Rabs_le; nra|].
  destruct (Rle_dec g (two 495)) as [LE|LE]; [exact LE|]. exfalso. apply Rnot_le_lt in LE.
  assert (T1 : 32 * two 490 = two 495) by (change 495%Z with (5 + 490)%Z; rewrite bpow_plus; change (two 5) with 32; reflexivity).
  apply abs_in in HA. apply abs_in in HB. apply abs_in in HC. assert (T0 : 1 <= two 490) by (change 1 with (two 0); apply bpow_le; lia). set (t := two 490) in *. assert (a * a <= t * t) by nra. assert (b * b <= t * t) by nra. assert (c * c <= t * t) by nra. assert (1 <= t * t) by nra. nra.
Qed.
(** division of something known up to [d] by the computed energy *)
Lemma quotient K c c' g f d : 0 <= K -> 1 <= g -> (1 - 8 * eps) * g <= f <= (1 + 8 * eps) * g -> Rabs (c' - c) <= d * g -> Rabs c <= 2 * K * g -> 0 <= d -> Rabs (c' / f - c / g) <= 11/10 * d + 18 * eps * K.
Proof.
  intros K0 G1 HF HD HC D0. pose proof eps_tiny as E. assert (F0 : 9/10 * g <= f) by nra.
  replace (c' / f - c / g) with ((c' - c) * / f + c / g * ((g - f) * / f)) by (field; split; lra).
  assert (IF : 0 < / f) by (apply Rinv_0_lt_compat; lra).
  assert (GF : g * / f <= 11/10 * (1 + 20 * eps) /\ g * / f <= 1 + 10 * eps).
  { split; apply Rmult_le_reg_r with f; try lra; rewrite Rmult_assoc, Rinv_l, Rmult_1_r by lra; nra. }
  eapply Rle_trans; [apply Rabs_triang|]. rewrite !Rabs_mult, (Rabs_pos_eq (/ f)) by lra.
  assert (Q : Rabs (c / g) <= 2 * K).
  { unfold Rdiv. rewrite Rabs_mult, (Rabs_pos_eq (/ g)) by (left; apply Rinv_0_lt_compat; lra). apply Rmult_le_reg_r with g; [lra|]. rewrite Rmult_assoc, Rinv_l by lra. lra. }
  assert (A1 : Rabs (c' - c) * / f <= d * (g * / f)) by (rewrite <- Rmult_assoc; apply Rmult_le_compat_r; lra).
  assert (A2 : d * (g * / f) <= d * (11/10)) by (apply Rmult_le_compat_l; lra).
  assert (A3 : Rabs (g - f) * / f <= 9 * eps).
  { apply Rle_trans with (8 * eps * (g * / f)); [|nra]. rewrite <- Rmult_assoc. apply Rmult_le_compat_r; [lra|]. apply Rabs_le. lra. }
  assert (A4 : Rabs (c / g) * (Rabs (g - f) * / f) <= 2 * K * (9 * eps)) by (apply Rmult_le_compat; try lra; [apply Rabs_pos|apply Rmult_le_pos; [apply Rabs_pos|lra]]). lra.
Qed.
Lemma lf_one a b c : lorentz_factor 1 (v3 a b c) = sqrt (1 + a * a + b * b + c * c).
Proof. unfold lorentz_factor. f_equal. runf. field. Qed.
Lemma one_velocity a f g : 1 <= g -> 1 <= f -> (1 - 8 * eps) * g <= f <= (1 + 8 * eps) * g -> Rabs a <= g -> Rabs (rnd (a / f) - a / g) <= 20 * eps /\ Rabs (a / f) <= 2.
Proof.
  intros G1 F1 HF HA. pose proof eps_tiny as E. pose proof (quotient 1 a a g f 0 ltac:(lra) G1 HF ltac:(rewrite Rminus_eq_0, Rabs_R0; lra) ltac:(lra) ltac:(lra)) as Q.
  assert (AG : Rabs (a / g) <= 1).
  { unfold Rdiv. rewrite Rabs_mult, (Rabs_pos_eq (/ g)) by (left; apply Rinv_0_lt_compat; lra). apply Rmult_le_reg_r with g; [lra|]. rewrite Rmult_assoc, Rinv_l by lra. lra. }
  apply abs_in in Q. apply abs_in in AG. assert (B : Rabs (a / f) <= 2) by (apply Rabs_le; lra). split; [|exact B]. pose proof (rnd_close (a / f) 2 B ltac:(lra)) as C. apply abs_in in C. apply Rabs_le. lra.
Qed.
Lemma two_huge k : (k <= 1023)%Z -> two k <= huge.
Proof. intros H. apply bpow_le. lia. Qed.
Lemma small_huge r : r <= 1000000 -> r <= huge.
Proof. intros H. pose proof (two_huge 30 ltac:(lia)) as Q. change (two 30) with 1073741824 in Q. lra. Qed.
Lemma velocity_close V a b c : dblv V a b c -> Rabs a <= two 490 -> Rabs b <= two 490 -> Rabs c <= two 490 ->
  nrv (@push_position _ N m V) (velocity 1 (v3 a b c)) (20 * eps).
Proof.
  intros DV HA HB HC. destruct (gam_facts V a b c DV HA HB HC) as (f & DF & F1 & HF & G1 & GA & GB & GC & _). destruct DV as (DA & DB & DC).
  unfold velocity. rewrite lf_one, Rmult_1_l. set (g := sqrt _) in *.
  destruct (one_velocity a f g G1 F1 HF GA) as [QA BA]. destruct (one_velocity b f g G1 F1 HF GB) as [QB BB]. destruct (one_velocity c f g G1 F1 HF GC) as [QC BC].
  assert (H2 : 2 <= huge) by (apply small_huge; lra).
  change (@push_position _ N m V) with (@vdivs _ N V (f64_mul m (@lepton_gamma _ N m V))).
  unfold nrv, rscale, v3. cbn [vx vy vz]. split; [|split].
  - exists (rnd (a / f)). split; [apply dbl_div; auto; lra|]. rewrite (Rmult_comm (/ g)). exact QA.
  - exists (rnd (b / f)). split; [apply dbl_div; auto; lra|]. rewrite (Rmult_comm (/ g)). exact QB.
  - exists (rnd (c / f)). split; [apply dbl_div; auto; lra|]. rewrite (Rmult_comm (/ g)). exact QC.
Qed.

Lemma prod_le a b A B : Rabs a <= A -> Rabs b <= B -> Rabs (a * b) <= A * B.
Proof. intros HA HB. rewrite Rabs_mult. apply Rmult_le_compat; auto; apply Rabs_pos. Qed.
Lemma one_force e E p1 P1 b1 B1 p2 P2 b2 B2 gf f g F : 1 <= F <= two 400 -> dbl e E -> dbl p1 P1 -> dbl b1 B1 -> dbl p2 P2 -> dbl b2 B2 -> dbl gf f ->
  Rabs E <= F -> Rabs B1 <= F -> Rabs B2 <= F -> 1 <= g <= two 495 -> 1 <= f -> (1 - 8 * eps) * g <= f <= (1 + 8 * eps) * g -> Rabs P1 <= g -> Rabs P2 <= g ->
  nr (f64_mul q (f64_add e (f64_div (f64_sub (f64_mul p1 b1) (f64_mul p2 b2)) gf))) (qr * (E + (P1 * B1 - P2 * B2) / g)) (40 * eps * F).
Proof.
  intros HF De D1 Db1 D2 Db2 Df HE HB1 HB2 HG F1 HFG HP1 HP2. pose proof eps_tiny as EP.
  assert (GFH : g * F <= two 895) by (change 895%Z with (495 + 400)%Z; rewrite bpow_plus; apply Rmult_le_compat; lra).
  assert (H8 : 8 * two 895 <= huge) by (change 8 with (two 3); rewrite <- bpow_plus; apply two_huge; lia).
  assert (G1 : 1 <= g * F) by nra. assert (F8 : 8 * F <= huge) by (eapply Rle_trans; [|exact H8]; assert (two 400 <= two 895) by (apply bpow_le; lia); lra).
  pose proof (prod_le P1 B1 g F HP1 HB1) as X1. pose proof (prod_le P2 B2 g F HP2 HB2) as X2. pose proof X1 as X1'. pose proof X2 as X2'. apply abs_in in X1'. apply abs_in in X2'.
  assert (C1 : nr (f64_mul p1 b1) (P1 * B1) (0 + eps * (g * F))) by (apply (nr_mul _ _ _ _ 0 0); [apply nr_exact; exact D1|apply nr_exact; exact Db1| | |exact G1|]; lra).
  assert (C2 : nr (f64_mul p2 b2) (P2 * B2) (0 + eps * (g * F))) by (apply (nr_mul _ _ _ _ 0 0); [apply nr_exact; exact D2|apply nr_exact; exact Db2| | |exact G1|]; lra).
  assert (EG : 0 <= eps * (g * F) <= g * F / 100) by nra.
  assert (XD : Rabs (P1 * B1 - P2 * B2) <= 2 * (g * F)) by (apply Rabs_le; lra).
  pose proof (nr_sub _ _ _ _ _ _ (3 * (g * F)) C1 C2 ltac:(lra) ltac:(lra) ltac:(lra)) as C3.
  destruct C3 as (c' & Dc & Hc). set (c := P1 * B1 - P2 * B2) in *.
  assert (QT : Rabs (c' / f - c / g) <= 11/10 * (5 * eps * F) + 18 * eps * F).
  { apply quotient; [lra|lra|exact HFG| |lra|nra]. eapply Rle_trans; [exact Hc|]. lra. }
  assert (CG : Rabs (c / g) <= 2 * F).
  { unfold Rdiv. rewrite Rabs_mult, (Rabs_pos_eq (/ g)) by (left; apply Rinv_0_lt_compat; lra). apply Rmult_le_reg_r with g; [lra|]. rewrite Rmult_assoc, Rinv_l by lra. lra. }
  assert (EF : 0 <= eps * F <= F / 1000) by nra.
  assert (CB : Rabs (c' / f) <= 3 * F) by (apply abs_in in QT; apply abs_in in CG; apply Rabs_le; lra).
  assert (C4 : nr (f64_div (f64_sub (f64_mul p1 b1) (f64_mul p2 b2)) gf) (c / g) (27 * (eps * F))).
  { exists (rnd (c' / f)). split; [apply dbl_div; [exact Dc|exact Df|lra|lra]|]. pose proof (rnd_close (c' / f) (3 * F) CB ltac:(lra)) as RC. apply abs_in in RC. apply abs_in in QT. apply Rabs_le. lra. }
  assert (SB : Rabs (E + c / g) <= 3 * F) by (apply abs_in in HE; apply abs_in in CG; apply Rabs_le; lra).
  pose proof (nr_add _ _ _ _ _ _ (4 * F) (nr_exact _ _ De) C4 ltac:(lra) ltac:(lra) ltac:(lra)) as C5.
  eapply nr_weak; [apply (nr_mul _ _ _ _ 0 (0 + 27 * (eps * F) + eps * (4 * F)) (4 * F) (31 * (eps * F)) (nr_exact _ _ Dq) C5)|]; try lra.
  - rewrite Hq. lra.
  - rewrite Rabs_mult, Hq. lra.
Qed.
Lemma force_close V a b c E1 E2 E3 B1 B2 B3 e bf F : dblv V a b c -> Rabs a <= two 490 -> Rabs b <= two 490 -> Rabs c <= two 490 -> 1 <= F <= two 400 ->
  dblv e E1 E2 E3 -> dblv bf B1 B2 B3 -> Rabs E1 <= F -> Rabs E2 <= F -> Rabs E3 <= F -> Rabs B1 <= F -> Rabs B2 <= F -> Rabs B3 <= F ->
  nrv (@lorentz_force _ N m q V e bf) (rscale qr (rplus (v3 E1 E2 E3) (rcross (velocity 1 (v3 a b c)) (v3 B1 B2 B3)))) (40 * eps * F).
Proof.
  intros DV HA HB HC HF (DE1 & DE2 & DE3) (DB1 & DB2 & DB3) HE1 HE2 HE3 HB1 HB2 HB3.
  destruct (gam_facts V a b c DV HA HB HC) as (f & DF & F1 & HFG & G1 & GA & GB & GC & GT). destruct DV as (DA & DB & DC).
  unfold velocity. rewrite lf_one, Rmult_1_l. set (g := sqrt _) in *.
  change (@lorentz_force _ N m q V e bf) with (@smul _ N q (@vadd _ N e (@vdivs _ N (@cross _ N V bf) (f64_mul m (@lepton_gamma _ N m V))))).
  unfold nrv, rscale, rplus, rcross, v3. cbn [vx vy vz]. split; [|split].
  - replace (/ g * b * B3 - / g * c * B2) with ((b * B3 - c * B2) / g) by (field; lra). apply (one_force _ E1 _ b _ B3 _ c _ B2 _ f g F); auto.
  - replace (/ g * c * B1 - / g * a * B3) with ((c * B1 - a * B3) / g) by (field; lra). apply (one_force _ E2 _ c _ B1 _ a _ B3 _ f g F); auto.
  - replace (/ g * a * B2 - / g * b * B1) with ((a * B2 - b * B1) / g) by (field; lra). apply (one_force _ E3 _ a _ B2 _ b _ B1 _ f g F); auto.
Qed.
End Slopes.

(** ** One push *)
Lemma comps_le (w : V3) : Rabs (vx w) <= rlen w /\ Rabs (vy w) <= rlen w /\ Rabs (vz w) <= rlen w.
Proof.
  destruct w as [a b c]. unfold rlen. assert (G : forall x r, x * x <= r -> Rabs x <= sqrt r).
  { intros x r H. rewrite <- (sqrt_Rsqr_abs x). apply sqrt_le_1_alt. exact H. }
  split; [|split]; apply G; runf; nra.
Qed.
Lemma len_le (w : V3) d : Rabs (vx w) <= d -> Rabs (vy w) <= d -> Rabs (vz w) <= d -> rlen w <= 2 * d.
Proof.
  intros HA HB HC. assert (D0 : 0 <= d) by (pose proof (Rabs_pos (vx w)); lra). unfold rlen. rewrite <- (sqrt_square (2 * d)) by lra. apply sqrt_le_1_alt.
  apply abs_in in HA. apply abs_in in HB. apply abs_in in HC. destruct w as [a b c]. cbn [vx vy vz] in *. runf. assert (a * a <= d * d) by nra. assert (b * b <= d * d) by nra. assert (c * c <= d * d) by nra. nra.
Qed.
Lemma nrv_values V (w : V3) d : nrv V w d -> exists a b c, dblv V a b c /\ rlen (rminus (v3 a b c) w) <= 2 * d /\ Rabs (a - vx w) <= d /\ Rabs (b - vy w) <= d /\ Rabs (c - vz w) <= d.
Proof.
  intros ((a & DA & HA) & (b & DB & HB) & (c & DC & HC)). exists a, b, c. split; [repeat split; assumption|]. split; [|auto]. apply len_le; unfold rminus, v3; cbn [vx vy vz]; assumption.
Qed.
Lemma nrv_shift V (w w' : V3) d d' : nrv V w d -> rlen (rminus w w') <= d' -> nrv V w' (d + d').
Proof.
  intros ((a & DA & HA) & (b & DB & HB) & (c & DC & HC)) HW. destruct (comps_le (rminus w w')) as (X & Y & Z). revert X Y Z HW. generalize (rlen (rminus w w')). intros l X Y Z HW. unfold rminus, v3 in X, Y, Z. cbn [vx vy vz] in X, Y, Z.
  split; [|split]; [exists a|exists b|exists c]; (split; [assumption|]); [apply abs_in in HA, X|apply abs_in in HB, Y|apply abs_in in HC, Z]; apply Rabs_le; lra.
Qed.
Lemma two_490 : two 100 + 1 <= two 490.
Proof.
  assert (A : two 0 <= two 100) by (apply bpow_le; lia). change (two 0) with 1 in A. assert (B : two (100 + 1) <= two 490) by (apply bpow_le; lia). rewrite two_double in B. lra.
Qed.
Lemma nrv_weak V w d d' : nrv V w d -> d <= d' -> nrv V w d'.
Proof. intros (A & B & C) H. repeat split; eapply nr_weak; eauto. Qed.

Section Push.
Variable L : Libm.
Local Notation N := (Num_F64 L).
Variables (m q : spec_float) (qr : R).
Hypothesis Dm : dbl m 1.
Hypothesis Dq : dbl q qr.
Hypothesis Hq : Rabs qr = 1.
Variables (e bf : vec spec_float) (E1 E2 E3 B1 B2 B3 F : R).
Hypothesis DE : dblv e E1 E2 E3.
Hypothesis DB : dblv bf B1 B2 B3.
Hypothesis HF : 1 <= F <= two 400.
Hypothesis FE : rlen (v3 E1 E2 E3) <= F.
Hypothesis FB : rlen (v3 B1 B2 B3) <= F.
Variables (hs : spec_float) (h M : R).
Hypothesis Dh : dbl hs h.
Hypothesis Hh : 0 <= h.
Hypothesis HhF : h * F <= 1.
Hypothesis HM : 1 <= M <= two 40.
Let f := equation_of_motion 1 qr (static_field (v3 E1 E2 E3) (v3 B1 B2 B3)).
Let vel (p : V3) : V3 := velocity 1 p.
Let frc (p : V3) : V3 := rscale qr (rplus (v3 E1 E2 E3) (rcross (velocity 1 p) (v3 B1 B2 B3))).

Lemma h1 : h <= 1.
Proof. nra. Qed.
Lemma epsM : 0 < eps * M <= 1 / 8192 /\ eps <= eps * M.
Proof.
  pose proof eps_tiny as E. split; [split; [apply Rmult_lt_0_compat; lra|]|nra]. apply Rle_trans with (two (-53) * two 40); [apply Rmult_le_compat_l; lra|]. rewrite <- bpow_plus. change (two (-53 + 40)) with (/ 8192). lra.
Qed.
Lemma slope_bound p : (Rabs (vx (vel p)) <= 3 * F /\ Rabs (vy (vel p)) <= 3 * F /\ Rabs (vz (vel p)) <= 3 * F) /\ (Rabs (vx (frc p)) <= 3 * F /\ Rabs (vy (frc p)) <= 3 * F /\ Rabs (vz (frc p)) <= 3 * F).
Proof.
  pose proof (vel_len_lt 1 p ltac:(lra)) as V. split.
  - destruct (comps_le (vel p)) as (X & Y & Z). unfold vel in *. repeat split; lra.
  - assert (K : rlen (frc p) <= 3 * F).
    { unfold frc. rewrite rlen_scale, Hq, Rmult_1_l. eapply Rle_trans; [apply triangle|]. pose proof (rcross_len (velocity 1 p) (v3 B1 B2 B3)) as C. pose proof (rlen_nonneg (velocity 1 p)). pose proof (rlen_nonneg (v3 B1 B2 B3)). nra. }
    destruct (comps_le (frc p)) as (X & Y & Z). repeat split; lra.
Qed.
Lemma vel_near V p d : nrv V p d -> d <= 1 -> Rabs (vx p) <= two 100 -> Rabs (vy p) <= two 100 -> Rabs (vz p) <= two 100 -> nrv (@push_position _ N m V) (vel p) (20 * eps + 2 * d).
Proof.
  intros HV D1 HX HY HZ. destruct (nrv_values V p d HV) as (a & b & c & DV & HL & A & B & C). pose proof two_490 as T.
  apply abs_in in A, B, C, HX, HY, HZ.
  apply (nrv_shift _ (velocity 1 (v3 a b c))); [apply velocity_close; auto; apply Rabs_le; lra|]. eapply Rle_trans; [apply velocity_lipschitz; lra|]. lra.
Qed.
Lemma frc_near V p d : nrv V p d -> d <= 1 -> Rabs (vx p) <= two 100 -> Rabs (vy p) <= two 100 -> Rabs (vz p) <= two 100 -> nrv (@lorentz_force _ N m q V e bf) (frc p) (40 * eps * F + 2 * F * d).
Proof.
  intros HV D1 HX HY HZ. destruct (nrv_values V p d HV) as (a & b & c & DV & HL & A & B & C). pose proof two_490 as T.
  apply abs_in in A, B, C, HX, HY, HZ. destruct (comps_le (v3 E1 E2 E3)) as (X1 & X2 & X3). destruct (comps_le (v3 B1 B2 B3)) as (Y1 & Y2 & Y3). unfold v3 in X1, X2, X3, Y1, Y2, Y3. cbn [vx vy vz] in *. fold (v3 E1 E2 E3) in *. fold (v3 B1 B2 B3) in *.
  apply (nrv_shift _ (frc (v3 a b c))); [apply (force_close L m q qr Dm Dq Hq V a b c E1 E2 E3 B1 B2 B3 e bf F); auto; try (apply Rabs_le; lra); lra|].
  replace (rminus (frc (v3 a b c)) (frc p)) with (rscale qr (rcross (rminus (velocity 1 (v3 a b c)) (velocity 1 p)) (v3 B1 B2 B3))) by (unfold frc; generalize (velocity 1 (v3 a b c)) (velocity 1 p); intros; vring).
  rewrite rlen_scale, Hq, Rmult_1_l. eapply Rle_trans; [apply rcross_len|]. pose proof (velocity_lipschitz 1 (v3 a b c) p ltac:(lra)) as VL. pose proof (rlen_nonneg (rminus (velocity 1 (v3 a b c)) (velocity 1 p))). pose proof (rlen_nonneg (v3 B1 B2 B3)).
  apply Rle_trans with (2 * d * F); [apply Rmult_le_compat; lra|lra].
Qed.
(** half a step and a whole step along a slope *)
Lemma one_half x r K k c : dbl x r -> Rabs r <= M -> nr K k (F * (c * (eps * M))) -> 0 <= c <= 1000 -> Rabs k <= 3 * F ->
  nr (f64_add x (f64_div (f64_mul K hs) (f64_lit 2 0))) (r + h / 2 * k) ((c / 2 + 9) * (eps * M)).
Proof.
  intros DX HX HK HC Hk. pose proof epsM as [EM EP]. pose proof h1 as H1. set (t := eps * M) in *. pose proof eps_tiny as ET.
  assert (KH : Rabs (k * h) <= 3) by (rewrite Rabs_mult, (Rabs_pos_eq h) by exact Hh; pose proof (Rabs_pos k); nra).
  assert (DH : h * (F * (c * t)) <= c * t) by (rewrite <- Rmult_assoc; assert (0 <= c * t) by nra; nra). assert (CT : 0 <= c * t <= 1/8) by nra.
  assert (X1 : nr (f64_mul K hs) (k * h) (c * t + eps * 4)).
  { apply (nr_mul _ _ _ _ (F * (c * t)) 0); [exact HK|apply nr_exact; exact Dh| | |lra|apply small_huge; lra]; [|lra]. rewrite Rmult_0_r, Rmult_0_r, (Rabs_pos_eq h) by exact Hh. lra. }
  assert (X2 : nr (f64_div (f64_mul K hs) (f64_lit 2 0)) (k * h / 2) ((c * t + eps * 4) / 2 + eps * 3)).
  { apply nr_half; [exact X1| |lra|apply small_huge; lra]. apply abs_in in KH. assert (Rabs (k * h / 2) <= 3/2) by (apply Rabs_le; lra). lra. }
  replace (r + h / 2 * k) with (r + k * h / 2) by field.
  eapply nr_weak; [apply (nr_add _ _ _ _ _ _ (4 * M) (nr_exact _ _ DX) X2)|].
  - apply abs_in in KH, HX. assert (Rabs (r + k * h / 2) <= M + 3/2) by (apply Rabs_le; lra). lra.
  - lra.
  - pose proof (two_huge 42 ltac:(lia)) as TH. change 42%Z with (2 + 40)%Z in TH. rewrite bpow_plus in TH. change (two 2) with 4 in TH. lra.
  - replace (eps * (4 * M)) with (4 * t) by (unfold t; ring). lra.
Qed.
Lemma one_full x r K k c : dbl x r -> Rabs r <= M -> nr K k (F * (c * (eps * M))) -> 0 <= c <= 1000 -> Rabs k <= 3 * F ->
  nr (f64_add x (f64_mul K hs)) (r + h * k) ((c + 10) * (eps * M)).
Proof.
  intros DX HX HK HC Hk. pose proof epsM as [EM EP]. pose proof h1 as H1. set (t := eps * M) in *. pose proof eps_tiny as ET.
  assert (KH : Rabs (k * h) <= 3) by (rewrite Rabs_mult, (Rabs_pos_eq h) by exact Hh; pose proof (Rabs_pos k); nra).
  assert (DH : h * (F * (c * t)) <= c * t) by (rewrite <- Rmult_assoc; assert (0 <= c * t) by nra; nra). assert (CT : 0 <= c * t <= 1/8) by nra.
  assert (X1 : nr (f64_mul K hs) (k * h) (c * t + eps * 4)).
  { apply (nr_mul _ _ _ _ (F * (c * t)) 0); [exact HK|apply nr_exact; exact Dh| | |lra|apply small_huge; lra]; [|lra]. rewrite Rmult_0_r, Rmult_0_r, (Rabs_pos_eq h) by exact Hh. lra. }
  replace (r + h * k) with (r + k * h) by ring.
  eapply nr_weak; [apply (nr_add _ _ _ _ _ _ (5 * M) (nr_exact _ _ DX) X1)|].
  - apply abs_in in KH, HX. assert (Rabs (r + k * h) <= M + 3) by (apply Rabs_le; lra). lra.
  - lra.
  - pose proof (two_huge 43 ltac:(lia)) as TH. change 43%Z with (3 + 40)%Z in TH. rewrite bpow_plus in TH. change (two 3) with 8 in TH. lra.
  - replace (eps * (5 * M)) with (5 * t) by (unfold t; ring). lra.
Qed.
(** the weighted mean of the slopes *)
Lemma one_mean x r K1 k1 K2 k2 K3 k3 K4 k4 : dbl x r -> Rabs r <= M ->
  nr K1 k1 (F * (40 * (eps * M))) -> nr K2 k2 (F * (98 * (eps * M))) -> nr K3 k3 (F * (156 * (eps * M))) -> nr K4 k4 (F * (372 * (eps * M))) ->
  Rabs k1 <= 3 * F -> Rabs k2 <= 3 * F -> Rabs k3 <= 3 * F -> Rabs k4 <= 3 * F ->
  nr (f64_add x (f64_mul (f64_div hs (f64_lit 6 0)) (f64_add (f64_add (f64_add K1 (f64_mul (f64_lit 2 0) K2)) (f64_mul (f64_lit 2 0) K3)) K4)))
     (r + h / 6 * (k1 + 2 * k2 + (2 * k3 + k4))) (256 * (eps * M)).
Proof.
  intros DX HX N1 N2 N3 N4 A1 A2 A3 A4. pose proof epsM as [EM EP]. pose proof h1 as H1. set (t := eps * M) in *. pose proof eps_tiny as ET.
  assert (HG : 100 * F <= huge) by (assert (TH : two 410 <= huge) by (apply two_huge; lia); change 410%Z with (10 + 400)%Z in TH; rewrite bpow_plus in TH; change (two 10) with 1024 in TH; lra).
  assert (FT : 0 <= F * t <= F / 8192) by nra. assert (FP : 0 <= eps * F <= F * t) by nra.
  assert (T2 : forall K k c, nr K k (F * (c * t)) -> 0 <= c <= 400 -> Rabs k <= 3 * F -> nr (f64_mul (f64_lit 2 0) K) (2 * k) (2 * (F * (c * t)) + eps * (7 * F))).
  { intros K k c HK HC Hk. assert (CT : 0 <= F * (c * t) <= F / 20) by nra. apply (nr_mul _ _ _ _ 0 (F * (c * t))); [apply nr_exact; apply lit2|exact HK| | | |]; try lra.
    - rewrite (Rabs_pos_eq 2) by lra. lra.
    - rewrite Rabs_mult, (Rabs_pos_eq 2) by lra. lra. }
  pose proof (T2 _ _ _ N2 ltac:(lra) A2) as M2. pose proof (T2 _ _ _ N3 ltac:(lra) A3) as M3. apply abs_in in A1, A2, A3, A4.
  assert (S1 : nr (f64_add K1 (f64_mul (f64_lit 2 0) K2)) (k1 + 2 * k2) (F * (253 * t))).
  { eapply nr_weak; [apply (nr_add _ _ _ _ _ _ (10 * F) N1 M2)|]; try lra. assert (Rabs (k1 + 2 * k2) <= 9 * F) by (apply Rabs_le; lra). lra. }
  assert (S2 : nr (f64_add (f64_add K1 (f64_mul (f64_lit 2 0) K2)) (f64_mul (f64_lit 2 0) K3)) (k1 + 2 * k2 + 2 * k3) (F * (588 * t))).
  { eapply nr_weak; [apply (nr_add _ _ _ _ _ _ (16 * F) S1 M3)|]; try lra. assert (Rabs (k1 + 2 * k2 + 2 * k3) <= 15 * F) by (apply Rabs_le; lra). lra. }
  assert (S3 : nr (f64_add (f64_add (f64_add K1 (f64_mul (f64_lit 2 0) K2)) (f64_mul (f64_lit 2 0) K3)) K4) (k1 + 2 * k2 + 2 * k3 + k4) (F * (980 * t))).
  { eapply nr_weak; [apply (nr_add _ _ _ _ _ _ (20 * F) S2 N4)|]; try lra. assert (Rabs (k1 + 2 * k2 + 2 * k3 + k4) <= 18 * F) by (apply Rabs_le; lra). lra. }
  assert (HS : nr (f64_div hs (f64_lit 6 0)) (h / 6) (eps * (h / 6) + two (-1075))).
  { exists (rnd (h / 6)). split; [apply dbl_div; [exact Dh|apply lit6|lra|]|].
    - rewrite Rabs_pos_eq by lra. apply small_huge. lra.
    - eapply Rle_trans; [apply rnd_err|]. rewrite (Rabs_pos_eq (h / 6)) by lra. lra. }
  set (S := k1 + 2 * k2 + 2 * k3 + k4) in *. assert (SB : Rabs S <= 18 * F) by (apply Rabs_le; unfold S; lra).
  assert (ETA : 0 <= two (-1075) /\ 20 * F * two (-1075) <= eps).
  { split; [apply bpow_ge_0|]. apply Rle_trans with (two 5 * two 400 * two (-1075)); [apply Rmult_le_compat_r; [apply bpow_ge_0|]; change (two 5) with 32; lra|]. rewrite <- !bpow_plus. apply bpow_le. lia. }
  assert (HSB : h / 6 * (18 * F) <= 3) by nra. assert (PR : Rabs (h / 6 * S) <= 3) by (rewrite Rabs_mult, (Rabs_pos_eq (h / 6)) by lra; pose proof (Rabs_pos S); nra).
  assert (PM : nr (f64_mul (f64_div hs (f64_lit 6 0)) (f64_add (f64_add (f64_add K1 (f64_mul (f64_lit 2 0) K2)) (f64_mul (f64_lit 2 0) K3)) K4)) (h / 6 * S) (180 * t + eps * 4)).
  { apply (nr_mul _ _ _ _ _ _ 4 (180 * t) HS S3); [|lra|lra|apply small_huge; lra].
    rewrite (Rabs_pos_eq (h / 6)) by lra. set (dh := eps * (h / 6) + two (-1075)).
    assert (DH : 0 <= dh) by (unfold dh; assert (0 <= eps * (h / 6)) by nra; lra).
    assert (P1 : h / 6 * (F * (980 * t)) <= 164 * t) by (replace (h / 6 * (F * (980 * t))) with (h * F * (980 / 6 * t)) by field; assert (0 <= 980 / 6 * t) by lra; nra).
    assert (DF : dh * (20 * F) <= 5 * eps) by (unfold dh; replace ((eps * (h / 6) + two (-1075)) * (20 * F)) with (eps * (10 / 3 * (h * F)) + 20 * F * two (-1075)) by field; nra).
    assert (P2 : Rabs S * dh <= 5 * eps) by (apply Rle_trans with (20 * F * dh); [apply Rmult_le_compat_r; lra|lra]).
    assert (P3 : dh * (F * (980 * t)) <= eps) by (apply Rle_trans with (dh * (4 * F)); [apply Rmult_le_compat_l; [exact DH|nra]|lra]). lra. }
  replace (k1 + 2 * k2 + (2 * k3 + k4)) with S by (unfold S; ring).
  eapply nr_weak; [apply (nr_add _ _ _ _ _ _ (5 * M) (nr_exact _ _ DX) PM)|].
  - apply abs_in in PR, HX. assert (Rabs (r + h / 6 * S) <= M + 3) by (apply Rabs_le; lra). lra.
  - lra.
  - pose proof (two_huge 43 ltac:(lia)) as TH. change 43%Z with (3 + 40)%Z in TH. rewrite bpow_plus in TH. change (two 3) with 8 in TH. lra.
  - replace (eps * (5 * M)) with (5 * t) by (unfold t; ring). lra.
Qed.
(** the same for vectors *)
Lemma vec_half X r1 r2 r3 K (k : V3) c : dblv X r1 r2 r3 -> Rabs r1 <= M -> Rabs r2 <= M -> Rabs r3 <= M -> nrv K k (F * (c * (eps * M))) -> 0 <= c <= 1000 ->
  Rabs (vx k) <= 3 * F /\ Rabs (vy k) <= 3 * F /\ Rabs (vz k) <= 3 * F ->
  nrv (@vadd _ N X (@vdivs _ N (@vmuls _ N K hs) (@n2 _ N))) (rplus (v3 r1 r2 r3) (rscale (h / 2) k)) ((c / 2 + 9) * (eps * M)).
Proof.
  intros (DX & DY & DZ) H1 H2 H3 (K1 & K2 & K3) HC (A1 & A2 & A3). split; [|split]; apply one_half; assumption.
Qed.
Lemma vec_full X r1 r2 r3 K (k : V3) c : dblv X r1 r2 r3 -> Rabs r1 <= M -> Rabs r2 <= M -> Rabs r3 <= M -> nrv K k (F * (c * (eps * M))) -> 0 <= c <= 1000 ->
  Rabs (vx k) <= 3 * F /\ Rabs (vy k) <= 3 * F /\ Rabs (vz k) <= 3 * F ->
  nrv (@vadd _ N X (@vmuls _ N K hs)) (rplus (v3 r1 r2 r3) (rscale h k)) ((c + 10) * (eps * M)).
Proof.
  intros (DX & DY & DZ) H1 H2 H3 (K1 & K2 & K3) HC (A1 & A2 & A3). split; [|split]; apply one_full; assumption.
Qed.
Lemma vec_mean X r1 r2 r3 K1 (k1 : V3) K2 (k2 : V3) K3 (k3 : V3) K4 (k4 : V3) : dblv X r1 r2 r3 -> Rabs r1 <= M -> Rabs r2 <= M -> Rabs r3 <= M ->
  nrv K1 k1 (F * (40 * (eps * M))) -> nrv K2 k2 (F * (98 * (eps * M))) -> nrv K3 k3 (F * (156 * (eps * M))) -> nrv K4 k4 (F * (372 * (eps * M))) ->
  Rabs (vx k1) <= 3 * F /\ Rabs (vy k1) <= 3 * F /\ Rabs (vz k1) <= 3 * F -> Rabs (vx k2) <= 3 * F /\ Rabs (vy k2) <= 3 * F /\ Rabs (vz k2) <= 3 * F ->
  Rabs (vx k3) <= 3 * F /\ Rabs (vy k3) <= 3 * F /\ Rabs (vz k3) <= 3 * F -> Rabs (vx k4) <= 3 * F /\ Rabs (vy k4) <= 3 * F /\ Rabs (vz k4) <= 3 * F ->
  nrv (@vadd _ N X (@smul _ N (@ndiv _ N hs (@nlit _ N 6 0)) (@rk4_mean _ N K1 K2 K3 K4)))
     (rplus (v3 r1 r2 r3) (rscale (h / 6) (rplus (rplus k1 (rscale 2 k2)) (rplus (rscale 2 k3) k4)))) (256 * (eps * M)).
Proof.
  intros (DX & DY & DZ) H1 H2 H3 (P1 & P2 & P3) (Q1 & Q2 & Q3) (R1 & R2 & R3) (S1 & S2 & S3) (A1 & A2 & A3) (B1' & B2' & B3') (C1 & C2 & C3) (D1 & D2 & D3).
  split; [|split]; apply one_mean; assumption.
Qed.
Lemma slopes_near V p c : nrv V p (c * (eps * M)) -> 0 <= c <= 400 -> Rabs (vx p) <= M + 3 -> Rabs (vy p) <= M + 3 -> Rabs (vz p) <= M + 3 ->
  nrv (@push_position _ N m V) (vel p) (F * ((2 * c + 40) * (eps * M))) /\ nrv (@lorentz_force _ N m q V e bf) (frc p) (F * ((2 * c + 40) * (eps * M))).
Proof.
  intros HV HC X Y Z. pose proof epsM as [EM EP]. set (t := eps * M) in *. assert (T : M + 3 <= two 100) by (assert (A : two (2 + 40) <= two 100) by (apply bpow_le; lia); rewrite bpow_plus in A; change (two 2) with 4 in A; lra).
  assert (CT : 0 <= c * t <= 1) by nra. pose proof eps_tiny as ET. split; (eapply nrv_weak; [(apply vel_near || apply frc_near); eauto; lra|]).
  - apply Rle_trans with (1 * ((2 * c + 40) * t)); [lra|]. apply Rmult_le_compat_r; nra.
  - replace (40 * eps * F + 2 * F * (c * t)) with (F * (40 * eps + 2 * (c * t))) by ring. apply Rmult_le_compat_l; lra.
Qed.
Lemma stage_size r k s : Rabs r <= M -> Rabs k <= 3 * F -> 0 <= s <= h -> Rabs (r + s * k) <= M + 3.
Proof.
  intros HR HK HS. assert (Rabs (s * k) <= 3) by (rewrite Rabs_mult, (Rabs_pos_eq s) by lra; pose proof (Rabs_pos k); nra). pose proof (Rabs_triang r (s * k)). lra.
Qed.
(** the new position and momentum of one push *)
Lemma push_near (p : particle spec_float) x1 x2 x3 p1 p2 p3 t : p_mass p = m -> p_charge p = q -> dblv (p_pos p) x1 x2 x3 -> dblv (p_mom p) p1 p2 p3 ->
  Rabs x1 <= M -> Rabs x2 <= M -> Rabs x3 <= M -> Rabs p1 <= M -> Rabs p2 <= M -> Rabs p3 <= M ->
  let y := runge_kutta f t h (v3 x1 x2 x3, v3 p1 p2 p3) in
  nrv (fst (@rk4_step _ N (@lorentz_force _ N) (static_field e bf) hs p)) (fst y) (256 * (eps * M)) /\
  nrv (snd (@rk4_step _ N (@lorentz_force _ N) (static_field e bf) hs p)) (snd y) (256 * (eps * M)).
Proof.
  intros Em Eq DX DP X1 X2 X3 P1 P2 P3 y. pose proof epsM as [EM EP].
  set (P := p_mom p) in *. set (X := p_pos p) in *. set (r := v3 p1 p2 p3) in *.
  set (V1 := @push_position _ N m P). set (K1 := @lorentz_force _ N m q P e bf). set (M1 := @vadd _ N P (@vdivs _ N (@vmuls _ N K1 hs) (@n2 _ N))).
  set (V2 := @push_position _ N m M1). set (K2 := @lorentz_force _ N m q M1 e bf). set (M2 := @vadd _ N P (@vdivs _ N (@vmuls _ N K2 hs) (@n2 _ N))).
  set (V3' := @push_position _ N m M2). set (K3 := @lorentz_force _ N m q M2 e bf). set (M3 := @vadd _ N P (@vmuls _ N K3 hs)).
  set (V4 := @push_position _ N m M3). set (K4 := @lorentz_force _ N m q M3 e bf).
  set (r1 := rplus r (rscale (h / 2) (frc r))). set (r2 := rplus r (rscale (h / 2) (frc r1))). set (r3 := rplus r (rscale h (frc r2))).
  assert (SZ : forall s k, 0 <= s <= h -> Rabs (vx k) <= 3 * F /\ Rabs (vy k) <= 3 * F /\ Rabs (vz k) <= 3 * F -> Rabs (vx (rplus r (rscale s k))) <= M + 3 /\ Rabs (vy (rplus r (rscale s k))) <= M + 3 /\ Rabs (vz (rplus r (rscale s k))) <= M + 3).
  { intros s k HS (A & B & C). unfold r, rplus, rscale, v3. cbn [vx vy vz]. repeat split; apply stage_size; assumption. }
  assert (N0 : nrv P r (0 * (eps * M))) by (rewrite Rmult_0_l; destruct DP as (A & B & C); repeat split; apply nr_exact; assumption).
  assert (PM : forall z, Rabs z <= M -> Rabs z <= M + 3) by (intros; lra).
  destruct (slopes_near P r 0 N0 ltac:(lra)) as [A1 B1']; try (apply PM; assumption). replace (2 * 0 + 40) with 40 in A1, B1' by ring. fold V1 in A1. fold K1 in B1'.
  destruct (slope_bound r) as [SV1 SK1].
  pose proof (vec_half P p1 p2 p3 K1 (frc r) 40 DP P1 P2 P3 B1' ltac:(lra) SK1) as N1. fold M1 r r1 in N1. replace (40 / 2 + 9) with 29 in N1 by field.
  destruct (SZ (h / 2) (frc r) ltac:(lra) SK1) as (Z1 & Z2 & Z3). fold r1 in Z1, Z2, Z3.
  destruct (slopes_near M1 r1 29 N1 ltac:(lra) Z1 Z2 Z3) as [A2 B2']. replace (2 * 29 + 40) with 98 in A2, B2' by ring. fold V2 in A2. fold K2 in B2'. clear Z1 Z2 Z3.
  destruct (slope_bound r1) as [SV2 SK2].
  pose proof (vec_half P p1 p2 p3 K2 (frc r1) 98 DP P1 P2 P3 B2' ltac:(lra) SK2) as N2. fold M2 r r2 in N2. replace (98 / 2 + 9) with 58 in N2 by field.
  destruct (SZ (h / 2) (frc r1) ltac:(lra) SK2) as (Z1 & Z2 & Z3). fold r2 in Z1, Z2, Z3.
  destruct (slopes_near M2 r2 58 N2 ltac:(lra) Z1 Z2 Z3) as [A3 B3']. replace (2 * 58 + 40) with 156 in A3, B3' by ring. fold V3' in A3. fold K3 in B3'. clear Z1 Z2 Z3.
  destruct (slope_bound r2) as [SV3 SK3].
  pose proof (vec_full P p1 p2 p3 K3 (frc r2) 156 DP P1 P2 P3 B3' ltac:(lra) SK3) as N3. fold M3 r r3 in N3. replace (156 + 10) with 166 in N3 by ring.
  destruct (SZ h (frc r2) ltac:(lra) SK3) as (Z1 & Z2 & Z3). fold r3 in Z1, Z2, Z3.
  destruct (slopes_near M3 r3 166 N3 ltac:(lra) Z1 Z2 Z3) as [A4 B4']. replace (2 * 166 + 40) with 372 in A4, B4' by ring. fold V4 in A4. fold K4 in B4'. clear Z1 Z2 Z3.
  destruct (slope_bound r3) as [SV4 SK4].
  assert (E : @rk4_step _ N (@lorentz_force _ N) (static_field e bf) hs p =
    (@vadd _ N X (@smul _ N (@ndiv _ N hs (@nlit _ N 6 0)) (@rk4_mean _ N V1 V2 V3' V4)), @vadd _ N P (@smul _ N (@ndiv _ N hs (@nlit _ N 6 0)) (@rk4_mean _ N K1 K2 K3 K4)))).
  { unfold V1, V2, V3', V4, K4, M3, K3, M2, K2, M1, K1. rewrite <- Em, <- Eq. reflexivity. }
  rewrite E. cbn [fst snd]. split.
  - apply vec_mean; assumption.
  - apply vec_mean; assumption.
Qed.
End Push.

(** ** Any number of pushes *)
Lemma one_nonzero L m : dbl m 1 -> @neqb _ (Num_F64 L) m (@n0 _ (Num_F64 L)) = false.
Proof.
  intros (b & <- & Fb & Rb). cbn [neqb Num_F64]. unfold SFeqb.
  destruct b as [s| | |s mm ee B]; cbn in *; try discriminate; [exfalso; lra|]. destruct s; reflexivity.
Qed.
Lemma push_fields L (fld : field spec_float) dt p : p_alive p = true -> dbl (p_mass p) 1 ->
  let p' := @push_particle _ (Num_F64 L) (@lorentz_force _ (Num_F64 L)) fld dt p in
  p_alive p' = true /\ p_mass p' = p_mass p /\ p_charge p' = p_charge p /\
  p_pos p' = fst (@rk4_step _ (Num_F64 L) (@lorentz_force _ (Num_F64 L)) fld dt p) /\ p_mom p' = snd (@rk4_step _ (Num_F64 L) (@lorentz_force _ (Num_F64 L)) fld dt p).
Proof.
  intros HA HM. cbv zeta. unfold push_particle. rewrite HA, (one_nonzero L _ HM).
  destruct (@rk4_step _ (Num_F64 L) (@lorentz_force _ (Num_F64 L)) fld dt p) as [x mo]. unfold update_track. destruct (p_tracking p); cbn; auto.
Qed.
Lemma veta (w : V3) : v3 (vx w) (vy w) (vz w) = w.
Proof. destruct w. reflexivity. Qed.
Lemma plen_split a b : plen a <= plen (pminus a b) + plen b.
Proof. apply plen_sum. destruct a as [[? ? ?] [? ? ?]], b as [[? ? ?] [? ? ?]]. pring. Qed.
Lemma plen_via a b c : plen (pminus a c) <= plen (pminus a b) + plen (pminus b c).
Proof. apply plen_sum. destruct a as [[? ? ?] [? ? ?]], b as [[? ? ?] [? ? ?]], c as [[? ? ?] [? ? ?]]. pring. Qed.
Lemma step_length f F t h y : (forall t y, plen (f t y) <= F) -> 0 <= h -> plen (runge_kutta f t h y) <= plen y + h * F.
Proof.
  intros HF H0. unfold runge_kutta. cbv zeta. set (k1 := f t y). set (k2 := f (t + h / 2) _). set (k3 := f (t + h / 2) _). set (k4 := f (t + h) _).
  assert (B1 : plen k1 <= F) by apply HF. assert (B2 : plen k2 <= F) by apply HF. assert (B3 : plen k3 <= F) by apply HF. assert (B4 : plen k4 <= F) by apply HF. clearbody k1 k2 k3 k4.
  eapply Rle_trans; [apply plen_plus|]. apply Rplus_le_compat_l. rewrite plen_scale, Rabs_pos_eq by lra.
  set (w := pplus (pplus k1 (pscale 2 k2)) (pplus (pscale 2 k3) k4)).
  assert (W : plen w <= 6 * F).
  { unfold w. eapply Rle_trans; [apply plen_plus|]. pose proof (plen_plus k1 (pscale 2 k2)) as A. pose proof (plen_plus (pscale 2 k3) k4) as B. rewrite plen_scale, (Rabs_pos_eq 2) in A, B by lra. lra. }
  apply Rle_trans with (h / 6 * (6 * F)); [apply Rmult_le_compat_l; lra|lra].
Qed.
Lemma trajectory_length f F t h y n : (forall t y, plen (f t y) <= F) -> 0 <= h -> plen (trajectory f t h y n) <= plen y + INR n * h * F.
Proof.
  intros HF H0. induction n as [|n IH]; [cbn; lra|]. cbn [trajectory]. rewrite S_INR. eapply Rle_trans; [apply step_length; eassumption|]. lra.
Qed.
Lemma plen_comps x1 x2 x3 p1 p2 p3 M : plen (v3 x1 x2 x3, v3 p1 p2 p3) <= M -> Rabs x1 <= M /\ Rabs x2 <= M /\ Rabs x3 <= M /\ Rabs p1 <= M /\ Rabs p2 <= M /\ Rabs p3 <= M.
Proof.
  unfold plen. cbn [fst snd]. intros H. destruct (comps_le (v3 x1 x2 x3)) as (X1 & X2 & X3). destruct (comps_le (v3 p1 p2 p3)) as (P1 & P2 & P3).
  pose proof (rlen_nonneg (v3 x1 x2 x3)). pose proof (rlen_nonneg (v3 p1 p2 p3)). revert X1 X2 X3 P1 P2 P3. generalize dependent (rlen (v3 x1 x2 x3)). generalize dependent (rlen (v3 p1 p2 p3)).
  unfold v3. cbn [vx vy vz]. intros. repeat split; lra.
Qed.

(** a vector of doubles that holds the vector [w] *)
Definition holds (V : vec spec_float) (w : V3) : Prop := dbl (vx V) (vx w) /\ dbl (vy V) (vy w) /\ dbl (vz V) (vz w).

Section Many.
Variable L : Libm.
Local Notation N := (Num_F64 L).
Variables (p : particle spec_float) (qr : R) (x0 p0 E B : V3) (e bf : vec spec_float) (hs : spec_float) (h t0 : R) (n : nat).
Hypothesis Ha : p_alive p = true.
Hypothesis Dm : dbl (p_mass p) 1.
Hypothesis Dq : dbl (p_charge p) qr.
Hypothesis Hq : Rabs qr = 1.
Hypothesis HX0 : holds (p_pos p) x0.
Hypothesis HP0 : holds (p_mom p) p0.
Hypothesis HE : holds e E.
Hypothesis HB : holds bf B.
Hypothesis Dh : dbl hs h.
Hypothesis Hh : 0 < h.
Let F := 1 + rlen E + rlen B.
Hypothesis FB : F <= two 400.
Hypothesis HhF : h * F <= 1.
Let M := 2 + (rlen x0 + rlen p0) + INR n * h * F.
Hypothesis HM : M <= two 40.
Let f := equation_of_motion 1 qr (static_field E B).
Let err := two (-43) * M / (2 * (F * h)).
Hypothesis Small : err * (exp (INR n * (2 * (F * h))) - 1) <= 1.

Lemma F1 : 1 <= F.
Proof. unfold F. pose proof (rlen_nonneg E). pose proof (rlen_nonneg B). lra. Qed.
Lemma motion_lip t s y z : plen (pminus (f t y) (f s z)) <= F * (Rabs (t - s) + distance y z).
Proof.
  pose proof (motion_lipschitz 1 qr _ _ _ _ ltac:(lra) (C136_static_regular E B) t s y z) as X. fold f in X. unfold lip in X. rewrite Hq in X.
  eapply Rle_trans; [exact X|]. apply Rmult_le_compat_r; [pose proof (Rabs_pos (t - s)); pose proof (plen_nonneg (pminus y z)); unfold distance; lra|]. unfold F. pose proof (rlen_nonneg E). lra.
Qed.
Lemma motion_bnd t y : plen (f t y) <= F.
Proof.
  pose proof (motion_bounded 1 qr _ _ _ _ ltac:(lra) (C136_static_regular E B) t y) as X. fold f in X. unfold bnd in X. rewrite Hq in X. unfold F. lra.
Qed.
Lemma err_nonneg : 0 <= err /\ err * (2 * (F * h)) = two (-43) * M.
Proof.
  pose proof F1 as F1. assert (P : 0 < F * h) by (apply Rmult_lt_0_compat; lra). assert (M0 : 0 <= M) by (unfold M; pose proof (rlen_nonneg x0); pose proof (rlen_nonneg p0); pose proof (pos_INR n); assert (0 <= INR n * h) by nra; nra).
  split; [|unfold err; field; split; lra]. unfold err. apply Rmult_le_pos; [apply Rmult_le_pos; [apply bpow_ge_0|exact M0]|]. left. apply Rinv_0_lt_compat. lra.
Qed.
Lemma after k : (k <= n)%nat ->
  let P := @pushes _ N k (@lorentz_force _ N) (static_field e bf) hs p in
  p_alive P = true /\ p_mass P = p_mass p /\ p_charge P = p_charge p /\
  exists x w, holds (p_pos P) x /\ holds (p_mom P) w /\ distance (x, w) (trajectory f t0 h (x0, p0) k) <= err * ((1 + 2 * (F * h)) ^ k - 1).
Proof.
  pose proof F1 as F1. destruct err_nonneg as [E0 EE]. assert (FH : 0 < F * h) by (apply Rmult_lt_0_compat; lra).
  induction k as [|k IH]; intros LE; cbv zeta.
  { cbn [pushes trajectory pow]. repeat split; auto. exists x0, p0. repeat split; auto; try (apply HX0 || apply HP0). unfold distance, plen, pminus. cbn [fst snd]. rewrite !zero_len. lra. }
  destruct (IH ltac:(lia)) as (PA & PM & PQ & x & w & HX & HW & D). clear IH. cbn [pushes trajectory]. set (P := @pushes _ N k _ _ hs p) in *. set (z := trajectory f t0 h (x0, p0) k) in *.
  destruct (push_fields L (static_field e bf) hs P PA ltac:(rewrite PM; exact Dm)) as (A1 & A2 & A3 & A4 & A5). rewrite A1, A2, A3, A4, A5. split; [reflexivity|]. split; [exact PM|]. split; [exact PQ|].
  set (t := t0 + INR k * h).
  assert (KN : INR k <= INR n) by (apply le_INR; lia). assert (K0 : 0 <= INR k) by apply pos_INR.
  assert (D1 : distance (x, w) z <= 1).
  { eapply Rle_trans; [exact D|]. eapply Rle_trans; [|exact Small]. apply Rmult_le_compat_l; [exact E0|]. apply Rplus_le_compat_r.
    eapply Rle_trans; [apply pow_exp; lra|]. assert (X : INR k * (2 * (F * h)) <= INR n * (2 * (F * h))) by (apply Rmult_le_compat_r; lra). destruct X as [X|X]; [left; apply exp_increasing; exact X|rewrite X; lra]. }
  assert (PL : plen (x, w) <= M - 1).
  { pose proof (plen_split (x, w) z) as Q. pose proof (trajectory_length f F t0 h (x0, p0) k motion_bnd ltac:(lra)) as T. fold z in T. unfold distance in D1.
    unfold plen at 2 in T. cbn [fst snd] in T. assert (INR k * h * F <= INR n * h * F) by (rewrite !Rmult_assoc; apply Rmult_le_compat_r; lra). unfold M. lra. }
  destruct x as [x1 x2 x3], w as [w1 w2 w3]. destruct (plen_comps x1 x2 x3 w1 w2 w3 M) as (X1 & X2 & X3 & W1 & W2 & W3); [unfold v3; lra|].
  assert (M1 : 1 <= M) by (pose proof (plen_nonneg ({| vx := x1; vy := x2; vz := x3 |}, {| vx := w1; vy := w2; vz := w3 |})); lra).
  pose proof (push_near L (p_mass P) (p_charge P) qr ltac:(rewrite PM; exact Dm) ltac:(rewrite PQ; exact Dq) Hq e bf (vx E) (vy E) (vz E) (vx B) (vy B) (vz B) F HE HB ltac:(lra)) as PN.
  rewrite !veta in PN. specialize (PN ltac:(unfold F; pose proof (rlen_nonneg B); lra) ltac:(unfold F; pose proof (rlen_nonneg E); lra)).
  destruct (PN hs h M Dh ltac:(lra) HhF ltac:(lra) P x1 x2 x3 w1 w2 w3 t eq_refl eq_refl HX HW X1 X2 X3 W1 W2 W3) as [NX NW]. clear PN.
  set (y := runge_kutta _ t h _) in NX, NW.
  destruct (nrv_values _ _ _ NX) as (a1 & a2 & a3 & DA & LA & _). destruct (nrv_values _ _ _ NW) as (b1 & b2 & b3 & DB & LB & _).
  exists (v3 a1 a2 a3), (v3 b1 b2 b3). split; [exact DA|]. split; [exact DB|].
  pose proof (step_stable f F motion_lip t h (v3 x1 x2 x3, v3 w1 w2 w3) z ltac:(lra) HhF) as ST. change (runge_kutta f t h (v3 x1 x2 x3, v3 w1 w2 w3)) with y in ST.
  assert (DY : distance (v3 a1 a2 a3, v3 b1 b2 b3) y <= err * (2 * (F * h))).
  { rewrite EE. unfold distance, plen, pminus. cbn [fst snd]. replace (two (-43)) with (1024 * two (-53)) by (change 1024 with (two 10); rewrite <- bpow_plus; reflexivity). lra. }
  change (distance (v3 x1 x2 x3, v3 w1 w2 w3) z <= err * ((1 + 2 * (F * h)) ^ k - 1)) in D.
  set (r := runge_kutta f t h z) in *. clearbody y r.
  pose proof (plen_via (v3 a1 a2 a3, v3 b1 b2 b3) y r) as Q.
  unfold distance in *. cbn [pow]. set (g := 1 + 2 * (F * h)) in *. set (d := plen (pminus (v3 x1 x2 x3, v3 w1 w2 w3) z)) in *.
  assert (G1 : 1 <= g) by (unfold g; lra). assert (GD : g * d <= g * (err * (g ^ k - 1))) by (apply Rmult_le_compat_l; lra).
  replace (err * (2 * (F * h))) with (err * (g - 1)) in DY by (unfold g; ring). lra.
Qed.
End Many.
