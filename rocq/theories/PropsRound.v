(** * C144: rounding errors of the pusher in a static field *)
From Coq Require Import String ZArith Reals Lra Psatz List Lia.
From Coq Require Import Floats.SpecFloat.
From Flocq Require Import Core.Zaux Core.Raux Core.Defs Core.Generic_fmt IEEE754.BinarySingleNaN.
From Verif Require Import Num RNum F64Facts F64Real F64Draw F64Kin F64Zero Vec SpecVec VecFacts VecExtra SpecDyn Units MCTools Particle ParticleFacts Fields FieldFacts Pusher PusherFacts PropsPusher PropsOde PropsQuantum Converge PropsConverge Fourth PropsFourth F64Orbit.
Import ListNotations.
Local Open Scope R_scope.

(** [holds V w] (F64Orbit.v): the three doubles of [V] are finite and have the values of the vector [w].  A particle of the program
    that holds the particle [q]: *)
Definition holds_particle (p : particle spec_float) (q : particle R) : Prop :=
  p_alive p = true /\ p_alive q = true /\ dbl (p_mass p) (p_mass q) /\ dbl (p_charge p) (p_charge q) /\ holds (p_pos p) (p_pos q) /\ holds (p_mom p) (p_mom q).
(** the strength of a static field, the size of the numbers met on the way, and the bound on the rounding errors of [n] pushes *)
Definition strength (E B : V3) : R := 1 + rlen E + rlen B.
Definition magnitude (E B : V3) (q : particle R) (T : R) : R := 2 + (rlen (p_pos q) + rlen (p_mom q)) + T * strength E B.
Definition rounding (E B : V3) (q : particle R) (h T : R) : R :=
  two (-43) * magnitude E B q T * (exp (2 * strength E B * T) - 1) / (2 * strength E B * h).
(** the conditions: an electron or positron in the units of the program (mass 1, charge 1 or -1), a positive step short against the field, and
    numbers that are not astronomical *)
Definition tame (E B : V3) (q : particle R) (h T : R) : Prop :=
  p_mass q = 1 /\ Rabs (p_charge q) = 1 /\ 0 < h /\ h * strength E B <= 1 /\ strength E B <= two 400 /\ magnitude E B q T <= two 40 /\ rounding E B q h T <= 1.

(** the doubles after [n] pushes are finite, and no further from the exact numbers than the rounding bound *)
Theorem C144_rounding : forall L n (p : particle spec_float) (q : particle R) e b E B dt h,
  holds_particle p q -> holds e E -> holds b B -> dbl dt h -> tame E B q h (INR n * h) ->
  let p' := @pushes _ (Num_F64 L) n (@lorentz_force _ (Num_F64 L)) (static_field e b) dt p in
  exists x m, holds (p_pos p') x /\ holds (p_mom p') m /\ distance (x, m) (pushed n (static_field E B) h q) <= rounding E B q h (INR n * h).
Proof.
  intros L n p q e b E B dt h (Ha & Ha' & Dm & Dq & HX & HP) HE HB Dh (M1 & Q1 & H0 & HS & SF & MG & RD). cbv zeta. rewrite M1 in Dm.
  assert (S1 : 1 <= strength E B) by (unfold strength; pose proof (rlen_nonneg E); pose proof (rlen_nonneg B); lra). assert (SH : 0 < strength E B * h) by (apply Rmult_lt_0_compat; lra).
  assert (EQ : two (-43) * magnitude E B q (INR n * h) / (2 * (strength E B * h)) * (exp (INR n * (2 * (strength E B * h))) - 1) = rounding E B q h (INR n * h)).
  { unfold rounding. replace (INR n * (2 * (strength E B * h))) with (2 * strength E B * (INR n * h)) by ring. generalize (exp (2 * strength E B * (INR n * h))) (magnitude E B q (INR n * h)) (two (-43)). intros. field. split; lra. }
  pose proof (after L p (p_charge q) (p_pos q) (p_mom q) E B e b dt h (p_time q) n Ha Dm Dq Q1 HX HP HE HB Dh H0 SF HS MG) as X.
  fold (strength E B) in X. fold (magnitude E B q (INR n * h)) in X.
  destruct (X ltac:(rewrite EQ; exact RD) n (Nat.le_refl n)) as (_ & _ & _ & x & m & GX & GM & D). clear X. exists x, m. split; [exact GX|]. split; [exact GM|].
  unfold pushed. rewrite C102_runge_kutta by (auto; lra). rewrite M1. eapply Rle_trans; [exact D|]. rewrite <- EQ. apply Rmult_le_compat_l.
  - assert (0 <= magnitude E B q (INR n * h)) by (unfold magnitude; pose proof (rlen_nonneg (p_pos q)); pose proof (rlen_nonneg (p_mom q)); pose proof (pos_INR n); assert (0 <= INR n * h) by nra; nra).
    apply Rmult_le_pos; [apply Rmult_le_pos; [apply bpow_ge_0|assumption]|]. left. apply Rinv_0_lt_compat. lra.
  - apply Rplus_le_compat_r, pow_exp. lra.
Qed.
Print Assumptions C144_rounding.

Lemma via a b c : distance a c <= distance a b + distance b c.
Proof. apply plen_via. Qed.

(** the distance of the doubles from the solution of the equation of motion: the error of the method (C136) and the rounding errors *)
Theorem C144_orbit : forall L n (p : particle spec_float) (q : particle R) e b E B dt h y,
  holds_particle p q -> holds e E -> holds b B -> dbl dt h -> tame E B q h (INR n * h) -> orbit (static_field E B) q (INR n * h) y ->
  let p' := @pushes _ (Num_F64 L) n (@lorentz_force _ (Num_F64 L)) (static_field e b) dt p in
  exists x m, holds (p_pos p') x /\ holds (p_mom p') m /\
    distance (x, m) (y (p_time q + INR n * h)) <= 5/2 * (1 + strength E B) * (exp (2 * strength E B * (INR n * h)) - 1) * h + rounding E B q h (INR n * h).
Proof.
  intros L n p q e b E B dt h y HQ HE HB Dh HT HO. cbv zeta. destruct (C144_rounding L n p q e b E B dt h HQ HE HB Dh HT) as (x & m & GX & GM & D). exists x, m. split; [exact GX|]. split; [exact GM|].
  destruct HQ as (_ & Ha & _). destruct HT as (M1 & Q1 & H0 & HS & _). eapply Rle_trans; [apply (via _ (pushed n (static_field E B) h q))|]. rewrite Rplus_comm. apply Rplus_le_compat; [|exact D].
  pose proof (rlen_nonneg E) as NE. pose proof (rlen_nonneg B) as NB. assert (SB : 1 + rlen B <= strength E B) by (unfold strength; lra).
  pose proof (C136_error _ _ _ _ q h n y Ha ltac:(lra) (C136_static_regular E B)) as X. cbv zeta in X. rewrite Q1, M1 in X.
  replace (2 * 1 * 0 + (1 + 1 * rlen B) / 1) with (1 + rlen B) in X by field. specialize (X ltac:(lra) ltac:(nra) HO).
  eapply Rle_trans; [exact X|]. replace (2 + 1 * (rlen E + rlen B)) with (1 + strength E B) by (unfold strength; ring).
  apply Rmult_le_compat_r; [lra|]. apply Rmult_le_compat_l; [lra|]. apply Rplus_le_compat_r.
  assert (NH : 0 <= INR n * h) by (pose proof (pos_INR n); nra).
  assert (LE : 2 * (1 + rlen B) * (INR n * h) <= 2 * strength E B * (INR n * h)) by (apply Rmult_le_compat_r; lra). destruct LE as [LE|LE]; [left; apply exp_increasing; exact LE|rewrite LE; lra].
Qed.
Print Assumptions C144_orbit.

(** in a magnetic field the error of the method is of fourth order (C143) *)
Theorem C144_gyration : forall L n (p : particle spec_float) (q : particle R) e bv b dt h,
  holds_particle p q -> holds e rzero -> holds bv (v3 0 0 b) -> dbl dt h -> b <> 0 -> tame rzero (v3 0 0 b) q h (INR n * h) ->
  let p' := @pushes _ (Num_F64 L) n (@lorentz_force _ (Num_F64 L)) (static_field e bv) dt p in
  exists x m, holds (p_pos p') x /\ holds (p_mom p') m /\
    distance (x, m) (helix (p_mass q) (p_charge q) b (p_time q) (p_pos q) (p_mom q) (p_time q + INR n * h))
      <= 1/2 * b ^ 4 * (exp (2 * (1 + Rabs b) * (INR n * h)) - 1) * h ^ 4 + rounding rzero (v3 0 0 b) q h (INR n * h).
Proof.
  intros L n p q e bv b dt h HQ HE HB Dh NB HT. cbv zeta. destruct (C144_rounding L n p q e bv _ _ dt h HQ HE HB Dh HT) as (x & m & GX & GM & D). exists x, m. split; [exact GX|]. split; [exact GM|].
  destruct HQ as (_ & Ha & _). destruct HT as (M1 & Q1 & H0 & HS & _). eapply Rle_trans; [apply (via _ (pushed n (static_field rzero (v3 0 0 b)) h q))|]. rewrite Rplus_comm. apply Rplus_le_compat; [|exact D].
  assert (LB : rlen (v3 0 0 b) = Rabs b) by (apply rlen_abs; runf; ring). assert (LZ : rlen rzero = 0) by (unfold rlen; rewrite <- sqrt_0; f_equal; runf; ring).
  assert (G : Rabs (p_charge q * b) = Rabs b) by (rewrite Rabs_mult, Q1; ring). unfold strength in HS. rewrite LB, LZ in HS.
  pose proof (C143_gyration b q h n Ha ltac:(lra)) as X. cbv zeta in X. rewrite G, M1 in X.
  assert (QN : p_charge q * b <> 0) by (intros Z; rewrite Z, Rabs_R0 in G; symmetry in G; apply (Rabs_no_R0 b NB G)).
  specialize (X QN ltac:(lra) ltac:(lra)). rewrite M1. eapply Rle_trans; [exact X|]. apply Req_le.
  assert (SQ : Rabs b * Rabs b = b * b) by (unfold Rabs; destruct (Rcase_abs b); ring).
  replace (1 * (Rabs b / 1) ^ 4) with (Rabs b * Rabs b * (Rabs b * Rabs b)) by field. rewrite SQ. replace (b * b * (b * b)) with (b ^ 4) by ring.
  replace ((1 + Rabs b) / 1) with (1 + Rabs b) by field. reflexivity.
Qed.
Print Assumptions C144_gyration.

(** rounding is not harmless for every step: with the step 10^-18 in the field (1, 0, 0) the momentum of an electron that starts with (1, 0, 0)
    never changes, however often it is pushed, where the exact pushes slow the electron down in proportion to the time *)
Definition unit64 : vec spec_float := mkV (f64_lit 1 0) (f64_lit 0 0) (f64_lit 0 0).
Definition zero64 : vec spec_float := mkV (f64_lit 0 0) (f64_lit 0 0) (f64_lit 0 0).
Lemma stalled_step L (p : particle spec_float) : p_mass p = f64_lit 1 0 -> p_charge p = f64_lit (-1) 0 -> p_mom p = unit64 ->
  snd (@rk4_step _ (Num_F64 L) (@lorentz_force _ (Num_F64 L)) (static_field unit64 zero64) (f64_lit 1 (-18)) p) = unit64.
Proof. intros HM HQ HP. unfold rk4_step, static_field. cbn [snd]. rewrite HM, HQ, HP. vm_compute. reflexivity. Qed.
Theorem C144_stalled :
  (forall L n (p : particle spec_float), p_alive p = true -> p_mass p = f64_lit 1 0 -> p_charge p = f64_lit (-1) 0 -> p_mom p = unit64 ->
    p_mom (@pushes _ (Num_F64 L) n (@lorentz_force _ (Num_F64 L)) (static_field unit64 zero64) (f64_lit 1 (-18)) p) = unit64) /\
  (forall n h (q : particle R), p_alive q = true -> p_mass q = 1 -> p_charge q = -1 -> p_mom q = v3 1 0 0 ->
    p_mom (pushes n lorentz_force (static_field (v3 1 0 0) rzero) h q) = v3 (1 - INR n * h) 0 0).
Proof.
  split.
  - intros L n p HA HM HQ HP. set (P := @pushes _ (Num_F64 L) n _ _ _ p).
    assert (G : p_alive P = true /\ p_mass P = f64_lit 1 0 /\ p_charge P = f64_lit (-1) 0 /\ p_mom P = unit64); [|apply G].
    unfold P. clear P. induction n as [|n IH]; [auto|]. cbn [pushes]. destruct IH as (A & B & C & D). set (P := @pushes _ (Num_F64 L) n _ _ _ p) in *.
    destruct (push_fields L (static_field unit64 zero64) (f64_lit 1 (-18)) P A ltac:(rewrite B; apply dbl_1)) as (A1 & A2 & A3 & _ & A5). rewrite A1, A2, A3, A5. repeat split; auto. apply stalled_step; assumption.
  - intros n h q HA HM HQ HP. induction n as [|n IH]; [cbn [pushes INR]; rewrite HP; f_equal; ring|]. cbn [pushes]. rewrite S_INR.
    destruct (pushes_keeps n lorentz_force (static_field (v3 1 0 0) rzero) h q) as (_ & _ & K1 & K2 & _ & _ & _ & K3).
    pose proof (C102_impulse_step (fun _ => v3 1 0 0) h (pushes n lorentz_force (static_field (v3 1 0 0) rzero) h q)) as X. cbv zeta in X.
    change (homogeneous (fun _ => v3 1 0 0)) with (@static_field R (v3 1 0 0) rzero) in X. rewrite X, K2, HQ, IH by congruence || (rewrite K1, HM; lra).
    unfold rplus, rscale, v3. cbn [vx vy vz]. f_equal; field.
Qed.
Print Assumptions C144_stalled.

(** an electron with momentum 1 in a field of strength 1, followed for the time 1 in 128 steps of 2^-7: the doubles are right to 2 parts
    in ten million, of which rounding contributes no more than 2 parts in a thousand million *)
Definition electron64 : particle spec_float :=
  mkP PLepton "electron"%string (f64_lit 1 0) (f64_lit (-1) 0) (f64_lit 1 0) (f64_lit 0 0) (f64_lit 0 0) false true
    (mkV (f64_lit 0 0) (f64_lit 0 0) (f64_lit 0 0)) (mkV (f64_lit 1 0) (f64_lit 0 0) (f64_lit 0 0)) [] [] [] [].
Lemma lit_m1 : dbl (f64_lit (-1) 0) (-1).
Proof. exists (f64 (f64_lit (-1) 0) eq_refl). split; [apply toSF_f64|]. split; [reflexivity|]. unfold f64. rewrite B2R_SF2B. vm_compute. lra. Qed.
Lemma lit_128 : dbl (f64_lit 78125 (-7)) (1/128).
Proof. exists (f64 (f64_lit 78125 (-7)) eq_refl). split; [apply toSF_f64|]. split; [reflexivity|]. unfold f64. rewrite B2R_SF2B. vm_compute. lra. Qed.
Example C144_case : let q := test_particle PLepton 1 (-1) (v3 0 0 0) (v3 1 0 0) in
  let p' L := @pushes _ (Num_F64 L) 128 (@lorentz_force _ (Num_F64 L))
     (static_field (mkV (f64_lit 0 0) (f64_lit 0 0) (f64_lit 0 0)) (mkV (f64_lit 0 0) (f64_lit 0 0) (f64_lit 1 0))) (f64_lit 78125 (-7)) electron64 in
  holds_particle electron64 q /\ tame rzero (v3 0 0 1) q (1/128) (INR 128 * (1/128)) /\ rounding rzero (v3 0 0 1) q (1/128) (INR 128 * (1/128)) <= 2/1000000000 /\
  forall L, exists x m, holds (p_pos (p' L)) x /\ holds (p_mom (p' L)) m /\
    distance (x, m) (v3 (sin (1 / sqrt 2)) (1 - cos (1 / sqrt 2)) 0, v3 (cos (1 / sqrt 2)) (sin (1 / sqrt 2)) 0) <= 2/10000000.
Proof.
  cbv zeta. set (q := test_particle _ _ _ _ _).
  assert (NT : INR 128 * (1/128) = 1) by (rewrite INR_IZR_INZ; cbn; lra).
  assert (LZ : rlen rzero = 0) by (unfold rlen; rewrite <- sqrt_0; f_equal; runf; ring).
  assert (L1 : rlen (v3 0 0 1) = 1) by (rewrite (rlen_abs _ 1) by (runf; ring); apply Rabs_R1).
  assert (L2 : rlen (v3 1 0 0) = 1) by (rewrite (rlen_abs _ 1) by (runf; ring); apply Rabs_R1).
  assert (ST : strength rzero (v3 0 0 1) = 2) by (unfold strength; rewrite LZ, L1; ring).
  assert (MG : magnitude rzero (v3 0 0 1) q 1 = 5).
  { unfold magnitude. rewrite ST. change (p_pos q) with rzero. change (p_mom q) with (v3 1 0 0). rewrite LZ, L2. ring. }
  assert (EX : exp 4 <= 81).
  { replace 4 with (1 + 1 + (1 + 1)) by ring. rewrite !exp_plus. pose proof exp_le_3 as E3. pose proof (exp_pos 1) as E0. set (w := exp 1) in *. assert (w * w <= 9) by nra. assert (0 <= w * w) by nra. nra. }
  assert (RD : rounding rzero (v3 0 0 1) q (1/128) 1 <= 2/1000000000).
  { unfold rounding. rewrite MG, ST. replace (2 * 2 * 1) with 4 by ring. set (w := exp 4) in *. replace (2 * 2 * (1/128)) with (/ 32) by field. unfold Rdiv at 1. rewrite Rinv_inv.
    change (two (-43)) with (/ IZR (2 ^ 43)). cbn [Z.pow Z.pow_pos Pos.iter Z.mul Pos.mul]. lra. }
  assert (HQ : holds_particle electron64 q).
  { split; [reflexivity|]. split; [reflexivity|]. split; [apply dbl_1|]. split; [apply lit_m1|]. split; repeat split; (apply dbl_0 || apply dbl_1). }
  assert (HT : tame rzero (v3 0 0 1) q (1/128) (INR 128 * (1/128))).
  { rewrite NT. unfold tame. rewrite ST, MG. split; [reflexivity|]. split; [change (p_charge q) with (-1); rewrite Rabs_left; lra|]. split; [lra|]. split; [lra|].
    split; [change 2 with (two 1); apply bpow_le; lia|]. split; [apply Rle_trans with (two 3); [change (two 3) with 8; lra|apply bpow_le; lia]|]. lra. }
  split; [exact HQ|]. split; [exact HT|]. split; [rewrite NT; exact RD|]. intros L.
  destruct (C144_gyration L 128 electron64 q (mkV (f64_lit 0 0) (f64_lit 0 0) (f64_lit 0 0)) (mkV (f64_lit 0 0) (f64_lit 0 0) (f64_lit 1 0)) 1 (f64_lit 78125 (-7)) (1/128) HQ) as (x & m & GX & GM & D);
    [repeat split; apply dbl_0|repeat split; (apply dbl_0 || apply dbl_1)|apply lit_128|lra|exact HT|].
  exists x, m. split; [exact GX|]. split; [exact GM|]. clear GX GM. rewrite NT in D. rewrite Rabs_R1 in D.
  change (p_mass q) with 1 in D. change (p_charge q) with (-1) in D. change (p_time q) with 7 in D. change (p_pos q) with (v3 0 0 0) in D. change (p_mom q) with (v3 1 0 0) in D.
  replace (v3 (sin (1 / sqrt 2)) (1 - cos (1 / sqrt 2)) 0, v3 (cos (1 / sqrt 2)) (sin (1 / sqrt 2)) 0) with (helix 1 (-1) 1 7 (v3 0 0 0) (v3 1 0 0) (7 + 1)).
  - eapply Rle_trans; [exact D|]. replace (2 * (1 + 1) * 1) with 4 by ring. replace (1 ^ 4) with 1 by ring. replace ((1 / 128) ^ 4) with (1 / 268435456) by field. set (w := exp 4) in *. lra.
  - assert (G : lorentz_factor 1 (v3 1 0 0) = sqrt 2) by (unfold lorentz_factor; f_equal; runf; field).
    assert (S2 : sqrt 2 <> 0) by (pose proof (sqrt_lt_R0 2 ltac:(lra)); lra).
    unfold helix. rewrite G. replace (-1 * 1 / (1 * sqrt 2) * (7 + 1 - 7)) with (- (1 / sqrt 2)) by (field; exact S2).
    rewrite cos_neg, sin_neg. unfold v3. cbn [vx vy vz]. f_equal; f_equal; field; exact S2.
Qed.
