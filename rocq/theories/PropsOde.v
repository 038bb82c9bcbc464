(** * Properties C102, C103: the push as a Runge-Kutta step of the equation of motion *)
From Coq Require Import String ZArith Reals Lra Psatz List.
From Verif Require Import Num RNum Vec SpecVec VecFacts SpecDyn Units MCTools Particle ParticleFacts Fields FieldFacts Pusher PusherFacts VecExtra PropsPusher.
Import ListNotations.
Local Open Scope R_scope.

(** ** Specification: the classical Runge-Kutta method for y' = f(t, y), y = (position, momentum) *)
Definition phase := (V3 * V3)%type.
Definition pplus (y z : phase) : phase := (rplus (fst y) (fst z), rplus (snd y) (snd z)).
Definition pscale (s : R) (y : phase) : phase := (rscale s (fst y), rscale s (snd y)).
Definition runge_kutta (f : R -> phase -> phase) (t h : R) (y : phase) : phase :=
  let k1 := f t y in
  let k2 := f (t + h / 2) (pplus y (pscale (h / 2) k1)) in
  let k3 := f (t + h / 2) (pplus y (pscale (h / 2) k2)) in
  let k4 := f (t + h) (pplus y (pscale h k3)) in
  pplus y (pscale (h / 6) (pplus (pplus k1 (pscale 2 k2)) (pplus (pscale 2 k3) k4))).
(** x' = v, p' = q (E + v x B), the fields taken at time t and position x *)
Definition equation_of_motion (m q : R) (fld : R -> V3 -> V3 * V3) (t : R) (y : phase) : phase :=
  (velocity m (snd y), rscale q (rplus (fst (fld t (fst y))) (rcross (velocity m (snd y)) (snd (fld t (fst y)))))).

(** [n] steps *)
Fixpoint trajectory (f : R -> phase -> phase) (t h : R) (y : phase) (n : nat) : phase :=
  match n with O => y | S k => runge_kutta f (t + INR k * h) h (trajectory f t h y k) end.

(** ** C102 *)
Lemma half_step (x k : V3) h : vadd x (vdivs (vmuls k h) n2) = rplus x (rscale (h / 2) k).
Proof. vmodel. rnum. destruct x, k. unfold rplus, rscale, v3. cbn [Vec.vx Vec.vy Vec.vz]. f_equal; field. Qed.
Lemma full_step (x k : V3) h : vadd x (vmuls k h) = rplus x (rscale h k).
Proof. vmodel. destruct x, k. unfold rplus, rscale, v3. cbn [Vec.vx Vec.vy Vec.vz]. f_equal; ring. Qed.

(** whatever the force *)
Definition motion_with (F : force R) (m q : R) (fld : field R) (t : R) (y : phase) : phase :=
  (velocity m (snd y), F m q (snd y) (fst (fld t (fst y))) (snd (fld t (fst y)))).
Lemma runge_kutta_stages f t h y k1 k2 k3 k4 :
  k1 = f t y -> k2 = f (t + h / 2) (pplus y (pscale (h / 2) k1)) -> k3 = f (t + h / 2) (pplus y (pscale (h / 2) k2)) -> k4 = f (t + h) (pplus y (pscale h k3)) ->
  runge_kutta f t h y = pplus y (pscale (h / 6) (pplus (pplus k1 (pscale 2 k2)) (pplus (pscale 2 k3) k4))).
Proof. intros -> -> -> ->. reflexivity. Qed.
Lemma mean_assoc (a b c d : V3) : rplus (rplus (rplus a b) c) d = rplus (rplus a b) (rplus c d).
Proof. vring. Qed.

(** one bound variable of the step at a time *)
Ltac stage := lazymatch goal with
  | |- (let z := ?v in @?b z) = ?r => let z' := fresh z in let E := fresh "E" in pose (z' := v); change (b z' = r); cbv beta; assert (E : z' = v) by reflexivity; clearbody z'
  | |- (match ?f with pair _ _ => _ end) = _ => let E := fresh "E" in destruct f eqn:E
  end.
Lemma rk4_step_general F (fld : field R) dt (p : particle R) :
  rk4_step F fld dt p = runge_kutta (motion_with F (p_mass p) (p_charge p) fld) (p_time p) dt (p_pos p, p_mom p).
Proof.
  cbv beta delta [rk4_step].
  stage. stage. stage. stage. stage. stage. stage. stage. stage. stage. stage. stage. stage. stage. stage. stage. stage. stage. stage. stage.
  rewrite push_position_R in *. rewrite half_step in *. rewrite full_step in *. rewrite !rk4_mean_R, !vadd_R, !smul_R.
  assert (N2 : (t + dt / n2)%num = t + dt / 2) by (rnum; reflexivity). rewrite N2 in E7, E11. change (t + dt)%num with (t + dt) in E15.
  erewrite (runge_kutta_stages _ _ _ _ (x1, k1) (x2, k2) (x3, k3) (x4, k4)).
  - unfold pplus, pscale. cbn [fst snd]. rnum. rewrite <- !mean_assoc, ?vadd_R, ?smul_R, E0, E1. reflexivity.
  - unfold motion_with. cbn [fst snd]. rewrite <- E, <- E0, <- E1, <- E2, <- E3, E4. cbn [fst snd]. congruence.
  - unfold motion_with, pplus, pscale. cbn [fst snd]. rewrite <- E, <- E0, <- E1, <- E2, <- E3, E7. cbn [fst snd]. congruence.
  - unfold motion_with, pplus, pscale. cbn [fst snd]. rewrite <- E, <- E0, <- E1, <- E2, <- E3, E11. cbn [fst snd]. congruence.
  - unfold motion_with, pplus, pscale. cbn [fst snd]. rewrite <- E, <- E0, <- E1, <- E2, <- E3, E15. cbn [fst snd]. congruence.
Qed.
Lemma lorentz_motion m q fld t y : motion_with lorentz_force m q fld t y = equation_of_motion m q fld t y.
Proof. unfold motion_with, equation_of_motion. rewrite lorentz_force_R. reflexivity. Qed.
Lemma runge_kutta_ext f g t h y : (forall t y, f t y = g t y) -> runge_kutta f t h y = runge_kutta g t h y.
Proof. intros HE. unfold runge_kutta. rewrite !HE. reflexivity. Qed.
Lemma trajectory_ext f g t h y n : (forall t y, f t y = g t y) -> trajectory f t h y n = trajectory g t h y n.
Proof. intros HE. induction n as [|n IH]; cbn [trajectory]; [reflexivity|]. rewrite IH. apply runge_kutta_ext, HE. Qed.

Lemma pushes_trajectory F fld dt (p : particle R) n : p_alive p = true -> p_mass p <> 0 ->
  (p_pos (pushes n F fld dt p), p_mom (pushes n F fld dt p)) =
  trajectory (motion_with F (p_mass p) (p_charge p) fld) (p_time p) dt (p_pos p, p_mom p) n.
Proof.
  intros Ha Hm. induction n as [|n IH]; [reflexivity|]. cbn [pushes trajectory]. rewrite <- IH.
  destruct (pushes_keeps n F fld dt p) as (_ & _ & K1 & K2 & _ & _ & _ & K3).
  destruct (push_massive F fld dt (pushes n F fld dt p)) as (P1 & P2 & _); [congruence|congruence|]. rewrite P1, P2, <- surjective_pairing.
  rewrite rk4_step_general, K1, K2, pushes_time by exact Ha. reflexivity.
Qed.

(** any number of pushes by the Lorentz pusher: the classical Runge-Kutta method applied to the equation of motion, with the
    fields taken at the times and places of the stages *)
Theorem C102_runge_kutta : forall n (fld : field R) dt (p : particle R), p_alive p = true -> p_mass p <> 0 ->
  (p_pos (pushes n lorentz_force fld dt p), p_mom (pushes n lorentz_force fld dt p)) =
  trajectory (equation_of_motion (p_mass p) (p_charge p) fld) (p_time p) dt (p_pos p, p_mom p) n.
Proof. intros n fld dt p Ha Hm. rewrite pushes_trajectory by auto. apply trajectory_ext. intros t y. apply lorentz_motion. Qed.
Print Assumptions C102_runge_kutta.

(** a homogeneous electric field that changes with time *)
Definition homogeneous (e : R -> V3) : field R := fun t _ => (e t, rzero).
Lemma lorentz_electric m q k E : lorentz m q k E rzero = rscale q E.
Proof. unfold lorentz. generalize (velocity m k). intros v. vring. Qed.
Theorem C102_impulse_step : forall (e : R -> V3) dt (p : particle R), p_alive p = true -> p_mass p <> 0 ->
  let t := p_time p in
  p_mom (push_particle lorentz_force (homogeneous e) dt p) =
  rplus (p_mom p) (rscale (p_charge p * dt / 6) (rplus (e t) (rplus (rscale 4 (e (t + dt / 2))) (e (t + dt))))).
Proof.
  intros e dt p Ha Hm t. destruct (push_massive lorentz_force (homogeneous e) dt p Ha Hm) as (_ & P & _). rewrite P, rk4_step_general.
  unfold runge_kutta, motion_with, homogeneous, pplus, pscale. cbn [fst snd]. rewrite !lorentz_force_R, !lorentz_electric. fold t.
  generalize (e t) (e (t + dt / 2)) (e (t + dt)). intros a b c. destruct (p_mom p), a, b, c. unfold rplus, rscale, v3. cbn [Vec.vx Vec.vy Vec.vz]. f_equal; field.
Qed.
Print Assumptions C102_impulse_step.

(** so the momentum is exact, over any number of steps of any length, if the field is at most cubic in time *)
Definition cubic (a b c d : V3) (t : R) : V3 := rplus (rplus a (rscale t b)) (rplus (rscale (t ^ 2) c) (rscale (t ^ 3) d)).
Definition quartic (a b c d : V3) (t : R) : V3 :=
  rplus (rplus (rscale t a) (rscale (t ^ 2 / 2) b)) (rplus (rscale (t ^ 3 / 3) c) (rscale (t ^ 4 / 4) d)).
Theorem C102_impulse_exact : forall n (a b c d : V3) dt (p : particle R), p_alive p = true -> p_mass p <> 0 ->
  p_mom (pushes n lorentz_force (homogeneous (cubic a b c d)) dt p) =
  rplus (p_mom p) (rscale (p_charge p) (rminus (quartic a b c d (p_time p + INR n * dt)) (quartic a b c d (p_time p)))).
Proof.
  intros n a b c d dt p Ha Hm. induction n as [|n IH].
  - cbn [pushes INR]. destruct (p_mom p). unfold quartic, rplus, rminus, rscale, v3. cbn [Vec.vx Vec.vy Vec.vz]. f_equal; field.
  - cbn [pushes]. destruct (pushes_keeps n lorentz_force (homogeneous (cubic a b c d)) dt p) as (_ & _ & K1 & K2 & _ & _ & _ & K3). cbv zeta in K1, K2, K3.
    rewrite C102_impulse_step by congruence. rewrite IH, K2, pushes_time by exact Ha. rewrite S_INR.
    generalize (INR n). intros k. destruct (p_mom p), a, b, c, d. unfold cubic, quartic, rplus, rminus, rscale, v3. cbn [Vec.vx Vec.vy Vec.vz]. f_equal; field.
Qed.
Print Assumptions C102_impulse_exact.

Example C102_case : let p := test_particle PLepton 1 (-1) (v3 0 0 0) (v3 0 0 2) in
  p_alive p = true /\ p_mass p <> 0 /\
  p_mom (pushes 10 lorentz_force (homogeneous (cubic rzero rzero rzero (v3 4 0 0))) 1 p) = v3 (7 ^ 4 - 17 ^ 4) 0 2.
Proof.
  cbn zeta. split; [reflexivity|]. split; [cbn; lra|]. rewrite C102_impulse_exact by (cbn; lra || reflexivity). cbn [test_particle p_mom p_charge p_time].
  replace (INR 10) with 10 by (cbn; lra). unfold quartic, rzero, rplus, rminus, rscale, v3. cbn [Vec.vx Vec.vy Vec.vz]. f_equal; field.
Qed.

(** ** C103: magnetic fields *)
(** a magnetic field of fixed direction [n], of any strength at any time and place, keeps the momentum along [n] exactly *)
Lemma cross_along (v n : V3) b : rdot (rcross v (rscale b n)) n = 0.
Proof. destruct v, n. unfold rdot, rcross, rscale, v3. cbn. ring. Qed.
Theorem C103_along_field : forall k (n : V3) (b : R -> V3 -> R) dt (p : particle R), p_alive p = true -> p_mass p <> 0 ->
  rdot (p_mom (pushes k lorentz_force (fun t x => (rzero, rscale (b t x) n)) dt p)) n = rdot (p_mom p) n.
Proof.
  intros k n b dt p Ha Hm. set (fld := fun t x => (rzero, rscale (b t x) n)). induction k as [|k IH]; [reflexivity|]. cbn [pushes]. rewrite <- IH.
  destruct (pushes_keeps k lorentz_force fld dt p) as (_ & _ & K1 & K2 & _ & _ & _ & K3). cbv zeta in K1, K2, K3.
  set (q := pushes k lorentz_force fld dt p) in *. destruct (push_massive lorentz_force fld dt q) as (_ & P & _); [congruence|congruence|].
  rewrite P, rk4_step_general. unfold runge_kutta. cbn [pplus pscale fst snd].
  assert (F : forall t y, rdot (snd (motion_with lorentz_force (p_mass q) (p_charge q) fld t y)) n = 0).
  { intros t y. unfold motion_with, fld. cbn [fst snd]. rewrite lorentz_force_R. unfold lorentz. set (v := velocity _ _).
    assert (LIN : forall q' (w : V3), rdot (rscale q' (rplus rzero w)) n = q' * rdot w n) by (intros q' [wx wy wz]; destruct n; unfold rdot, rscale, rplus, rzero, v3; cbn; ring).
    rewrite LIN, cross_along. ring. }
  set (f := motion_with _ _ _ _) in *. clearbody f.
  match goal with |- context [rplus (rplus (snd ?a) (rscale 2 (snd ?b))) (rplus (rscale 2 (snd ?c)) (snd ?d))] =>
    assert (A1 : rdot (snd a) n = 0) by apply F; assert (A2 : rdot (snd b) n = 0) by apply F;
    assert (A3 : rdot (snd c) n = 0) by apply F; assert (A4 : rdot (snd d) n = 0) by apply F;
    generalize dependent (snd a); generalize dependent (snd b); generalize dependent (snd c); generalize dependent (snd d) end.
  intros d D c C e E g G.
  assert (LIN : forall s u, rdot (rplus (p_mom q) (rscale s u)) n = rdot (p_mom q) n + s * rdot u n) by (intros; unfold rdot, rplus, rscale, v3; cbn; ring).
  assert (ADD : forall u v, rdot (rplus u v) n = rdot u n + rdot v n) by (intros; unfold rdot, rplus, v3; cbn; ring).
  assert (SC : forall s u, rdot (rscale s u) n = s * rdot u n) by (intros; unfold rdot, rscale, v3; cbn; ring).
  rewrite LIN, !ADD, !SC, D, C, E, G. ring.
Qed.
Print Assumptions C103_along_field.

(** but its energy is not kept: a strong field and a long step more than double the momentum *)
Theorem C103_energy_refuted : exists (b dt : R) (p : particle R), p_alive p = true /\ p_mass p = 1 /\ 0 < dt /\
  2 * rlen (p_mom p) < rlen (p_mom (push_particle lorentz_force (fun _ _ => (rzero, v3 0 0 b)) dt p)).
Proof.
  exists 10, 1, (test_particle PLepton 1 1 (v3 0 0 0) (v3 (3/4) 0 0)). set (p := test_particle _ _ _ _ _). split; [reflexivity|]. split; [reflexivity|]. split; [lra|].
  destruct (push_massive lorentz_force (fun _ _ => (rzero, v3 0 0 10)) 1 p eq_refl) as (_ & P & _); [cbn; lra|]. rewrite P, rk4_step_general. clear P.
  unfold runge_kutta, motion_with. cbn [fst snd pplus pscale p test_particle p_mom p_mass p_charge p_pos p_time]. rewrite !lorentz_force_R.
  assert (FO : forall k : V3, vz k = 0 -> lorentz 1 1 k rzero (v3 0 0 10) = v3 (10 * (vy k / lorentz_factor 1 k)) (- 10 * (vx k / lorentz_factor 1 k)) 0).
  { intros k HK. unfold lorentz, velocity. set (g := lorentz_factor 1 k). unfold rscale, rplus, rzero, rcross, v3. cbn. rewrite HK. unfold Rdiv. rewrite !Rmult_1_l. f_equal; ring. }
  assert (SQ : forall x y : R, 0 <= y -> y * y = x -> sqrt x = y) by (intros x y Hy <-; apply sqrt_square; exact Hy).
  assert (G1 : lorentz_factor 1 (v3 (3/4) 0 0) = 5 / 4) by (unfold lorentz_factor; apply SQ; [lra|]; unfold rlen2, rdot, v3; cbn; field).
  rewrite (FO (v3 (3/4) 0 0)) by reflexivity. rewrite G1. cbn [Vec.vx Vec.vy v3].
  replace (rplus (v3 (3/4) 0 0) (rscale (1 / 2) (v3 (10 * (0 / (5 / 4))) (- 10 * (3 / 4 / (5 / 4))) 0))) with (v3 (3/4) (- 3) 0)
    by (unfold rplus, rscale, v3; cbn; f_equal; field).
  assert (G2 : lorentz_factor 1 (v3 (3/4) (- 3) 0) = 13 / 4) by (unfold lorentz_factor; apply SQ; [lra|]; unfold rlen2, rdot, v3; cbn; field).
  rewrite (FO (v3 (3/4) (- 3) 0)) by reflexivity. rewrite G2. cbn [Vec.vx Vec.vy v3].
  replace (rplus (v3 (3/4) 0 0) (rscale (1 / 2) (v3 (10 * (- 3 / (13 / 4))) (- 10 * (3 / 4 / (13 / 4))) 0))) with (v3 (- 201 / 52) (- 60 / 52) 0)
    by (unfold rplus, rscale, v3; cbn; f_equal; field).
  set (m2 := v3 (- 201 / 52) (- 60 / 52) 0). rewrite (FO m2) by reflexivity.
  assert (G3 : 0 < lorentz_factor 1 m2 <= 217 / 52).
  { split; [apply gamma_pos; lra|]. unfold lorentz_factor. apply Rsqr_incr_0_var; [|lra]. rewrite Rsqr_sqrt.
    - unfold rlen2, rdot, m2, v3, Rsqr. cbn. lra.
    - unfold rlen2, rdot, m2, v3. cbn. lra. }
  set (g3 := lorentz_factor 1 m2) in *. clearbody g3.
  set (m3 := rplus (v3 (3/4) 0 0) (rscale 1 (v3 (10 * (vy m2 / g3)) (- 10 * (vx m2 / g3)) 0))).
  assert (Z3 : vz m3 = 0) by (unfold m3, rplus, rscale, v3; cbn; ring). rewrite (FO m3) by exact Z3.
  assert (W3 : vy m3 / lorentz_factor 1 m3 <= 1).
  { pose proof (vel_len2_lt 1 m3 ltac:(lra)) as L. unfold velocity, rlen2, rdot, rscale, v3 in L. cbn [Vec.vx Vec.vy Vec.vz] in L. rewrite Rmult_1_l in L.
    unfold Rdiv. rewrite Rmult_comm. set (u := / _ * vy m3) in *. set (w := / _ * vx m3) in *. nra. }
  set (a4 := vy m3 / lorentz_factor 1 m3) in *. clearbody a4. set (c4 := vx m3 / lorentz_factor 1 m3). clearbody c4. clearbody m3.
  assert (I3 : vy m2 / g3 <= - 60 / 217).
  { unfold m2. cbn [Vec.vy v3]. apply (Rmult_le_reg_r g3); [lra|]. unfold Rdiv at 1. rewrite Rmult_assoc, Rinv_l by lra. lra. }
  set (i3 := vy m2 / g3) in *. clearbody i3. set (j3 := vx m2 / g3). clearbody j3.
  assert (R34 : rlen (v3 (3/4) 0 0) = 3 / 4) by (unfold rlen; apply SQ; [lra|]; unfold rlen2, rdot, v3; cbn; field). rewrite R34.
  assert (BIG : forall v : V3, vx v < - 3 / 2 -> 2 * (3 / 4) < rlen v).
  { intros v HV. unfold rlen. rewrite <- (sqrt_square (2 * (3 / 4))) by lra. apply sqrt_lt_1_alt. split; [lra|]. unfold rlen2, rdot.
    pose proof (Rle_0_sqr (vy v)). pose proof (Rle_0_sqr (vz v)). unfold Rsqr in *. nra. }
  apply BIG. unfold rplus, rscale, v3. cbn [Vec.vx Vec.vy Vec.vz]. lra.
Qed.
Print Assumptions C103_energy_refuted.

Example C103_case : let p := test_particle PLepton 1 (-1) (v3 0 0 0) (v3 1 0 2) in p_alive p = true /\ p_mass p <> 0 /\ rdot (p_mom p) ez = 2.
Proof. cbn. split; [reflexivity|]. split; [lra|]. unfold rdot, ez, v3. cbn. lra. Qed.
