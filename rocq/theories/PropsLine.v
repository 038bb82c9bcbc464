(** * C147: radiation reaction in an electric field along the direction of flight *)
From Coq Require Import String ZArith Reals Lra Psatz List.
From Verif Require Import Num RNum Vec SpecVec VecFacts SpecDyn Units MCTools Particle ParticleFacts Fields FieldFacts Pusher PusherFacts VecExtra PropsPusher PropsProcess.
Import ListNotations.
Local Open Scope R_scope.

(** ** Specification *)
(** the share of the classical radiation reaction that the three models apply in a field of strength [e] *)
Inductive model := NoRadiation | Classical | Corrected.
Definition pusher_of (k : model) : force R := match k with NoRadiation => lorentz_force | Classical => landau_force | Corrected => modified_landau_force end.
(** the Gaunt factor (1 + 4.8 (1 + eta) ln(1 + 1.7 eta) + 2.44 eta^2)^(-2/3) *)
Definition correction (eta : R) : R := Rpower (1 + 48 / 10 * (1 + eta) * ln (1 + 17 / 10 * eta) + 244 / 100 * (eta * eta)) (- 2 / 3).
Definition share (k : model) (e : R) : R := match k with NoRadiation => 0 | Classical => 1 | Corrected => correction (Rabs e) end.
(** the rate at which the momentum along the field changes *)
Definition pull (k : model) (q e : R) : R := q * e - 2 / 3 * c_alpha * (e * e) * share k e.
(** the speed of mass [m] with momentum [a] *)
Definition speed (m a : R) : R := a / sqrt (m * m + a * a).
(** the distance of one step by Simpson's rule *)
Definition simpson (m a c dt : R) : R := dt / 6 * (speed m a + 4 * speed m (a + dt / 2 * c) + speed m (a + dt * c)).
Fixpoint distance (n : nat) (m a c dt : R) : R := match n with O => 0 | S k => distance k m a c dt + simpson m (a + INR k * dt * c) c dt end.

(** ** The forces on the line *)
Lemma line_nonzero u a : rlen2 u = 1 -> 0 < a -> rscale a u <> rzero.
Proof. intros HU Ha HE. assert (X : rlen2 (rscale a u) = 0) by (rewrite HE; runf; ring). replace (rlen2 (rscale a u)) with (a * a * rlen2 u) in X by (destruct u as [u1 u2 u3]; runf; ring). rewrite HU in X. nra. Qed.
Lemma line_factor m u a : 0 < m -> rlen2 u = 1 -> m * lorentz_factor m (rscale a u) = sqrt (m * m + a * a).
Proof.
  intros Hm HU. unfold lorentz_factor. replace (rlen2 (rscale a u)) with (a * a) by (replace (rlen2 (rscale a u)) with (a * a * rlen2 u) by (destruct u as [u1 u2 u3]; runf; ring); rewrite HU; ring).
  rewrite <- (sqrt_square m) at 1 by lra. rewrite <- sqrt_mult_alt by nra. f_equal. field. lra.
Qed.
Lemma line_velocity m u a : 0 < m -> rlen2 u = 1 -> velocity m (rscale a u) = rscale (speed m a) u.
Proof. intros Hm HU. unfold velocity. rewrite line_factor by auto. rewrite rscale_scale. f_equal. unfold speed, Rdiv. ring. Qed.
Lemma line_invariant m u a e b : 0 < m -> rlen2 u = 1 -> invariant2 m (rscale a u) (rscale e u) (rscale b u) = e * e.
Proof.
  intros Hm HU. unfold invariant2. cbv zeta. rewrite line_velocity by auto. pose proof (line_factor m u a Hm HU) as HF. set (g := lorentz_factor m (rscale a u)) in *.
  assert (HS : 0 < sqrt (m * m + a * a)) by (apply sqrt_lt_R0; nra). assert (HQ : sqrt (m * m + a * a) * sqrt (m * m + a * a) = m * m + a * a) by (apply sqrt_sqrt; nra).
  assert (GE : g = sqrt (m * m + a * a) / m) by (rewrite <- HF; field; lra).
  replace (rlen2 (rplus (rscale e u) (rcross (rscale (speed m a) u) (rscale b u)))) with (e * e * rlen2 u) by (destruct u as [u1 u2 u3]; runf; ring).
  replace (rdot (rscale (speed m a) u) (rscale e u)) with (speed m a * e * rlen2 u) by (destruct u as [u1 u2 u3]; runf; ring).
  rewrite HU, GE. unfold speed. set (r := sqrt (m * m + a * a)) in *. replace (r / m * (r / m) * (e * e * 1 - a / r * e * 1 * (a / r * e * 1))) with (e * e * (r * r - a * a) / (m * m)) by (field; lra).
  rewrite HQ. field. lra.
Qed.
Lemma line_lorentz m q u a e b : 0 < m -> rlen2 u = 1 -> lorentz m q (rscale a u) (rscale e u) (rscale b u) = rscale (q * e) u.
Proof. intros Hm HU. unfold lorentz. rewrite line_velocity by auto. generalize (speed m a). intros v. destruct u as [u1 u2 u3]. vring. Qed.
Lemma gaunt_correction eta : 0 <= eta -> gaunt eta = correction eta.
Proof.
  intros He. unfold gaunt, correction. rnum. rlit. set (y := 1 + _ + _). set (z := 1 + _ + _). assert (EY : y = z) by (unfold y, z; ring).
  assert (HL : 0 <= ln (1 + 17 / 10 * eta)).
  { destruct (Req_dec eta 0) as [->|]; [rewrite Rmult_0_r, Rplus_0_r, ln_1; lra|]. rewrite <- ln_1. left. apply ln_increasing; lra. }
  assert (HZ : 1 <= z) by (unfold z; nra). unfold Rpow. destruct (Req_EM_T _ _) as [HE|_]; [exfalso; eapply not_integer_23; exact HE|].
  rewrite EY. destruct (Rlt_dec 0 z); [reflexivity|lra].
Qed.
Lemma line_force k m q u a e b : 0 < m -> rlen2 u = 1 -> 0 < a -> pusher_of k m q (rscale a u) (rscale e u) (rscale b u) = rscale (pull k q e) u.
Proof.
  intros Hm HU Ha. pose proof (line_nonzero u a HU Ha) as HN. destruct k; cbn [pusher_of]; unfold pull; cbn [share].
  - rewrite lorentz_force_R, line_lorentz by auto. f_equal. ring.
  - rewrite landau_force_R, line_lorentz, line_invariant, runit_pos_scale by auto. destruct u as [u1 u2 u3]. vring.
  - rewrite modified_force_R, line_lorentz by auto. unfold invariant. rewrite line_invariant, runit_pos_scale by auto.
    replace (sqrt (e * e)) with (Rabs e) by (symmetry; apply sqrt_Rsqr_abs). rewrite gaunt_correction by apply Rabs_pos. generalize (correction (Rabs e)). intros z. destruct u as [u1 u2 u3]. vring.
Qed.

(** ** One step *)
Lemma line_sum a b (u : V3) : rplus (rscale a u) (rscale b u) = rscale (a + b) u.
Proof. destruct u as [u1 u2 u3]. vring. Qed.
Lemma line_half a c dt (u : V3) : vadd (rscale a u) (vdivs (vmuls (rscale c u) dt) n2) = rscale (a + dt / 2 * c) u.
Proof. rewrite vadd_R, vdivs_R, vmuls_R, !rscale_scale, line_sum. rnum. f_equal. field. Qed.
Lemma line_full a c dt (u : V3) : vadd (rscale a u) (vmuls (rscale c u) dt) = rscale (a + dt * c) u.
Proof. rewrite vadd_R, vmuls_R, !rscale_scale, line_sum. reflexivity. Qed.
Lemma line_mean a b c d (u : V3) : rk4_mean (rscale a u) (rscale b u) (rscale c u) (rscale d u) = rscale (a + 2 * b + 2 * c + d) u.
Proof. rewrite rk4_mean_R, !rscale_scale, !line_sum. reflexivity. Qed.
Lemma line_step k u a e b dt (p : particle R) : p_mom p = rscale a u -> 0 < p_mass p -> rlen2 u = 1 -> 0 < a -> 0 < a + dt * pull k (p_charge p) e ->
  rk4_step (pusher_of k) (static_field (rscale e u) (rscale b u)) dt p =
    (rplus (p_pos p) (rscale (simpson (p_mass p) a (pull k (p_charge p) e) dt) u), rscale (a + dt * pull k (p_charge p) e) u).
Proof.
  intros Ep Hm HU Ha Hb. unfold rk4_step, static_field. rewrite Ep. cbv zeta. generalize dependent (p_mass p). intros m Hm. generalize dependent (p_charge p). intros q Hb.
  pose proof (fun z => line_force k m q u z e b Hm HU) as LF. set (c := pull k q e) in *. rewrite (LF a Ha), line_half, !push_position_R, (LF (a + dt / 2 * c)) by lra.
  rewrite line_half, (LF (a + dt / 2 * c)), line_full, (LF (a + dt * c)) by lra.
  rewrite !line_velocity, !line_mean, !smul_R, !rscale_scale, !vadd_R, line_sum by auto. rnum. rlit. unfold simpson. f_equal; [f_equal|]; f_equal; field.
Qed.

(** ** C147 *)
(** In static electric and magnetic fields along the direction of flight the momentum changes at a constant rate, as long as it does not turn round:
    the classical radiation reaction takes away 2/3 alpha e^2 per unit of time at every energy, the corrected one a fixed share of that;
    the position advances by Simpson's rule. *)
Theorem C147_line : forall k n u a e b dt (p : particle R), p_alive p = true -> 0 < p_mass p -> rlen2 u = 1 -> p_mom p = rscale a u ->
  let c := pull k (p_charge p) e in
  0 < a -> 0 < a + INR n * dt * c ->
  let p' := pushes n (pusher_of k) (static_field (rscale e u) (rscale b u)) dt p in
  p_mom p' = rscale (a + INR n * dt * c) u /\ p_pos p' = rplus (p_pos p) (rscale (distance n (p_mass p) a c dt) u).
Proof.
  intros k n u a e b dt p Hal Hm HU Ep c Ha. induction n as [|n IH]; intros Hn p'.
  - cbn in p'. subst p'. rewrite Ep. cbn [INR distance]. split; [f_equal; ring|]. destruct (p_pos p) as [x1 x2 x3], u as [u1 u2 u3]. vring.
  - assert (Hk : 0 < a + INR n * dt * c).
    { rewrite S_INR in Hn. pose proof (pos_INR n). destruct (Rle_dec 0 (dt * c)) as [HC|HC]; [|nra]. assert (0 <= INR n * (dt * c)) by (apply Rmult_le_pos; auto). lra. }
    destruct (IH Hk) as [IM IP]. subst p'. cbn [pushes]. set (r := pushes n _ _ _ p) in *. pose proof (pushes_keeps n (pusher_of k) (static_field (rscale e u) (rscale b u)) dt p) as K. cbv zeta in K. fold r in K.
    destruct K as (_ & _ & KM & KQ & _ & _ & _ & KA). destruct (push_massive (pusher_of k) (static_field (rscale e u) (rscale b u)) dt r) as (P1 & P2 & _); [congruence|rewrite KM; lra|].
    rewrite P1, P2, (line_step k u (a + INR n * dt * c) e b); [|exact IM|rewrite KM; exact Hm|exact HU|exact Hk|rewrite KQ; fold c; rewrite S_INR in Hn; lra]. rewrite KM, KQ. fold c. cbn [fst snd].
    rewrite S_INR, IP. cbn [distance]. split; [f_equal; ring|]. generalize (distance n (p_mass p) a c dt) (simpson (p_mass p) (a + INR n * dt * c) c dt) (p_pos p). intros d s x. destruct x as [x1 x2 x3], u as [u1 u2 u3]. vring.
Qed.
Print Assumptions C147_line.

(** ** The position *)
(** the distance flown in the time [t] with the constant force [c] *)
Definition flown (m a c t : R) : R := (sqrt (m * m + (a + c * t) * (a + c * t)) - sqrt (m * m + a * a)) / c.
Lemma root_pos m a : 0 < m -> 0 < sqrt (m * m + a * a) /\ sqrt (m * m + a * a) * sqrt (m * m + a * a) = m * m + a * a.
Proof. intros Hm. split; [apply sqrt_lt_R0; nra|apply sqrt_sqrt; nra]. Qed.
Lemma speed_bound m a : 0 < m -> -1 < speed m a < 1.
Proof.
  intros Hm. destruct (root_pos m a Hm) as [H1 H2]. unfold speed. set (r := sqrt (m * m + a * a)) in *. assert (-r < a < r) by (split; nra).
  split; apply Rmult_lt_reg_r with r; auto; replace (a / r * r) with a by (field; lra); lra.
Qed.
Lemma speed_mono m a b : 0 < m -> a <= b -> speed m a <= speed m b.
Proof.
  intros Hm Hab. destruct (root_pos m a Hm) as [A1 A2], (root_pos m b Hm) as [B1 B2]. unfold speed. set (r := sqrt (m * m + a * a)) in *. set (w := sqrt (m * m + b * b)) in *.
  apply Rmult_le_reg_r with (r * w); [nra|]. replace (a / r * (r * w)) with (a * w) by (field; lra). replace (b / w * (r * w)) with (b * r) by (field; lra).
  destruct (Rle_dec 0 a) as [Ha|Ha].
  - assert (a * w * (a * w) <= b * r * (b * r)) by (replace (a * w * (a * w)) with (a * a * (w * w)) by ring; replace (b * r * (b * r)) with (b * b * (r * r)) by ring; rewrite A2, B2; assert (a * a <= b * b) by nra; nra). apply Rsqr_incr_0_var; [exact H|nra].
  - destruct (Rle_dec 0 b) as [Hb|Hb]; [nra|]. assert (- b * r * (- b * r) <= - a * w * (- a * w)) by (replace (- b * r * (- b * r)) with (b * b * (r * r)) by ring; replace (- a * w * (- a * w)) with (a * a * (w * w)) by ring; rewrite A2, B2; assert (b * b <= a * a) by nra; nra).
    assert (- b * r <= - a * w) by (apply Rsqr_incr_0_var; [exact H|nra]). lra.
Qed.
(** the mean speed between two momenta lies between the two speeds *)
Lemma mean_speed m a b c dt : 0 < m -> c <> 0 -> b = a + dt * c -> exists v, sqrt (m * m + b * b) - sqrt (m * m + a * a) = c * (dt * v) /\ Rmin (speed m a) (speed m b) <= v <= Rmax (speed m a) (speed m b).
Proof.
  intros Hm Hc Hb. destruct (root_pos m a Hm) as [A1 A2], (root_pos m b Hm) as [B1 B2]. unfold speed. set (r := sqrt (m * m + a * a)) in *. set (w := sqrt (m * m + b * b)) in *.
  exists ((a + b) / (r + w)). split.
  - apply Rmult_eq_reg_r with (r + w); [|lra]. replace (c * (dt * ((a + b) / (r + w))) * (r + w)) with ((dt * c) * (a + b)) by (field; lra). replace (dt * c) with (b - a) by lra. nra.
  - replace ((a + b) / (r + w)) with (r / (r + w) * (a / r) + w / (r + w) * (b / w)) by (field; lra).
    assert (P : 0 < r / (r + w)) by (apply Rdiv_lt_0_compat; lra). assert (Q : 0 < w / (r + w)) by (apply Rdiv_lt_0_compat; lra). assert (PQ : r / (r + w) + w / (r + w) = 1) by (field; lra).
    generalize dependent (r / (r + w)). generalize dependent (w / (r + w)). generalize (a / r) (b / w). clear. intros x y k Q l P PQ. assert (l = 1 - k) as -> by lra. unfold Rmin, Rmax. destruct (Rle_dec x y); split; nra.
Qed.
Lemma step_error m a c dt : 0 < m -> c <> 0 -> 0 < dt -> Rabs (simpson m a c dt - flown m a c dt) <= dt * Rabs (speed m (a + dt * c) - speed m a).
Proof.
  intros Hm Hc Hd. unfold simpson, flown. replace (a + c * dt) with (a + dt * c) by ring. destruct (mean_speed m a (a + dt * c) c dt Hm Hc eq_refl) as (v & -> & HV).
  replace (c * (dt * v) / c) with (dt * v) by (field; auto).
  assert (MID : Rmin (speed m a) (speed m (a + dt * c)) <= speed m (a + dt / 2 * c) <= Rmax (speed m a) (speed m (a + dt * c))).
  { destruct (Rle_dec 0 c) as [C|C].
    - pose proof (speed_mono m a (a + dt / 2 * c) Hm ltac:(nra)). pose proof (speed_mono m (a + dt / 2 * c) (a + dt * c) Hm ltac:(nra)). unfold Rmin, Rmax. destruct (Rle_dec _ _); lra.
    - pose proof (speed_mono m (a + dt / 2 * c) a Hm ltac:(nra)). pose proof (speed_mono m (a + dt * c) (a + dt / 2 * c) Hm ltac:(nra)). unfold Rmin, Rmax. destruct (Rle_dec _ _); lra. }
  revert HV MID. generalize (speed m a) (speed m (a + dt / 2 * c)) (speed m (a + dt * c)). clear -Hd. intros x y z HV MID.
  replace (dt / 6 * (x + 4 * y + z) - dt * v) with (dt * ((x + 4 * y + z) / 6 - v)) by field. rewrite Rabs_mult, (Rabs_pos_eq dt) by lra. apply Rmult_le_compat_l; [lra|].
  unfold Rmin, Rmax in *. destruct (Rle_dec x z); [rewrite (Rabs_pos_eq (z - x)) by lra|rewrite (Rabs_left (z - x)) by lra]; apply Rabs_le; lra.
Qed.
Lemma flown_sum m a c s t : c <> 0 -> flown m a c (s + t) = flown m a c s + flown m (a + c * s) c t.
Proof. intros Hc. unfold flown. replace (a + c * (s + t)) with (a + c * s + c * t) by ring. field. exact Hc. Qed.
Lemma distance_error m a c dt n : 0 < m -> c <> 0 -> 0 < dt -> Rabs (distance n m a c dt - flown m a c (INR n * dt)) <= dt * Rabs (speed m (a + INR n * dt * c) - speed m a).
Proof.
  intros Hm Hc Hd. induction n as [|n IH].
  - cbn [distance INR]. rewrite !Rmult_0_l, Rplus_0_r. replace (flown m a c 0) with 0 by (unfold flown; rewrite Rmult_0_r, Rplus_0_r; field; auto). rewrite !Rminus_diag_eq, Rabs_R0 by reflexivity. lra.
  - cbn [distance]. rewrite S_INR. replace ((INR n + 1) * dt) with (INR n * dt + dt) by ring. rewrite flown_sum by auto. replace (a + c * (INR n * dt)) with (a + INR n * dt * c) by ring.
    pose proof (step_error m (a + INR n * dt * c) c dt Hm Hc Hd) as SE. set (b := a + INR n * dt * c) in *. replace (a + (INR n * dt + dt) * c) with (b + dt * c) by (unfold b; ring).
    pose proof (pos_INR n) as N0. assert (ND : 0 <= INR n * dt) by nra.
    assert (TRI : Rabs (speed m b - speed m a) + Rabs (speed m (b + dt * c) - speed m b) = Rabs (speed m (b + dt * c) - speed m a)).
    { destruct (Rle_dec 0 c) as [C|C].
      - pose proof (speed_mono m a b Hm ltac:(unfold b; nra)). pose proof (speed_mono m b (b + dt * c) Hm ltac:(nra)). rewrite !Rabs_pos_eq by lra. ring.
      - pose proof (speed_mono m b a Hm ltac:(unfold b; nra)). pose proof (speed_mono m (b + dt * c) b Hm ltac:(nra)). rewrite !Rabs_left1 by lra. ring. }
    rewrite <- TRI, Rmult_plus_distr_l. eapply Rle_trans; [|apply Rplus_le_compat; [exact IH|exact SE]]. eapply Rle_trans; [|apply Rabs_triang]. right. f_equal. ring.
Qed.
(** [flown] is the distance of the relativistic motion with the constant force: its derivative is the speed *)
Theorem C147_motion : forall m a c t, 0 < m -> c <> 0 -> flown m a c 0 = 0 /\ derivable_pt_lim (flown m a c) t (speed m (a + c * t)).
Proof.
  intros m a c t Hm Hc. split; [unfold flown; rewrite Rmult_0_r, Rplus_0_r; field; exact Hc|]. destruct (root_pos m (a + c * t) Hm) as [H1 H2].
  assert (D : derivable_pt_lim (fun s => m * m + (a + c * s) * (a + c * s)) t (2 * c * (a + c * t))).
  { assert (L : derivable_pt_lim (fun s => a + c * s) t c).
    { assert (L0 : derivable_pt_lim (fun s => a + c * s) t (0 + (0 * t + c * 1))).
      { apply (derivable_pt_lim_plus (fun _ => a) (fun s => c * s)); [apply derivable_pt_lim_const|]. apply (derivable_pt_lim_mult (fun _ => c) (fun s => s)); [apply derivable_pt_lim_const|apply derivable_pt_lim_id]. }
      replace (0 + (0 * t + c * 1)) with c in L0 by ring. exact L0. }
    replace (2 * c * (a + c * t)) with (0 + (c * (a + c * t) + (a + c * t) * c)) by ring. apply (derivable_pt_lim_plus (fun _ => m * m) (fun s => (a + c * s) * (a + c * s))); [apply derivable_pt_lim_const|].
    apply (derivable_pt_lim_mult (fun s => a + c * s) (fun s => a + c * s)); exact L. }
  assert (S : derivable_pt_lim (fun s => sqrt (m * m + (a + c * s) * (a + c * s))) t (/ (2 * sqrt (m * m + (a + c * t) * (a + c * t))) * (2 * c * (a + c * t)))).
  { apply (derivable_pt_lim_comp (fun s => m * m + (a + c * s) * (a + c * s)) sqrt); [exact D|]. apply derivable_pt_lim_sqrt. nra. }
  unfold flown. replace (speed m (a + c * t)) with ((/ (2 * sqrt (m * m + (a + c * t) * (a + c * t))) * (2 * c * (a + c * t)) - 0) * / c + (sqrt (m * m + (a + c * t) * (a + c * t)) - sqrt (m * m + a * a)) * 0) by (unfold speed; field; lra).
  apply (derivable_pt_lim_mult (fun s => sqrt (m * m + (a + c * s) * (a + c * s)) - sqrt (m * m + a * a)) (fun _ => / c)); [|apply derivable_pt_lim_const].
  apply (derivable_pt_lim_minus (fun s => sqrt (m * m + (a + c * s) * (a + c * s))) (fun _ => sqrt (m * m + a * a))); [exact S|apply derivable_pt_lim_const].
Qed.
Print Assumptions C147_motion.
(** however many steps are made, the position is never further than one step's length from that motion *)
Theorem C147_position : forall k n u a e b dt (p : particle R), p_alive p = true -> 0 < p_mass p -> rlen2 u = 1 -> p_mom p = rscale a u ->
  let c := pull k (p_charge p) e in
  c <> 0 -> 0 < dt -> 0 < a -> 0 < a + INR n * dt * c ->
  rlen (rminus (p_pos (pushes n (pusher_of k) (static_field (rscale e u) (rscale b u)) dt p)) (rplus (p_pos p) (rscale (flown (p_mass p) a c (INR n * dt)) u))) < dt.
Proof.
  intros k n u a e b dt p Hal Hm HU Ep c Hc Hd Ha Hn. destruct (C147_line k n u a e b dt p Hal Hm HU Ep Ha Hn) as [_ ->]. fold c.
  pose proof (distance_error (p_mass p) a c dt n Hm Hc Hd) as DE. set (d := distance _ _ _ _ _) in *. set (f := flown _ _ _ _) in *.
  replace (rminus (rplus (p_pos p) (rscale d u)) (rplus (p_pos p) (rscale f u))) with (rscale (d - f) u) by (destruct (p_pos p) as [x1 x2 x3], u as [u1 u2 u3]; vring).
  rewrite rlen_scale. assert (LU : rlen u = 1) by (unfold rlen; rewrite HU; apply sqrt_1). rewrite LU, Rmult_1_r. eapply Rle_lt_trans; [exact DE|].
  assert (P : forall z, 0 < z -> 0 < speed (p_mass p) z < 1).
  { intros z Hz. split; [|apply speed_bound; auto]. destruct (root_pos (p_mass p) z Hm). apply Rdiv_lt_0_compat; auto. }
  pose proof (P _ Ha). pose proof (P _ Hn). assert (Rabs (speed (p_mass p) (a + INR n * dt * c) - speed (p_mass p) a) < 1) by (apply Rabs_def1; lra). nra.
Qed.
Print Assumptions C147_position.

(** what the radiation reaction has taken away after n steps, whatever the energy: the difference to the run without radiation *)
Theorem C147_loss : forall k n u a e b dt (p : particle R), p_alive p = true -> 0 < p_mass p -> rlen2 u = 1 -> p_mom p = rscale a u ->
  0 < a -> 0 < dt -> 0 < a + INR n * dt * pull Classical (p_charge p) e ->
  0 <= share k e <= 1 /\
    rminus (p_mom (pushes n (pusher_of NoRadiation) (static_field (rscale e u) (rscale b u)) dt p)) (p_mom (pushes n (pusher_of k) (static_field (rscale e u) (rscale b u)) dt p)) =
    rscale (INR n * dt * (2 / 3 * c_alpha * (e * e)) * share k e) u.
Proof.
  intros k n u a e b dt p Hal Hm HU Ep Ha Hdt Hn.
  assert (SH : forall j, 0 <= share j e <= 1).
  { intros [| |]; cbn [share]; try lra. pose proof (gaunt_bounds (Rabs e) (Rabs_pos e)) as G. rewrite gaunt_correction in G by apply Rabs_pos. lra. }
  assert (PO : forall j, 0 < a + INR n * dt * pull j (p_charge p) e).
  { intros j. apply Rlt_le_trans with (1 := Hn). apply Rplus_le_compat_l, Rmult_le_compat_l; [apply Rmult_le_pos; [apply pos_INR|lra]|]. unfold pull. specialize (SH j). cbn [share] in *.
    pose proof c_alpha_pos. assert (0 <= 2 / 3 * c_alpha * (e * e)) by nra. nra. }
  split; [apply SH|].
  destruct (C147_line NoRadiation n u a e b dt p Hal Hm HU Ep Ha (PO NoRadiation)) as [-> _]. destruct (C147_line k n u a e b dt p Hal Hm HU Ep Ha (PO k)) as [-> _].
  unfold pull. cbn [share]. generalize (share k e) (c_alpha (T := R)) (INR n) (p_charge p). intros s al N q. destruct u as [u1 u2 u3]. vring.
Qed.
Print Assumptions C147_loss.

(** the classical model turns acceleration into braking: in a field above 3 / (2 alpha) a positron that the field pushes forward loses momentum with every step *)
Theorem C147_braked : forall n u a e b dt (p : particle R), p_alive p = true -> 0 < p_mass p -> p_charge p = 1 -> rlen2 u = 1 -> p_mom p = rscale a u ->
  0 < dt -> 3 / (2 * c_alpha) < e -> 0 < a + INR (S n) * dt * pull Classical 1 e ->
  rlen (p_mom (pushes (S n) landau_force (static_field (rscale e u) (rscale b u)) dt p)) < rlen (p_mom (pushes n landau_force (static_field (rscale e u) (rscale b u)) dt p)).
Proof.
  intros n u a e b dt p Hal Hm HQ HU Ep Hdt He Hn. pose proof c_alpha_pos as AP.
  assert (HC : pull Classical 1 e < 0).
  { unfold pull. cbn [share]. assert (E0 : 0 < e) by (apply Rlt_trans with (2 := He); apply Rdiv_lt_0_compat; lra).
    assert (E1 : 3 < 2 * c_alpha * e). { replace 3 with (2 * c_alpha * (3 / (2 * c_alpha))) by (field; lra). apply Rmult_lt_compat_l; lra. }
    replace (1 * e - 2 / 3 * c_alpha * (e * e) * 1) with (e / 3 * (3 - 2 * c_alpha * e)) by field. nra. }
  set (c := pull Classical 1 e) in *. rewrite S_INR in Hn. pose proof (pos_INR n) as N0. assert (DC : dt * c < 0) by nra. assert (NC : INR n * (dt * c) <= 0) by nra.
  assert (Ha : 0 < a) by lra. assert (Hk : 0 < a + INR n * dt * c) by lra.
  assert (LU : rlen u = 1) by (unfold rlen; rewrite HU; apply sqrt_1).
  pose proof (C147_line Classical n u a e b dt p Hal Hm HU Ep) as X. cbv zeta in X. rewrite HQ in X. fold c in X. destruct (X Ha Hk) as [X1 _].
  pose proof (C147_line Classical (S n) u a e b dt p Hal Hm HU Ep) as Y. cbv zeta in Y. rewrite HQ in Y. fold c in Y. rewrite S_INR in Y. destruct (Y Ha Hn) as [Y1 _].
  cbn [pusher_of] in X1, Y1. rewrite X1, Y1, !rlen_scale, LU, !Rabs_pos_eq by lra. lra.
Qed.
Print Assumptions C147_braked.

(** a positron of momentum 5 along z in the field 3: a hundred steps of 1/100 *)
Example C147_case : forall k, let p := test_particle PLepton 1 1 rzero (rscale 5 ez) in
  0 <= share k 3 <= 1 /\ p_mom (pushes 100 (pusher_of k) (static_field (rscale 3 ez) (rscale 2 ez)) (1 / 100) p) = rscale (8 - 6 * c_alpha * share k 3) ez.
Proof.
  intros k p. assert (EZ : rlen2 ez = 1) by (runf; ring). assert (N : INR 100 = 100) by (rewrite INR_IZR_INZ; reflexivity). assert (AB : 0 < c_alpha < 1) by (unfold c_alpha; rlit; lra).
  assert (SH : 0 <= share k 3 <= 1).
  { destruct k; cbn [share]; try lra. pose proof (gaunt_bounds (Rabs 3) (Rabs_pos 3)) as G. rewrite gaunt_correction in G by apply Rabs_pos. lra. }
  split; [exact SH|]. destruct (C147_line k 100 ez 5 3 2 (1 / 100) p eq_refl) as [X _]; [cbn; lra|exact EZ|reflexivity|lra| |].
  - rewrite N. unfold pull. cbn [p test_particle p_charge]. nra.
  - rewrite X, N. unfold pull. cbn [p test_particle p_charge]. f_equal. field.
Qed.
(** its position is within 1/100 of the exact one *)
Example C147_position_case : let p := test_particle PLepton 1 1 rzero (rscale 5 ez) in
  rlen (rminus (p_pos (pushes 100 landau_force (static_field (rscale 3 ez) (rscale 2 ez)) (1 / 100) p)) (rplus rzero (rscale (flown 1 5 (3 - 6 * c_alpha) (INR 100 * (1 / 100))) ez))) < 1 / 100.
Proof.
  intros p. assert (N : INR 100 = 100) by (rewrite INR_IZR_INZ; reflexivity). assert (AB : 7 / 1000 < c_alpha < 8 / 1000) by (unfold c_alpha; rlit; lra).
  assert (HC : pull Classical (p_charge p) 3 = 3 - 6 * c_alpha) by (unfold pull; cbn [share p test_particle p_charge]; field).
  pose proof (C147_position Classical 100 ez 5 3 2 (1 / 100) p eq_refl) as X. cbv zeta in X. rewrite HC in X. apply X; [cbn; lra|runf; ring|reflexivity|lra|lra|lra|rewrite N; lra].
Qed.
(** the field 1000 brakes it *)
Example C147_braked_case : let p := test_particle PLepton 1 1 rzero (rscale 50 ez) in
  rlen (p_mom (pushes 1 landau_force (static_field (rscale 1000 ez) (rscale 2 ez)) (1 / 1000) p)) < rlen (p_mom p).
Proof.
  intros p. assert (AB : 7 / 1000 < c_alpha < 8 / 1000) by (unfold c_alpha; rlit; lra). refine (C147_braked 0 ez 50 1000 2 (1 / 1000) p eq_refl _ eq_refl _ eq_refl _ _ _).
  - cbn; lra.
  - runf; ring.
  - lra.
  - apply Rmult_lt_reg_l with (2 * c_alpha); [lra|]. replace (2 * c_alpha * (3 / (2 * c_alpha))) with 3 by (field; lra). lra.
  - cbn [INR]. unfold pull. cbn [share]. nra.
Qed.
