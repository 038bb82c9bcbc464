(** * Convergence of the classical Runge-Kutta method (used by PropsConverge)
    A proof for equations y' = f(t, y) on positions and momenta, with f bounded and Lipschitz continuous. *)
From Coq Require Import Reals Lra Psatz.
From Verif Require Import Num RNum Vec SpecVec VecFacts SpecDyn PropsOde.
Local Open Scope R_scope.

(** ** Distances *)
Definition pminus (y z : phase) : phase := (rminus (fst y) (fst z), rminus (snd y) (snd z)).
Definition plen (y : phase) : R := rlen (fst y) + rlen (snd y).
Definition distance (y z : phase) : R := plen (pminus y z).

(** the derivative of a curve, component by component *)
Definition moves (x : R -> V3) (t : R) (v : V3) : Prop :=
  derivable_pt_lim (fun s => vx (x s)) t (vx v) /\ derivable_pt_lim (fun s => vy (x s)) t (vy v) /\ derivable_pt_lim (fun s => vz (x s)) t (vz v).
(** [y] solves y' = f(t, y) between [a] and [b] *)
Definition solves (f : R -> phase -> phase) (a b : R) (y : R -> phase) : Prop :=
  forall t, a <= t <= b -> moves (fun s => fst (y s)) t (fst (f t (y t))) /\ moves (fun s => snd (y s)) t (snd (f t (y t))).

Lemma plen_nonneg y : 0 <= plen y.
Proof. unfold plen. pose proof (rlen_nonneg (fst y)). pose proof (rlen_nonneg (snd y)). lra. Qed.
Lemma plen_plus y z : plen (pplus y z) <= plen y + plen z.
Proof. unfold plen, pplus. cbn [fst snd]. pose proof (triangle (fst y) (fst z)). pose proof (triangle (snd y) (snd z)). lra. Qed.
Lemma plen_scale s y : plen (pscale s y) = Rabs s * plen y.
Proof. unfold plen, pscale. cbn [fst snd]. rewrite !rlen_scale. ring. Qed.
Lemma phase_eq (y z : phase) : fst y = fst z -> snd y = snd z -> y = z.
Proof. destruct y, z. cbn. intros -> ->. reflexivity. Qed.
Ltac pring := apply phase_eq; unfold pplus, pminus, pscale; cbn [fst snd]; vring.
Lemma plen_sum y a b : y = pplus a b -> plen y <= plen a + plen b.
Proof. intros ->. apply plen_plus. Qed.

(** ** Mean value inequality *)
Lemma dot_moves d x t v : moves x t v -> derivable_pt_lim (fun s => rdot d (x s)) t (rdot d v).
Proof.
  intros (H1 & H2 & H3). unfold rdot.
  apply (derivable_pt_lim_plus (fun s => vx d * vx (x s) + vy d * vy (x s)) (fun s => vz d * vz (x s))).
  - apply (derivable_pt_lim_plus (fun s => vx d * vx (x s)) (fun s => vy d * vy (x s))); apply derivable_pt_lim_scal; assumption.
  - apply derivable_pt_lim_scal; assumption.
Qed.
Lemma mean_value x v a b w M : a <= b -> (forall c, a <= c <= b -> moves x c (v c)) -> (forall c, a <= c <= b -> rlen (rminus (v c) w) <= M) ->
  rlen (rminus (rminus (x b) (x a)) (rscale (b - a) w)) <= (b - a) * M.
Proof.
  intros AB HD HM. set (d := rminus (rminus (x b) (x a)) (rscale (b - a) w)).
  assert (M0 : 0 <= M) by (eapply Rle_trans; [apply rlen_nonneg|apply (HM a); lra]).
  destruct (Req_dec a b) as [<-|NE].
  { assert (Z : rlen d = 0).
    { unfold d, rlen. rewrite <- sqrt_0. f_equal. destruct (x a), w. runf. ring. }
    rewrite Z. nra. }
  destruct (MVT_cor2 (fun s => rdot d (x s)) (fun s => rdot d (v s)) a b ltac:(lra) (fun c HC => dot_moves d x c (v c) (HD c HC))) as (c & E & C1).
  assert (S : rlen2 d = (b - a) * rdot d (rminus (v c) w)).
  { transitivity (rdot d (x b) - rdot d (x a) - (b - a) * rdot d w).
    - unfold d. generalize (x a) (x b). intros [? ? ?] [? ? ?]. destruct w. runf. ring.
    - rewrite E. generalize (v c). intros [? ? ?]. destruct d, w. runf. ring. }
  pose proof (cauchy d (rminus (v c) w)) as CS. specialize (HM c ltac:(lra)). pose proof (rlen_nonneg d) as D0. rewrite <- rlen_sq in S.
  destruct (Req_dec (rlen d) 0) as [->|ND]; [nra|].
  assert (rlen d * rlen d <= rlen d * ((b - a) * M)).
  { rewrite S. apply Rle_trans with ((b - a) * (rlen d * M)); [|right; ring]. apply Rmult_le_compat_l; [lra|]. eapply Rle_trans; [exact CS|]. apply Rmult_le_compat_l; assumption. }
  apply Rmult_le_reg_l with (rlen d); lra.
Qed.

(** ** One step *)
Section Step.
Variable f : R -> phase -> phase.
Variables F L : R.
Hypothesis HF : forall t y, plen (f t y) <= F.
Hypothesis HL : forall t s y z, plen (pminus (f t y) (f s z)) <= L * (Rabs (t - s) + distance y z).

Lemma F_nonneg : 0 <= F.
Proof. eapply Rle_trans; [apply plen_nonneg|apply (HF 0 (rzero, rzero))]. Qed.
Lemma L_nonneg : 0 <= L.
Proof.
  pose proof (HL 1 0 (rzero, rzero) (rzero, rzero)) as H. pose proof (plen_nonneg (pminus (f 1 (rzero, rzero)) (f 0 (rzero, rzero)))) as P.
  assert (E : distance (rzero, rzero) (rzero, rzero) = 0).
  { unfold distance, plen, pminus. cbn [fst snd]. assert (Z : rlen (rminus rzero rzero) = 0) by (unfold rlen; rewrite <- sqrt_0; f_equal; runf; ring). rewrite Z. ring. }
  rewrite E, Rminus_0_r, Rabs_R1 in H. lra.
Qed.

(** the solution moves by at most 2 F per unit of time, and departs from its tangent by at most 2 L (1 + 2 F) h^2 *)
Lemma solution_moves a b y : a <= b -> solves f a b y -> distance (y b) (y a) <= 2 * F * (b - a).
Proof.
  intros AB SY. pose proof F_nonneg as F0.
  assert (G : forall x : R -> V3, forall v, (forall c, a <= c <= b -> moves x c (v c)) -> (forall c, rlen (v c) <= F) -> rlen (rminus (x b) (x a)) <= (b - a) * F).
  { intros x v HD HV. pose proof (mean_value x v a b rzero F AB HD) as K. 
    replace (rminus (rminus (x b) (x a)) (rscale (b - a) rzero)) with (rminus (x b) (x a)) in K by vring. apply K.
    intros c _. replace (rminus (v c) rzero) with (v c) by vring. apply HV. }
  unfold distance, plen, pminus. cbn [fst snd].
  pose proof (G (fun s => fst (y s)) (fun s => fst (f s (y s))) (fun c HC => proj1 (SY c HC)) (fun c => ltac:(pose proof (HF c (y c)) as K; unfold plen in K; pose proof (rlen_nonneg (snd (f c (y c)))); lra))).
  pose proof (G (fun s => snd (y s)) (fun s => snd (f s (y s))) (fun c HC => proj2 (SY c HC)) (fun c => ltac:(pose proof (HF c (y c)) as K; unfold plen in K; pose proof (rlen_nonneg (fst (f c (y c)))); lra))).
  lra.
Qed.
Lemma solves_sub a b a' b' y : solves f a b y -> a <= a' -> b' <= b -> solves f a' b' y.
Proof. intros SY A B t HT. apply SY. lra. Qed.
Lemma tangent a b y : a <= b -> solves f a b y ->
  plen (pminus (pminus (y b) (y a)) (pscale (b - a) (f a (y a)))) <= 2 * L * (1 + 2 * F) * ((b - a) * (b - a)).
Proof.
  intros AB SY. pose proof F_nonneg as F0. pose proof L_nonneg as L0.
  assert (D : forall c, a <= c <= b -> plen (pminus (f c (y c)) (f a (y a))) <= L * (1 + 2 * F) * (b - a)).
  { intros c HC. eapply Rle_trans; [apply HL|]. rewrite Rabs_pos_eq by lra.
    pose proof (solution_moves a c y ltac:(lra) (solves_sub a b a c y SY ltac:(lra) ltac:(lra))) as M.
    assert (2 * F * (c - a) <= 2 * F * (b - a)) by nra.
    replace (L * (1 + 2 * F) * (b - a)) with (L * ((b - a) + 2 * F * (b - a))) by ring. apply Rmult_le_compat_l; lra. }
  unfold plen, pminus, pscale. cbn [fst snd].
  pose proof (mean_value (fun s => fst (y s)) (fun s => fst (f s (y s))) a b (fst (f a (y a))) (L * (1 + 2 * F) * (b - a)) AB (fun c HC => proj1 (SY c HC))
    (fun c HC => ltac:(pose proof (D c HC) as K; unfold plen, pminus in K; cbn [fst snd] in K; pose proof (rlen_nonneg (rminus (snd (f c (y c))) (snd (f a (y a))))); lra))) as K1.
  pose proof (mean_value (fun s => snd (y s)) (fun s => snd (f s (y s))) a b (snd (f a (y a))) (L * (1 + 2 * F) * (b - a)) AB (fun c HC => proj2 (SY c HC))
    (fun c HC => ltac:(pose proof (D c HC) as K; unfold plen, pminus in K; cbn [fst snd] in K; pose proof (rlen_nonneg (rminus (fst (f c (y c))) (fst (f a (y a))))); lra))) as K2.
  cbn beta in K1, K2. lra.
Qed.

(** so does the step *)
Lemma stage_close t y s h k : 0 <= s <= h -> plen k <= F -> plen (pminus (f (t + s) (pplus y (pscale s k))) (f t y)) <= L * (1 + F) * h.
Proof.
  intros HS HK. pose proof F_nonneg as F0. pose proof L_nonneg as L0. eapply Rle_trans; [apply HL|].
  replace (t + s - t) with s by ring. rewrite Rabs_pos_eq by lra.
  assert (D : distance (pplus y (pscale s k)) y = s * plen k).
  { unfold distance. replace (pminus (pplus y (pscale s k)) y) with (pscale s k) by (symmetry; pring). rewrite plen_scale, Rabs_pos_eq by lra. reflexivity. }
  rewrite D. pose proof (plen_nonneg k). assert (s * plen k <= h * F) by nra.
  replace (L * (1 + F) * h) with (L * (h + h * F)) by ring. apply Rmult_le_compat_l; nra.
Qed.
Lemma step_tangent t h y : 0 <= h -> plen (pminus (pminus (runge_kutta f t h y) y) (pscale h (f t y))) <= L * (1 + F) * (h * h).
Proof.
  intros H0. unfold runge_kutta. cbv zeta. set (k1 := f t y). set (k2 := f (t + h / 2) (pplus y (pscale (h / 2) k1))).
  set (k3 := f (t + h / 2) (pplus y (pscale (h / 2) k2))). set (k4 := f (t + h) (pplus y (pscale h k3))).
  assert (B2 : plen (pminus k2 k1) <= L * (1 + F) * h) by (apply stage_close; [lra|apply HF]).
  assert (B3 : plen (pminus k3 k1) <= L * (1 + F) * h) by (apply stage_close; [lra|apply HF]).
  assert (B4 : plen (pminus k4 k1) <= L * (1 + F) * h) by (apply stage_close; [lra|apply HF]).
  clearbody k2 k3 k4. clearbody k1.
  replace (pminus (pminus (pplus y (pscale (h / 6) (pplus (pplus k1 (pscale 2 k2)) (pplus (pscale 2 k3) k4)))) y) (pscale h k1))
    with (pscale (h / 6) (pplus (pscale 2 (pminus k2 k1)) (pplus (pscale 2 (pminus k3 k1)) (pminus k4 k1)))).
  2:{ apply phase_eq; unfold pplus, pminus, pscale; cbn [fst snd]; [destruct (fst k1), (fst k2), (fst k3), (fst k4), (fst y)|destruct (snd k1), (snd k2), (snd k3), (snd k4), (snd y)];
      unfold rplus, rminus, rscale, v3; cbn [Vec.vx Vec.vy Vec.vz]; f_equal; field. }
  rewrite plen_scale, Rabs_pos_eq by lra.
  pose proof (plen_plus (pscale 2 (pminus k2 k1)) (pplus (pscale 2 (pminus k3 k1)) (pminus k4 k1))) as P1.
  pose proof (plen_plus (pscale 2 (pminus k3 k1)) (pminus k4 k1)) as P2. rewrite !plen_scale, !(Rabs_pos_eq 2) in * by lra.
  pose proof F_nonneg as F0. pose proof L_nonneg as L0. assert (0 <= L * (1 + F) * h) by (repeat apply Rmult_le_pos; lra).
  set (X := plen (pplus (pscale 2 _) _)) in *. assert (X <= 6 * (L * (1 + F) * h)) by lra.
  replace (L * (1 + F) * (h * h)) with (h / 6 * (6 * (L * (1 + F) * h))) by field. apply Rmult_le_compat_l; lra.
Qed.
Lemma local_error a h y : 0 <= h -> solves f a (a + h) y -> distance (runge_kutta f a h (y a)) (y (a + h)) <= 5 * L * (1 + F) * (h * h).
Proof.
  intros H0 SY. pose proof (step_tangent a h (y a) H0) as S. pose proof (tangent a (a + h) y ltac:(lra) SY) as T.
  replace (a + h - a) with h in T by ring. unfold distance.
  pose proof (plen_sum (pminus (runge_kutta f a h (y a)) (y (a + h))) (pminus (pminus (runge_kutta f a h (y a)) (y a)) (pscale h (f a (y a))))
    (pscale (-1) (pminus (pminus (y (a + h)) (y a)) (pscale h (f a (y a))))) ltac:(generalize (runge_kutta f a h (y a)) (y (a + h)) (y a) (f a (y a)); intros; pring)) as P.
  rewrite plen_scale, Rabs_left in P by lra. pose proof F_nonneg as F0. pose proof L_nonneg as L0.
  assert (0 <= L * (h * h)) by nra. assert (0 <= F * (L * (h * h))) by nra. lra.
Qed.

(** nearby points stay near *)
Lemma stage_stable t y z s k l D K : 0 <= s -> distance y z <= D -> plen (pminus k l) <= K ->
  plen (pminus (f t (pplus y (pscale s k))) (f t (pplus z (pscale s l)))) <= L * (D + s * K).
Proof.
  intros S0 HD HK. eapply Rle_trans; [apply HL|]. replace (t - t) with 0 by ring. rewrite Rabs_R0, Rplus_0_l. apply Rmult_le_compat_l; [apply L_nonneg|].
  unfold distance in *. pose proof (plen_sum (pminus (pplus y (pscale s k)) (pplus z (pscale s l))) (pminus y z) (pscale s (pminus k l)) ltac:(pring)) as P.
  rewrite plen_scale, Rabs_pos_eq in P by lra. nra.
Qed.
Lemma step_stable t h y z : 0 <= h -> h * L <= 1 -> distance (runge_kutta f t h y) (runge_kutta f t h z) <= (1 + 2 * (L * h)) * distance y z.
Proof.
  intros H0 HS. set (D := distance y z). assert (D0 : 0 <= D) by apply plen_nonneg. pose proof L_nonneg as L0.
  unfold runge_kutta. cbv zeta. set (k1 := f t y). set (k2 := f (t + h / 2) (pplus y (pscale (h / 2) k1))).
  set (k3 := f (t + h / 2) (pplus y (pscale (h / 2) k2))). set (k4 := f (t + h) (pplus y (pscale h k3))).
  set (l1 := f t z). set (l2 := f (t + h / 2) (pplus z (pscale (h / 2) l1))).
  set (l3 := f (t + h / 2) (pplus z (pscale (h / 2) l2))). set (l4 := f (t + h) (pplus z (pscale h l3))).
  assert (LD : 0 <= L * D) by nra. assert (HLD : 0 <= h * L * (L * D) <= L * D) by (split; [apply Rmult_le_pos; nra|]; rewrite <- (Rmult_1_l (L * D)) at 2; apply Rmult_le_compat_r; lra).
  assert (B1 : plen (pminus k1 l1) <= L * D).
  { unfold k1, l1. eapply Rle_trans; [apply HL|]. replace (t - t) with 0 by ring. rewrite Rabs_R0, Rplus_0_l. apply Rle_refl. }
  assert (B2 : plen (pminus k2 l2) <= 3/2 * (L * D)).
  { eapply Rle_trans; [apply (stage_stable _ y z (h / 2) k1 l1 D (L * D)); [lra|apply Rle_refl|exact B1]|]. nra. }
  assert (B3 : plen (pminus k3 l3) <= 7/4 * (L * D)).
  { eapply Rle_trans; [apply (stage_stable _ y z (h / 2) k2 l2 D (3/2 * (L * D))); [lra|apply Rle_refl|exact B2]|]. nra. }
  assert (B4 : plen (pminus k4 l4) <= 11/4 * (L * D)).
  { eapply Rle_trans; [apply (stage_stable _ y z h k3 l3 D (7/4 * (L * D))); [lra|apply Rle_refl|exact B3]|]. nra. }
  clearbody k1 k2 k3 k4 l1 l2 l3 l4. unfold distance.
  pose proof (plen_sum (pminus (pplus y (pscale (h / 6) (pplus (pplus k1 (pscale 2 k2)) (pplus (pscale 2 k3) k4)))) (pplus z (pscale (h / 6) (pplus (pplus l1 (pscale 2 l2)) (pplus (pscale 2 l3) l4)))))
    (pminus y z) (pscale (h / 6) (pplus (pplus (pminus k1 l1) (pscale 2 (pminus k2 l2))) (pplus (pscale 2 (pminus k3 l3)) (pminus k4 l4)))) ltac:(pring)) as P.
  rewrite (plen_scale (h / 6)), (Rabs_pos_eq (h / 6)) in P by lra.
  pose proof (plen_plus (pplus (pminus k1 l1) (pscale 2 (pminus k2 l2))) (pplus (pscale 2 (pminus k3 l3)) (pminus k4 l4))) as P1.
  pose proof (plen_plus (pminus k1 l1) (pscale 2 (pminus k2 l2))) as P2. pose proof (plen_plus (pscale 2 (pminus k3 l3)) (pminus k4 l4)) as P3.
  rewrite !plen_scale, !(Rabs_pos_eq 2) in * by lra. fold D in P |- *.
  set (X := plen (pplus (pplus _ _) _)) in *. assert (X <= 12 * (L * D)) by lra. assert (h / 6 * X <= h / 6 * (12 * (L * D))) by (apply Rmult_le_compat_l; lra). 
  change (plen (pminus y z)) with D in P. lra.
Qed.

(** ** Many steps *)
Lemma global_error t0 h y0 y n : 0 <= h -> h * L <= 1 -> solves f t0 (t0 + INR n * h) y ->
  distance (trajectory f t0 h y0 n) (y (t0 + INR n * h)) <=
  (1 + 2 * (L * h)) ^ n * distance y0 (y t0) + 5/2 * (1 + F) * h * ((1 + 2 * (L * h)) ^ n - 1).
Proof.
  intros H0 HS. pose proof L_nonneg as L0. pose proof F_nonneg as F0. assert (A0 : 0 <= L * h) by nra.
  induction n as [|n IH]; intros SY.
  { cbn [trajectory pow INR]. replace (t0 + 0 * h) with t0 by ring. lra. }
  cbn [trajectory]. rewrite S_INR in *. set (t := t0 + INR n * h) in *. replace (t0 + (INR n + 1) * h) with (t + h) in * by (unfold t; ring).
  pose proof (pos_INR n) as N0. assert (T0 : t0 <= t) by (unfold t; nra).
  specialize (IH (solves_sub t0 (t + h) t0 t y SY ltac:(lra) ltac:(lra))).
  pose proof (local_error t h y H0 (solves_sub t0 (t + h) t (t + h) y SY ltac:(lra) ltac:(lra))) as LE.
  pose proof (step_stable t h (trajectory f t0 h y0 n) (y t) H0 HS) as ST. set (z := trajectory f t0 h y0 n) in *.
  pose proof (plen_sum (pminus (runge_kutta f t h z) (y (t + h))) (pminus (runge_kutta f t h z) (runge_kutta f t h (y t))) (pminus (runge_kutta f t h (y t)) (y (t + h)))
    ltac:(generalize (runge_kutta f t h z) (runge_kutta f t h (y t)); intros; pring)) as P.
  unfold distance in *. cbn [pow]. set (q := 1 + 2 * (L * h)) in *. set (d := plen (pminus z (y t))) in *.
  assert (Q1 : 1 <= q) by (unfold q; lra).
  assert (M : q * d <= q * (q ^ n * plen (pminus y0 (y t0)) + 5/2 * (1 + F) * h * (q ^ n - 1))) by (apply Rmult_le_compat_l; lra).
  assert (E : 5 * L * (1 + F) * (h * h) = 5/2 * (1 + F) * h * (q - 1)) by (unfold q; field). rewrite E in LE. lra.
Qed.
Lemma pow_exp a n : 0 <= a -> (1 + a) ^ n <= exp (INR n * a).
Proof.
  intros A. induction n as [|n IH]; [cbn; rewrite Rmult_0_l, exp_0; lra|]. rewrite S_INR. replace ((INR n + 1) * a) with (a + INR n * a) by ring. rewrite exp_plus. cbn [pow].
  pose proof (exp_ineq1_le a). apply Rmult_le_compat; try lra. apply pow_le. lra.
Qed.
Lemma converges t0 h y n : 0 <= h -> h * L <= 1 -> solves f t0 (t0 + INR n * h) y ->
  distance (trajectory f t0 h (y t0) n) (y (t0 + INR n * h)) <= 5/2 * (1 + F) * (exp (2 * L * (INR n * h)) - 1) * h.
Proof.
  intros H0 HS SY. pose proof L_nonneg as L0. pose proof F_nonneg as F0. eapply Rle_trans; [apply (global_error t0 h (y t0) y n H0 HS SY)|].
  assert (Z : distance (y t0) (y t0) = 0).
  { unfold distance, plen, pminus. cbn [fst snd]. assert (Z : forall v, rlen (rminus v v) = 0) by (intros [? ? ?]; unfold rlen; rewrite <- sqrt_0; f_equal; runf; ring). rewrite !Z. ring. }
  rewrite Z, Rmult_0_r, Rplus_0_l. pose proof (pow_exp (2 * (L * h)) n ltac:(nra)) as P.
  replace (INR n * (2 * (L * h))) with (2 * L * (INR n * h)) in P by ring.
  replace (5/2 * (1 + F) * (exp (2 * L * (INR n * h)) - 1) * h) with (5/2 * (1 + F) * h * (exp (2 * L * (INR n * h)) - 1)) by ring.
  apply Rmult_le_compat_l; [|lra]. nra.
Qed.
End Step.
