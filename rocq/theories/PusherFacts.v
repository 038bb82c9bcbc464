(** * Pushers: proofs *)
From Coq Require Import ZArith Reals Lra Psatz Lia List.
From Verif Require Import Num RNum Outcome Vec SpecVec VecFacts SpecDyn Units MCTools Particle ParticleFacts Fields FieldFacts Pusher.
Import ListNotations.
Local Open Scope R_scope.

(** rewrite the model's vector operations to the textbook ones *)
Ltac vmodel :=
  change (@vadd R Num_R) with rplus in *; change (@vsub R Num_R) with rminus in *;
  change (@smul R Num_R) with rscale in *; change (@dot R Num_R) with rdot in *;
  change (@mag2 R Num_R) with rlen2 in *; change (@mag R Num_R) with rlen in *;
  change (@cross R Num_R) with rcross in *; rewrite ?vnorm_R, ?vmuls_R, ?vdivs_R in *.

(** ** Lorentz factor and velocity *)
Lemma lf_ge1 m p : m <> 0 -> 1 <= lorentz_factor m p.
Proof.
  intros Hm. unfold lorentz_factor.
  assert (HQ : 0 <= rlen2 p / (m * m)).
  { unfold Rdiv. apply Rmult_le_pos; [apply rlen2_nonneg|]. left. apply Rinv_0_lt_compat. nra. }
  pose proof (sqrt_le_1_alt 1 (1 + rlen2 p / (m * m)) ltac:(lra)) as HS. rewrite sqrt_1 in HS. exact HS.
Qed.
Lemma lf_sq m p : m <> 0 -> lorentz_factor m p * lorentz_factor m p = 1 + rlen2 p / (m * m).
Proof.
  intros Hm. apply sqrt_sqrt.
  assert (HQ : 0 <= rlen2 p / (m * m)); [|lra].
  unfold Rdiv. apply Rmult_le_pos; [apply rlen2_nonneg|]. left. apply Rinv_0_lt_compat. nra.
Qed.
Lemma gamma_lf (m : R) (p : V3) : nsqrt (nadd n1 (ndiv (mag2 p) (nmul m m))) = lorentz_factor m p.
Proof. rewrite mag2_R. rnum. reflexivity. Qed.

Lemma push_position_R m p : push_position m p = velocity m p.
Proof. unfold push_position. cbv zeta. rewrite gamma_lf, vdivs_R. reflexivity. Qed.

Lemma vel_len2 m p : m <> 0 ->
  rlen2 (velocity m p) = 1 - 1 / (lorentz_factor m p * lorentz_factor m p).
Proof.
  intros Hm. unfold velocity. rewrite rlen2_scale. pose proof (lf_ge1 m p Hm) as G. pose proof (lf_sq m p Hm) as S.
  set (g := lorentz_factor m p) in *.
  replace (rlen2 p) with ((g * g - 1) * (m * m)) by (rewrite S; field; auto).
  field. lra.
Qed.
Lemma vel_len2_lt m p : m <> 0 -> rlen2 (velocity m p) < 1.
Proof.
  intros Hm. rewrite vel_len2 by auto. pose proof (lf_ge1 m p Hm).
  assert (0 < 1 / (lorentz_factor m p * lorentz_factor m p)); [|lra]. apply Rdiv_lt_0_compat; nra.
Qed.
Lemma vel_len_lt m p : m <> 0 -> rlen (velocity m p) < 1.
Proof.
  intros Hm. unfold rlen. rewrite <- sqrt_1. apply sqrt_lt_1_alt. split; [apply rlen2_nonneg | apply vel_len2_lt; auto].
Qed.

(** ** Push, exact form *)
Lemma rk4_mean_R (a b c d : V3) : rk4_mean a b c d = rplus (rplus (rplus a (rscale 2 b)) (rscale 2 c)) d.
Proof. unfold rk4_mean. rewrite !vadd_R, !smul_R. rnum. reflexivity. Qed.

Lemma rk4_mean_len a b c d : rlen a < 1 -> rlen b < 1 -> rlen c < 1 -> rlen d < 1 ->
  rlen (rk4_mean a b c d) < 6.
Proof.
  intros. rewrite rk4_mean_R.
  pose proof (triangle (rplus (rplus a (rscale 2 b)) (rscale 2 c)) d).
  pose proof (triangle (rplus a (rscale 2 b)) (rscale 2 c)).
  pose proof (triangle a (rscale 2 b)).
  rewrite !rlen_scale in *. rewrite !(Rabs_pos_eq 2) in * by lra. lra.
Qed.

Lemma rk4_mean_same a : rk4_mean a a a a = rscale 6 a.
Proof. rewrite rk4_mean_R. vring. Qed.

Lemma push_massive F fld dt (p : particle R) : p_alive p = true -> p_mass p <> 0 ->
  p_pos (push_particle F fld dt p) = fst (rk4_step F fld dt p) /\
  p_mom (push_particle F fld dt p) = snd (rk4_step F fld dt p) /\
  p_time (push_particle F fld dt p) = p_time p + dt.
Proof.
  intros Ha Hm. unfold push_particle. rewrite Ha. rnum.
  replace (Reqb (p_mass p) 0) with false by (symmetry; apply Reqb_false; auto).
  destruct (rk4_step F fld dt p) as [x m]. unfold update_track.
  destruct (p_tracking p); cbn; auto.
Qed.

Lemma below_light F fld dt (p : particle R) : p_alive p = true -> p_mass p <> 0 -> 0 < dt ->
  rlen (rminus (p_pos (push_particle F fld dt p)) (p_pos p)) < dt.
Proof.
  intros Ha Hm Hdt. destruct (push_massive F fld dt p Ha Hm) as [-> _].
  unfold rk4_step.
  destruct (fld _ _) as [e1 b1]. destruct (fld _ _) as [e2 b2].
  destruct (fld _ _) as [e3 b3]. destruct (fld _ _) as [e4 b4]. cbn [fst].
  rewrite !push_position_R, vadd_R, smul_R. rnum.
  match goal with |- context [rk4_mean ?a ?b ?c ?d] =>
    assert (HL : rlen (rk4_mean a b c d) < 6) by (apply rk4_mean_len; apply vel_len_lt; auto);
    set (k := rk4_mean a b c d) in * end.
  replace (rminus _ _) with (rscale (dt / 6) k) by vring.
  rewrite rlen_scale, Rabs_pos_eq by lra. pose proof (rlen_nonneg k). nra.
Qed.

(** ** Free flight *)
Definition no_field : field R := static_field rzero rzero.

Lemma lorentz_force_R m q p E B : lorentz_force m q p E B = lorentz m q p E B.
Proof.
  unfold lorentz_force, lorentz. cbv zeta. rewrite gamma_lf, vdivs_R, smul_R, vadd_R, cross_R.
  unfold velocity. rnum. generalize (/ (m * lorentz_factor m p)). intros k. f_equal. f_equal. vring.
Qed.

Lemma gamma_pos m p : m <> 0 -> 0 < lorentz_factor m p.
Proof. intros. pose proof (lf_ge1 m p H). lra. Qed.

Lemma Rpow_2 x : Rpow x 2 = x * x.
Proof. rewrite Rpow_IZR. simpl. ring. Qed.

(** the quantity computed by the pushers and by CalculateEta is the invariant *)
Lemma eta_core m (p E B : V3) : 0 < m -> p <> rzero ->
  let g := lorentz_factor m p in
  let beta := sqrt (1 - 1 / (g * g)) in
  let d := runit p in
  let perp := rminus E (rscale (rdot E d) d) in
  rlen2 (rplus perp (rscale beta (rcross d B))) + rdot d E * rdot d E / (g * g)
  = rlen2 (rplus E (rcross (velocity m p) B)) - rdot (velocity m p) E * rdot (velocity m p) E.
Proof.
  intros Hm Hp g beta d perp.
  assert (Hm0 : m <> 0) by lra.
  pose proof (lf_ge1 m p Hm0) as G. fold g in G.
  pose proof (vel_len2 m p Hm0) as VL. fold g in VL.
  assert (HU : rlen2 d = 1) by (apply rlen2_unit; auto).
  assert (HV : velocity m p = rscale beta d).
  { unfold velocity. fold g. unfold d, runit. rewrite rscale_scale. f_equal.
    assert (HB : beta = rlen p / (m * g)).
    { unfold beta. apply sqrt_lem_1.
      - rewrite <- VL. apply rlen2_nonneg.
      - unfold Rdiv. apply Rmult_le_pos; [apply rlen_nonneg|]. left. apply Rinv_0_lt_compat. nra.
      - rewrite <- VL. unfold velocity. fold g. rewrite rlen2_scale, <- rlen_sq. field. lra. }
    rewrite HB. pose proof (rlen_pos p Hp). field. lra. }
  assert (HB2 : 1 / (g * g) = 1 - beta * beta).
  { unfold beta. rewrite sqrt_sqrt; [lra|]. rewrite <- VL. apply rlen2_nonneg. }
  rewrite HV. unfold Rdiv in *. rewrite Rmult_1_l in HB2. rewrite HB2.
  unfold perp. clearbody beta d. clear -HU.
  destruct E as [e1 e2 e3], B as [b1 b2 b3], d as [d1 d2 d3]. runf.
  assert (H3 : d3 * d3 = 1 - d1 * d1 - d2 * d2) by lra.
  (* both sides agree modulo |d| = 1 *)
  set (s := e1 * d1 + e2 * d2 + e3 * d3).
  set (c1 := beta * (d2 * b3 - d3 * b2)). set (c2 := beta * (d3 * b1 - d1 * b3)). set (c3 := beta * (d1 * b2 - d2 * b1)).
  assert (HC : d1 * c1 + d2 * c2 + d3 * c3 = 0) by (unfold c1, c2, c3; ring).
  replace (beta * d2 * b3 - beta * d3 * b2) with c1 by (unfold c1; ring).
  replace (beta * d3 * b1 - beta * d1 * b3) with c2 by (unfold c2; ring).
  replace (beta * d1 * b2 - beta * d2 * b1) with c3 by (unfold c3; ring).
  replace (d1 * e1 + d2 * e2 + d3 * e3) with s by (unfold s; ring).
  replace (beta * d1 * e1 + beta * d2 * e2 + beta * d3 * e3) with (beta * s) by (unfold s; ring).
  clearbody c1 c2 c3.
  transitivity ((e1 + c1) * (e1 + c1) + (e2 + c2) * (e2 + c2) + (e3 + c3) * (e3 + c3)
     - 2 * s * (e1 * d1 + e2 * d2 + e3 * d3) - 2 * s * (d1 * c1 + d2 * c2 + d3 * c3)
     + s * s * (d1 * d1 + d2 * d2 + d3 * d3) + s * s * (1 - beta * beta)); [ring|].
  rewrite HC, HU. fold s. ring.
Qed.

Lemma pusher_eta_R m p E B : 0 < m -> p <> rzero -> pusher_eta m p E B = invariant m p E B.
Proof.
  intros Hm Hp. unfold pusher_eta. cbv zeta. rewrite gamma_lf. vmodel. rnum. rewrite Rpow_2.
  pose proof (eta_core m p E B Hm Hp) as HC. cbv zeta in HC.
  rewrite HC. unfold invariant, invariant2.
  pose proof (gamma_pos m p ltac:(lra)) as G.
  set (g := lorentz_factor m p) in *. set (q := rlen2 _ - _) in *.
  rewrite (Rmult_comm (sqrt q) g). rewrite sqrt_mult_alt by nra. rewrite sqrt_square by lra. reflexivity.
Qed.

Lemma invariant_nonneg m p E B : 0 <= invariant m p E B.
Proof. apply sqrt_pos. Qed.

Lemma invariant2_nonneg m p E B : 0 < m -> p <> rzero -> 0 <= invariant2 m p E B.
Proof.
  intros Hm Hp. unfold invariant2. pose proof (eta_core m p E B Hm Hp) as HC. cbv zeta in HC. rewrite <- HC.
  pose proof (gamma_pos m p ltac:(lra)) as G.
  apply Rmult_le_pos; [nra|]. apply Rplus_le_le_0_compat; [apply rlen2_nonneg|].
  apply div_sq_nonneg.
Qed.

Lemma landau_force_R m q p E B : 0 < m -> p <> rzero ->
  landau_force m q p E B
  = rplus (lorentz m q p E B) (rscale (- (2 / 3) * c_alpha * invariant2 m p E B) (runit p)).
Proof.
  intros Hm Hp. unfold landau_force. cbv zeta. rewrite pusher_eta_R by auto.
  change (smul q _) with (lorentz_force m q p E B). rewrite lorentz_force_R. vmodel. rnum.
  f_equal. f_equal.
  assert (HI : invariant m p E B * invariant m p E B = invariant2 m p E B)
    by (apply sqrt_sqrt, invariant2_nonneg; auto).
  rewrite <- HI. field.
Qed.

Lemma modified_force_R m q p E B : 0 < m -> p <> rzero ->
  modified_landau_force m q p E B
  = rplus (lorentz m q p E B)
      (rscale (- (2 / 3) * c_alpha * invariant2 m p E B * gaunt (invariant m p E B)) (runit p)).
Proof.
  intros Hm Hp. unfold modified_landau_force. cbv zeta. rewrite pusher_eta_R by auto.
  change (smul q _) with (lorentz_force m q p E B). rewrite lorentz_force_R. vmodel. rnum.
  f_equal. f_equal.
  assert (HI : invariant m p E B * invariant m p E B = invariant2 m p E B)
    by (apply sqrt_sqrt, invariant2_nonneg; auto).
  rewrite <- HI. field.
Qed.

Lemma not_integer_23 k : -2 / 3 <> IZR k.
Proof.
  intros H. assert (H3 : -2 = 3 * IZR k) by lra.
  rewrite <- mult_IZR in H3. apply eq_IZR in H3. lia.
Qed.

Lemma gaunt_bounds eta : 0 <= eta -> 0 < gaunt eta <= 1.
Proof.
  intros He. unfold gaunt. rnum. 
  set (y := 1 + _ + _).
  assert (Hy : 1 <= y).
  { unfold y. rlit. assert (HL : 0 <= ln (1 + 17 / 10 * eta)).
    { destruct (Req_dec eta 0) as [->|]; [rewrite Rmult_0_r, Rplus_0_r, ln_1; lra|].
      rewrite <- ln_1. left. apply ln_increasing; lra. }
    assert (0 <= 48 / 10 * (1 + eta) * ln (1 + 17 / 10 * eta)) by (apply Rmult_le_pos; nra).
    nra. }
  unfold Rpow. destruct (Req_EM_T _ _) as [HE|_]; [exfalso; exact (not_integer_23 _ HE)|].
  destruct (Rlt_dec 0 y); [|lra]. unfold Rpower. split; [apply exp_pos|]. apply exp_le1.
  assert (0 <= ln y).
  { destruct (Req_dec y 1) as [->|]; [rewrite ln_1; lra|]. rewrite <- ln_1. left. apply ln_increasing; lra. }
  lra.
Qed.

Lemma gaunt_0 : gaunt 0 = 1.
Proof.
  unfold gaunt. rnum. set (y := 1 + _ + _).
  assert (Hy : y = 1) by (unfold y; rewrite Rmult_0_r, Rplus_0_r, ln_1; ring).
  unfold Rpow. destruct (Req_EM_T _ _) as [HE|_]; [exfalso; exact (not_integer_23 _ HE)|].
  rewrite Hy. destruct (Rlt_dec 0 1); [|lra]. unfold Rpower. rewrite ln_1, Rmult_0_r. apply exp_0.
Qed.

(** ** Power *)
Lemma lorentz_power m q p E B : rdot (lorentz m q p E B) p = q * rdot E p.
Proof.
  unfold lorentz, velocity. generalize (/ (m * lorentz_factor m p)). intros k. vring.
Qed.
Lemma unit_dot p : p <> rzero -> rdot (runit p) p = rlen p.
Proof.
  intros Hp. unfold runit. rewrite rdot_scale_l. fold (rlen2 p). rewrite <- rlen_sq.
  pose proof (rlen_pos p Hp). field. lra.
Qed.
Lemma drag_power F k p : p <> rzero -> rdot (rplus F (rscale k (runit p))) p = rdot F p + k * rlen p.
Proof. intros. rewrite rdot_plus_l, rdot_scale_l, unit_dot by auto. reflexivity. Qed.

Lemma c_alpha_pos : 0 < c_alpha.
Proof. unfold c_alpha. rlit. lra. Qed.

(** ** zero field *)
Lemma lorentz_zero m q p : lorentz m q p rzero rzero = rzero.
Proof. unfold lorentz. generalize (velocity m p). intros v. vring. Qed.
Lemma invariant2_zero m p : invariant2 m p rzero rzero = 0.
Proof. unfold invariant2. generalize (velocity m p) (lorentz_factor m p). intros v g. cbv zeta. vring. Qed.
Lemma landau_zero m q p : 0 < m -> p <> rzero -> landau_force m q p rzero rzero = rzero.
Proof. intros. rewrite landau_force_R, lorentz_zero, invariant2_zero by auto. generalize (runit p). intros u. vring. Qed.
Lemma modified_zero m q p : 0 < m -> p <> rzero -> modified_landau_force m q p rzero rzero = rzero.
Proof. intros. rewrite modified_force_R, lorentz_zero, invariant2_zero by auto. generalize (runit p). intros u. vring. Qed.
Lemma lorentz_force_zero m q p : lorentz_force m q p rzero rzero = rzero.
Proof. rewrite lorentz_force_R. apply lorentz_zero. Qed.

Lemma step_no_force F dt (p : particle R) :
  F (p_mass p) (p_charge p) (p_mom p) rzero rzero = rzero ->
  rk4_step F no_field dt p = (rplus (p_pos p) (rscale dt (velocity (p_mass p) (p_mom p))), p_mom p).
Proof.
  intros HF. unfold rk4_step, no_field, static_field. rewrite !push_position_R.
  vmodel.
  assert (HZ : forall s (a : V3), rplus a (rscale s (rscale dt rzero)) = a) by (intros; vring).
  assert (HZ' : forall (a : V3), rplus a (rscale dt rzero) = a) by (intros; vring).
  repeat (rewrite HF, ?HZ, ?HZ').
  rewrite !rk4_mean_same. rnum. f_equal.
  - rewrite rscale_scale. f_equal. f_equal. lra.
  - vring.
Qed.

Lemma step_uniform_E dt (p : particle R) (E : V3) :
  snd (rk4_step lorentz_force (static_field E rzero) dt p)
  = rplus (p_mom p) (rscale (p_charge p * dt) E).
Proof.
  unfold rk4_step, static_field. cbn [snd]. rewrite !lorentz_force_R.
  assert (HL : forall m q k, lorentz m q k E rzero = rscale q E).
  { intros. unfold lorentz. generalize (velocity m k). intros v. vring. }
  rewrite !HL, rk4_mean_same. vmodel. rnum. rewrite !rscale_scale. f_equal. f_equal. field.
Qed.

(** ** Any arithmetic: dead particles, identity *)
Section AnyPush.
Context {T : Type} `{Num T}.

Lemma push_dead F fld (dt : T) p : p_alive p = false -> push_particle F fld dt p = p.
Proof. intros Ha. unfold push_particle. rewrite Ha. reflexivity. Qed.

Lemma push_keeps F fld (dt : T) p :
  let p' := push_particle F fld dt p in
  p_type p' = p_type p /\ p_name p' = p_name p /\ p_mass p' = p_mass p /\ p_charge p' = p_charge p /\
  p_weight p' = p_weight p /\ p_depth p' = p_depth p /\ p_tracking p' = p_tracking p /\ p_alive p' = p_alive p.
Proof.
  unfold push_particle, update_track. destruct (p_alive p) eqn:Ha; [|repeat split; auto].
  destruct (neqb _ _); [|destruct (rk4_step _ _ _ _)]; destruct (p_tracking p) eqn:Ht; cbn; auto 10.
Qed.

Lemma push_hist F fld (dt : T) p : p_alive p = true -> p_tracking p = true ->
  let p' := push_particle F fld dt p in
  p_posHist p' = p_posHist p ++ [p_pos p'] /\ p_momHist p' = p_momHist p ++ [p_mom p'] /\
  p_timeHist p' = p_timeHist p ++ [p_time p] /\ p_time p' = nadd (p_time p) dt.
Proof.
  intros Ha Ht. unfold push_particle, update_track. rewrite Ha.
  destruct (neqb _ _); [|destruct (rk4_step _ _ _ _)]; rewrite Ht; cbn; auto.
Qed.

Lemma pushes_keeps n F fld (dt : T) p :
  let p' := pushes n F fld dt p in
  p_type p' = p_type p /\ p_name p' = p_name p /\ p_mass p' = p_mass p /\ p_charge p' = p_charge p /\
  p_weight p' = p_weight p /\ p_depth p' = p_depth p /\ p_tracking p' = p_tracking p /\ p_alive p' = p_alive p.
Proof.
  induction n; cbn [pushes]; [repeat split; auto|].
  pose proof (push_keeps F fld dt (pushes n F fld dt p)) as HK. cbv zeta in *.
  destruct HK as (A1&A2&A3&A4&A5&A6&A7&A8). destruct IHn as (B1&B2&B3&B4&B5&B6&B7&B8).
  repeat split; congruence.
Qed.

(** entry i of the histories: position and momentum after i+1 pushes, but the clock after i pushes *)
Lemma pushes_hist n F fld (dt : T) p : p_alive p = true -> p_tracking p = true ->
  p_posHist p = [] -> p_momHist p = [] -> p_timeHist p = [] ->
  let h := pushes n F fld dt p in
  p_posHist h = map (fun i => p_pos (pushes (S i) F fld dt p)) (seq 0 n) /\
  p_momHist h = map (fun i => p_mom (pushes (S i) F fld dt p)) (seq 0 n) /\
  p_timeHist h = map (fun i => p_time (pushes i F fld dt p)) (seq 0 n).
Proof.
  intros Ha Ht H1 H2 H3. induction n; [cbn; auto|].
  pose proof (pushes_keeps n F fld dt p) as HK. cbv zeta in *. cbn [pushes].
  pose proof (push_hist F fld dt (pushes n F fld dt p)) as HH. cbv zeta in HH.
  destruct HK as (_&_&_&_&_&_&K1&K2). rewrite K1, K2 in HH. specialize (HH Ha Ht).
  destruct HH as (P1&P2&P3&_). destruct IHn as (I1&I2&I3).
  rewrite P1, P2, P3, I1, I2, I3. rewrite !seq_S, !map_app. cbn [map plus]. auto.
Qed.
End AnyPush.

(** ** Photons *)
Lemma push_photon F fld dt (p : particle R) : p_alive p = true -> p_mass p = 0 ->
  p_pos (push_particle F fld dt p) = rplus (p_pos p) (rscale dt (runit (p_mom p))) /\
  p_mom (push_particle F fld dt p) = p_mom p /\ p_time (push_particle F fld dt p) = p_time p + dt.
Proof.
  intros Ha Hm. unfold push_particle. rewrite Ha. rnum.
  replace (Reqb (p_mass p) 0) with true by (symmetry; apply Reqb_true; auto).
  assert (HX : vadd (p_pos p) (smul (dt / mag (p_mom p)) (p_mom p)) = rplus (p_pos p) (rscale dt (runit (p_mom p)))).
  { vmodel. f_equal. unfold runit. rewrite rscale_scale. reflexivity. }
  rewrite HX. unfold update_track. destruct (p_tracking p); cbn; auto.
Qed.

Lemma pushes_photon n F fld dt (p : particle R) : p_alive p = true -> p_mass p = 0 ->
  let h := pushes n F fld dt p in
  p_pos h = rplus (p_pos p) (rscale (INR n * dt) (runit (p_mom p))) /\
  p_mom h = p_mom p /\ p_time h = p_time p + INR n * dt.
Proof.
  intros Ha Hm. cbv zeta. induction n.
  - cbn [pushes INR]. split; [generalize (runit (p_mom p)); intros; vring|]. split; [auto|ring].
  - cbn [pushes]. pose proof (pushes_keeps n F fld dt p) as HK. cbv zeta in HK.
    destruct HK as (_&_&K1&_&_&_&_&K2).
    destruct (push_photon F fld dt (pushes n F fld dt p)) as (A&B&C); try congruence.
    destruct IHn as (I1&I2&I3). rewrite A, B, C, I1, I2, I3. rewrite S_INR.
    split; [generalize (runit (p_mom p)); intros; vring|]. split; [auto|ring].
Qed.

Lemma push_time F fld dt (p : particle R) : p_alive p = true -> p_time (push_particle F fld dt p) = p_time p + dt.
Proof.
  intros Ha. unfold push_particle, update_track. rewrite Ha.
  destruct (neqb _ _); [|destruct (rk4_step _ _ _ _)]; destruct (p_tracking p); reflexivity.
Qed.
Lemma pushes_time n F fld dt (p : particle R) : p_alive p = true -> p_time (pushes n F fld dt p) = p_time p + INR n * dt.
Proof.
  intros Ha. induction n; [cbn; ring|]. cbn [pushes]. pose proof (pushes_keeps n F fld dt p) as HK. cbv zeta in HK.
  rewrite push_time by (destruct HK as (_&_&_&_&_&_&_&->); auto). rewrite IHn, S_INR. ring.
Qed.
