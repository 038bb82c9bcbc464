(** * Fields: proofs (exact reals) *)
From Coq Require Import ZArith Reals Lra Psatz.
From Verif Require Import Num RNum Vec SpecVec VecFacts RotationFacts VecExtra Units Fields.
Local Open Scope R_scope.

Lemma ez_axis_R : (ez_axis : V3) = ez.
Proof. unfold ez_axis. rnum. reflexivity. Qed.
Lemma ez_neq : ez <> rzero.
Proof. apply v3_neq. right; right. lra. Qed.

(** direction usable by the rotation code: non-zero, and outside the antiparallel cut-off of z or exactly
    antiparallel to z *)
Definition good_dir (d : V3) : Prop :=
  d <> rzero /\ (/ 10000000000 < rlen2 (rplus (runit d) ez) \/ runit d = v3 0 0 (-1)).

Section Beam.
Variable d : V3.
Hypothesis Hd : good_dir d.
Let rot := rotate_to_axis d ez.
Let inv := minverse rot.

Lemma beam_rot_maps : rotation rot /\ rapply rot (runit d) = ez.
Proof.
  destruct Hd as [Hz [H|H]].
  - assert (NA : ~ near_anti d ez) by (unfold near_anti; rewrite runit_ez; lra).
    split; [apply rotate_is_rotation; auto using ez_neq|].
    pose proof (rotate_maps d ez Hz ez_neq NA) as HM. fold rot in HM. rewrite runit_ez in HM.
    unfold runit. rewrite rapply_scale, HM, rscale_scale, Rinv_l; [apply rscale_1|].
    pose proof (rlen_pos d Hz). lra.
  - assert (NA : near_anti d ez).
    { unfold near_anti. rewrite runit_ez, H. runf. lra. }
    split; [apply rotate_anti_z; auto|].
    unfold rot. rewrite rotate_unfold_anti, H by auto. runf. apply vec_eq; cbn; ring.
Qed.
Lemma beam_rot : rotation rot.
Proof. apply beam_rot_maps. Qed.
Lemma beam_inv_rot : rotation inv.
Proof. apply rotation_inverse, beam_rot. Qed.
Lemma beam_dot u v : rdot (rapply inv u) (rapply inv v) = rdot u v.
Proof. apply beam_inv_rot. Qed.
Lemma beam_len2 v : rlen2 (rapply inv v) = rlen2 v.
Proof. apply beam_dot. Qed.
Lemma beam_len v : rlen (rapply inv v) = rlen v.
Proof. unfold rlen. rewrite beam_len2. reflexivity. Qed.
Lemma beam_axis : rapply inv ez = runit d.
Proof.
  destruct beam_rot_maps as [HR HM]. destruct (rotation_inv rot HR) as [I1 _]. fold inv in I1.
  rewrite <- HM. apply I1.
Qed.
Lemma beam_z x : vz (rapply rot x) = rdot (runit d) x.
Proof.
  rewrite <- beam_axis. destruct beam_rot as [Hr _].
  destruct (rotation_inv rot beam_rot) as [_ I2]. fold inv in I2.
  rewrite <- (Hr (rapply inv ez) x), I2. destruct (rapply rot x) as [a b c]. runf. ring.
Qed.
Lemma beam_transverse v : vz v = 0 -> rdot (rapply inv v) (runit d) = 0.
Proof.
  intros Hv. rewrite <- beam_axis, beam_dot. destruct v as [a b c]. runf. subst. ring.
Qed.
Lemma beam_cross u v : rcross (rapply inv u) (rapply inv v) = rapply inv (rcross u v).
Proof. symmetry. apply rotation_cross, beam_inv_rot. Qed.
Lemma beam_trans_len2 x : rlen2 x = vx (rapply rot x) * vx (rapply rot x) + vy (rapply rot x) * vy (rapply rot x)
   + rdot (runit d) x * rdot (runit d) x.
Proof.
  rewrite <- beam_z. destruct beam_rot as [Hr _]. unfold rlen2. rewrite <- (Hr x x).
  destruct (rapply rot x) as [a b c]. reflexivity.
Qed.
End Beam.

Lemma cos2_sin2 a : cos a * cos a + sin a * sin a = 1.
Proof. pose proof (sin2_cos2 a). unfold Rsqr in H. lra. Qed.

Lemma sq_abs x m : 0 <= m -> x * x <= m * m -> Rabs x <= m.
Proof. intros Hm H. apply Rsqr_le_abs_0 in H. rewrite (Rabs_pos_eq m Hm) in H. exact H. Qed.

Lemma abs_mult_le x c : Rabs c <= 1 -> Rabs (x * c) <= Rabs x.
Proof. intros. rewrite Rabs_mult. pose proof (Rabs_pos x). nra. Qed.
Lemma abs_cos x : Rabs (cos x) <= 1.
Proof. pose proof (COS_bound x). apply Rabs_le. lra. Qed.

(** ** Plane wave *)
Lemma plane_form maxE wl pol d t x : good_dir d ->
  let A := maxE * cos ((rdot (runit d) x - t) * (2 * c_pi / wl)) in
  plane_field (new_plane maxE wl pol d) t x =
  (rapply (minverse (rotate_to_axis d ez)) (v3 (A * cos pol) (A * sin pol) 0),
   rapply (minverse (rotate_to_axis d ez)) (v3 (A * sin pol) (A * cos pol) 0)).
Proof.
  intros Hd A. unfold plane_field, new_plane. cbn [pl_rot pl_inv pl_k pl_pol pl_maxE].
  rewrite ez_axis_R, !mvec_R. rewrite (beam_z d Hd). rnum. reflexivity.
Qed.

Lemma trans_len2 A a : rlen2 (v3 (A * cos a) (A * sin a) 0) = A * A.
Proof. runf. replace (_ + _ + _) with (A * A * (cos a * cos a + sin a * sin a)) by ring. rewrite cos2_sin2. ring. Qed.
Lemma trans_len2' A a : rlen2 (v3 (A * sin a) (A * cos a) 0) = A * A.
Proof. runf. replace (_ + _ + _) with (A * A * (cos a * cos a + sin a * sin a)) by ring. rewrite cos2_sin2. ring. Qed.

Lemma rlen_abs v A : rlen2 v = A * A -> rlen v = Rabs A.
Proof. intros. apply rlen_of_len2; [apply Rabs_pos|]. rewrite H. pose proof (Rsqr_abs A) as HA. unfold Rsqr in HA. congruence. Qed.

Lemma plane_shape maxE wl pol d t x : good_dir d ->
  let '(E, B) := plane_field (new_plane maxE wl pol d) t x in
  rdot E (runit d) = 0 /\ rdot B (runit d) = 0 /\ rlen E = rlen B /\ rlen E <= Rabs maxE.
Proof.
  intros Hd. rewrite (plane_form maxE wl pol d t x Hd).
  set (A := maxE * _). repeat split.
  - apply beam_transverse; auto.
  - apply beam_transverse; auto.
  - rewrite !(beam_len d Hd). rewrite (rlen_abs _ A (trans_len2 A pol)), (rlen_abs _ A (trans_len2' A pol)). reflexivity.
  - rewrite (beam_len d Hd), (rlen_abs _ A (trans_len2 A pol)). apply abs_mult_le, abs_cos.
Qed.

Lemma plane_travels maxE wl pol d t x t' x' : good_dir d ->
  rdot (runit d) x - t = rdot (runit d) x' - t' ->
  plane_field (new_plane maxE wl pol d) t x = plane_field (new_plane maxE wl pol d) t' x'.
Proof. intros Hd H. rewrite !plane_form by auto. rewrite H. reflexivity. Qed.

Lemma plane_polarisation maxE wl pol d t x : good_dir d ->
  let '(E, B) := plane_field (new_plane maxE wl pol d) t x in
  rdot E B = rlen2 E * sin (2 * pol) /\
  rcross E B = rscale (rlen2 E * cos (2 * pol)) (runit d).
Proof.
  intros Hd. rewrite (plane_form maxE wl pol d t x Hd).
  set (A := maxE * _).
  rewrite (beam_len2 d Hd), (beam_dot d Hd), (beam_cross d Hd), trans_len2. split.
  - rewrite sin_2a. runf. ring.
  - rewrite <- (beam_axis d Hd). rewrite <- rapply_scale. f_equal.
    rewrite cos_2a. runf. apply vec_eq; cbn; ring.
Qed.

(** ** Gaussian beam *)
Lemma exp_le1 x : x <= 0 -> exp x <= 1.
Proof. intros. rewrite <- exp_0. destruct (Rle_lt_or_eq_dec x 0 H); [left; apply exp_increasing; auto | subst; lra]. Qed.

Lemma sub_sub s f v : rminus (rplus s v) (rplus f v) = rminus s f.
Proof. vring. Qed.

Definition gauss_envelope (tau t0 t z : R) : R := exp (-1 * (t - t0 - z) * (t - t0 - z) / (tau * tau)).

(** the part of the amplitude that does not depend on time *)
Definition gauss_static (f : gauss R) (p : V3) : R :=
  let r2 := vx p * vx p + vy p * vy p in
  let rayleigh := ga_k f * ga_waist f * ga_waist f / 2 in
  let curvature := vz p + rayleigh * rayleigh / (vz p + Rlit 1 (-99)) in
  let beamWaist := ga_waist f * sqrt (1 + vz p * vz p / (rayleigh * rayleigh)) in
  ga_maxE f * (ga_waist f / beamWaist) * exp (-1 * r2 / (beamWaist * beamWaist))
  * cos (vz p * ga_k f + r2 * ga_k f / (2 * curvature)).

Lemma gauss_amp_R f t p : gauss_amp f t p
  = gauss_static f p * gauss_envelope (ga_tau f) (rlen (rminus (ga_start f) (ga_focus f))) t (vz p).
Proof. unfold gauss_amp, gauss_static, gauss_envelope. rewrite mag_R, vsub_R. rnum. reflexivity. Qed.

Lemma waist_ratio w q : w <> 0 -> 0 <= q -> 0 < w / (w * sqrt (1 + q)) <= 1.
Proof.
  intros Hw Hq. assert (H1 : 1 <= sqrt (1 + q)) by (pose proof (sqrt_le_1_alt 1 (1 + q) ltac:(lra)) as HS; rewrite sqrt_1 in HS; exact HS).
  assert (H2 : sqrt (1 + q) <> 0) by lra.
  replace (w / (w * sqrt (1 + q))) with (/ sqrt (1 + q)) by (field; auto).
  split; [apply Rinv_0_lt_compat; lra|]. pose proof (Rinv_le_contravar 1 (sqrt (1 + q)) Rlt_0_1 H1) as HI. rewrite Rinv_1 in HI. exact HI.
Qed.

Lemma div_sq_nonneg x y : 0 <= x * x / (y * y).
Proof.
  destruct (Req_dec y 0).
  - subst. rewrite Rmult_0_l. unfold Rdiv. rewrite Rinv_0. lra.
  - unfold Rdiv. apply Rmult_le_pos; [nra|]. left. apply Rinv_0_lt_compat. nra.
Qed.

Lemma gauss_static_bound f p : ga_waist f <> 0 -> Rabs (gauss_static f p) <= Rabs (ga_maxE f).
Proof.
  intros Hw. unfold gauss_static. 
  set (r2 := vx p * vx p + vy p * vy p). set (ray := ga_k f * ga_waist f * ga_waist f / 2).
  pose proof (waist_ratio (ga_waist f) (vz p * vz p / (ray * ray)) Hw (div_sq_nonneg _ _)) as HR.
  set (bw := ga_waist f * sqrt _) in *. set (cc := cos _).
  assert (Hbw : bw <> 0) by (intros C; rewrite C in HR; unfold Rdiv in HR; rewrite Rinv_0, Rmult_0_r in HR; lra).
  assert (He : 0 < exp (-1 * r2 / (bw * bw)) <= 1).
  { split; [apply exp_pos|]. apply exp_le1. unfold Rdiv.
    assert (0 < / (bw * bw)) by (apply Rinv_0_lt_compat; nra).
    assert (0 <= r2) by (unfold r2; nra). nra. }
  assert (Hc : Rabs cc <= 1) by apply abs_cos.
  rewrite !Rmult_assoc. apply abs_mult_le.
  rewrite !Rabs_mult. rewrite (Rabs_pos_eq (_ / _)), (Rabs_pos_eq (exp _)) by lra.
  pose proof (Rabs_pos cc).
  assert (0 <= exp (-1 * r2 / (bw * bw)) * Rabs cc <= 1) by nra. nra.
Qed.

Lemma gauss_env_bound tau t0 t z : 0 < gauss_envelope tau t0 t z <= 1.
Proof.
  unfold gauss_envelope. split; [apply exp_pos|]. apply exp_le1.
  pose proof (div_sq_nonneg (t - t0 - z) tau). unfold Rdiv in *.
  set (i := / (tau * tau)) in *. nra.
Qed.

Lemma gauss_form maxE wl tau waist pol s f t x : good_dir (rminus f s) ->
  let F := new_gauss maxE wl tau waist pol s f in
  let A := gauss_amp F t (rapply (rotate_to_axis (rminus f s) ez) x) in
  gauss_field F t x =
  (rapply (minverse (rotate_to_axis (rminus f s) ez)) (v3 (A * cos pol) (A * sin pol) 0),
   rapply (minverse (rotate_to_axis (rminus f s) ez)) (v3 (A * sin pol) (A * cos pol) 0)).
Proof.
  intros Hd F A. unfold gauss_field.
  replace (mvec (ga_rot F) x) with (rapply (rotate_to_axis (rminus f s) ez) x).
  2:{ unfold F, new_gauss. cbn [ga_rot]. rewrite ez_axis_R, mvec_R. reflexivity. }
  fold A. cbv zeta. unfold F, new_gauss. cbn [ga_rot ga_inv ga_pol].
  rewrite !mvec_R, ez_axis_R. rnum. reflexivity.
Qed.

Lemma gauss_bound maxE wl tau waist pol s f t x : good_dir (rminus f s) -> waist <> 0 ->
  let '(E, B) := gauss_field (new_gauss maxE wl tau waist pol s f) t x in
  rdot E (rminus f s) = 0 /\ rdot B (rminus f s) = 0 /\ rlen E = rlen B /\ rlen E <= Rabs maxE.
Proof.
  intros Hd Hw. rewrite (gauss_form maxE wl tau waist pol s f t x Hd).
  set (F := new_gauss maxE wl tau waist pol s f).
  set (A := gauss_amp F t _).
  assert (HT : forall v, vz v = 0 -> rdot (rapply (minverse (rotate_to_axis (rminus f s) ez)) v) (rminus f s) = 0).
  { intros v Hv. rewrite (runit_eq (rminus f s)) at 2 by apply Hd. rewrite rdot_scale_r, (beam_transverse _ Hd) by auto. ring. }
  repeat split.
  - apply HT; reflexivity.
  - apply HT; reflexivity.
  - rewrite !(beam_len _ Hd). rewrite (rlen_abs _ A (trans_len2 A pol)), (rlen_abs _ A (trans_len2' A pol)). reflexivity.
  - rewrite (beam_len _ Hd), (rlen_abs _ A (trans_len2 A pol)). unfold A. rewrite gauss_amp_R, Rabs_mult.
    pose proof (gauss_env_bound (ga_tau F) (rlen (rminus (ga_start F) (ga_focus F))) t
      (vz (rapply (rotate_to_axis (rminus f s) ez) x))).
    pose proof (gauss_static_bound F (rapply (rotate_to_axis (rminus f s) ez) x) Hw).
    rewrite (Rabs_pos_eq (gauss_envelope _ _ _ _)) by lra. change (ga_maxE F) with maxE in *.
    pose proof (Rabs_pos (gauss_static F (rapply (rotate_to_axis (rminus f s) ez) x))). nra.
Qed.

Lemma gauss_shift maxE wl tau waist pol s f v t x :
  gauss_field (new_gauss maxE wl tau waist pol (rplus s v) (rplus f v)) t x
  = gauss_field (new_gauss maxE wl tau waist pol s f) t x.
Proof.
  unfold gauss_field, new_gauss, gauss_amp. cbn [ga_rot ga_inv ga_pol ga_k ga_waist ga_tau ga_maxE ga_start ga_focus].
  rewrite !direction_R. change (@vsub R _) with rminus. rewrite !sub_sub. reflexivity.
Qed.

Lemma focusing_shift maxE wl tau waist pol s f v t x :
  focusing_field (new_focusing maxE wl tau waist pol (rplus s v) (rplus f v)) t x
  = focusing_field (new_focusing maxE wl tau waist pol s f) t x.
Proof.
  unfold new_focusing. rewrite !direction_R. change (@vsub R _) with rminus. rewrite !sub_sub. reflexivity.
Qed.

Lemma gauss_no_carrier maxE wl tau waist pol s f t1 t2 x : good_dir (rminus f s) -> tau <> 0 ->
  exists c, 0 < c /\
    fst (gauss_field (new_gauss maxE wl tau waist pol s f) t2 x)
    = rscale c (fst (gauss_field (new_gauss maxE wl tau waist pol s f) t1 x)) /\
    snd (gauss_field (new_gauss maxE wl tau waist pol s f) t2 x)
    = rscale c (snd (gauss_field (new_gauss maxE wl tau waist pol s f) t1 x)).
Proof.
  intros Hd Ht. rewrite !(gauss_form maxE wl tau waist pol s f _ x Hd).
  set (F := new_gauss maxE wl tau waist pol s f). cbn [fst snd].
  rewrite !gauss_amp_R. set (p := rapply _ x). set (t0 := rlen _).
  pose proof (gauss_env_bound (ga_tau F) t0 t1 (vz p)) as B1.
  pose proof (gauss_env_bound (ga_tau F) t0 t2 (vz p)) as B2.
  set (e1 := gauss_envelope _ _ t1 _) in *. set (e2 := gauss_envelope _ _ t2 _) in *.
  exists (e2 / e1). split; [apply Rdiv_lt_0_compat; lra|].
  split; rewrite <- rapply_scale; f_equal; unfold rscale, v3; cbn [vx vy vz]; f_equal; try field; lra.
Qed.

(** ** Focused field *)
Lemma lit15 : Rlit 1 (-15) = / 1000000000000000.
Proof. rlit. lra. Qed.

Lemma foc_cutoff (F : focusing R) t x :
  foc_amp F t (mvec (fo_rot F) x) < / 1000000000000000 -> focusing_field F t x = (rzero, rzero).
Proof.
  intros H. unfold focusing_field. rnum. rewrite lit15.
  replace (Rltb _ _) with true by (symmetry; apply Rltb_true; exact H).
  rewrite vzero_R. reflexivity.
Qed.

Lemma foc_nonpos (F : focusing R) t x : fo_maxE F <= 0 -> focusing_field F t x = (rzero, rzero).
Proof.
  intros H. apply foc_cutoff. unfold foc_amp. rnum.
  match goal with |- _ * exp ?a < _ => pose proof (exp_pos a) end. nra.
Qed.

(** no field at the origin, whatever the time *)
Lemma mvec_zero m : mvec m rzero = rzero.
Proof. rewrite mvec_R. vring. Qed.

Lemma foc_phi0 (F : focusing R) : foc_phi F rzero = 0.
Proof. unfold foc_phi, rzero, v3; cbn [vx vy vz]. rnum. unfold Rdiv. ring. Qed.
Lemma foc_gouy0 (F : focusing R) : foc_gouy F rzero = 0.
Proof. unfold foc_gouy, rzero, v3; cbn [vx vy vz]. rnum. replace (0 / fo_rayleigh F) with 0 by (unfold Rdiv; ring). apply atan_0. Qed.
Lemma foc_S0 (F : focusing R) i : foc_S F rzero i = 0.
Proof. unfold foc_S. rewrite foc_phi0, foc_gouy0. rnum. replace (0 + IZR (i + 1) * 0) with 0 by ring. rewrite sin_0. ring. Qed.

Lemma foc_origin (F : focusing R) t : focusing_field F t rzero = (rzero, rzero).
Proof.
  unfold focusing_field. rewrite mvec_zero.
  destruct (_ : bool); [rewrite vzero_R; reflexivity|].
  unfold foc_local. rewrite !foc_S0.
  generalize (foc_C F rzero 1) (foc_C F rzero 2) (foc_C F rzero 3) (foc_C F rzero 4) (foc_amp F t rzero).
  intros c1 c2 c3 c4 e0. rewrite !mvec_R. unfold pol_turn, rzero, v3; cbn [vx vy vz]. rnum.
  replace (0 / fo_waist F) with 0 by (unfold Rdiv; ring).
  replace ((0 * 0 + 0 * 0) / (fo_waist F * fo_waist F)) with 0 by (unfold Rdiv; ring).
  f_equal; unfold rapply, v3; cbn [vx vy vz]; f_equal; unfold Rdiv; ring.
Qed.

(** on the beam axis only the leading components survive *)
Definition foc_axis_e (F : focusing R) (e0 : R) (p : V3) : R :=
  e0 * (foc_S F p 0 + fo_eps F * fo_eps F * fo_eps F * fo_eps F * (foc_S F p 2 / 8)).
Definition foc_axis_b (F : focusing R) (e0 : R) (p : V3) : R :=
  e0 * (foc_S F p 0 + fo_eps F * fo_eps F * fo_eps F * fo_eps F * (- foc_S F p 2 / 8)).

Lemma foc_local_axis (F : focusing R) e0 z :
  foc_local F e0 (v3 0 0 z) = (v3 (foc_axis_e F e0 (v3 0 0 z)) 0 0, v3 0 (foc_axis_b F e0 (v3 0 0 z)) 0).
Proof.
  unfold foc_local, foc_axis_e, foc_axis_b. set (p := v3 0 0 z). 
  generalize (foc_S F p 0) (foc_S F p 2) (foc_S F p 3) (foc_S F p 4) (foc_S F p 5) (foc_S F p 6)
    (foc_C F p 1) (foc_C F p 2) (foc_C F p 3) (foc_C F p 4). intros s0 s2 s3 s4 s5 s6 c1 c2 c3 c4.
  unfold p, v3; cbn [vx vy vz]. rnum.
  replace (0 / fo_waist F) with 0 by (unfold Rdiv; ring).
  replace ((0 * 0 + 0 * 0) / (fo_waist F * fo_waist F)) with 0 by (unfold Rdiv; ring).
  f_equal; f_equal; unfold Rdiv; ring.
Qed.

Definition foc_field_of (maxE wl tau waist pol : R) (s f : V3) := focusing_field (new_focusing maxE wl tau waist pol s f).

(** the beam-frame ingredients do not depend on the polarisation angle *)
Lemma foc_axis_form maxE wl tau waist pol s f t r : good_dir (rminus f s) ->
  let F0 := new_focusing maxE wl tau waist 0 s f in
  let A := foc_amp F0 t (v3 0 0 r) in
  / 1000000000000000 <= A ->
  focusing_field (new_focusing maxE wl tau waist pol s f) t (rscale r (runit (rminus f s)))
  = (rapply (minverse (rotate_to_axis (rminus f s) ez))
       (v3 (foc_axis_e F0 A (v3 0 0 r) * cos pol) (foc_axis_e F0 A (v3 0 0 r) * cos pol * sin pol) 0),
     rapply (minverse (rotate_to_axis (rminus f s) ez))
       (v3 (- foc_axis_b F0 A (v3 0 0 r) * sin pol)
           (foc_axis_b F0 A (v3 0 0 r) * (cos pol - sin pol * sin pol)) 0)).
Proof.
  intros Hd F0 A HA. set (F := new_focusing maxE wl tau waist pol s f).
  assert (HP : mvec (fo_rot F) (rscale r (runit (rminus f s))) = v3 0 0 r).
  { unfold F, new_focusing. cbn [fo_rot]. rewrite ez_axis_R, mvec_R, rapply_scale.
    destruct (beam_rot_maps _ Hd) as [_ HM]. rewrite direction_R, HM. unfold rscale, ez, v3; cbn. f_equal; ring. }
  unfold focusing_field. rewrite HP. change (foc_amp F t (v3 0 0 r)) with A.
  rnum. rewrite lit15. replace (Rltb _ _) with false by (symmetry; apply Rltb_false; exact HA).
  rewrite foc_local_axis. change (foc_axis_e F A) with (foc_axis_e F0 A). change (foc_axis_b F A) with (foc_axis_b F0 A).
  generalize (foc_axis_e F0 A (v3 0 0 r)) (foc_axis_b F0 A (v3 0 0 r)). intros e b.
  unfold F, new_focusing. cbn [fo_inv fo_pol]. rewrite !mvec_R, ez_axis_R, direction_R.
  unfold pol_turn, v3; cbn [vx vy vz]. rnum.
  f_equal; f_equal; apply vec_eq; cbn; ring.
Qed.

Lemma foc_axis_small maxE wl tau waist pol s f t r : good_dir (rminus f s) ->
  foc_amp (new_focusing maxE wl tau waist 0 s f) t (v3 0 0 r) < / 1000000000000000 ->
  focusing_field (new_focusing maxE wl tau waist pol s f) t (rscale r (runit (rminus f s))) = (rzero, rzero).
Proof.
  intros Hd HA. apply foc_cutoff.
  replace (mvec _ _) with (v3 0 0 r); [exact HA|].
  unfold new_focusing. cbn [fo_rot]. rewrite ez_axis_R, mvec_R, rapply_scale.
  destruct (beam_rot_maps _ Hd) as [_ HM]. rewrite direction_R, HM. unfold rscale, ez, v3; cbn. f_equal; ring.
Qed.

Lemma foc_pol_strength maxE wl tau waist pol s f t r : good_dir (rminus f s) ->
  let x := rscale r (runit (rminus f s)) in
  let '(E0, B0) := focusing_field (new_focusing maxE wl tau waist 0 s f) t x in
  let '(E, B) := focusing_field (new_focusing maxE wl tau waist pol s f) t x in
  rlen2 E = cos pol * cos pol * (1 + sin pol * sin pol) * rlen2 E0 /\
  rlen2 B = (sin pol * sin pol + (cos pol - sin pol * sin pol) * (cos pol - sin pol * sin pol)) * rlen2 B0.
Proof.
  intros Hd x. unfold x.
  destruct (Rlt_le_dec (foc_amp (new_focusing maxE wl tau waist 0 s f) t (v3 0 0 r)) (/ 1000000000000000)) as [HA|HA].
  - rewrite !foc_axis_small by auto. split; runf; ring.
  - rewrite !foc_axis_form by auto. rewrite !(beam_len2 _ Hd), cos_0, sin_0. split; runf; ring.
Qed.

Lemma powerRZ_1 x : powerRZ x 1 = x. Proof. simpl. ring. Qed.
Lemma powerRZ_3 x : powerRZ x 3 = x * x * x. Proof. simpl. ring. Qed.

Lemma sin_3PI4_2 : sin (PI / 2 + 3 * (PI / 4)) = - (1 / sqrt 2).
Proof.
  replace (PI / 2 + 3 * (PI / 4)) with (PI / 4 + PI) by field. rewrite neg_sin, sin_PI4. ring.
Qed.
Lemma sin_PI2_4 : sin (PI / 2 + 1 * (PI / 4)) = 1 / sqrt 2.
Proof. rewrite Rmult_1_l. rewrite sin_plus, sin_PI2, cos_PI2, cos_PI4. ring. Qed.

(** a concrete beam: k = 1, waist sqrt(pi), field strength 1; at one Rayleigh length behind the origin *)
Definition foc_case (pol : R) := new_focusing 1 (2 * c_pi) 1 (sqrt PI) pol (v3 0 0 (-1)) rzero.

Lemma c_pi_nz : (c_pi : R) <> 0.
Proof. unfold c_pi. rlit. lra. Qed.

Lemma Int_part_IZR z : Int_part (IZR z) = z.
Proof.
  unfold Int_part. destruct (archimed (IZR z)) as [A1 A2].
  assert (z < up (IZR z))%Z by (apply lt_IZR; lra).
  assert (up (IZR z) - z <= 1)%Z by (apply le_IZR; rewrite minus_IZR; lra). lia.
Qed.
Lemma Rpow_IZR x z : Rpow x (IZR z) = powerRZ x z.
Proof. unfold Rpow. rewrite Int_part_IZR. destruct (Req_EM_T _ _); [reflexivity | congruence]. Qed.

Lemma good_dir_ez : good_dir ez.
Proof. split; [apply ez_neq|]. left. rewrite runit_ez. runf. lra. Qed.
Lemma case_dir : rminus rzero (v3 0 0 (-1)) = ez.
Proof. runf. apply vec_eq; cbn; ring. Qed.

Lemma foc_case_k pol : fo_k (foc_case pol) = 1.
Proof. unfold foc_case, new_focusing. cbn [fo_k]. rnum. pose proof c_pi_nz. field. auto. Qed.
Lemma foc_case_ray pol : fo_rayleigh (foc_case pol) = PI / 2.
Proof.
  unfold foc_case, new_focusing. cbn [fo_rayleigh]. rnum. pose proof c_pi_nz. pose proof PI_RGT_0.
  replace (2 * c_pi / (2 * c_pi)) with 1 by (field; auto).
  rewrite Rmult_1_l, sqrt_sqrt by lra. reflexivity.
Qed.
Lemma foc_case_eps4 pol : let e := fo_eps (foc_case pol) in e * e * e * e = 16 / (PI * PI).
Proof.
  cbv zeta. replace (fo_eps (foc_case pol)) with (sqrt PI / (PI / 2)).
  2:{ rewrite <- (foc_case_ray pol). reflexivity. }
  pose proof PI_RGT_0. pose proof (sqrt_sqrt PI ltac:(lra)) as HS.
  replace (_ * _ * _ * _) with (((sqrt PI * sqrt PI) * (sqrt PI * sqrt PI)) * (16 / (PI * PI * (PI * PI)))) by (field; lra).
  rewrite HS. field. lra.
Qed.
Lemma foc_case_ratio pol : foc_ratio (foc_case pol) (v3 0 0 (PI / 2)) = / sqrt 2.
Proof.
  unfold foc_ratio, v3; cbn [vz]. rewrite foc_case_ray. pose proof PI_RGT_0.
  change (fo_waist (foc_case pol)) with (sqrt PI). rnum.
  replace (PI / 2 / (PI / 2)) with 1 by (field; lra). replace (1 + 1 * 1) with 2 by ring.
  pose proof (sqrt_lt_R0 PI H). pose proof Rlt_sqrt2_0. field. lra.
Qed.
Lemma foc_case_phi pol : foc_phi (foc_case pol) (v3 0 0 (PI / 2)) = PI / 2.
Proof.
  unfold foc_phi, v3; cbn [vx vy vz]. rewrite foc_case_k. rnum. unfold Rdiv.
  ring.
Qed.
Lemma foc_case_gouy pol : foc_gouy (foc_case pol) (v3 0 0 (PI / 2)) = PI / 4.
Proof.
  unfold foc_gouy, v3; cbn [vz]. rewrite foc_case_ray. rnum. pose proof PI_RGT_0.
  replace (PI / 2 / (PI / 2)) with 1 by (field; lra). apply atan_1.
Qed.
Lemma inv_sqrt2_sq : / sqrt 2 * / sqrt 2 = / 2.
Proof. rewrite <- Rinv_mult, sqrt_sqrt; lra. Qed.
Lemma foc_case_S0 pol : foc_S (foc_case pol) (v3 0 0 (PI / 2)) 0 = / 2.
Proof.
  unfold foc_S. rewrite foc_case_ratio, foc_case_phi, foc_case_gouy. rnum. cbn [Z.add].
  change (0 + 1)%Z with 1%Z. rewrite Rpow_IZR, powerRZ_1, sin_PI2_4. unfold Rdiv. rewrite Rmult_1_l.
  apply inv_sqrt2_sq.
Qed.
Lemma foc_case_S2 pol : foc_S (foc_case pol) (v3 0 0 (PI / 2)) 2 = - / 4.
Proof.
  unfold foc_S. rewrite foc_case_ratio, foc_case_phi, foc_case_gouy. rnum.
  change (2 + 1)%Z with 3%Z. rewrite Rpow_IZR, powerRZ_3, sin_3PI4_2. unfold Rdiv. rewrite Rmult_1_l.
  replace (_ * _) with (- ((/ sqrt 2 * / sqrt 2) * (/ sqrt 2 * / sqrt 2))) by ring.
  rewrite inv_sqrt2_sq. lra.
Qed.
Lemma foc_case_amp pol : foc_amp (foc_case pol) (1 + PI / 2) (v3 0 0 (PI / 2)) = 1.
Proof.
  unfold foc_amp, v3; cbn [vx vy vz].
  replace (fo_t0 (foc_case pol)) with 1.
  2:{ unfold foc_case, new_focusing. cbn [fo_t0]. rewrite mag_R, vsub_R. symmetry.
      apply rlen_of_len2; [lra|]. runf. ring. }
  rnum. change (fo_maxE (foc_case pol)) with 1.
  replace (_ - _) with 0; [rewrite exp_0; ring|]. unfold Rdiv. ring.
Qed.
Lemma inv_pi2 : 0 < / (PI * PI) < 1.
Proof.
  pose proof PI2_1. pose proof PI_RGT_0. split; [apply Rinv_0_lt_compat; nra|].
  rewrite <- Rinv_1. apply Rinv_lt_contravar; nra.
Qed.
Lemma foc_case_nonzero :
  let '(E0, B0) := focusing_field (foc_case 0) (1 + PI / 2) (v3 0 0 (PI / 2)) in 0 < rlen2 E0 /\ 0 < rlen2 B0.
Proof.
  pose proof good_dir_ez as HG. rewrite <- case_dir in HG.
  pose proof (foc_axis_form 1 (2 * c_pi) 1 (sqrt PI) 0 (v3 0 0 (-1)) rzero (1 + PI / 2) (PI / 2) HG) as HF.
  cbv zeta in HF. fold (foc_case 0) in HF. rewrite foc_case_amp in HF.
  rewrite case_dir, runit_ez in HF.
  replace (rscale (PI / 2) ez) with (v3 0 0 (PI / 2)) in HF by (runf; apply vec_eq; cbn; ring).
  rewrite HF by lra. rewrite cos_0, sin_0.
  pose proof good_dir_ez as HZ. rewrite !(beam_len2 _ HZ).
  unfold foc_axis_e, foc_axis_b. rewrite foc_case_S0, foc_case_S2, !foc_case_eps4.
  pose proof inv_pi2 as HI. unfold Rdiv. set (q := / (PI * PI)) in *.
  split; runf; nra.
Qed.

Lemma foc_pol_not_rotation : exists maxE wl tau waist pol s f t x,
  good_dir (rminus f s) /\
  rlen2 (fst (focusing_field (new_focusing maxE wl tau waist pol s f) t x))
  <> rlen2 (fst (focusing_field (new_focusing maxE wl tau waist 0 s f) t x)) /\
  rlen2 (snd (focusing_field (new_focusing maxE wl tau waist pol s f) t x))
  <> rlen2 (snd (focusing_field (new_focusing maxE wl tau waist 0 s f) t x)).
Proof.
  exists 1, (2 * c_pi), 1, (sqrt PI), (PI / 2), (v3 0 0 (-1)), rzero, (1 + PI / 2), (v3 0 0 (PI / 2)).
  pose proof good_dir_ez as HG. rewrite <- case_dir in HG. split; [exact HG|].
  pose proof (foc_pol_strength 1 (2 * c_pi) 1 (sqrt PI) (PI / 2) (v3 0 0 (-1)) rzero (1 + PI / 2) (PI / 2) HG) as HP.
  cbv zeta in HP. rewrite case_dir, runit_ez in HP.
  replace (rscale (PI / 2) ez) with (v3 0 0 (PI / 2)) in HP by (runf; apply vec_eq; cbn; ring).
  pose proof foc_case_nonzero as HN. unfold foc_case in HN.
  destruct (focusing_field (new_focusing 1 (2 * c_pi) 1 (sqrt PI) 0 _ _) _ _) as [E0 B0].
  destruct (focusing_field (new_focusing 1 (2 * c_pi) 1 (sqrt PI) (PI / 2) _ _) _ _) as [E B].
  cbn [fst snd]. rewrite cos_PI2, sin_PI2 in HP. destruct HP as [-> ->]. lra.
Qed.

(** ** carrier of the focused field *)
Lemma foc_local_lin (F : focusing R) c e0 p :
  foc_local F (c * e0) p = (rscale c (fst (foc_local F e0 p)), rscale c (snd (foc_local F e0 p))).
Proof.
  unfold foc_local.
  generalize (foc_S F p 0) (foc_S F p 2) (foc_S F p 3) (foc_S F p 4) (foc_S F p 5) (foc_S F p 6)
    (foc_C F p 1) (foc_C F p 2) (foc_C F p 3) (foc_C F p 4). intros s0 s2 s3 s4 s5 s6 c1 c2 c3 c4.
  cbn [fst snd]. unfold rscale, v3; cbn [vx vy vz]. rnum. unfold Rdiv. f_equal; f_equal; ring.
Qed.
Lemma pol_turn_lin a c (v : V3) : pol_turn a (rscale c v) = rscale c (pol_turn a v).
Proof. unfold pol_turn, rscale, v3; cbn [vx vy vz]. rnum. f_equal; ring. Qed.

Lemma focusing_no_carrier (F : focusing R) t1 t2 x : 0 < fo_maxE F ->
  / 1000000000000000 <= foc_amp F t1 (mvec (fo_rot F) x) ->
  / 1000000000000000 <= foc_amp F t2 (mvec (fo_rot F) x) ->
  exists c, 0 < c /\
    fst (focusing_field F t2 x) = rscale c (fst (focusing_field F t1 x)) /\
    snd (focusing_field F t2 x) = rscale c (snd (focusing_field F t1 x)).
Proof.
  intros HM H1 H2. exists (foc_amp F t2 (mvec (fo_rot F) x) / foc_amp F t1 (mvec (fo_rot F) x)).
  split; [apply Rdiv_lt_0_compat; lra|].
  unfold focusing_field. rnum. rewrite lit15.
  replace (Rltb (foc_amp F t2 _) _) with false by (symmetry; apply Rltb_false; auto).
  replace (Rltb (foc_amp F t1 _) _) with false by (symmetry; apply Rltb_false; auto).
  set (p := mvec (fo_rot F) x) in *. set (a2 := foc_amp F t2 p) in *. set (a1 := foc_amp F t1 p) in *.
  set (c := a2 / a1). replace a2 with (c * a1) by (unfold c; field; lra).
  rewrite foc_local_lin. destruct (foc_local F a1 p) as [e b]. cbn [fst snd].
  rewrite !pol_turn_lin, !mvec_R, !rapply_scale. split; reflexivity.
Qed.

(** the local amplitude in frame-independent terms *)
Lemma foc_amp_form maxE wl tau waist pol s f t x : good_dir (rminus f s) -> wl <> 0 ->
  let z := rdot (runit (rminus f s)) x in
  let r2 := rlen2 x - z * z in
  let zr := c_pi * waist * waist / wl in
  let w2 := waist * waist * (1 + (z / zr) * (z / zr)) in
  let F := new_focusing maxE wl tau waist pol s f in
  foc_amp F t (mvec (fo_rot F) x)
  = maxE * exp (- r2 / w2 - (t - rlen (rminus s f) - z) * (t - rlen (rminus s f) - z) / (tau * tau)).
Proof.
  intros Hd Hwl z r2 zr w2 F.
  assert (HR : mvec (fo_rot F) x = rapply (rotate_to_axis (rminus f s) ez) x).
  { unfold F, new_focusing. cbn [fo_rot]. rewrite mvec_R, ez_axis_R, direction_R. reflexivity. }
  rewrite HR. set (p := rapply _ x).
  assert (Hz : vz p = z) by apply (beam_z _ Hd).
  assert (Hr : vx p * vx p + vy p * vy p = r2).
  { unfold r2. rewrite (beam_trans_len2 _ Hd x). fold p z. ring. }
  unfold foc_amp. rewrite Hz. change (fo_maxE F) with maxE. change (fo_tau F) with tau.
  replace (fo_t0 F) with (rlen (rminus s f)) by reflexivity.
  replace (fo_rayleigh F) with zr.
  2:{ unfold F, new_focusing, zr; cbn [fo_rayleigh]. rnum. field. auto. }
  rnum. rewrite Hr. change (fo_waist F) with waist.
  set (q := 1 + z / zr * (z / zr)). assert (0 <= q) by (unfold q; nra).
  replace (waist * sqrt q * (waist * sqrt q)) with w2; [reflexivity|].
  unfold w2. fold q. transitivity (waist * waist * (sqrt q * sqrt q)); [rewrite sqrt_sqrt by auto; ring | ring].
Qed.
