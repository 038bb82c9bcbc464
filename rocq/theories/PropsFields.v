(** * Properties C25-C30 and C76: electromagnetic fields *)
From Coq Require Import ZArith Reals Lra Psatz.
From Verif Require Import Num RNum Vec SpecVec VecFacts RotationFacts VecExtra Units Fields FieldFacts.
Local Open Scope R_scope.

(** ** C25 (any arithmetic) *)
Theorem C25_static_field : forall {T} (e b : vec T) (t : T) (x : vec T), static_field e b t x = (e, b).
Proof. reflexivity. Qed.
Print Assumptions C25_static_field.

(** [good_dir d]: d is not zero, and its unit vector is not within 1e-5 of -z unless it is exactly -z. *)
Example good_dir_cases : good_dir (v3 0 0 1) /\ good_dir (v3 3 0 4) /\ good_dir (v3 1 0 0) /\ good_dir (v3 0 0 (-2)).
Proof.
  split; [exact good_dir_ez|]. split.
  { split; [apply v3_neq; left; lra|]. left. unfold runit. rewrite (rlen_of_len2 _ 5); [|lra|runf; ring]. runf. lra. }
  split.
  { split; [apply v3_neq; left; lra|]. left. unfold runit. rewrite (rlen_of_len2 _ 1); [|lra|runf; ring]. runf. lra. }
  split; [apply v3_neq; right; right; lra|]. right. unfold runit. rewrite (rlen_of_len2 _ 2); [|lra|runf; ring].
  runf. apply vec_eq; cbn; lra.
Qed.

(** ** C26 *)
Theorem C26_plane_wave_shape : forall maxE wl pol (d : V3) t (x : V3), good_dir d ->
  let '(E, B) := plane_field (new_plane maxE wl pol d) t x in
  rdot E (runit d) = 0 /\ rdot B (runit d) = 0 /\ rlen E = rlen B /\ rlen E <= Rabs maxE.
Proof. exact plane_shape. Qed.
Print Assumptions C26_plane_wave_shape.

(** the strength is |maxE cos(2 pi (d.x - t) / wavelength)| *)
Theorem C26_plane_wave_strength : forall maxE wl pol (d : V3) t (x : V3), good_dir d ->
  rlen (fst (plane_field (new_plane maxE wl pol d) t x))
  = Rabs (maxE * cos (2 * c_pi / wl * (rdot (runit d) x - t))).
Proof.
  intros maxE wl pol d t x Hd. rewrite (plane_form maxE wl pol d t x Hd). cbn [fst].
  rewrite (beam_len d Hd), (rlen_abs _ _ (trans_len2 _ pol)). do 3 f_equal. ring.
Qed.
Print Assumptions C26_plane_wave_strength.

Theorem C26_plane_wave_travels : forall maxE wl pol (d : V3) t (x : V3) t' (x' : V3), good_dir d ->
  rdot (runit d) x - t = rdot (runit d) x' - t' ->
  plane_field (new_plane maxE wl pol d) t x = plane_field (new_plane maxE wl pol d) t' x'.
Proof. exact plane_travels. Qed.
Print Assumptions C26_plane_wave_travels.

(** ** C27 *)
Theorem C27_plane_wave_polarisation : forall maxE wl pol (d : V3) t (x : V3), good_dir d ->
  let '(E, B) := plane_field (new_plane maxE wl pol d) t x in
  rdot E B = rlen2 E * sin (2 * pol) /\
  rcross E B = rscale (rlen2 E * cos (2 * pol)) (runit d).
Proof. exact plane_polarisation. Qed.
Print Assumptions C27_plane_wave_polarisation.

(** perpendicular exactly where the field vanishes or sin(2 pol) = 0 *)
Theorem C27_perpendicular_iff : forall maxE wl pol (d : V3) t (x : V3), good_dir d ->
  let '(E, B) := plane_field (new_plane maxE wl pol d) t x in
  rdot E B = 0 <-> (E = rzero \/ sin (2 * pol) = 0).
Proof.
  intros maxE wl pol d t x Hd. pose proof (plane_polarisation maxE wl pol d t x Hd) as HP.
  destruct (plane_field _ t x) as [E B]. destruct HP as [HP _]. rewrite HP. split.
  - intros H. apply Rmult_integral in H. destruct H as [H|H]; [left; apply rlen2_zero; exact H | right; exact H].
  - intros [->|H]; [runf; ring | rewrite H; ring].
Qed.
Print Assumptions C27_perpendicular_iff.

(** polarisation pi/2: the flux points backwards *)
Theorem C27_backward_flux : forall maxE wl (d : V3) t (x : V3), good_dir d ->
  let '(E, B) := plane_field (new_plane maxE wl (PI / 2) d) t x in
  rcross E B = rscale (- rlen2 E) (runit d).
Proof.
  intros maxE wl d t x Hd. pose proof (plane_polarisation maxE wl (PI / 2) d t x Hd) as HP.
  destruct (plane_field _ t x) as [E B]. destruct HP as [_ HP]. rewrite HP.
  replace (2 * (PI / 2)) with PI by field. rewrite cos_PI. f_equal. ring.
Qed.
Print Assumptions C27_backward_flux.

(** ** C28 *)
Theorem C28_gauss_bound : forall maxE wl tau waist pol (s f : V3) t (x : V3),
  good_dir (rminus f s) -> waist <> 0 -> wl <> 0 -> tau <> 0 ->
  let '(E, B) := gauss_field (new_gauss maxE wl tau waist pol s f) t x in
  rdot E (rminus f s) = 0 /\ rdot B (rminus f s) = 0 /\ rlen E = rlen B /\ rlen E <= Rabs maxE.
Proof. intros. apply gauss_bound; auto. Qed.
Print Assumptions C28_gauss_bound.

(** ** C29 *)
Theorem C29_gauss_ignores_position : forall maxE wl tau waist pol (s f v : V3) t (x : V3),
  gauss_field (new_gauss maxE wl tau waist pol (rplus s v) (rplus f v)) t x
  = gauss_field (new_gauss maxE wl tau waist pol s f) t x.
Proof. exact gauss_shift. Qed.
Print Assumptions C29_gauss_ignores_position.

Theorem C29_gauss_no_carrier : forall maxE wl tau waist pol (s f : V3) t1 t2 (x : V3),
  good_dir (rminus f s) -> tau <> 0 ->
  exists c, 0 < c /\
    fst (gauss_field (new_gauss maxE wl tau waist pol s f) t2 x)
    = rscale c (fst (gauss_field (new_gauss maxE wl tau waist pol s f) t1 x)) /\
    snd (gauss_field (new_gauss maxE wl tau waist pol s f) t2 x)
    = rscale c (snd (gauss_field (new_gauss maxE wl tau waist pol s f) t1 x)).
Proof. exact gauss_no_carrier. Qed.
Print Assumptions C29_gauss_no_carrier.

(** the statement is not about a zero field: full strength is reached at the origin when the pulse arrives *)
Lemma gauss_case : rlen (fst (gauss_field (new_gauss 5 1 1 1 0 (v3 0 0 (-3)) (v3 0 0 0)) 3 (v3 0 0 0))) = 5.
Proof.
  assert (HD : rminus (v3 0 0 0) (v3 0 0 (-3)) = v3 0 0 3) by (runf; apply vec_eq; cbn; ring).
  assert (HG : good_dir (v3 0 0 3)).
  { split; [apply v3_neq; right; right; lra|]. left. unfold runit. rewrite (rlen_of_len2 _ 3); [|lra|runf; ring]. runf. lra. }
  rewrite gauss_form by (rewrite HD; exact HG). cbn [fst]. rewrite HD.
  rewrite (beam_len _ HG), (rlen_abs _ _ (trans_len2 _ 0)).
  rewrite gauss_amp_R.
  replace (rapply (rotate_to_axis (v3 0 0 3) ez) (v3 0 0 0)) with (v3 0 0 0) by (runf; apply vec_eq; cbn; ring).
  match goal with |- context [rlen ?v] => assert (HL : rlen v = 3) end.
  { apply rlen_of_len2; [lra|]. unfold new_gauss; cbn [ga_start ga_focus].
    unfold rlen2, rdot, rminus, v3; cbn [vx vy vz]. ring. }
  rewrite HL. clear HL.
  unfold gauss_static, gauss_envelope, new_gauss, v3; cbn [vx vy vz ga_k ga_maxE ga_waist ga_tau].
  rnum. set (w := sqrt _). assert (Hw : w = 1).
  { unfold w. replace (1 + _) with 1 by (unfold Rdiv; ring). apply sqrt_1. }
  rewrite Hw.
  replace (-1 * (0 * 0 + 0 * 0) / _) with 0 by (unfold Rdiv; ring).
  replace (-1 * (3 - 3 - 0) * (3 - 3 - 0) / _) with 0 by (unfold Rdiv; ring).
  replace (0 * _ + _) with 0 by (unfold Rdiv; ring).
  rewrite exp_0, cos_0. rewrite Rabs_pos_eq; lra.
Qed.

(** ** C30 *)
(** local amplitude of the focused beam, with the beam axis through the ORIGIN along f - s *)
Definition local_amplitude (maxE wl tau waist : R) (s f : V3) (t : R) (x : V3) : R :=
  let z := rdot (runit (rminus f s)) x in
  let r2 := rlen2 x - z * z in
  let zr := c_pi * waist * waist / wl in
  let w2 := waist * waist * (1 + (z / zr) * (z / zr)) in
  let delay := t - rlen (rminus s f) - z in
  maxE * exp (- r2 / w2 - delay * delay / (tau * tau)).

Theorem C30_cut_off : forall maxE wl tau waist pol (s f : V3) t (x : V3),
  good_dir (rminus f s) -> wl <> 0 -> waist <> 0 -> tau <> 0 ->
  local_amplitude maxE wl tau waist s f t x < 1 / 10 ^ 15 ->
  focusing_field (new_focusing maxE wl tau waist pol s f) t x = (rzero, rzero).
Proof.
  intros maxE wl tau waist pol s f t x Hd Hwl _ _ HA. apply foc_cutoff.
  rewrite (foc_amp_form maxE wl tau waist pol s f t x Hd Hwl).
  unfold local_amplitude in HA. lra.
Qed.
Print Assumptions C30_cut_off.

Theorem C30_non_positive_strength : forall maxE wl tau waist pol (s f : V3) t (x : V3),
  maxE <= 0 -> focusing_field (new_focusing maxE wl tau waist pol s f) t x = (rzero, rzero).
Proof. intros. apply foc_nonpos. assumption. Qed.
Print Assumptions C30_non_positive_strength.

(** on the beam axis the field strengths depend on the polarisation angle *)
Theorem C30_polarisation_changes_strength : forall maxE wl tau waist pol (s f : V3) t r,
  good_dir (rminus f s) ->
  let x := rscale r (runit (rminus f s)) in
  let '(E0, B0) := focusing_field (new_focusing maxE wl tau waist 0 s f) t x in
  let '(E, B) := focusing_field (new_focusing maxE wl tau waist pol s f) t x in
  rlen2 E = cos pol * cos pol * (1 + sin pol * sin pol) * rlen2 E0 /\
  rlen2 B = (sin pol * sin pol + (cos pol - sin pol * sin pol) * (cos pol - sin pol * sin pol)) * rlen2 B0.
Proof. exact foc_pol_strength. Qed.
Print Assumptions C30_polarisation_changes_strength.

Theorem C30_polarisation_is_rotation_refuted : exists maxE wl tau waist pol (s f : V3) t (x : V3),
  good_dir (rminus f s) /\
  rlen2 (fst (focusing_field (new_focusing maxE wl tau waist pol s f) t x))
  <> rlen2 (fst (focusing_field (new_focusing maxE wl tau waist 0 s f) t x)) /\
  rlen2 (snd (focusing_field (new_focusing maxE wl tau waist pol s f) t x))
  <> rlen2 (snd (focusing_field (new_focusing maxE wl tau waist 0 s f) t x)).
Proof. exact foc_pol_not_rotation. Qed.
Print Assumptions C30_polarisation_is_rotation_refuted.

(** ** C76 *)
Theorem C76_no_field_at_focus : forall maxE wl tau waist pol (s f : V3) t,
  focusing_field (new_focusing maxE wl tau waist pol s f) t rzero = (rzero, rzero).
Proof. intros. apply foc_origin. Qed.
Print Assumptions C76_no_field_at_focus.

Theorem C76_focused_ignores_position : forall maxE wl tau waist pol (s f v : V3) t (x : V3),
  focusing_field (new_focusing maxE wl tau waist pol (rplus s v) (rplus f v)) t x
  = focusing_field (new_focusing maxE wl tau waist pol s f) t x.
Proof. exact focusing_shift. Qed.
Print Assumptions C76_focused_ignores_position.

Theorem C76_focused_no_carrier : forall maxE wl tau waist pol (s f : V3) t1 t2 (x : V3),
  good_dir (rminus f s) -> wl <> 0 -> waist <> 0 -> tau <> 0 ->
  1 / 10 ^ 15 <= local_amplitude maxE wl tau waist s f t1 x ->
  1 / 10 ^ 15 <= local_amplitude maxE wl tau waist s f t2 x ->
  exists c, 0 < c /\
    fst (focusing_field (new_focusing maxE wl tau waist pol s f) t2 x)
    = rscale c (fst (focusing_field (new_focusing maxE wl tau waist pol s f) t1 x)) /\
    snd (focusing_field (new_focusing maxE wl tau waist pol s f) t2 x)
    = rscale c (snd (focusing_field (new_focusing maxE wl tau waist pol s f) t1 x)).
Proof.
  intros maxE wl tau waist pol s f t1 t2 x Hd Hwl _ _ H1 H2. apply focusing_no_carrier.
  - change (0 < maxE). unfold local_amplitude in H1. cbv zeta in H1.
    match type of H1 with _ <= _ * exp ?a => pose proof (exp_pos a) as HP; set (e := exp a) in * end.
    assert (0 < 1 / 10 ^ 15) by lra. destruct (Rle_lt_dec maxE 0); [nra | auto].
  - rewrite foc_amp_form by auto. unfold local_amplitude in H1. lra.
  - rewrite foc_amp_form by auto. unfold local_amplitude in H2. lra.
Qed.
Print Assumptions C76_focused_no_carrier.

(** a point with non-zero field *)
Lemma focused_case : exists t x, fst (focusing_field (foc_case 0) t x) <> rzero.
Proof.
  exists (1 + PI / 2), (v3 0 0 (PI / 2)). pose proof foc_case_nonzero as HN.
  destruct (focusing_field _ _ _) as [E B]. cbn. intros ->. destruct HN as [HN _]. revert HN. runf. lra.
Qed.
