(** * Properties C109 and C110: the beams in closed form; which plane waves obey Maxwell's equations *)
From Coq Require Import ZArith Reals Lra Psatz List.
From Verif Require Import Num RNum Vec SpecVec VecFacts RotationFacts VecExtra Units Fields FieldFacts PropsFields.
Import ListNotations.
Local Open Scope R_scope.

(** ** Specification *)
(** a right-handed orthonormal frame; [n] is the third vector *)
Definition frame (u v n : V3) : Prop := rlen2 u = 1 /\ rlen2 v = 1 /\ rdot u v = 0 /\ rcross u v = n.
Definition combine (a b c : R) (u v n : V3) : V3 := rplus (rplus (rscale a u) (rscale b v)) (rscale c n).

(** Rayleigh length, radius of curvature (with the guard of the code against z = 0) and phase of a beam *)
Definition rayleigh_length (wl waist : R) : R := c_pi * waist * waist / wl.
Definition curvature_radius (zr z : R) : R := z + zr * zr / (z + 1 / 10 ^ 99).

(** One term of an expansion: coefficient, powers of the diffraction angle, of rho^2, of xi, of nu, index of the wave. *)
Record term := mkTerm { t_coef : R; t_eps : nat; t_rho2 : nat; t_xi : nat; t_nu : nat; t_wave : nat }.
Definition term_value (eps rho2 xi nu : R) (wave : nat -> R) (m : term) : R :=
  t_coef m * eps ^ t_eps m * rho2 ^ t_rho2 m * xi ^ t_xi m * nu ^ t_nu m * wave (t_wave m).
Definition total (eps rho2 xi nu : R) (wave : nat -> R) (l : list term) : R :=
  fold_right (fun m s => term_value eps rho2 xi nu wave m + s) 0 l.

(** The expansion of a tightly focused beam up to the fourth order in the diffraction angle. *)
Definition Ex_terms : list term :=
  [mkTerm 1 0 0 0 0 0;
   mkTerm 1 2 0 2 0 2; mkTerm (-1/4) 2 2 0 0 3;
   mkTerm (1/8) 4 0 0 0 2; mkTerm (-1/4) 4 1 0 0 3; mkTerm (-1/16) 4 2 0 0 4; mkTerm 1 4 1 2 0 4;
   mkTerm (-1/8) 4 3 0 0 5; mkTerm (-1/4) 4 2 2 0 5; mkTerm (1/32) 4 4 0 0 6].
Definition Ey_terms : list term := [mkTerm 1 2 0 1 1 2; mkTerm 1 4 1 1 1 4; mkTerm (-1/4) 4 2 1 1 5].
Definition Ez_terms : list term :=
  [mkTerm 1 1 0 1 0 1; mkTerm (-1/2) 3 0 1 0 2; mkTerm 1 3 1 1 0 3; mkTerm (-1/4) 3 2 1 0 4].
Definition By_terms : list term :=
  [mkTerm 1 0 0 0 0 0;
   mkTerm (1/2) 2 1 0 0 2; mkTerm (-1/4) 2 2 0 0 3;
   mkTerm (-1/8) 4 0 0 0 2; mkTerm (1/4) 4 1 0 0 3; mkTerm (5/16) 4 2 0 0 4; mkTerm (-1/4) 4 3 0 0 5; mkTerm (1/32) 4 4 0 0 6].
Definition Bz_terms : list term :=
  [mkTerm 1 1 0 0 1 1; mkTerm (1/2) 3 0 0 1 2; mkTerm (1/2) 3 1 0 1 3; mkTerm (-1/4) 3 2 0 1 4].

(** ** The frame of the code *)
Section Frame.
Variable d : V3.
Hypothesis Hd : good_dir d.
Let rot := rotate_to_axis d ez.
Let inv := minverse rot.
Definition frame_u : V3 := rapply (minverse (rotate_to_axis d ez)) (v3 1 0 0).
Definition frame_v : V3 := rapply (minverse (rotate_to_axis d ez)) (v3 0 1 0).

Lemma frame_ok : frame frame_u frame_v (runit d).
Proof.
  unfold frame, frame_u, frame_v. rewrite !(beam_len2 d Hd), (beam_dot d Hd), (beam_cross d Hd), <- (beam_axis d Hd).
  repeat split; try (runf; ring). f_equal. runf. apply vec_eq; cbn; ring.
Qed.
Lemma frame_combine a b c : rapply inv (v3 a b c) = combine a b c frame_u frame_v (runit d).
Proof.
  rewrite <- (beam_axis d Hd). fold rot inv. unfold frame_u, frame_v, combine. fold rot inv.
  destruct inv. runf. apply vec_eq; cbn; ring.
Qed.
Lemma frame_coords x : rapply rot x = v3 (rdot frame_u x) (rdot frame_v x) (rdot (runit d) x).
Proof.
  rewrite <- (beam_z d Hd). fold rot. destruct (beam_rot d Hd) as [Hr _]. fold rot in Hr.
  destruct (rotation_inv rot (beam_rot d Hd)) as [_ I2].
  unfold frame_u, frame_v. fold rot. rewrite <- (Hr _ x), I2, <- (Hr _ x), I2.
  destruct (rapply rot x) as [a b c]. runf. apply vec_eq; cbn; ring.
Qed.
Lemma frame_r2 x : rdot frame_u x * rdot frame_u x + rdot frame_v x * rdot frame_v x
  = rlen2 x - rdot (runit d) x * rdot (runit d) x.
Proof. rewrite (beam_trans_len2 d Hd x). fold rot. rewrite frame_coords. unfold v3. cbn [vx vy]. ring. Qed.
End Frame.

(** ** C109 *)
Theorem C109_plane : forall (d : V3), good_dir d -> exists u v, frame u v (runit d) /\
  forall maxE wl pol t (x : V3),
  let A := maxE * cos (2 * c_pi / wl * (rdot (runit d) x - t)) in
  plane_field (new_plane maxE wl pol d) t x =
  (combine (A * cos pol) (A * sin pol) 0 u v (runit d), combine (A * sin pol) (A * cos pol) 0 u v (runit d)).
Proof.
  intros d Hd. exists (frame_u d), (frame_v d). split; [apply frame_ok; auto|].
  intros maxE wl pol t x A. rewrite (plane_form maxE wl pol d t x Hd), !(frame_combine d Hd).
  unfold A. rewrite (Rmult_comm (2 * c_pi / wl)). reflexivity.
Qed.
Print Assumptions C109_plane.

Lemma lit99 : Rlit 1 (-99) = 1 / 10 ^ 99.
Proof. reflexivity. Qed.

Lemma rayleigh_nz wl waist : wl <> 0 -> waist <> 0 -> rayleigh_length wl waist <> 0.
Proof.
  intros Hwl Hw. unfold rayleigh_length, Rdiv. pose proof c_pi_nz as Hc. pose proof (Rinv_neq_0_compat wl Hwl).
  revert Hc. generalize (@c_pi R _). intros c Hc.
  repeat apply Rmult_integral_contrapositive_currified; assumption.
Qed.
Lemma width_inv waist q : waist <> 0 -> 0 <= q -> waist / (waist * sqrt (1 + q)) = / sqrt (1 + q).
Proof. intros. assert (0 < sqrt (1 + q)) by (apply sqrt_lt_R0; lra). field. lra. Qed.
Lemma width_sq waist q : 0 <= q -> waist * sqrt (1 + q) * (waist * sqrt (1 + q)) = waist * waist * (1 + q).
Proof. intros. rewrite <- (sqrt_sqrt (1 + q)) at 3 by lra. ring. Qed.

Theorem C109_gaussian : forall (s f : V3), good_dir (rminus f s) -> exists u v, frame u v (runit (rminus f s)) /\
  forall maxE wl tau waist pol t (x : V3), wl <> 0 -> waist <> 0 -> tau <> 0 ->
  let n := runit (rminus f s) in
  let k := 2 * c_pi / wl in
  let zr := rayleigh_length wl waist in
  let z := rdot n x in
  let r2 := rlen2 x - z * z in
  let spread := 1 + (z / zr) * (z / zr) in
  let delay := t - rlen (rminus s f) - z in
  let A := maxE / sqrt spread * exp (- r2 / (waist * waist * spread)) * exp (- (delay * delay) / (tau * tau))
           * cos (k * z + k * r2 / (2 * curvature_radius zr z)) in
  gauss_field (new_gauss maxE wl tau waist pol s f) t x =
  (combine (A * cos pol) (A * sin pol) 0 u v n, combine (A * sin pol) (A * cos pol) 0 u v n).
Proof.
  intros s f Hd. exists (frame_u (rminus f s)), (frame_v (rminus f s)). split; [apply frame_ok; auto|].
  intros maxE wl tau waist pol t x Hwl Hw Ht n k zr z r2 spread delay A.
  rewrite (gauss_form maxE wl tau waist pol s f t x Hd).
  set (p := rapply _ x). set (F := new_gauss maxE wl tau waist pol s f).
  assert (HA : gauss_amp F t p = A).
  { rewrite gauss_amp_R. unfold gauss_static, gauss_envelope.
    assert (Hp : p = v3 (rdot (frame_u (rminus f s)) x) (rdot (frame_v (rminus f s)) x) z) by (apply frame_coords; auto).
    assert (Hr : vx p * vx p + vy p * vy p = r2).
    { rewrite Hp. unfold v3; cbn [vx vy]. apply frame_r2. exact Hd. }
    rewrite Hr. replace (vz p) with z by (rewrite Hp; reflexivity).
    change (ga_maxE F) with maxE. change (ga_waist F) with waist. change (ga_tau F) with tau.
    change (rlen (rminus (ga_start F) (ga_focus F))) with (rlen (rminus s f)). fold delay.
    assert (Hk : ga_k F = k) by (unfold F, new_gauss; cbn [ga_k]; rnum; reflexivity).
    rewrite Hk. replace (k * waist * waist / 2) with zr by (unfold zr, k, rayleigh_length; field; auto).
    assert (Hzr : zr <> 0) by (apply rayleigh_nz; auto).
    assert (Hq : 0 <= z / zr * (z / zr)) by nra.
    replace (1 + z * z / (zr * zr)) with spread by (unfold spread; field; auto).
    assert (W1 : waist / (waist * sqrt spread) = / sqrt spread) by (apply width_inv; auto).
    assert (W2 : waist * sqrt spread * (waist * sqrt spread) = waist * waist * spread) by (apply width_sq; auto).
    rewrite W1, W2.
    rewrite lit99. fold (curvature_radius zr z).
    unfold A. rewrite (Rmult_comm z k), (Rmult_comm r2 k).
    replace (-1 * delay * delay) with (- (delay * delay)) by ring.
    replace (-1 * r2) with (- r2) by ring. unfold Rdiv. ring. }
  rewrite HA, !(frame_combine _ Hd). reflexivity.
Qed.
Print Assumptions C109_gaussian.

(** with this closed form the energy flow of the Gaussian beam is that of the plane wave: the factor cos(2 pol) *)
Theorem C109_gaussian_flux : forall maxE wl tau waist pol (s f : V3) t (x : V3), good_dir (rminus f s) ->
  let '(E, B) := gauss_field (new_gauss maxE wl tau waist pol s f) t x in
  rdot E B = rlen2 E * sin (2 * pol) /\
  rcross E B = rscale (rlen2 E * cos (2 * pol)) (runit (rminus f s)).
Proof.
  intros maxE wl tau waist pol s f t x Hd. rewrite (gauss_form maxE wl tau waist pol s f t x Hd).
  set (A := gauss_amp _ _ _).
  rewrite (beam_len2 _ Hd), (beam_dot _ Hd), (beam_cross _ Hd), trans_len2. split.
  - rewrite sin_2a. runf. ring.
  - rewrite <- (beam_axis _ Hd). rewrite <- rapply_scale. f_equal.
    rewrite cos_2a. runf. apply vec_eq; cbn; ring.
Qed.
Print Assumptions C109_gaussian_flux.

Lemma foc_wave (g : R -> R) F p q i : fo_waist F <> 0 -> foc_ratio F p = q ->
  Rpow (foc_ratio F p) (IZR (Z.of_nat i + 1)) * g (foc_phi F p + IZR (Z.of_nat i + 1) * foc_gouy F p)
  = q ^ (i + 1) * g (foc_phi F p + INR (i + 1) * foc_gouy F p).
Proof.
  intros _ ->. rewrite Rpow_IZR. replace (Z.of_nat i + 1)%Z with (Z.of_nat (i + 1)) by lia.
  rewrite <- INR_IZR_INZ, <- pow_powerRZ. reflexivity.
Qed.

Theorem C109_focused : forall (s f : V3), good_dir (rminus f s) -> exists u v, frame u v (runit (rminus f s)) /\
  forall maxE wl tau waist pol t (x : V3), wl <> 0 -> waist <> 0 -> tau <> 0 ->
  let n := runit (rminus f s) in
  let k := 2 * c_pi / wl in
  let zr := rayleigh_length wl waist in
  let eps := waist / zr in
  let z := rdot n x in
  let xi := rdot u x / waist in
  let nu := rdot v x / waist in
  let rho2 := xi * xi + nu * nu in
  let narrow := / sqrt (1 + (z / zr) * (z / zr)) in
  let phase := k * (z - rho2 * waist * waist / (2 * curvature_radius zr z)) in
  let S i := narrow ^ (i + 1) * sin (phase + INR (i + 1) * atan (z / zr)) in
  let C i := narrow ^ (i + 1) * cos (phase + INR (i + 1) * atan (z / zr)) in
  let A := local_amplitude maxE wl tau waist s f t x in
  1 / 10 ^ 15 <= A ->
  let E1 := A * total eps rho2 xi nu S Ex_terms in
  let E2 := A * total eps rho2 xi nu S Ey_terms in
  let E3 := A * total eps rho2 xi nu C Ez_terms in
  let B2 := A * total eps rho2 xi nu S By_terms in
  let B3 := A * total eps rho2 xi nu C Bz_terms in
  let a := E1 * cos pol - E2 * sin pol in
  let b := - B2 * sin pol in
  focusing_field (new_focusing maxE wl tau waist pol s f) t x =
  (combine a (a * sin pol + E2 * cos pol) E3 u v n, combine b (b * sin pol + B2 * cos pol) B3 u v n).
Proof.
  intros s f Hd. exists (frame_u (rminus f s)), (frame_v (rminus f s)). split; [apply frame_ok; auto|].
  intros maxE wl tau waist pol t x Hwl Hw Ht n k zr eps z xi nu rho2 narrow phase S C A HA E1 E2 E3 B2 B3 a b.
  set (F := new_focusing maxE wl tau waist pol s f).
  assert (Hp : mvec (fo_rot F) x = v3 (rdot (frame_u (rminus f s)) x) (rdot (frame_v (rminus f s)) x) z).
  { unfold F, new_focusing. cbn [fo_rot]. rewrite ez_axis_R, mvec_R, direction_R. apply frame_coords; auto. }
  unfold focusing_field. 
  assert (Ham : foc_amp F t (mvec (fo_rot F) x) = A).
  { unfold F. rewrite foc_amp_form by auto. reflexivity. }
  rewrite Ham. rnum. rewrite lit15. replace (Rltb _ _) with false by (symmetry; apply Rltb_false; lra).
  rewrite Hp. set (p := v3 _ _ z).
  assert (Hk : fo_k F = k) by (unfold F, new_focusing; cbn [fo_k]; rnum; reflexivity).
  assert (Hzr : fo_rayleigh F = zr).
  { unfold F, new_focusing; cbn [fo_rayleigh]; rnum. unfold zr, rayleigh_length. field. auto. }
  assert (He : fo_eps F = eps).
  { transitivity (fo_waist F / fo_rayleigh F); [reflexivity|]. rewrite Hzr. reflexivity. }
  assert (Hz0 : zr <> 0) by (apply rayleigh_nz; auto).
  assert (Hq : 0 <= z / zr * (z / zr)) by nra.
  assert (Hrat : foc_ratio F p = narrow).
  { unfold foc_ratio. change (vz p) with z. rewrite Hzr. change (fo_waist F) with waist. rnum. apply width_inv; auto. }
  assert (Hg : foc_gouy F p = atan (z / zr)) by (unfold foc_gouy; change (vz p) with z; rewrite Hzr; reflexivity).
  assert (Hr2 : vx p * vx p + vy p * vy p = rho2 * waist * waist).
  { unfold p, v3, rho2, xi, nu; cbn [vx vy]. field. auto. }
  assert (Hph : foc_phi F p = phase).
  { unfold foc_phi. change (vz p) with z. rnum. rewrite Hr2, Hzr, Hk, lit99. reflexivity. }
  assert (HS : forall i, foc_S F p (Z.of_nat i) = S i).
  { intros i. unfold foc_S. rnum. rewrite (foc_wave sin F p narrow i Hw Hrat), Hph, Hg. reflexivity. }
  assert (HC : forall i, foc_C F p (Z.of_nat i) = C i).
  { intros i. unfold foc_C. rnum. rewrite (foc_wave cos F p narrow i Hw Hrat), Hph, Hg. reflexivity. }
  unfold foc_local. cbv zeta. rnum. rewrite Hr2, He. change (fo_waist F) with waist.
  change (vx p / waist) with xi. change (vy p / waist) with nu.
  rewrite (HS 0%nat : foc_S F p 0 = S 0%nat), (HS 2%nat : foc_S F p 2 = S 2%nat), (HS 3%nat : foc_S F p 3 = S 3%nat),
    (HS 4%nat : foc_S F p 4 = S 4%nat), (HS 5%nat : foc_S F p 5 = S 5%nat), (HS 6%nat : foc_S F p 6 = S 6%nat),
    (HC 1%nat : foc_C F p 1 = C 1%nat), (HC 2%nat : foc_C F p 2 = C 2%nat),
    (HC 3%nat : foc_C F p 3 = C 3%nat), (HC 4%nat : foc_C F p 4 = C 4%nat).
  replace (rho2 * waist * waist / (waist * waist)) with rho2 by (field; auto).
  unfold F, new_focusing. cbn [fo_inv fo_pol]. rewrite !mvec_R, ez_axis_R, direction_R.
  unfold pol_turn. cbn [vx vy vz]. rnum.
  unfold E3, B3, a, b, E1, E2, B2. rewrite <- !(frame_combine _ Hd).
  unfold Ex_terms, Ey_terms, Ez_terms, By_terms, Bz_terms, total, term_value. cbn [fold_right t_coef t_eps t_rho2 t_xi t_nu t_wave pow].
  clearbody S C. generalize (S 0%nat) (S 2%nat) (S 3%nat) (S 4%nat) (S 5%nat) (S 6%nat) (C 1%nat) (C 2%nat) (C 3%nat) (C 4%nat).
  clearbody eps rho2 xi nu A. intros.
  f_equal; f_equal; unfold v3; f_equal; field.
Qed.
Print Assumptions C109_focused.

(** the hypotheses are met off the axis of a tightly focused beam *)
Example C109_case : let s := v3 0 0 (-1) in
  good_dir (rminus rzero s) /\ 1 / 10 ^ 15 <= local_amplitude 1 c_pi 1 1 s rzero 1 (v3 1 0 0) /\
  rayleigh_length c_pi 1 = 1 /\ rdot (runit (rminus rzero s)) (v3 1 0 0) = 0.
Proof.
  intros s. assert (Hs : rminus rzero s = ez) by (unfold s; apply case_dir).
  assert (HR : runit (rminus rzero s) = ez) by (rewrite Hs; apply runit_ez).
  rewrite HR, Hs. split; [exact good_dir_ez|]. pose proof c_pi_nz as Hc.
  assert (HL : rayleigh_length c_pi 1 = 1) by (unfold rayleigh_length; field; auto).
  assert (HD : rdot ez (v3 1 0 0) = 0) by (runf; ring).
  split; [|auto]. unfold local_amplitude. rewrite HR, HD.
  replace (rlen (rminus s rzero)) with 1 by (symmetry; apply rlen_of_len2; [lra | unfold s; runf; ring]).
  replace (rlen2 (v3 1 0 0)) with 1 by (runf; ring).
  replace (- _ / _ - _) with (- (1)).
  2:{ unfold rayleigh_length in HL. field. repeat split; auto; lra. }
  rewrite Rmult_1_l, exp_Ropp. pose proof exp_le_3 as H3. pose proof (exp_pos 1).
  pose proof (Rinv_le_contravar _ _ H H3). assert (1 / 10 ^ 15 <= / 3) by lra. lra.
Qed.

(** ** C110: specification *)
Definition rneg (a : V3) : V3 := rscale (-1) a.
(** [D] is the derivative at 0 of the vector-valued function [f] *)
Definition vderiv (f : R -> V3) (D : V3) : Prop :=
  derivable_pt_lim (fun h => vx (f h)) 0 (vx D) /\ derivable_pt_lim (fun h => vy (f h)) 0 (vy D) /\
  derivable_pt_lim (fun h => vz (f h)) 0 (vz D).
(** derivatives of a field with respect to time and the three coordinates *)
Record gradient := mkGrad { d_t : V3; d_x : V3; d_y : V3; d_z : V3 }.
Definition is_gradient (F : R -> V3 -> V3) (t : R) (x : V3) (G : gradient) : Prop :=
  vderiv (fun h => F (t + h) x) (d_t G) /\
  vderiv (fun h => F t (rplus x (v3 h 0 0))) (d_x G) /\
  vderiv (fun h => F t (rplus x (v3 0 h 0))) (d_y G) /\
  vderiv (fun h => F t (rplus x (v3 0 0 h))) (d_z G).
Definition divergence (G : gradient) : R := vx (d_x G) + vy (d_y G) + vz (d_z G).
Definition rotation_of (G : gradient) : V3 :=
  v3 (vz (d_y G) - vy (d_z G)) (vx (d_z G) - vz (d_x G)) (vy (d_x G) - vx (d_y G)).
(** Gauss's laws, and the laws of Faraday and Ampere, in vacuum with c = 1 *)
Definition source_free (GE GB : gradient) : Prop := divergence GE = 0 /\ divergence GB = 0.
Definition induction_laws (GE GB : gradient) : Prop := rotation_of GE = rneg (d_t GB) /\ rotation_of GB = d_t GE.
Definition maxwell (F : R -> V3 -> V3 * V3) (t : R) (x : V3) : Prop :=
  exists GE GB, is_gradient (fun t x => fst (F t x)) t x GE /\ is_gradient (fun t x => snd (F t x)) t x GB /\
    source_free GE GB /\ induction_laws GE GB.

(** ** Waves of constant direction *)
Lemma lim_ext f g x l : (forall h, f h = g h) -> derivable_pt_lim f x l -> derivable_pt_lim g x l.
Proof. intros H L e He. destruct (L e He) as [dl Hdl]. exists dl. intros h H1 H2. rewrite <- !H. auto. Qed.
Lemma lim_unique f x l m : derivable_pt_lim f x l -> derivable_pt_lim f x m -> l = m.
Proof. apply uniqueness_limite. Qed.

Section Wave.
Variables (g g' : R -> R) (n c : V3).
Hypothesis Hg : forall y, derivable_pt_lim g y (g' y).
Let W (t : R) (x : V3) : V3 := rscale (g (rdot n x - t)) c.
Definition wave_gradient (t : R) (x : V3) : gradient :=
  let s := g' (rdot n x - t) in
  mkGrad (rscale (- s) c) (rscale (s * vx n) c) (rscale (s * vy n) c) (rscale (s * vz n) c).

Lemma affine_lim a b k : derivable_pt_lim (fun h => g (a + b * h) * k) 0 (g' a * b * k).
Proof.
  assert (HA : derivable_pt_lim (fun h => a + b * h) 0 b).
  { intros e He. exists (mkposreal 1 Rlt_0_1). intros h Hh _.
    replace ((a + b * (0 + h) - (a + b * 0)) / h - b) with 0 by (field; auto). rewrite Rabs_R0. exact He. }
  assert (HC : derivable_pt_lim (fun h => g (a + b * h)) 0 (g' a * b)).
  { apply (derivable_pt_lim_comp (fun h => a + b * h) g 0 b (g' a) HA).
    replace (a + b * 0) with a by ring. apply Hg. }
  pose proof (derivable_pt_lim_scal _ k 0 _ HC) as HS.
  replace (g' a * b * k) with (k * (g' a * b)) by ring.
  eapply lim_ext; [|exact HS]. intros h. unfold mult_real_fct. ring.
Qed.

Lemma wave_vderiv a b (f : R -> V3) : (forall h, f h = rscale (g (a + b * h)) c) -> vderiv f (rscale (g' a * b) c).
Proof.
  intros Hf. split; [|split]; (eapply lim_ext; [|apply affine_lim]); intros h; rewrite Hf; reflexivity.
Qed.

Lemma wave_is_gradient t x : is_gradient W t x (wave_gradient t x).
Proof.
  unfold is_gradient, wave_gradient, W. cbn [d_t d_x d_y d_z]. repeat split.
  all: match goal with |- derivable_pt_lim (fun h => ?k (rscale (g (@?q h)) c)) 0 _ =>
         let b := match goal with
                  | |- context [v3 _ 0 0] => constr:(vx n) | |- context [v3 0 _ 0] => constr:(vy n)
                  | |- context [v3 0 0 _] => constr:(vz n) | _ => constr:(-1) end in
         pose proof (wave_vderiv (rdot n x - t) b (fun h => rscale (g (q h)) c)) as HV end;
       cbv beta in HV;
       match type of HV with ?P -> vderiv ?f ?D =>
         assert (HP : P) by (intros h; do 2 f_equal; runf; ring);
         specialize (HV HP); destruct HV as (V1 & V2 & V3') end;
       first [exact V1 | exact V2 | exact V3'
             | eapply lim_ext; [intros; reflexivity|]; replace (- g' (rdot n x - t)) with (g' (rdot n x - t) * -1) by ring;
               first [exact V1 | exact V2 | exact V3']].
Qed.
Lemma wave_div t x : divergence (wave_gradient t x) = g' (rdot n x - t) * rdot n c.
Proof. unfold divergence, wave_gradient. cbv zeta. cbn [d_x d_y d_z]. runf. ring. Qed.
Lemma wave_rot t x : rotation_of (wave_gradient t x) = rscale (g' (rdot n x - t)) (rcross n c).
Proof. unfold rotation_of, wave_gradient. cbv zeta. cbn [d_x d_y d_z]. runf. apply vec_eq; cbn; ring. Qed.
End Wave.

Lemma frame_cross u v n : frame u v n ->
  rcross n u = v /\ rcross n v = rneg u /\ rdot n u = 0 /\ rdot n v = 0.
Proof.
  intros (Hu & Hv & Huv & <-).
  assert (E1 : rcross (rcross u v) u = rminus (rscale (rlen2 u) v) (rscale (rdot u v) u)) by (runf; apply vec_eq; cbn; ring).
  assert (E2 : rcross (rcross u v) v = rminus (rscale (rdot u v) v) (rscale (rlen2 v) u)) by (runf; apply vec_eq; cbn; ring).
  rewrite E1, E2, Hu, Hv, Huv. repeat split; try (runf; apply vec_eq; cbn; ring); runf; ring.
Qed.

Section PlaneWave.
Variables (maxE wl pol : R) (d u v : V3).
Let n := runit d.
Hypothesis Hf : frame u v n.
Hypothesis HF : forall t x,
  let A := maxE * cos (2 * c_pi / wl * (rdot (runit d) x - t)) in
  plane_field (new_plane maxE wl pol d) t x =
  (combine (A * cos pol) (A * sin pol) 0 u v (runit d), combine (A * sin pol) (A * cos pol) 0 u v (runit d)).
Let k := 2 * c_pi / wl.
Let g (y : R) := maxE * cos (k * y).
Let g' (y : R) := - (maxE * k * sin (k * y)).
Let cE := combine (cos pol) (sin pol) 0 u v n.
Let cB := combine (sin pol) (cos pol) 0 u v n.

Lemma carrier_deriv y : derivable_pt_lim g y (g' y).
Proof.
  unfold g, g'. assert (HA : derivable_pt_lim (fun y => k * y) y k).
  { intros e He. exists (mkposreal 1 Rlt_0_1). intros h Hh _.
    replace ((k * (y + h) - k * y) / h - k) with 0 by (field; auto). rewrite Rabs_R0. exact He. }
  pose proof (derivable_pt_lim_comp (fun y => k * y) cos y k _ HA (derivable_pt_lim_cos (k * y))) as HC.
  pose proof (derivable_pt_lim_scal _ maxE y _ HC) as HS.
  replace (- _) with (maxE * (- sin (k * y) * k)) by ring. exact HS.
Qed.

Lemma plane_E t x : fst (plane_field (new_plane maxE wl pol d) t x) = rscale (g (rdot n x - t)) cE.
Proof. rewrite HF. cbn [fst]. unfold g, cE, combine, k, n. runf. apply vec_eq; cbn; ring. Qed.
Lemma plane_B t x : snd (plane_field (new_plane maxE wl pol d) t x) = rscale (g (rdot n x - t)) cB.
Proof. rewrite HF. cbn [snd]. unfold g, cB, combine, k, n. runf. apply vec_eq; cbn; ring. Qed.

Lemma vderiv_ext f f' D : (forall h, f h = f' h) -> vderiv f D -> vderiv f' D.
Proof. intros H (A & B & C). repeat split; (eapply lim_ext; [|eassumption]); intros; cbv beta; rewrite H; reflexivity. Qed.
Lemma gradient_ext F G t x D : (forall t x, F t x = G t x) -> is_gradient F t x D -> is_gradient G t x D.
Proof.
  intros H (A & B & C & E). unfold is_gradient.
  repeat match goal with |- _ /\ _ => split end; (eapply vderiv_ext; [|eassumption]); intros; apply H.
Qed.

Lemma cE_perp : rdot n cE = 0.
Proof.
  destruct (frame_cross u v n Hf) as (_ & _ & H1 & H2). unfold cE, combine.
  transitivity (cos pol * rdot n u + sin pol * rdot n v); [runf; ring|]. rewrite H1, H2. ring.
Qed.
Lemma cB_perp : rdot n cB = 0.
Proof.
  destruct (frame_cross u v n Hf) as (_ & _ & H1 & H2). unfold cB, combine.
  transitivity (sin pol * rdot n u + cos pol * rdot n v); [runf; ring|]. rewrite H1, H2. ring.
Qed.
Lemma turn_combine a b : rcross n (combine a b 0 u v n) = combine (- b) a 0 u v n.
Proof.
  destruct (frame_cross u v n Hf) as (H1 & H2 & _). unfold combine.
  transitivity (rplus (rscale a (rcross n u)) (rscale b (rcross n v))); [runf; apply vec_eq; cbn; ring|].
  rewrite H1, H2. runf. apply vec_eq; cbn; ring.
Qed.

Lemma plane_grad_E t x : is_gradient (fun t x => fst (plane_field (new_plane maxE wl pol d) t x)) t x (wave_gradient g' n cE t x).
Proof. eapply gradient_ext; [|apply (wave_is_gradient g g' n cE carrier_deriv)]. intros. symmetry. apply plane_E. Qed.
Lemma plane_grad_B t x : is_gradient (fun t x => snd (plane_field (new_plane maxE wl pol d) t x)) t x (wave_gradient g' n cB t x).
Proof. eapply gradient_ext; [|apply (wave_is_gradient g g' n cB carrier_deriv)]. intros. symmetry. apply plane_B. Qed.

Lemma plane_source_free t x : source_free (wave_gradient g' n cE t x) (wave_gradient g' n cB t x).
Proof. split; rewrite wave_div, ?cE_perp, ?cB_perp; ring. Qed.

Lemma plane_induction t x : sin pol = 0 -> induction_laws (wave_gradient g' n cE t x) (wave_gradient g' n cB t x).
Proof.
  intros Hs. unfold induction_laws. rewrite !wave_rot. unfold cE, cB. rewrite !turn_combine, Hs.
  unfold wave_gradient. cbn [d_t]. split; unfold rneg, combine; runf; apply vec_eq; cbn; ring.
Qed.

Lemma vderiv_unique f D D' : vderiv f D -> vderiv f D' -> D = D'.
Proof.
  intros (A & B & C) (A' & B' & C'). apply vec_eq; eapply lim_unique; eassumption.
Qed.
Lemma gradient_unique F t x D D' : is_gradient F t x D -> is_gradient F t x D' -> D = D'.
Proof.
  intros (A & B & C & E) (A' & B' & C' & E'). destruct D, D'. cbn in *. f_equal; eapply vderiv_unique; eassumption.
Qed.

Lemma plane_induction_inv t x : induction_laws (wave_gradient g' n cE t x) (wave_gradient g' n cB t x) ->
  g' (rdot n x - t) <> 0 -> sin pol = 0.
Proof.
  intros [H _] Hg. rewrite wave_rot in H. unfold cE in H. rewrite turn_combine in H.
  unfold wave_gradient in H. cbn [d_t] in H. set (s := g' _) in *.
  pose proof (f_equal (rdot u) H) as Hu. destruct Hf as (Huu & _ & Huv & _).
  destruct (frame_cross u v n Hf) as (_ & _ & Hnu & _).
  assert (L : forall a b w, rdot u (rscale w (combine a b 0 u v n)) = w * (a * rlen2 u + b * rdot u v)) by (intros; unfold combine; runf; ring).
  assert (L' : rdot u (rneg (rscale (- s) cB)) = s * (sin pol * rlen2 u + cos pol * rdot u v)) by (unfold rneg, cB, combine; runf; ring).
  rewrite L, L', Huu, Huv in Hu.
  assert (s * sin pol = 0) by lra. apply Rmult_integral in H0. tauto.
Qed.
End PlaneWave.

(** Every plane wave of the code obeys Gauss's laws; it obeys the induction laws exactly if it is polarised along the first
    transverse axis of the code's frame. *)
Theorem C110_gauss_laws : forall maxE wl pol (d : V3) t (x : V3), good_dir d ->
  exists GE GB,
    is_gradient (fun t x => fst (plane_field (new_plane maxE wl pol d) t x)) t x GE /\
    is_gradient (fun t x => snd (plane_field (new_plane maxE wl pol d) t x)) t x GB /\ source_free GE GB.
Proof.
  intros maxE wl pol d t x Hd. destruct (C109_plane d Hd) as (u & v & Hf & HF).
  eexists. eexists. split; [apply (plane_grad_E maxE wl pol d u v (HF maxE wl pol))|].
  split; [apply (plane_grad_B maxE wl pol d u v (HF maxE wl pol))|]. apply plane_source_free. exact Hf.
Qed.
Print Assumptions C110_gauss_laws.

Theorem C110_maxwell : forall maxE wl pol (d : V3), good_dir d -> maxE <> 0 -> wl <> 0 ->
  ((forall t x, maxwell (plane_field (new_plane maxE wl pol d)) t x) <-> sin pol = 0).
Proof.
  intros maxE wl pol d Hd HE Hwl. destruct (C109_plane d Hd) as (u & v & Hf & HF). specialize (HF maxE wl pol).
  split.
  - intros HM. set (k := 2 * c_pi / wl).
    assert (Hk : k <> 0) by (unfold k; pose proof c_pi_nz; intros C; apply Rmult_integral in C; destruct C as [C|C];
      [apply Rmult_integral in C; destruct C; [lra | tauto] | apply (Rinv_neq_0_compat wl Hwl C)]).
    destruct (HM (- (PI / 2 / k)) rzero) as (GE & GB & H1 & H2 & _ & HI).
    rewrite (gradient_unique _ _ _ _ _ H1 (plane_grad_E maxE wl pol d u v HF _ _)) in HI.
    rewrite (gradient_unique _ _ _ _ _ H2 (plane_grad_B maxE wl pol d u v HF _ _)) in HI.
    apply (plane_induction_inv maxE wl pol d u v Hf) in HI; [exact HI|].
    replace (rdot (runit d) rzero - - (PI / 2 / k)) with (PI / 2 / k) by (unfold rzero; runf; ring).
    fold k. replace (k * (PI / 2 / k)) with (PI / 2) by (field; auto). rewrite sin_PI2.
    intros C. assert (HC : maxE * k = 0) by lra. apply Rmult_integral in HC. tauto.
  - intros Hs t x. eexists. eexists. split; [apply (plane_grad_E maxE wl pol d u v HF)|].
    split; [apply (plane_grad_B maxE wl pol d u v HF)|]. split; [apply plane_source_free; exact Hf|].
    apply plane_induction; auto.
Qed.
Print Assumptions C110_maxwell.

(** polarisation angle 0 is allowed by Maxwell's equations, a right angle and an eighth of a turn are not *)
Example C110_case : forall maxE wl (d : V3), good_dir d -> maxE <> 0 -> wl <> 0 ->
  (forall t x, maxwell (plane_field (new_plane maxE wl 0 d)) t x) /\
  ~ (forall t x, maxwell (plane_field (new_plane maxE wl (PI / 2) d)) t x) /\
  ~ (forall t x, maxwell (plane_field (new_plane maxE wl (PI / 4) d)) t x).
Proof.
  intros maxE wl d Hd HE Hwl. repeat split.
  - apply (C110_maxwell maxE wl 0 d Hd HE Hwl). apply sin_0.
  - intros H. apply (C110_maxwell maxE wl (PI / 2) d Hd HE Hwl) in H. rewrite sin_PI2 in H. lra.
  - intros H. apply (C110_maxwell maxE wl (PI / 4) d Hd HE Hwl) in H. rewrite sin_PI4 in H.
    pose proof Rlt_sqrt2_0. assert (0 < 1 / sqrt 2) by (apply Rdiv_lt_0_compat; lra). lra.
Qed.
Example C110_direction : exists d, good_dir d.
Proof. exists ez. exact good_dir_ez. Qed.
