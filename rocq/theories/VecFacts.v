(** * Vectors and matrices: proofs (exact reals) *)
From Coq Require Import ZArith Reals Lra Psatz.
From Verif Require Import Num RNum Vec SpecVec.
Local Open Scope R_scope.

Lemma vec_eq (a b : V3) : vx a = vx b -> vy a = vy b -> vz a = vz b -> a = b.
Proof. destruct a, b; simpl; intros; subst; reflexivity. Qed.

Lemma mat_eq (a b : M3) :
  m00 a = m00 b -> m01 a = m01 b -> m02 a = m02 b ->
  m10 a = m10 b -> m11 a = m11 b -> m12 a = m12 b ->
  m20 a = m20 b -> m21 a = m21 b -> m22 a = m22 b -> a = b.
Proof. destruct a, b; simpl; intros; subst; reflexivity. Qed.

Ltac vexp :=
  repeat match goal with v : V3 |- _ =>
    let x := fresh "x" in let y := fresh "y" in let z := fresh "z" in destruct v as [x y z] end;
  repeat match goal with v : M3 |- _ =>
    let a := fresh "a" in let b := fresh "b" in let c := fresh "c" in
    let d := fresh "d" in let e := fresh "e" in let f := fresh "f" in
    let g := fresh "g" in let h := fresh "h" in let i := fresh "i" in
    destruct v as [a b c d e f g h i] end.
Ltac runf := unfold rlen2, rdot, rscale, rplus, rminus, rzero, rcross, rapply, rdet, rident, ez, v3 in *;
  cbn [vx vy vz m00 m01 m02 m10 m11 m12 m20 m21 m22] in *.
Ltac vring := vexp; runf; try (apply vec_eq; cbn [vx vy vz]); try (apply mat_eq; cbn [m00 m01 m02 m10 m11 m12 m20 m21 m22]); ring.

(** ** The model's operations are the textbook ones *)
Lemma vadd_R (a b : V3) : vadd a b = rplus a b. Proof. reflexivity. Qed.
Lemma vsub_R (a b : V3) : vsub a b = rminus a b. Proof. reflexivity. Qed.
Lemma smul_R s (a : V3) : smul s a = rscale s a. Proof. reflexivity. Qed.
Lemma vmuls_R s (a : V3) : vmuls a s = rscale s a.
Proof. unfold vmuls; rnum; vring. Qed.
Lemma vdivs_R s (a : V3) : vdivs a s = rscale (/ s) a.
Proof. unfold vdivs; rnum; unfold Rdiv; vring. Qed.
Lemma dot_R (a b : V3) : dot a b = rdot a b. Proof. reflexivity. Qed.
Lemma mag2_R (a : V3) : mag2 a = rlen2 a. Proof. reflexivity. Qed.
Lemma mag_R (a : V3) : mag a = rlen a. Proof. reflexivity. Qed.
Lemma cross_R (a b : V3) : cross a b = rcross a b. Proof. reflexivity. Qed.
Lemma vnorm_R (a : V3) : vnorm a = runit a.
Proof. unfold vnorm. rewrite vdivs_R, mag_R. reflexivity. Qed.
Lemma direction_R (a b : V3) : direction a b = rminus b a. Proof. reflexivity. Qed.
Lemma mvec_R m (v : V3) : mvec m v = rapply m v.
Proof. unfold mvec; rnum; vring. Qed.
Lemma mdet_R (m : M3) : mdet m = rdet m.
Proof. unfold mdet; rnum. destruct m as [m1 m2 m3 m4 m5 m6 m7 m8 m9]; runf; ring. Qed.
Lemma vzero_R : (vzero : V3) = rzero.
Proof. unfold vzero; rnum; reflexivity. Qed.

(** ** Lengths *)
Lemma rlen2_nonneg a : 0 <= rlen2 a.
Proof. destruct a as [x y z]; runf; nra. Qed.
Lemma rlen_nonneg a : 0 <= rlen a.
Proof. apply sqrt_pos. Qed.
Lemma rlen_sq a : rlen a * rlen a = rlen2 a.
Proof. apply sqrt_sqrt, rlen2_nonneg. Qed.
Lemma rlen2_zero a : rlen2 a = 0 -> a = rzero.
Proof.
  destruct a as [x y z]; runf; intros.
  assert (x = 0) by nra. assert (y = 0) by nra. assert (z = 0) by nra. subst; reflexivity.
Qed.
Lemma rlen2_pos a : a <> rzero -> 0 < rlen2 a.
Proof.
  intros H. destruct (Rle_lt_or_eq_dec 0 (rlen2 a) (rlen2_nonneg a)); auto.
  exfalso; apply H, rlen2_zero; auto.
Qed.
Lemma rlen_pos a : a <> rzero -> 0 < rlen a.
Proof. intros. apply sqrt_lt_R0, rlen2_pos; auto. Qed.
Lemma rlen2_scale s a : rlen2 (rscale s a) = s * s * rlen2 a.
Proof. destruct a as [x y z]; runf; ring. Qed.
Lemma rlen_scale s a : rlen (rscale s a) = Rabs s * rlen a.
Proof.
  unfold rlen. rewrite rlen2_scale, sqrt_mult; [| nra | apply rlen2_nonneg].
  f_equal. rewrite <- sqrt_Rsqr_abs. reflexivity.
Qed.
Lemma rlen2_unit a : a <> rzero -> rlen2 (runit a) = 1.
Proof.
  intros H. unfold runit. rewrite rlen2_scale, <- rlen_sq. pose proof (rlen_pos a H). field. lra.
Qed.
Lemma rlen_of_len2 a x : 0 <= x -> rlen2 a = x * x -> rlen a = x.
Proof. intros. unfold rlen. rewrite H0. apply sqrt_square; auto. Qed.
Lemma rlen_unit a : a <> rzero -> rlen (runit a) = 1.
Proof. intros. apply rlen_of_len2; [lra|]. rewrite rlen2_unit; auto; lra. Qed.
Lemma runit_eq a : a <> rzero -> a = rscale (rlen a) (runit a).
Proof.
  intros H. pose proof (rlen_pos a H). unfold runit. destruct a as [x y z].
  set (l := rlen _) in *. unfold rscale, v3; cbn [vx vy vz]. f_equal; field; lra.
Qed.
Lemma runit_of_unit a : rlen2 a = 1 -> runit a = a.
Proof.
  intros. unfold runit. replace (rlen a) with 1.
  - destruct a as [x y z]; unfold rscale, v3; cbn [vx vy vz]; f_equal; lra.
  - symmetry. apply rlen_of_len2; lra.
Qed.

Lemma rscale_1 a : rscale 1 a = a. Proof. vring. Qed.
Lemma rscale_scale s t a : rscale s (rscale t a) = rscale (s * t) a. Proof. vring. Qed.
Lemma rdot_comm a b : rdot a b = rdot b a. Proof. vring. Qed.
Lemma rdot_scale_l s a b : rdot (rscale s a) b = s * rdot a b. Proof. vring. Qed.
Lemma rdot_scale_r s a b : rdot a (rscale s b) = s * rdot a b. Proof. vring. Qed.
Lemma rdot_plus_l a b c : rdot (rplus a b) c = rdot a c + rdot b c. Proof. vring. Qed.
Lemma rdot_plus_r a b c : rdot c (rplus a b) = rdot c a + rdot c b. Proof. vring. Qed.

(** Cauchy-Schwarz and the triangle inequality *)
Lemma cauchy_sq a b : rdot a b * rdot a b <= rlen2 a * rlen2 b.
Proof.
  destruct a as [a1 a2 a3], b as [b1 b2 b3]; runf.
  pose proof (Rle_0_sqr (a1*b2-a2*b1)); pose proof (Rle_0_sqr (a1*b3-a3*b1)); pose proof (Rle_0_sqr (a2*b3-a3*b2)).
  unfold Rsqr in *. nra.
Qed.
Lemma cauchy a b : rdot a b <= rlen a * rlen b.
Proof.
  destruct (Rle_or_lt (rdot a b) 0).
  - pose proof (rlen_nonneg a); pose proof (rlen_nonneg b); nra.
  - apply Rsqr_incr_0_var; [|pose proof (rlen_nonneg a); pose proof (rlen_nonneg b); nra].
    unfold Rsqr. pose proof (cauchy_sq a b).
    replace (rlen a * rlen b * (rlen a * rlen b)) with ((rlen a * rlen a) * (rlen b * rlen b)) by ring.
    rewrite !rlen_sq. auto.
Qed.
Lemma rlen2_plus a b : rlen2 (rplus a b) = rlen2 a + 2 * rdot a b + rlen2 b.
Proof. vexp; runf; ring. Qed.
Lemma triangle a b : rlen (rplus a b) <= rlen a + rlen b.
Proof.
  apply Rsqr_incr_0_var; [|pose proof (rlen_nonneg a); pose proof (rlen_nonneg b); lra].
  unfold Rsqr. rewrite rlen_sq, rlen2_plus.
  pose proof (cauchy a b). pose proof (rlen_sq a); pose proof (rlen_sq b). nra.
Qed.

(** ** Matrices *)
Lemma mmul_apply m n v : rapply (mmul m n) v = rapply m (rapply n v).
Proof. unfold mmul; rnum. vexp. runf. apply vec_eq; cbn [vx vy vz]; ring. Qed.
Lemma mdet_mul m n : rdet (mmul m n) = rdet m * rdet n.
Proof. unfold mmul; rnum. vexp. runf. ring. Qed.
Lemma minverse_r m : rdet m <> 0 -> mmul m (minverse m) = rident.
Proof.
  intros H. unfold mmul, minverse, mscale. rnum. rewrite mdet_R.
  destruct m as [a b c d e f g h i]. cbn [m00 m01 m02 m10 m11 m12 m20 m21 m22].
  set (D := rdet _) in *.
  assert (HD : D = a * e * i + b * f * g + c * d * h - c * e * g - b * d * i - a * f * h) by reflexivity.
  clearbody D.
  apply mat_eq; unfold rident; cbn [m00 m01 m02 m10 m11 m12 m20 m21 m22];
  (apply Rmult_eq_reg_r with D; [|exact H]); field_simplify; try exact H; rewrite ?HD; ring.
Qed.
Lemma minverse_l m : rdet m <> 0 -> mmul (minverse m) m = rident.
Proof.
  intros H. unfold mmul, minverse, mscale. rnum. rewrite mdet_R.
  destruct m as [a b c d e f g h i]. cbn [m00 m01 m02 m10 m11 m12 m20 m21 m22].
  set (D := rdet _) in *.
  assert (HD : D = a * e * i + b * f * g + c * d * h - c * e * g - b * d * i - a * f * h) by reflexivity.
  clearbody D.
  apply mat_eq; unfold rident; cbn [m00 m01 m02 m10 m11 m12 m20 m21 m22];
  (apply Rmult_eq_reg_r with D; [|exact H]); field_simplify; try exact H; rewrite ?HD; ring.
Qed.
