(** * Lemmas behind the vector properties *)
From Coq Require Import ZArith Reals Lra Psatz.
From Verif Require Import Num RNum Vec SpecVec VecFacts RotationFacts.
Local Open Scope R_scope.

Lemma vector_product_laws (a b : V3) :
  rdot (cross a b) a = 0 /\ rdot (cross a b) b = 0 /\
  cross b a = rscale (-1) (cross a b) /\
  rlen2 (cross a b) + dot a b * dot a b = mag2 a * mag2 b /\
  mag a * mag a = mag2 a /\ 0 <= mag a.
Proof.
  change (cross a b) with (rcross a b). change (cross b a) with (rcross b a).
  change (dot a b) with (rdot a b). change (mag2 a) with (rlen2 a). change (mag2 b) with (rlen2 b).
  change (mag a) with (rlen a).
  repeat split; try apply rlen_nonneg; try apply rlen_sq; try (vexp; runf; ring).
  vring.
Qed.

Lemma operations_exact (a b : V3) (s : R) :
  vadd a b = rplus a b /\ vsub a b = rminus a b /\
  smul s a = rscale s a /\ vmuls a s = rscale s a /\
  (s <> 0 -> rscale s (vdivs a s) = a) /\
  dot a b = rdot a b /\ mag2 a = rdot a a /\
  cross a b = v3 (vy a * vz b - vz a * vy b) (vz a * vx b - vx a * vz b) (vx a * vy b - vy a * vx b).
Proof.
  repeat split; try apply vmuls_R.
  intros. rewrite vdivs_R, rscale_scale, Rinv_r, rscale_1 by auto. reflexivity.
Qed.

Lemma elementwise (a b c : V3) (s : R) :
  rdot (vmul a b) c = vx a * vx b * vx c + vy a * vy b * vy c + vz a * vz b * vz c /\
  (vx b <> 0 -> vy b <> 0 -> vz b <> 0 -> vmul (vdiv a b) b = a /\ vdiv (vmul a b) b = a /\ vmul (sdiv s b) b = v3 s s s) /\
  vadds a s = rplus a (v3 s s s) /\ sadd s a = rplus a (v3 s s s) /\
  vsubs a s = rminus a (v3 s s s) /\ ssub s a = rminus (v3 s s s) a.
Proof.
  destruct a as [a1 a2 a3], b as [b1 b2 b3], c as [c1 c2 c3]. cbn [vx vy vz].
  split; [reflexivity|]. split.
  - intros. unfold vmul, vdiv, sdiv, v3; rnum; cbn [vx vy vz]. repeat split; f_equal; field; assumption.
  - unfold vadds, sadd, vsubs, ssub, rplus, rminus, v3; rnum; cbn [vx vy vz]. repeat split; f_equal; ring.
Qed.

Lemma cross_case : cross (v3 1 2 3) (v3 4 5 6) = v3 (-3) 6 (-3).
Proof. rewrite cross_R. unfold rcross, v3; cbn [vx vy vz]. f_equal; ring. Qed.

Lemma norm_is_unit (a : V3) : a <> rzero ->
  rlen (vnorm a) = 1 /\ exists s, 0 < s /\ a = rscale s (vnorm a).
Proof.
  intros. rewrite vnorm_R. split; [apply rlen_unit; auto|].
  exists (rlen a). split; [apply rlen_pos; auto | apply runit_eq; auto].
Qed.

Lemma direction_is_displacement (a b : V3) :
  direction a b = rminus b a /\ rlen (direction a b) = rlen (rminus b a) /\
  (rlen (direction a b) = 1 <-> rlen (rminus b a) = 1).
Proof. rewrite direction_R. tauto. Qed.

Lemma v3_neq x y z x' y' z' : (x <> x' \/ y <> y' \/ z <> z') -> v3 x y z <> v3 x' y' z'.
Proof. unfold v3. intros H E. injection E. intros. tauto. Qed.

Lemma direction_unit_refuted : exists a b : V3, a <> b /\ rlen (direction a b) <> 1.
Proof.
  exists (v3 0 0 0), (v3 0 0 2). split.
  - apply v3_neq. right; right. lra.
  - rewrite direction_R. rewrite (rlen_of_len2 _ 2); [lra | lra|]. runf; ring.
Qed.

Lemma norm_case : v3 3 0 4 <> rzero /\ vnorm (v3 3 0 4) = v3 (3/5) 0 (4/5).
Proof.
  split. apply v3_neq; left; lra.
  rewrite vnorm_R. unfold runit. rewrite (rlen_of_len2 _ 5); [|lra|runf; ring].
  unfold rscale, v3; cbn [vx vy vz]; f_equal; lra.
Qed.

Lemma inverse_two_sided (m : M3) : mdet m <> 0 ->
  mmul m (minverse m) = rident /\ mmul (minverse m) m = rident.
Proof. rewrite mdet_R. intros; split; [apply minverse_r | apply minverse_l]; auto. Qed.

Lemma det_mul_apply (m n : M3) (v : V3) :
  mdet m = rdet m /\ mdet (mmul m n) = mdet m * mdet n /\
  mvec m v = rapply m v /\ mvec (mmul m n) v = mvec m (mvec n v).
Proof. rewrite !mdet_R, !mvec_R, mdet_mul, mmul_apply. tauto. Qed.

Lemma identity_needs_zero :
  set_identity (mzero : M3) = rident /\
  (forall m : M3, set_identity m = rident <->
     m01 m = 0 /\ m02 m = 0 /\ m10 m = 0 /\ m12 m = 0 /\ m20 m = 0 /\ m21 m = 0).
Proof.
  split.
  - unfold set_identity, mzero, rident; rnum; reflexivity.
  - intros [a b c d e f g h i]. unfold set_identity, rident; rnum.
    cbn [m00 m01 m02 m10 m11 m12 m20 m21 m22]. split.
    + intros E; injection E; intros; subst; repeat split; reflexivity.
    + intros (?&?&?&?&?&?); subst; reflexivity.
Qed.

Lemma det_case : mdet (mkM 2 1 0 0 3 0 1 0 4) = 24.
Proof. rewrite mdet_R. runf; ring. Qed.

Lemma rotate_to_axis_correct (v axis : V3) :
  v <> rzero -> axis <> rzero ->
  / 10000000000 < rlen2 (rplus (runit v) (runit axis)) ->
  rotation (rotate_to_axis v axis) /\
  mvec (rotate_to_axis v axis) v = rscale (rlen v) (runit axis) /\
  (forall t, mvec (rotate_to_axis v axis) (rscale t (rcross v axis)) = rscale t (rcross v axis)).
Proof.
  intros Hv Ha H. assert (NA : ~ near_anti v axis) by (unfold near_anti; lra).
  rewrite mvec_R. repeat split.
  - apply rotate_is_rotation; auto.
  - apply rotate_is_rotation; auto.
  - apply rotate_maps; auto.
  - intros. rewrite mvec_R. apply rotate_fixes; auto.
Qed.

Lemma rotate_case :
  v3 1 0 0 <> rzero /\ ez <> rzero /\ / 10000000000 < rlen2 (rplus (runit (v3 1 0 0)) (runit ez)).
Proof.
  split; [apply v3_neq; left; lra|]. split; [apply v3_neq; right; right; lra|].
  rewrite !runit_of_unit by (runf; ring). runf. lra.
Qed.

Lemma antiparallel_z (v : V3) :
  v <> rzero -> rlen2 (rplus (runit v) (runit ez)) <= / 10000000000 ->
  rotation (rotate_to_axis v ez) /\
  rlen (rminus (mvec (rotate_to_axis v ez) (runit v)) ez) <= / 100000.
Proof. intros Hv H. rewrite mvec_R. apply rotate_anti_z; auto. Qed.

Lemma antiparallel_general_refuted :
  exists v axis : V3, v <> rzero /\ axis <> rzero /\
    mvec (rotate_to_axis v axis) v <> rscale (rlen v) (runit axis) /\
    mvec (rotate_to_axis v axis) v = v.
Proof.
  exists (v3 0 1 0), (v3 0 (-1) 0).
  split; [apply v3_neq; right; left; lra|]. split; [apply v3_neq; right; left; lra|].
  rewrite mvec_R, rotate_unfold_anti.
  2: { unfold near_anti. rewrite !runit_of_unit by (runf; ring). runf; lra. }
  rewrite (runit_of_unit (v3 0 (-1) 0)) by (runf; ring).
  rewrite (rlen_of_len2 _ 1) by (try lra; runf; ring).
  split.
  - unfold rapply, rscale, v3; cbn [vx vy vz m00 m01 m02 m10 m11 m12 m20 m21 m22].
    intros E. injection E. intros. lra.
  - vring.
Qed.

Lemma antiparallel_case : v3 0 0 (-2) <> rzero /\
  rlen2 (rplus (runit (v3 0 0 (-2))) (runit ez)) <= / 10000000000.
Proof.
  split; [apply v3_neq; right; right; lra|].
  rewrite runit_ez. unfold runit. rewrite (rlen_of_len2 _ 2) by (try lra; runf; ring).
  runf. lra.
Qed.
