(** * Properties C01-C05: vectors, matrices, rotations (exact reals) *)
From Coq Require Import ZArith Reals Lra.
From Verif Require Import Num RNum Vec SpecVec VecFacts RotationFacts VecExtra.
Local Open Scope R_scope.

(** C01 *)
Theorem C01_vector_product_laws : forall a b : V3,
  rdot (cross a b) a = 0 /\ rdot (cross a b) b = 0 /\
  cross b a = rscale (-1) (cross a b) /\
  rlen2 (cross a b) + dot a b * dot a b = mag2 a * mag2 b /\
  mag a * mag a = mag2 a /\ 0 <= mag a.
Proof. exact vector_product_laws. Qed.
Print Assumptions C01_vector_product_laws.

(** The operations are the textbook ones, component by component. *)
Theorem C01_operations_exact : forall (a b : V3) (s : R),
  vadd a b = rplus a b /\ vsub a b = rminus a b /\
  smul s a = rscale s a /\ vmuls a s = rscale s a /\
  (s <> 0 -> rscale s (vdivs a s) = a) /\
  dot a b = rdot a b /\ mag2 a = rdot a a /\
  cross a b = v3 (vy a * vz b - vz a * vy b) (vz a * vx b - vx a * vz b) (vx a * vy b - vy a * vx b).
Proof. exact operations_exact. Qed.
Print Assumptions C01_operations_exact.

(** Element-wise product and quotient, and the operators between a vector and a number, which stands for a vector with three equal
    components. *)
Theorem C01_elementwise : forall (a b c : V3) (s : R),
  rdot (vmul a b) c = vx a * vx b * vx c + vy a * vy b * vy c + vz a * vz b * vz c /\
  (vx b <> 0 -> vy b <> 0 -> vz b <> 0 -> vmul (vdiv a b) b = a /\ vdiv (vmul a b) b = a /\ vmul (sdiv s b) b = v3 s s s) /\
  vadds a s = rplus a (v3 s s s) /\ sadd s a = rplus a (v3 s s s) /\
  vsubs a s = rminus a (v3 s s s) /\ ssub s a = rminus (v3 s s s) a.
Proof. exact elementwise. Qed.
Print Assumptions C01_elementwise.

Example C01_case : cross (v3 1 2 3) (v3 4 5 6) = v3 (-3) 6 (-3).
Proof. exact cross_case. Qed.

(** C02 *)
Theorem C02_norm_is_unit : forall a : V3, a <> rzero ->
  rlen (vnorm a) = 1 /\ exists s, 0 < s /\ a = rscale s (vnorm a).
Proof. exact norm_is_unit. Qed.
Print Assumptions C02_norm_is_unit.

Theorem C02_direction_is_displacement : forall a b : V3,
  direction a b = rminus b a /\ rlen (direction a b) = rlen (rminus b a) /\
  (rlen (direction a b) = 1 <-> rlen (rminus b a) = 1).
Proof. exact direction_is_displacement. Qed.
Print Assumptions C02_direction_is_displacement.

Theorem C02_direction_unit_refuted : exists a b : V3, a <> b /\ rlen (direction a b) <> 1.
Proof. exact direction_unit_refuted. Qed.
Print Assumptions C02_direction_unit_refuted.

Example C02_case : v3 3 0 4 <> rzero /\ vnorm (v3 3 0 4) = v3 (3/5) 0 (4/5).
Proof. exact norm_case. Qed.

(** C03 *)
Theorem C03_inverse_two_sided : forall m : M3, mdet m <> 0 ->
  mmul m (minverse m) = rident /\ mmul (minverse m) m = rident.
Proof. exact inverse_two_sided. Qed.
Print Assumptions C03_inverse_two_sided.

Theorem C03_det_mul_apply : forall (m n : M3) (v : V3),
  mdet m = rdet m /\
  mdet (mmul m n) = mdet m * mdet n /\
  mvec m v = rapply m v /\
  mvec (mmul m n) v = mvec m (mvec n v).
Proof. exact det_mul_apply. Qed.
Print Assumptions C03_det_mul_apply.

Theorem C03_identity_needs_zero : 
  set_identity (mzero : M3) = rident /\
  (forall m : M3, set_identity m = rident <->
     m01 m = 0 /\ m02 m = 0 /\ m10 m = 0 /\ m12 m = 0 /\ m20 m = 0 /\ m21 m = 0).
Proof. exact identity_needs_zero. Qed.
Print Assumptions C03_identity_needs_zero.

(** a new matrix is the zero matrix *)
Theorem C03_zero : forall (m : M3) (v : V3), madd mzero m = m /\ mmul mzero m = mzero /\ mvec mzero v = rzero.
Proof.
  intros [a b c d e f g h i] [x y z]. unfold madd, mmul, mvec, mzero, rzero, v3; rnum.
  cbn [m00 m01 m02 m10 m11 m12 m20 m21 m22 vx vy vz]. repeat split; f_equal; ring.
Qed.
Print Assumptions C03_zero.

Example C03_case : mdet (mkM 2 1 0 0 3 0 1 0 4) = 24.
Proof. exact det_case. Qed.

(** C04 *)
Theorem C04_rotate_to_axis : forall v axis : V3,
  v <> rzero -> axis <> rzero ->
  / 10000000000 < rlen2 (rplus (runit v) (runit axis)) ->
  rotation (rotate_to_axis v axis) /\
  mvec (rotate_to_axis v axis) v = rscale (rlen v) (runit axis) /\
  (forall t, mvec (rotate_to_axis v axis) (rscale t (rcross v axis)) = rscale t (rcross v axis)).
Proof. exact rotate_to_axis_correct. Qed.
Print Assumptions C04_rotate_to_axis.

Example C04_case :
  v3 1 0 0 <> rzero /\ ez <> rzero /\ / 10000000000 < rlen2 (rplus (runit (v3 1 0 0)) (runit ez)).
Proof. exact rotate_case. Qed.

(** C05 *)
Theorem C05_antiparallel_z : forall v : V3,
  v <> rzero -> rlen2 (rplus (runit v) (runit ez)) <= / 10000000000 ->
  rotation (rotate_to_axis v ez) /\
  rlen (rminus (mvec (rotate_to_axis v ez) (runit v)) ez) <= / 100000.
Proof. exact antiparallel_z. Qed.
Print Assumptions C05_antiparallel_z.

Theorem C05_antiparallel_general_refuted :
  exists v axis : V3, v <> rzero /\ axis <> rzero /\
    mvec (rotate_to_axis v axis) v <> rscale (rlen v) (runit axis) /\
    mvec (rotate_to_axis v axis) v = v.
Proof. exact antiparallel_general_refuted. Qed.
Print Assumptions C05_antiparallel_general_refuted.

Example C05_case : v3 0 0 (-2) <> rzero /\
  rlen2 (rplus (runit (v3 0 0 (-2))) (runit ez)) <= / 10000000000.
Proof. exact antiparallel_case. Qed.
