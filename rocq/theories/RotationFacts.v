(** * RotateToAxis: proofs (exact reals) *)
From Coq Require Import ZArith Reals Lra Psatz.
From Verif Require Import Num RNum Vec SpecVec VecFacts.
Local Open Scope R_scope.

(** I + K + a K^2 for the skew matrix K of the vector c *)
Definition rod (a : R) (c : V3) : M3 :=
  let x := vx c in let y := vy c in let z := vz c in
  mkM (1 - a * (y*y+z*z)) (- z + a * (x*y)) (y + a * (x*z))
      (z + a * (x*y)) (1 - a * (x*x+z*z)) (- x + a * (y*z))
      (- y + a * (x*z)) (x + a * (y*z)) (1 - a * (x*x+y*y)).

Lemma rod_model a (c : V3) :
  madd (madd (set_identity mzero) (skew c)) (mscale (mmul (skew c) (skew c)) a) = rod a c.
Proof.
  unfold madd, set_identity, mzero, skew, mscale, mmul, rod; rnum.
  destruct c as [x y z]; cbn [vx vy vz m00 m01 m02 m10 m11 m12 m20 m21 m22].
  apply mat_eq; cbn [m00 m01 m02 m10 m11 m12 m20 m21 m22]; ring.
Qed.

Lemma rod_apply a c v :
  rapply (rod a c) v = rplus v (rplus (rcross c v) (rscale a (rcross c (rcross c v)))).
Proof. unfold rod. vring. Qed.

Lemma rod_rotation a c : 2 * a - a * a * rlen2 c = 1 -> rotation (rod a c).
Proof.
  intros Ha. split.
  - intros u v.
    transitivity (rdot u v + (1 - (2 * a - a * a * rlen2 c)) * rdot (rcross c u) (rcross c v)).
    + unfold rod. vexp; runf. ring.
    + rewrite Ha. ring.
  - transitivity (1 + rlen2 c * (1 - (2 * a - a * a * rlen2 c))).
    + unfold rod. vexp; runf. ring.
    + rewrite Ha. ring.
Qed.

Lemma lagrange a b : rlen2 (rcross a b) = rlen2 a * rlen2 b - rdot a b * rdot a b.
Proof. vexp; runf; ring. Qed.
Lemma dcross1 a b : rcross (rcross a b) a = rminus (rscale (rlen2 a) b) (rscale (rdot a b) a).
Proof. vring. Qed.
Lemma dcross2 a b : rcross (rcross a b) b = rminus (rscale (rdot a b) b) (rscale (rlen2 b) a).
Proof. vring. Qed.
Lemma cross_minus_scale c a b s : rcross c (rminus a (rscale s b)) = rminus (rcross c a) (rscale s (rcross c b)).
Proof. vring. Qed.

Lemma rod_coeff n1 n2 : rlen2 n1 = 1 -> rlen2 n2 = 1 -> 1 + rdot n1 n2 <> 0 ->
  2 * / (1 + rdot n1 n2) - / (1 + rdot n1 n2) * / (1 + rdot n1 n2) * rlen2 (rcross n1 n2) = 1.
Proof. intros U1 U2 NA. rewrite lagrange, U1, U2. field. exact NA. Qed.

Lemma rod_maps n1 n2 : rlen2 n1 = 1 -> rlen2 n2 = 1 -> 1 + rdot n1 n2 <> 0 ->
  rapply (rod (/ (1 + rdot n1 n2)) (rcross n1 n2)) n1 = n2.
Proof.
  intros U1 U2 NA. rewrite rod_apply.
  rewrite dcross1, U1, rscale_1, cross_minus_scale, dcross1, dcross2, U1, U2, !rscale_1.
  set (k := rdot n1 n2) in *.
  replace (rminus (rminus (rscale k n2) n1) (rscale k (rminus n2 (rscale k n1))))
    with (rscale (- (1 + k) * (1 - k)) n1) by (clearbody k; clear; vring).
  rewrite rscale_scale.
  replace (/ (1 + k) * (- (1 + k) * (1 - k))) with (- (1 - k)) by (field; exact NA).
  clearbody k; clear. vring.
Qed.

(** the turning axis is fixed *)
Lemma rod_fixes a c t : rapply (rod a c) (rscale t c) = rscale t c.
Proof. rewrite rod_apply. vring. Qed.

(** image of n2 : the reflection of n1 through n2 *)
Lemma rod_maps2 n1 n2 : rlen2 n1 = 1 -> rlen2 n2 = 1 -> 1 + rdot n1 n2 <> 0 ->
  rapply (rod (/ (1 + rdot n1 n2)) (rcross n1 n2)) n2 = rminus (rscale (2 * rdot n1 n2) n2) n1.
Proof.
  intros U1 U2 NA. rewrite rod_apply.
  rewrite dcross2, U2, rscale_1.
  replace (rminus (rscale (rdot n1 n2) n2) n1) with (rminus (rscale (rdot n1 n2) n2) (rscale 1 n1))
    by (rewrite rscale_1; reflexivity).
  rewrite cross_minus_scale.
  replace (rcross (rcross n1 n2) (rscale (rdot n1 n2) n2))
    with (rscale (rdot n1 n2) (rcross (rcross n1 n2) n2)) by (generalize (rdot n1 n2); intros; clear; vring).
  rewrite dcross1, dcross2, U1, U2, !rscale_1.
  set (k := rdot n1 n2) in *.
  replace (rminus (rscale k (rminus (rscale k n2) n1)) (rminus n2 (rscale k n1)))
    with (rscale (- (1 + k) * (1 - k)) n2) by (clearbody k; clear; vring).
  rewrite rscale_scale.
  replace (/ (1 + k) * (- (1 + k) * (1 - k))) with (- (1 - k)) by (field; exact NA).
  clearbody k; clear. vring.
Qed.

(** ** The model function *)
Definition near_anti (v axis : V3) : Prop :=
  rlen2 (rplus (runit v) (runit axis)) <= / 10000000000.

Lemma lit10 : Rlit 1 (-10) = / 10000000000.
Proof. rlit. lra. Qed.

Lemma rotate_unfold v axis : ~ near_anti v axis ->
  rotate_to_axis v axis = rod (/ (1 + rdot (runit v) (runit axis))) (rcross (runit v) (runit axis)).
Proof.
  intros H. unfold rotate_to_axis. rnum.
  rewrite !vnorm_R, vadd_R, mag2_R, cross_R, dot_R, lit10.
  destruct (Rleb _ _) eqn:E; rdestr; [exfalso; apply H; exact E|].
  rewrite rod_model. f_equal. unfold Rdiv; apply Rmult_1_l.
Qed.

Lemma rotate_unfold_anti v axis : near_anti v axis ->
  rotate_to_axis v axis = mkM (-1) 0 0 0 1 0 0 0 (-1).
Proof.
  intros H. unfold rotate_to_axis. rnum.
  rewrite !vnorm_R, vadd_R, mag2_R, lit10.
  destruct (Rleb _ _) eqn:E; rdestr; [reflexivity|]. unfold near_anti in H; lra.
Qed.

Lemma not_anti_cos v axis : v <> rzero -> axis <> rzero -> ~ near_anti v axis ->
  1 + rdot (runit v) (runit axis) <> 0.
Proof.
  intros Hv Ha H E. apply H. unfold near_anti. rewrite rlen2_plus, !rlen2_unit by auto. lra.
Qed.

Lemma rotate_is_rotation v axis : v <> rzero -> axis <> rzero -> ~ near_anti v axis ->
  rotation (rotate_to_axis v axis).
Proof.
  intros. rewrite rotate_unfold by auto. apply rod_rotation.
  apply rod_coeff; try apply rlen2_unit; auto. apply not_anti_cos; auto.
Qed.

Lemma rapply_scale m s v : rapply m (rscale s v) = rscale s (rapply m v).
Proof. vring. Qed.

Lemma rotate_maps v axis : v <> rzero -> axis <> rzero -> ~ near_anti v axis ->
  rapply (rotate_to_axis v axis) v = rscale (rlen v) (runit axis).
Proof.
  intros. rewrite rotate_unfold by auto.
  rewrite (runit_eq v) at 3 by auto. rewrite rapply_scale. f_equal.
  apply rod_maps; try apply rlen2_unit; auto. apply not_anti_cos; auto.
Qed.

Lemma rotate_maps_axis v axis : v <> rzero -> axis <> rzero -> ~ near_anti v axis ->
  rapply (rotate_to_axis v axis) (runit axis)
  = rminus (rscale (2 * rdot (runit v) (runit axis)) (runit axis)) (runit v).
Proof.
  intros. rewrite rotate_unfold by auto.
  apply rod_maps2; try apply rlen2_unit; auto. apply not_anti_cos; auto.
Qed.

Lemma rotate_fixes v axis t : v <> rzero -> axis <> rzero -> ~ near_anti v axis ->
  rapply (rotate_to_axis v axis) (rscale t (rcross v axis)) = rscale t (rcross v axis).
Proof.
  intros Hv Ha H. rewrite rotate_unfold by auto.
  pose proof (rod_fixes (/ (1 + rdot (runit v) (runit axis))) (rcross (runit v) (runit axis)) (t * rlen v * rlen axis)) as F.
  replace (rscale t (rcross v axis)) with
    (rscale (t * rlen v * rlen axis) (rcross (runit v) (runit axis))); [exact F|].
  assert (E : rcross v axis = rcross (rscale (rlen v) (runit v)) (rscale (rlen axis) (runit axis))).
  { rewrite <- !runit_eq by auto. reflexivity. }
  rewrite E. generalize (runit v) (runit axis) (rlen v) (rlen axis). intros; vring.
Qed.

(** *** the antiparallel branch *)
Definition flip : M3 := mkM (-1) 0 0 0 1 0 0 0 (-1).

Lemma flip_rotation : rotation flip.
Proof. split; [intros u v|]; unfold flip; vexp; runf; ring. Qed.

Lemma runit_ez : runit ez = ez.
Proof. apply runit_of_unit. runf. ring. Qed.

Lemma flip_ez_dist u : rlen2 u = 1 ->
  rlen2 (rminus (rapply flip u) ez) = rlen2 (rplus u ez).
Proof. intros. unfold flip. vexp; runf. lra. Qed.

Lemma rotate_anti_z v : near_anti v ez -> v <> rzero ->
  rotation (rotate_to_axis v ez) /\
  rlen (rminus (rapply (rotate_to_axis v ez) (runit v)) ez) <= / 100000.
Proof.
  intros H Hv. rewrite rotate_unfold_anti by auto. split; [apply flip_rotation|].
  unfold rlen. change (mkM (-1) 0 0 0 1 0 0 0 (-1)) with flip.
  rewrite flip_ez_dist by (apply rlen2_unit; auto).
  unfold near_anti in H. rewrite runit_ez in H.
  rewrite <- (sqrt_square (/ 100000)) by lra. apply sqrt_le_1_alt. lra.
Qed.

(** transpose characterises the inverse of a rotation *)
Lemma rotation_det m : rotation m -> rdet m = 1. Proof. intros [_ H]; exact H. Qed.

Lemma mmul_ident_apply m n : mmul m n = rident -> forall v, rapply m (rapply n v) = v.
Proof. intros H v. rewrite <- mmul_apply, H. vring. Qed.

Lemma rotation_inv m : rotation m ->
  (forall v, rapply (minverse m) (rapply m v) = v) /\ (forall v, rapply m (rapply (minverse m) v) = v).
Proof.
  intros [_ D]. split; intros; apply mmul_ident_apply; [apply minverse_l | apply minverse_r]; lra.
Qed.

Lemma rotation_inverse m : rotation m -> rotation (minverse m).
Proof.
  intros H. destruct (rotation_inv m H) as [I1 I2]. split.
  - intros u v. destruct H as [H _]. rewrite <- H. rewrite !I2. reflexivity.
  - destruct H as [_ D]. pose proof (minverse_r m ltac:(lra)) as E.
    apply (f_equal rdet) in E. rewrite mdet_mul, D in E. rewrite Rmult_1_l in E. rewrite E.
    runf; ring.
Qed.

(** rotations preserve vector products *)
Lemma rotation_cross m : rotation m -> forall u v,
  rapply m (rcross u v) = rcross (rapply m u) (rapply m v).
Proof.
  intros H u v. destruct (rotation_inv m H) as [_ I2]. destruct H as [Hd D].
  (* both sides have the same scalar product with every m w *)
  assert (K : forall w, rdot (rminus (rapply m (rcross u v)) (rcross (rapply m u) (rapply m v))) (rapply m w) = 0).
  { intros w.
    transitivity (rdot (rapply m (rcross u v)) (rapply m w) - rdot (rcross (rapply m u) (rapply m v)) (rapply m w)).
    { generalize (rapply m w) (rapply m (rcross u v)) (rcross (rapply m u) (rapply m v)). clear. intros. vring. }
    rewrite Hd.
    replace (rdot (rcross (rapply m u) (rapply m v)) (rapply m w)) with (rdet m * rdot (rcross u v) w).
    { rewrite D. ring. }
    clear. vring. }
  set (d := rminus _ _) in K.
  assert (Z : rlen2 d = 0).
  { unfold rlen2. rewrite <- (I2 d) at 2. apply K. }
  apply rlen2_zero in Z. unfold d in Z.
  destruct (rapply m (rcross u v)) as [x y z], (rcross (rapply m u) (rapply m v)) as [x' y' z'].
  unfold rminus, rzero, v3 in Z. cbn [vx vy vz] in Z. injection Z. intros. f_equal; lra.
Qed.
