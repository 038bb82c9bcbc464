(** * Textbook vector and matrix notions over the reals (specification side).
    Written directly with the operations of [R]; nothing here uses the model's functions. *)
From Coq Require Import Reals Lra.
From Verif Require Import Num Vec.
Local Open Scope R_scope.

Notation V3 := (vec R).
Notation M3 := (mat R).

Definition v3 (x y z : R) : V3 := mkV x y z.
Definition ez : V3 := v3 0 0 1.

(** scalar product, squared length, length *)
Definition rdot (a b : V3) : R := vx a * vx b + vy a * vy b + vz a * vz b.
Definition rlen2 (a : V3) : R := rdot a a.
Definition rlen (a : V3) : R := sqrt (rlen2 a).
(** scaling, sum, difference *)
Definition rscale (s : R) (a : V3) : V3 := v3 (s * vx a) (s * vy a) (s * vz a).
Definition rplus (a b : V3) : V3 := v3 (vx a + vx b) (vy a + vy b) (vz a + vz b).
Definition rminus (a b : V3) : V3 := v3 (vx a - vx b) (vy a - vy b) (vz a - vz b).
Definition rzero : V3 := v3 0 0 0.
(** vector product *)
Definition rcross (a b : V3) : V3 :=
  v3 (vy a * vz b - vz a * vy b) (vz a * vx b - vx a * vz b) (vx a * vy b - vy a * vx b).
(** unit vector in the direction of [a] *)
Definition runit (a : V3) : V3 := rscale (/ rlen a) a.

(** action of a matrix on a vector *)
Definition rapply (m : M3) (v : V3) : V3 :=
  v3 (m00 m * vx v + m01 m * vy v + m02 m * vz v)
     (m10 m * vx v + m11 m * vy v + m12 m * vz v)
     (m20 m * vx v + m21 m * vy v + m22 m * vz v).
(** determinant by the rule of Sarrus *)
Definition rdet (m : M3) : R :=
  m00 m * m11 m * m22 m + m01 m * m12 m * m20 m + m02 m * m10 m * m21 m
  - m02 m * m11 m * m20 m - m01 m * m10 m * m22 m - m00 m * m12 m * m21 m.
Definition rident : M3 := mkM 1 0 0 0 1 0 0 0 1.

(** proper rotation: preserves all scalar products, determinant one *)
Definition rotation (m : M3) : Prop :=
  (forall u v, rdot (rapply m u) (rapply m v) = rdot u v) /\ rdet m = 1.
