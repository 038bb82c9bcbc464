(** * ThreeVector and ThreeMatrix (Source/Tools/ThreeVector.hh, ThreeMatrix.hh) *)
From Coq Require Import ZArith List.
From Verif Require Import Num.

Section Vec.
Context {T : Type} `{Num T}.
Local Open Scope num_scope.

(** ThreeVector.hh 11-14: three doubles.  The assert on the index in operator[]
    (126-137) is never violated by the callers, which use literal indices. *)
Record vec := mkV { vx : T; vy : T; vz : T }.

(** ThreeVector.hh 18-23: default constructor. *)
Definition vzero : vec := mkV n0 n0 n0.

(** ThreeVector.hh 158-165. *)
Definition vadd (a b : vec) : vec := mkV (vx a + vx b) (vy a + vy b) (vz a + vz b).
(** ThreeVector.hh 167-174. *)
Definition vsub (a b : vec) : vec := mkV (vx a - vx b) (vy a - vy b) (vz a - vz b).
(** ThreeVector.hh 176-183: element-wise product. *)
Definition vmul (a b : vec) : vec := mkV (vx a * vx b) (vy a * vy b) (vz a * vz b).
(** ThreeVector.hh 185-192: element-wise quotient. *)
Definition vdiv (a b : vec) : vec := mkV (vx a / vx b) (vy a / vy b) (vz a / vz b).
(** ThreeVector.hh 195-202. *)
Definition sadd (s : T) (a : vec) : vec := mkV (s + vx a) (s + vy a) (s + vz a).
(** ThreeVector.hh 204-211. *)
Definition vadds (a : vec) (s : T) : vec := mkV (vx a + s) (vy a + s) (vz a + s).
(** ThreeVector.hh 213-220. *)
Definition ssub (s : T) (a : vec) : vec := mkV (s - vx a) (s - vy a) (s - vz a).
(** ThreeVector.hh 222-229. *)
Definition vsubs (a : vec) (s : T) : vec := mkV (vx a - s) (vy a - s) (vz a - s).
(** ThreeVector.hh 249-256: scalar / vector. *)
Definition sdiv (s : T) (a : vec) : vec := mkV (s / vx a) (s / vy a) (s / vz a).
(** ThreeVector.hh 231-238: scalar * vector. *)
Definition smul (s : T) (a : vec) : vec := mkV (s * vx a) (s * vy a) (s * vz a).
(** ThreeVector.hh 240-247: vector * scalar. *)
Definition vmuls (a : vec) (s : T) : vec := mkV (vx a * s) (vy a * s) (vz a * s).
(** ThreeVector.hh 258-265: vector / scalar. *)
Definition vdivs (a : vec) (s : T) : vec := mkV (vx a / s) (vy a / s) (vz a / s).

(** ThreeVector.hh 51-58. *)
Definition cross (a b : vec) : vec :=
  mkV (vy a * vz b - vz a * vy b) (vz a * vx b - vx a * vz b) (vx a * vy b - vy a * vx b).
(** ThreeVector.hh 66-70. *)
Definition dot (a b : vec) : T := vx a * vx b + vy a * vy b + vz a * vz b.
(** ThreeVector.hh 73-76. *)
Definition mag (a : vec) : T := nsqrt (dot a a).
(** ThreeVector.hh 79-82. *)
Definition mag2 (a : vec) : T := dot a a.
(** ThreeVector.hh 60-63. *)
Definition vnorm (a : vec) : vec := vdivs a (mag a).

(** ThreeVector.hh 85-93.  The call [dir.Norm()] on line 91 returns a value that is
    discarded ([Norm] is const), so it has no effect and is not part of the model. *)
Definition direction (this point : vec) : vec :=
  mkV (vx point - vx this) (vy point - vy this) (vz point - vz this).

(** ThreeMatrix.hh 6-7: nine doubles in row-major order; [mij] is m_data[3*i+j]. *)
Record mat := mkM { m00 : T; m01 : T; m02 : T;
                    m10 : T; m11 : T; m12 : T;
                    m20 : T; m21 : T; m22 : T }.

(** ThreeMatrix.hh 27-33 (also the default constructor, 10-13). *)
Definition mzero : mat := mkM n0 n0 n0 n0 n0 n0 n0 n0 n0.
(** ThreeMatrix.hh 35-40: sets the diagonal only. *)
Definition set_identity (m : mat) : mat :=
  mkM n1 (m01 m) (m02 m) (m10 m) n1 (m12 m) (m20 m) (m21 m) n1.

(** ThreeMatrix.hh 61-66. *)
Definition mdet (m : mat) : T :=
  m00 m * (m11 m * m22 m - m12 m * m21 m)
  - m01 m * (m10 m * m22 m - m12 m * m20 m)
  + m02 m * (m10 m * m21 m - m11 m * m20 m).

(** ThreeMatrix.hh 96-104. *)
Definition madd (a b : mat) : mat :=
  mkM (m00 a + m00 b) (m01 a + m01 b) (m02 a + m02 b)
      (m10 a + m10 b) (m11 a + m11 b) (m12 a + m12 b)
      (m20 a + m20 b) (m21 a + m21 b) (m22 a + m22 b).

(** ThreeMatrix.hh 106-120: accumulation starting from 0, k = 0,1,2. *)
Definition mmul (a b : mat) : mat :=
  let f x0 x1 x2 y0 y1 y2 := n0 + x0 * y0 + x1 * y1 + x2 * y2 in
  mkM (f (m00 a) (m01 a) (m02 a) (m00 b) (m10 b) (m20 b))
      (f (m00 a) (m01 a) (m02 a) (m01 b) (m11 b) (m21 b))
      (f (m00 a) (m01 a) (m02 a) (m02 b) (m12 b) (m22 b))
      (f (m10 a) (m11 a) (m12 a) (m00 b) (m10 b) (m20 b))
      (f (m10 a) (m11 a) (m12 a) (m01 b) (m11 b) (m21 b))
      (f (m10 a) (m11 a) (m12 a) (m02 b) (m12 b) (m22 b))
      (f (m20 a) (m21 a) (m22 a) (m00 b) (m10 b) (m20 b))
      (f (m20 a) (m21 a) (m22 a) (m01 b) (m11 b) (m21 b))
      (f (m20 a) (m21 a) (m22 a) (m02 b) (m12 b) (m22 b)).

(** ThreeMatrix.hh 122-130. *)
Definition mscale (a : mat) (s : T) : mat :=
  mkM (m00 a * s) (m01 a * s) (m02 a * s)
      (m10 a * s) (m11 a * s) (m12 a * s)
      (m20 a * s) (m21 a * s) (m22 a * s).

(** ThreeMatrix.hh 68-82. *)
Definition minverse (m : mat) : mat :=
  mscale
    (mkM (m11 m * m22 m - m12 m * m21 m)
         (m02 m * m21 m - m01 m * m22 m)
         (m01 m * m12 m - m02 m * m11 m)
         (m12 m * m20 m - m10 m * m22 m)
         (m00 m * m22 m - m02 m * m20 m)
         (m02 m * m10 m - m00 m * m12 m)
         (m10 m * m21 m - m11 m * m20 m)
         (m01 m * m20 m - m00 m * m21 m)
         (m00 m * m11 m - m01 m * m10 m))
    (n1 / mdet m).

(** ThreeVector.hh 268-280: matrix * vector, accumulation starting from 0. *)
Definition mvec (m : mat) (v : vec) : vec :=
  mkV (n0 + m00 m * vx v + m01 m * vy v + m02 m * vz v)
      (n0 + m10 m * vx v + m11 m * vy v + m12 m * vz v)
      (n0 + m20 m * vx v + m21 m * vy v + m22 m * vz v).

(** ThreeVector.hh 112-116: the skew matrix of a vector. *)
Definition skew (c : vec) : mat :=
  mkM n0 (- vz c) (vy c)
      (vz c) n0 (- vx c)
      (- vy c) (vx c) n0.

(** ThreeVector.hh 96-125. *)
Definition rotate_to_axis (this axis : vec) : mat :=
  if mag2 (vadd (vnorm this) (vnorm axis)) <=? nlit 1 (-10) then
    mkM (nlit (-1) 0) n0 n0 n0 n1 n0 n0 n0 (nlit (-1) 0)
  else
    let norm1 := vnorm this in
    let norm2 := vnorm axis in
    let c := cross norm1 norm2 in
    let cos := dot norm1 norm2 in
    let k := skew c in
    madd (madd (set_identity mzero) k) (mscale (mmul k k) (n1 / (n1 + cos))).

End Vec.
Arguments vec : clear implicits.
Arguments mat : clear implicits.
