(** * The multivariate samplers for the network process (Source/Tools/MCTools.cpp 51-92, built with Geant4) *)
From Coq Require Import ZArith List.
From Verif Require Import Num Outcome MCTools.
Import ListNotations.

Section Skewed.
Context {T : Type} `{Num T}.
Variable E : Engine T.
Local Open Scope num_scope.

(** std::sinh and std::asinh (Eigen::sinh and Eigen::asinh apply them to every component). *)
Variable fsinh fasinh : T -> T.

(** MCTools.cpp 61-74: the matrix that Eigen computes from the covariance matrix: the factor of LLT if that succeeds, otherwise the
    eigenvectors times the roots of the eigenvalues.  Eigen is not modelled; what is needed of it is stated with the theorems. *)
Variable factor : list (list T) -> list (list T).

(** Products of Eigen: the components are sums of products; the order of summation is the order of the components here. *)
Fixpoint dot (a b : list T) : T :=
  match a, b with
  | x :: a', y :: b' => x * y + dot a' b'
  | _, _ => n0
  end.
Definition mat_vec (m : list (list T)) (v : list T) : list T := map (fun row => dot row v) m.
Fixpoint map2 {A B C} (f : A -> B -> C) (a : list A) (b : list B) : list C :=
  match a, b with
  | x :: a', y :: b' => f x y :: map2 f a' b'
  | _, _ => []
  end.

(** MCTools.cpp 52-77.  The sizes of mean and matrix are supposed to agree (Eigen asserts it). *)
Definition rand_norm_nd (mean : list T) (covar : list (list T)) (g : est E) : list T * est E :=
  let '(z, g') := sample_norm E n0 n1 (length mean) g in
  (map2 nadd mean (mat_vec (factor covar) z), g').

(** MCTools.cpp 83: [asDiagonal]. *)
Definition diagonal (d : list T) : list (list T) :=
  map (fun i => map (fun j => if Nat.eqb i j then nth i d n0 else n0) (seq 0 (length d))) (seq 0 (length d)).

(** MCTools.cpp 79-91. *)
Definition rand_sinh_arcsinh_nd (mean covar skew : list T) (g : est E) : list T * est E :=
  let covarMatrix := diagonal covar in
  let '(sample, g') := rand_norm_nd mean covarMatrix g in
  let norm := n2 / fsinh (fasinh n2) in
  (map2 nadd mean (map (fun x => x * norm) (mat_vec covarMatrix (map2 (fun x s => fsinh (fasinh x + s)) sample skew))), g').

End Skewed.
