(** * Tables of sample points: specification notions (exact reals) *)
From Coq Require Import Reals List.
Import ListNotations.
Local Open Scope R_scope.

(** i-th entry of a table *)
Definition at_ (l : list R) (i : nat) : R := nth i l 0.

(** strictly increasing table *)
Definition increasing (l : list R) : Prop :=
  forall i j, (i < j < length l)%nat -> at_ l i < at_ l j.

(** the straight line through (x0,y0) and (x1,y1), evaluated at q *)
Definition line (x0 y0 x1 y1 q : R) : R := y0 + (q - x0) * (y1 - y0) / (x1 - x0).

(** the line through the table entries i and i+1, evaluated at q *)
Definition segment (sp sd : list R) (i : nat) (q : R) : R :=
  line (at_ sp i) (at_ sd i) (at_ sp (S i)) (at_ sd (S i)) q.

(** sum of f 0, ..., f (n-1) *)
Fixpoint rsum (f : nat -> R) (n : nat) : R :=
  match n with O => 0 | S k => rsum f k + f k end.

(** cubic polynomial and its antiderivative *)
Definition cubic (c0 c1 c2 c3 x : R) : R := c0 + c1 * x + c2 * x ^ 2 + c3 * x ^ 3.
Definition cubic_primitive (c0 c1 c2 c3 x : R) : R :=
  c0 * x + c1 * x ^ 2 / 2 + c2 * x ^ 3 / 3 + c3 * x ^ 4 / 4.

(** the uniform grid x0, x0+h, ..., n points *)
Definition grid (x0 h : R) (n : nat) : list R := map (fun i => x0 + INR i * h) (seq 0 n).
