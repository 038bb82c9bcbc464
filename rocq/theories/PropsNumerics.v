(** * Properties C06-C11: table look-up and integration *)
From Coq Require Import ZArith Reals Lra List.
From Verif Require Import Num RNum Outcome Numerics SpecTable NumericsFacts SimpsonFacts NumericsExtra.
Import ListNotations.
Local Open Scope R_scope.

(** C06 *)
Theorem C06_interpolation_inside : forall (sp sd : list R) (q : R),
  (2 <= length sp)%nat -> length sd = length sp -> (Z.of_nat (length sp) < 2 ^ 31)%Z -> increasing sp ->
  at_ sp 0 <= q < at_ sp (length sp - 1) ->
  exists i r, (S i < length sp)%nat /\ at_ sp i <= q < at_ sp (S i) /\
    interpolate1d sp sd (Z.of_nat (length sp)) q = Ok r /\
    r = line (at_ sp i) (at_ sd i) (at_ sp (S i)) (at_ sd (S i)) q /\
    Rmin (at_ sd i) (at_ sd (S i)) <= r <= Rmax (at_ sd i) (at_ sd (S i)).
Proof. exact interp_inside_full. Qed.
Print Assumptions C06_interpolation_inside.

Theorem C06_interpolation_nodes : forall (sp sd : list R) (i : nat),
  (2 <= length sp)%nat -> length sd = length sp -> (Z.of_nat (length sp) < 2 ^ 31)%Z -> increasing sp ->
  (S i < length sp)%nat ->
  interpolate1d sp sd (Z.of_nat (length sp)) (at_ sp i) = Ok (at_ sd i).
Proof. exact interp_node. Qed.
Print Assumptions C06_interpolation_nodes.

Example C06_case : increasing tab_x /\ (2 <= length tab_x)%nat /\ length tab_y = length tab_x.
Proof. exact (conj tab_x_increasing (conj (le_S _ _ (le_n _)) eq_refl)). Qed.

(** C07 *)
Theorem C07_interpolation_below : forall (sp sd : list R) (q : R),
  (2 <= length sp)%nat -> length sd = length sp -> (Z.of_nat (length sp) < 2 ^ 31)%Z ->
  q < at_ sp 0 ->
  interpolate1d sp sd (Z.of_nat (length sp)) q
  = Ok (line (at_ sp 0) (at_ sd 0) (at_ sp 1) (at_ sd 1) q).
Proof. exact interp_below_full. Qed.
Print Assumptions C07_interpolation_below.

Theorem C07_interpolation_above_is_offset : forall (sp sd : list R) (q : R),
  (2 <= length sp)%nat -> length sd = length sp -> (Z.of_nat (length sp) < 2 ^ 31)%Z -> increasing sp ->
  at_ sp (length sp - 1) < q ->
  interpolate1d sp sd (Z.of_nat (length sp)) q
  = Ok (line (at_ sp (length sp - 2)) (at_ sd (length sp - 2)) (at_ sp (length sp - 1)) (at_ sd (length sp - 1)) q
        + (at_ sd (length sp - 1) - at_ sd (length sp - 2))).
Proof. exact interp_above_full. Qed.
Print Assumptions C07_interpolation_above_is_offset.

Theorem C07_interpolation_jump : forall (sp sd : list R) (e : R),
  (2 <= length sp)%nat -> length sd = length sp -> (Z.of_nat (length sp) < 2 ^ 31)%Z -> increasing sp ->
  0 < e ->
  exists r, interpolate1d sp sd (Z.of_nat (length sp)) (at_ sp (length sp - 1) + e) = Ok r /\
    r - at_ sd (length sp - 1) =
      (at_ sd (length sp - 1) - at_ sd (length sp - 2))
      * (1 + e / (at_ sp (length sp - 1) - at_ sp (length sp - 2))).
Proof. exact interp_jump. Qed.
Print Assumptions C07_interpolation_jump.

Theorem C07_interpolation_last_uses_first_segment : forall (sp sd : list R),
  (2 <= length sp)%nat -> length sd = length sp -> (Z.of_nat (length sp) < 2 ^ 31)%Z -> increasing sp ->
  interpolate1d sp sd (Z.of_nat (length sp)) (at_ sp (length sp - 1))
  = Ok (line (at_ sp 0) (at_ sd 0) (at_ sp 1) (at_ sd 1) (at_ sp (length sp - 1))).
Proof. exact interp_last_full. Qed.
Print Assumptions C07_interpolation_last_uses_first_segment.

(** linear interpolation at the last node and linear extrapolation above: false *)
Theorem C07_interpolation_refuted :
  exists (sp sd : list R),
    (2 <= length sp)%nat /\ length sd = length sp /\ increasing sp /\
    interpolate1d sp sd (Z.of_nat (length sp)) (at_ sp (length sp - 1)) <> Ok (at_ sd (length sp - 1)) /\
    (exists q, at_ sp (length sp - 1) < q /\
       interpolate1d sp sd (Z.of_nat (length sp)) q
       <> Ok (line (at_ sp (length sp - 2)) (at_ sd (length sp - 2))
                   (at_ sp (length sp - 1)) (at_ sd (length sp - 1)) q)).
Proof. exact interp_refuted. Qed.
Print Assumptions C07_interpolation_refuted.

(** C08: for every arithmetic *)
Theorem C08_interpolation_memory_safe : forall (T : Type) (N : Num T) (sp sd : list T) (q : T),
  (2 <= length sp)%nat -> length sd = length sp -> (Z.of_nat (length sp) < 2 ^ 31)%Z ->
  exists r, interpolate1d sp sd (Z.of_nat (length sp)) q = Ok r.
Proof. exact (fun T N => @interpolate_safe T N). Qed.
Print Assumptions C08_interpolation_memory_safe.

Theorem C08_interpolation_short_table_ub : forall (T : Type) (N : Num T) (sp sd : list T) (q : T),
  (length sp <= 1)%nat -> (length sd <= 1)%nat ->
  interpolate1d sp sd (Z.of_nat (length sp)) q = UB OutOfBounds.
Proof. exact (fun T N => @interpolate_short T N). Qed.
Print Assumptions C08_interpolation_short_table_ub.

(** C09 *)
Theorem C09_nearest_bin : forall (sp : list R) (q : R),
  (1 <= length sp)%nat -> (Z.of_nat (length sp) < 2 ^ 31)%Z -> increasing sp ->
  exists i, (i < length sp)%nat /\ array_index sp (Z.of_nat (length sp)) q = Ok (Z.of_nat i) /\
    (forall j, (j < length sp)%nat -> Rabs (q - at_ sp i) <= Rabs (q - at_ sp j)) /\
    (forall j, (j < length sp)%nat -> Rabs (q - at_ sp i) = Rabs (q - at_ sp j) -> (j <= i)%nat).
Proof. exact nearest_bin. Qed.
Print Assumptions C09_nearest_bin.

Theorem C09_index_in_range : forall (T : Type) (N : Num T) (sp : list T) (q : T),
  (1 <= length sp)%nat -> (Z.of_nat (length sp) < 2 ^ 31)%Z ->
  exists i, array_index sp (Z.of_nat (length sp)) q = Ok i /\ (0 <= i < Z.of_nat (length sp))%Z.
Proof. exact (fun T N => @array_index_range T N). Qed.
Print Assumptions C09_index_in_range.

Theorem C09_index_empty_ub : forall (T : Type) (N : Num T) (q : T),
  array_index (@nil T) 0 q = UB OutOfBounds.
Proof. exact (fun T N => @array_index_empty T N). Qed.
Print Assumptions C09_index_empty_ub.

(** C10 *)
Theorem C10_closest_points : forall (sp : list R) (q : R),
  (2 <= length sp)%nat -> (Z.of_nat (length sp) < 2 ^ 31)%Z -> increasing sp ->
  (at_ sp (length sp - 2) < q -> closest_points sp (Z.of_nat (length sp)) q = Exit (-1)) /\
  (q <= at_ sp (length sp - 2) -> (3 <= length sp)%nat ->
     exists i f, closest_points sp (Z.of_nat (length sp)) q = Ok (Z.of_nat i, f) /\
       (S i <= length sp - 2)%nat /\
       q = at_ sp i + f * (at_ sp (S i) - at_ sp i) /\
       (at_ sp 0 < q -> 0 < f <= 1) /\ (q <= at_ sp 0 -> f <= 0 /\ i = 0%nat)) /\
  (q <= at_ sp (length sp - 2) -> length sp = 2%nat -> closest_points sp (Z.of_nat (length sp)) q = Exit (-1)).
Proof. exact closest_points_spec. Qed.
Print Assumptions C10_closest_points.

Theorem C10_closest_points_short_ub : forall (sp : list R) (q : R), (length sp <= 1)%nat ->
  closest_points sp (Z.of_nat (length sp)) q = UB OutOfBounds.
Proof. exact closest_short. Qed.
Print Assumptions C10_closest_points_short_ub.

(** C11 *)
Theorem C11_simpson_exact_for_cubics : forall (x0 h c0 c1 c2 c3 : R) (m : nat),
  (1 <= m)%nat -> (Z.of_nat (2 * m + 1) < 2 ^ 32)%Z ->
  simpson (grid x0 h (2 * m + 1)) (map (cubic c0 c1 c2 c3) (grid x0 h (2 * m + 1)))
  = Ok (cubic_primitive c0 c1 c2 c3 (x0 + INR (2 * m) * h) - cubic_primitive c0 c1 c2 c3 x0).
Proof. exact simpson_cubic. Qed.
Print Assumptions C11_simpson_exact_for_cubics.

(** with an even number of points one whole cell is lost, for every constant *)
Theorem C11_simpson_even_points : forall (x0 h c : R) (m : nat),
  (2 <= m)%nat -> (Z.of_nat (2 * m) < 2 ^ 32)%Z ->
  simpson (grid x0 h (2 * m)) (map (fun _ => c) (grid x0 h (2 * m)))
  = Ok (c * (INR (2 * m) - 1) * h - c * h).
Proof. exact simpson_even_const. Qed.
Print Assumptions C11_simpson_even_points.

Theorem C11_simpson_even_refuted : exists (x0 h c : R) (n : nat),
  (4 <= n)%nat /\ 0 < h /\
  simpson (grid x0 h n) (map (fun _ => c) (grid x0 h n)) <> Ok (c * (INR n - 1) * h).
Proof. exact simpson_even_refuted. Qed.
Print Assumptions C11_simpson_even_refuted.

Theorem C11_simpson_two_points : forall x0 h c : R,
  simpson (grid x0 h 2) (map (fun _ => c) (grid x0 h 2)) = Ok (2 / 3 * (c * h)).
Proof. exact simpson_two. Qed.
Print Assumptions C11_simpson_two_points.

Theorem C11_simpson_short_ub : forall (T : Type) (N : Num T) (axis f : list T),
  (length f <= 1)%nat -> simpson axis f = UB OutOfBounds.
Proof. exact (fun T N => @simpson_short T N). Qed.
Print Assumptions C11_simpson_short_ub.
