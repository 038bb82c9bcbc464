(** * Lemmas behind the numerics properties: examples and refutations *)
From Coq Require Import ZArith Reals Lra Psatz List Lia.
From Verif Require Import Num RNum Outcome OutcomeFacts Numerics SpecTable NumericsFacts SimpsonFacts.
Import ListNotations.
Local Open Scope R_scope.

(** table 0,1,2 with squares 0,1,4 *)
Definition tab_x : list R := [0; 1; 2].
Definition tab_y : list R := [0; 1; 4].

Lemma tab_x_increasing : increasing tab_x.
Proof.
  intros i j H. unfold at_, tab_x in *. cbn [length] in H.
  destruct i as [|[|[|]]], j as [|[|[|]]]; cbn [nth]; try lia; lra.
Qed.

Lemma interp_below_full (sp sd : list R) (q : R) :
  (2 <= length sp)%nat -> length sd = length sp -> (Z.of_nat (length sp) < 2 ^ 31)%Z ->
  q < at_ sp 0 ->
  interpolate1d sp sd (Z.of_nat (length sp)) q
  = Ok (line (at_ sp 0) (at_ sd 0) (at_ sp 1) (at_ sd 1) q).
Proof. intros; apply interp_below; auto. Qed.

Lemma interp_above_full (sp sd : list R) (q : R) :
  (2 <= length sp)%nat -> length sd = length sp -> (Z.of_nat (length sp) < 2 ^ 31)%Z -> increasing sp ->
  at_ sp (length sp - 1) < q ->
  interpolate1d sp sd (Z.of_nat (length sp)) q
  = Ok (line (at_ sp (length sp - 2)) (at_ sd (length sp - 2)) (at_ sp (length sp - 1)) (at_ sd (length sp - 1)) q
        + (at_ sd (length sp - 1) - at_ sd (length sp - 2))).
Proof.
  intros N2 NL NB INC H. rewrite interp_above by auto. unfold segment.
  replace (S (length sp - 2)) with (length sp - 1)%nat by lia. reflexivity.
Qed.

Lemma interp_last_full (sp sd : list R) :
  (2 <= length sp)%nat -> length sd = length sp -> (Z.of_nat (length sp) < 2 ^ 31)%Z -> increasing sp ->
  interpolate1d sp sd (Z.of_nat (length sp)) (at_ sp (length sp - 1))
  = Ok (line (at_ sp 0) (at_ sd 0) (at_ sp 1) (at_ sd 1) (at_ sp (length sp - 1))).
Proof. intros; apply interp_last; auto. Qed.

Lemma interp_refuted :
  exists (sp sd : list R),
    (2 <= length sp)%nat /\ length sd = length sp /\ increasing sp /\
    interpolate1d sp sd (Z.of_nat (length sp)) (at_ sp (length sp - 1)) <> Ok (at_ sd (length sp - 1)) /\
    (exists q, at_ sp (length sp - 1) < q /\
       interpolate1d sp sd (Z.of_nat (length sp)) q
       <> Ok (line (at_ sp (length sp - 2)) (at_ sd (length sp - 2))
                   (at_ sp (length sp - 1)) (at_ sd (length sp - 1)) q)).
Proof.
  exists tab_x, tab_y. pose proof tab_x_increasing as I.
  split; [cbn; lia|]. split; [reflexivity|]. split; [exact I|]. split.
  - rewrite interp_last_full; auto; cbn; try lia. unfold line, at_; cbn. intros E. injection E. intros. lra.
  - exists 3. split; [cbn; lra|].
    rewrite interp_above_full; auto; cbn; try lia; try lra. unfold line, at_; cbn. intros E. injection E. intros. lra.
Qed.

(** the jump at the upper end: the limit from above is not the last value *)
Lemma interp_jump (sp sd : list R) (e : R) :
  (2 <= length sp)%nat -> length sd = length sp -> (Z.of_nat (length sp) < 2 ^ 31)%Z -> increasing sp ->
  0 < e ->
  exists r, interpolate1d sp sd (Z.of_nat (length sp)) (at_ sp (length sp - 1) + e) = Ok r /\
    r - at_ sd (length sp - 1) =
      (at_ sd (length sp - 1) - at_ sd (length sp - 2))
      * (1 + e / (at_ sp (length sp - 1) - at_ sp (length sp - 2))).
Proof.
  intros N2 NL NB INC He. eexists. split; [apply interp_above_full; auto; lra|].
  pose proof (INC (length sp - 2)%nat (length sp - 1)%nat ltac:(lia)).
  unfold line. field. lra.
Qed.

Lemma closest_short (sp : list R) (q : R) : (length sp <= 1)%nat ->
  closest_points sp (Z.of_nat (length sp)) q = UB OutOfBounds.
Proof.
  intros H. destruct sp as [|s0 [|]]; cbn in H; try lia.
  - reflexivity.
  - unfold closest_points. cbn [length]. change (Z.of_nat 1) with 1%Z. change (Z.to_nat 1) with 1%nat.
    cbn [last_below]. rewrite (get_Z [s0] 0 0) by (cbn; lia). cbn [bind Z.to_nat nth].
    destruct (nltb s0 q); cbn [bind]; change (0 <? u32 (1 - 2))%Z with true; cbn iota;
      rewrite (get_Z [s0] 0 0) by (cbn; lia); cbn [bind]; rewrite (get_oob [s0] (0 + 1)) by (cbn; lia); reflexivity.
Qed.

Lemma simpson_even_refuted : exists (x0 h c : R) (n : nat),
  (4 <= n)%nat /\ 0 < h /\
  simpson (grid x0 h n) (map (fun _ => c) (grid x0 h n)) <> Ok (c * (INR n - 1) * h).
Proof.
  exists 0, 1, 1, 4%nat. split; [lia|]. split; [lra|].
  change 4%nat with (2 * 2)%nat. rewrite (simpson_even_const 0 1 1 2) by (cbn; lia).
  intros E. injection E. intros. cbn [Nat.mul Nat.add INR] in *. lra.
Qed.
