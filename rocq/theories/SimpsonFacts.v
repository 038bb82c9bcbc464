(** * SimpsonsRule: proofs (exact reals) *)
From Coq Require Import ZArith Reals Lra Psatz List Lia.
From Verif Require Import Num RNum Outcome OutcomeFacts Numerics SpecTable NumericsFacts.
Import ListNotations.
Local Open Scope R_scope.

Lemma rsum_ext f g n : (forall i, (i < n)%nat -> f i = g i) -> rsum f n = rsum g n.
Proof. induction n; cbn; intros; auto. rewrite IHn, H by (intros; auto; lia). reflexivity. Qed.
Lemma rsum_const c n : rsum (fun _ => c) n = INR n * c.
Proof. induction n; [cbn; lra|]. rewrite S_INR. cbn [rsum]. rewrite IHn. ring. Qed.
Lemma rsum_plus f g n : rsum (fun i => f i + g i) n = rsum f n + rsum g n.
Proof. induction n; cbn; [lra|]. rewrite IHn. ring. Qed.
Lemma rsum_scale c f n : rsum (fun i => c * f i) n = c * rsum f n.
Proof. induction n; cbn; [lra|]. rewrite IHn. ring. Qed.
Lemma rsum_shift f n : rsum f (S n) = f 0%nat + rsum (fun i => f (S i)) n.
Proof. induction n; [cbn; lra|]. cbn [rsum] in *. rewrite IHn. ring. Qed.
Lemma rsum_tele F n : rsum (fun i => F (S i) - F i) n = F n - F 0%nat.
Proof. induction n; cbn; [lra|]. rewrite IHn. ring. Qed.

Lemma sum_step2_spec (k : nat) : forall fuel w f (i : nat) bound acc,
  (k <= fuel)%nat ->
  ((k = 0%nat /\ (bound <= Z.of_nat i)%Z) \/
   ((1 <= k)%nat /\ (Z.of_nat i + 2 * Z.of_nat k - 2 < bound <= Z.of_nat i + 2 * Z.of_nat k)%Z
    /\ (i + 2 * k - 2 < length f)%nat)) ->
  sum_step2 fuel w f (Z.of_nat i) bound acc = Ok (acc + w * rsum (fun j => at_ f (i + 2 * j)) k).
Proof.
  induction k as [|k IH]; intros fuel w f i bound acc Hf Hc.
  - destruct fuel; cbn [sum_step2]; (destruct (Z.ltb_spec (Z.of_nat i) bound); [lia|]); cbn [rsum]; f_equal; ring.
  - destruct fuel as [|fuel]; [lia|]. cbn [sum_step2].
    destruct (Z.ltb_spec (Z.of_nat i) bound); [|lia].
    rewrite get_at by lia. cbn [bind].
    replace (Z.of_nat i + 2)%Z with (Z.of_nat (i + 2)) by lia.
    rewrite (IH fuel w f (i + 2)%nat); [|lia|].
    + f_equal. rnum. rewrite rsum_shift.
      replace (i + 2 * 0)%nat with i by lia.
      rewrite (rsum_ext (fun i0 => at_ f (i + 2 * S i0)) (fun j => at_ f (i + 2 + 2 * j))).
      2: { intros; f_equal; lia. }
      ring.
    + destruct k; [left; lia | right; lia].
Qed.

(** the value of the composite sum *)
Lemma simpson_odd (axis f : list R) (m : nat) :
  (1 <= m)%nat -> length f = (2 * m + 1)%nat -> length axis = (2 * m + 1)%nat ->
  (Z.of_nat (length f) < 2 ^ 32)%Z ->
  simpson axis f = Ok ((at_ axis (2 * m) - at_ axis 0) / INR (2 * m) / 3 *
     rsum (fun j => at_ f (2 * j) + 4 * at_ f (2 * j + 1) + at_ f (2 * j + 2)) m).
Proof.
  intros Hm Hf Ha HB. unfold simpson. cbv zeta. rewrite Hf, Ha.
  replace (Z.of_nat (2 * m + 1) - 1)%Z with (Z.of_nat (2 * m)) by lia.
  rewrite !u64_id by lia.
  rewrite get_at by lia. change 0%Z with (Z.of_nat 0). rewrite !get_at by lia. cbn [bind].
  change 1%Z with (Z.of_nat 1).
  rewrite (sum_step2_spec m); [|lia|right; lia]. cbn [bind].
  change 2%Z with (Z.of_nat 2).
  rewrite (sum_step2_spec (m - 1)); [|lia|]. 2: { destruct (Nat.eq_dec m 1); [left; lia|right; lia]. }
  cbn [bind]. rewrite ?get_at by lia. cbn [bind]. f_equal. rnum.
  replace (IZR (Z.of_nat (2 * m + 1)) - 1) with (INR (2 * m)).
  2: { rewrite <- INR_IZR_INZ, plus_INR. cbn [INR]. lra. }
  (* regroup the sum panel by panel *)
  assert (S2 : rsum (fun j => at_ f (2 * j) + 4 * at_ f (2 * j + 1) + at_ f (2 * j + 2)) m
     = at_ f 0 + 4 * rsum (fun j => at_ f (1 + 2 * j)) m + 2 * rsum (fun j => at_ f (2 + 2 * j)) (m - 1) + at_ f (2 * m)).
  { rewrite (rsum_ext _ (fun j => (at_ f (2 * j) + at_ f (2 * j + 2)) + 4 * at_ f (1 + 2 * j))).
    2: { intros. replace (1 + 2 * i)%nat with (2 * i + 1)%nat by lia. ring. }
    rewrite rsum_plus, rsum_scale, rsum_plus.
    destruct m as [|m']; [lia|]. replace (S m' - 1)%nat with m' by lia.
    rewrite (rsum_shift (fun j => at_ f (2 * j))). cbn [rsum].
    rewrite (rsum_ext (fun i => at_ f (2 * S i)) (fun j => at_ f (2 + 2 * j))) by (intros; f_equal; lia).
    rewrite (rsum_ext (fun i => at_ f (2 * i + 2)) (fun j => at_ f (2 + 2 * j))) by (intros; f_equal; lia).
    replace (2 * m' + 2)%nat with (2 * S m')%nat by lia. rewrite Nat.mul_0_r. ring. }
  rewrite S2. assert (INR (2 * m) <> 0) by (apply not_0_INR; lia). field. lra.
Qed.

Lemma nth_grid x0 h n i : (i < n)%nat -> at_ (grid x0 h n) i = x0 + INR i * h.
Proof.
  intros. unfold at_, grid.
  rewrite (nth_indep _ 0 (x0 + INR 0 * h)) by (rewrite map_length, seq_length; auto).
  rewrite (map_nth (fun i => x0 + INR i * h) (seq 0 n) 0%nat i), seq_nth by auto. reflexivity.
Qed.
Lemma grid_length x0 h n : length (grid x0 h n) = n.
Proof. unfold grid. rewrite map_length, seq_length. reflexivity. Qed.

Lemma at_map (g : R -> R) l i : (i < length l)%nat -> at_ (map g l) i = g (at_ l i).
Proof.
  intros. unfold at_. rewrite (nth_indep _ 0 (g 0)) by (rewrite map_length; auto). apply map_nth.
Qed.

Lemma simpson_cubic (x0 h c0 c1 c2 c3 : R) (m : nat) :
  (1 <= m)%nat -> (Z.of_nat (2 * m + 1) < 2 ^ 32)%Z ->
  simpson (grid x0 h (2 * m + 1)) (map (cubic c0 c1 c2 c3) (grid x0 h (2 * m + 1)))
  = Ok (cubic_primitive c0 c1 c2 c3 (x0 + INR (2 * m) * h) - cubic_primitive c0 c1 c2 c3 x0).
Proof.
  intros Hm HB. set (g := grid x0 h (2 * m + 1)).
  assert (Lg : length g = (2 * m + 1)%nat) by apply grid_length.
  rewrite (simpson_odd _ _ m); rewrite ?map_length, ?Lg; auto. f_equal.
  unfold g at 1 2. rewrite !nth_grid by lia. cbn [INR]. rewrite Rmult_0_l, Rplus_0_r.
  assert (HN : INR (2 * m) <> 0) by (apply not_0_INR; lia).
  replace ((x0 + INR (2 * m) * h - x0) / INR (2 * m) / 3) with (h / 3) by (field; lra).
  set (F := fun j => cubic_primitive c0 c1 c2 c3 (x0 + INR (2 * j) * h)).
  rewrite <- rsum_scale.
  rewrite (rsum_ext _ (fun j => F (S j) - F j)).
  - rewrite rsum_tele. unfold F. replace (2 * 0)%nat with 0%nat by lia.
    cbn [INR]. rewrite Rmult_0_l, Rplus_0_r. reflexivity.
  - intros i Hi. rewrite !at_map by lia. unfold g. rewrite !nth_grid by lia.
    unfold F. replace (2 * S i)%nat with (2 * i + 2)%nat by lia.
    rewrite !plus_INR, !mult_INR. cbn [INR]. unfold cubic, cubic_primitive. field.
Qed.

(** even number of points: one step is missing *)
Lemma simpson_even_const (x0 h c : R) (m : nat) :
  (2 <= m)%nat -> (Z.of_nat (2 * m) < 2 ^ 32)%Z ->
  simpson (grid x0 h (2 * m)) (map (fun _ => c) (grid x0 h (2 * m)))
  = Ok (c * (INR (2 * m) - 1) * h - c * h).
Proof.
  intros Hm HB. set (g := grid x0 h (2 * m)).
  assert (Lg : length g = (2 * m)%nat) by apply grid_length.
  unfold simpson. cbv zeta. rewrite map_length, Lg.
  rewrite !u64_id by lia.
  replace (Z.of_nat (2 * m) - 1)%Z with (Z.of_nat (2 * m - 1)) by lia.
  replace (Z.of_nat (2 * m) - 2)%Z with (Z.of_nat (2 * m - 2)) by lia.
  rewrite get_at by lia. change 0%Z with (Z.of_nat 0). rewrite get_at by lia. cbn [bind].
  rewrite get_at by (rewrite map_length; lia). cbn [bind].
  change 1%Z with (Z.of_nat 1).
  rewrite (sum_step2_spec (m - 1)); [|lia|rewrite map_length; right; lia]. cbn [bind].
  change 2%Z with (Z.of_nat 2).
  rewrite (sum_step2_spec (m - 2)); [|lia|].
  2: { rewrite map_length. destruct (Nat.eq_dec m 2); [left; lia|right; lia]. }
  cbn [bind]. rewrite get_at by (rewrite map_length; lia). cbn [bind]. f_equal. rnum.
  rewrite !at_map by lia.
  rewrite (rsum_ext _ (fun _ => c)) by (intros; rewrite at_map by lia; reflexivity).
  rewrite (rsum_ext (fun j => at_ (map (fun _ : R => c) g) (2 + 2 * j)) (fun _ => c)) by (intros; rewrite at_map by lia; reflexivity).
  rewrite !rsum_const. unfold g. rewrite !nth_grid by lia.
  rewrite <- !INR_IZR_INZ. rewrite !minus_INR by lia. rewrite !mult_INR. cbn [INR].
  assert (2 <= INR m) by (apply (le_INR 2); auto).
  field. lra.
Qed.

Lemma simpson_two (x0 h c : R) :
  simpson (grid x0 h 2) (map (fun _ => c) (grid x0 h 2)) = Ok (2 / 3 * (c * h)).
Proof.
  unfold grid. cbn [map seq]. unfold simpson. cbn [length]. cbv zeta.
  change (u64 (Z.of_nat 2 - 1)) with 1%Z. change (u64 (Z.of_nat 2 - 2)) with 0%Z.
  change (Z.of_nat 2 - 1)%Z with 1%Z. change (Z.of_nat 2) with 2%Z.
  rewrite !(get_Z _ 0 0), !(get_Z _ 1 0) by (cbn; lia). 
  cbn [bind sum_step2 nth Z.to_nat]. change (1 <? 1)%Z with false. change (2 <? 0)%Z with false.
  cbn [bind]. change (Pos.to_nat 1) with 1%nat. cbn [nth]. f_equal. rnum. cbn [INR]. field.
Qed.
