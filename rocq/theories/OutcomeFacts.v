(** * Lemmas about array reads and wrap-around *)
From Coq Require Import ZArith List Lia.
From Verif Require Import Outcome.
Import ListNotations.
Local Open Scope Z_scope.

Lemma get_nat {A} (l : list A) (k : nat) d : (k < length l)%nat ->
  get l (Z.of_nat k) = Ok (nth k l d).
Proof.
  intros H. unfold get.
  destruct (Z.of_nat k <? 0) eqn:E1; [apply Z.ltb_lt in E1; lia|].
  destruct (Z.of_nat (length l) <=? Z.of_nat k) eqn:E2; [apply Z.leb_le in E2; lia|].
  cbn. rewrite Nat2Z.id, (nth_error_nth' l d H). reflexivity.
Qed.

Lemma get_Z {A} (l : list A) (i : Z) d : 0 <= i < Z.of_nat (length l) ->
  get l i = Ok (nth (Z.to_nat i) l d).
Proof.
  intros H. rewrite <- (Z2Nat.id i) at 1 by lia. apply get_nat. lia.
Qed.

Lemma get_oob {A} (l : list A) (i : Z) : i < 0 \/ Z.of_nat (length l) <= i ->
  get l i = UB OutOfBounds.
Proof.
  intros H. unfold get.
  destruct (i <? 0) eqn:E1; cbn; [reflexivity|].
  destruct (Z.of_nat (length l) <=? i) eqn:E2; cbn; [reflexivity|].
  apply Z.ltb_ge in E1. apply Z.leb_gt in E2. lia.
Qed.

Lemma get_cases {A} (l : list A) (i : Z) :
  (exists a, get l i = Ok a /\ 0 <= i < Z.of_nat (length l)) \/
  (get l i = UB OutOfBounds /\ (i < 0 \/ Z.of_nat (length l) <= i)).
Proof.
  destruct (Z_lt_le_dec i 0); [right; split; [apply get_oob|]; lia|].
  destruct (Z_lt_le_dec i (Z.of_nat (length l))); [|right; split; [apply get_oob|]; lia].
  left. destruct l as [|d l]; [cbn in *; lia|].
  eexists; split; [apply (get_Z _ _ d)|]; lia.
Qed.

Lemma u32_id z : 0 <= z < 2 ^ 32 -> u32 z = z.
Proof. intros. apply Z.mod_small; auto. Qed.
Lemma u64_id z : 0 <= z < 2 ^ 64 -> u64 z = z.
Proof. intros. apply Z.mod_small; auto. Qed.
Lemma s32_id z : 0 <= z < 2 ^ 31 -> s32 z = z.
Proof.
  intros. unfold s32. rewrite Z.mod_small by lia.
  destruct (z <? 2 ^ 31) eqn:E; [reflexivity|]. apply Z.ltb_ge in E. lia.
Qed.

Lemma bind_ok {A B} (x : res A) (f : A -> res B) b :
  bind x f = Ok b -> exists a, x = Ok a /\ f a = Ok b.
Proof. destruct x; cbn; intros; try discriminate. eauto. Qed.

Lemma length_upd {A} (l : list A) i a : length (upd l i a) = length l.
Proof. revert i; induction l; destruct i; cbn; auto. Qed.

Lemma nth_error_upd_same {A} (l : list A) i a : (i < length l)%nat -> nth_error (upd l i a) i = Some a.
Proof. revert i; induction l; destruct i; cbn; intros; try lia; auto. apply IHl; lia. Qed.

Lemma nth_error_upd_other {A} (l : list A) i j a : i <> j -> nth_error (upd l i a) j = nth_error l j.
Proof.
  revert i j; induction l; destruct i, j; cbn; intros; try lia; auto.
Qed.

Lemma nth_upd_same {A} (l : list A) i a d : (i < length l)%nat -> nth i (upd l i a) d = a.
Proof. revert i; induction l; destruct i; cbn; intros; try lia; auto. apply IHl; lia. Qed.
Lemma nth_upd_other {A} (l : list A) i j a d : i <> j -> nth j (upd l i a) d = nth j l d.
Proof. revert i j; induction l; destruct i, j; cbn; intros; try lia; auto. Qed.
