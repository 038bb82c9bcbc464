(** * Working lemmas for the exact-real instance *)
From Coq Require Import ZArith Reals Lra Bool.
From Verif Require Import Num.
Local Open Scope R_scope.

Lemma Rltb_true x y : Rltb x y = true <-> x < y.
Proof. unfold Rltb. destruct (Rlt_dec x y); split; intros; try easy. Qed.
Lemma Rltb_false x y : Rltb x y = false <-> y <= x.
Proof. unfold Rltb. destruct (Rlt_dec x y); split; intros; try easy; try lra. Qed.
Lemma Rleb_true x y : Rleb x y = true <-> x <= y.
Proof. unfold Rleb. destruct (Rle_dec x y); split; intros; try easy. Qed.
Lemma Rleb_false x y : Rleb x y = false <-> y < x.
Proof. unfold Rleb. destruct (Rle_dec x y); split; intros; try easy; try lra. Qed.
Lemma Reqb_true x y : Reqb x y = true <-> x = y.
Proof. unfold Reqb. destruct (Req_EM_T x y); split; intros; try easy. Qed.
Lemma Reqb_false x y : Reqb x y = false <-> x <> y.
Proof. unfold Reqb. destruct (Req_EM_T x y); split; intros; try easy. Qed.

Lemma Rlit_0 m : Rlit m 0 = IZR m.
Proof. unfold Rlit. simpl. lra. Qed.

Lemma pow_IZR_pos p : 10 ^ Pos.to_nat p = IZR (Z.pow_pos 10 p).
Proof.
  rewrite Zpower_pos_powerRZ. reflexivity.
Qed.

Lemma Rlit_pos m p : Rlit m (Zpos p) = IZR (m * Z.pow_pos 10 p).
Proof. unfold Rlit. simpl. rewrite mult_IZR, pow_IZR_pos. reflexivity. Qed.
Lemma Rlit_neg m p : Rlit m (Zneg p) = IZR m / IZR (Z.pow_pos 10 p).
Proof. unfold Rlit. simpl. rewrite pow_IZR_pos. reflexivity. Qed.

Lemma n0_R : (n0 : R) = 0. Proof. unfold n0; cbn [nlit Num_R]; apply Rlit_0. Qed.
Lemma n1_R : (n1 : R) = 1. Proof. unfold n1; cbn [nlit Num_R]; apply Rlit_0. Qed.
Lemma n2_R : (n2 : R) = 2. Proof. unfold n2; cbn [nlit Num_R]; apply Rlit_0. Qed.
Lemma nZ_R z : (nZ z : R) = IZR z. Proof. unfold nZ; cbn [nlit Num_R]; apply Rlit_0. Qed.
Lemma nlit_R m e : (nlit m e : R) = Rlit m e. Proof. reflexivity. Qed.

Ltac ev_pow :=
  repeat match goal with
  | |- context [Z.pow_pos 10 ?p] =>
      let v := eval compute in (Z.pow_pos 10 p) in change (Z.pow_pos 10 p) with v
  | H : context [Z.pow_pos 10 ?p] |- _ =>
      let v := eval compute in (Z.pow_pos 10 p) in change (Z.pow_pos 10 p) with v in H
  end;
  repeat match goal with
  | |- context [IZR (?a * ?b)%Z] =>
      let v := eval compute in (a * b)%Z in change (a * b)%Z with v
  | H : context [IZR (?a * ?b)%Z] |- _ =>
      let v := eval compute in (a * b)%Z in change (a * b)%Z with v in H
  end.

(** Turn the operations of the structure into the operations on [R]. *)
Ltac rnum :=
  cbn [nadd nsub nmul ndiv nneg nsqrt nexp nlog nlog10 npow nsin ncos natan nltb nleb neqb Num_R] in *;
  rewrite ?n0_R, ?n1_R, ?n2_R, ?nZ_R, ?nlit_R, ?Rlit_0 in *.
Ltac rlit := rewrite ?nlit_R, ?Rlit_0, ?Rlit_pos, ?Rlit_neg in *; ev_pow.

Ltac rdestr :=
  repeat match goal with
  | H : Rltb _ _ = true |- _ => apply Rltb_true in H
  | H : Rltb _ _ = false |- _ => apply Rltb_false in H
  | H : Rleb _ _ = true |- _ => apply Rleb_true in H
  | H : Rleb _ _ = false |- _ => apply Rleb_false in H
  | H : Reqb _ _ = true |- _ => apply Reqb_true in H
  | H : Reqb _ _ = false |- _ => apply Reqb_false in H
  end.
