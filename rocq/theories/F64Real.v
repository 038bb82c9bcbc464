(** * binary64 values with a real value: what each operation gives, away from overflow *)
From Coq Require Import ZArith Reals Lra Lia Bool List.
From Coq Require Import Floats.SpecFloat.
From Flocq Require Import Core.Zaux Core.Raux Core.Defs Core.Generic_fmt Core.FLT Core.FLX Core.Round_NE Core.Ulp Core.Float_prop Plus_error Relative IEEE754.BinarySingleNaN.
From Verif Require Import Num F64Facts.
Local Open Scope R_scope.

(** [dbl x r]: [x] is a finite double and [r] is its value. *)
Definition dbl (x : spec_float) (r : R) : Prop := exists b : b64, toSF b = x /\ is_finite b = true /\ toR b = r.

Definition representable (r : R) : Prop := generic_format radix2 fexp64 r.

Lemma dbl_fmt x r : dbl x r -> representable r.
Proof. intros (b & _ & _ & <-). apply fmt. Qed.

Definition huge : R := bpow radix2 1023.

Lemma no_overflow x : Rabs x <= huge -> Rlt_bool (Rabs (rnd x)) (bpow radix2 1024) = true.
Proof.
  intros Hx. apply Rlt_bool_true. apply Rle_lt_trans with (bpow radix2 1023).
  - apply abs_round_le_generic; [apply fexp_correct; reflexivity|apply valid_rnd_N| |exact Hx].
    apply (generic_format_bpow radix2 fexp64 1023). cbv. discriminate.
  - apply bpow_lt. lia.
Qed.

Lemma dbl_add x y a b : dbl x a -> dbl y b -> Rabs (a + b) <= huge -> dbl (f64_add x y) (rnd (a + b)).
Proof.
  intros (bx & <- & Fx & <-) (by_ & <- & Fy & <-) H. exists (Bplus mode_NE bx by_).
  split; [symmetry; apply add_B|]. pose proof (Bplus_correct 53 1024 Hprec Hmax mode_NE bx by_ Fx Fy) as C. cbn [round_mode] in C.
  rewrite no_overflow in C by exact H. destruct C as (-> & -> & _). auto.
Qed.
Lemma dbl_sub x y a b : dbl x a -> dbl y b -> Rabs (a - b) <= huge -> dbl (f64_sub x y) (rnd (a - b)).
Proof.
  intros (bx & <- & Fx & <-) (by_ & <- & Fy & <-) H. exists (Bminus mode_NE bx by_).
  split; [symmetry; apply sub_B|]. pose proof (Bminus_correct 53 1024 Hprec Hmax mode_NE bx by_ Fx Fy) as C. cbn [round_mode] in C.
  rewrite no_overflow in C by exact H. destruct C as (-> & -> & _). auto.
Qed.
Lemma dbl_mul x y a b : dbl x a -> dbl y b -> Rabs (a * b) <= huge -> dbl (f64_mul x y) (rnd (a * b)).
Proof.
  intros (bx & <- & Fx & <-) (by_ & <- & Fy & <-) H. exists (Bmult mode_NE bx by_).
  split; [symmetry; apply mul_B|]. pose proof (Bmult_correct 53 1024 Hprec Hmax mode_NE bx by_) as C. cbn [round_mode] in C.
  rewrite no_overflow in C by exact H. destruct C as (-> & -> & _). rewrite Fx, Fy. auto.
Qed.
Lemma dbl_div x y a b : dbl x a -> dbl y b -> b <> 0 -> Rabs (a / b) <= huge -> dbl (f64_div x y) (rnd (a / b)).
Proof.
  intros (bx & <- & Fx & <-) (by_ & <- & Fy & <-) Hb H. exists (Bdiv mode_NE bx by_).
  split; [symmetry; apply div_B|]. pose proof (Bdiv_correct 53 1024 Hprec Hmax mode_NE bx by_ Hb) as C. cbn [round_mode] in C.
  rewrite no_overflow in C by exact H. destruct C as (-> & -> & _). rewrite Fx. auto.
Qed.

Lemma sqrt_B (x : b64) : f64_sqrt (toSF x) = toSF (Bsqrt mode_NE x).
Proof.
  unfold f64_sqrt, f64_prec, f64_emax. case x as [[|]|[|]| |[|] mx ex Bx]; try reflexivity.
  simpl. rewrite B2SF_SF2B. set (melz := SFsqrt_core_binary _ _ _ _). case melz as [[mz ez] lz]. apply round_aux_equiv.
Qed.
Lemma dbl_sqrt x a : dbl x a -> 0 <= a -> dbl (f64_sqrt x) (rnd (sqrt a)).
Proof.
  intros (bx & <- & Fx & <-) Ha. exists (Bsqrt mode_NE bx). split; [symmetry; apply sqrt_B|].
  destruct (Bsqrt_correct 53 1024 Hprec Hmax mode_NE bx) as (-> & FS & _). split; [|reflexivity].
  rewrite FS. destruct bx as [s|s| |s m e Hb]; try reflexivity; try discriminate. destruct s; [|reflexivity].
  exfalso. cbn in Ha. assert (F2R (beta := radix2) (Float radix2 (Zneg m) e) < 0) by (apply F2R_lt_0; reflexivity). cbn in H. lra.
Qed.

Lemma dbl_ltb x y a b : dbl x a -> dbl y b -> SFltb x y = Rltb a b.
Proof. intros (bx & <- & Fx & <-) (by_ & <- & Fy & <-). now apply ltb_B. Qed.

Lemma dbl_0 : dbl (f64_lit 0 0) 0.
Proof. exists (B754_zero false). repeat split. Qed.
Lemma dbl_1 : dbl (f64_lit 1 0) 1.
Proof. exists b1. split; [apply toSF_f64|]. split; [reflexivity|apply b1_R]. Qed.

Lemma rnd_rep x r : dbl x r -> rnd r = r.
Proof. intros D. apply rnd_id. eapply dbl_fmt; eauto. Qed.
Lemma rnd_bpow e : (-1074 <= e)%Z -> rnd (bpow radix2 e) = bpow radix2 e.
Proof. intros H. apply rnd_id. apply generic_format_bpow. unfold SpecFloat.fexp, SpecFloat.emin. lia. Qed.
Lemma rnd_1 : rnd 1 = 1.
Proof. apply rnd_id. apply fmt1. Qed.
Lemma rnd_nonneg x : 0 <= x -> 0 <= rnd x.
Proof. intros H. rewrite <- rnd_0. now apply rnd_le. Qed.
Lemma rnd_opp x : rnd (- x) = - rnd x.
Proof. apply round_NE_opp. Qed.
Lemma rnd_abs x : Rabs (rnd x) = rnd (Rabs x).
Proof. symmetry. apply round_NE_abs. apply fexp_correct. reflexivity. Qed.

(** the relative error of one rounding, above the subnormal range *)
Lemma rnd_rel x : bpow radix2 (-1022) <= Rabs x -> Rabs (rnd x - x) <= bpow radix2 (-53) * Rabs x.
Proof.
  intros H. eapply Rle_trans; [apply (relative_error_N_FLT radix2 (-1074) 53 eq_refl); exact H|].
  apply Rmult_le_compat_r; [apply Rabs_pos|].  
  change (- (53) + 1)%Z with (-53 + 1)%Z. replace (bpow radix2 (-53 + 1)) with (2 * bpow radix2 (-53)); [lra|]. rewrite bpow_plus. change (bpow radix2 1) with 2. ring.
Qed.
(** the absolute error of one rounding below it *)
Lemma rnd_abs_err x : Rabs x < bpow radix2 (-1022) -> Rabs (rnd x - x) <= bpow radix2 (-1075).
Proof.
  intros H. destruct (Req_dec x 0) as [->|N].
  - rewrite rnd_0, Rminus_0_r, Rabs_R0. apply bpow_ge_0.
  - eapply Rle_trans; [apply (error_le_half_ulp radix2 fexp64 (fun x => negb (Z.even x)) x)|].
    rewrite ulp_neq_0 by exact N. unfold cexp.
    assert (M : (mag radix2 x <= -1022)%Z) by (apply mag_le_bpow; [exact N|exact H]).
    replace (fexp64 (mag radix2 x)) with (-1074)%Z by (unfold SpecFloat.fexp, SpecFloat.emin; lia).
    change (-1074)%Z with (1 + -1075)%Z. rewrite bpow_plus. change (bpow radix2 1) with 2. lra.
Qed.

#[global] Instance vexp64 : Valid_exp fexp64.
Proof. apply fexp_correct. reflexivity. Qed.

(** ** Scaling a number below one *)
Lemma below_one u : representable u -> u < 1 -> u <= 1 - bpow radix2 (-53).
Proof.
  intros F H. pose proof (pred_ge_gt radix2 fexp64 u 1 F fmt1 H) as P.
  assert (E1 : pred radix2 fexp64 1 = 1 - bpow radix2 (-53)).
  { change 1 with (bpow radix2 0) at 1. rewrite pred_bpow. reflexivity. }
  rewrite E1 in P. exact P.
Qed.

Lemma scaled_below u h : representable u -> representable h -> 0 <= u < 1 -> bpow radix2 (-1022) < h -> rnd (u * h) < h.
Proof.
  intros Fu Fh [U0 U1] Hh. pose proof (bpow_gt_0 radix2 (-1022)) as B0. pose proof (below_one u Fu U1) as UB.
  assert (HP : pred radix2 fexp64 h < h) by (apply pred_lt_id; lra).
  apply Rle_lt_trans with (pred radix2 fexp64 h); [|exact HP].
  apply round_N_le_midp; [apply fexp_correct; reflexivity|apply generic_format_pred; [apply fexp_correct; reflexivity|exact Fh]|].
  rewrite (@succ_pred radix2 fexp64 vexp64 h Fh). rewrite pred_eq_pos by lra. unfold pred_pos.
  assert (HM : u * h <= h - bpow radix2 (-53) * h) by nra. eapply Rle_lt_trans; [exact HM|].
  assert (HN : h <> 0) by lra. destruct (mag radix2 h) as [e He]. cbn [mag_val]. specialize (He HN). rewrite Rabs_pos_eq in He by lra.
  assert (HE : (-1022 < e)%Z) by (apply (lt_bpow radix2); lra).
  case Req_bool_spec; intros HQ.
  - assert (-1022 < e - 1)%Z by (apply (lt_bpow radix2); lra).
    replace (fexp64 (e - 1)) with (e - 54)%Z by (unfold SpecFloat.fexp, SpecFloat.emin; lia).
    assert (bpow radix2 (-53) * h = bpow radix2 (e - 54)) by (rewrite HQ at 1; rewrite <- bpow_plus; f_equal; lia).
    pose proof (bpow_gt_0 radix2 (e - 54)). lra.
  - rewrite ulp_neq_0 by exact HN. unfold cexp. rewrite (mag_unique_pos radix2 h e He).
    replace (fexp64 e) with (e - 53)%Z by (unfold SpecFloat.fexp, SpecFloat.emin; lia).
    assert (bpow radix2 (-53) * bpow radix2 (e - 1) = / 2 * bpow radix2 (e - 53)).
    { change (/ 2) with (bpow radix2 (-1)). rewrite <- !bpow_plus. f_equal. lia. }
    assert (bpow radix2 (-53) * bpow radix2 (e - 1) < bpow radix2 (-53) * h) by (apply Rmult_lt_compat_l; [apply bpow_gt_0|lra]). lra.
Qed.

(** sums of two doubles never lose to underflow *)
Lemma rnd_plus_rel a b : representable a -> representable b -> Rabs (rnd (a + b) - (a + b)) <= bpow radix2 (-53) * Rabs (a + b).
Proof.
  intros Fa Fb. destruct (Rle_or_lt (bpow radix2 (-1022)) (Rabs (a + b))) as [L|L]; [now apply rnd_rel|].
  replace (rnd (a + b)) with (a + b); [rewrite Rminus_diag_eq by reflexivity; rewrite Rabs_R0; apply Rmult_le_pos; [apply bpow_ge_0|apply Rabs_pos]|].
  symmetry. apply rnd_id. apply (FLT_format_plus_small radix2 (-1074) 53 a b Fa Fb).
  apply Rlt_le. eapply Rlt_le_trans; [exact L|]. apply bpow_le. lia.
Qed.
