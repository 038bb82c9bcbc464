(** * binary64: the operations of the model are the correctly rounded ones of Flocq *)
From Coq Require Import ZArith Reals Lra Lia Bool.
From Coq Require Import Floats.SpecFloat.
From Flocq Require Import Core.Zaux Core.Raux Core.Defs Core.Generic_fmt Core.FLT Core.Round_NE Core.Ulp Core.Float_prop Calc.Round Plus_error IEEE754.BinarySingleNaN.
From Verif Require Import Num.
Local Open Scope R_scope.

#[global] Instance Hprec : FLX.Prec_gt_0 53 := eq_refl _.
#[global] Instance Hmax : Prec_lt_emax 53 1024 := eq_refl _.

Notation b64 := (binary_float 53 1024).
Notation toSF := (@B2SF 53 1024).
Notation toR := (@B2R 53 1024).

(** representable: what a [double] object can hold *)
Definition is_double (x : spec_float) : Prop := valid_binary 53 1024 x = true.
Definition f64 (x : spec_float) (H : is_double x) : b64 := SF2B x H.
Lemma toSF_f64 x H : toSF (f64 x H) = x.
Proof. apply B2SF_SF2B. Qed.

Lemma rne_equiv s m l : round_nearest_even m l = choice_mode mode_NE s m l.
Proof. case l; [reflexivity|intro c]. case c; [|reflexivity..]. simpl; unfold Round.cond_incr; now case Z.even. Qed.
Lemma round_aux_equiv sx mx ex lx :
  SpecFloat.binary_round_aux 53 1024 sx mx ex lx = BinarySingleNaN.binary_round_aux 53 1024 mode_NE sx mx ex lx.
Proof.
  unfold SpecFloat.binary_round_aux, BinarySingleNaN.binary_round_aux.
  set (mrse' := shr_fexp _ _ _ _ _). case mrse'; intros mrs' e'; simpl. now rewrite (rne_equiv sx).
Qed.
Lemma round_equiv s m e : SpecFloat.binary_round 53 1024 s m e = BinarySingleNaN.binary_round 53 1024 mode_NE s m e.
Proof.
  unfold SpecFloat.binary_round, BinarySingleNaN.binary_round, shl_align_fexp.
  set (mez := shl_align _ _ _); case mez as [mz ez]. apply round_aux_equiv.
Qed.
Lemma normalize_equiv m e sz :
  SpecFloat.binary_normalize 53 1024 m e sz = toSF (BinarySingleNaN.binary_normalize 53 1024 Hprec Hmax mode_NE m e sz).
Proof.
  case m as [|p|p]; [now simpl| |]; simpl; rewrite B2SF_SF2B; apply round_equiv.
Qed.

Lemma mul_B (x y : b64) : f64_mul (toSF x) (toSF y) = toSF (Bmult mode_NE x y).
Proof.
  unfold f64_mul, f64_prec, f64_emax.
  case x as [sx|sx| |sx mx ex Bx]; case y as [sy|sy| |sy my ey By]; [now trivial..|].
  simpl. rewrite B2SF_SF2B. apply round_aux_equiv.
Qed.
Lemma add_B (x y : b64) : f64_add (toSF x) (toSF y) = toSF (Bplus mode_NE x y).
Proof.
  unfold f64_add, f64_prec, f64_emax.
  case x as [sx|sx| |sx mx ex Bx]; case y as [sy|sy| |sy my ey By]; [now (trivial || simpl; case Bool.eqb)..|].
  apply normalize_equiv.
Qed.
Lemma sub_B (x y : b64) : f64_sub (toSF x) (toSF y) = toSF (Bminus mode_NE x y).
Proof.
  unfold f64_sub, f64_prec, f64_emax.
  case x as [sx|sx| |sx mx ex Bx]; case y as [sy|sy| |sy my ey By]; [now (trivial || simpl; case Bool.eqb)..|].
  simpl. unfold Zminus. rewrite <- cond_Zopp_negb. apply normalize_equiv.
Qed.
Lemma div_B (x y : b64) : f64_div (toSF x) (toSF y) = toSF (Bdiv mode_NE x y).
Proof.
  unfold f64_div, f64_prec, f64_emax.
  case x as [sx|sx| |sx mx ex Bx]; case y as [sy|sy| |sy my ey By]; [now (trivial || simpl; case Bool.eqb)..|].
  simpl. rewrite B2SF_SF2B. set (melz := SFdiv_core_binary _ _ _ _ _ _). case melz as [[mz ez] lz]. apply round_aux_equiv.
Qed.
Lemma ltb_B (x y : b64) : is_finite x = true -> is_finite y = true ->
  SFltb (toSF x) (toSF y) = Rltb (toR x) (toR y).
Proof.
  intros Hx Hy. unfold SFltb. change (SFcompare (toSF x) (toSF y)) with (Bcompare x y).
  rewrite (Bcompare_correct 53 1024 x y Hx Hy). unfold Rltb.
  destruct (Rcompare_spec (toR x) (toR y)); destruct (Rlt_dec (toR x) (toR y)); auto; lra.
Qed.

(** a negative finite number has no square root *)
Lemma sqrt_neg (x : b64) : is_finite x = true -> toR x < 0 -> f64_sqrt (toSF x) = S754_nan.
Proof.
  destruct x as [s|s| |s m e Hb]; cbn; intros HF HN; try discriminate; [lra|].
  destruct s; [reflexivity|]. exfalso.
  assert (0 < F2R (beta := Zaux.radix2) (Float Zaux.radix2 (Zpos m) e)) by (apply F2R_gt_0; reflexivity).
  cbn in HN. lra.
Qed.

Notation fexp64 := (SpecFloat.fexp 53 1024).
Notation rnd x := (round radix2 fexp64 ZnearestE x).
#[global] Instance vexp : Valid_exp fexp64 := fexp_correct 53 1024 Hprec.

Lemma fmt (x : b64) : generic_format radix2 fexp64 (toR x).
Proof. apply generic_format_B2R. Qed.
Lemma big1 x : Rabs x <= 2 -> Rlt_bool (Rabs (rnd x)) (bpow radix2 1024) = true.
Proof.
  intros Hx. apply Rlt_bool_true. apply Rle_lt_trans with 2.
  - apply abs_round_le_generic; [apply fexp_correct; reflexivity|apply valid_rnd_N| |exact Hx].
    apply (generic_format_bpow radix2 fexp64 1). cbv. discriminate.
  - change 2 with (bpow radix2 1). apply bpow_lt. lia.
Qed.
Lemma mulR (x y : b64) : is_finite x = true -> is_finite y = true -> Rabs (toR x * toR y) <= 2 ->
  is_finite (Bmult mode_NE x y) = true /\ toR (Bmult mode_NE x y) = rnd (toR x * toR y).
Proof.
  intros Hx Hy HB. pose proof (Bmult_correct 53 1024 Hprec Hmax mode_NE x y) as HC. cbv zeta in HC.
  cbn [round_mode] in HC. rewrite big1 in HC by auto. destruct HC as (-> & -> & _). rewrite Hx, Hy. auto.
Qed.
Lemma subR (x y : b64) : is_finite x = true -> is_finite y = true -> Rabs (toR x - toR y) <= 2 ->
  is_finite (Bminus mode_NE x y) = true /\ toR (Bminus mode_NE x y) = rnd (toR x - toR y).
Proof.
  intros Hx Hy HB. pose proof (Bminus_correct 53 1024 Hprec Hmax mode_NE x y Hx Hy) as HC. cbv zeta in HC.
  cbn [round_mode] in HC. rewrite big1 in HC by auto. destruct HC as (-> & -> & _). auto.
Qed.

Lemma rnd_le x y : x <= y -> rnd x <= rnd y.
Proof. apply round_le; [apply fexp_correct; reflexivity|apply valid_rnd_N]. Qed.
Lemma rnd_id x : generic_format radix2 fexp64 x -> rnd x = x.
Proof. apply round_generic. apply valid_rnd_N. Qed.
Lemma rnd_0 : rnd 0 = 0.
Proof. apply round_0. apply valid_rnd_N. Qed.

Lemma one_double : is_double (f64_lit 1 0).
Proof. reflexivity. Qed.
Definition b1 : b64 := f64 _ one_double.
Lemma b1_R : toR b1 = 1.
Proof. unfold b1, f64. rewrite B2R_SF2B. unfold f64_lit. vm_compute. lra. Qed.
Lemma fmt1 : generic_format radix2 fexp64 1.
Proof. rewrite <- b1_R. apply fmt. Qed.

(** [sqrt(x*x - 1)] of a double in [0,1) is NaN *)
Lemma below_rest_energy (x : b64) : is_finite x = true -> 0 <= toR x < 1 ->
  f64_sqrt (f64_sub (f64_mul (toSF x) (toSF x)) (f64_lit 1 0)) = S754_nan.
Proof.
  intros HF HX. rewrite mul_B. change (f64_lit 1 0) with (toSF b1). rewrite sub_B.
  destruct (mulR x x HF HF) as [M1 M2]; [rewrite Rabs_pos_eq; nra|].
  set (m := Bmult mode_NE x x) in *.
  assert (Hm : 0 <= toR m < 1).
  { rewrite M2. split.
    - pose proof (rnd_le 0 (toR x * toR x) ltac:(nra)) as HQ; rewrite rnd_0 in HQ; exact HQ.
    - apply Rle_lt_trans with (toR x); [|lra]. rewrite <- (rnd_id (toR x)) at 3 by apply fmt. apply rnd_le. nra. }
  destruct (subR m b1 M1 eq_refl) as [S1 S2]; [rewrite b1_R; apply Rabs_le; lra|].
  apply sqrt_neg; [auto|]. rewrite S2, b1_R.
  assert (HN : rnd (toR m + Ropp 1) <> 0).
  { apply round_plus_neq_0; try apply fmt; try apply valid_rnd_N.
    - apply fexp_correct; reflexivity.
    - apply (@monotone_exp_not_FTZ fexp64 vexp). exact (FLT_exp_monotone (3 - 1024 - 53) 53).
    - apply generic_format_opp, fmt1.
    - lra. }
  assert (rnd (toR m - 1) <= 0) by (pose proof (rnd_le (toR m - 1) 0 ltac:(lra)) as HQ; rewrite rnd_0 in HQ; exact HQ).
  unfold Rminus in *. lra.
Qed.

Lemma below_two (x : b64) : toR x < 2 -> toR x <= 2 - bpow radix2 (-52).
Proof.
  intros HX. replace (2 - bpow radix2 (-52)) with (pred radix2 fexp64 2).
  - apply pred_ge_gt; [apply fexp_correct; reflexivity|apply fmt| |exact HX].
    apply (generic_format_bpow radix2 fexp64 1). cbv. discriminate.
  - change 2 with (bpow radix2 1) at 1. rewrite pred_bpow. reflexivity.
Qed.

(** half of a double below 2 (or less) rounds to below 1 *)
Lemma half_below_one (s e : b64) : is_finite s = true -> is_finite e = true ->
  0 <= toR s <= 1 / 2 -> 0 <= toR e < 2 ->
  is_finite (Bmult mode_NE s e) = true /\ 0 <= toR (Bmult mode_NE s e) < 1.
Proof.
  intros Fs Fe Hs He. destruct (mulR s e Fs Fe) as [M1 M2]; [rewrite Rabs_pos_eq; nra|].
  split; [auto|]. rewrite M2. split.
  - pose proof (rnd_le 0 (toR s * toR e) ltac:(nra)) as HQ; rewrite rnd_0 in HQ; exact HQ.
  - pose proof (below_two e ltac:(lra)) as HB.
    assert (Hp : 0 < bpow radix2 (-52)) by apply bpow_gt_0.
    assert (Hq : bpow radix2 (-53) = bpow radix2 (-52) / 2) by (change (-53)%Z with (-52 + -1)%Z; rewrite bpow_plus; cbn; lra).
    assert (HF : generic_format radix2 fexp64 (1 - bpow radix2 (-53))).
    { replace (1 - bpow radix2 (-53)) with (pred radix2 fexp64 1).
      - apply generic_format_pred; [apply fexp_correct; reflexivity|apply fmt1].
      - change 1 with (bpow radix2 0) at 1. rewrite pred_bpow. reflexivity. }
    apply Rle_lt_trans with (1 - bpow radix2 (-53)); [|lra].
    rewrite <- (rnd_id _ HF). apply rnd_le. rewrite Hq. nra.
Qed.

(** one member of every pair made from a photon of energy below 2 gets less than its rest energy *)
Lemma pair_threshold (s e : b64) : is_finite s = true -> is_finite e = true ->
  0 <= toR s <= 1 -> 0 <= toR e < 2 ->
  (is_finite (Bmult mode_NE s e) = true /\ 0 <= toR (Bmult mode_NE s e) < 1) \/
  (is_finite (Bmult mode_NE (Bminus mode_NE b1 s) e) = true /\ 0 <= toR (Bmult mode_NE (Bminus mode_NE b1 s) e) < 1).
Proof.
  intros Fs Fe Hs He. destruct (Rle_lt_dec (toR s) (1 / 2)).
  - left. apply half_below_one; auto; lra.
  - right. destruct (subR b1 s eq_refl Fs) as [S1 S2]; [rewrite b1_R; apply Rabs_le; lra|].
    apply half_below_one; auto. rewrite S2, b1_R. split.
    + pose proof (rnd_le 0 (1 - toR s) ltac:(lra)) as HQ; rewrite rnd_0 in HQ; exact HQ.
    + assert (HF : generic_format radix2 fexp64 (1 / 2)).
      { replace (1 / 2) with (bpow radix2 (-1)) by (cbn; lra). apply generic_format_bpow. cbv. discriminate. }
      rewrite <- (rnd_id _ HF). apply rnd_le. lra.
Qed.

(** NaN is absorbing *)
Lemma nan_mul_l x : f64_mul S754_nan x = S754_nan.
Proof. reflexivity. Qed.
