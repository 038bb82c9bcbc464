(** * Interpolation in a table in double precision: proofs *)
From Coq Require Import ZArith Reals Lra Lia Bool List Psatz.
From Coq Require Import Floats.SpecFloat.
From Flocq Require Import Core.Zaux Core.Raux Core.Defs Core.Generic_fmt Core.Round_NE IEEE754.BinarySingleNaN.
From Verif Require Import Num RNum Outcome OutcomeFacts F64Facts F64Real F64Draw F64Kin Numerics SpecTable NumericsFacts F64Hist.
Import ListNotations.
Local Open Scope R_scope.

(** the value the code computes between two entries *)
Definition finterp (xl dl xh dh q : R) : R := rnd (dl + rnd (rnd (rnd (q - xl) * rnd (dh - dl)) / rnd (xh - xl))).

Lemma ratio_rel a w A W e : 0 < e < 1 / 1000000 -> 0 <= a <= w -> 0 < w ->
  (1 - e) * a <= A <= (1 + e) * a -> (1 - e) * w <= W <= (1 + e) * w -> Rabs (A / W - a / w) <= 21 / 10 * e * (a / w).
Proof.
  intros E HA HW [A1 A2] [W1 W2]. assert (PW : 0 < W) by nra.
  assert (T : a = a / w * w) by (field; lra). set (t := a / w) in *. assert (T0 : 0 <= t) by (apply Rmult_le_pos; [lra|apply Rlt_le, Rinv_0_lt_compat; lra]).
  assert (Q : A / W - t = (A - t * W) / W) by (field; lra). rewrite Q. unfold Rdiv. rewrite Rabs_mult, (Rabs_pos_eq (/ W)) by (apply Rlt_le, Rinv_0_lt_compat; exact PW).
  apply Rmult_le_reg_r with W; [exact PW|]. rewrite Rmult_assoc, Rinv_l, Rmult_1_r by lra.
  rewrite T in A1, A2. assert (TW : 0 <= t * w) by nra.
  assert (U : 21 / 10 * e * t * ((1 - e) * w) <= 21 / 10 * e * t * W) by (apply Rmult_le_compat_l; [nra|exact W1]).
  assert (X1 : t * W <= t * ((1 + e) * w)) by (apply Rmult_le_compat_l; lra). assert (X2 : t * ((1 - e) * w) <= t * W) by (apply Rmult_le_compat_l; lra).
  assert (EE : e * e * (t * w) <= e / 100 * (t * w)) by (apply Rmult_le_compat_r; nra).
  apply Rle_trans with (2 * e * (t * w)); [apply Rabs_le; nra|]. nra.
Qed.

Lemma finterp_err xl dl xh dh q : representable xl -> representable dl -> representable xh -> representable dh -> representable q ->
  xl <= q <= xh -> two (-500) <= xh - xl ->
  Rabs (finterp xl dl xh dh q - line xl dl xh dh q) <= two (-49) * Rmax (Rabs dl) (Rabs dh) + two (-500).
Proof.
  intros FX FD FY FE FQ [Q1 Q2] HW. pose proof (two_pos (-500)) as W0. pose proof (two_pos (-53)) as E0. pose proof eps_small as E1. pose proof (two_pos (-1075)) as N0.
  pose proof (diff_rel xl q FX FQ Q1) as HA. pose proof (diff_rel xl xh FX FY ltac:(lra)) as HH.
  pose proof (rnd_plus_rel dh (- dl) FE (generic_format_opp _ _ _ FD)) as HB. change (dh + - dl) with (dh - dl) in HB.
  assert (E : 0 < two (-53) < 1 / 1000000) by lra.
  pose proof (ratio_rel (q - xl) (xh - xl) _ _ _ E ltac:(lra) ltac:(lra) HA HH) as HR.
  unfold finterp, line. replace ((q - xl) * (dh - dl) / (xh - xl)) with ((q - xl) / (xh - xl) * (dh - dl)) by (field; lra).
  set (t := (q - xl) / (xh - xl)) in *. assert (T0 : 0 <= t <= 1).
  { unfold t. split; [apply Rmult_le_pos; [lra|apply Rlt_le, Rinv_0_lt_compat; lra]|]. apply Rmult_le_reg_r with (xh - xl); [lra|]. unfold Rdiv. rewrite Rmult_assoc, Rinv_l by lra. lra. }
  set (A := rnd (q - xl)) in *. set (W := rnd (xh - xl)) in *. set (B := rnd (dh - dl)) in *. set (b := dh - dl) in *.
  assert (PW : two (-501) <= W).
  { change (-500)%Z with (1 + -501)%Z in HW. rewrite bpow_plus in HW. change (two 1) with 2 in HW. nra. }
  pose proof (two_pos (-501)) as W1. assert (WP : 0 < W) by lra.
  assert (NW : two (-1075) / W <= two (-574)).
  { apply Rmult_le_reg_r with W; [exact WP|]. unfold Rdiv. rewrite Rmult_assoc, Rinv_l, Rmult_1_r by lra.
    change (-1075)%Z with (-574 + -501)%Z. rewrite bpow_plus. apply Rmult_le_compat_l; [apply bpow_ge_0|exact PW]. }
  (* the quotient *)
  pose proof (rnd_err (A * B)) as HM. set (M := rnd (A * B)) in *. pose proof (rnd_err (M / W)) as HQ. set (Q := rnd (M / W)) in *.
  pose proof (Rabs_pos b) as Pb. set (e := two (-53)) in *. set (n := two (-1075)) in *.
  assert (RT : Rabs (A / W) <= (1 + 21 / 10 * e) * t).
  { pose proof (Rabs_triang_inv (A / W) t). rewrite (Rabs_pos_eq t) in H by lra. lra. }
  assert (RB : Rabs B <= (1 + e) * Rabs b).
  { pose proof (Rabs_triang_inv B b). lra. }
  assert (X1 : Rabs (A * B / W - t * b) <= 32 / 10 * e * Rabs b).
  { replace (A * B / W - t * b) with ((A / W - t) * B + t * (B - b)) by (field; lra).
    eapply Rle_trans; [apply Rabs_triang|]. rewrite !Rabs_mult, (Rabs_pos_eq t) by lra.
    assert (Rabs (A / W - t) * Rabs B <= (21 / 10 * e) * ((1 + e) * Rabs b)).
    { apply Rmult_le_compat; [apply Rabs_pos|apply Rabs_pos| |exact RB]. eapply Rle_trans; [exact HR|]. nra. }
    assert (t * Rabs (B - b) <= 1 * (e * Rabs b)) by (apply Rmult_le_compat; [lra|apply Rabs_pos|lra|exact HB]).
    assert (e * e * Rabs b <= e / 100 * Rabs b) by (apply Rmult_le_compat_r; nra). nra. }
  assert (XA : Rabs (A * B / W) <= (1 + 32 / 10 * e) * Rabs b).
  { pose proof (Rabs_triang_inv (A * B / W) (t * b)). rewrite Rabs_mult, (Rabs_pos_eq t) in H by lra. nra. }
  assert (X2 : Rabs (M / W - A * B / W) <= 11 / 10 * e * Rabs b + n / W).
  { replace (M / W - A * B / W) with ((M - A * B) / W) by (field; lra). unfold Rdiv. rewrite Rabs_mult, (Rabs_pos_eq (/ W)) by (apply Rlt_le, Rinv_0_lt_compat; exact WP).
    apply Rle_trans with ((e * Rabs (A * B) + n) * / W); [apply Rmult_le_compat_r; [apply Rlt_le, Rinv_0_lt_compat; exact WP|exact HM]|].
    rewrite Rmult_plus_distr_r. apply Rplus_le_compat_r.
    replace (e * Rabs (A * B) * / W) with (e * Rabs (A * B / W)).
    - apply Rle_trans with (e * ((1 + 32 / 10 * e) * Rabs b)); [apply Rmult_le_compat_l; lra|].
      assert (e * e * Rabs b <= e / 100 * Rabs b) by (apply Rmult_le_compat_r; nra). nra.
    - unfold Rdiv. rewrite (Rabs_mult (A * B)), (Rabs_pos_eq (/ W)) by (apply Rlt_le, Rinv_0_lt_compat; exact WP). ring. }
  assert (N2 : n <= n / W * (1 / 1000000) \/ n <= two (-574)) by (right; apply bpow_le; lia).
  assert (NS : n <= two (-574)) by (apply bpow_le; lia). pose proof (two_pos (-574)) as T574.
  assert (X3 : Rabs (M / W - t * b) <= 43 / 10 * e * Rabs b + two (-574)).
  { replace (M / W - t * b) with ((M / W - A * B / W) + (A * B / W - t * b)) by ring. eapply Rle_trans; [apply Rabs_triang|]. lra. }
  assert (XM : Rabs (M / W) <= (1 + 43 / 10 * e) * Rabs b + two (-574)).
  { pose proof (Rabs_triang_inv (M / W) (t * b)). rewrite Rabs_mult, (Rabs_pos_eq t) in H by lra. nra. }
  assert (X4 : Rabs (Q - t * b) <= 54 / 10 * e * Rabs b + 3 * two (-574)).
  { replace (Q - t * b) with ((Q - M / W) + (M / W - t * b)) by ring. eapply Rle_trans; [apply Rabs_triang|].
    assert (e * Rabs (M / W) <= e * ((1 + 43 / 10 * e) * Rabs b + two (-574))) by (apply Rmult_le_compat_l; lra).
    assert (e * e * Rabs b <= e / 100 * Rabs b) by (apply Rmult_le_compat_r; nra). nra. }
  (* the sum *)
  assert (FQQ : representable Q) by apply rnd_fmt.
  pose proof (rnd_plus_rel dl Q FD FQQ) as HS. fold e in HS.
  assert (MA : Rabs dl <= Rmax (Rabs dl) (Rabs dh)) by apply Rmax_l. assert (MB : Rabs dh <= Rmax (Rabs dl) (Rabs dh)) by apply Rmax_r.
  set (m := Rmax (Rabs dl) (Rabs dh)) in *.
  assert (Bm : Rabs b <= 2 * m) by (unfold b; pose proof (Rabs_triang dh (- dl)); rewrite Rabs_Ropp in H; unfold Rminus; lra).
  assert (QL : Rabs (dl + t * b) <= m).
  { unfold b. replace (dl + t * (dh - dl)) with ((1 - t) * dl + t * dh) by ring. eapply Rle_trans; [apply Rabs_triang|].
    rewrite !Rabs_mult, (Rabs_pos_eq t), (Rabs_pos_eq (1 - t)) by lra. pose proof (Rabs_pos dl). pose proof (Rabs_pos dh). nra. }
  assert (SQ : Rabs (dl + Q) <= m + Rabs (Q - t * b)).
  { replace (dl + Q) with ((dl + t * b) + (Q - t * b)) by ring. eapply Rle_trans; [apply Rabs_triang|]. lra. }
  replace (rnd (dl + Q) - (dl + t * b)) with ((rnd (dl + Q) - (dl + Q)) + (Q - t * b)) by ring.
  eapply Rle_trans; [apply Rabs_triang|].
  assert (T49 : two (-49) = 16 * e) by (unfold e; change (-49)%Z with (4 + -53)%Z; rewrite bpow_plus; reflexivity). rewrite T49.
  assert (T500 : 100 * two (-574) <= two (-500)).
  { apply Rle_trans with (two 7 * two (-574)); [apply Rmult_le_compat_r; [lra|change (two 7) with 128; lra]|]. rewrite <- bpow_plus. apply bpow_le. lia. }
  assert (M0 : 0 <= m) by (pose proof (Rabs_pos dl); lra).
  assert (X5 : Rabs (Q - t * b) <= 108 / 10 * e * m + 3 * two (-574)) by nra.
  assert (e * Rabs (dl + Q) <= e * (m + (108 / 10 * e * m + 3 * two (-574)))) by (apply Rmult_le_compat_l; lra).
  assert (EEM : e * (e * m) <= 1 / 100 * (e * m)) by (apply Rmult_le_compat_r; nra).
  assert (ET : e * two (-574) <= 1 * two (-574)) by (apply Rmult_le_compat_r; lra).
  replace (e * (m + (108 / 10 * e * m + 3 * two (-574)))) with (e * m + 108 / 10 * (e * (e * m)) + 3 * (e * two (-574))) in H by ring.
  replace (108 / 10 * e * m) with (108 / 10 * (e * m)) in X5 by ring. replace (16 * e * m) with (16 * (e * m)) by ring.
  assert (EM : 0 <= e * m) by (apply Rmult_le_pos; lra). lra.
Qed.

Lemma finterp_node xl dl xh dh : representable dl -> rnd (xh - xl) <> 0 -> finterp xl dl xh dh xl = dl.
Proof.
  intros FD W. unfold finterp. rewrite (Rminus_diag_eq xl xl) by reflexivity. rewrite rnd_0, Rmult_0_l, rnd_0. unfold Rdiv. rewrite Rmult_0_l, rnd_0, Rplus_0_r. now apply rnd_id.
Qed.

Section Interp.
Variable L : Libm.
Local Notation N := (Num_F64 L).

Lemma interpolate_f64 sp sd c d q v : Forall2 dbl sp c -> Forall2 dbl sd d -> dbl q v ->
  (2 <= length c)%nat -> length d = length c -> (Z.of_nat (length c) < 2 ^ 31)%Z -> increasing c ->
  Forall (fun x => Rabs x <= two 400) c -> Forall (fun x => Rabs x <= two 400) d ->
  (forall i, (S i < length c)%nat -> two (-500) <= at_ c (S i) - at_ c i) ->
  at_ c 0 <= v < at_ c (length c - 1) ->
  exists i x, (S i < length c)%nat /\ at_ c i <= v < at_ c (S i) /\
    @interpolate1d _ N sp sd (Z.of_nat (length sp)) q = Ok x /\
    dbl x (finterp (at_ c i) (at_ d i) (at_ c (S i)) (at_ d (S i)) v).
Proof.
  intros FC FD DQ N2 LD NB INC BC BD SEP [V0 V1]. pose proof (F2_len _ _ FC) as L1. pose proof (F2_len _ _ FD) as L2.
  pose proof (fun i => dbl_nth _ _ FC i _ _ dbl_0) as DC. pose proof (fun i => dbl_nth _ _ FD i _ _ dbl_0) as DD.
  unfold interpolate1d. rewrite (get_Z sp 0 (f64_lit 0 0)) by lia. cbn [bind Z.to_nat].
  assert (LT : forall i, @nltb _ N q (nth i sp (f64_lit 0 0)) = Rltb v (at_ c i)) by (intros; apply dbl_ltb; auto; apply DC).
  assert (GT : forall i, @nltb _ N (nth i sp (f64_lit 0 0)) q = Rltb (at_ c i) v) by (intros; apply dbl_ltb; auto; apply DC).
  rewrite LT. destruct (Rltb v (at_ c 0)) eqn:E0; rdestr; [lra|].
  rewrite u32_id, s32_id by lia. rewrite (get_Z sp (Z.of_nat (length sp) - 1) (f64_lit 0 0)) by lia. cbn [bind]. rewrite GT.
  replace (Z.to_nat (Z.of_nat (length sp) - 1)) with (length c - 1)%nat by lia.
  destruct (Rltb (at_ c (length c - 1)) v) eqn:E1; rdestr; [lra|]. rewrite Nat2Z.id.
  destruct (@first_above_cases _ N (length sp) sp q 0) as [[_ K] | (j & B & R & Hj & K)]; [lia|lia| |].
  - exfalso. specialize (K (length c - 1)%nat (f64_lit 0 0) ltac:(lia)). rewrite LT in K. rdestr. lra.
  - rewrite R. cbn [bind fst snd]. specialize (Hj (f64_lit 0 0)). rewrite LT in Hj. rdestr.
    assert (NJ : (j <> 0)%Z) by (intros ->; cbn [Z.to_nat] in Hj; lra).
    set (i := Z.to_nat (j - 1)). assert (Ei : Z.to_nat j = S i) by (unfold i; lia).
    rewrite (get_Z sd (j - 1) (f64_lit 0 0)), (get_Z sp (j - 1) (f64_lit 0 0)), (get_Z sd j (f64_lit 0 0)), (get_Z sp j (f64_lit 0 0)) by lia. cbn [bind].
    fold i. rewrite Ei in *. eexists i, _. split; [lia|]. split; [split; [|exact Hj]|].
    + specialize (K i (f64_lit 0 0) ltac:(lia)). rewrite LT in K. rdestr. exact K.
    + split; [reflexivity|]. cbn [nadd nsub nmul ndiv Num_F64]. specialize (K i (f64_lit 0 0) ltac:(lia)). rewrite LT in K. rdestr.
      specialize (SEP i ltac:(lia)). rewrite Forall_forall in BC, BD.
      assert (B1 : Rabs (at_ c i) <= two 400) by (apply BC, nth_In; lia). assert (B2 : Rabs (at_ c (S i)) <= two 400) by (apply BC, nth_In; lia).
      assert (B3 : Rabs (at_ d i) <= two 400) by (apply BD, nth_In; lia). assert (B4 : Rabs (at_ d (S i)) <= two 400) by (apply BD, nth_In; lia).
      apply Rabs_le_inv in B1, B2, B3, B4.
      assert (T1 : two 401 = 2 * two 400) by (rewrite <- two_double; reflexivity). pose proof (two_pos 400) as P4. pose proof (two_pos (-500)) as P5.
      assert (TH : two 401 <= huge) by (apply bpow_le; lia).
      assert (D1 : dbl (f64_sub q (nth i sp (f64_lit 0 0))) (rnd (v - at_ c i))) by (apply dbl_sub; auto; [apply DC|apply Rabs_le; lra]).
      assert (D2 : dbl (f64_sub (nth (S i) sd (f64_lit 0 0)) (nth i sd (f64_lit 0 0))) (rnd (at_ d (S i) - at_ d i))) by (apply dbl_sub; [apply DD|apply DD|apply Rabs_le; lra]).
      assert (D3 : dbl (f64_sub (nth (S i) sp (f64_lit 0 0)) (nth i sp (f64_lit 0 0))) (rnd (at_ c (S i) - at_ c i))) by (apply dbl_sub; [apply DC|apply DC|apply Rabs_le; lra]).
      assert (S1 : 0 <= rnd (v - at_ c i) <= two 401) by (split; [apply rnd_nonneg; lra|apply rnd_bound; [lia|lra]]).
      assert (S2 : Rabs (rnd (at_ d (S i) - at_ d i)) <= two 401) by (rewrite rnd_abs; apply rnd_bound; [lia|apply Rabs_le; lra]).
      assert (S3 : two (-500) <= rnd (at_ c (S i) - at_ c i)) by (rewrite <- (rnd_bpow (-500)) by lia; apply rnd_le; lra).
      assert (S4 : Rabs (rnd (v - at_ c i) * rnd (at_ d (S i) - at_ d i)) <= two 802).
      { rewrite Rabs_mult, (Rabs_pos_eq (rnd (v - at_ c i))) by lra. change 802%Z with (401 + 401)%Z. rewrite bpow_plus. apply Rmult_le_compat; try lra. apply Rabs_pos. }
      assert (D4 : dbl (f64_mul (f64_sub q (nth i sp (f64_lit 0 0))) (f64_sub (nth (S i) sd (f64_lit 0 0)) (nth i sd (f64_lit 0 0)))) (rnd (rnd (v - at_ c i) * rnd (at_ d (S i) - at_ d i)))).
      { apply dbl_mul; auto. eapply Rle_trans; [exact S4|]. apply bpow_le. lia. }
      (* the quotient: the product is at most (span) * |step|, so the quotient stays small *)
      assert (S5 : Rabs (rnd (rnd (v - at_ c i) * rnd (at_ d (S i) - at_ d i)) / rnd (at_ c (S i) - at_ c i)) <= two 402).
      { set (A := rnd (v - at_ c i)) in *. set (B0 := rnd (at_ d (S i) - at_ d i)) in *. set (W := rnd (at_ c (S i) - at_ c i)) in *.
        assert (AW : A <= W) by (apply rnd_le; lra). pose proof (rnd_err (A * B0)) as HM. pose proof (Rabs_triang_inv (rnd (A * B0)) (A * B0)) as TI.
        unfold Rdiv. rewrite Rabs_mult, (Rabs_pos_eq (/ W)) by (apply Rlt_le, Rinv_0_lt_compat; lra).
        apply Rmult_le_reg_r with W; [lra|]. rewrite Rmult_assoc, Rinv_l, Rmult_1_r by lra.
        assert (AB : Rabs (A * B0) <= W * two 401) by (rewrite Rabs_mult, (Rabs_pos_eq A) by lra; apply Rmult_le_compat; try lra; apply Rabs_pos).
        pose proof (two_pos (-53)). pose proof eps_small. assert (two (-1075) <= W * (two 401 * (1 / 2))).
        { apply Rle_trans with (two (-500) * two 0); [rewrite <- bpow_plus; apply bpow_le; lia|]. apply Rmult_le_compat; try (apply bpow_ge_0 || lra).
          rewrite T1. change (two 0) with 1. assert (1 <= two 400) by (change 1 with (two 0); apply bpow_le; lia). lra. }
        assert (EA : two (-53) * Rabs (A * B0) <= 1 / 4 * (W * two 401)) by (apply Rmult_le_compat; try lra; apply Rabs_pos).
        change 402%Z with (401 + 1)%Z. rewrite two_double. replace (2 * two 401 * W) with (2 * (W * two 401)) by ring.
        replace (W * (two 401 * (1 / 2))) with (1 / 2 * (W * two 401)) in H1 by ring.
        assert (0 <= W * two 401) by (apply Rmult_le_pos; [lra|apply bpow_ge_0]). lra. }
      assert (D5 : dbl (f64_div (f64_mul (f64_sub q (nth i sp (f64_lit 0 0))) (f64_sub (nth (S i) sd (f64_lit 0 0)) (nth i sd (f64_lit 0 0)))) (f64_sub (nth (S i) sp (f64_lit 0 0)) (nth i sp (f64_lit 0 0))))
                 (rnd (rnd (rnd (v - at_ c i) * rnd (at_ d (S i) - at_ d i)) / rnd (at_ c (S i) - at_ c i)))).
      { apply dbl_div; auto; [lra|]. eapply Rle_trans; [exact S5|]. apply bpow_le. lia. }
      unfold finterp. apply dbl_add; [apply DD|exact D5|].
      assert (S6 : Rabs (rnd (rnd (rnd (v - at_ c i) * rnd (at_ d (S i) - at_ d i)) / rnd (at_ c (S i) - at_ c i))) <= two 402) by (rewrite rnd_abs; apply rnd_bound; [lia|exact S5]).
      apply Rabs_le_inv in S6. assert (T2 : two 403 = 2 * two 402) by (rewrite <- two_double; reflexivity). assert (T3 : two 402 = 2 * two 401) by (rewrite <- two_double; reflexivity).
      assert (two 403 <= huge) by (apply bpow_le; lia). change (nth i d 0) with (at_ d i). apply Rabs_le. lra.
Qed.
End Interp.
