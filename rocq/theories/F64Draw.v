(** * The drawn numbers in double precision *)
From Coq Require Import ZArith Reals Lra Lia Bool List.
From Coq Require Import Floats.SpecFloat.
From Flocq Require Import Core.Zaux Core.Raux Core.Defs Core.Generic_fmt Core.Round_NE IEEE754.BinarySingleNaN.
From Verif Require Import Num Outcome F64Facts F64Real MCTools MCFacts Particle.
Import ListNotations.
Local Open Scope R_scope.

(** Vocabulary of the statements.  [dbl x r] ([F64Real.v]): the double [x] is finite and its value is the
    real number [r].  [rnd]: rounding to the nearest double, ties to even.  [two e] is 2^e. *)
Notation two e := (bpow radix2 e).

Lemma two_pos e : 0 < two e. Proof. apply bpow_gt_0. Qed.
Lemma eps_small : two (-53) < 1 / 1000000. Proof. change (two (-53)) with (/ IZR (2 ^ 53)). cbn [Z.pow Z.pow_pos Pos.iter Z.mul Pos.mul]. lra. Qed.
Lemma two_double e : two (e + 1) = 2 * two e.
Proof. rewrite bpow_plus. change (two 1) with 2. ring. Qed.

Section Draw.
Variable L : Libm.
Variable E : Engine spec_float.
Variable g : est E.
Variable u : R.
Hypothesis CU : dbl (fst (e_canon E g)) u.
Hypothesis U01 : 0 <= u < 1.
Let draw lo hi := fst (@rand_double spec_float (Num_F64 L) E lo hi g).

Lemma draw_value lo hi a b : dbl lo a -> dbl hi b -> a <= b -> Rabs a <= two 1020 -> Rabs b <= two 1020 ->
  dbl (draw lo hi) (rnd (rnd (u * rnd (b - a)) + a)) /\ 0 <= rnd (u * rnd (b - a)) <= rnd (b - a) /\ Rabs (rnd (b - a)) <= two 1021.
Proof.
  intros DA DB AB BA BB. apply Rabs_le_inv in BA. apply Rabs_le_inv in BB.
  assert (H2 : two 1021 = 2 * two 1020) by (rewrite <- two_double; reflexivity).
  assert (H3 : two 1022 = 2 * two 1021) by (rewrite <- two_double; reflexivity).
  assert (H4 : huge = 2 * two 1022) by (unfold huge; rewrite <- two_double; reflexivity).
  pose proof (two_pos 1020) as P0. assert (D0 : 0 <= b - a <= two 1021) by lra.
  assert (R0 : 0 <= rnd (b - a) <= two 1021).
  { split; [now apply rnd_nonneg|]. rewrite <- (rnd_bpow 1021) by lia. now apply rnd_le. }
  assert (M0 : 0 <= u * rnd (b - a) <= rnd (b - a)) by (split; nra).
  assert (DD : dbl (f64_sub hi lo) (rnd (b - a))) by (apply dbl_sub; auto; rewrite Rabs_pos_eq; lra).
  assert (R1 : 0 <= rnd (u * rnd (b - a)) <= rnd (b - a)).
  { split; [now apply rnd_nonneg|]. rewrite <- (rnd_rep _ _ DD) at 2. now apply rnd_le. }
  split; [|split; [exact R1|rewrite Rabs_pos_eq; lra]].
  unfold draw, rand_double. destruct (e_canon E g) as [x g']. cbn [fst] in *. cbn [nadd nmul nsub Num_F64].
  apply dbl_add; [apply dbl_mul; auto; rewrite Rabs_pos_eq; lra|auto|]. apply Rabs_le. lra.
Qed.

Lemma draw_range lo hi a b : dbl lo a -> dbl hi b -> a <= b -> Rabs a <= two 1020 -> Rabs b <= two 1020 ->
  exists x, dbl (draw lo hi) x /\ a <= x <= b + two (-51) * Rmax (Rabs a) (Rabs b).
Proof.
  intros DA DB AB BA BB. destruct (draw_value lo hi a b DA DB AB BA BB) as (DV & R1 & R2). eexists. split; [exact DV|].
  split; [rewrite <- (rnd_rep _ _ DA) at 1; apply rnd_le; lra|].
  pose proof (rnd_plus_rel b (- a) (dbl_fmt _ _ DB) (generic_format_opp _ _ _ (dbl_fmt _ _ DA))) as E1.
  change (b + - a) with (b - a) in E1. rewrite (Rabs_pos_eq (b - a)) in E1 by lra. apply Rabs_le_inv in E1.
  set (d := rnd (b - a)) in *. assert (FD : representable d) by (apply generic_format_round; [apply vexp64|apply valid_rnd_N]).
  eapply Rle_trans; [apply (rnd_le _ (d + a)); lra|].
  pose proof (rnd_plus_rel d a FD (dbl_fmt _ _ DA)) as E2. apply Rabs_le_inv in E2.
  assert (MA : Rabs a <= Rmax (Rabs a) (Rabs b)) by apply Rmax_l. assert (MB : Rabs b <= Rmax (Rabs a) (Rabs b)) by apply Rmax_r.
  set (M := Rmax (Rabs a) (Rabs b)) in *. pose proof (two_pos (-53)) as EP. pose proof eps_small as ES. set (e := two (-53)) in *.
  assert (E51 : two (-51) = 4 * e) by (unfold e; change (-51)%Z with (2 + -53)%Z; rewrite bpow_plus; reflexivity).
  rewrite E51. pose proof (Rabs_pos a). pose proof (Rle_abs a). pose proof (Rle_abs (- a)) as NA. rewrite Rabs_Ropp in NA.
  pose proof (Rle_abs b). pose proof (Rle_abs (- b)) as NB. rewrite Rabs_Ropp in NB.
  assert (S1 : d + a <= b + e * (2 * M)) by nra.
  assert (S2 : Rabs (d + a) <= M + e * (2 * M)) by (apply Rabs_le; nra).
  assert (S3 : e * Rabs (d + a) <= e * (M + e * (2 * M))) by (apply Rmult_le_compat_l; lra). nra.
Qed.

Lemma draw_from_zero hi b : dbl hi b -> two (-1022) < b <= two 1020 ->
  exists x, dbl (draw (f64_lit 0 0) hi) x /\ x = rnd (u * b) /\ 0 <= x < b.
Proof.
  intros DB [B1 B2]. pose proof (two_pos (-1022)) as P0. pose proof (two_pos 1020) as P1.
  destruct (draw_value (f64_lit 0 0) hi 0 b dbl_0 DB) as (DV & R1 & R2); try (rewrite ?Rabs_R0, ?Rabs_pos_eq; lra).
  rewrite Rminus_0_r in *. rewrite (rnd_rep _ _ DB) in *. rewrite Rplus_0_r in DV.
  rewrite (rnd_id (rnd (u * b))) in DV by (apply generic_format_round; [apply vexp64|apply valid_rnd_N]).
  eexists. split; [exact DV|]. split; [reflexivity|]. split; [lra|]. apply scaled_below; auto.
  - eapply dbl_fmt; eauto.
  - eapply dbl_fmt; eauto.
Qed.
End Draw.

(** ** The optical depth *)
Lemma ln_close a b e : 0 < a -> 0 < b -> 0 <= e <= 1 / 2 -> Rabs (b - a) <= e * a -> Rabs (ln b - ln a) <= 2 * e.
Proof.
  intros A B E H. apply Rabs_le_inv in H. assert (LD : ln b - ln a = ln (b / a)) by (unfold Rdiv; rewrite ln_mult, ln_Rinv; [ring|assumption|assumption|now apply Rinv_0_lt_compat]). rewrite LD.
  assert (Q : b / a - 1 = (b - a) / a) by (field; lra).
  assert (Q1 : - e <= b / a - 1 <= e).
  { rewrite Q. split; [apply Rmult_le_reg_r with a; [lra|]|apply Rmult_le_reg_r with a; [lra|]];
    unfold Rdiv; rewrite Rmult_assoc, Rinv_l by lra; lra. }
  assert (P : 0 < b / a) by (apply Rdiv_lt_0_compat; assumption). apply Rabs_le. split.
  - assert (ln (/ (b / a)) <= / (b / a) - 1).
    { pose proof (exp_ineq1_le (ln (/ (b / a)))) as I. rewrite exp_ln in I by (apply Rinv_0_lt_compat; exact P). lra. }
    rewrite ln_Rinv in H0 by exact P.
    assert (/ (b / a) <= 1 + 2 * e).
    { apply Rmult_le_reg_r with (b / a); [exact P|]. rewrite Rinv_l by lra. nra. }
    lra.
  - pose proof (exp_ineq1_le (ln (b / a))) as I. rewrite exp_ln in I by exact P. lra.
Qed.

Lemma one_minus (u : R) : representable u -> 0 <= u < 1 ->
  two (-53) <= rnd (1 - u) <= 1 /\ Rabs (ln (rnd (1 - u)) - ln (1 - u)) <= two (-52).
Proof.
  intros F U. pose proof (below_one u F (proj2 U)) as B. pose proof (two_pos (-53)) as P.
  assert (R1 : two (-53) <= rnd (1 - u) <= 1).
  { split; [rewrite <- (rnd_bpow (-53)) by lia; apply rnd_le; lra|]. rewrite <- rnd_1 at 2. apply rnd_le. lra. }
  split; [exact R1|]. change (-52)%Z with (-53 + 1)%Z. rewrite two_double. apply ln_close; try lra.
  - pose proof eps_small. lra.
  - pose proof (rnd_plus_rel 1 (- u) fmt1 (generic_format_opp _ _ _ F)) as Q. change (1 + - u) with (1 - u) in Q.
    rewrite (Rabs_pos_eq (1 - u)) in Q by lra. exact Q.
Qed.

(** ** The discrete draw *)
(** the rounded sum of the first [k] weights *)
Definition fsum (w : list R) (k : nat) : R := fold_left (fun a x => rnd (a + x)) (firstn k w) 0.

Fixpoint rs (a : R) (w : list R) : list R := match w with [] => [] | x :: t => rnd (a + x) :: rs (rnd (a + x)) t end.
Definition ftot (a : R) (w : list R) : R := fold_left (fun a x => rnd (a + x)) w a.

Lemma ftot_ge w : forall a, representable a -> nonneg w -> a <= ftot a w.
Proof.
  induction w as [|x t IH]; intros a FA NN; [apply Rle_refl|]. cbn [ftot fold_left].
  assert (X : 0 <= x) by (apply NN; left; reflexivity).
  assert (A : a <= rnd (a + x)) by (rewrite <- (rnd_id a FA) at 1; apply rnd_le; lra).
  eapply Rle_trans; [exact A|]. apply IH; [apply generic_format_round; [apply vexp64|apply valid_rnd_N]|]. intros y Y. apply NN. now right.
Qed.

Lemma rs_nth w : forall a i, (i < length w)%nat -> nth i (rs a w) 0 = ftot a (firstn (S i) w).
Proof.
  induction w as [|x t IH]; intros a i Hi; cbn in Hi; [lia|]. destruct i; [destruct t; reflexivity|].
  cbn [rs nth]. rewrite IH by lia. reflexivity.
Qed.
Lemma rs_len w : forall a, length (rs a w) = length w.
Proof. induction w as [|x t IH]; intros a; cbn; auto. Qed.
Lemma rs_last w : forall a, last (a :: rs a w) a = ftot a w.
Proof.
  induction w as [|x t IH]; intros a; [reflexivity|]. cbn [rs].
  change (last (a :: rnd (a + x) :: rs (rnd (a + x)) t) a) with (last (rnd (a + x) :: rs (rnd (a + x)) t) a).
  assert (HL : forall (l : list R) p q c, last (c :: l) p = last (c :: l) q).
  { induction l as [|y l IHl]; intros; [reflexivity|]. change (last (c :: y :: l) p) with (last (y :: l) p).
    change (last (c :: y :: l) q) with (last (y :: l) q). apply IHl. }
  rewrite (HL _ a (rnd (a + x))), IH. reflexivity.
Qed.

Section Discrete.
Variable L : Libm.
Variable E : Engine spec_float.

Lemma cdf_dbl d w : Forall2 dbl d w -> forall acc a, dbl acc a -> 0 <= a -> nonneg w -> ftot a w <= two 1020 ->
  Forall2 dbl (@cdf_from _ (Num_F64 L) acc d) (rs a w).
Proof.
  induction 1 as [|x r d w DX F IH]; intros acc a DA A0 NN T; cbn [cdf_from rs]; constructor.
  - apply dbl_add; auto. assert (0 <= r) by (apply NN; left; reflexivity).
    assert (N1 : nonneg w) by (intros y Y; apply NN; now right).
    pose proof (ftot_ge w (rnd (a + r)) ltac:(apply generic_format_round; [apply vexp64|apply valid_rnd_N]) N1) as G.
    change (ftot (rnd (a + r)) w) with (ftot a (r :: w)) in G.
    destruct (Rle_or_lt (a + r) (two 1021)) as [Q|Q].
    + rewrite Rabs_pos_eq by lra. eapply Rle_trans; [exact Q|]. apply bpow_le. lia.
    + exfalso. assert (two 1021 <= rnd (a + r)) by (rewrite <- (rnd_bpow 1021) by lia; apply rnd_le; lra).
      assert (two 1021 = 2 * two 1020) by (rewrite <- two_double; reflexivity). pose proof (two_pos 1020). lra.
  - assert (0 <= r) by (apply NN; left; reflexivity).
    assert (N1 : nonneg w) by (intros y Y; apply NN; now right). apply IH; auto; [|apply rnd_nonneg; lra].
    apply dbl_add; auto.
    pose proof (ftot_ge w (rnd (a + r)) ltac:(apply generic_format_round; [apply vexp64|apply valid_rnd_N]) N1) as G.
    change (ftot (rnd (a + r)) w) with (ftot a (r :: w)) in G.
    destruct (Rle_or_lt (a + r) (two 1021)) as [Q|Q].
    + rewrite Rabs_pos_eq by lra. eapply Rle_trans; [exact Q|]. apply bpow_le. lia.
    + exfalso. assert (two 1021 <= rnd (a + r)) by (rewrite <- (rnd_bpow 1021) by lia; apply rnd_le; lra).
      assert (two 1021 = 2 * two 1020) by (rewrite <- two_double; reflexivity). pose proof (two_pos 1020). lra.
Qed.

Lemma first_cdf_dbl c v : Forall2 dbl c v -> forall i x r, dbl x r -> @first_cdf _ (Num_F64 L) c i x = first_cdf v i r.
Proof.
  induction 1 as [|y s c v DY F IH]; intros i x r D; [reflexivity|]. cbn [first_cdf nltb Num_F64].
  rewrite (dbl_ltb _ _ _ _ D DY). change (@nltb R Num_R r s) with (Rltb r s). destruct (Rltb r s); auto.
Qed.

Lemma dbl_last c v : Forall2 dbl c v -> forall p q, dbl p q -> dbl (last (p :: c) p) (last (q :: v) q).
Proof.
  intros F. assert (G : forall p q a b, dbl p q -> dbl a b -> dbl (last (p :: c) a) (last (q :: v) b)).
  { induction F as [|y s c v DY F IH]; intros p q a b D D2; [exact D|].
    change (last (p :: y :: c) a) with (last (y :: c) a). change (last (q :: s :: v) b) with (last (s :: v) b). now apply IH. }
  intros. now apply G.
Qed.

Lemma fsum_S w i : (i < length w)%nat -> fsum w (S i) = rnd (fsum w i + nth i w 0).
Proof.
  intros H. unfold fsum. replace (firstn (S i) w) with (firstn i w ++ [nth i w 0]); [now rewrite fold_left_app|].
  revert i H. induction w as [|x t IH]; intros i H; cbn in H; [lia|]. destruct i; [reflexivity|]. cbn [firstn nth app]. f_equal. apply IH. lia.
Qed.

Lemma discrete_dbl (d : list spec_float) (w : list R) (g : est E) (u : R) :
  Forall2 dbl d w -> (2 <= length w)%nat -> nonneg w -> two (-1022) < fsum w (length w) <= two 1020 ->
  dbl (fst (e_canon E g)) u -> 0 <= u < 1 ->
  let r := rnd (u * fsum w (length w)) in
  exists i : nat, @rand_discrete _ (Num_F64 L) E d g = Ok (Z.of_nat i, snd (e_canon E g)) /\
    (1 <= i < length w)%nat /\ r < fsum w (S i) /\ ((2 <= i)%nat -> fsum w i <= r).
Proof.
  intros F LW NN T CU U r. destruct F as [|x a d w DX F]; [cbn in LW; lia|]. cbn [length] in LW.
  assert (FA : fsum (a :: w) 1 = a) by (unfold fsum; cbn; rewrite Rplus_0_l; apply (rnd_rep _ _ DX)).
  assert (FT : forall k, fsum (a :: w) (S k) = ftot a (firstn k w)).
  { intros k. unfold fsum, ftot. cbn [firstn fold_left]. rewrite Rplus_0_l, (rnd_rep _ _ DX). reflexivity. }
  cbn [length] in T, r. rewrite FT, firstn_all in T.
  assert (A0 : 0 <= a) by (apply NN; left; reflexivity). assert (NW : nonneg w) by (intros y Y; apply NN; now right).
  pose proof (cdf_dbl d w F x a DX A0 NW (proj2 T)) as FC.
  unfold rand_discrete. cbn [cdf_of]. 
  pose proof (dbl_last _ _ FC x a DX) as DL. rewrite rs_last in DL.
  destruct (draw_from_zero L E g u CU U _ _ DL T) as (v & DV & EV & V0).
  destruct (@rand_double spec_float (Num_F64 L) E n0 _ g) as [z g'] eqn:ER.
  assert (G' : g' = snd (e_canon E g)) by (unfold rand_double in ER; destruct (e_canon E g); injection ER; auto).
  change (f64_lit 0 0) with (@n0 _ (Num_F64 L)) in DV. rewrite ER in DV. cbn [fst] in DV.
  rewrite (first_cdf_dbl _ _ FC 1 z v DV). subst g'.
  assert (RV : r = v) by (unfold r; rewrite FT, firstn_all; auto).
  destruct (first_cdf_spec (rs a w) 1 v ltac:(lia)) as [(k & K1 & K2 & K3 & K4)|(K1 & K2)].
  - rewrite rs_len in K1. exists (S k). rewrite K2. split; [f_equal; f_equal; lia|]. split; [cbn [length]; lia|].
    rewrite RV. split; [rewrite FT; rewrite <- rs_nth by exact K1; exact K3|].
    intros HK. destruct k as [|k]; [lia|]. rewrite FT. rewrite <- rs_nth by lia. apply K4. lia.
  - exfalso. destruct w as [|b w]; [cbn in LW; lia|]. specialize (K2 (length w)). rewrite rs_len in K2. specialize (K2 ltac:(cbn; lia)).
    rewrite rs_nth in K2 by (cbn; lia). change (S (length w)) with (length (b :: w)) in K2. rewrite firstn_all in K2. lra.
Qed.
End Discrete.
