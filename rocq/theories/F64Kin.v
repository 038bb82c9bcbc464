(** * Energies, speeds and directions in double precision: proofs *)
From Coq Require Import ZArith Reals Lra Lia Bool List Psatz.
From Coq Require Import Floats.SpecFloat.
From Flocq Require Import Core.Zaux Core.Raux Core.Defs Core.Generic_fmt Core.Round_NE Core.Ulp IEEE754.BinarySingleNaN.
From Verif Require Import Num Outcome F64Facts F64Real F64Draw Vec Particle Pusher.
Local Open Scope R_scope.

Lemma rnd_fmt x : representable (rnd x).
Proof. apply generic_format_round; [apply vexp64|apply valid_rnd_N]. Qed.
Lemma rnd_bound x e : (-1074 <= e)%Z -> x <= two e -> rnd x <= two e.
Proof. intros H Q. rewrite <- (rnd_bpow e H). now apply rnd_le. Qed.
Lemma rnd_ge1 x : 1 <= x -> 1 <= rnd x.
Proof. intros Q. apply rnd_le in Q. rewrite rnd_1 in Q. exact Q. Qed.
Lemma rnd_le1 x : x <= 1 -> rnd x <= 1.
Proof. intros Q. apply rnd_le in Q. rewrite rnd_1 in Q. exact Q. Qed.

Lemma sqrt_ge1 x : 1 <= x -> 1 <= sqrt x.
Proof. intros Q. apply sqrt_le_1_alt in Q. rewrite sqrt_1 in Q. exact Q. Qed.
Lemma sqrt_le1 x : x <= 1 -> sqrt x <= 1.
Proof. intros Q. apply sqrt_le_1_alt in Q. rewrite sqrt_1 in Q. exact Q. Qed.

Lemma abs_sq x : Rabs x * Rabs x = x * x.
Proof. rewrite <- Rabs_mult. apply Rabs_pos_eq. nra. Qed.

(** three doubles with values *)
Definition dblv (v : vec spec_float) (a b c : R) : Prop := dbl (vx v) a /\ dbl (vy v) b /\ dbl (vz v) c.

(** the sum of squares as the code computes it *)
Definition fsq (a b c : R) : R := rnd (rnd (rnd (a * a) + rnd (b * b)) + rnd (c * c)).

Lemma sq_bound a e : Rabs a <= two e -> 0 <= a * a <= two (e + e).
Proof.
  intros H. rewrite bpow_plus. pose proof (Rabs_pos a). replace (a * a) with (Rabs a * Rabs a) by (rewrite <- Rabs_mult; apply Rabs_pos_eq; nra). nra.
Qed.

Section Kin.
Variable L : Libm.

Lemma mag2_dbl v a b c : dblv v a b c -> Rabs a <= two 490 -> Rabs b <= two 490 -> Rabs c <= two 490 ->
  dbl (@mag2 _ (Num_F64 L) v) (fsq a b c) /\ 0 <= fsq a b c <= two 982.
Proof.
  intros (DA & DB & DC) HA HB HC. apply sq_bound in HA, HB, HC. change (490 + 490)%Z with 980%Z in *.
  assert (T1 : two 981 = 2 * two 980) by (rewrite <- two_double; reflexivity).
  assert (T2 : two 982 = 2 * two 981) by (rewrite <- two_double; reflexivity).
  assert (TH : two 982 <= huge) by (apply bpow_le; lia). pose proof (two_pos 980) as P.
  assert (RA : 0 <= rnd (a * a) <= two 980) by (split; [apply rnd_nonneg|apply rnd_bound; [lia|]]; lra).
  assert (RB : 0 <= rnd (b * b) <= two 980) by (split; [apply rnd_nonneg|apply rnd_bound; [lia|]]; lra).
  assert (RC : 0 <= rnd (c * c) <= two 980) by (split; [apply rnd_nonneg|apply rnd_bound; [lia|]]; lra).
  assert (RS : 0 <= rnd (rnd (a * a) + rnd (b * b)) <= two 981) by (split; [apply rnd_nonneg|apply rnd_bound; [lia|]]; lra).
  split; [|unfold fsq; split; [apply rnd_nonneg|apply rnd_bound; [lia|]]; lra].
  unfold mag2, dot. cbn [nadd nmul Num_F64]. unfold fsq.
  apply dbl_add; [apply dbl_add| |]; try (apply dbl_mul; auto); rewrite Rabs_pos_eq; lra.
Qed.

Lemma fsq_ge a b c : rnd (a * a) <= fsq a b c /\ rnd (b * b) <= fsq a b c /\ rnd (c * c) <= fsq a b c.
Proof.
  assert (PA : 0 <= rnd (a * a)) by (apply rnd_nonneg; nra). assert (PB : 0 <= rnd (b * b)) by (apply rnd_nonneg; nra).
  assert (PC : 0 <= rnd (c * c)) by (apply rnd_nonneg; nra).
  assert (QA : rnd (a * a) <= rnd (rnd (a * a) + rnd (b * b))) by (rewrite <- (rnd_id (rnd (a * a)) (rnd_fmt _)) at 1; apply rnd_le; lra).
  assert (QB : rnd (b * b) <= rnd (rnd (a * a) + rnd (b * b))) by (rewrite <- (rnd_id (rnd (b * b)) (rnd_fmt _)) at 1; apply rnd_le; lra).
  assert (QS : rnd (rnd (a * a) + rnd (b * b)) <= fsq a b c) by (unfold fsq; rewrite <- (rnd_id (rnd (rnd (a * a) + rnd (b * b))) (rnd_fmt _)) at 1; apply rnd_le; lra).
  assert (QC : rnd (c * c) <= fsq a b c) by (unfold fsq; rewrite <- (rnd_id (rnd (c * c)) (rnd_fmt _)) at 1; apply rnd_le; lra).
  lra.
Qed.

(** the Lorentz factor as the code computes it *)
Definition fgamma (mu a b c : R) : R := rnd (sqrt (rnd (1 + rnd (fsq a b c / rnd (mu * mu))))).

Lemma gamma_dbl m mu v a b c : dbl m mu -> two (-10) <= mu <= two 400 ->
  dblv v a b c -> Rabs a <= two 490 -> Rabs b <= two 490 -> Rabs c <= two 490 ->
  dbl (@lepton_gamma _ (Num_F64 L) m v) (fgamma mu a b c) /\ 1 <= fgamma mu a b c <= two 502.
Proof.
  intros DM HM DV HA HB HC. destruct (mag2_dbl v a b c DV HA HB HC) as (DS & S0 & S1).
  pose proof (two_pos (-10)) as P. assert (PM : 0 < mu) by lra.
  assert (MM : two (-20) <= mu * mu <= two 800).
  { change (-20)%Z with (-10 + -10)%Z. change 800%Z with (400 + 400)%Z. rewrite !bpow_plus. pose proof (two_pos 400). nra. }
  assert (RM : two (-20) <= rnd (mu * mu) <= two 800).
  { split; [rewrite <- (rnd_bpow (-20)) by lia; apply rnd_le; lra|apply rnd_bound; [lia|lra]]. }
  pose proof (two_pos (-20)) as P2. set (q := fsq a b c / rnd (mu * mu)).
  assert (Q0 : 0 <= q <= two 1002).
  { unfold q. split; [apply Rmult_le_pos; [lra|apply Rlt_le, Rinv_0_lt_compat; lra]|].
    apply Rmult_le_reg_r with (rnd (mu * mu)); [lra|]. unfold Rdiv. rewrite Rmult_assoc, Rinv_l, Rmult_1_r by lra.
    eapply Rle_trans; [exact S1|]. change 982%Z with (1002 + -20)%Z. rewrite bpow_plus. apply Rmult_le_compat_l; [apply bpow_ge_0|lra]. }
  assert (Q1 : 0 <= rnd q <= two 1002) by (split; [apply rnd_nonneg; lra|apply rnd_bound; [lia|lra]]).
  assert (H1 : 1 <= two 1002) by (change 1 with (two 0); apply bpow_le; lia).
  assert (T1 : two 1003 = 2 * two 1002) by (rewrite <- two_double; reflexivity).
  assert (T2 : two 1003 <= huge) by (apply bpow_le; lia).
  assert (G1 : 1 <= rnd (1 + rnd q) <= two 1003) by (split; [apply rnd_ge1; lra|apply rnd_bound; [lia|lra]]).
  split.
  - unfold lepton_gamma. cbn [nsqrt nadd nmul ndiv n1 nlit Num_F64]. unfold fgamma. fold q. apply dbl_sqrt; [|lra].
    apply dbl_add; [apply dbl_1| |rewrite Rabs_pos_eq; lra]. apply dbl_div; [exact DS| |lra|fold q; rewrite Rabs_pos_eq; lra].
    apply dbl_mul; auto. rewrite Rabs_pos_eq by lra. eapply Rle_trans; [apply MM|]. apply bpow_le. lia.
  - unfold fgamma. fold q. split.
    + apply rnd_ge1, sqrt_ge1. lra.
    + apply rnd_bound; [lia|]. apply Rle_trans with (sqrt (two 502 * two 502)).
      * apply sqrt_le_1_alt. rewrite <- bpow_plus. eapply Rle_trans; [apply G1|]. apply bpow_le. lia.
      * rewrite sqrt_square; [apply Rle_refl|apply bpow_ge_0].
Qed.

(** speed over c as the code computes it *)
Lemma beta_dbl x gm : dbl x gm -> 1 <= gm <= two 502 ->
  exists r, dbl (f64_sqrt (f64_sub (f64_lit 1 0) (f64_div (f64_lit 1 0) (f64_mul x x)))) r /\
    r = rnd (sqrt (rnd (1 - rnd (1 / rnd (gm * gm))))) /\ 0 <= r <= 1.
Proof.
  intros D G. assert (T : two 1004 <= huge) by (apply bpow_le; lia).
  assert (GG : 1 <= gm * gm <= two 1004) by (change 1004%Z with (502 + 502)%Z; rewrite bpow_plus; nra).
  assert (GR : 1 <= rnd (gm * gm) <= two 1004) by (split; [apply rnd_ge1; lra|apply rnd_bound; [lia|lra]]).
  assert (H1 : 1 <= huge) by (unfold huge; change 1 with (two 0); apply bpow_le; lia).
  assert (I : 0 <= 1 / rnd (gm * gm) <= 1).
  { split; [apply Rmult_le_pos; [lra|apply Rlt_le, Rinv_0_lt_compat; lra]|].
    apply Rmult_le_reg_r with (rnd (gm * gm)); [lra|]. unfold Rdiv. rewrite Rmult_assoc, Rinv_l by lra. lra. }
  assert (IR : 0 <= rnd (1 / rnd (gm * gm)) <= 1) by (split; [apply rnd_nonneg|apply rnd_le1]; lra).
  assert (SR : 0 <= rnd (1 - rnd (1 / rnd (gm * gm))) <= 1) by (split; [apply rnd_nonneg|apply rnd_le1]; lra).
  eexists. split; [|split; [reflexivity|]].
  - apply dbl_sqrt; [|lra]. apply dbl_sub; [apply dbl_1| |rewrite Rabs_pos_eq; lra].
    apply dbl_div; [apply dbl_1| |lra|rewrite Rabs_pos_eq; lra]. apply dbl_mul; auto. rewrite Rabs_pos_eq; lra.
  - split; [apply rnd_nonneg, sqrt_pos|]. apply rnd_le1, sqrt_le1. lra.
Qed.

(** ** The square root of a rounded square is at least the number *)
Lemma sqrt_sq_ge a : representable a -> two (-500) <= a -> a <= rnd (sqrt (rnd (a * a))).
Proof.
  intros F A. pose proof (two_pos (-500)) as P. assert (PA : 0 < a) by lra. assert (NA : a <> 0) by lra.
  set (e := two (-53)). assert (EP : 0 < e) by apply two_pos. assert (ES : e < 1 / 1000000) by apply eps_small.
  assert (AA : two (-1000) <= a * a) by (change (-1000)%Z with (-500 + -500)%Z; rewrite bpow_plus; nra).
  assert (RA : a * a * (1 - e) <= rnd (a * a)).
  { assert (Q : two (-1022) <= Rabs (a * a)).
    { rewrite Rabs_pos_eq by nra. eapply Rle_trans; [|exact AA]. apply bpow_le. lia. }
    pose proof (rnd_rel _ Q) as R1. fold e in R1. rewrite (Rabs_pos_eq (a * a)) in R1 by nra. apply Rabs_le_inv in R1. lra. }
  destruct (Raux.mag radix2 a) as [k Hk]. specialize (Hk NA). rewrite Rabs_pos_eq in Hk by lra.
  destruct (Req_dec a (two (k - 1))) as [Q|Q].
  - rewrite Q, <- bpow_plus. assert (HK : (-500 < k)%Z) by (apply (lt_bpow radix2); lra).
    rewrite rnd_bpow by lia. rewrite bpow_plus, sqrt_square by (apply bpow_ge_0). rewrite rnd_bpow by lia. apply Rle_refl.
  - assert (HK : (-500 < k)%Z) by (apply (lt_bpow radix2); lra).
    apply round_N_ge_midp; [apply vexp64|exact F|].
    rewrite pred_eq_pos by lra. unfold pred_pos. rewrite (mag_unique_pos radix2 a k Hk).
    rewrite Req_bool_false by exact Q. rewrite ulp_neq_0 by exact NA. unfold cexp. rewrite (mag_unique_pos radix2 a k Hk).
    replace (fexp64 k) with (k - 53)%Z by (unfold SpecFloat.fexp, SpecFloat.emin; lia).
    assert (TK : two (k - 53) = e * two k) by (unfold e; rewrite <- bpow_plus; f_equal; lia).
    (* a is at most one unit below the next power of two *)
    assert (UB : a <= two k * (1 - e)).
    { assert (FK : representable (two k)) by (apply generic_format_bpow; unfold SpecFloat.fexp, SpecFloat.emin; lia).
      pose proof (pred_ge_gt radix2 fexp64 a (two k) F FK (proj2 Hk)) as PG. rewrite pred_bpow in PG.
      replace (fexp64 k) with (k - 53)%Z in PG by (unfold SpecFloat.fexp, SpecFloat.emin; lia). lra. }
    apply Rlt_le_trans with (sqrt (a * a * (1 - e))); [|now apply sqrt_le_1_alt].
    rewrite sqrt_mult by nra. rewrite sqrt_square by lra.
    assert (SE : 1 - e / 2 - e * e / 2 <= sqrt (1 - e)).
    { rewrite <- (sqrt_square (1 - e / 2 - e * e / 2)) by nra. apply sqrt_le_1_alt. nra. }
    apply Rlt_le_trans with (a * (1 - e / 2 - e * e / 2)); [|apply Rmult_le_compat_l; lra].
    rewrite TK. assert (a * (1 + e) < two k) by (pose proof (two_pos k); nra). nra.
Qed.
End Kin.

(** ** Error bounds *)
Lemma rnd_err x : Rabs (rnd x - x) <= two (-53) * Rabs x + two (-1075).
Proof.
  pose proof (two_pos (-53)). pose proof (two_pos (-1075)). pose proof (Rabs_pos x).
  destruct (Rle_or_lt (two (-1022)) (Rabs x)) as [Q|Q]; [apply rnd_rel in Q; lra|apply rnd_abs_err in Q; nra].
Qed.

Lemma scale_up e k X : 0 < e < 1 / 1000000 -> 0 <= k <= 10 -> 0 <= X -> (1 + e) * ((1 + k * e) * X) <= (1 + (k + 11 / 10) * e) * X.
Proof.
  intros E K HX. replace ((1 + e) * ((1 + k * e) * X)) with ((1 + e + k * e + k * (e * e)) * X) by ring.
  apply Rmult_le_compat_r; [exact HX|]. assert (e * e <= e / 1000) by nra. nra.
Qed.
Lemma scale_down e k X : 0 < e < 1 / 1000000 -> 0 <= k <= 10 -> 0 <= X -> (1 - (k + 11 / 10) * e) * X <= (1 - e) * ((1 - k * e) * X).
Proof.
  intros E K HX. replace ((1 - e) * ((1 - k * e) * X)) with ((1 - e - k * e + k * (e * e)) * X) by ring.
  apply Rmult_le_compat_r; [exact HX|]. nra.
Qed.

Lemma fsq_err a b c : let P := a * a + b * b + c * c in
  (1 - 4 * two (-53)) * P - 4 * two (-1075) <= fsq a b c <= (1 + 4 * two (-53)) * P + 4 * two (-1075).
Proof.
  intros P. pose proof (two_pos (-53)) as E0. pose proof eps_small as E1. pose proof (two_pos (-1075)) as N0.
  pose proof (rnd_err (a * a)) as HA. pose proof (rnd_err (b * b)) as HB. pose proof (rnd_err (c * c)) as HC.
  assert (XA : 0 <= a * a) by nra. assert (XB : 0 <= b * b) by nra. assert (XC : 0 <= c * c) by nra.
  rewrite (Rabs_pos_eq (a * a)) in HA by exact XA. rewrite (Rabs_pos_eq (b * b)) in HB by exact XB. rewrite (Rabs_pos_eq (c * c)) in HC by exact XC.
  apply Rabs_le_inv in HA, HB, HC.
  assert (PA : 0 <= rnd (a * a)) by (apply rnd_nonneg; nra). assert (PB : 0 <= rnd (b * b)) by (apply rnd_nonneg; nra).
  assert (PC : 0 <= rnd (c * c)) by (apply rnd_nonneg; nra).
  pose proof (rnd_plus_rel (rnd (a * a)) (rnd (b * b)) (rnd_fmt _) (rnd_fmt _)) as H1.
  rewrite (Rabs_pos_eq (rnd (a * a) + rnd (b * b))) in H1 by lra. apply Rabs_le_inv in H1.
  assert (P1 : 0 <= rnd (rnd (a * a) + rnd (b * b))) by (apply rnd_nonneg; lra).
  pose proof (rnd_plus_rel (rnd (rnd (a * a) + rnd (b * b))) (rnd (c * c)) (rnd_fmt _) (rnd_fmt _)) as H2. fold (fsq a b c) in H2.
  rewrite (Rabs_pos_eq (rnd (rnd (a * a) + rnd (b * b)) + rnd (c * c))) in H2 by lra. apply Rabs_le_inv in H2.
  set (s1 := rnd (rnd (a * a) + rnd (b * b))) in *. set (A := rnd (a * a)) in *. set (B := rnd (b * b)) in *. set (C := rnd (c * c)) in *.
  set (S := fsq a b c) in *. set (X := a * a) in *. set (Y := b * b) in *. set (Z0 := c * c) in *. set (e := two (-53)) in *. set (n := two (-1075)) in *.
  assert (E : 0 < e < 1 / 1000000) by lra.
  pose proof (scale_up e 1 (X + Y) E ltac:(lra) ltac:(lra)) as U1. pose proof (scale_down e 1 (X + Y) E ltac:(lra) ltac:(lra)) as D1.
  pose proof (scale_up e (21 / 10) P E ltac:(lra) ltac:(unfold P; lra)) as U2. pose proof (scale_down e (21 / 10) P E ltac:(lra) ltac:(unfold P; lra)) as D2.
  assert (S1 : s1 <= (1 + 21 / 10 * e) * (X + Y) + 21 / 10 * n).
  { assert (A + B <= (1 + 1 * e) * (X + Y) + 2 * n) by lra.
    assert ((1 + e) * (A + B) <= (1 + e) * ((1 + 1 * e) * (X + Y) + 2 * n)) by (apply Rmult_le_compat_l; lra). nra. }
  assert (S2 : (1 - 21 / 10 * e) * (X + Y) - 21 / 10 * n <= s1).
  { assert ((1 - 1 * e) * (X + Y) - 2 * n <= A + B) by lra.
    assert ((1 - e) * ((1 - 1 * e) * (X + Y) - 2 * n) <= (1 - e) * (A + B)) by (apply Rmult_le_compat_l; lra). nra. }
  assert (S3 : s1 + C <= (1 + 21 / 10 * e) * P + 31 / 10 * n) by (unfold P; nra).
  assert (S4 : (1 - 21 / 10 * e) * P - 31 / 10 * n <= s1 + C) by (unfold P; nra).
  assert (PP : 0 <= P) by (unfold P; lra).
  assert (S5 : (1 + e) * (s1 + C) <= (1 + e) * ((1 + 21 / 10 * e) * P + 31 / 10 * n)) by (apply Rmult_le_compat_l; lra).
  assert (S6 : (1 - e) * ((1 - 21 / 10 * e) * P - 31 / 10 * n) <= (1 - e) * (s1 + C)) by (apply Rmult_le_compat_l; lra).
  split; nra.
Qed.

Lemma fsq_pos a b c : 0 <= fsq a b c.
Proof. destruct (fsq_ge a b c) as [H _]. eapply Rle_trans; [|exact H]. apply rnd_nonneg. nra. Qed.

(** relative error of a square root *)
Lemma sqrt_rel G Q k : 0 < Q -> 0 <= k <= 1 / 1000 -> (1 - k) * Q <= G <= (1 + k) * Q ->
  (1 - k) * sqrt Q <= sqrt G <= (1 + k) * sqrt Q.
Proof.
  intros HQ K [G1 G2]. pose proof (sqrt_pos Q). split.
  - replace ((1 - k) * sqrt Q) with (sqrt ((1 - k) * (1 - k) * Q)).
    + apply sqrt_le_1_alt. nra.
    + rewrite sqrt_mult by nra. rewrite sqrt_square by lra. reflexivity.
  - replace ((1 + k) * sqrt Q) with (sqrt ((1 + k) * (1 + k) * Q)).
    + apply sqrt_le_1_alt. nra.
    + rewrite sqrt_mult by nra. rewrite sqrt_square by lra. reflexivity.
Qed.

Lemma eta_eps : two (-1075) <= two (-53) / 1000000.
Proof.
  apply Rle_trans with (two (-53) * two (-53)); [rewrite <- bpow_plus; apply bpow_le; lia|].
  pose proof (two_pos (-53)). pose proof eps_small. nra.
Qed.

(** the computed Lorentz factor of a unit mass *)
Lemma fgamma_one a b c : fgamma 1 a b c = rnd (sqrt (rnd (1 + fsq a b c))).
Proof. unfold fgamma. rewrite Rmult_1_r, rnd_1. unfold Rdiv. rewrite Rinv_1, Rmult_1_r. rewrite (rnd_id (fsq a b c)); [reflexivity|apply rnd_fmt]. Qed.

Lemma fgamma_err a b c : let g := sqrt (1 + a * a + b * b + c * c) in
  (1 - 8 * two (-53)) * g <= fgamma 1 a b c <= (1 + 8 * two (-53)) * g.
Proof.
  intros g. rewrite fgamma_one. pose proof (two_pos (-53)) as E0. pose proof eps_small as E1. pose proof (two_pos (-1075)) as N0. pose proof eta_eps as N1.
  pose proof (fsq_err a b c) as HS. cbv zeta in HS. assert (S0 : 0 <= fsq a b c) by apply fsq_pos.
  assert (P0 : 0 <= a * a + b * b + c * c) by nra. set (P := a * a + b * b + c * c) in *.
  assert (EQ : 1 + a * a + b * b + c * c = 1 + P) by (unfold P; ring). unfold g. rewrite EQ. clear g EQ.
  pose proof (rnd_plus_rel 1 (fsq a b c) fmt1 (rnd_fmt _)) as HG. rewrite (Rabs_pos_eq (1 + fsq a b c)) in HG by lra. apply Rabs_le_inv in HG.
  set (S := fsq a b c) in *. set (e := two (-53)) in *. set (n := two (-1075)) in *. set (G := rnd (1 + S)) in *.
  assert (B1 : (1 - 41 / 10 * e) * (1 + P) <= 1 + S) by nra. assert (B2 : 1 + S <= (1 + 41 / 10 * e) * (1 + P)) by nra.
  assert (E : 0 < e < 1 / 1000000) by lra.
  pose proof (scale_up e (41 / 10) (1 + P) E ltac:(lra) ltac:(lra)) as U. pose proof (scale_down e (41 / 10) (1 + P) E ltac:(lra) ltac:(lra)) as D.
  assert (B3 : (1 + e) * (1 + S) <= (1 + e) * ((1 + 41 / 10 * e) * (1 + P))) by (apply Rmult_le_compat_l; lra).
  assert (B4 : (1 - e) * ((1 - 41 / 10 * e) * (1 + P)) <= (1 - e) * (1 + S)) by (apply Rmult_le_compat_l; lra).
  destruct (sqrt_rel G (1 + P) (52 / 10 * e)) as [Q1 Q2]; [lra|lra|split; nra|].
  assert (SP : 1 <= sqrt (1 + P)) by (apply sqrt_ge1; lra). assert (G1 : 1 <= G) by (apply rnd_ge1; lra). assert (SG : 1 <= sqrt G) by now apply sqrt_ge1.
  pose proof (rnd_rel (sqrt G)) as R. rewrite (Rabs_pos_eq (sqrt G)) in R by lra. fold e in R.
  assert (T : two (-1022) <= 1) by (change 1 with (two 0); apply bpow_le; lia). specialize (R ltac:(lra)). apply Rabs_le_inv in R.
  pose proof (scale_up e (52 / 10) (sqrt (1 + P)) E ltac:(lra) ltac:(lra)) as U3. pose proof (scale_down e (52 / 10) (sqrt (1 + P)) E ltac:(lra) ltac:(lra)) as D3.
  assert (B5 : (1 + e) * sqrt G <= (1 + e) * ((1 + 52 / 10 * e) * sqrt (1 + P))) by (apply Rmult_le_compat_l; lra).
  assert (B6 : (1 - e) * ((1 - 52 / 10 * e) * sqrt (1 + P)) <= (1 - e) * sqrt G) by (apply Rmult_le_compat_l; lra).
  split; nra.
Qed.

(** no component of a momentum exceeds the computed Lorentz factor (unit mass) *)
Lemma fgamma_ge_abs a b c x : representable x -> rnd (x * x) <= fsq a b c -> Rabs x <= fgamma 1 a b c.
Proof.
  intros F H. rewrite fgamma_one. destruct (Rle_or_lt (Rabs x) 1) as [Q|Q].
  - eapply Rle_trans; [exact Q|]. apply rnd_ge1, sqrt_ge1, rnd_ge1. assert (0 <= rnd (x * x)) by (apply rnd_nonneg; nra). lra.
  - assert (FX : representable (Rabs x)) by now apply generic_format_abs.
    eapply Rle_trans; [apply (sqrt_sq_ge (Rabs x) FX)|].
    + eapply Rle_trans; [|apply Rlt_le, Q]. change 1 with (two 0). apply bpow_le. lia.
    + apply rnd_le, sqrt_le_1_alt. replace (Rabs x * Rabs x) with (x * x) by (symmetry; apply abs_sq).
      rewrite <- (rnd_id (rnd (x * x))) by apply rnd_fmt. apply rnd_le. lra.
Qed.

(** one component of the computed velocity *)
Lemma quot_le1 x g : 1 <= g -> Rabs x <= g -> Rabs (rnd (x / g)) <= 1.
Proof.
  intros G H. rewrite rnd_abs. apply rnd_le1. unfold Rdiv. rewrite Rabs_mult, (Rabs_pos_eq (/ g)) by (apply Rlt_le, Rinv_0_lt_compat; lra).
  apply Rmult_le_reg_r with g; [lra|]. rewrite Rmult_assoc, Rinv_l by lra. lra.
Qed.

Lemma sq_rnd w : Rabs w <= 1 ->
  (1 - 21 / 10 * two (-53)) * (w * w) - 3 * two (-1075) <= rnd w * rnd w <= (1 + 21 / 10 * two (-53)) * (w * w) + 3 * two (-1075).
Proof.
  intros H. pose proof (rnd_err w) as R. pose proof (two_pos (-53)) as E0. pose proof eps_small as E1. pose proof (two_pos (-1075)) as N0. pose proof eta_eps as N1.
  set (e := two (-53)) in *. set (n := two (-1075)) in *.
  assert (K : forall x y, 0 <= y <= 1 -> 0 <= x -> y - (e * y + n) <= x <= y + (e * y + n) ->
    (1 - 21 / 10 * e) * (y * y) - 3 * n <= x * x <= (1 + 21 / 10 * e) * (y * y) + 3 * n).
  { intros x y Y X [X1 X2]. split.
    - destruct (Rle_or_lt 0 ((1 - e) * y - n)) as [Q|Q]; [|nra].
      assert (((1 - e) * y - n) * ((1 - e) * y - n) <= x * x) by (apply Rmult_le_compat; lra). nra.
    - assert (x * x <= ((1 + e) * y + n) * ((1 + e) * y + n)) by (apply Rmult_le_compat; lra).
      assert (e * e * (y * y) <= e / 10 * (y * y)) by (apply Rmult_le_compat_r; nra).
      assert (n * ((1 + e) * y) <= n * (11 / 10)) by (apply Rmult_le_compat_l; nra).
      assert (n * n <= n * (1 / 10)) by (apply Rmult_le_compat_l; nra).
      replace (((1 + e) * y + n) * ((1 + e) * y + n)) with (y * y + 2 * e * (y * y) + e * e * (y * y) + 2 * (n * ((1 + e) * y)) + n * n) in H0 by ring. lra. }
  specialize (K (Rabs (rnd w)) (Rabs w)). replace (Rabs w * Rabs w) with (w * w) in K by (symmetry; apply abs_sq).
  replace (Rabs (rnd w) * Rabs (rnd w)) with (rnd w * rnd w) in K by (symmetry; apply abs_sq).
  apply K; [split; [apply Rabs_pos|exact H]|apply Rabs_pos|].
  pose proof (Rabs_triang_inv (rnd w) w). pose proof (Rabs_triang_inv w (rnd w)). rewrite (Rabs_minus_sym w) in H1. lra.
Qed.

Lemma vel_bound a b c g : 1 <= g -> Rabs a <= g -> Rabs b <= g -> Rabs c <= g ->
  (1 - 8 * two (-53)) * sqrt (1 + a * a + b * b + c * c) <= g ->
  let x := rnd (a / g) in let y := rnd (b / g) in let z := rnd (c / g) in x * x + y * y + z * z <= 1 + two (-48).
Proof.
  intros G HA HB HC HG x y z. pose proof (two_pos (-53)) as E0. pose proof eps_small as E1. pose proof (two_pos (-1075)) as N0. pose proof eta_eps as N1.
  assert (W : forall t, Rabs t <= g -> Rabs (t / g) <= 1).
  { intros t Ht. unfold Rdiv. rewrite Rabs_mult, (Rabs_pos_eq (/ g)) by (apply Rlt_le, Rinv_0_lt_compat; lra).
    apply Rmult_le_reg_r with g; [lra|]. rewrite Rmult_assoc, Rinv_l by lra. lra. }
  pose proof (sq_rnd _ (W a HA)) as QA. pose proof (sq_rnd _ (W b HB)) as QB. pose proof (sq_rnd _ (W c HC)) as QC.
  fold x in QA. fold y in QB. fold z in QC. set (e := two (-53)) in *. set (n := two (-1075)) in *.
  assert (T48 : two (-48) = 32 * e) by (unfold e; change (-48)%Z with (5 + -53)%Z; rewrite bpow_plus; reflexivity). rewrite T48.
  set (P := a * a + b * b + c * c). assert (P0 : 0 <= P) by (unfold P; nra).
  assert (EQ : 1 + a * a + b * b + c * c = 1 + P) by (unfold P; ring). rewrite EQ in HG.
  assert (SW : (a / g) * (a / g) + (b / g) * (b / g) + (c / g) * (c / g) = P / (g * g)) by (unfold P; field; lra).
  assert (PG : P / (g * g) <= 1 + 18 * e).
  { assert (SS : sqrt (1 + P) * sqrt (1 + P) = 1 + P) by (apply sqrt_sqrt; lra). pose proof (sqrt_pos (1 + P)) as SP.
    assert (GG : (1 - 8 * e) * (1 - 8 * e) * (1 + P) <= g * g).
    { rewrite <- SS. replace ((1 - 8 * e) * (1 - 8 * e) * (sqrt (1 + P) * sqrt (1 + P))) with (((1 - 8 * e) * sqrt (1 + P)) * ((1 - 8 * e) * sqrt (1 + P))) by ring.
      apply Rmult_le_compat; nra. }
    apply Rmult_le_reg_r with (g * g); [nra|]. replace (P / (g * g) * (g * g)) with P by (field; lra).
    assert (KK : 1 <= (1 + 18 * e) * ((1 - 8 * e) * (1 - 8 * e))) by nra.
    apply Rle_trans with ((1 + 18 * e) * ((1 - 8 * e) * (1 - 8 * e) * (1 + P))); [nra|apply Rmult_le_compat_l; lra]. }
  assert (PQ : 0 <= P / (g * g)) by (apply Rmult_le_pos; [lra|apply Rlt_le, Rinv_0_lt_compat; nra]). nra.
Qed.

(** the magnitude as the code computes it *)
Definition fmag (a b c : R) : R := rnd (sqrt (fsq a b c)).

Lemma fmag_ge a b c x M : representable x -> representable M -> two (-400) <= Rabs M -> Rabs x <= Rabs M ->
  rnd (x * x) <= fsq a b c -> rnd (M * M) <= fsq a b c -> Rabs x <= fmag a b c.
Proof.
  intros FX FM HM XM HX HQ. assert (FA : representable (Rabs M)) by now apply generic_format_abs.
  eapply Rle_trans; [exact XM|]. eapply Rle_trans; [apply (sqrt_sq_ge _ FA)|].
  - eapply Rle_trans; [|exact HM]. apply bpow_le. lia.
  - apply rnd_le, sqrt_le_1_alt. replace (Rabs M * Rabs M) with (M * M) by (symmetry; apply abs_sq). exact HQ.
Qed.

Lemma fmag_err a b c : two (-800) <= a * a + b * b + c * c -> let l := sqrt (a * a + b * b + c * c) in
  (1 - 6 * two (-53)) * l <= fmag a b c <= (1 + 6 * two (-53)) * l.
Proof.
  intros HP l. pose proof (two_pos (-53)) as E0. pose proof eps_small as E1. pose proof (two_pos (-1075)) as N0. pose proof (two_pos (-800)) as P8.
  pose proof (fsq_err a b c) as HS. cbv zeta in HS. unfold l, fmag. set (P := a * a + b * b + c * c) in *. clear l.
  assert (NP : two (-1075) <= two (-53) / 1000 * P).
  { apply Rle_trans with (two (-53) * two (-53) * P).
    - apply Rle_trans with (two (-53) * two (-53) * two (-800)); [rewrite <- !bpow_plus; apply bpow_le; lia|]. apply Rmult_le_compat_l; [nra|exact HP].
    - apply Rmult_le_compat_r; [lra|]. nra. }
  set (S := fsq a b c) in *. set (e := two (-53)) in *. set (n := two (-1075)) in *. assert (E : 0 < e < 1 / 1000000) by lra.
  destruct (sqrt_rel S P (41 / 10 * e)) as [Q1 Q2]; [lra|lra|split; nra|].
  assert (SL : two (-402) <= sqrt S).
  { replace (two (-402)) with (sqrt (two (-402) * two (-402))) by (apply sqrt_square, bpow_ge_0). apply sqrt_le_1_alt.
    rewrite <- bpow_plus. change (-402 + -402)%Z with (-4 + -800)%Z. rewrite bpow_plus. change (two (-4)) with (/ 16). nra. }
  pose proof (two_pos (-402)). pose proof (rnd_rel (sqrt S)) as R. rewrite (Rabs_pos_eq (sqrt S)) in R by lra. fold e in R.
  assert (T : two (-1022) <= two (-402)) by (apply bpow_le; lia). specialize (R ltac:(lra)). apply Rabs_le_inv in R.
  pose proof (sqrt_pos P). pose proof (scale_up e (41 / 10) (sqrt P) E ltac:(lra) ltac:(lra)) as U3. pose proof (scale_down e (41 / 10) (sqrt P) E ltac:(lra) ltac:(lra)) as D3.
  assert (B5 : (1 + e) * sqrt S <= (1 + e) * ((1 + 41 / 10 * e) * sqrt P)) by (apply Rmult_le_compat_l; lra).
  assert (B6 : (1 - e) * ((1 - 41 / 10 * e) * sqrt P) <= (1 - e) * sqrt S) by (apply Rmult_le_compat_l; lra).
  split; nra.
Qed.

Lemma dir_bound a b c m : 0 < m -> Rabs a <= m -> Rabs b <= m -> Rabs c <= m ->
  let l := sqrt (a * a + b * b + c * c) in 0 < l -> (1 - 6 * two (-53)) * l <= m <= (1 + 6 * two (-53)) * l ->
  let x := rnd (a / m) in let y := rnd (b / m) in let z := rnd (c / m) in Rabs (x * x + y * y + z * z - 1) <= two (-49).
Proof.
  intros G HA HB HC l L0 HG x y z. pose proof (two_pos (-53)) as E0. pose proof eps_small as E1. pose proof (two_pos (-1075)) as N0. pose proof eta_eps as N1.
  assert (W : forall t, Rabs t <= m -> Rabs (t / m) <= 1).
  { intros t Ht. unfold Rdiv. rewrite Rabs_mult, (Rabs_pos_eq (/ m)) by (apply Rlt_le, Rinv_0_lt_compat; lra).
    apply Rmult_le_reg_r with m; [lra|]. rewrite Rmult_assoc, Rinv_l by lra. lra. }
  pose proof (sq_rnd _ (W a HA)) as QA. pose proof (sq_rnd _ (W b HB)) as QB. pose proof (sq_rnd _ (W c HC)) as QC.
  fold x in QA. fold y in QB. fold z in QC. set (e := two (-53)) in *. set (n := two (-1075)) in *.
  assert (T49 : two (-49) = 16 * e) by (unfold e; change (-49)%Z with (4 + -53)%Z; rewrite bpow_plus; reflexivity). rewrite T49.
  assert (P0 : 0 <= a * a + b * b + c * c) by nra.
  assert (SS : l * l = a * a + b * b + c * c) by (apply sqrt_sqrt; lra).
  assert (SW : (a / m) * (a / m) + (b / m) * (b / m) + (c / m) * (c / m) = l * l / (m * m)) by (rewrite SS; field; lra).
  assert (PG : 1 - 13 * e <= l * l / (m * m) <= 1 + 13 * e).
  { assert (MM : (1 - 6 * e) * (1 - 6 * e) * (l * l) <= m * m <= (1 + 6 * e) * (1 + 6 * e) * (l * l)).
    { split; [replace ((1 - 6 * e) * (1 - 6 * e) * (l * l)) with (((1 - 6 * e) * l) * ((1 - 6 * e) * l)) by ring|
              replace ((1 + 6 * e) * (1 + 6 * e) * (l * l)) with (((1 + 6 * e) * l) * ((1 + 6 * e) * l)) by ring]; apply Rmult_le_compat; nra. }
    assert (LL : 0 < l * l) by nra.
    split; apply Rmult_le_reg_r with (m * m); try nra; replace (l * l / (m * m) * (m * m)) with (l * l) by (field; lra).
    - assert (KK : (1 - 13 * e) * ((1 + 6 * e) * (1 + 6 * e)) <= 1) by nra.
      apply Rle_trans with ((1 - 13 * e) * ((1 + 6 * e) * (1 + 6 * e) * (l * l))); [apply Rmult_le_compat_l; lra|nra].
    - assert (KK : 1 <= (1 + 13 * e) * ((1 - 6 * e) * (1 - 6 * e))) by nra.
      apply Rle_trans with ((1 + 13 * e) * ((1 - 6 * e) * (1 - 6 * e) * (l * l))); [nra|apply Rmult_le_compat_l; lra]. }
  apply Rabs_le. split; nra.
Qed.
