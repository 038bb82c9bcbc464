(** * Double precision: drawn numbers (C116), energies and speeds (C117), field-free motion (C118), counting (C119),
      interpolation (C120) *)
From Coq Require Import ZArith Reals Lra Lia Bool List Psatz String.
From Coq Require Import Floats.SpecFloat.
From Flocq Require Import Core.Zaux Core.Raux Core.Defs Core.Generic_fmt Core.Round_NE IEEE754.BinarySingleNaN.
From Verif Require Import Num RNum Outcome OutcomeFacts F64Facts F64Real F64Draw F64Kin F64Zero F64Hist F64Interp MCTools MCFacts Numerics SpecTable NumericsFacts
  Vec Particle Fields Pusher Histogram HistFacts.
Import ListNotations.
Local Open Scope R_scope.

(** Vocabulary.  [dbl x r]: the double [x] is finite and its value is the real [r].  [rnd]: rounding to the nearest double, ties to even
    (Flocq).  [two e] is 2^e.  [dblv v a b c]: the three components.  Every theorem holds for every library [L] of elementary functions. *)

(** ** C116: drawn numbers *)

(** [RandDouble(0, high)] stays below [high]; this includes the draw between 0 and 1 used everywhere *)
Theorem C116_from_zero : forall (L : Libm) (E : Engine spec_float) (g : est E) (u : R) hi b,
  dbl (fst (e_canon E g)) u -> 0 <= u < 1 -> dbl hi b -> two (-1022) < b <= two 1020 ->
  exists x, dbl (fst (@rand_double _ (Num_F64 L) E (f64_lit 0 0) hi g)) x /\ x = rnd (u * b) /\ 0 <= x < b.
Proof. intros L E g u hi b CU U DB HB. exact (draw_from_zero L E g u CU U hi b DB HB). Qed.

(** in general: not below [low], and above [high] at most by a few units of the last place of the larger limit *)
Theorem C116_range : forall (L : Libm) (E : Engine spec_float) (g : est E) (u : R) lo hi a b,
  dbl (fst (e_canon E g)) u -> 0 <= u < 1 -> dbl lo a -> dbl hi b -> a <= b -> Rabs a <= two 1020 -> Rabs b <= two 1020 ->
  exists x, dbl (fst (@rand_double _ (Num_F64 L) E lo hi g)) x /\ a <= x <= b + two (-51) * Rmax (Rabs a) (Rabs b).
Proof. intros L E g u lo hi a b CU U. exact (draw_range L E g u CU U lo hi a b). Qed.

(** the largest double below one *)
Definition almost_one : spec_float := S754_finite false 9007199254740991 (-53).
Lemma almost_one_dbl : dbl almost_one (1 - two (-53)).
Proof.
  exists (f64 almost_one eq_refl). split; [apply toSF_f64|]. split; [reflexivity|]. unfold f64. rewrite B2R_SF2B.
  unfold SF2R, almost_one, F2R. cbn [cond_Zopp Fnum Fexp]. change (two (-53)) with (/ 9007199254740992). lra.
Qed.
Definition const_engine (u : spec_float) : Engine spec_float := mkEngine _ unit (fun _ => (u, tt)) (fun _ _ => ([], tt)).

(** the interval is not half open: the upper limit itself is drawn *)
Theorem C116_half_open_refuted : exists (E : Engine spec_float) (g : est E) (u : R),
  dbl (fst (e_canon E g)) u /\ 0 <= u < 1 /\
  forall L, fst (@rand_double _ (Num_F64 L) E (f64_lit 1 0) (f64_lit 2 0) g) = f64_lit 2 0.
Proof.
  exists (const_engine almost_one), tt, (1 - two (-53)). split; [apply almost_one_dbl|]. split; [pose proof (two_pos (-53)); pose proof eps_small; lra|]. reflexivity.
Qed.

(** Optical depth.  The argument of the logarithm lies between 2^-53 and 1: never zero, negative or NaN.  With a logarithm that is not positive
    there and accurate to [d], the depth is a finite number, not negative, within [d] + 2^-52 of -ln(1 - u), and at most 40. *)
Theorem C116_depth : forall (L : Libm) (E : Engine spec_float) (g : est E) (u d : R),
  dbl (fst (e_canon E g)) u -> 0 <= u < 1 ->
  exists y r, dbl y r /\ two (-53) <= r <= 1 /\ fst (@draw_depth _ (Num_F64 L) E g) = f64_mul (f64_lit (-1) 0) (l_log L y) /\
    ((exists v, dbl (l_log L y) v /\ v <= 0 /\ Rabs (v - ln r) <= d) -> 0 <= d <= 1 ->
     exists t, dbl (fst (@draw_depth _ (Num_F64 L) E g)) t /\ 0 <= t <= 40 /\ Rabs (t - - ln (1 - u)) <= d + two (-52)).
Proof.
  intros L E g u d CU U. destruct (one_minus u (dbl_fmt _ _ CU) U) as [R1 R2].
  assert (D0 : dbl (fst (@rand_double _ (Num_F64 L) E (f64_lit 0 0) (f64_lit 1 0) g)) u).
  { destruct (draw_from_zero L E g u CU U (f64_lit 1 0) 1 dbl_1) as (x & DX & EX & _).
    - split; [change 1 with (two 0); apply bpow_lt; lia|change 1 with (two 0); apply bpow_le; lia].
    - rewrite Rmult_1_r, (rnd_rep _ _ CU) in EX. subst x. exact DX. }
  assert (H1 : 1 <= huge) by (unfold huge; change 1 with (two 0); apply bpow_le; lia).
  assert (DY : dbl (f64_sub (f64_lit 1 0) (fst (@rand_double _ (Num_F64 L) E (f64_lit 0 0) (f64_lit 1 0) g))) (rnd (1 - u))).
  { apply dbl_sub; [apply dbl_1|exact D0|]. rewrite Rabs_pos_eq; lra. }
  assert (EQ : fst (@draw_depth _ (Num_F64 L) E g) = f64_mul (f64_lit (-1) 0) (l_log L (f64_sub (f64_lit 1 0) (fst (@rand_double _ (Num_F64 L) E (f64_lit 0 0) (f64_lit 1 0) g))))).
  { unfold draw_depth. change (@n0 _ (Num_F64 L)) with (f64_lit 0 0). change (@n1 _ (Num_F64 L)) with (f64_lit 1 0).
    destruct (@rand_double _ (Num_F64 L) E (f64_lit 0 0) (f64_lit 1 0) g) as [x g']. reflexivity. }
  eexists _, (rnd (1 - u)). split; [exact DY|]. split; [exact R1|]. split; [exact EQ|].
  intros (v & DV & V0 & VL) HD. exists (- v).
  assert (DM : dbl (f64_lit (-1) 0) (-1)).
  { exists (f64 (f64_lit (-1) 0) eq_refl). split; [apply toSF_f64|]. split; [reflexivity|]. unfold f64. rewrite B2R_SF2B. vm_compute. lra. }
  assert (LB : - 39 <= ln (rnd (1 - u))).
  { apply Rle_trans with (ln (two (-53))).
    - rewrite bpow_powerRZ. change (IZR radix2) with 2. cbn [powerRZ]. rewrite ln_Rinv by (apply pow_lt; lra). rewrite ln_pow by lra.
      rewrite INR_IZR_INZ. replace (Z.of_nat (Pos.to_nat 53)) with 53%Z by reflexivity.
      assert (ln 2 <= 72 / 100).
      { apply Rlt_le. apply exp_lt_inv. rewrite exp_ln by lra.
        assert (Y : exp (72 / 1600) ^ 16 = exp (72 / 100)).
        { rewrite <- Rpower_pow by apply exp_pos. unfold Rpower. rewrite ln_exp. f_equal. rewrite INR_IZR_INZ. replace (Z.of_nat 16) with 16%Z by reflexivity. lra. }
        rewrite <- Y. apply Rlt_le_trans with ((1 + 72 / 1600) ^ 16); [lra|].
        apply pow_incr. split; [lra|]. apply Rlt_le, exp_ineq1. lra. }
      lra.
    - destruct R1 as [[R1|R1] _]; [apply Rlt_le, ln_increasing; [apply two_pos|exact R1]|rewrite <- R1; apply Rle_refl]. }
  assert (BV : - 40 <= v <= 0) by (apply Rabs_le_inv in VL; lra).
  assert (DT : dbl (f64_mul (f64_lit (-1) 0) (l_log L (f64_sub (f64_lit 1 0) (fst (@rand_double _ (Num_F64 L) E (f64_lit 0 0) (f64_lit 1 0) g))))) (- v)).
  { pose proof (dbl_mul _ _ _ _ DM DV) as Q. replace (-1 * v) with (- v) in Q by ring.
    rewrite (rnd_id (- v)) in Q by (apply generic_format_opp, (dbl_fmt _ _ DV)). apply Q. rewrite Rabs_Ropp.
    apply Rle_trans with (two 6); [change (two 6) with 64; apply Rabs_le; lra|apply bpow_le; lia]. }
  split; [rewrite EQ; exact DT|]. split; [lra|].
  replace (- v - - ln (1 - u)) with (- ((v - ln (rnd (1 - u))) + (ln (rnd (1 - u)) - ln (1 - u)))) by ring.
  rewrite Rabs_Ropp. eapply Rle_trans; [apply Rabs_triang|]. lra.
Qed.

(** [RandDiscrete]: with a rounded total above 2^-1022, an index from 1 to n - 1, never that of the first entry, and never that of an entry of weight
    zero except possibly index 1.  [fsum w k] is the rounded sum of the first [k] weights. *)
Theorem C116_discrete : forall (L : Libm) (E : Engine spec_float) (d : list spec_float) (w : list R) (g : est E) (u : R),
  Forall2 dbl d w -> (2 <= List.length w)%nat -> nonneg w -> two (-1022) < fsum w (List.length w) <= two 1020 ->
  dbl (fst (e_canon E g)) u -> 0 <= u < 1 ->
  let r := rnd (u * fsum w (List.length w)) in
  exists i : nat, @rand_discrete _ (Num_F64 L) E d g = Ok (Z.of_nat i, snd (e_canon E g)) /\
    (1 <= i < List.length w)%nat /\ r < fsum w (S i) /\ ((2 <= i)%nat -> fsum w i <= r /\ 0 < nth i w 0).
Proof.
  intros L E d w g u F LW NN T CU U r. destruct (discrete_dbl L E d w g u F LW NN T CU U) as (i & EI & HI & H1 & H2).
  exists i. split; [exact EI|]. split; [exact HI|]. split; [exact H1|]. intros I2. specialize (H2 I2). split; [exact H2|].
  assert (N0 : 0 <= nth i w 0) by (apply NN, nth_In; lia). destruct N0 as [N0|N0]; [exact N0|]. exfalso.
  rewrite fsum_S in H1 by lia. rewrite <- N0, Rplus_0_r in H1.
  assert (FR : representable (fsum w i)).
  { destruct i as [|i]; [lia|]. rewrite fsum_S by lia. apply rnd_fmt. }
  rewrite (rnd_id _ FR) in H1. fold r in H2. unfold r in *. lra.
Qed.

(** a total of 2^-1074: index 0 is returned *)
Theorem C116_tiny_total_refuted : exists (E : Engine spec_float) (g : est E) (u : R),
  dbl (fst (e_canon E g)) u /\ 0 <= u < 1 /\
  let d := [S754_zero false; S754_finite false 1 (-1074)] in
  Forall2 dbl d [0; two (-1074)] /\ forall L, exists g', @rand_discrete _ (Num_F64 L) E d g = Ok (0%Z, g').
Proof.
  exists (const_engine almost_one), tt, (1 - two (-53)). split; [apply almost_one_dbl|]. split; [pose proof (two_pos (-53)); pose proof eps_small; lra|].
  split.
  - constructor; [apply dbl_0|]. constructor; [|constructor]. exists (f64 (S754_finite false 1 (-1074)) eq_refl). split; [apply toSF_f64|]. split; [reflexivity|].
    unfold f64. rewrite B2R_SF2B. unfold SF2R, F2R. cbn [cond_Zopp Fnum Fexp]. lra.
  - intros L. exists tt. reflexivity.
Qed.

Print Assumptions C116_from_zero. Print Assumptions C116_range. Print Assumptions C116_half_open_refuted. Print Assumptions C116_depth.
Print Assumptions C116_discrete. Print Assumptions C116_tiny_total_refuted.

(** a draw from three weights 0, 1, 1 with the canonical number 1 - 2^-53 *)
Example C116_case : forall L,
  let d := [f64_lit 0 0; f64_lit 1 0; f64_lit 1 0] in
  Forall2 dbl d [0; 1; 1] /\ fsum [0; 1; 1] 3 = 2 /\ two (-1022) < 2 <= two 1020 /\ dbl almost_one (1 - two (-53)) /\ 0 <= 1 - two (-53) < 1 /\
  @rand_discrete _ (Num_F64 L) (const_engine almost_one) d tt = Ok (2%Z, tt).
Proof.
  intros L d. split; [repeat constructor; (apply dbl_0 || apply dbl_1)|]. split.
  - unfold fsum. cbn [firstn fold_left]. rewrite !Rplus_0_l, rnd_0, Rplus_0_l, rnd_1. change (1 + 1) with (two 1). apply (rnd_bpow 1). lia.
  - split; [split; [change 2 with (two 1); apply bpow_lt; lia|change 2 with (two 1); apply bpow_le; lia]|]. split; [apply almost_one_dbl|].
    split; [pose proof (two_pos (-53)); pose proof eps_small; lra|reflexivity].
Qed.

(** ** C117: energies, speeds, directions *)

Theorem C117_lepton : forall (L : Libm) (p : particle spec_float) mu a b c,
  p_type p = PLepton -> dbl (p_mass p) mu -> two (-10) <= mu <= two 400 ->
  dblv (p_mom p) a b c -> Rabs a <= two 490 -> Rabs b <= two 490 -> Rabs c <= two 490 ->
  exists gm en be, dbl (@get_gamma _ (Num_F64 L) p) gm /\ dbl (@get_energy _ (Num_F64 L) p) en /\ dbl (@get_beta _ (Num_F64 L) p) be /\
    1 <= gm /\ mu <= en /\ 0 <= be <= 1.
Proof.
  intros L p mu a b c PT DM HM DV HA HB HC. destruct (gamma_dbl L _ mu _ a b c DM HM DV HA HB HC) as (DG & G1 & G2).
  destruct (beta_dbl _ _ DG (conj G1 G2)) as (r & DB & _ & RB).
  exists (fgamma mu a b c), (rnd (mu * fgamma mu a b c)), r. unfold get_energy, get_beta, get_gamma. rewrite PT.
  assert (P : 0 < two (-10)) by apply two_pos. split; [exact DG|]. split; [|split; [exact DB|split; [exact G1|split; [|exact RB]]]].
  - apply dbl_mul; auto. rewrite Rabs_pos_eq by nra. apply Rle_trans with (two 400 * two 502); [apply Rmult_le_compat; lra|]. rewrite <- bpow_plus. apply bpow_le. lia.
  - rewrite <- (rnd_rep _ _ DM) at 1. apply rnd_le. nra.
Qed.

(** The particles of the program have mass 1 or 0 (Lepton.cpp, Photon.cpp).  Relative error of the Lorentz factor. *)
Theorem C117_gamma_error : forall (L : Libm) m v a b c, dbl m 1 ->
  dblv v a b c -> Rabs a <= two 490 -> Rabs b <= two 490 -> Rabs c <= two 490 ->
  exists gm, dbl (@lepton_gamma _ (Num_F64 L) m v) gm /\
    let exact := sqrt (1 + a * a + b * b + c * c) in Rabs (gm - exact) <= two (-50) * exact.
Proof.
  intros L m v a b c DM DV HA HB HC. destruct (gamma_dbl L m 1 v a b c DM) as (DG & _ & _); auto.
  { split; [change 1 with (two 0); apply bpow_le; lia|change 1 with (two 0); apply bpow_le; lia]. }
  exists (fgamma 1 a b c). split; [exact DG|]. pose proof (fgamma_err a b c) as Q. cbv zeta in *.
  replace (two (-50)) with (8 * two (-53)) by (change (-50)%Z with (3 + -53)%Z; rewrite bpow_plus; reflexivity). apply Rabs_le. lra.
Qed.

(** The velocity used to move a lepton: each component at most 1 (the speed of light), the length at most 1 + 2^-48. *)
Theorem C117_velocity : forall (L : Libm) m v a b c, dbl m 1 ->
  dblv v a b c -> Rabs a <= two 490 -> Rabs b <= two 490 -> Rabs c <= two 490 ->
  exists x y z, dblv (@push_position _ (Num_F64 L) m v) x y z /\
    Rabs x <= 1 /\ Rabs y <= 1 /\ Rabs z <= 1 /\ x * x + y * y + z * z <= 1 + two (-48).
Proof.
  intros L m v a b c DM DV HA HB HC. destruct (gamma_dbl L m 1 v a b c DM) as (DG & G1 & G2); auto.
  { split; [change 1 with (two 0); apply bpow_le; lia|change 1 with (two 0); apply bpow_le; lia]. }
  destruct (fsq_ge a b c) as (SA & SB & SC). destruct DV as (DA & DB & DC).
  pose proof (fgamma_ge_abs a b c a (dbl_fmt _ _ DA) SA) as GA. pose proof (fgamma_ge_abs a b c b (dbl_fmt _ _ DB) SB) as GB.
  pose proof (fgamma_ge_abs a b c c (dbl_fmt _ _ DC) SC) as GC. pose proof (fgamma_err a b c) as GE. cbv zeta in GE.
  assert (H1 : 1 <= huge) by (unfold huge; change 1 with (two 0); apply bpow_le; lia).
  assert (DMG : dbl (f64_mul m (@lepton_gamma _ (Num_F64 L) m v)) (fgamma 1 a b c)).
  { pose proof (dbl_mul _ _ _ _ DM DG) as Q. rewrite Rmult_1_l, (rnd_rep _ _ DG) in Q. apply Q. rewrite Rabs_pos_eq by lra. eapply Rle_trans; [exact G2|]. apply bpow_le. lia. }
  set (gm := fgamma 1 a b c) in *.
  assert (QD : forall x t, dbl x t -> Rabs t <= gm -> dbl (f64_div x (f64_mul m (@lepton_gamma _ (Num_F64 L) m v))) (rnd (t / gm))).
  { intros x t DX HT. apply dbl_div; auto; [lra|]. unfold Rdiv. rewrite Rabs_mult, (Rabs_pos_eq (/ gm)) by (apply Rlt_le, Rinv_0_lt_compat; lra).
    apply Rle_trans with 1; [|exact H1]. apply Rmult_le_reg_r with gm; [lra|]. rewrite Rmult_assoc, Rinv_l by lra. lra. }
  exists (rnd (a / gm)), (rnd (b / gm)), (rnd (c / gm)). split; [repeat split; apply QD; auto|].
  split; [now apply quot_le1|]. split; [now apply quot_le1|]. split; [now apply quot_le1|]. apply vel_bound; auto. lra.
Qed.

(** Directions of particles whose momentum has a component of at least 2^-400: components at most 1, length 1 up to 2^-49; photon energies within 2^-50. *)
Theorem C117_direction : forall (L : Libm) (p : particle spec_float) a b c,
  dblv (p_mom p) a b c -> Rabs a <= two 490 -> Rabs b <= two 490 -> Rabs c <= two 490 ->
  two (-400) <= Rmax (Rabs a) (Rmax (Rabs b) (Rabs c)) ->
  exists x y z, dblv (@get_direction _ (Num_F64 L) p) x y z /\
    Rabs x <= 1 /\ Rabs y <= 1 /\ Rabs z <= 1 /\ Rabs (x * x + y * y + z * z - 1) <= two (-49).
Proof.
  intros L p a b c DV HA HB HC HM. destruct (mag2_dbl L _ a b c DV HA HB HC) as (DS & S0 & S1).
  destruct (fsq_ge a b c) as (SA & SB & SC). destruct DV as (DA & DB & DC).
  assert (DM : dbl (@mag _ (Num_F64 L) (p_mom p)) (fmag a b c)) by (apply dbl_sqrt; [exact DS|lra]).
  set (M := Rmax (Rabs a) (Rmax (Rabs b) (Rabs c))) in *.
  assert (MX : Rabs a <= M /\ Rabs b <= M /\ Rabs c <= M).
  { unfold M. pose proof (Rmax_l (Rabs a) (Rmax (Rabs b) (Rabs c))). pose proof (Rmax_r (Rabs a) (Rmax (Rabs b) (Rabs c))). pose proof (Rmax_l (Rabs b) (Rabs c)). pose proof (Rmax_r (Rabs b) (Rabs c)). lra. }
  assert (EX : exists t, M = Rabs t /\ representable t /\ rnd (t * t) <= fsq a b c /\ t * t <= a * a + b * b + c * c).
  { pose proof (Rle_0_sqr a). pose proof (Rle_0_sqr b). pose proof (Rle_0_sqr c). unfold Rsqr in *.
    unfold M. destruct (Rle_or_lt (Rabs b) (Rabs c)); [rewrite (Rmax_right (Rabs b)) by lra|rewrite (Rmax_left (Rabs b)) by lra].
    - destruct (Rle_or_lt (Rabs a) (Rabs c)); [rewrite Rmax_right by lra; exists c|rewrite Rmax_left by lra; exists a]; repeat split; auto; try (eapply dbl_fmt; eassumption); lra.
    - destruct (Rle_or_lt (Rabs a) (Rabs b)); [rewrite Rmax_right by lra; exists b|rewrite Rmax_left by lra; exists a]; repeat split; auto; try (eapply dbl_fmt; eassumption); lra. }
  destruct EX as (t & ET & FT & ST & PT). rewrite ET in *.
  assert (GA : Rabs a <= fmag a b c) by (eapply fmag_ge; [eapply dbl_fmt, DA|exact FT|exact HM|apply MX|exact SA|exact ST]).
  assert (GB : Rabs b <= fmag a b c) by (eapply fmag_ge; [eapply dbl_fmt, DB|exact FT|exact HM|apply MX|exact SB|exact ST]).
  assert (GC : Rabs c <= fmag a b c) by (eapply fmag_ge; [eapply dbl_fmt, DC|exact FT|exact HM|apply MX|exact SC|exact ST]).
  assert (GT : Rabs t <= fmag a b c) by (eapply fmag_ge; [exact FT|exact FT|exact HM|apply Rle_refl|exact ST|exact ST]).
  pose proof (two_pos (-400)) as P4. assert (MP : 0 < fmag a b c) by lra.
  assert (PP : two (-800) <= a * a + b * b + c * c).
  { eapply Rle_trans; [|exact PT]. rewrite <- abs_sq. change (-800)%Z with (-400 + -400)%Z. rewrite bpow_plus. apply Rmult_le_compat; lra. }
  pose proof (fmag_err a b c PP) as FE. cbv zeta in FE.
  assert (LP : 0 < sqrt (a * a + b * b + c * c)) by (apply sqrt_lt_R0; pose proof (two_pos (-800)); lra).
  assert (H1 : 1 <= huge) by (unfold huge; change 1 with (two 0); apply bpow_le; lia).
  set (m := fmag a b c) in *.
  assert (Q1 : forall s, Rabs s <= m -> Rabs (s / m) <= 1).
  { intros s HS. unfold Rdiv. rewrite Rabs_mult, (Rabs_pos_eq (/ m)) by (apply Rlt_le, Rinv_0_lt_compat; lra).
    apply Rmult_le_reg_r with m; [lra|]. rewrite Rmult_assoc, Rinv_l by lra. lra. }
  assert (QD : forall x s, dbl x s -> Rabs s <= m -> dbl (f64_div x (@mag _ (Num_F64 L) (p_mom p))) (rnd (s / m))).
  { intros x s DX HS. apply dbl_div; auto; [lra|]. eapply Rle_trans; [apply Q1; exact HS|exact H1]. }
  exists (rnd (a / m)), (rnd (b / m)), (rnd (c / m)). split; [repeat split; apply QD; auto|].
  assert (R1 : forall s, Rabs s <= m -> Rabs (rnd (s / m)) <= 1) by (intros s HS; rewrite rnd_abs; apply rnd_le1, Q1; exact HS).
  split; [now apply R1|]. split; [now apply R1|]. split; [now apply R1|]. apply dir_bound; auto.
Qed.

Theorem C117_photon_energy : forall (L : Libm) (p : particle spec_float) a b c,
  p_type p = PPhoton -> dblv (p_mom p) a b c -> Rabs a <= two 490 -> Rabs b <= two 490 -> Rabs c <= two 490 ->
  two (-800) <= a * a + b * b + c * c ->
  exists en, dbl (@get_energy _ (Num_F64 L) p) en /\ let exact := sqrt (a * a + b * b + c * c) in Rabs (en - exact) <= two (-50) * exact.
Proof.
  intros L p a b c PT DV HA HB HC HP. destruct (mag2_dbl L _ a b c DV HA HB HC) as (DS & S0 & S1).
  exists (fmag a b c). unfold get_energy. rewrite PT. split; [apply dbl_sqrt; [exact DS|lra]|]. cbv zeta.
  pose proof (fmag_err a b c HP) as FE. cbv zeta in FE. pose proof (sqrt_pos (a * a + b * b + c * c)). pose proof (two_pos (-53)).
  replace (two (-50)) with (8 * two (-53)) by (change (-50)%Z with (3 + -53)%Z; rewrite bpow_plus; reflexivity). apply Rabs_le.
  assert (0 <= two (-53) * sqrt (a * a + b * b + c * c)) by (apply Rmult_le_pos; lra). lra.
Qed.

(** a lepton with momentum 2^27 (69 TeV/c for an electron) moves at exactly the speed of light *)
Definition fast : particle spec_float :=
  mkP PLepton "electron" (f64_lit 1 0) (f64_lit (-1) 0) (f64_lit 1 0) (f64_lit 0 0) (f64_lit 0 0) false true
    (mkV (f64_lit 0 0) (f64_lit 0 0) (f64_lit 0 0)) (mkV (f64_lit 0 0) (f64_lit 0 0) (f64_lit 134217728 0)) [] [] [] [].
Theorem C117_below_light_refuted : forall L, @get_beta _ (Num_F64 L) fast = f64_lit 1 0.
Proof. reflexivity. Qed.

Print Assumptions C117_lepton. Print Assumptions C117_gamma_error. Print Assumptions C117_velocity. Print Assumptions C117_direction.
Print Assumptions C117_photon_energy. Print Assumptions C117_below_light_refuted.

Lemma lit_fast : dbl (f64_lit 134217728 0) (two 27).
Proof. exists (f64 (f64_lit 134217728 0) eq_refl). split; [apply toSF_f64|]. split; [reflexivity|]. unfold f64. rewrite B2R_SF2B. vm_compute. lra. Qed.
Example C117_case : p_type fast = PLepton /\ dbl (p_mass fast) 1 /\ two (-10) <= 1 <= two 400 /\ dblv (p_mom fast) 0 0 (two 27) /\
  Rabs 0 <= two 490 /\ Rabs (two 27) <= two 490 /\ two (-400) <= Rmax (Rabs 0) (Rmax (Rabs 0) (Rabs (two 27))) /\ two (-800) <= 0 * 0 + 0 * 0 + two 27 * two 27.
Proof.
  split; [reflexivity|]. split; [apply dbl_1|]. split; [split; change 1 with (two 0); apply bpow_le; lia|].
  split; [repeat split; (apply dbl_0 || apply lit_fast)|]. rewrite Rabs_R0, (Rabs_pos_eq (two 27)) by apply bpow_ge_0.
  split; [apply bpow_ge_0|]. split; [apply bpow_le; lia|]. split.
  - eapply Rle_trans; [|apply Rmax_r]. eapply Rle_trans; [|apply Rmax_r]. apply bpow_le. lia.
  - rewrite Rmult_0_l, !Rplus_0_l, <- bpow_plus. apply bpow_le. lia.
Qed.

(** ** C118: without a field the momentum does not change, whatever the number of steps *)
Theorem C118_momentum_constant : forall (L : Libm) (fld : field spec_float) dt d (p : particle spec_float) mu a b c,
  (forall t x, zerov (fst (fld t x)) /\ zerov (snd (fld t x))) -> dbl dt d -> Rabs d <= two 1000 ->
  dbl (p_mass p) mu -> two (-10) <= mu <= two 400 -> finite (p_charge p) ->
  dblv (p_mom p) a b c -> Rabs a <= two 490 -> Rabs b <= two 490 -> Rabs c <= two 490 ->
  forall n, dblv (p_mom (@pushes _ (Num_F64 L) n (@lorentz_force _ (Num_F64 L)) fld dt p)) a b c /\
    exists gm, dbl (@lepton_gamma _ (Num_F64 L) (p_mass p) (p_mom p)) gm /\
      dbl (@lepton_gamma _ (Num_F64 L) (p_mass p) (p_mom (@pushes _ (Num_F64 L) n (@lorentz_force _ (Num_F64 L)) fld dt p))) gm.
Proof.
  intros L fld dt d p mu a b c HF DT HD DM HM DQ DV HA HB HC n.
  destruct (pushes_keep L fld dt d p mu a b c HF DT HD DM HM DQ DV HA HB HC n) as (_ & _ & V). split; [exact V|].
  exists (fgamma mu a b c). split; eapply gamma_dbl; eauto.
Qed.

(** only the value: a component that is minus zero may become plus zero *)
Definition minus_zero : particle spec_float :=
  mkP PLepton "positron" (f64_lit 1 0) (f64_lit 1 0) (f64_lit 1 0) (f64_lit 0 0) (f64_lit 0 0) false true
    (mkV (f64_lit 0 0) (f64_lit 0 0) (f64_lit 0 0)) (mkV (S754_zero true) (f64_lit 0 0) (f64_lit 1 0)) [] [] [] [].
Definition no_field : field spec_float := fun _ _ => (mkV (f64_lit 0 0) (f64_lit 0 0) (f64_lit 0 0), mkV (f64_lit 0 0) (f64_lit 0 0) (f64_lit 0 0)).
Theorem C118_bits_refuted : forall L,
  vx (p_mom (@pushes _ (Num_F64 L) 1 (@lorentz_force _ (Num_F64 L)) no_field (f64_lit 1 0) minus_zero)) <> vx (p_mom minus_zero).
Proof. intros L. vm_compute. discriminate. Qed.

Print Assumptions C118_momentum_constant. Print Assumptions C118_bits_refuted.

Example C118_case : (forall t x, zerov (fst (no_field t x)) /\ zerov (snd (no_field t x))) /\ dbl (f64_lit 1 0) 1 /\ Rabs 1 <= two 1000 /\ finite (p_charge fast).
Proof.
  split; [intros; repeat split; apply dbl_0|]. split; [apply dbl_1|]. split; [rewrite Rabs_R1; change 1 with (two 0); apply bpow_le; lia|].
  exists (-1). exists (f64 (f64_lit (-1) 0) eq_refl). split; [apply toSF_f64|]. split; [reflexivity|]. unfold f64. rewrite B2R_SF2B. vm_compute. lra.
Qed.

(** ** C119: counting *)

(** Any number of additions to a histogram with finite increasing centres whose bins hold whole numbers that stay within 2^53: no rounding happens.
    Each value strictly between the outer centres (NaN and infinite values are not) is counted once, in a bin that is nearest up to a factor 1 + 2^-51. *)
Theorem C119_exact_counts : forall (L : Libm) (h : hist spec_float) (c : list R) (ks : list Z) (vs : list spec_float),
  hwf h -> Forall2 dbl (hi_centres h) c -> increasing c -> Forall (fun x => Rabs x <= two 1020) c ->
  Forall2 (fun x k => dbl x (IZR k)) (hi_values h) ks ->
  (forall k, In k ks -> (0 <= k /\ k + Z.of_nat (List.length vs) <= 2 ^ 53)%Z) -> Forall is_double vs ->
  exists h' idx, @add_values _ (Num_F64 L) h vs = Ok h' /\ same_axes h h' /\
    Forall2 (fun x i => exists r, dbl x r /\ close_bin c r i) (filter (in_range (hi_centres h)) vs) idx /\
    forall i, (i < List.length ks)%nat -> dbl (nth i (hi_values h') (f64_lit 0 0)) (IZR (nth i ks 0 + Z.of_nat (count idx i)))%Z.
Proof.
  intros L h c ks vs HW FC INC HB FK HK DV. destruct (add_values_f64 L c vs h ks HW FC INC HB FK HK DV) as (h' & idx & EA & _ & SA & F & V).
  exists h', idx. split; [exact EA|]. split; [exact SA|]. split; [exact F|]. intros i Hi.
  set (ms := map _ _) in V. assert (EM : nth i ms 0%Z = (nth i ks 0 + Z.of_nat (count idx i))%Z).
  { unfold ms. rewrite (nth_indep _ 0%Z ((fun i => nth i ks 0 + Z.of_nat (count idx i))%Z 0%nat)) by (rewrite map_length, seq_length; lia).
    rewrite (map_nth (fun i => nth i ks 0 + Z.of_nat (count idx i))%Z). rewrite seq_nth by lia. reflexivity. }
  rewrite <- EM. assert (LM : (i < List.length ms)%nat) by (unfold ms; rewrite map_length, seq_length; lia).
  revert V LM. clear. generalize (hi_values h'). intros l V. revert i. induction V; intros i Hi; cbn in Hi; [lia|]. destruct i; cbn; [assumption|]. apply IHV. lia.
Qed.

(** a bin at 2^53 no longer counts *)
Theorem C119_saturates : forall (L : Libm) nm pa ty t,
  let h := mkH nm pa ty t 3 0 [f64_lit 0 0; f64_lit 1 0; f64_lit 2 0] [f64_lit 0 0; f64_lit 9007199254740992 0; f64_lit 0 0] in
  exists h', @add_value _ (Num_F64 L) h (f64_lit 1 0) = Ok h' /\ hi_values h' = hi_values h /\ in_range (hi_centres h) (f64_lit 1 0) = true.
Proof. intros L nm pa ty t h. eexists. split; [vm_compute; reflexivity|]. split; reflexivity. Qed.

Print Assumptions C119_exact_counts. Print Assumptions C119_saturates.

Example C119_case : let h := mkH "s" "electron" "energy" (f64_lit 0 0) 2 0 [f64_lit 0 0; f64_lit 2 0] [f64_lit 1 0; f64_lit 0 0] in
  hwf h /\ Forall2 dbl (hi_centres h) [0; 2] /\ increasing [0; 2] /\ Forall (fun x => Rabs x <= two 1020) [0; 2] /\
  Forall2 (fun x k => dbl x (IZR k)) (hi_values h) [1; 0]%Z /\ Forall is_double [f64_lit 1 0; S754_nan; S754_infinity false] /\
  filter (in_range (hi_centres h)) [f64_lit 1 0; S754_nan; S754_infinity false] = [f64_lit 1 0].
Proof.
  intros h. split; [unfold hwf; cbn; lia|]. split; [repeat constructor; (apply dbl_0 || apply lit2)|].
  split; [intros i j Hij; cbn in Hij; assert (i = 0 /\ j = 1)%nat as [-> ->] by lia; unfold at_; cbn; lra|].
  split; [|split; [repeat constructor; (apply dbl_0 || apply dbl_1)|split; [repeat constructor|reflexivity]]].
  assert (2 <= two 1020) by (change 2 with (two 1); apply bpow_le; lia). constructor; [rewrite Rabs_R0; lra|]. constructor; [rewrite Rabs_pos_eq; lra|constructor].
Qed.

(** ** C120: interpolation inside a table *)
Theorem C120_error : forall (L : Libm) sp sd c d q v, Forall2 dbl sp c -> Forall2 dbl sd d -> dbl q v ->
  (2 <= List.length c)%nat -> List.length d = List.length c -> (Z.of_nat (List.length c) < 2 ^ 31)%Z -> increasing c ->
  Forall (fun x => Rabs x <= two 400) c -> Forall (fun x => Rabs x <= two 400) d ->
  (forall i, (S i < List.length c)%nat -> two (-500) <= at_ c (S i) - at_ c i) ->
  at_ c 0 <= v < at_ c (List.length c - 1) ->
  exists i x r, (S i < List.length c)%nat /\ at_ c i <= v < at_ c (S i) /\
    @interpolate1d _ (Num_F64 L) sp sd (Z.of_nat (List.length sp)) q = Ok x /\ dbl x r /\
    Rabs (r - line (at_ c i) (at_ d i) (at_ c (S i)) (at_ d (S i)) v) <= two (-49) * Rmax (Rabs (at_ d i)) (Rabs (at_ d (S i))) + two (-500) /\
    (v = at_ c i -> r = at_ d i).
Proof.
  intros L sp sd c d q v FC FD DQ N2 LD NB INC BC BD SEP V.
  destruct (interpolate_f64 L sp sd c d q v FC FD DQ N2 LD NB INC BC BD SEP V) as (i & x & HI & HV & EX & DX).
  exists i, x. eexists. split; [exact HI|]. split; [exact HV|]. split; [exact EX|]. split; [exact DX|].
  pose proof (fun j => dbl_fmt _ _ (dbl_nth _ _ FC j _ _ dbl_0)) as RC. pose proof (fun j => dbl_fmt _ _ (dbl_nth _ _ FD j _ _ dbl_0)) as RD.
  split.
  - apply finterp_err; try apply RC; try apply RD; [eapply dbl_fmt; eauto|lra|auto].
  - intros ->. apply finterp_node; [apply RD|]. specialize (SEP i HI). pose proof (two_pos (-500)).
    assert (two (-500) <= rnd (at_ c (S i) - at_ c i)) by (rewrite <- (rnd_bpow (-500)) by lia; apply rnd_le; lra). lra.
Qed.

(** rounding can leave the range of the two entries: between 9.1 at 0 and 0.2 at 7, the number before 7 gives less than 0.2 *)
Theorem C120_between_refuted :
  let q := S754_finite false 7881299347898367 (-50) in
  is_double q /\ SFltb (f64_lit 0 0) q = true /\ SFltb q (f64_lit 7 0) = true /\ SFltb (f64_lit 2 (-1)) (f64_lit 91 (-1)) = true /\
  forall L, exists x, @interpolate1d _ (Num_F64 L) [f64_lit 0 0; f64_lit 7 0] [f64_lit 91 (-1); f64_lit 2 (-1)] 2 q = Ok x /\ SFltb x (f64_lit 2 (-1)) = true.
Proof. split; [reflexivity|]. do 3 (split; [reflexivity|]). intros L. eexists. split; [vm_compute; reflexivity|reflexivity]. Qed.

Print Assumptions C120_error. Print Assumptions C120_between_refuted.

Example C120_case : let sp := [f64_lit 0 0; f64_lit 1 0; f64_lit 2 0] in
  Forall2 dbl sp [0; 1; 2] /\ increasing [0; 1; 2] /\ Forall (fun x => Rabs x <= two 400) [0; 1; 2] /\
  (forall i, (S i < 3)%nat -> two (-500) <= at_ [0; 1; 2] (S i) - at_ [0; 1; 2] i) /\ at_ [0; 1; 2] 0 <= 1 < at_ [0; 1; 2] 2.
Proof.
  intros sp. split; [repeat constructor; (apply dbl_0 || apply dbl_1 || apply lit2)|].
  split; [intros i j Hij; cbn in Hij; destruct i as [|[|i]], j as [|[|[|j]]]; try lia; unfold at_; cbn; lra|].
  assert (H2 : 2 <= two 400) by (change 2 with (two 1); apply bpow_le; lia). assert (H0 : two (-500) <= 1) by (change 1 with (two 0); apply bpow_le; lia).
  split; [repeat (apply Forall_cons || apply Forall_nil); rewrite Rabs_pos_eq; lra|]. split; [intros [|[|i]] Hi; unfold at_; cbn; try lra; lia|]. unfold at_; cbn. lra.
Qed.
