(** * Property C104: the clock of the event loop in double arithmetic *)
From Coq Require Import ZArith Reals Lra Lia Psatz Bool List Arith.
From Coq Require Import Floats.SpecFloat.
From Flocq Require Import Core.Zaux Core.Raux Core.Defs Core.Generic_fmt Core.FLT Core.Round_NE Core.Ulp Core.Float_prop Plus_error Relative IEEE754.BinarySingleNaN.
From Verif Require Import Num Outcome Vec MCTools Particle ParticleList Fields Pusher Process ProcessFacts Sim SimFacts SimTime SimClock F64Facts OutcomeFacts PropsProcess PropsSim.
Import ListNotations.
Local Open Scope R_scope.

(** ** Facts: the accumulated clock *)
Fixpoint bclock (dt : b64) (n : nat) : b64 := match n with O => B754_zero false | S k => Bplus mode_NE (bclock dt k) dt end.
Lemma clock_bclock L (dt : b64) n : @clock _ (Num_F64 L) (@n0 _ (Num_F64 L)) (toSF dt) n = toSF (bclock dt n).
Proof. induction n as [|n IH]; [reflexivity|]. cbn [clock bclock]. rewrite IH. apply add_B. Qed.

Lemma addR (x y : b64) M : is_finite x = true -> is_finite y = true -> (M <= 1023)%Z -> (-1022 <= M)%Z -> Rabs (toR x + toR y) <= bpow radix2 M ->
  is_finite (Bplus mode_NE x y) = true /\ toR (Bplus mode_NE x y) = rnd (toR x + toR y).
Proof.
  intros Hx Hy HM HM' HB. pose proof (Bplus_correct 53 1024 Hprec Hmax mode_NE x y Hx Hy) as HC. cbv zeta in HC. cbn [round_mode] in HC.
  assert (Rlt_bool (Rabs (rnd (toR x + toR y))) (bpow radix2 1024) = true) as HL.
  { apply Rlt_bool_true. apply Rle_lt_trans with (bpow radix2 M); [|apply bpow_lt; lia].
    apply abs_round_le_generic; [apply fexp_correct; reflexivity|apply valid_rnd_N| |exact HB].
    apply (generic_format_bpow radix2 fexp64 M). unfold SpecFloat.fexp, SpecFloat.emin. lia. }
  rewrite HL in HC. destruct HC as (-> & -> & _). auto.
Qed.

(** the sum of two doubles is off by at most one part in 2^53 *)
Lemma add_error (x y : b64) : Rabs (rnd (toR x + toR y) - (toR x + toR y)) <= bpow radix2 (-53) * Rabs (toR x + toR y).
Proof.
  destruct (FLT_plus_error_N_ex radix2 (3 - 1024 - 53) 53 (fun n => negb (Z.even n)) (toR x) (toR y)) as (eps & E1 & E2); [apply (fmt x)|apply (fmt y)|].
  change (FLT_exp (3 - 1024 - 53) 53) with fexp64 in E2. rewrite E2.
  replace ((toR x + toR y) * (1 + eps) - (toR x + toR y)) with (eps * (toR x + toR y)) by ring. rewrite Rabs_mult.
  apply Rmult_le_compat_r; [apply Rabs_pos|]. eapply Rle_trans; [exact E1|]. unfold u_ro. rewrite Rmult_comm.
  assert (HU : / 2 * bpow radix2 (- (53) + 1) = bpow radix2 (-53)). { change (- (53) + 1)%Z with (1 + -53)%Z. rewrite bpow_plus. change (bpow radix2 1) with 2. lra. }
  rewrite (Rmult_comm _ (/ 2)). rewrite HU. set (u := bpow radix2 (-53)). assert (0 < u) by apply bpow_gt_0.
  apply (Rmult_le_reg_r (1 + u)); [lra|]. unfold Rdiv. rewrite Rmult_assoc, Rinv_l by lra. nra.
Qed.

Section Run.
Variable dt : b64.
Hypothesis Fd : is_finite dt = true.
Hypothesis Pd : 0 < toR dt.
Notation D := (toR dt).
Notation clk n := (toR (bclock dt n)).
Notation u := (bpow radix2 (-53)).

Lemma u_small : 0 < u < / 1000000. Proof. split; [apply bpow_gt_0|]. cbn. lra. Qed.

(** before the end every addition succeeds *)
Lemma run_step tE n : tE + D <= bpow radix2 1023 -> (forall m, (m < n)%nat -> clk m < tE) ->
  is_finite (bclock dt n) = true /\ 0 <= clk n /\
  forall k, n = S k -> Rabs (clk n - (clk k + D)) <= u * (clk k + D).
Proof.
  intros HB. induction n as [|n IH]; intros HL; [cbn; repeat split; [lra|discriminate]|].
  destruct IH as (F & P & _); [intros; apply HL; lia|]. specialize (HL n ltac:(lia)).
  destruct (addR (bclock dt n) dt 1023 F Fd) as [A1 A2]; [lia|lia|rewrite Rabs_pos_eq; lra|].
  cbn [bclock]. split; [exact A1|]. rewrite A2. split.
  - pose proof (rnd_le 0 (clk n + D) ltac:(lra)) as Q. rewrite rnd_0 in Q. exact Q.
  - intros k [= <-]. pose proof (add_error (bclock dt n) dt) as Q. rewrite (Rabs_pos_eq (_ + _)) in Q by lra. exact Q.
Qed.

(** accumulated error: at most [c] steps' parts for every step *)
Lemma run_error tE c n : tE + D <= bpow radix2 1023 -> (forall m, (m < n)%nat -> clk m < tE) -> u * (tE + D) <= c * D ->
  INR n * D * (1 - c) <= clk n <= INR n * D * (1 + c).
Proof.
  intros HB HL HC. induction n as [|n IH]; [cbn; lra|].
  destruct IH as [I1 I2]; [intros; apply HL; lia|].
  destruct (run_step tE (S n) HB HL) as (_ & _ & Q). specialize (Q n eq_refl). specialize (HL n ltac:(lia)).
  assert (HE : Rabs (clk (S n) - (clk n + D)) <= c * D). { eapply Rle_trans; [exact Q|]. pose proof u_small. nra. }
  apply Rabs_le_inv in HE. rewrite S_INR. nra.
Qed.

(** the loop ends if the clock is below the end only for boundedly many steps *)
Lemma first_end (tE : b64) K : is_finite tE = true -> toR tE + D <= bpow radix2 1023 ->
  ((forall m, (m < K)%nat -> clk m < toR tE) -> toR tE <= clk K) ->
  forall L, exists N, (N <= K)%nat /\ @step_count _ (Num_F64 L) (@n0 _ (Num_F64 L)) (toSF dt) (toSF tE) N /\ toR tE <= clk N /\ (forall m, (m < N)%nat -> clk m < toR tE).
Proof.
  intros FE HB HK L.
  assert (EX : exists N, (N <= K)%nat /\ toR tE <= clk N /\ (forall m, (m < N)%nat -> clk m < toR tE)).
  { clear L. assert (G : forall j, (j <= K)%nat -> (exists N, (N <= j)%nat /\ toR tE <= clk N /\ (forall m, (m < N)%nat -> clk m < toR tE)) \/ (forall m, (m <= j)%nat -> clk m < toR tE)).
    { induction j as [|j IH]; intros HJ.
      - destruct (Rlt_le_dec (clk 0) (toR tE)) as [Q|Q]; [right; intros m Hm; replace m with 0%nat by lia; exact Q|left; exists 0%nat; repeat split; auto; intros; lia].
      - destruct IH as [(N & A & B & C)|IH]; [lia|left; exists N; repeat split; auto; lia|].
        destruct (Rlt_le_dec (clk (S j)) (toR tE)) as [Q|Q].
        + right. intros m Hm. destruct (Nat.eq_dec m (S j)) as [->|]; [exact Q|apply IH; lia].
        + left. exists (S j). repeat split; auto. intros m Hm. apply IH. lia. }
    destruct (G K (Nat.le_refl _)) as [X|X]; [exact X|]. exists K. split; [lia|]. split; [apply HK; intros; apply X; lia|intros; apply X; lia]. }
  destruct EX as (N & A & B & C). exists N. split; [exact A|]. split; [|split; [exact B|exact C]].
  assert (CMP : forall m, (m <= N)%nat -> @nltb _ (Num_F64 L) (@clock _ (Num_F64 L) (@n0 _ (Num_F64 L)) (toSF dt) m) (toSF tE) = Rltb (clk m) (toR tE)).
  { intros m Hm. rewrite clock_bclock. apply ltb_B; [|exact FE]. apply (run_step (toR tE) m HB). intros; apply C; lia. }
  split.
  - intros m Hm. rewrite CMP by lia. unfold Rltb. destruct (Rlt_dec _ _) as [|Q]; [reflexivity|]. exfalso. apply Q, C. exact Hm.
  - rewrite CMP by lia. unfold Rltb. destruct (Rlt_dec _ _); [lra|reflexivity].
Qed.

(** the point at which the clock stops *)
Lemma stuck : exists M, (M <= bpow radix2 54 * D) /\ (M < bpow radix2 1024 -> forall n, is_finite (bclock dt n) = true /\ 0 <= clk n <= M).
Proof.
  destruct (Raux.mag radix2 D) as [k HK]. specialize (HK ltac:(lra)). rewrite Rabs_pos_eq in HK by lra. destruct HK as [K1 K2].
  assert (K3 : (-1074 < k)%Z).
  { apply (lt_bpow radix2). apply Rle_lt_trans with D; [|exact K2]. apply (generic_format_ge_bpow radix2 fexp64 (-1074)); [|exact Pd|apply fmt].
    intros e. unfold SpecFloat.fexp, SpecFloat.emin. lia. }
  exists (bpow radix2 (k + 53)). split.
  { replace (k + 53)%Z with (54 + (k - 1))%Z by lia. rewrite bpow_plus. apply Rmult_le_compat_l; [apply bpow_ge_0|exact K1]. }
  intros HM. assert (K4 : (k + 53 < 1024)%Z) by (apply (lt_bpow radix2); exact HM).
  assert (FM : generic_format radix2 fexp64 (bpow radix2 (k + 53))) by (apply (generic_format_bpow radix2 fexp64); unfold SpecFloat.fexp, SpecFloat.emin; lia).
  assert (UP : rnd (bpow radix2 (k + 53) + D) <= bpow radix2 (k + 53)).
  { apply round_N_le_midp; [apply fexp_correct; reflexivity|exact FM|]. rewrite succ_eq_pos by apply bpow_ge_0. rewrite ulp_bpow.
    assert (bpow radix2 (k + 1) <= bpow radix2 (fexp64 (k + 53 + 1))) by (apply bpow_le; unfold SpecFloat.fexp, SpecFloat.emin; lia).
    rewrite bpow_plus in H. change (bpow radix2 1) with 2 in H. lra. }
  induction n as [|n [I1 I2]]; [cbn; split; [reflexivity|]; pose proof (bpow_gt_0 radix2 (k + 53)); lra|].
  assert (DM : D <= bpow radix2 (k + 53)) by (apply Rle_trans with (bpow radix2 k); [lra|apply bpow_le; lia]).
  cbn [bclock].
  pose proof (Bplus_correct 53 1024 Hprec Hmax mode_NE (bclock dt n) dt I1 Fd) as HC. cbv zeta in HC. cbn [round_mode] in HC.
  assert (LO : 0 <= rnd (clk n + D)) by (pose proof (rnd_le 0 (clk n + D) ltac:(lra)) as Q; rewrite rnd_0 in Q; exact Q).
  assert (HI : rnd (clk n + D) <= bpow radix2 (k + 53)) by (eapply Rle_trans; [apply (rnd_le _ (bpow radix2 (k + 53) + D)); lra|exact UP]).
  rewrite Rlt_bool_true in HC by (rewrite Rabs_pos_eq by exact LO; lra). destruct HC as (-> & -> & _). auto.
Qed.
End Run.

Lemma made_steps L (dt tEnd : b64) N : @step_count _ (Num_F64 L) (@n0 _ (Num_F64 L)) (toSF dt) (toSF tEnd) N ->
  forall (E : Engine spec_float) (S : Type) htimes fill (w : world spec_float) l g (h : S), w_dt w = toSF dt ->
      let run fuel := @run_event _ (Num_F64 L) E w S htimes fill fuel (toSF tEnd) l g h in
      (forall fuel, (N <= fuel)%nat -> run fuel = run N) /\
      (forall fuel s', run fuel = Ok s' -> @passes _ (Num_F64 L) E w N l g = Ok (st_ev E s', st_rng E s')).
Proof.
  intros HN E S htimes fill w l g h HW run. split.
  - intros fuel HF. unfold run, run_event.
    assert (HN' : forall m, (0 <= m < N)%nat -> @nltb _ (Num_F64 L) (@clock _ (Num_F64 L) (@n0 _ (Num_F64 L)) (w_dt w) m) (toSF tEnd) = true) by (intros m Hm; rewrite HW; apply HN; lia).
    rewrite (@loop_fuel _ (Num_F64 L) E w S htimes fill (toSF tEnd) N (mkSt (@n0 _ (Num_F64 L)) l g 0 h) (@n0 _ (Num_F64 L)) 0 eq_refl ltac:(lia) HN' ltac:(rewrite HW; apply HN) fuel ltac:(lia)).
    rewrite Nat.sub_0_r. reflexivity.
  - intros fuel s' HX. destruct (@run_decompose _ (Num_F64 L) E w S htimes fill fuel _ l g h s' HX) as (M & ns & sn & HM & _ & HP & _).
    rewrite HW in HM. assert (M = N) by exact (@step_count_unique _ (Num_F64 L) _ _ _ M N HM HN). subst M. exact HP.
Qed.

(** ** C104 *)
(** up to 2^25 steps: the number of steps is the exact quotient up to one and a half, and a completed event made that many *)
Theorem C104_number_of_steps : forall (L : Libm) (dt tEnd : b64), is_finite dt = true -> is_finite tEnd = true ->
  0 < toR dt -> toR tEnd <= bpow radix2 25 * toR dt -> toR tEnd + toR dt <= bpow radix2 1023 -> 0 <= toR tEnd ->
  exists N, toR tEnd / toR dt - 1 / 2 < INR N < toR tEnd / toR dt + 3 / 2 /\
    forall (E : Engine spec_float) (S : Type) htimes fill (w : world spec_float) l g (h : S), w_dt w = toSF dt ->
      let run fuel := @run_event _ (Num_F64 L) E w S htimes fill fuel (toSF tEnd) l g h in
      (forall fuel, (N <= fuel)%nat -> run fuel = run N) /\
      (forall fuel s', run fuel = Ok s' -> @passes _ (Num_F64 L) E w N l g = Ok (st_ev E s', st_rng E s')).
Proof.
  intros L dt tEnd Fd FE Pd HR HB HE. pose proof u_small as US.
  set (c := / 8388608 / 16).
  assert (HC : bpow radix2 (-53) * (toR tEnd + toR dt) <= c * toR dt).
  { assert (bpow radix2 (-53) * (bpow radix2 25 * toR dt + toR dt) <= c * toR dt); [unfold c; cbn; lra|].
    eapply Rle_trans; [|exact H]. apply Rmult_le_compat_l; [apply bpow_ge_0|lra]. }
  set (r := toR tEnd / toR dt). assert (ER : toR tEnd = r * toR dt) by (unfold r; field; lra).
  assert (R0 : 0 <= r) by (unfold r; apply Rmult_le_pos; [lra|]; apply Rlt_le, Rinv_0_lt_compat; lra).
  assert (R1 : r <= 33554432) by (apply (Rmult_le_reg_r (toR dt)); [lra|]; rewrite <- ER; cbn in HR; lra).
  destruct (first_end dt Fd Pd tEnd (Z.to_nat (up r) + 1) FE HB) with (L := L) as (N & _ & HN & N1 & N2).
  { intros HL. destruct (run_error dt Fd Pd (toR tEnd) c _ HB HL HC) as [Q _]. eapply Rle_trans; [|exact Q].
    destruct (archimed r) as [A1 A2]. rewrite plus_INR. cbn [INR].
    assert (r < INR (Z.to_nat (up r))).
    { rewrite INR_IZR_INZ, Z2Nat.id; [exact A1|]. apply le_IZR. lra. }
    assert (INR (Z.to_nat (up r)) <= r + 1). { rewrite INR_IZR_INZ, Z2Nat.id; [lra|]. apply le_IZR. lra. }
    rewrite ER. replace ((INR (Z.to_nat (up r)) + 1) * toR dt * (1 - c)) with ((INR (Z.to_nat (up r)) + 1) * (1 - c) * toR dt) by ring.
    apply Rmult_le_compat_r; [lra|]. unfold c. lra. }
  exists N. split.
  - destruct (run_error dt Fd Pd (toR tEnd) c N HB N2 HC) as [_ Q2]. assert (QA : r <= INR N * (1 + c)).
    { apply (Rmult_le_reg_r (toR dt)); [lra|]. rewrite <- ER. nra. }
    destruct N as [|n]; [cbn in *; split; nra|].
    destruct (run_error dt Fd Pd (toR tEnd) c n HB) as [Q1 _]; [intros; apply N2; lia|exact HC|].
    assert (QB : INR n * (1 - c) <= r). { apply (Rmult_le_reg_r (toR dt)); [lra|]. rewrite <- ER. specialize (N2 n ltac:(lia)). nra. }
    rewrite S_INR in *. unfold c in *. split; lra.
  - intros. apply (made_steps L dt tEnd N HN); auto.
Qed.
Print Assumptions C104_number_of_steps.

(** up to 2^52 steps the loop still ends, after at most three times the exact number of steps *)
Theorem C104_ends : forall (L : Libm) (dt tEnd : b64), is_finite dt = true -> is_finite tEnd = true ->
  0 < toR dt -> toR tEnd <= bpow radix2 52 * toR dt -> toR tEnd + toR dt <= bpow radix2 1023 -> 0 <= toR tEnd ->
  exists N, INR N <= 3 * (toR tEnd / toR dt) + 1 /\
    forall (E : Engine spec_float) (S : Type) htimes fill (w : world spec_float) l g (h : S), w_dt w = toSF dt ->
      let run fuel := @run_event _ (Num_F64 L) E w S htimes fill fuel (toSF tEnd) l g h in
      (forall fuel, (N <= fuel)%nat -> run fuel = run N) /\
      (forall fuel s', run fuel = Ok s' -> @passes _ (Num_F64 L) E w N l g = Ok (st_ev E s', st_rng E s')).
Proof.
  intros L dt tEnd Fd FE Pd HR HB HE. pose proof u_small as US.
  assert (BIG : bpow radix2 52 * bpow radix2 (-53) = 1 / 2) by (rewrite <- bpow_plus; cbn; lra).
  set (r := toR tEnd / toR dt). assert (ER : toR tEnd = r * toR dt) by (unfold r; field; lra).
  assert (R0 : 0 <= r) by (unfold r; apply Rmult_le_pos; [lra|]; apply Rlt_le, Rinv_0_lt_compat; lra).
  (* every step advances the clock by at least a third of [dt] *)
  assert (ADV : forall n, (forall m, (m < n)%nat -> toR (bclock dt m) < toR tEnd) -> INR n * toR dt <= 3 * toR (bclock dt n)).
  { induction n as [|n IH]; intros HL; [cbn; lra|]. specialize (IH ltac:(intros; apply HL; lia)).
    destruct (run_step dt Fd Pd (toR tEnd) (S n) HB HL) as (_ & _ & Q). specialize (Q n eq_refl). apply Rabs_le_inv in Q.
    destruct (run_step dt Fd Pd (toR tEnd) n HB) as (_ & P0 & _); [intros; apply HL; lia|].
    specialize (HL n ltac:(lia)). rewrite S_INR. set (u := bpow radix2 (-53)) in *.
    assert (u * (toR (bclock dt n) + toR dt) <= (1 / 2 + u) * toR dt).
    { apply Rle_trans with (u * (bpow radix2 52 * toR dt + toR dt)); [apply Rmult_le_compat_l; lra|]. right. rewrite Rmult_plus_distr_l, <- Rmult_assoc, (Rmult_comm u), BIG. ring. }
    assert (u * toR dt <= / 1000000 * toR dt) by (apply Rmult_le_compat_r; lra). nra. }
  destruct (first_end dt Fd Pd tEnd (Z.to_nat (up (3 * r))) FE HB) with (L := L) as (N & _ & HN & N1 & N2).
  { intros HL. pose proof (ADV _ HL) as Q. destruct (archimed (3 * r)) as [A1 A2].
    rewrite INR_IZR_INZ, Z2Nat.id in Q by (apply le_IZR; lra). rewrite ER in *. nra. }
  exists N. split; [|intros; apply (made_steps L dt tEnd N HN); auto].
  destruct N as [|n]; [cbn; lra|]. pose proof (ADV n ltac:(intros; apply N2; lia)) as Q. specialize (N2 n ltac:(lia)).
  rewrite S_INR. assert (INR n <= 3 * r); [|lra]. apply (Rmult_le_reg_r (toR dt)); [lra|]. rewrite ER in N2. lra.
Qed.
Print Assumptions C104_ends.

(** beyond 2^54 steps it never ends: the clock stops before the end *)
Theorem C104_endless : forall (L : Libm) (dt tEnd : b64), is_finite dt = true -> is_finite tEnd = true ->
  0 < toR dt -> bpow radix2 54 * toR dt < toR tEnd ->
  forall (E : Engine spec_float) (S : Type) htimes fill (w : world spec_float) l g (h : S), w_dt w = toSF dt ->
  forall fuel s', @run_event _ (Num_F64 L) E w S htimes fill fuel (toSF tEnd) l g h <> Ok s'.
Proof.
  intros L dt tEnd Fd FE Pd HR E S htimes fill w l g h HW fuel s' HX. unfold run_event in HX. apply bind_ok in HX. destruct HX as [s [HX _]].
  destruct (stuck dt Fd Pd) as (M & M1 & M2).
  assert (FI : toR tEnd < bpow radix2 1024) by (eapply Rle_lt_trans; [apply Rle_abs|]; apply abs_B2R_lt_emax).
  specialize (M2 ltac:(lra)).
  refine (@loop_endless _ (Num_F64 L) E w S htimes fill (toSF tEnd) (mkSt (@n0 _ (Num_F64 L)) l g 0%nat h) (@n0 _ (Num_F64 L)) 0%nat eq_refl _ fuel s HX).
  intros m _. rewrite HW, clock_bclock. destruct (M2 m) as [F B]. transitivity (Rltb (toR (bclock dt m)) (toR tEnd)); [apply ltb_B; auto|].
  unfold Rltb. destruct (Rlt_dec _ _); [reflexivity|lra].
Qed.
Print Assumptions C104_endless.

(** 0.1 as step: 1 takes 11 steps instead of 10, 1e16 is never reached *)
Lemma tenth_double : is_double (f64_lit 1 (-1)). Proof. reflexivity. Qed.
Lemma far_double : is_double (f64_lit 1 16). Proof. reflexivity. Qed.
Example C104_case : let dt := f64 _ tenth_double in
  is_finite dt = true /\ 0 < toR dt /\ toR b1 <= bpow radix2 25 * toR dt /\ @step_count _ (Num_F64 ex_libm) (f_lit 0 0) (toSF dt) (toSF b1) 11 /\
  bpow radix2 54 * toR dt < toR (f64 _ far_double).
Proof.
  cbv zeta. split; [reflexivity|]. rewrite b1_R. unfold f64. rewrite !B2R_SF2B, !B2SF_SF2B.
  split; [vm_compute; lra|]. split; [vm_compute; lra|]. split; [exact C46_rounding|]. vm_compute. lra.
Qed.
