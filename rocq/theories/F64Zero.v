(** * Pushing without a field in double precision: proofs *)
From Coq Require Import ZArith Reals Lra Lia Bool List Psatz.
From Coq Require Import Floats.SpecFloat.
From Flocq Require Import Core.Zaux Core.Raux Core.Defs Core.Generic_fmt Core.Round_NE IEEE754.BinarySingleNaN.
From Verif Require Import Num Outcome F64Facts F64Real F64Draw F64Kin Vec Particle Fields Pusher.
Local Open Scope R_scope.

Lemma huge_pos : 0 <= huge. Proof. apply bpow_ge_0. Qed.
Lemma z_mul x y a : dbl x 0 -> dbl y a -> dbl (f64_mul x y) 0.
Proof.
  intros DX DY. pose proof (dbl_mul x y 0 a DX DY) as Q. rewrite Rmult_0_l, Rabs_R0, rnd_0 in Q. apply Q, huge_pos.
Qed.
Lemma mul_z x y a : dbl x a -> dbl y 0 -> dbl (f64_mul x y) 0.
Proof.
  intros DX DY. pose proof (dbl_mul x y a 0 DX DY) as Q. rewrite Rmult_0_r, Rabs_R0, rnd_0 in Q. apply Q, huge_pos.
Qed.
Lemma z_div x y a : dbl x 0 -> dbl y a -> a <> 0 -> dbl (f64_div x y) 0.
Proof.
  intros DX DY N. pose proof (dbl_div x y 0 a DX DY N) as Q. unfold Rdiv in Q. rewrite Rmult_0_l, Rabs_R0, rnd_0 in Q. apply Q, huge_pos.
Qed.
Lemma add_z x y a : dbl x a -> dbl y 0 -> Rabs a <= huge -> dbl (f64_add x y) a.
Proof.
  intros DX DY H. pose proof (dbl_add x y a 0 DX DY) as Q. rewrite Rplus_0_r, (rnd_rep _ _ DX) in Q. auto.
Qed.
Lemma sub_zz x y : dbl x 0 -> dbl y 0 -> dbl (f64_sub x y) 0.
Proof.
  intros DX DY. pose proof (dbl_sub x y 0 0 DX DY) as Q. rewrite Rminus_0_r, Rabs_R0, rnd_0 in Q. apply Q, huge_pos.
Qed.
Lemma add_zz x y : dbl x 0 -> dbl y 0 -> dbl (f64_add x y) 0.
Proof. intros DX DY. apply add_z; auto. rewrite Rabs_R0. apply huge_pos. Qed.

(** a finite double *)
Definition finite (x : spec_float) : Prop := exists r, dbl x r.
Definition zerov (v : vec spec_float) : Prop := dblv v 0 0 0.

Section Zero.
Variable L : Libm.
Local Notation N := (Num_F64 L).

Lemma add_zv v w a b c : dblv v a b c -> zerov w -> Rabs a <= huge -> Rabs b <= huge -> Rabs c <= huge -> dblv (@vadd _ N v w) a b c.
Proof. intros (A & B & C) (X & Y & Z) HA HB HC. repeat split; cbn; now apply add_z. Qed.
Lemma add_zzv v w : zerov v -> zerov w -> zerov (@vadd _ N v w).
Proof. intros (A & B & C) (X & Y & Z). repeat split; cbn; now apply add_zz. Qed.
Lemma smul_zv s v : finite s -> zerov v -> zerov (@smul _ N s v).
Proof. intros (r & D) (X & Y & Z). repeat split; cbn; now apply (mul_z _ _ r). Qed.
Lemma vmuls_zv s v : finite s -> zerov v -> zerov (@vmuls _ N v s).
Proof. intros (r & D) (X & Y & Z). repeat split; cbn; now apply (z_mul _ _ r). Qed.
Lemma vdivs_zv s r v : dbl s r -> r <> 0 -> zerov v -> zerov (@vdivs _ N v s).
Proof. intros D NR (X & Y & Z). repeat split; cbn; now apply (z_div _ _ r). Qed.
Lemma cross_zv v w a b c : dblv v a b c -> zerov w -> zerov (@cross _ N v w).
Proof. intros (A & B & C) (X & Y & Z). repeat split; cbn; apply sub_zz; eapply mul_z; eauto. Qed.

Lemma lorentz_zero m mu q v a b c e bf : dbl m mu -> two (-10) <= mu <= two 400 -> finite q ->
  dblv v a b c -> Rabs a <= two 490 -> Rabs b <= two 490 -> Rabs c <= two 490 -> zerov e -> zerov bf ->
  zerov (@lorentz_force _ N m q v e bf).
Proof.
  intros DM HM DQ DV HA HB HC ZE ZB. unfold lorentz_force.
  change (zerov (@smul _ N q (@vadd _ N e (@vdivs _ N (@cross _ N v bf) (f64_mul m (@lepton_gamma _ N m v)))))).
  destruct (gamma_dbl L m mu v a b c DM HM DV HA HB HC) as (DG & G1 & G2).
  assert (MG : 0 < two (-10)) by apply two_pos.
  assert (MB : mu * fgamma mu a b c <= two 902).
  { change 902%Z with (400 + 502)%Z. rewrite bpow_plus. apply Rmult_le_compat; lra. }
  apply smul_zv; auto. apply add_zzv; auto. apply (vdivs_zv _ (rnd (mu * fgamma mu a b c))).
  - apply dbl_mul; auto. rewrite Rabs_pos_eq by nra. eapply Rle_trans; [exact MB|]. apply bpow_le. lia.
  - apply Rgt_not_eq. apply Rlt_le_trans with (two (-10)); [lra|]. rewrite <- (rnd_bpow (-10)) by lia. apply rnd_le. nra.
  - eapply cross_zv; eauto.
Qed.

Lemma lit2 : dbl (f64_lit 2 0) 2.
Proof. exists (f64 (f64_lit 2 0) eq_refl). split; [apply toSF_f64|]. split; [reflexivity|]. unfold f64. rewrite B2R_SF2B. vm_compute. lra. Qed.
Lemma lit6 : dbl (f64_lit 6 0) 6.
Proof. exists (f64 (f64_lit 6 0) eq_refl). split; [apply toSF_f64|]. split; [reflexivity|]. unfold f64. rewrite B2R_SF2B. vm_compute. lra. Qed.

(** one Runge-Kutta step *)
(** the times at which a step reads the field *)
Definition step_time (t0 dt t : spec_float) : Prop :=
  t = t0 \/ t = @nadd _ N t0 (@ndiv _ N dt (@n2 _ N)) \/ t = @nadd _ N t0 dt.
Lemma rk4_zero_at (fld : field spec_float) dt d (p : particle spec_float) mu a b c :
  (forall t x, step_time (p_time p) dt t -> zerov (fst (fld t x)) /\ zerov (snd (fld t x))) -> dbl dt d -> Rabs d <= two 1000 ->
  dbl (p_mass p) mu -> two (-10) <= mu <= two 400 -> finite (p_charge p) ->
  dblv (p_mom p) a b c -> Rabs a <= two 490 -> Rabs b <= two 490 -> Rabs c <= two 490 ->
  dblv (snd (@rk4_step _ N (@lorentz_force _ N) fld dt p)) a b c.
Proof.
  intros HF DT HD DM HM DQ DV HA HB HC. unfold rk4_step.
  assert (TH : two 490 <= huge) by (apply bpow_le; lia).
  assert (LZ : forall m' e bf, dblv m' a b c -> zerov e -> zerov bf -> zerov (@lorentz_force _ N (p_mass p) (p_charge p) m' e bf)).
  { intros. eapply lorentz_zero; eauto. }
  assert (AD : forall w, zerov w -> dblv (@vadd _ N (p_mom p) w) a b c) by (intros; apply add_zv; auto; lra).
  assert (FT : finite dt) by (exists d; exact DT).
  assert (F6 : finite (@ndiv _ N dt (@nlit _ N 6 0))).
  { exists (rnd (d / 6)). apply dbl_div; [exact DT|exact lit6|lra|]. unfold Rdiv. rewrite Rabs_mult, (Rabs_pos_eq (/ 6)) by lra.
    assert (two 1000 <= huge) by (apply bpow_le; lia). pose proof (Rabs_pos d). lra. }
  assert (F2 : finite (@n2 _ N)) by (exists 2; exact lit2).
  assert (HV : forall w, zerov w -> zerov (@vdivs _ N (@vmuls _ N w dt) (@n2 _ N))).
  { intros w W. apply (vdivs_zv _ 2); [exact lit2|lra|]. now apply vmuls_zv. }
  assert (WV : forall w, zerov w -> zerov (@vmuls _ N w dt)) by (intros; now apply vmuls_zv).
  repeat match goal with |- context [fld ?t ?x] => let E := fresh "E" in let B := fresh "B" in destruct (HF t x) as [E B]; [unfold step_time; auto|]; destruct (fld t x) as [? ?]; cbn [fst snd] in * end.
  cbn [fst snd]. apply AD, smul_zv; [exact F6|]. unfold rk4_mean.
  apply add_zzv; [apply add_zzv; [apply add_zzv|]|]; repeat (apply smul_zv; [exact F2|]); repeat (apply LZ; auto; apply AD); auto;
    repeat ((apply HV || apply WV); apply LZ; auto; apply AD); auto.
Qed.

Lemma rk4_zero (fld : field spec_float) dt d (p : particle spec_float) mu a b c :
  (forall t x, zerov (fst (fld t x)) /\ zerov (snd (fld t x))) -> dbl dt d -> Rabs d <= two 1000 ->
  dbl (p_mass p) mu -> two (-10) <= mu <= two 400 -> finite (p_charge p) ->
  dblv (p_mom p) a b c -> Rabs a <= two 490 -> Rabs b <= two 490 -> Rabs c <= two 490 ->
  dblv (snd (@rk4_step _ N (@lorentz_force _ N) fld dt p)) a b c.
Proof. intros HF. apply rk4_zero_at. intros t x _. apply HF. Qed.

Lemma push_keeps (fld : field spec_float) dt d (p : particle spec_float) mu a b c :
  (forall t x, zerov (fst (fld t x)) /\ zerov (snd (fld t x))) -> dbl dt d -> Rabs d <= two 1000 ->
  dbl (p_mass p) mu -> two (-10) <= mu <= two 400 -> finite (p_charge p) ->
  dblv (p_mom p) a b c -> Rabs a <= two 490 -> Rabs b <= two 490 -> Rabs c <= two 490 ->
  let p' := @push_particle _ N (@lorentz_force _ N) fld dt p in
  p_mass p' = p_mass p /\ p_charge p' = p_charge p /\ dblv (p_mom p') a b c.
Proof.
  intros HF DT HD DM HM DQ DV HA HB HC. pose proof (rk4_zero fld dt d p mu a b c HF DT HD DM HM DQ DV HA HB HC) as R.
  unfold push_particle. destruct (p_alive p); [|auto]. destruct (@neqb _ N (p_mass p) (@n0 _ N)).
  - unfold update_track. destruct (p_tracking p); cbn; auto.
  - destruct (@rk4_step _ N (@lorentz_force _ N) fld dt p) as [x m]. cbn [snd] in R. unfold update_track. destruct (p_tracking p); cbn; auto.
Qed.

Lemma pushes_keep (fld : field spec_float) dt d (p : particle spec_float) mu a b c :
  (forall t x, zerov (fst (fld t x)) /\ zerov (snd (fld t x))) -> dbl dt d -> Rabs d <= two 1000 ->
  dbl (p_mass p) mu -> two (-10) <= mu <= two 400 -> finite (p_charge p) ->
  dblv (p_mom p) a b c -> Rabs a <= two 490 -> Rabs b <= two 490 -> Rabs c <= two 490 ->
  forall n, let p' := @pushes _ N n (@lorentz_force _ N) fld dt p in
  p_mass p' = p_mass p /\ p_charge p' = p_charge p /\ dblv (p_mom p') a b c.
Proof.
  intros HF DT HD DM HM DQ DV HA HB HC n. induction n as [|n (IM & IQ & IV)]; [cbn; auto|]. cbn [pushes].
  destruct (push_keeps fld dt d (@pushes _ N n (@lorentz_force _ N) fld dt p) mu a b c) as (M1 & Q1 & V1); auto; try (rewrite ?IM, ?IQ; auto).
  split; [congruence|]. split; [congruence|]. exact V1.
Qed.
End Zero.
