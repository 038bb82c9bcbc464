(** * Properties C20, C32-C35: motion *)
From Coq Require Import String ZArith Reals Lra Psatz List.
From Verif Require Import Num RNum Vec SpecVec VecFacts SpecDyn Units MCTools Particle ParticleFacts Fields FieldFacts Pusher PusherFacts VecExtra.
Import ListNotations.
Local Open Scope R_scope.

(** a live, tracked test particle with empty histories *)
Definition test_particle (ty : ptype) (m q : R) (x p : V3) : particle R :=
  mkP ty "test"%string m q 1 7 1 true true x p [] [] [] [].

(** ** C20 *)
(** any arithmetic: entry i of the histories is position and momentum after i+1 pushes, but the clock after i *)
Theorem C20_history_lags : forall {T} `{Num T} n (F : force T) (fld : field T) (dt : T) (p : particle T),
  p_alive p = true -> p_tracking p = true -> p_posHist p = [] -> p_momHist p = [] -> p_timeHist p = [] ->
  let h := pushes n F fld dt p in
  p_posHist h = map (fun i => p_pos (pushes (S i) F fld dt p)) (seq 0 n) /\
  p_momHist h = map (fun i => p_mom (pushes (S i) F fld dt p)) (seq 0 n) /\
  p_timeHist h = map (fun i => p_time (pushes i F fld dt p)) (seq 0 n).
Proof. intros. apply pushes_hist; auto. Qed.
Print Assumptions C20_history_lags.

(** photon, exact reals: position x0 + (i+1) dt d is recorded with time t0 + i dt *)
Theorem C20_photon_record : forall n (F : force R) (fld : field R) (dt : R) (p : particle R),
  p_alive p = true -> p_tracking p = true -> p_mass p = 0 -> p_mom p <> rzero ->
  p_posHist p = [] -> p_momHist p = [] -> p_timeHist p = [] ->
  let h := pushes n F fld dt p in
  length (p_posHist h) = n /\ length (p_timeHist h) = n /\
  forall i, (i < n)%nat ->
    nth_error (p_posHist h) i = Some (rplus (p_pos p) (rscale (INR (i + 1) * dt) (runit (p_mom p)))) /\
    nth_error (p_timeHist h) i = Some (p_time p + INR i * dt).
Proof.
  intros n F fld dt p Ha Ht Hm Hp H1 H2 H3 h.
  destruct (pushes_hist n F fld dt p Ha Ht H1 H2 H3) as (P1 & _ & P3). fold h in P1, P3.
  rewrite P1, P3, !map_length, seq_length. split; [auto|]. split; [auto|]. intros i Hi.
  assert (HS : forall A (f : nat -> A), nth_error (map f (seq 0 n)) i = Some (f i)).
  { intros A f. rewrite (map_nth_error f i (seq 0 n) (d := i)); auto.
    rewrite (nth_error_nth' _ 0%nat) by (rewrite seq_length; auto). rewrite seq_nth by auto. reflexivity. }
  rewrite !HS. split; f_equal.
  - rewrite Nat.add_1_r. apply (pushes_photon (S i) F fld dt p Ha Hm).
  - apply (pushes_photon i F fld dt p Ha Hm).
Qed.
Print Assumptions C20_photon_record.

Example C20_case : let p := test_particle PPhoton 0 0 (v3 0 0 0) (v3 0 0 2) in
  p_alive p = true /\ p_tracking p = true /\ p_mass p = 0 /\ p_mom p <> rzero /\
  p_timeHist (pushes 2 lorentz_force no_field (1/2) p) = [7; 7 + 1/2].
Proof.
  intros p. split; [reflexivity|]. split; [reflexivity|]. split; [reflexivity|].
  split; [apply v3_neq; right; right; lra|].
  destruct (pushes_hist 2 lorentz_force no_field (1/2) p eq_refl eq_refl eq_refl eq_refl eq_refl) as (_ & _ & HP).
  rewrite HP. cbn [map seq]. rewrite !pushes_time by reflexivity. unfold p; cbn [INR p_time test_particle]. apply f_equal2; [ring | apply f_equal2; [ring | reflexivity]].
Qed.

(** ** C32 *)
Theorem C32_photon_ballistic : forall n (F : force R) (fld : field R) (dt : R) (p : particle R),
  p_alive p = true -> p_mass p = 0 -> p_mom p <> rzero ->
  let h := pushes n F fld dt p in
  p_pos h = rplus (p_pos p) (rscale (INR n * dt) (runit (p_mom p))) /\
  p_mom h = p_mom p /\ p_time h = p_time p + INR n * dt /\ p_alive h = true.
Proof.
  intros n F fld dt p Ha Hm Hp h. destruct (pushes_photon n F fld dt p Ha Hm) as (A & B & C).
  destruct (pushes_keeps n F fld dt p) as (_&_&_&_&_&_&_&K). unfold h. rewrite K. auto.
Qed.
Print Assumptions C32_photon_ballistic.

(** hence a step is never longer than light allows *)
Theorem C32_light_speed : forall n (F : force R) (fld : field R) (dt : R) (p : particle R),
  p_alive p = true -> p_mass p = 0 -> p_mom p <> rzero -> 0 <= dt ->
  rlen (rminus (p_pos (pushes n F fld dt p)) (p_pos p)) = p_time (pushes n F fld dt p) - p_time p.
Proof.
  intros n F fld dt p Ha Hm Hp Hdt. destruct (pushes_photon n F fld dt p Ha Hm) as (A & B & C).
  rewrite A, C. replace (rminus _ _) with (rscale (INR n * dt) (runit (p_mom p)))
    by (generalize (runit (p_mom p)); intros; vring).
  rewrite rlen_scale, rlen_unit by auto. rewrite Rabs_pos_eq; [ring|]. pose proof (pos_INR n). nra.
Qed.
Print Assumptions C32_light_speed.

(** ** C33: for every force law, in particular the three of the code *)
Theorem C33_below_light_speed : forall (F : force R) (fld : field R) (dt : R) (p : particle R),
  p_alive p = true -> p_mass p <> 0 -> 0 < dt ->
  rlen (rminus (p_pos (push_particle F fld dt p)) (p_pos p)) < dt.
Proof. exact below_light. Qed.
Print Assumptions C33_below_light_speed.

(** over any number of pushes *)
Theorem C33_never_outruns_light : forall n (F : force R) (fld : field R) (dt : R) (p : particle R),
  p_alive p = true -> p_mass p <> 0 -> 0 < dt -> (0 < n)%nat ->
  rlen (rminus (p_pos (pushes n F fld dt p)) (p_pos p)) < INR n * dt.
Proof.
  intros n F fld dt p Ha Hm Hdt. induction n; [lia|]. intros _. cbn [pushes].
  set (h := pushes n F fld dt p) in *.
  destruct (pushes_keeps n F fld dt p) as (_&_&K1&_&_&_&_&K2). fold h in K1, K2.
  assert (HB : rlen (rminus (p_pos (push_particle F fld dt h)) (p_pos h)) < dt) by (apply below_light; congruence).
  replace (rminus (p_pos (push_particle F fld dt h)) (p_pos p))
    with (rplus (rminus (p_pos (push_particle F fld dt h)) (p_pos h)) (rminus (p_pos h) (p_pos p)))
    by (generalize (p_pos (push_particle F fld dt h)) (p_pos h) (p_pos p); intros; vring).
  pose proof (triangle (rminus (p_pos (push_particle F fld dt h)) (p_pos h)) (rminus (p_pos h) (p_pos p))) as HT.
  rewrite S_INR. destruct n.
  - assert (HZ : rlen (rminus (p_pos h) (p_pos p)) = 0).
    { apply rlen_of_len2; [lra|]. unfold h. cbn [pushes]. vring. }
    cbn [INR]. lra.
  - specialize (IHn ltac:(lia)). lra.
Qed.
Print Assumptions C33_never_outruns_light.

Example C33_case : let p := test_particle PLepton 1 (-1) (v3 0 0 0) (v3 100 0 2) in p_alive p = true /\ p_mass p <> 0.
Proof. cbn. split; [reflexivity | lra]. Qed.

(** ** C34 *)
Definition free_step (F : force R) (dt : R) (p : particle R) : Prop :=
  let p' := push_particle F (static_field rzero rzero) dt p in
  p_mom p' = p_mom p /\ p_pos p' = rplus (p_pos p) (rscale dt (velocity (p_mass p) (p_mom p))) /\
  p_time p' = p_time p + dt.

Lemma free_step_of F dt p : p_alive p = true -> p_mass p <> 0 ->
  F (p_mass p) (p_charge p) (p_mom p) rzero rzero = rzero -> free_step F dt p.
Proof.
  intros Ha Hm HF. unfold free_step. destruct (push_massive F (static_field rzero rzero) dt p Ha Hm) as (A & B & C).
  cbv zeta. change (static_field rzero rzero) with no_field in *. rewrite A, B, C.
  rewrite (step_no_force F dt p HF). cbn. auto.
Qed.

Theorem C34_free_flight : forall dt (p : particle R), p_alive p = true -> 0 < p_mass p ->
  free_step lorentz_force dt p /\
  (p_mom p <> rzero -> free_step landau_force dt p /\ free_step modified_landau_force dt p).
Proof.
  intros dt p Ha Hm. split; [|split].
  - apply free_step_of; auto; [lra|]. apply lorentz_force_zero.
  - apply free_step_of; auto; [lra|]. apply landau_zero; auto.
  - apply free_step_of; auto; [lra|]. apply modified_zero; auto.
Qed.
Print Assumptions C34_free_flight.

Theorem C34_uniform_electric_field : forall dt (p : particle R) (E : V3), p_alive p = true -> p_mass p <> 0 ->
  p_mom (push_particle lorentz_force (static_field E rzero) dt p)
  = rplus (p_mom p) (rscale (p_charge p * dt) E).
Proof.
  intros dt p E Ha Hm. destruct (push_massive lorentz_force (static_field E rzero) dt p Ha Hm) as (_ & B & _).
  rewrite B. apply step_uniform_E.
Qed.
Print Assumptions C34_uniform_electric_field.

Example C34_case : let p := test_particle PLepton 1 (-1) (v3 0 0 0) (v3 0 0 2) in
  p_alive p = true /\ 0 < p_mass p /\ p_mom p <> rzero.
Proof. cbn. split; [reflexivity|]. split; [lra|]. apply v3_neq. right; right. lra. Qed.

(** ** C35 *)
Theorem C35_lorentz_force : forall m q (p E B : V3),
  lorentz_force m q p E B = rscale q (rplus E (rcross (velocity m p) B)) /\
  rdot (lorentz_force m q p E B) p = q * rdot E p.
Proof. intros. rewrite lorentz_force_R. split; [reflexivity | apply lorentz_power]. Qed.
Print Assumptions C35_lorentz_force.

(** eta^2 in the two radiation-reaction forces is the invariant field strength *)
Theorem C35_landau_power : forall m q (p E B : V3), 0 < m -> p <> rzero ->
  rdot (landau_force m q p E B) p = q * rdot E p - 2 / 3 * c_alpha * invariant2 m p E B * rlen p /\
  0 <= 2 / 3 * c_alpha * invariant2 m p E B * rlen p.
Proof.
  intros m q p E B Hm Hp. rewrite landau_force_R, drag_power, lorentz_power by auto. split; [ring|].
  pose proof (invariant2_nonneg m p E B Hm Hp). pose proof c_alpha_pos. pose proof (rlen_nonneg p).
  apply Rmult_le_pos; [|auto]. apply Rmult_le_pos; [lra|auto].
Qed.
Print Assumptions C35_landau_power.

Theorem C35_modified_between : forall m q (p E B : V3), 0 < m -> p <> rzero ->
  rdot (landau_force m q p E B) p <= rdot (modified_landau_force m q p E B) p <= q * rdot E p /\
  exists g, 0 < g <= 1 /\
    rdot (modified_landau_force m q p E B) p = q * rdot E p - 2 / 3 * c_alpha * g * invariant2 m p E B * rlen p.
Proof.
  intros m q p E B Hm Hp.
  rewrite landau_force_R, modified_force_R, !drag_power, !lorentz_power by auto.
  pose proof (gaunt_bounds (invariant m p E B) (invariant_nonneg m p E B)) as HG.
  pose proof (invariant2_nonneg m p E B Hm Hp) as HI. pose proof c_alpha_pos. pose proof (rlen_nonneg p).
  set (g := gaunt _) in *. set (i := invariant2 _ _ _ _) in *.
  assert (HK : 0 <= 2 / 3 * c_alpha * i * rlen p) by (apply Rmult_le_pos; [apply Rmult_le_pos; [lra|auto]|auto]).
  split.
  - replace (- (2 / 3) * c_alpha * i * rlen p) with (- (2 / 3 * c_alpha * i * rlen p)) by ring.
    replace (- (2 / 3) * c_alpha * i * g * rlen p) with (- (g * (2 / 3 * c_alpha * i * rlen p))) by ring.
    set (k := 2 / 3 * c_alpha * i * rlen p) in *. nra.
  - exists g. split; [exact HG|]. ring.
Qed.
Print Assumptions C35_modified_between.

(** a state in which the drag is really there: a lepton crossing a magnetic field *)
Example C35_case : 0 < 1 /\ v3 1 0 0 <> rzero /\ 0 < invariant2 1 (v3 1 0 0) rzero (v3 0 1 0).
Proof.
  split; [lra|]. split; [apply v3_neq; left; lra|]. unfold invariant2.
  assert (Hm : (1 <> 0)%R) by lra.
  pose proof (gamma_pos 1 (v3 1 0 0) Hm) as G. unfold velocity. rewrite Rmult_1_l.
  set (g := lorentz_factor 1 (v3 1 0 0)) in *.
  assert (0 < / g) by (apply Rinv_0_lt_compat; lra). set (k := / g) in *. clearbody k g. runf. 
  apply Rmult_lt_0_compat; nra.
Qed.
