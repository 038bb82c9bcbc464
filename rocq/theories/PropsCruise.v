(** * Property C149: leptons in a field-free region, in double precision and with every process *)
From Coq Require Import String ZArith Reals Lra Psatz List Bool Lia.
From Coq Require Import Floats.SpecFloat.
From Flocq Require Import Core IEEE754.BinarySingleNaN.
From Verif Require Import Num RNum Outcome OutcomeFacts Vec MCTools Particle ParticleList Units Fields Pusher PusherFacts
  Process ProcessFacts PropsProcess Sim SimFacts F64Facts F64Real F64Draw F64Kin F64Zero NanFacts NanRun PropsF64.
Import ListNotations.
Local Open Scope R_scope.

(** What is asked of the maths library: [pow(0, 2)] is zero, [pow(1, y)] one and [log(1)] zero, as the C standard has
    it (F.10.4.4, F.10.3.7), and 10 to the power 0.7193 is finite. *)
Definition plain_libm (L : Libm) : Prop :=
  (forall x, dbl x 0 -> dbl (l_pow L x (f64_lit 2 0)) 0) /\ (forall x y, dbl x 1 -> dbl (l_pow L x y) 1) /\
  (forall x, dbl x 1 -> dbl (l_log L x) 0) /\ finite (l_pow L (f64_lit 10 0) (f64_lit 7193 (-4))).

(** A live lepton with the momentum (a, b, c), not too small and not too large, and the optical depth [d] >= 0. *)
Definition cruising (a b c d : R) (p : particle spec_float) : Prop :=
  p_alive p = true /\ p_type p = PLepton /\ finite (p_charge p) /\ (exists mu, dbl (p_mass p) mu /\ two (-10) <= mu <= two 400) /\
  dblv (p_mom p) a b c /\ Rabs a <= two 490 /\ Rabs b <= two 490 /\ Rabs c <= two 490 /\ two (-400) <= Rmax (Rabs a) (Rmax (Rabs b) (Rabs c)) /\
  dbl (p_depth p) d /\ 0 <= d <= two 1000.

Definition field_free (fld : field spec_float) : Prop := forall t x, zerov (fst (fld t x)) /\ zerov (snd (fld t x)).
(** emission of either kind in zero field, with a finite step; pair production *)
Definition free_process (pr : process spec_float) : Prop :=
  match pr with
  | Stochastic c => field_free (em_field c) /\ exists h, dbl (em_dt c) h /\ Rabs h <= two 400
  | Continuous c _ => field_free (em_field c)
  | BreitWheeler _ => True
  end.

(** closed doubles *)
Ltac closed x := exists (toR (f64 x eq_refl)); exists (f64 x eq_refl); split; [apply toSF_f64|split; reflexivity].
Lemma box x a b u w : finite x -> dbl a u -> dbl b w -> SFltb a x = true -> SFltb x b = true -> exists r, dbl x r /\ u < r < w.
Proof.
  intros (r & D) DA DB HA HB. exists r. split; [exact D|]. rewrite (dbl_ltb _ _ _ _ DA D) in HA. rewrite (dbl_ltb _ _ _ _ D DB) in HB.
  apply Rltb_true in HA, HB. auto.
Qed.
Lemma lit4 : dbl (f64_lit 4 0) 4.
Proof. exists (f64 (f64_lit 4 0) eq_refl). split; [apply toSF_f64|]. split; [reflexivity|]. unfold f64. rewrite B2R_SF2B. vm_compute. lra. Qed.

Lemma cruise_depth a b c d p x : cruising a b c d p -> dbl x d -> cruising a b c d (set_depth p x).
Proof.
  intros (C1 & C2 & C3 & C4 & C5 & C6 & C7 & C8 & C9 & C10 & C11) D. unfold cruising. cbn [set_depth p_alive p_type p_charge p_mass p_mom p_depth]. tauto.
Qed.

(** zero or NaN *)
Definition zn (x : spec_float) : Prop := x = S754_nan \/ exists s, x = S754_zero s.
Lemma zn_mul_r x y : zn y -> zn (f64_mul x y).
Proof. intros [-> | [s ->]]; [left; apply mulnr|]. destruct x as [t|t| |t m e]; cbn; [right; eauto|left; reflexivity|left; reflexivity|right; eauto]. Qed.
Lemma zn_mul_l x y : zn x -> zn (f64_mul x y).
Proof. intros [-> | [s ->]]; [left; reflexivity|]. destruct y as [t|t| |t m e]; cbn; [right; eauto|left; reflexivity|left; reflexivity|right; eauto]. Qed.
Lemma zn_div x s : zn (f64_div (S754_zero s) x).
Proof. destruct x as [t|t| |t m e]; cbn; [left; reflexivity|right; eauto|left; reflexivity|right; eauto]. Qed.
Lemma div_zn x s : zn x -> f64_div x (S754_zero s) = S754_nan.
Proof. intros [-> | [t ->]]; reflexivity. Qed.

(** the quantum parameter of the processes and of the pushers in one form *)
Section Form.
Context {T : Type} `{Num T}.
Definition eta_argT (gm be : T) (dir e b : vec T) : T :=
  nadd (mag2 (vadd (vsub e (smul (dot e dir) dir)) (smul be (cross dir b)))) (ndiv (npow (dot dir e) n2) (nmul gm gm)).
Definition eta_formT (gm be : T) (dir e b : vec T) : T := nmul (nsqrt (eta_argT gm be dir e b)) gm.
Definition beta_formT (gm : T) : T := nsqrt (nsub n1 (ndiv n1 (nmul gm gm))).
Lemma pusher_eta_form m v e b : pusher_eta m v e b = eta_formT (lepton_gamma m v) (beta_formT (lepton_gamma m v)) (vnorm v) e b.
Proof. reflexivity. Qed.
Lemma calculate_eta_form fld p : p_type p = PLepton ->
  calculate_eta fld p = let g := lepton_gamma (p_mass p) (p_mom p) in eta_formT g (beta_formT g) (vnorm (p_mom p)) (fst (fld (p_time p) (p_pos p))) (snd (fld (p_time p) (p_pos p))).
Proof. intros HT. unfold calculate_eta, get_beta, get_gamma. rewrite HT. destruct (fld _ _) as [e b]. reflexivity. Qed.
Lemma landau_form m q v e b : landau_force m q v e b =
  vadd (lorentz_force m q v e b) (smul (nlit (-2) 0 / nlit 3 0 * c_alpha * pusher_eta m v e b * pusher_eta m v e b)%num (vnorm v)).
Proof. reflexivity. Qed.
Lemma modified_form m q v e b : modified_landau_force m q v e b =
  vadd (lorentz_force m q v e b) (smul (nlit (-2) 0 / nlit 3 0 * c_alpha * pusher_eta m v e b * pusher_eta m v e b * gaunt (pusher_eta m v e b))%num (vnorm v)).
Proof. reflexivity. Qed.
End Form.

Section Cruise.
Variable L : Libm.
Notation N := (Num_F64 L).
Hypothesis HL : plain_libm L.

Lemma dot_z e v x y z : zerov e -> dblv v x y z -> dbl (@dot _ N e v) 0.
Proof. intros (A & B & C) (X & Y & Z). cbn. apply add_zz; [apply add_zz|]; eapply z_mul; eauto. Qed.
Lemma dot_z' e v x y z : zerov e -> dblv v x y z -> dbl (@dot _ N v e) 0.
Proof. intros (A & B & C) (X & Y & Z). cbn. apply add_zz; [apply add_zz|]; eapply mul_z; eauto. Qed.
Lemma sub_zzv v w : zerov v -> zerov w -> zerov (@vsub _ N v w).
Proof. intros (A & B & C) (X & Y & Z). repeat split; cbn; now apply sub_zz. Qed.
Lemma smul_z0 s v x y z : dbl s 0 -> dblv v x y z -> zerov (@smul _ N s v).
Proof. intros D (X & Y & Z). repeat split; cbn; eapply z_mul; eauto. Qed.

Notation eta_arg := (@eta_argT _ N).
Notation eta_form := (@eta_formT _ N).
Notation beta_form := (@beta_formT _ N).
Lemma beta_form_finite gm G : dbl gm G -> 1 <= G <= two 502 -> finite (beta_form gm).
Proof. intros DG HG. destruct (beta_dbl _ _ DG HG) as (r & DB & _). exists r. exact DB. Qed.
Lemma eta_form_zero gm G be dir x y z e b : dbl gm G -> 1 <= G <= two 502 -> finite be -> dblv dir x y z -> zerov e -> zerov b -> dbl (eta_form gm be dir e b) 0.
Proof.
  intros DG HG FB DD ZE ZB. destruct HL as (P0 & _ & _ & _). 
  assert (Z : dbl (eta_arg gm be dir e b) 0).
  { assert (ZV : zerov (@vadd _ N (@vsub _ N e (@smul _ N (@dot _ N e dir) dir)) (@smul _ N be (@cross _ N dir b)))).
    { apply add_zzv; [apply sub_zzv; [exact ZE|]|].
      - eapply smul_z0; [eapply dot_z|]; eauto.
      - apply smul_zv; [exact FB|]. eapply cross_zv; eauto. }
    apply (add_zz (@mag2 _ N _)); [eapply dot_z; eauto|].
    apply (z_div _ (f64_mul gm gm) (rnd (G * G))).
    - apply P0. eapply dot_z'; eauto.
    - apply dbl_mul; auto. rewrite Rabs_pos_eq by nra. apply Rle_trans with (two 502 * two 502); [nra|]. rewrite <- bpow_plus. apply bpow_le. lia.
    - assert (1 <= rnd (G * G)) by (apply rnd_ge1; nra). lra. }
  apply dbl_sqrt in Z; [|lra]. rewrite sqrt_0, rnd_0 in Z. exact (z_mul _ _ G Z DG).
Qed.

Section One.
Variables (m : spec_float) (mu : R) (v : vec spec_float) (a b c : R).
Hypothesis DM : dbl m mu.
Hypothesis HM : two (-10) <= mu <= two 400.
Hypothesis DV : dblv v a b c.
Hypothesis HA : Rabs a <= two 490.
Hypothesis HB : Rabs b <= two 490.
Hypothesis HC : Rabs c <= two 490.
Hypothesis HN : two (-400) <= Rmax (Rabs a) (Rmax (Rabs b) (Rabs c)).

Lemma dir_dbl : exists x y z, dblv (@vnorm _ N v) x y z.
Proof.
  destruct (C117_direction L (mkP PLepton ""%string m m m m m false true v v [] [] [] []) a b c DV HA HB HC HN) as (x & y & z & D & _). exists x, y, z. exact D.
Qed.
Lemma pusher_eta_zero e bf : zerov e -> zerov bf -> dbl (@pusher_eta _ N m v e bf) 0.
Proof.
  intros ZE ZB. destruct dir_dbl as (x & y & z & DD). destruct (gamma_dbl L m mu v a b c DM HM DV HA HB HC) as (DG & G1).
  rewrite pusher_eta_form.
  exact (eta_form_zero _ _ _ _ x y z e bf DG G1 (beta_form_finite _ _ DG G1) DD ZE ZB).
Qed.

Lemma gaunt_zero x : dbl x 0 -> finite (@gaunt _ N x).
Proof.
  intros D. destruct HL as (_ & P1 & L1 & _). exists 1. unfold gaunt. cbn [npow nlog nadd nmul ndiv n1 nlit Num_F64]. apply P1.
  apply zero_sf in D. destruct D as [s ->].
  assert (E1 : f64_add (f64_lit 1 0) (f64_mul (f64_lit 17 (-1)) (S754_zero s)) = f64_lit 1 0) by (destruct s; vm_compute; reflexivity).
  rewrite E1. destruct (zero_sf _ (L1 _ dbl_1)) as [t ->].
  match goal with |- dbl ?x 1 => assert (E2 : x = f64_lit 1 0) by (destruct s, t; vm_compute; reflexivity); rewrite E2 end. exact dbl_1.
Qed.

Lemma force_zero F q e bf : code_force L F -> finite q -> zerov e -> zerov bf -> zerov (F m q v e bf).
Proof.
  intros HF FQ ZE ZB. pose proof (lorentz_zero L m mu q v a b c e bf DM HM FQ DV HA HB HC ZE ZB) as LZ.
  destruct dir_dbl as (x & y & z & DD). pose proof (pusher_eta_zero e bf ZE ZB) as DE.
  assert (K : finite (f64_mul (f64_div (f64_lit (-2) 0) (f64_lit 3 0)) (@c_alpha _ N))).
  { change (@c_alpha _ N) with (f64_lit 72973525664 (-13)). closed (f64_mul (f64_div (f64_lit (-2) 0) (f64_lit 3 0)) (f64_lit 72973525664 (-13))). }
  destruct K as (k & DK).
  destruct HF as [-> | [-> | ->]]; [exact LZ| |].
  - rewrite landau_form. apply add_zzv; [exact LZ|]. eapply smul_z0; [|exact DD]. cbn [nmul ndiv Num_F64].
    apply (z_mul _ _ 0); [|exact DE]. apply (mul_z _ _ k); [exact DK|exact DE].
  - rewrite modified_form. apply add_zzv; [exact LZ|]. eapply smul_z0; [|exact DD]. cbn [nmul ndiv Num_F64].
    destruct (gaunt_zero _ DE) as (gr & DGR). apply (z_mul _ _ gr); [|exact DGR].
    apply (z_mul _ _ 0); [|exact DE]. apply (mul_z _ _ k); [exact DK|exact DE].
Qed.
End One.

(** one step, as [F64Zero.rk4_zero], for a force that vanishes at the momentum *)
Lemma rk4_zero_any F (fld : field spec_float) dt d (p : particle spec_float) a b c :
  field_free fld -> dbl dt d -> Rabs d <= two 1000 ->
  (forall m' e bf, dblv m' a b c -> zerov e -> zerov bf -> zerov (F (p_mass p) (p_charge p) m' e bf)) ->
  dblv (p_mom p) a b c -> Rabs a <= two 490 -> Rabs b <= two 490 -> Rabs c <= two 490 ->
  dblv (snd (@rk4_step _ N F fld dt p)) a b c.
Proof.
  intros HF DT HD LZ DV HA HB HC. unfold rk4_step.
  assert (TH : two 490 <= huge) by (apply bpow_le; lia).
  assert (AD : forall w, zerov w -> dblv (@vadd _ N (p_mom p) w) a b c) by (intros; apply add_zv; auto; lra).
  assert (FT : finite dt) by (exists d; exact DT).
  assert (F6 : finite (@ndiv _ N dt (@nlit _ N 6 0))).
  { exists (rnd (d / 6)). apply dbl_div; [exact DT|exact lit6|lra|]. unfold Rdiv. rewrite Rabs_mult, (Rabs_pos_eq (/ 6)) by lra.
    assert (two 1000 <= huge) by (apply bpow_le; lia). pose proof (Rabs_pos d). lra. }
  assert (F2 : finite (@n2 _ N)) by (exists 2; exact lit2).
  assert (HV : forall w, zerov w -> zerov (@vdivs _ N (@vmuls _ N w dt) (@n2 _ N))).
  { intros w W. apply (vdivs_zv L _ 2); [exact lit2|lra|]. now apply vmuls_zv. }
  assert (WV : forall w, zerov w -> zerov (@vmuls _ N w dt)) by (intros; now apply vmuls_zv).
  repeat match goal with |- context [fld ?t ?x] => let E := fresh "E" in let B := fresh "B" in destruct (HF t x) as [E B]; destruct (fld t x) as [? ?]; cbn [fst snd] in * end.
  cbn [fst snd]. apply AD, smul_zv; [exact F6|]. unfold rk4_mean.
  apply add_zzv; [apply add_zzv; [apply add_zzv|]|]; repeat (apply smul_zv; [exact F2|]); repeat (apply LZ; auto; apply AD); auto;
    repeat ((apply HV || apply WV); apply LZ; auto; apply AD); auto.
Qed.

Lemma cruise_push F fld dt h a b c d p : code_force L F -> field_free fld -> dbl dt h -> Rabs h <= two 1000 ->
  cruising a b c d p -> cruising a b c d (@push_particle _ N F fld dt p).
Proof.
  intros HF HZ DT HT (C1 & C2 & C3 & (mu & DM & HM) & C5 & C6 & C7 & C8 & C9 & C10).
  destruct (@PusherFacts.push_keeps _ N F fld dt p) as (P1&P2&P3&P4&P5&P6&P7&P8).
  assert (R : dblv (snd (@rk4_step _ N F fld dt p)) a b c).
  { apply (rk4_zero_any F fld dt h p a b c HZ DT HT); auto. intros m' e bf DV ZE ZB. apply (force_zero (p_mass p) mu m' a b c); auto. }
  unfold cruising. rewrite P1, P3, P4, P6, P8. repeat (split; [now eauto|]). split; [|now auto].
  unfold push_particle. rewrite C1, (mass_not_zero L _ _ DM (proj1 HM)). destruct (@rk4_step _ N F fld dt p) as [x m]. cbn [snd] in R.
  unfold update_track. destruct (p_tracking p); exact R.
Qed.

Lemma cruise_eta fld a b c d p : field_free fld -> cruising a b c d p -> dbl (@calculate_eta _ N fld p) 0.
Proof.
  intros HZ (C1 & C2 & C3 & (mu & DM & HM) & C5 & C6 & C7 & C8 & C9 & C10).
  destruct (dir_dbl (p_mass p) (p_mom p) a b c C5 C6 C7 C8 C9) as (x & y & z & DD).
  destruct (gamma_dbl L _ mu (p_mom p) a b c DM HM C5 C6 C7 C8) as (DG & G1).
  rewrite calculate_eta_form by exact C2. destruct (HZ (p_time p) (p_pos p)) as [ZE ZB]. cbv zeta.
  exact (eta_form_zero _ _ _ _ x y z _ _ DG G1 (beta_form_finite _ _ DG G1) DD ZE ZB).
Qed.

Lemma abs_rnd x e : (-1074 <= e)%Z -> Rabs x <= two e -> Rabs (rnd x) <= two e.
Proof. intros HE HX. rewrite rnd_abs. now apply rnd_bound. Qed.

Lemma depth_zero dt h eta gm G logh : dbl dt h -> Rabs h <= two 400 -> dbl eta 0 -> dbl gm G -> 1 <= G <= two 502 ->
  finite (l_pow L (f64_lit 10 0) logh) -> dbl (@emission_depth _ N dt eta logh gm) 0.
Proof.
  intros DT HT DE DG HG (k & DK).
  assert (HH : forall e, (e <= 1023)%Z -> two e <= huge) by (intros; now apply bpow_le).
  assert (F3 : finite (f64_sqrt (f64_lit 3 0))) by closed (f64_sqrt (f64_lit 3 0)).
  assert (FA : finite (f64_lit 72973525664 (-13))) by closed (f64_lit 72973525664 (-13)).
  assert (FP : finite (f64_lit 314159265359 (-11))) by closed (f64_lit 314159265359 (-11)).
  destruct (box _ _ _ _ _ F3 dbl_1 lit2 eq_refl eq_refl) as (s & D3 & S3).
  destruct (box _ _ _ _ _ FA dbl_0 dbl_1 eq_refl eq_refl) as (al & DA & SA).
  destruct (box _ _ _ _ _ FP dbl_1 lit4 eq_refl eq_refl) as (pi & DP & SP).
  assert (T1 : two 401 = 2 * two 400) by (rewrite <- two_double; reflexivity).
  assert (B1 : Rabs (h * s) <= two 401) by (rewrite Rabs_mult, (Rabs_pos_eq s) by lra; pose proof (Rabs_pos h); nra).
  assert (D1 : dbl (f64_mul dt (f64_sqrt (f64_lit 3 0))) (rnd (h * s))) by (apply dbl_mul; auto; eapply Rle_trans; [exact B1|apply HH; lia]).
  apply abs_rnd in B1; [|lia].
  assert (B2 : Rabs (rnd (h * s) * al) <= two 401) by (rewrite Rabs_mult, (Rabs_pos_eq al) by lra; pose proof (Rabs_pos (rnd (h * s))); nra).
  assert (D2 : dbl (f64_mul (f64_mul dt (f64_sqrt (f64_lit 3 0))) (f64_lit 72973525664 (-13))) (rnd (rnd (h * s) * al))) by (apply dbl_mul; auto; eapply Rle_trans; [exact B2|apply HH; lia]).
  assert (T2 : two 503 = two 502 * 2) by (rewrite Rmult_comm, <- two_double; reflexivity).
  assert (T3 : two 505 = two 503 * 4) by (replace 4 with (two 2) by (cbn; lra); rewrite <- bpow_plus; reflexivity).
  assert (G2 : 1 <= rnd (G * 2) <= two 503) by (split; [apply rnd_ge1; lra|apply rnd_bound; [lia|lra]]).
  assert (D4 : dbl (f64_mul gm (f64_lit 2 0)) (rnd (G * 2))) by (apply dbl_mul; auto using lit2; rewrite Rabs_pos_eq by lra; eapply Rle_trans; [|apply (HH 503%Z); lia]; lra).
  assert (G3 : rnd (G * 2) * pi <= two 505) by (rewrite T3; apply Rmult_le_compat; lra).
  assert (D5 : dbl (f64_mul (f64_mul gm (f64_lit 2 0)) (f64_lit 314159265359 (-11))) (rnd (rnd (G * 2) * pi))).
  { apply dbl_mul; auto. rewrite Rabs_pos_eq by nra. eapply Rle_trans; [exact G3|apply HH; lia]. }
  unfold emission_depth. cbn [nmul ndiv nsqrt npow Num_F64]. apply (z_div _ _ _ (z_mul _ _ k (mul_z _ _ _ D2 DE) DK) D5).
  assert (1 <= rnd (rnd (G * 2) * pi)) by (apply rnd_ge1; nra). lra.
Qed.

Variable E : Engine spec_float.

(** every process: nothing is added; the lepton keeps all but its depth, and that in value *)
Lemma cruise_process pr a b c d p l g p' l' g' : free_process pr -> cruising a b c d p -> @interact _ N E pr p l g = Ok (p', l', g') ->
  l' = l /\ (exists x, p' = set_depth p x) /\ cruising a b c d p' /\ (depth_process pr -> g' = g).
Proof.
  intros HF HC. pose proof HC as (C1 & C2 & C3 & (mu & DM & HM) & C5 & C6 & C7 & C8 & C9 & C10 & C11).
  pose proof (mass_not_zero L _ _ DM (proj1 HM)) as NZ.
  destruct pr as [cf|cf cl|cf]; cbn [interact free_process depth_process] in *.
  - destruct HF as (HZ & h & DH & HH). pose proof (cruise_eta _ _ _ _ _ _ HZ HC) as DE.
    unfold stochastic_interact. rewrite C1, NZ. cbn [negb orb].
    assert (LT : @nltb _ N (@calculate_eta _ N (em_field cf) p) (@nlit _ N 1 (-12)) = true).
    { destruct (zero_sf _ DE) as [s ->]. destruct s; vm_compute; reflexivity. }
    rewrite LT. cbn [bind]. destruct (gamma_dbl L _ mu (p_mom p) a b c DM HM C5 C6 C7 C8) as (DG & G1).
    assert (GG : @get_gamma _ N p = @lepton_gamma _ N (p_mass p) (p_mom p)) by (unfold get_gamma; rewrite C2; reflexivity). rewrite GG.
    destruct HL as (_ & _ & _ & F10).
    pose proof (depth_zero (em_dt cf) h _ _ _ (@nlit _ N 7193 (-4)) DH HH DE DG G1 F10) as DZ.
    assert (DD : dbl (f64_sub (p_depth p) (@emission_depth _ N (em_dt cf) (@calculate_eta _ N (em_field cf) p) (@nlit _ N 7193 (-4)) (@lepton_gamma _ N (p_mass p) (p_mom p)))) d).
    { pose proof (dbl_sub _ _ _ _ C10 DZ) as Q. rewrite Rminus_0_r, (rnd_rep _ _ C10) in Q. apply Q. rewrite Rabs_pos_eq by lra.
      eapply Rle_trans; [apply C11|apply bpow_le; lia]. }
    match goal with |- context [@update_depth _ N p ?x] => set (p1 := @update_depth _ N p x) end.
    assert (PD : @nltb _ N (p_depth p1) (@n0 _ N) = false).
    { assert (DD' : dbl (p_depth p1) d) by exact DD. change (SFltb (p_depth p1) (f64_lit 0 0) = false). rewrite (dbl_ltb _ _ d 0 DD' dbl_0). apply Rltb_false. lra. }
    rewrite PD. intros HX. apply ok3 in HX. destruct HX as (-> & -> & ->). split; [reflexivity|]. split; [eexists; reflexivity|]. split; [|auto].
    exact (cruise_depth _ _ _ _ _ _ HC DD).
  - pose proof (cruise_eta _ _ _ _ _ _ HF HC) as DE. destruct (zero_sf _ DE) as [s EE]. unfold continuous_interact. rewrite C1, NZ, EE. cbn [negb orb].
    assert (RES : forall g2, Ok (p, l, g2) = Ok (p', l', g') -> l' = l /\ (exists x, p' = set_depth p x) /\ cruising a b c d p' /\ (False -> g' = g)).
    { intros g2 HX. apply ok3 in HX. destruct HX as (-> & -> & ->). split; [reflexivity|]. split; [exists (p_depth p); destruct p; reflexivity|]. split; [exact HC|tauto]. }
    destruct (@rand_double _ N E _ _ g) as [r g1]. destruct (@nltb _ N _ r); [apply RES|].
    assert (LT : @nltb _ N (S754_zero s) (@nlit _ N 1 (-12)) = true) by (destruct s; vm_compute; reflexivity).
    rewrite LT. cbn [orb]. intros HX. apply bind_ok in HX. destruct HX as [[[lh chi] g2] [HY HX]].
    apply bind_ok in HY. destruct HY as [a0 [_ HY]]. apply bind_ok in HY. destruct HY as [[ch g3] [_ HY]]. cbn [fst snd] in HY.
    assert (ZC : zn chi).
    { injection HY as _ <- _. cbn [nmul ndiv Num_F64]. apply zn_mul_r, zn_div. }
    cbn [nmul ndiv nltb Num_F64] in HX. rewrite div_zn in HX by (apply zn_mul_l, zn_mul_r, ZC). rewrite ltnr in HX. exact (RES _ HX).
  - unfold breit_wheeler_interact. rewrite C2. cbn [orb]. intros HX. apply ok3 in HX. destruct HX as (-> & -> & ->).
    split; [reflexivity|]. split; [exists (p_depth p); destruct p; reflexivity|]. auto.
Qed.
End Cruise.

(** the quantum parameter is zero, as the processes and as the radiating pushers compute it *)
Theorem C149_eta : forall (L : Libm) (fld : field spec_float) a b c d (p : particle spec_float),
  plain_libm L -> field_free fld -> cruising a b c d p -> dbl (@calculate_eta _ (Num_F64 L) fld p) 0.
Proof. intros L fld a b c d p HL. exact (cruise_eta L HL fld a b c d p). Qed.
Print Assumptions C149_eta.

(** one step of any of the three pushers: the momentum keeps its value *)
Theorem C149_push : forall (L : Libm) (F : force spec_float) (fld : field spec_float) dt h a b c d (p : particle spec_float),
  plain_libm L -> code_force L F -> field_free fld -> dbl dt h -> Rabs h <= two 1000 ->
  cruising a b c d p -> cruising a b c d (@push_particle _ (Num_F64 L) F fld dt p).
Proof. intros L F fld dt h a b c d p HL. exact (cruise_push L HL F fld dt h a b c d p). Qed.
Print Assumptions C149_push.

(** one call of any process, continuous emission included: no particle is added *)
Theorem C149_process : forall (L : Libm) (E : Engine spec_float) pr a b c d (p : particle spec_float) l g p' l' g',
  plain_libm L -> free_process pr -> cruising a b c d p -> @interact _ (Num_F64 L) E pr p l g = Ok (p', l', g') ->
  l' = l /\ (exists x, p' = set_depth p x) /\ cruising a b c d p' /\ (depth_process pr -> g' = g).
Proof. intros L E pr a b c d p l g p' l' g' HL. exact (cruise_process L HL E pr a b c d p l g p' l' g'). Qed.
Print Assumptions C149_process.

(** a whole run of any length: the list has the same number of particles, none was turned away, and each lepton is at its
    place in the list with its momentum and its depth *)
Theorem C149_run : forall (L : Libm) (E : Engine spec_float) (w : world spec_float) S htimes fill fuel tEnd l g (h : S) s',
  plain_libm L -> code_force L (w_force w) -> field_free (w_field w) -> (exists r, dbl (w_dt w) r /\ Rabs r <= two 1000) ->
  Forall free_process (w_procs w) -> Forall (fun p => exists a b c d, cruising a b c d p) (pl_items l) ->
  @run_event _ (Num_F64 L) E w S htimes fill fuel tEnd l g h = Ok s' ->
  length (pl_items (st_ev _ s')) = length (pl_items l) /\ pl_lost (st_ev _ s') = pl_lost l /\
  forall i p a b c d, nth_error (pl_items l) i = Some p -> cruising a b c d p ->
    exists p', nth_error (pl_items (st_ev _ s')) i = Some p' /\ cruising a b c d p' /\ same_identity p p'.
Proof.
  intros L E w S htimes fill fuel tEnd l g h s' HL HF HZ (r & DR & HR) HP HA HX. rewrite Forall_forall in HP.
  assert (ONE : forall i p a b c d, nth_error (pl_items l) i = Some p -> cruising a b c d p ->
    exists p', nth_error (pl_items (st_ev _ s')) i = Some p' /\ cruising a b c d p' /\ same_identity p p').
  { intros i p a b c d HN HC. apply (@run_keep_one _ (Num_F64 L) E w (cruising a b c d)) with (i := i) (p := p) in HX; auto.
    - intros q HQ. apply (cruise_push L HL _ _ _ r); auto.
    - intros pr q l0 g0 q' l1 g1 HI HQ HY. destruct (cruise_process L HL E pr a b c d q l0 g0 q' l1 g1 (HP _ HI) HQ HY) as (A & _ & B & _). auto. }
  split; [|split; [|exact ONE]]; (apply (@run_keep_all _ (Num_F64 L) E w (fun p => exists a b c d, cruising a b c d p)) in HX;
    [destruct (HX HA) as (_ & B & C); auto| |]).
  1,3: intros q (a & b & c & d & HQ); exists a, b, c, d; apply (cruise_push L HL _ _ _ r); auto.
  all: intros pr q l0 g0 q' l1 g1 HI (a & b & c & d & HQ) HY; destruct (cruise_process L HL E pr a b c d q l0 g0 q' l1 g1 (HP _ HI) HQ HY) as (A & _ & B & _); eauto 8.
Qed.
Print Assumptions C149_run.

(** an electron with momentum (1, 0, 0), the modified radiating pusher, both kinds of emission, three steps; the maths library is as
    asked for, and continuous emission passes its first test in every step *)
Definition ex_plain : Libm :=
  Build_Libm (fun _ => f64_lit 1 0) (fun _ => f64_lit 0 0) (fun _ => f64_lit 0 0)
    (fun x _ => match x with S754_zero _ => f64_lit 0 0 | _ => f64_lit 1 0 end) (fun _ => f64_lit 0 0) (fun _ => f64_lit 0 0) (fun _ => f64_lit 0 0).
Lemma ex_plain_ok : plain_libm ex_plain.
Proof.
  split; [|split; [|split]]; cbn [ex_plain l_pow l_log].
  - intros x D. destruct (zero_sf _ D) as [s ->]. exact dbl_0.
  - intros x y D. destruct x as [s|s| |s m e]; try exact dbl_1. exfalso. destruct D as (bb & E1 & F & R1). destruct bb; try discriminate. cbn in R1. lra.
  - intros x _. exact dbl_0.
  - exists 1. exact dbl_1.
Qed.
Definition ex_still : field spec_float := fun _ _ => (mkV (f64_lit 0 0) (f64_lit 0 0) (f64_lit 0 0), mkV (f64_lit 0 0) (f64_lit 0 0) (f64_lit 0 0)).
Definition ex_cruiser : particle spec_float :=
  mkP PLepton "Electron"%string (f64_lit 1 0) (f64_lit (-1) 0) (f64_lit 1 0) (f64_lit 0 0) (f64_lit 1 0) false true
    (mkV (f64_lit 0 0) (f64_lit 0 0) (f64_lit 0 0)) (mkV (f64_lit 1 0) (f64_lit 0 0) (f64_lit 0 0)) [] [] [] [].
Definition ex_cruise_em : em_cfg spec_float :=
  mkEm ex_still (f64_lit 1 0) (f64_lit 5 (-1)) (f64_lit 0 0) false
    (mkEmT [f64_lit (-20) 0; f64_lit 20 0] [f64_lit 1 0; f64_lit 1 0] 2 [f64_lit (-20) 0; f64_lit 0 0; f64_lit 20 0]
       (repeat [f64_lit (-3) 0; f64_lit (-2) 0; f64_lit (-1) 0] 3) (repeat [f64_lit 0 0; f64_lit 5 (-1); f64_lit 1 0] 3) 3 3).
Definition ex_cruise : world spec_float :=
  mkWorld (@modified_landau_force _ (Num_F64 ex_plain)) ex_still (f64_lit 1 0) [Stochastic ex_cruise_em; Continuous ex_cruise_em false].
Definition ex_count : Engine spec_float := mkEngine spec_float nat (fun g => (f64_lit 25 (-2), S g)) (fun n g => (repeat (f64_lit 0 0) n, g)).

Example C149_case : plain_libm ex_plain /\ code_force ex_plain (w_force ex_cruise) /\ field_free (w_field ex_cruise) /\
  (exists r, dbl (w_dt ex_cruise) r /\ Rabs r <= two 1000) /\ Forall free_process (w_procs ex_cruise) /\ cruising 1 0 0 1 ex_cruiser /\
  exists s', @run_event _ (Num_F64 ex_plain) ex_count ex_cruise unit [] (fun _ _ _ h => Ok h) 3 (f64_lit 3 0) (mkPL "event"%string 10 [ex_cruiser] []) 0%nat tt = Ok s' /\
    length (pl_items (st_ev _ s')) = 1%nat /\ st_rng _ s' = 6%nat.
Proof.
  assert (B : forall k e, (0 <= e)%Z -> k = 0 \/ k = 1 -> Rabs k <= two e).
  { intros k e HE [-> | ->]; [rewrite Rabs_R0; apply bpow_ge_0|rewrite Rabs_R1; change 1 with (two 0); now apply bpow_le]. }
  assert (FF : field_free ex_still) by (intros t x; split; repeat split; exact dbl_0).
  split; [exact ex_plain_ok|]. split; [right; right; reflexivity|]. split; [exact FF|].
  split; [exists 1; split; [exact dbl_1|apply B; [lia|auto]]|].
  split; [constructor; [split; [exact FF|exists 1; split; [exact dbl_1|apply B; [lia|auto]]]|constructor; [exact FF|constructor]]|].
  split.
  - unfold cruising. cbn [ex_cruiser p_alive p_type p_charge p_mass p_mom p_depth]. split; [reflexivity|]. split; [reflexivity|].
    split; [closed (f64_lit (-1) 0)|]. split; [exists 1; split; [exact dbl_1|]; change 1 with (two 0); split; apply bpow_le; lia|].
    split; [split; [exact dbl_1|split; exact dbl_0]|]. split; [apply B; [lia|auto]|]. split; [apply B; [lia|auto]|]. split; [apply B; [lia|auto]|].
    split; [eapply Rle_trans; [|apply Rmax_l]; rewrite Rabs_R1; change 1 with (two 0); apply bpow_le; lia|]. split; [exact dbl_1|].
    split; [lra|]. change 1 with (two 0). apply bpow_le. lia.
  - eexists. split; [vm_compute; reflexivity|]. split; reflexivity.
Qed.
