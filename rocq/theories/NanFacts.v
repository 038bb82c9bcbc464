(** * binary64: what a NaN does to a particle (facts for PropsNan) *)
From Coq Require Import String ZArith Reals Lra List Bool Lia.
From Coq Require Import Floats.SpecFloat.
From Verif Require Import Num Outcome OutcomeFacts Vec MCTools Particle ParticleList Fields Pusher PusherFacts
  Process ProcessFacts Histogram PropsProcess Sim SimFacts F64Facts F64Real F64Kin F64Zero.
Import ListNotations.

Notation NaN := S754_nan.

(** some component is NaN *)
Definition has_nan (v : vec spec_float) : Prop := vx v = NaN \/ vy v = NaN \/ vz v = NaN.
(** the three forces of the code *)
Definition code_force (L : Libm) (F : force spec_float) : Prop :=
  F = @lorentz_force _ (Num_F64 L) \/ F = @landau_force _ (Num_F64 L) \/ F = @modified_landau_force _ (Num_F64 L).

Lemma addnl x : f64_add NaN x = NaN. Proof. reflexivity. Qed.
Lemma addnr x : f64_add x NaN = NaN. Proof. now destruct x. Qed.
Lemma subnl x : f64_sub NaN x = NaN. Proof. reflexivity. Qed.
Lemma subnr x : f64_sub x NaN = NaN. Proof. now destruct x. Qed.
Lemma mulnl x : f64_mul NaN x = NaN. Proof. reflexivity. Qed.
Lemma mulnr x : f64_mul x NaN = NaN. Proof. now destruct x. Qed.
Lemma divnl x : f64_div NaN x = NaN. Proof. reflexivity. Qed.
Lemma divnr x : f64_div x NaN = NaN. Proof. now destruct x. Qed.
Lemma sqrtn : f64_sqrt NaN = NaN. Proof. reflexivity. Qed.
Lemma ltnl x : SFltb NaN x = false. Proof. reflexivity. Qed.
Lemma ltnr x : SFltb x NaN = false. Proof. now destruct x. Qed.

Ltac nan := repeat first [rewrite addnl | rewrite addnr | rewrite subnl | rewrite subnr | rewrite mulnl | rewrite mulnr
  | rewrite divnl | rewrite divnr | rewrite sqrtn].

Lemma ok3 {A B C} (a a' : A) (b b' : B) (c c' : C) : Ok (a, b, c) = Ok (a', b', c') -> a' = a /\ b' = b /\ c' = c.
Proof. intros HX. injection HX; auto. Qed.

Section Nan.
Variable L : Libm.
Notation N := (Num_F64 L).
Notation vnan := (@mkV spec_float NaN NaN NaN).

Lemma all_nan_eq v : all_nan v -> v = vnan.
Proof. destruct v as [x y z]. unfold all_nan. cbn. intros (-> & -> & ->). reflexivity. Qed.
Lemma mag2_nan v : has_nan v -> @mag2 _ N v = NaN.
Proof.
  destruct v as [x y z]. unfold has_nan, mag2, dot. cbn [vx vy vz nadd nmul Num_F64]. intros [->|[->| ->]]; nan; reflexivity.
Qed.
Lemma mag_nan v : has_nan v -> @mag _ N v = NaN.
Proof. intros HN. change (@mag _ N v) with (f64_sqrt (@mag2 _ N v)). now rewrite mag2_nan. Qed.
Lemma gamma_nan m v : has_nan v -> @lepton_gamma _ N m v = NaN.
Proof. intros HN. unfold lepton_gamma. rewrite mag2_nan by auto. cbn [ndiv nadd nsqrt Num_F64]. nan. reflexivity. Qed.
Lemma gamma_nan' m v : has_nan v -> @nsqrt _ N (@nadd _ N (@n1 _ N) (@ndiv _ N (@mag2 _ N v) (@nmul _ N m m))) = NaN.
Proof. apply gamma_nan. Qed.
Lemma add_nan_l v w : all_nan v -> all_nan (@vadd _ N v w).
Proof. intros HV. rewrite (all_nan_eq _ HV). unfold all_nan, vadd. cbn [vx vy vz nadd Num_F64]. nan. auto. Qed.
Lemma add_nan_r v w : all_nan w -> all_nan (@vadd _ N v w).
Proof. intros HV. rewrite (all_nan_eq _ HV). unfold all_nan, vadd. cbn [vx vy vz nadd Num_F64]. nan. auto. Qed.
Lemma smul_nan s v : all_nan v -> all_nan (@smul _ N s v).
Proof. intros HV. rewrite (all_nan_eq _ HV). unfold all_nan, smul. cbn [vx vy vz nmul Num_F64]. nan. auto. Qed.
Lemma smul_nan_s v : all_nan (@smul _ N NaN v).
Proof. unfold all_nan, smul. cbn [vx vy vz nmul Num_F64]. nan. auto. Qed.
Lemma vmuls_nan s v : all_nan v -> all_nan (@vmuls _ N v s).
Proof. intros HV. rewrite (all_nan_eq _ HV). unfold all_nan, vmuls. cbn [vx vy vz nmul Num_F64]. nan. auto. Qed.
Lemma vdivs_nan_s v : all_nan (@vdivs _ N v NaN).
Proof. unfold all_nan, vdivs. cbn [vx vy vz ndiv Num_F64]. nan. auto. Qed.
Lemma vdivs_nan s v : all_nan v -> all_nan (@vdivs _ N v s).
Proof. intros HV. rewrite (all_nan_eq _ HV). unfold all_nan, vdivs. cbn [vx vy vz ndiv Num_F64]. nan. auto. Qed.
Lemma all_has v : all_nan v -> has_nan v.
Proof. intros (A & _). left. exact A. Qed.

Lemma lorentz_nan m q v e b : has_nan v -> all_nan (@lorentz_force _ N m q v e b).
Proof.
  intros HN. unfold lorentz_force. rewrite gamma_nan' by auto. apply smul_nan, add_nan_r.
  cbn [nmul Num_F64]. rewrite mulnr. apply vdivs_nan_s.
Qed.
Lemma force_nan F m q v e b : code_force L F -> has_nan v -> all_nan (F m q v e b).
Proof.
  intros [->|[->| ->]] HN.
  - now apply lorentz_nan.
  - exact (add_nan_l _ _ (lorentz_nan m q v e b HN)).
  - exact (add_nan_l _ _ (lorentz_nan m q v e b HN)).
Qed.
Lemma pos_nan m v : has_nan v -> all_nan (@push_position _ N m v).
Proof. intros HN. unfold push_position. rewrite gamma_nan' by auto. cbn [nmul Num_F64]. rewrite mulnr. apply vdivs_nan_s. Qed.

Lemma mean_nan k1 k2 k3 k4 : all_nan k4 -> all_nan (@rk4_mean _ N k1 k2 k3 k4).
Proof. intros HK. unfold rk4_mean. now apply add_nan_r. Qed.

(** a first force with a NaN makes everything NaN *)
Lemma rk4_nan_k1 F (fld : field spec_float) dt (p : particle spec_float) : code_force L F ->
  (forall e b, all_nan (F (p_mass p) (p_charge p) (p_mom p) e b)) ->
  all_nan (fst (@rk4_step _ N F fld dt p)) /\ all_nan (snd (@rk4_step _ N F fld dt p)).
Proof.
  intros CF H1. unfold rk4_step.
  destruct (fld _ _) as [e1 b1]. destruct (fld _ _) as [e2 b2]. destruct (fld _ _) as [e3 b3]. destruct (fld _ _) as [e4 b4].
  cbn [fst snd].
  set (k1 := F _ _ (p_mom p) e1 b1). assert (K1 : all_nan k1) by apply H1.
  set (m1 := @vadd _ N (p_mom p) (@vdivs _ N (@vmuls _ N k1 dt) (@n2 _ N))).
  assert (M1 : has_nan m1) by (apply all_has, add_nan_r, vdivs_nan, vmuls_nan, K1).
  set (k2 := F _ _ m1 e2 b2). assert (K2 : all_nan k2) by (apply force_nan; auto).
  set (m2 := @vadd _ N (p_mom p) (@vdivs _ N (@vmuls _ N k2 dt) (@n2 _ N))).
  assert (M2 : has_nan m2) by (apply all_has, add_nan_r, vdivs_nan, vmuls_nan, K2).
  set (k3 := F _ _ m2 e3 b3). assert (K3 : all_nan k3) by (apply force_nan; auto).
  set (m3 := @vadd _ N (p_mom p) (@vmuls _ N k3 dt)).
  assert (M3 : has_nan m3) by (apply all_has, add_nan_r, vmuls_nan, K3).
  split; apply add_nan_r, smul_nan, mean_nan; [apply pos_nan; auto|apply force_nan; auto].
Qed.

Lemma push_nan F fld dt (p : particle spec_float) : code_force L F -> p_alive p = true -> has_nan (p_mom p) ->
  let p' := @push_particle _ N F fld dt p in
  has_nan (p_mom p') /\ all_nan (p_pos p') /\ (@neqb _ N (p_mass p) (@n0 _ N) = false -> all_nan (p_mom p')).
Proof.
  intros CF HA HN. unfold push_particle. rewrite HA. destruct (@neqb _ N (p_mass p) (@n0 _ N)) eqn:EM.
  - assert (HP : all_nan (@vadd _ N (p_pos p) (@smul _ N (@ndiv _ N dt (@mag _ N (p_mom p))) (p_mom p)))).
    { apply add_nan_r. rewrite mag_nan by auto. cbn [ndiv Num_F64]. rewrite divnr. apply smul_nan_s. }
    unfold update_track. destruct (p_tracking p); cbn; (split; [exact HN|split; [exact HP|discriminate]]).
  - destruct (rk4_nan_k1 F fld dt p CF) as [A B]; [intros; now apply force_nan|].
    destruct (@rk4_step _ N F fld dt p) as [x m]. cbn [fst snd] in A, B.
    unfold update_track. destruct (p_tracking p); cbn; (split; [apply all_has; exact B|split; [exact A|auto]]).
Qed.

(** ** processes *)
Lemma get_gamma_nan (p : particle spec_float) : has_nan (p_mom p) -> @get_gamma _ N p = NaN.
Proof. intros HN. unfold get_gamma. destruct (p_type p); [now apply mag_nan|now apply gamma_nan]. Qed.
Lemma get_energy_nan (p : particle spec_float) : has_nan (p_mom p) -> @get_energy _ N p = NaN.
Proof.
  intros HN. unfold get_energy. destruct (p_type p) eqn:ET; [now apply mag_nan|].
  rewrite get_gamma_nan by auto. cbn [nmul Num_F64]. apply mulnr.
Qed.
Lemma eta_nan fld (p : particle spec_float) : has_nan (p_mom p) -> @calculate_eta _ N fld p = NaN.
Proof.
  intros HN. unfold calculate_eta. destruct (fld _ _) as [e b]. rewrite get_gamma_nan by auto. cbn [nmul Num_F64]. apply mulnr.
Qed.
Lemma chi_nan fld (p : particle spec_float) : has_nan (p_mom p) -> @photon_chi _ N fld p = NaN.
Proof.
  intros HN. unfold photon_chi. destruct (fld _ _) as [e b]. rewrite get_energy_nan by auto. cbn [nmul Num_F64]. rewrite mulnr. apply mulnl.
Qed.
Lemma depth_nan dt logh ga : @emission_depth _ N dt NaN logh ga = NaN.
Proof. unfold emission_depth. cbn [nmul ndiv Num_F64]. rewrite mulnr, mulnl. reflexivity. Qed.

Variable E : Engine spec_float.

(** a process changes at most the optical depth *)
Definition untouched (p p' : particle spec_float) : Prop := exists d, p' = set_depth p d.

Lemma untouched_refl p : untouched p p.
Proof. exists (p_depth p). destruct p. reflexivity. Qed.

Lemma untouched_update p x : untouched p (@update_depth _ N p x).
Proof. exists (f64_sub (p_depth p) x). reflexivity. Qed.
Lemma depth_update_nan p x : p_depth p = NaN -> p_depth (@update_depth _ N p x) = NaN.
Proof. cbn [update_depth set_depth p_depth nsub Num_F64]. intros ->. reflexivity. Qed.

Definition depth_process (pr : process spec_float) : Prop := match pr with Continuous _ _ => False | _ => True end.

(** NaN eta: nothing happens, and the stochastic process makes the depth NaN *)
Lemma stochastic_nan c p l g p' l' g' : @calculate_eta _ N (em_field c) p = NaN ->
  @interact _ N E (Stochastic c) p l g = Ok (p', l', g') ->
  l' = l /\ g' = g /\ untouched p p' /\
  (@neqb _ N (p_mass p) (@n0 _ N) = false -> p_alive p = true -> p_depth p' = NaN).
Proof.
  intros HE. cbn [interact]. unfold stochastic_interact. rewrite HE.
  destruct (@neqb _ N (p_mass p) (@n0 _ N) || negb (p_alive p)) eqn:EB.
  - intros HX. injection HX; intros; subst. split; [auto|]. split; [auto|]. split; [apply untouched_refl|].
    intros A B. rewrite A, B in EB. discriminate.
  - intros HX. apply bind_ok in HX. destruct HX as [lh [_ HX]]. rewrite depth_nan in HX.
    cbn [update_depth set_depth p_depth nsub Num_F64] in HX. rewrite subnr in HX. cbn [nltb Num_F64] in HX. rewrite ltnl in HX.
    apply ok3 in HX. destruct HX as (-> & -> & ->). split; [reflexivity|]. split; [reflexivity|]. split; [apply untouched_update|]. intros; apply subnr.
Qed.
Lemma continuous_nan c cl p l g p' l' g' : @calculate_eta _ N (em_field c) p = NaN ->
  @interact _ N E (Continuous c cl) p l g = Ok (p', l', g') -> l' = l /\ p' = p.
Proof.
  intros HE. cbn [interact]. unfold continuous_interact. rewrite HE.
  destruct (_ || _); [intros HX; injection HX; intros; subst; auto|].
  destruct (@rand_double _ N E _ _ g) as [r g1]. destruct (@nltb _ N _ r); [intros HX; injection HX; intros; subst; auto|].
  intros HX. apply bind_ok in HX. destruct HX as [[[lh chi] g2] [_ HX]].
  cbn [ndiv nltb Num_F64] in HX. rewrite divnr, ltnr in HX. injection HX; intros; subst; auto.
Qed.
Lemma bw_nan c p l g p' l' g' : @photon_chi _ N (bw_field c) p = NaN ->
  @interact _ N E (BreitWheeler c) p l g = Ok (p', l', g') -> l' = l /\ g' = g /\ untouched p p'.
Proof.
  intros HE. cbn [interact]. unfold breit_wheeler_interact. rewrite HE.
  destruct (_ || _); [intros HX; injection HX; intros; subst; auto using untouched_refl|].
  intros HX. apply bind_ok in HX. destruct HX as [lt [_ HX]].
  cbn [update_depth set_depth p_depth nsub nmul ndiv nltb Num_F64] in HX. rewrite mulnr, mulnl, divnl, subnr, ltnl in HX.
  apply ok3 in HX. destruct HX as (-> & -> & ->). split; [reflexivity|]. split; [reflexivity|]. apply untouched_update.
Qed.
Lemma interact_nan pr p l g p' l' g' : has_nan (p_mom p) ->
  @interact _ N E pr p l g = Ok (p', l', g') -> l' = l /\ untouched p p'.
Proof.
  intros HN HX. destruct pr as [c|c cl|c].
  - destruct (stochastic_nan c p l g p' l' g' (eta_nan _ _ HN) HX) as (A & _ & B & _). auto.
  - destruct (continuous_nan c cl p l g p' l' g' (eta_nan _ _ HN) HX) as (A & ->). auto using untouched_refl.
  - destruct (bw_nan c p l g p' l' g' (chi_nan _ _ HN) HX) as (A & _ & B). auto.
Qed.

(** NaN depth *)
Lemma interact_deaf pr p l g p' l' g' : depth_process pr -> p_depth p = NaN ->
  @interact _ N E pr p l g = Ok (p', l', g') -> l' = l /\ g' = g /\ untouched p p' /\ p_depth p' = NaN.
Proof.
  intros HD HN. destruct pr as [c|c cl|c]; [| contradiction |]; cbn [interact].
  - unfold stochastic_interact. destruct (_ || _); [intros HX; injection HX; intros; subst; auto using untouched_refl|].
    intros HX. apply bind_ok in HX. destruct HX as [lh [_ HX]]. rewrite depth_update_nan in HX by exact HN.
    cbn [nltb Num_F64] in HX. rewrite ltnl in HX. apply ok3 in HX. destruct HX as (-> & -> & ->). split; [reflexivity|]. split; [reflexivity|]. split; [apply untouched_update|now apply depth_update_nan].
  - unfold breit_wheeler_interact. destruct (_ || _); [intros HX; injection HX; intros; subst; auto using untouched_refl|].
    intros HX. apply bind_ok in HX. destruct HX as [lh [_ HX]]. rewrite depth_update_nan in HX by exact HN.
    cbn [nltb Num_F64] in HX. rewrite ltnl in HX. apply ok3 in HX. destruct HX as (-> & -> & ->). split; [reflexivity|]. split; [reflexivity|]. split; [apply untouched_update|now apply depth_update_nan].
Qed.

(** ** zero momentum *)
Lemma zero_sf x : dbl x 0 -> exists s, x = S754_zero s.
Proof.
  intros (b & <- & HF & HR). destruct b as [s|s| |s m e HB]; try discriminate; [exists s; reflexivity|].
  exfalso. cbn in HR. apply Float_prop.eq_0_F2R in HR. destruct s; discriminate.
Qed.
Lemma norm_zero v : zerov v -> all_nan (@vnorm _ N v).
Proof.
  destruct v as [x y z]. intros (X & Y & Z). cbn [vx vy vz] in *.
  apply zero_sf in X. apply zero_sf in Y. apply zero_sf in Z. destruct X as [sx ->], Y as [sy ->], Z as [sz ->].
  destruct sx, sy, sz; vm_compute; auto.
Qed.
Lemma dot_nan_r v w : all_nan w -> @dot _ N v w = NaN.
Proof. intros HW. rewrite (all_nan_eq _ HW). unfold dot. cbn [vx vy vz nadd nmul Num_F64]. nan. reflexivity. Qed.
Lemma sub_nan_r v w : all_nan w -> all_nan (@vsub _ N v w).
Proof. intros HW. rewrite (all_nan_eq _ HW). unfold all_nan, vsub. cbn [vx vy vz nsub Num_F64]. nan. auto. Qed.
Lemma eta_rest fld (p : particle spec_float) : zerov (p_mom p) -> @calculate_eta _ N fld p = NaN.
Proof.
  intros HZ. unfold calculate_eta. destruct (fld _ _) as [e b].
  assert (HD : all_nan (@get_direction _ N p)) by (apply norm_zero; auto).
  rewrite (mag2_nan (@vadd _ N _ _)); [|apply all_has, add_nan_l, sub_nan_r, smul_nan; exact HD].
  cbn [nadd nsqrt nmul Num_F64]. rewrite addnl, sqrtn. reflexivity.
Qed.
Lemma rr_rest F m q v e b : F = @landau_force _ N \/ F = @modified_landau_force _ N -> zerov v -> all_nan (F m q v e b).
Proof. intros [->| ->] HZ; apply add_nan_r, smul_nan, norm_zero; auto. Qed.
End Nan.
