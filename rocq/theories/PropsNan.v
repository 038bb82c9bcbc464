(** * Properties C130, C131: what a NaN does in a run (binary64, every maths library) *)
From Coq Require Import String ZArith Reals Lra List Bool Lia.
From Coq Require Import Floats.SpecFloat.
From Verif Require Import Num Outcome OutcomeFacts Vec MCTools Particle ParticleList Fields Pusher PusherFacts
  Process ProcessFacts Histogram PropsProcess Sim SimFacts F64Facts F64Real F64Draw F64Kin F64Zero NanFacts NanRun.
Import ListNotations.

(** ** C130: a NaN in the momentum *)
Definition poisoned (p : particle spec_float) : Prop := p_alive p = true /\ has_nan (p_mom p).

(** one step of any of the three pushers in any field: the position is NaN in all components, for a particle with mass
    also the momentum; the clock of the particle goes on and everything else is as before *)
Theorem C130_push : forall (L : Libm) (F : force spec_float) (fld : field spec_float) dt (p : particle spec_float),
  code_force L F -> poisoned p ->
  let p' := @push_particle _ (Num_F64 L) F fld dt p in
  poisoned p' /\ all_nan (p_pos p') /\ (@neqb _ (Num_F64 L) (p_mass p) (f64_lit 0 0) = false -> all_nan (p_mom p')) /\
  same_identity p p' /\ p_depth p' = p_depth p /\ p_time p' = f64_add (p_time p) dt.
Proof.
  intros L F fld dt p CF [HA HN]. cbv zeta. destruct (push_nan L F fld dt p CF HA HN) as (A & B & C).
  destruct (@PusherFacts.push_keeps _ (Num_F64 L) F fld dt p) as (P1&P2&P3&P4&P5&P6&P7&P8).
  split; [split; [rewrite P8; exact HA|exact A]|]. split; [exact B|]. split; [exact C|].
  split; [unfold same_identity; auto 10|]. split; [exact P6|].
  unfold push_particle. rewrite HA. destruct (@neqb _ (Num_F64 L) _ _); [|destruct (@rk4_step _ (Num_F64 L) _ _ _ p)];
    unfold update_track; destruct (p_tracking p); reflexivity.
Qed.
Print Assumptions C130_push.

(** whatever process is called on it: nothing is added to the list, the particle does not die and keeps everything but
    its optical depth *)
Theorem C130_process : forall (L : Libm) (E : Engine spec_float) pr (p : particle spec_float) l g p' l' g',
  poisoned p -> @interact _ (Num_F64 L) E pr p l g = Ok (p', l', g') ->
  l' = l /\ (exists d, p' = set_depth p d) /\ poisoned p'.
Proof.
  intros L E pr p l g p' l' g' [HA HN] HX. destruct (interact_nan L E pr p l g p' l' g' HN HX) as [A [d ->]].
  split; [exact A|]. split; [exists d; reflexivity|]. split; [exact HA|exact HN].
Qed.
Print Assumptions C130_process.

Lemma poisoned_push L w p : code_force L (w_force w) -> poisoned p ->
  poisoned (@push_particle _ (Num_F64 L) (w_force w) (w_field w) (w_dt w) p).
Proof. intros CF HP. exact (proj1 (C130_push L _ _ _ p CF HP)). Qed.
Lemma poisoned_proc L E pr p l g p' l' g' : poisoned p -> @interact _ (Num_F64 L) E pr p l g = Ok (p', l', g') -> l' = l /\ poisoned p'.
Proof. intros HP HX. destruct (C130_process L E pr p l g p' l' g' HP HX) as (A & _ & B). auto. Qed.

(** in a whole run, among any other particles: it is still in the list at the end, at the same place, alive, with its
    identity and its NaN *)
Theorem C130_run : forall (L : Libm) (E : Engine spec_float) (w : world spec_float) S htimes fill fuel tEnd l g (h : S) s' i p,
  code_force L (w_force w) -> @run_event _ (Num_F64 L) E w S htimes fill fuel tEnd l g h = Ok s' ->
  nth_error (pl_items l) i = Some p -> poisoned p ->
  exists p', nth_error (pl_items (st_ev _ s')) i = Some p' /\ poisoned p' /\ same_identity p p'.
Proof.
  intros L E w S htimes fill fuel tEnd l g h s' i p CF HX HN HP.
  eapply (@run_keep_one _ (Num_F64 L) E w poisoned) with (3 := HX); eauto.
  - intros q HQ. now apply poisoned_push.
  - intros pr q l0 g0 q' l1 g1 _ HQ. now apply poisoned_proc.
Qed.
Print Assumptions C130_run.

(** a run in which every particle is like that creates nothing *)
Theorem C130_run_creates_nothing : forall (L : Libm) (E : Engine spec_float) (w : world spec_float) S htimes fill fuel tEnd l g (h : S) s',
  code_force L (w_force w) -> @run_event _ (Num_F64 L) E w S htimes fill fuel tEnd l g h = Ok s' ->
  Forall poisoned (pl_items l) ->
  Forall poisoned (pl_items (st_ev _ s')) /\ length (pl_items (st_ev _ s')) = length (pl_items l) /\ pl_lost (st_ev _ s') = pl_lost l.
Proof.
  intros L E w S htimes fill fuel tEnd l g h s' CF HX HP.
  apply (@run_keep_all _ (Num_F64 L) E w poisoned) with (3 := HX); auto.
  - intros q HQ. now apply poisoned_push.
  - intros pr q l0 g0 q' l1 g1 _ HQ. now apply poisoned_proc.
Qed.
Print Assumptions C130_run_creates_nothing.

(** no histogram counts it: the contents stay, only the number of entries goes up *)
Theorem C130_histogram : forall (L : Libm) (h : hist spec_float) (p : particle spec_float) h', poisoned p ->
  @app_particle _ (Num_F64 L) h p = Ok h' ->
  hi_values h' = hi_values h /\ hi_centres h' = hi_centres h /\ hi_entries h' = u32 (hi_entries h + 1).
Proof.
  intros L h p h' [_ HN]. unfold app_particle. destruct (hi_n h =? 0)%Z; [discriminate|].
  replace (type_is h "Energy" "energy") with true by (unfold type_is, literal; now rewrite orb_true_r).
  rewrite (get_energy_nan L p HN). unfold add_value. intros HX. apply bind_ok in HX. destruct HX as [c [_ HX]].
  cbn [nltb Num_F64] in HX. rewrite ltnr in HX. cbn [bind] in HX. injection HX; intros <-. auto.
Qed.
Print Assumptions C130_histogram.

(** where such particles come from: besides pairs below threshold (C42), every massive particle at rest that a pusher with
    radiation reaction moves, in any field, even where there is none *)
Theorem C130_radiation_reaction_at_rest : forall (L : Libm) (F : force spec_float) (fld : field spec_float) dt (p : particle spec_float),
  F = @landau_force _ (Num_F64 L) \/ F = @modified_landau_force _ (Num_F64 L) ->
  p_alive p = true -> @neqb _ (Num_F64 L) (p_mass p) (f64_lit 0 0) = false -> zerov (p_mom p) ->
  let p' := @push_particle _ (Num_F64 L) F fld dt p in poisoned p' /\ all_nan (p_mom p') /\ all_nan (p_pos p').
Proof.
  intros L F fld dt p HF HA HM HZ. cbv zeta.
  assert (CF : code_force L F) by (unfold code_force; tauto).
  destruct (rk4_nan_k1 L F fld dt p CF) as [A B]; [intros; now apply (rr_rest L)|].
  unfold push_particle. rewrite HA. change (@n0 _ (Num_F64 L)) with (f64_lit 0 0). rewrite HM.
  destruct (@rk4_step _ (Num_F64 L) F fld dt p) as [x m]. cbn [fst snd] in A, B.
  unfold update_track. destruct (p_tracking p); (split; [split; [exact HA|apply all_has; exact B]|split; [exact B|exact A]]).
Qed.
Print Assumptions C130_radiation_reaction_at_rest.

(** concrete: an electron at rest without any field under the Landau force, then a run with stochastic emission and pair
    creation; with the Lorentz force the same electron stays where it is *)
Definition ex_rest : particle spec_float :=
  mkP PLepton "Electron" (f_lit 1 0) (f_lit (-1) 0) (f_lit 1 0) (f_lit 0 0) (f_lit 1 (-4)) false true
    (mkV (f_lit 0 0) (f_lit 0 0) (f_lit 0 0)) (mkV (f_lit 0 0) (f_lit 0 0) (f_lit 0 0)) [] [] [] [].
Definition no_field : field spec_float := fun _ _ => (mkV (f_lit 0 0) (f_lit 0 0) (f_lit 0 0), mkV (f_lit 0 0) (f_lit 0 0) (f_lit 0 0)).
(** no field up to time 1, then a constant one across the x axis *)
Definition late_field : field spec_float := fun t _ =>
  if SFleb t (f_lit 1 0) then (mkV (f_lit 0 0) (f_lit 0 0) (f_lit 0 0), mkV (f_lit 0 0) (f_lit 0 0) (f_lit 0 0))
  else (mkV (f_lit 1 0) (f_lit 0 0) (f_lit 0 0), mkV (f_lit 0 0) (f_lit 1 0) (f_lit 0 0)).
Definition ex_em (fld : field spec_float) : em_cfg spec_float :=
  mkEm fld (f_lit 1 0) (f_lit 1 (-1)) (f_lit 0 0) false
    (mkEmT [f_lit (-20) 0; f_lit 2000 0] [f_lit 10 0; f_lit 10 0] 2
       [f_lit (-20) 0; f_lit 1000 0; f_lit 2000 0] (repeat [f_lit (-30) 0; f_lit (-20) 0; f_lit (-10) 0] 3)
       (repeat [f_lit 0 0; f_lit 5 (-1); f_lit 1 0] 3) 3 3).
Definition late_world (F : force spec_float) (fld : field spec_float) : world spec_float :=
  mkWorld F fld (f_lit 1 0) [Stochastic (ex_em fld); BreitWheeler ex_bw64].
Definition rest_event (p : particle spec_float) : event spec_float := pl_add (pl_new "0"%string 10) p.
Definition ex_landau_run :=
  @run_event _ (Num_F64 ex_libm) ex_engine64 (late_world (@landau_force _ (Num_F64 ex_libm)) no_field) _ [] (fun _ _ _ (s : unit) => Ok s) 4 (f_lit 4 0)
    (rest_event ex_rest) tt tt.
Definition ex_nan : particle spec_float :=
  mkP PLepton "Electron" (f_lit 1 0) (f_lit (-1) 0) (f_lit 1 0) (f_lit 0 0) (f_lit 1 (-4)) false true
    (mkV (f_lit 0 0) (f_lit 0 0) (f_lit 0 0)) (mkV (f_lit 0 0) S754_nan (f_lit 0 0)) [] [] [] [].
Definition ex_hist64 : hist spec_float := @hist_new _ (Num_F64 ex_libm) 0 "a" "Electron" "Energy" (f_lit 0 0) (f_lit 0 0) (f_lit 4 0) 5.

Lemma zero_rest : zerov (p_mom ex_rest).
Proof. repeat split; apply dbl_0. Qed.

Example C130_case :
  (@neqb _ (Num_F64 ex_libm) (p_mass ex_rest) (f64_lit 0 0) = false /\ zerov (p_mom ex_rest)) /\
  p_mom (@push_particle _ (Num_F64 ex_libm) (@lorentz_force _ (Num_F64 ex_libm)) no_field (f_lit 1 0) ex_rest) = p_mom ex_rest /\
  (exists s, ex_landau_run = Ok s /\ map (fun p => (vx (p_mom p), vz (p_pos p), p_alive p)) (pl_items (st_ev _ s)) = [(S754_nan, S754_nan, true)]) /\
  poisoned ex_nan /\
  (exists h', @app_particle _ (Num_F64 ex_libm) ex_hist64 ex_nan = Ok h' /\ hi_values h' = repeat (f_lit 0 0) 5 /\ hi_entries h' = 1%Z) /\
  (exists h', @app_particle _ (Num_F64 ex_libm) ex_hist64 ex_rest = Ok h' /\ hi_values h' <> repeat (f_lit 0 0) 5).
Proof.
  split; [split; [reflexivity|apply zero_rest]|]. split; [vm_compute; reflexivity|].
  split; [eexists; split; vm_compute; reflexivity|]. split; [split; [reflexivity|right; left; reflexivity]|].
  split; eexists; (split; [vm_compute; reflexivity|]); [split; reflexivity|intros HX; vm_compute in HX; discriminate].
Qed.

(** ** C131: a NaN in the optical depth *)

(** stochastic emission and pair creation compare the depth with zero, so a particle with depth NaN never emits and never
    converts, whatever its momentum and the field; the depth stays NaN and no random number is used *)
Theorem C131_deaf : forall (L : Libm) (E : Engine spec_float) pr (p : particle spec_float) l g p' l' g',
  depth_process pr -> p_depth p = S754_nan -> @interact _ (Num_F64 L) E pr p l g = Ok (p', l', g') ->
  l' = l /\ g' = g /\ (exists d, p' = set_depth p d) /\ p_depth p' = S754_nan /\ p_alive p' = p_alive p.
Proof.
  intros L E pr p l g p' l' g' HD HN HX. destruct (interact_deaf L E pr p l g p' l' g' HD HN HX) as (A & B & [d ->] & C).
  split; [exact A|]. split; [exact B|]. split; [exists d; reflexivity|]. split; [exact C|reflexivity].
Qed.
Print Assumptions C131_deaf.

(** a massive particle that is at rest when stochastic emission looks at it gets the depth NaN, whatever the field *)
Theorem C131_at_rest : forall (L : Libm) (E : Engine spec_float) c (p : particle spec_float) l g p' l' g',
  p_alive p = true -> @neqb _ (Num_F64 L) (p_mass p) (f64_lit 0 0) = false -> zerov (p_mom p) ->
  @interact _ (Num_F64 L) E (Stochastic c) p l g = Ok (p', l', g') -> p_depth p' = S754_nan /\ l' = l /\ g' = g.
Proof.
  intros L E c p l g p' l' g' HA HM HZ HX.
  destruct (stochastic_nan L E c p l g p' l' g' (eta_rest L _ _ HZ) HX) as (A & B & _ & C). auto.
Qed.
Print Assumptions C131_at_rest.

(** whole run with Lorentz pusher, stochastic emission and perhaps pair creation: leptons at rest where the field is still
    zero during the first step never emit afterwards, however strong the field becomes: the list has at the end the same
    number of particles as at the start *)
Theorem C131_run : forall (L : Libm) (E : Engine spec_float) (w : world spec_float) S htimes fill fuel tEnd l g (h : S) s' c,
  w_force w = @lorentz_force _ (Num_F64 L) -> (exists d, dbl (w_dt w) d /\ (Rabs d <= two 1000)%R) ->
  Forall depth_process (w_procs w) -> In (Stochastic c) (w_procs w) ->
  Forall (fun p => at_rest p /\ silent_at L w (p_time p)) (pl_items l) ->
  @run_event _ (Num_F64 L) E w S htimes fill fuel tEnd l g h = Ok s' ->
  length (pl_items (st_ev _ s')) = length (pl_items l) /\ pl_lost (st_ev _ s') = pl_lost l.
Proof.
  intros L E w S htimes fill fuel tEnd l g h s' c HF HD HP HC HW HX.
  exact (run_rest L E w HF HD HP c HC htimes fill fuel tEnd l g h s' HW HX).
Qed.
Print Assumptions C131_run.

(** concrete: the electron at rest and an electron with momentum (1/4, 0, 0) in the field that is switched on after time 1,
    five steps: the first never emits although it is accelerated, the second emits *)
Definition ex_slow : particle spec_float :=
  mkP PLepton "Electron" (f_lit 1 0) (f_lit (-1) 0) (f_lit 1 0) (f_lit 0 0) (f_lit 1 (-4)) false true
    (mkV (f_lit 0 0) (f_lit 0 0) (f_lit 0 0)) (mkV (f_lit 25 (-2)) (f_lit 0 0) (f_lit 0 0)) [] [] [] [].
Definition ex_late_run (p : particle spec_float) :=
  @run_event _ (Num_F64 ex_libm) ex_engine64 (late_world (@lorentz_force _ (Num_F64 ex_libm)) late_field) _ [] (fun _ _ _ (s : unit) => Ok s) 5 (f_lit 5 0)
    (rest_event p) tt tt.
Example C131_case :
  (exists s, ex_late_run ex_rest = Ok s /\ length (pl_items (st_ev _ s)) = 1%nat /\
     map (fun p => @nltb _ (Num_F64 ex_libm) (f_lit 1 0) (@get_gamma _ (Num_F64 ex_libm) p)) (pl_items (st_ev _ s)) = [true]) /\
  (exists s, ex_late_run ex_slow = Ok s /\ (1 < length (pl_items (st_ev _ s)))%nat) /\
  Forall (fun p => at_rest p /\ silent_at ex_libm (late_world (@lorentz_force _ (Num_F64 ex_libm)) late_field) (p_time p)) (pl_items (rest_event ex_rest)) /\
  Forall depth_process (w_procs (late_world (@lorentz_force _ (Num_F64 ex_libm)) late_field)) /\
  (exists d, dbl (f_lit 1 0) d /\ (Rabs d <= two 1000)%R).
Proof.
  assert (T0 : two 0 = 1%R) by reflexivity.
  split; [eexists; split; [vm_compute; reflexivity|split; vm_compute; reflexivity]|].
  split; [eexists; split; [vm_compute; reflexivity|vm_compute; lia]|].
  split.
  { constructor; [|constructor]. split.
    - split; [reflexivity|]. split; [reflexivity|]. split; [apply zero_rest|]. split.
      + exists (-1)%R. exists (f64 (f64_lit (-1) 0) eq_refl). split; [apply toSF_f64|]. split; [reflexivity|].
        unfold f64. rewrite Flocq.IEEE754.BinarySingleNaN.B2R_SF2B. vm_compute. lra.
      + exists 1%R. split; [apply dbl_1|]. rewrite <- T0. split; apply Raux.bpow_le; lia.
    - intros t x [->|[->| ->]]; vm_compute p_time; cbv [late_world w_field late_field]; vm_compute SFleb; cbn [fst snd];
        split; repeat split; apply dbl_0. }
  split; [repeat constructor|]. exists 1%R. split; [apply dbl_1|]. rewrite Rabs_R1, <- T0. apply Raux.bpow_le. lia.
Qed.
