(** * Property C148: a run without field *)
From Coq Require Import String ZArith Reals Lra Psatz List Bool Lia.
From Verif Require Import Num RNum Outcome OutcomeFacts Vec SpecVec SpecDyn MCTools Particle ParticleList Fields Pusher PusherFacts PropsPusher
  Process ProcessFacts ProcessRFacts PropsProcess Sim SimFacts SimTime SimClock PropsSim.
Import ListNotations.
Local Open Scope R_scope.

(** Specification.  The velocity of a particle with [c = 1]: along the momentum, with the speed of light without mass. *)
Definition flight_speed (p : particle R) : V3 := if Req_EM_T (p_mass p) 0 then runit (p_mom p) else velocity (p_mass p) (p_mom p).

(** [p'] is [p] after the time [s] of free flight: nothing but place and time is different.  A dead particle is left alone. *)
Definition flown (s : R) (p p' : particle R) : Prop :=
  p_type p' = p_type p /\ p_name p' = p_name p /\ p_mass p' = p_mass p /\ p_charge p' = p_charge p /\ p_weight p' = p_weight p /\
  p_depth p' = p_depth p /\ p_alive p' = p_alive p /\ p_mom p' = p_mom p /\
  if p_alive p then p_time p' = p_time p + s /\ p_pos p' = rplus (p_pos p) (rscale s (flight_speed p)) else p' = p.

(** A process that meets no field: photon emission, by the quantum rate, in zero field; or pair production. *)
Definition no_field_process (pr : process R) : Prop :=
  match pr with
  | Stochastic c => forall t x, em_field c t x = (rzero, rzero)
  | Continuous _ _ => False
  | BreitWheeler _ => True
  end.
Definition pairs_on (prs : list (process R)) : Prop := exists c, In (BreitWheeler c) prs.

(** A particle as the sources make them: a moving lepton, or a photon if pair production is off. *)
Definition ready (prs : list (process R)) (p : particle R) : Prop :=
  p_alive p = true -> 0 <= p_depth p /\ p_mom p <> rzero /\
  match p_type p with PLepton => 0 < p_mass p | PPhoton => p_mass p = 0 /\ ~ pairs_on prs end.

Definition quiet_world (w : world R) : Prop :=
  w_field w = static_field rzero rzero /\ (w_force w = lorentz_force \/ w_force w = landau_force \/ w_force w = modified_landau_force) /\
  Forall no_field_process (w_procs w).

Lemma set_depth_same (p : particle R) : set_depth p (p_depth p) = p.
Proof. destruct p. reflexivity. Qed.

Lemma flown_length s l l' : Forall2 (flown s) l l' -> length l = length l'.
Proof. induction 1; cbn; congruence. Qed.

Section Quiet.
Variable E : Engine R.
Variable w : world R.
Hypothesis HW : quiet_world w.
Notation push := (push_particle (w_force w) (w_field w) (w_dt w)).

Lemma quiet_interact pr p (l : event R) (g : est E) : In pr (w_procs w) -> ready (w_procs w) p -> interact E pr p l g = Ok (p, l, g).
Proof.
  destruct HW as (_ & _ & HP). rewrite Forall_forall in HP. intros HI HR. specialize (HP _ HI).
  destruct (p_alive p) eqn:Ha.
  2:{ destruct pr as [c|c cl|c]; cbn [interact no_field_process] in *; [|tauto|].
      - unfold stochastic_interact. rewrite Ha, orb_true_r. reflexivity.
      - unfold breit_wheeler_interact. rewrite Ha, orb_true_r. reflexivity. }
  destruct (HR Ha) as (D & M & TY). destruct pr as [c|c cl|c]; cbn [interact no_field_process] in *; [|tauto|].
  - unfold stochastic_interact. destruct (p_type p) eqn:Ty.
    + destruct TY as [TY _]. assert (NM : neqb (p_mass p) n0 = true) by (rnum; apply Reqb_true; lra). rewrite NM. reflexivity.
    + assert (NM : neqb (p_mass p) n0 = false) by (rnum; apply Reqb_false, Rgt_not_eq; exact TY). rewrite NM, Ha. cbn [negb orb].
      rewrite (C36_zero_without_field (em_field c) p Ty TY M) by apply HP.
      assert (LT : nltb (0 : R) (nlit 1 (-12)) = true) by (rnum; rlit; apply Rltb_true; lra).
      rewrite LT. cbn [bind].
      assert (UD : update_depth p (emission_depth (em_dt c) 0 (nlit 7193 (-4)) (get_gamma p)) = p).
      { unfold update_depth, emission_depth. rnum.
        match goal with |- set_depth p ?d = _ => replace d with (p_depth p) end; [apply set_depth_same|]. unfold Rdiv. ring. }
      rewrite UD.
      assert (ND : nltb (p_depth p) n0 = false) by (rnum; apply Rltb_false; lra). rewrite ND. reflexivity.
  - unfold breit_wheeler_interact. destruct (p_type p) eqn:Ty; [|reflexivity].
    destruct TY as [_ TY]. exfalso. apply TY. exists c. exact HI.
Qed.

Lemma flown_push p : ready (w_procs w) p -> flown (w_dt w) p (push p).
Proof.
  destruct HW as (HF & HK & _). intros HR. destruct (PusherFacts.push_keeps (w_force w) (w_field w) (w_dt w) p) as (K1 & K2 & K3 & K4 & K5 & K6 & K7 & K8).
  assert (G : p_mom (push p) = p_mom p /\ (if p_alive p then p_time (push p) = p_time p + w_dt w /\ p_pos (push p) = rplus (p_pos p) (rscale (w_dt w) (flight_speed p)) else push p = p)).
  { destruct (p_alive p) eqn:Ha; [|rewrite push_dead by exact Ha; auto]. destruct (HR Ha) as (D & M & TY). unfold flight_speed.
    destruct (Req_EM_T (p_mass p) 0) as [Z|Z].
    - destruct (push_photon (w_force w) (w_field w) (w_dt w) p Ha Z) as (A & B & C). auto.
    - assert (PM : 0 < p_mass p) by (destruct (p_type p); [tauto|exact TY]).
      destruct (C34_free_flight (w_dt w) p Ha PM) as [F1 F2]. destruct (F2 M) as [F3 F4]. unfold free_step in *. cbv zeta in *. rewrite HF.
      destruct HK as [-> | [-> | ->]]; tauto. }
  unfold flown. tauto.
Qed.

Lemma ready_flown s p p' : ready (w_procs w) p -> flown s p p' -> ready (w_procs w) p'.
Proof.
  intros HR (K1 & _ & K3 & _ & _ & K6 & K7 & K8 & _). unfold ready in *. rewrite K1, K3, K6, K7, K8. exact HR.
Qed.

Lemma flown_trans s t p q r : flown s p q -> flown t q r -> flown (s + t) p r.
Proof.
  intros (A1 & A2 & A3 & A4 & A5 & A6 & A7 & A8 & A9) (B1 & B2 & B3 & B4 & B5 & B6 & B7 & B8 & B9).
  unfold flown. repeat (split; [congruence|]). rewrite A7 in B9. destruct (p_alive p); [|congruence].
  destruct A9 as [A9 A10], B9 as [B9 B10]. split; [lra|]. rewrite B10, A10. unfold flight_speed. rewrite A3, A8.
  destruct (p_pos p) as [a b c]. destruct (if Req_EM_T (p_mass p) 0 then _ else _) as [d e f]. unfold rplus, rscale, v3. cbn [vx vy vz]. f_equal; ring.
Qed.
Lemma flown_0 p : flown 0 p p.
Proof.
  unfold flown. repeat (split; [reflexivity|]). destruct (p_alive p); [|reflexivity]. split; [lra|].
  destruct (p_pos p) as [a b c]. destruct (flight_speed p) as [d e f]. unfold rplus, rscale, v3. cbn [vx vy vz]. f_equal; ring.
Qed.

Definition same_room (l l' : event R) : Prop := pl_name l' = pl_name l /\ pl_max l' = pl_max l /\ pl_lost l' = pl_lost l.

Lemma upd_self {A} (l : list A) i a : nth_error l i = Some a -> upd l i a = l.
Proof. revert i. induction l as [|x t IH]; intros [|i]; cbn; try discriminate; [congruence|]. intros HN. now rewrite IH. Qed.
Lemma upd_app {A} (a : list A) x b y : upd (a ++ x :: b) (length a) y = a ++ y :: b.
Proof. induction a as [|h t IH]; cbn; [reflexivity|]. now rewrite IH. Qed.
Lemma nth_app {A} (a : list A) x b : nth_error (a ++ x :: b) (length a) = Some x.
Proof. induction a as [|h t IH]; cbn; auto. Qed.

Lemma quiet_processes k p (l : event R) (g : est E) : pl_get l k = Ok p -> ready (w_procs w) p -> forall prs, incl prs (w_procs w) ->
  call_processes E k prs l g = Ok (l, g).
Proof.
  intros HG HR. induction prs as [|pr t IH]; intros HI; [reflexivity|]. cbn [call_processes]. unfold call_process. rewrite HG. cbn [bind].
  rewrite quiet_interact by (auto; apply HI; left; reflexivity). cbn [bind fst snd].
  assert (SL : pl_set l k p = l).
  { apply pl_get_inv in HG. destruct HG as [_ HG]. unfold pl_set. rewrite upd_self by exact HG. now destruct l. }
  rewrite SL. apply IH. intros x Hx. apply HI. right. exact Hx.
Qed.

Lemma quiet_from nm mx ls (g : est E) : forall todo fuel don, Forall (ready (w_procs w)) todo -> (length todo <= fuel)%nat ->
  (Z.of_nat (length (don ++ todo)) <= mx)%Z ->
  pass_from E w fuel (Z.of_nat (length don)) (mkPL nm mx (don ++ todo) ls) g = Ok (mkPL nm mx (don ++ map push todo) ls, g).
Proof.
  induction todo as [|p t IH]; intros fuel don HR HF HM.
  - cbn [map]. destruct fuel; cbn [pass_from]; unfold pl_n; cbn [pl_items]; rewrite app_nil_r, Z.ltb_irrefl; reflexivity.
  - destruct fuel as [|f]; [cbn in HF; lia|]. inversion_clear HR as [|? ? R1 R2]. cbn [length] in HF. cbn [pass_from]. unfold pl_n at 1. cbn [pl_items].
    rewrite app_length in *. cbn [length] in *. destruct (Z.ltb_spec (Z.of_nat (length don)) (Z.of_nat (length don + S (length t)))); [|lia].
    assert (GT : forall q, pl_get (mkPL nm mx (don ++ q :: t) ls) (Z.of_nat (length don)) = Ok q).
    { intros q. unfold pl_get. cbn [pl_max pl_items]. destruct (Z.ltb_spec (Z.of_nat (length don)) 0); [lia|].
      destruct (Z.leb_spec mx (Z.of_nat (length don))); [lia|]. cbn [orb]. rewrite Nat2Z.id, nth_app. reflexivity. }
    unfold visit. rewrite GT. cbn [bind]. unfold pl_set. cbn [pl_name pl_max pl_items pl_lost]. rewrite Nat2Z.id, upd_app.
    rewrite (quiet_processes _ (push p)) by first [apply GT | eapply ready_flown; [exact R1|apply flown_push; exact R1] | apply incl_refl]. cbn [bind fst snd map].
    specialize (IH f (don ++ [push p]) R2 ltac:(lia)). rewrite !app_length in IH. cbn [length] in IH. rewrite <- !app_assoc in IH. cbn [app] in IH.
    replace (Z.of_nat (length don) + 1)%Z with (Z.of_nat (length don + 1)) by lia. apply IH. cbn [length]. lia.
Qed.

Lemma quiet_pass (l : event R) (g : est E) : Forall (ready (w_procs w)) (pl_items l) -> (pl_n l <= pl_max l)%Z ->
  exists l', pass E w l g = Ok (l', g) /\ Forall2 (flown (w_dt w)) (pl_items l) (pl_items l') /\ same_room l l'.
Proof.
  destruct l as [nm mx its ls]. unfold pl_n. cbn [pl_items pl_max]. intros HR HM. exists (mkPL nm mx (map push its) ls).
  split; [|split; [|repeat split]].
  - unfold pass. cbn [pl_max]. apply (quiet_from nm mx ls g its (Z.to_nat mx) [] HR); [lia|exact HM].
  - cbn [pl_items]. clear HM. induction its as [|p t IH]; cbn [map]; constructor; inversion_clear HR; [now apply flown_push|now apply IH].
Qed.

Lemma ready_all s l l' : Forall (ready (w_procs w)) l -> Forall2 (flown s) l l' -> Forall (ready (w_procs w)) l'.
Proof. intros HR HF. induction HF as [|p p' l l' F1 F2 IH]; constructor; inversion_clear HR; [eapply ready_flown; eauto|auto]. Qed.
Lemma flown_all s t a b c : Forall2 (flown s) a b -> Forall2 (flown t) b c -> Forall2 (flown (s + t)) a c.
Proof.
  intros HA. revert c. induction HA as [|p q a b F1 F2 IH]; intros c HB; inversion_clear HB; constructor; [eapply flown_trans; eauto|auto].
Qed.

Lemma quiet_passes n (l : event R) (g : est E) : Forall (ready (w_procs w)) (pl_items l) -> (pl_n l <= pl_max l)%Z ->
  exists l', passes E w n l g = Ok (l', g) /\ Forall2 (flown (INR n * w_dt w)) (pl_items l) (pl_items l') /\ same_room l l'.
Proof.
  intros HR HM. induction n as [|n (l1 & P1 & F1 & S1)].
  - exists l. split; [reflexivity|]. split; [|repeat split]. cbn [INR]. rewrite Rmult_0_l. clear. induction (pl_items l); constructor; auto using flown_0.
  - destruct S1 as (N1 & M1 & L1).
    destruct (quiet_pass l1 g) as (l2 & P2 & F2 & N2 & M2 & L2); [eapply ready_all; eauto| |].
    { unfold pl_n in *. rewrite <- (flown_length _ _ _ F1), M1. exact HM. }
    exists l2. cbn [passes]. rewrite P1. cbn [bind fst snd]. split; [exact P2|]. split; [|repeat split; congruence].
    rewrite S_INR, Rmult_plus_distr_r, Rmult_1_l. eapply flown_all; eauto.
Qed.

(** the run ends when every histogram can be filled *)
Section Ends.
Context {S : Type}.
Variable htimes : list R.
Variable fill : nat -> R -> list (particle R) -> S -> res S.
Hypothesis HFill : forall i t ps s, exists s', fill i t ps s = Ok s'.

Lemma quiet_loop tEnd : forall fuel (s : state E S), Forall (ready (w_procs w)) (pl_items (st_ev _ s)) -> (pl_n (st_ev _ s) <= pl_max (st_ev _ s))%Z ->
  tEnd <= st_time _ s + INR fuel * w_dt w -> exists s', time_loop E w htimes fill fuel tEnd s = Ok s'.
Proof.
  induction fuel as [|f IH]; intros s HR HM HT.
  - cbn [INR] in HT. cbn [time_loop]. replace (nltb (st_time _ s) tEnd) with false by (symmetry; rnum; apply Rltb_false; lra). eauto.
  - cbn [time_loop]. destruct (nltb (st_time _ s) tEnd); [|eauto]. unfold time_step.
    assert (HC : exists s1, hist_check E htimes fill s = Ok s1 /\ st_ev _ s1 = st_ev _ s /\ st_time _ s1 = st_time _ s).
    { unfold hist_check. destruct (nth_error htimes _) as [ht|]; [|eauto]. destruct (nleb ht _); [|eauto].
      destruct (HFill (st_hc _ s) (st_time _ s) (pl_items (st_ev _ s)) (st_hist _ s)) as [h ->]. cbn [bind]. eexists. split; [reflexivity|]. auto. }
    destruct HC as (s1 & -> & E1 & T1). cbn [bind]. rewrite E1.
    destruct (quiet_pass (st_ev _ s) (st_rng _ s1) HR HM) as (l' & -> & F & N & M & L). cbn [bind fst snd].
    apply IH; cbn [st_ev st_time]; [eapply ready_all; eauto| |].
    + unfold pl_n in *. rewrite <- (flown_length _ _ _ F), M. exact HM.
    + rnum. rewrite T1. rewrite S_INR in HT. lra.
Qed.

Lemma quiet_rest : forall n (s : state E S), exists s', fill_rest E fill n s = Ok s'.
Proof.
  induction n as [|n IH]; intros s; [cbn; eauto|]. cbn [fill_rest].
  destruct (HFill (st_hc _ s) (st_time _ s) (pl_items (st_ev _ s)) (st_hist _ s)) as [h ->]. cbn [bind]. apply IH.
Qed.
End Ends.
End Quiet.

(** any number of steps: no failure, no random number used, no particle made or lost, each one in free flight *)
Theorem C148_steps : forall (E : Engine R) (w : world R) n (l : event R) (g : est E),
  quiet_world w -> Forall (ready (w_procs w)) (pl_items l) -> (pl_n l <= pl_max l)%Z ->
  exists l', passes E w n l g = Ok (l', g) /\ Forall2 (flown (INR n * w_dt w)) (pl_items l) (pl_items l') /\
    pl_name l' = pl_name l /\ pl_max l' = pl_max l /\ pl_lost l' = pl_lost l.
Proof. intros E w n l g HW HR HM. apply (quiet_passes E w HW n l g HR HM). Qed.
Print Assumptions C148_steps.

(** the whole run, to the end: it completes whenever the histograms can be filled, and the final list is the first
    one flown for [N dt], the first multiple of the step that is not before the end time *)
Theorem C148_run : forall (E : Engine R) (w : world R) S htimes (fill : nat -> R -> list (particle R) -> S -> res S) tEnd (l : event R) (g : est E) (h : S),
  quiet_world w -> 0 < w_dt w -> Forall (ready (w_procs w)) (pl_items l) -> (pl_n l <= pl_max l)%Z ->
  (forall i t ps s, exists s', fill i t ps s = Ok s') ->
  exists N s', (tEnd <= INR N * w_dt w /\ forall m, (m < N)%nat -> INR m * w_dt w < tEnd) /\
    (forall fuel, (N <= fuel)%nat -> run_event E w htimes fill fuel tEnd l g h = Ok s') /\
    st_rng _ s' = g /\ st_time _ s' = INR N * w_dt w /\ pl_lost (st_ev _ s') = pl_lost l /\
    Forall2 (flown (INR N * w_dt w)) (pl_items l) (pl_items (st_ev _ s')).
Proof.
  intros E w S htimes fill tEnd l g h HW Hd HR HM HF.
  destruct (C46_number_of_steps E w S htimes fill tEnd l g h Hd) as (N & HN & HA & HB).
  assert (HX : exists s', run_event E w htimes fill N tEnd l g h = Ok s').
  { unfold run_event. destruct (quiet_loop E w HW htimes fill HF tEnd N (mkSt n0 l g 0 h)) as [s1 ->]; cbn [st_ev st_time]; auto.
    - rnum. lra.
    - cbn [bind]. apply quiet_rest. exact HF. }
  destruct HX as [s' HX]. exists N, s'. destruct (HB _ _ HX) as [P T].
  destruct (C148_steps E w N l g HW HR HM) as (l' & P' & F & _ & _ & L). rewrite P in P'. injection P' as X1 X2.
  split; [exact HN|]. split; [intros fuel HL; rewrite HA by exact HL; exact HX|]. rewrite X1, X2. auto.
Qed.
Print Assumptions C148_run.

(** so the last line of flight is straight: after the run a live particle sits at its first place plus [N dt] times its velocity *)
Theorem C148_place : forall (E : Engine R) (w : world R) S htimes (fill : nat -> R -> list (particle R) -> S -> res S) fuel tEnd (l : event R) (g : est E) (h : S) s' i p,
  quiet_world w -> 0 < w_dt w -> Forall (ready (w_procs w)) (pl_items l) -> (pl_n l <= pl_max l)%Z ->
  run_event E w htimes fill fuel tEnd l g h = Ok s' -> nth_error (pl_items l) i = Some p -> p_alive p = true ->
  exists p', nth_error (pl_items (st_ev _ s')) i = Some p' /\ p_mom p' = p_mom p /\
    p_pos p' = rplus (p_pos p) (rscale (st_time _ s') (flight_speed p)) /\ length (pl_items (st_ev _ s')) = length (pl_items l).
Proof.
  intros E w S htimes fill fuel tEnd l g h s' i p HW Hd HR HM HX HN Ha.
  destruct (C46_number_of_steps E w S htimes fill tEnd l g h Hd) as (N & _ & _ & HB). destruct (HB _ _ HX) as [P T].
  destruct (C148_steps E w N l g HW HR HM) as (l' & P' & F & _). rewrite P in P'. injection P' as X1 X2. rewrite X1, T.
  pose proof (flown_length _ _ _ F) as LF.
  assert (Q : exists p', nth_error (pl_items l') i = Some p' /\ flown (INR N * w_dt w) p p').
  { clear -F HN. revert i HN. induction F as [|a b u v F1 F2 IH]; intros [|i] HN; cbn in *; try discriminate; [injection HN as <-; eauto|eauto]. }
  destruct Q as (p' & Q1 & (_ & _ & _ & _ & _ & _ & _ & Q2 & Q3)). rewrite Ha in Q3. exists p'. split; [exact Q1|]. split; [exact Q2|]. split; [apply Q3|symmetry; exact LF].
Qed.
Print Assumptions C148_place.

(** an electron and a photon, photon emission switched on, the radiating pusher: both fly two units of time in eight steps;
    with pair production as well, for the electron alone *)
Definition ex_quiet_em : em_cfg R := mkEm (static_field rzero rzero) (1/4) (1/2) 0 false ex_tab.
Definition ex_quiet : world R := mkWorld landau_force (static_field rzero rzero) (1/4) [Stochastic ex_quiet_em].
Definition ex_quiet2 : world R := mkWorld landau_force (static_field rzero rzero) (1/4) [Stochastic ex_quiet_em; BreitWheeler ex_bw].

Example C148_case : quiet_world ex_quiet /\ quiet_world ex_quiet2 /\ 0 < w_dt ex_quiet /\
  Forall (ready (w_procs ex_quiet)) [ex_lepton; ex_photon] /\ Forall (ready (w_procs ex_quiet2)) [ex_lepton] /\
  exists l', passes ex_engine ex_quiet 8 (mkPL "event"%string 10 [ex_lepton; ex_photon] []) tt = Ok (l', tt) /\
    exists e ph, pl_items l' = [e; ph] /\ p_pos ph = v3 2 0 0 /\ p_mom e = v3 1 0 0 /\ p_time e = 2 /\ 1 < vx (p_pos e) < 2.
Proof.
  assert (QW : quiet_world ex_quiet) by (split; [reflexivity|split; [right; left; reflexivity|repeat constructor]]).
  assert (L1 : rlen (v3 1 0 0) = 1) by (unfold rlen, rlen2, rdot, v3; cbn [vx vy vz]; replace (1 * 1 + 0 * 0 + 0 * 0) with 1 by ring; apply sqrt_1).
  assert (L4 : rlen (v3 4 0 0) = 4) by (unfold rlen, rlen2, rdot, v3; cbn [vx vy vz]; replace (4 * 4 + 0 * 0 + 0 * 0) with (4 * 4) by ring; apply sqrt_square; lra).
  assert (R1 : ready (w_procs ex_quiet) ex_lepton) by (intros _; cbn; split; [lra|]; split; [intros X; injection X; lra|lra]).
  assert (R2 : ready (w_procs ex_quiet) ex_photon).
  { intros _. cbn. split; [lra|]. split; [intros X; injection X; lra|]. split; [lra|]. intros [c [X|[]]]. discriminate. }
  assert (HR : Forall (ready (w_procs ex_quiet)) [ex_lepton; ex_photon]) by auto.
  split; [exact QW|]. split; [split; [reflexivity|split; [right; left; reflexivity|repeat constructor]]|]. split; [cbn; lra|]. split; [exact HR|].
  split; [constructor; [|constructor]; intros _; cbn; split; [lra|]; split; [intros X; injection X; lra|lra]|].
  destruct (C148_steps ex_engine ex_quiet 8 (mkPL "event"%string 10 [ex_lepton; ex_photon] []) tt QW HR ltac:(cbn; lia)) as (l' & P & F & _).
  exists l'. split; [exact P|]. cbn [pl_items] in F. inversion F as [|? e ? ? F1 F2 Q1 Q2]; subst. inversion F2 as [|? ph ? t F3 F4 Q3 Q4]; subst. inversion F4; subst.
  exists e, ph. split; [auto|]. replace (INR 8 * w_dt ex_quiet) with 2 in * by (cbn [w_dt ex_quiet INR]; simpl; lra).
  destruct F1 as (_ & _ & _ & _ & _ & _ & _ & E1 & E2 & E3), F3 as (_ & _ & _ & _ & _ & _ & _ & _ & _ & P3).
  cbn [ex_lepton ex_photon p_alive p_time p_pos p_mom p_mass] in *.
  rewrite P3, E3. unfold flight_speed. cbn [p_mass p_mom ex_lepton ex_photon].
  destruct (Req_EM_T 0 0) as [_|N]; [|tauto]. destruct (Req_EM_T 1 0) as [N|_]; [lra|].
  split; [unfold runit; rewrite L4; unfold rplus, rscale, v3; cbn [vx vy vz]; f_equal; field|]. split; [exact E1|]. split; [lra|].
  unfold velocity, lorentz_factor. rewrite ?L1. unfold rlen2, rdot, rplus, rscale, v3. cbn [vx vy vz].
  replace (1 + (1 * 1 + 0 * 0 + 0 * 0) / (1 * 1)) with 2 by field.
  pose proof (sqrt_sqrt 2 ltac:(lra)) as S2. pose proof (sqrt_pos 2) as S0. assert (S3 : 1 < sqrt 2 < 2) by nra.
  rewrite !Rmult_1_l. assert (IV : / sqrt 2 * sqrt 2 = 1) by (field; lra). split; nra.
Qed.
