(** * Properties C75, C93-C96: the Geant4 coupling *)
From Coq Require Import String ZArith Reals Lra Psatz List Bool Lia Arith.
From Coq Require Import Floats.SpecFloat.
From Verif Require Import Num RNum Outcome OutcomeFacts Vec SpecVec VecFacts VecExtra SpecDyn Units MCTools MCFacts Particle ParticleList ParticleFacts Source Fields Pusher PusherFacts
  Process ProcessFacts ProcessRFacts PropsProcess PropsPusher PropsParticle Sim SimFacts SimTime PropsSim ProgramFacts Geant GeantFacts.
Import ListNotations.
Local Open Scope string_scope.
Local Open Scope list_scope.

(** ** C75: the hand-over *)
Section C75.
Context {T : Type} `{Num T}.
Variable E : Engine T.
Variable fuel : nat.
Variable w : world T.
Variable tEnd : T.

(** If the events of the source are [fs], any number [k] of calls returns, and the results are the particles of these events (event by event,
    last particle first), each exactly once, followed by requests to end the run. *)
Theorem C75_handover : forall src g fs g' k, (0 <= s_nPart src < 2 ^ 32)%Z ->
  finals E fuel w tEnd (Z.to_nat (s_nPart src)) src g fs g' ->
  exists s', primaries E fuel w tEnd k (new_gen E src g) =
    Ok (s', firstn k (map (fun p => Some (shoot p)) (particles_of fs) ++ repeat None k)).
Proof. intros src g fs g' k HN F. exact (handover E fuel w tEnd k _ _ [] fs g' (holds_new E src g HN) F). Qed.

(** Conversely, if [k] calls return, there were events and the results are as above; the end of the run was requested only after the last
    particle of the last event. *)
Theorem C75_only_the_events : forall src g k s' out, (0 <= s_nPart src < 2 ^ 32)%Z ->
  primaries E fuel w tEnd k (new_gen E src g) = Ok (s', out) ->
  exists m fs g', (m <= Z.to_nat (s_nPart src))%nat /\ finals E fuel w tEnd m src g fs g' /\
    ((m < Z.to_nat (s_nPart src))%nat -> (k <= length (particles_of fs))%nat) /\
    out = firstn k (map (fun p => Some (shoot p)) (particles_of fs) ++ repeat None k).
Proof.
  intros src g k s' out HN X. destruct (handed E fuel w tEnd k _ _ [] _ _ (holds_new E src g HN) X) as (m & fs & g' & A & B & C & D).
  exists m, fs, g'. auto.
Qed.

(** The events are the ones the main program simulates from the same source and generator state, whatever its histograms are. *)
Theorem C75_same_events : forall n src g hs evs g' hs', events_of E fuel w tEnd n src g hs evs g' hs' ->
  finals E fuel w tEnd n src g (map snd evs) g'.
Proof.
  intros n src g hs evs g' hs' X. induction X; [constructor|]. cbn [map snd].
  match goal with Y : run_event _ _ _ _ _ _ _ _ _ = Ok _ |- _ => apply run_decompose in Y; destruct Y as (N & _ & _ & A & B & C & _) end.
  econstructor; eauto.
Qed.
End C75.
Print Assumptions C75_handover.
Print Assumptions C75_only_the_events.
Print Assumptions C75_same_events.

(** a source of two photons, each of which turns into a pair during its event (binary64, the maths library of C42_case) *)
Definition g_src : source spec_float :=
  let z := f_lit 0 0 in let o := f_lit 1 0 in
  mkSrc "Photon" 2 0 false (mkV o z z) (mkV z z z) [z; z] [z; z] [z; z] [o; o] [z; z] [f_lit 6 0; f_lit 8 0]
    (mkM z z o z z z z z z).
Example C75_case : exists s' out, @primaries _ (Num_F64 ex_libm) ex_engine64 3 ex_world64 (f_lit 1 0) 8 (new_gen ex_engine64 g_src tt) = Ok (s', out) /\
  map (option_map (fun s => sh_name s)) out = [Some "e-"; Some "e+"; Some "gamma"; Some "e-"; Some "e+"; Some "gamma"; None; None].
Proof. eexists. eexists. split; [vm_compute; reflexivity|]. vm_compute. reflexivity. Qed.

(** ** C93: the free path *)
Section C93.
Context {T : Type} `{Num T}.

Definition in_field (x : T) : bool := negb (nltb x n1).
(** the number of in-field queries *)
Definition queries (xs : list T) : nat := length (filter in_field xs).

(** The process is made to act at a query exactly if the track is in the field and an even number of in-field queries, by whatever track, came
    before; otherwise the free path is "infinite". *)
Theorem C93_every_second_query : forall (before : list T) (x : T) (after : list T),
  nth_error (free_paths (before ++ x :: after) false) (length before) =
  Some (if (in_field x && Nat.even (queries before))%bool then nlit 1 (-99) else nlit 1 99).
Proof.
  assert (G : forall before x after s, nth_error (free_paths (before ++ x :: after) s) (length before) =
    Some (if (in_field x && Bool.eqb (Nat.even (queries before)) (negb s))%bool then nlit 1 (-99) else nlit 1 99)).
  { induction before as [|b before IH]; intros x after s; cbn [app free_paths length nth_error].
    - unfold mean_free_path, in_field, queries. cbn. destruct (nltb x n1), s; reflexivity.
    - unfold mean_free_path at 1. unfold queries. cbn [filter]. unfold in_field at 2.
      destruct (nltb b n1); cbn [negb]; [exact (IH x after s)|]. cbn [length]. rewrite Nat.even_succ, <- Nat.negb_even.
      destruct s; rewrite IH; fold (queries before); destruct (in_field x), (Nat.even (queries before)); reflexivity. }
  intros before x after. rewrite G. destruct (Nat.even (queries before)); reflexivity.
Qed.

(** Two tracks that ask alternately in the field: the first always interacts, the second never. *)
Corollary C93_second_track_never : forall (a b : T) n, in_field a = true -> in_field b = true ->
  free_paths (concat (repeat [a; b] n)) false = concat (repeat [nlit 1 (-99); nlit 1 99] n).
Proof.
  intros a b n HA HB. unfold in_field in *. apply negb_true_iff in HA, HB. induction n as [|n IH]; [reflexivity|].
  cbn [repeat concat app free_paths]. unfold mean_free_path. rewrite HA, HB. rewrite IH. reflexivity.
Qed.
End C93.
Print Assumptions C93_every_second_query.
Print Assumptions C93_second_track_never.
Example C93_case : free_paths [1; 0; 1; 2; 1]%R false = [nlit 1 (-99); nlit 1 99; nlit 1 99; nlit 1 (-99); nlit 1 99]%R.
Proof.
  unfold free_paths, mean_free_path. rnum. rewrite (proj2 (Rltb_false 1 1)), (proj2 (Rltb_true 0 1)), (proj2 (Rltb_false 2 1)) by lra. reflexivity.
Qed.

(** ** C94: energies exchanged with Geant4 *)
Local Open Scope R_scope.
Lemma energy_ge_mass (p : particle R) : p_type p = PLepton -> 0 < p_mass p -> p_mass p <= get_energy p.
Proof.
  intros HT HM. destruct (lepton_kinematics p (p_mass p) HM (conj HT eq_refl)) as (_ & A & B & _). pose proof (rlen2_nonneg (p_mom p)). nra.
Qed.

Section C94.
Variable E : Engine R.
Variable fuel : nat.
Variable u : units R.
Variable fld : field R.
Variables dt tEnd : R.
Variable tab : em_tables R.
Hypothesis U : 0 < g4_energy u.

Lemma loop_identity : forall f time p l g p' l' g', emission_loop E f fld dt tab tEnd time p l g = Ok (p', l', g') -> same_identity p p'.
Proof.
  induction f as [|f IH]; intros time p l g p' l' g' X; cbn [emission_loop] in X; destruct (nltb time tEnd); try discriminate;
    try (injection X; intros; subst; apply same_identity_refl).
  apply bind_ok in X. destruct X as [[[p1 l1] g1] [Y X]]. apply IH in X. apply stochastic_shape in Y. destruct Y as (Y & _).
  eapply same_identity_trans; [|exact X]. eapply same_identity_trans; [|exact Y].
  destruct (push_keeps lorentz_force fld dt p) as (K1&K2&K3&K4&K5&_&K7&_). unfold same_identity. auto 10.
Qed.

(** Whatever the field, the step and the random numbers are: a lepton leaves the step with a kinetic energy of at least its rest energy. *)
Theorem C94_never_slow : forall t g pr g', 0 < tk_mass t -> post_step E fuel u fld dt tab tEnd t g = Ok (pr, g') -> tk_mass t <= pr_kinetic pr.
Proof.
  intros t g pr g' HM X. unfold post_step in X. destruct (track_lepton E u t g) as [p g1] eqn:TL. apply bind_ok in X.
  destruct X as [[[p' l] g2] [X Y]]. injection Y; intros _ <-. cbn [pr_kinetic]. apply loop_identity in X. destruct X as (A & _ & B & _).
  pose proof (new_particle_fields E PLepton (lepton_name (tk_charge t)) (nmul (tk_mass t) (g4_energy u)) (tk_charge t) (vmuls (tk_pos t) (g4_length u))
    (smul (nmul (tk_kinetic t) (g4_energy u)) (vnorm (tk_dir t))) n1 n0 false g) as (F1 & _ & F2 & _).
  unfold track_lepton, new_lepton_energy in TL. rewrite TL in F1, F2. cbn [fst] in F1, F2. rewrite F1 in A. rewrite F2 in B.
  pose proof (energy_ge_mass p' A) as HE. rewrite B in HE. rnum. specialize (HE ltac:(nra)).
  apply Rmult_le_reg_r with (g4_energy u); [exact U|]. unfold Rdiv. rewrite Rmult_assoc, Rinv_l by lra. lra.
Qed.
End C94.

(** In the absence of a field the step changes nothing but the energy: kinetic energy [K] becomes sqrt(K^2 + m^2), so it grows at every step. *)
Section NoField.
Variable E : Engine R.
Variable u : units R.
Variables dt tEnd : R.
Variable tab : em_tables R.
Hypothesis U : 0 < g4_energy u.
Hypothesis HE : forall g, 0 <= fst (e_canon E g) < 1.
Notation nofield := (static_field rzero rzero).

Lemma still_step (p : particle R) l g : moving_lepton p -> 0 <= p_depth p -> p_alive p = true ->
  let q := push_particle lorentz_force nofield dt p in
  stochastic_interact E (g4_cfg nofield dt tab) q l g = Ok (update_depth q 0, l, g) /\
  moving_lepton (update_depth q 0) /\ 0 <= p_depth (update_depth q 0) /\ p_alive (update_depth q 0) = true /\
  p_mom (update_depth q 0) = p_mom p /\ p_mass (update_depth q 0) = p_mass p /\ p_type (update_depth q 0) = p_type p.
Proof.
  intros (HT & HM & HP) HD HA q. destruct (C34_free_flight dt p HA HM) as [(FM & _ & _) _].
  destruct (push_keeps lorentz_force nofield dt p) as (K1&K2&K3&K4&K5&K6&K7&K8). fold q in FM, K1, K2, K3, K4, K5, K6, K7, K8.
  assert (HQ : moving_lepton q) by (unfold moving_lepton; rewrite K1, K3, FM; auto).
  split.
  { unfold stochastic_interact. rewrite K3, K8, HA. cbn [negb orb]. rewrite orb_false_r. rnum.
    rewrite (proj2 (Reqb_false (p_mass p) 0)) by lra. cbv zeta. cbn [em_field g4_cfg em_dt].
    rewrite (C36_zero_without_field nofield q) by (try apply HQ; reflexivity).
    assert (P12 : Rltb 0 (Rlit 1 (-12)) = true) by (apply Rltb_true; rlit; lra). change (@nlit R Num_R) with Rlit. rewrite P12. cbn [bind].
    assert (ED : emission_depth dt 0 (Rlit 7193 (-4)) (get_gamma q) = 0) by (unfold emission_depth; rnum; unfold Rdiv; ring). rewrite ED.
    cbn [update_depth set_depth p_depth]. rewrite K6. rnum. rewrite (proj2 (Rltb_false (p_depth p - 0) 0)) by lra. reflexivity. }
  cbn [update_depth set_depth p_depth p_alive p_mom p_mass p_type]. rewrite K6, K8, FM, K1, K3. rnum.
  split; [exact HQ|]. split; [lra|]. auto.
Qed.

Lemma still : forall f time (p : particle R) l g p' l' g', moving_lepton p -> 0 <= p_depth p -> p_alive p = true -> pl_items l = [] ->
  emission_loop E f nofield dt tab tEnd time p l g = Ok (p', l', g') ->
  p_mom p' = p_mom p /\ p_mass p' = p_mass p /\ p_type p' = p_type p /\ pl_items l' = [].
Proof.
  induction f as [|f IH]; intros time p l g p' l' g' HM HD HA HL X; cbn [emission_loop] in X; destruct (nltb time tEnd); try discriminate;
    try (injection X; intros; subst; auto; fail).
  destruct (still_step p (push_event nofield dt l) g HM HD HA) as (S1 & S2 & S3 & S4 & S5 & S6 & S7). rewrite S1 in X. cbn [bind] in X.
  assert (L0 : pl_items (push_event nofield dt l) = []) by (cbn; rewrite HL; reflexivity).
  destruct (IH _ _ _ _ _ _ _ S2 S3 S4 L0 X) as (A & B & C & D). rewrite A, B, C, S5, S6, S7. auto.
Qed.

Theorem C94_energy_without_field : forall fuel t g pr g', 0 < tk_mass t -> 0 < tk_kinetic t -> tk_dir t <> rzero ->
  post_step E fuel u nofield dt tab tEnd t g = Ok (pr, g') ->
  pr_kinetic pr = sqrt (tk_mass t * tk_mass t + tk_kinetic t * tk_kinetic t) /\ tk_kinetic t < pr_kinetic pr /\
  pr_dir pr = runit (tk_dir t) /\ pr_photons pr = [].
Proof.
  intros fuel t g pr g' HM HK HD X. unfold post_step in X. destruct (track_lepton E u t g) as [p g1] eqn:TL. apply bind_ok in X.
  destruct X as [[[p' l] g2] [X Y]]. injection Y; intros _ <-. cbn [pr_kinetic pr_dir pr_photons].
  pose proof (lepton_from_energy E (tk_mass t * g4_energy u) (tk_charge t) (tk_kinetic t * g4_energy u) (vmuls (tk_pos t) (g4_length u)) (tk_dir t) 1 0 false g
     ltac:(nra) HD) as (L1 & L2 & L3 & _).
  pose proof (new_particle_fields E PLepton (lepton_name (tk_charge t)) (nmul (tk_mass t) (g4_energy u)) (tk_charge t) (vmuls (tk_pos t) (g4_length u))
    (smul (nmul (tk_kinetic t) (g4_energy u)) (vnorm (tk_dir t))) n1 n0 false g) as (F1 & _ & F2 & _ & _ & _ & _ & _ & _ & F3 & _ & _ & _ & _ & F4 & _).
  unfold track_lepton in TL. unfold new_lepton_energy in *. rnum. rewrite TL in L1, L2, L3, F1, F2, F3, F4. cbn [fst] in L1, L2, L3, F1, F2, F3, F4.
  assert (NZ : p_mom p <> rzero).
  { intros Q. rewrite Q in L2. unfold rlen in L2. replace (rlen2 rzero) with 0 in L2 by (unfold rlen2, rdot, rzero, v3; cbn; ring). rewrite sqrt_0 in L2.
    rewrite Rabs_right in L2 by nra. nra. }
  destruct (still fuel 0 p (pl_new "Photons" default_max) g1 p' l g2) as (A & B & C & D).
  - unfold moving_lepton. rewrite F2. repeat split; auto. nra.
  - rewrite F4, draw_depth_R. apply depth_nonneg. apply HE.
  - exact F3.
  - reflexivity.
  - exact X.
  - assert (EN : get_energy p' = get_energy p) by (unfold get_energy, get_gamma; rewrite A, B, C; reflexivity).
    assert (KK : pr_kinetic (mkProposal (get_energy p' / g4_energy u) (get_direction p') (map (fun q => (get_energy q / g4_energy u, get_direction q)) (pl_items l)))
      = sqrt (tk_mass t * tk_mass t + tk_kinetic t * tk_kinetic t)).
    { cbn [pr_kinetic]. rewrite EN, L3.
      replace (tk_mass t * g4_energy u * (tk_mass t * g4_energy u) + tk_kinetic t * g4_energy u * (tk_kinetic t * g4_energy u))
        with ((tk_mass t * tk_mass t + tk_kinetic t * tk_kinetic t) * (g4_energy u * g4_energy u)) by ring.
      rewrite sqrt_mult_alt by nra. rewrite sqrt_square by lra. field. lra. }
    cbn [pr_kinetic] in KK. rewrite KK. split; [reflexivity|]. split; [|split].
    + rewrite <- (sqrt_square (tk_kinetic t)) at 1 by lra. apply sqrt_lt_1_alt. nra.
    + unfold get_direction. rewrite A, vnorm_R, L1. unfold runit at 1. rewrite rlen_scale, rlen_unit by exact HD. rewrite Rabs_right by nra.
      rewrite rscale_scale. replace (/ (tk_kinetic t * g4_energy u * 1) * (tk_kinetic t * g4_energy u)) with 1 by (field; split; lra). apply rscale_1.
    + rewrite D. reflexivity.
Qed.
End NoField.

Print Assumptions C94_never_slow.
Print Assumptions C94_energy_without_field.

Lemma g4_energy_pos : 0 < g4_energy (T := R) si_units.
Proof. unfold si_units. cbv zeta. cbn [g4_energy]. unfold si_qe, si_me, si_c. rnum. rlit. apply Rdiv_lt_0_compat; nra. Qed.

(** The generator hands the total energy to the gun, which takes it as the kinetic energy: for a lepton it is too large by exactly the rest
    energy, for a photon it is right. *)
Theorem C94_gun_energy : forall p : particle R,
  (p_type p = PLepton -> 0 < p_mass p ->
     sh_energy (shoot p) * g4_energy si_units = sqrt (p_mass p * p_mass p + rlen2 (p_mom p)) /\
     p_mass p <= sh_energy (shoot p) * g4_energy si_units) /\
  (p_type p = PPhoton -> sh_energy (shoot p) * g4_energy si_units = rlen (p_mom p)).
Proof.
  intros p. pose proof g4_energy_pos as G.
  assert (S : sh_energy (shoot p) * g4_energy si_units = get_energy p).
  { unfold shoot. cbn [sh_energy]. rnum. field. lra. }
  rewrite S. split.
  - intros HT HM. split; [|apply energy_ge_mass; auto]. destruct (lepton_kinematics p (p_mass p) HM (conj HT eq_refl)) as (_ & A & B & _).
    rewrite <- A. symmetry. apply sqrt_square. lra.
  - intros HT. apply photon_getters. exact HT.
Qed.
Print Assumptions C94_gun_energy.

(** rest energy 3, kinetic energy 4, two time steps without field: it comes out with kinetic energy 5 *)
Definition half : Engine R := mkEngine R unit (fun g => (1/2, g)) (fun n g => (repeat 0 n, g)).
Example C94_case : exists pr g', post_step half 2 (mkUnits 1 1 1 1 1 1 1 1 1 2) (static_field rzero rzero) 1 (em_tab (ex_em 0)) 2
    (mkTrack 3 (-1) 4 rzero ez) tt = Ok (pr, g') /\ pr_kinetic pr = 5.
Proof.
  assert (X : exists pr g', post_step half 2 (mkUnits 1 1 1 1 1 1 1 1 1 2) (static_field rzero rzero) 1 (em_tab (ex_em 0)) 2 (mkTrack 3 (-1) 4 rzero ez) tt = Ok (pr, g')).
  { unfold post_step. destruct (track_lepton half (mkUnits 1 1 1 1 1 1 1 1 1 2) (mkTrack 3 (-1) 4 rzero ez) tt) as [p g1] eqn:TL.
    pose proof (lepton_from_energy half (3 * 2) (-1) (4 * 2) (vmuls rzero 1) ez 1 0 false tt) as L.
    assert (HD : ez <> rzero) by (apply v3_neq; right; right; lra). specialize (L ltac:(lra) HD). cbv zeta in L. destruct L as (_ & L2 & _).
    pose proof (new_particle_fields half PLepton (lepton_name (-1)) (3 * 2) (-1) (vmuls rzero 1)
      (smul (4 * 2) (vnorm ez)) 1 0 false tt) as (F1 & _ & F2 & _ & _ & _ & _ & _ & _ & F3 & _ & _ & _ & _ & F4 & _).
    unfold track_lepton in TL. unfold new_lepton_energy in *. cbn [tk_mass tk_charge tk_kinetic tk_pos tk_dir g4_energy g4_length] in TL. rnum.
    rewrite TL in L2, F1, F2, F3, F4. cbn [fst] in L2, F1, F2, F3, F4.
    assert (M : moving_lepton p).
    { unfold moving_lepton. rewrite F1, F2. split; [reflexivity|]. split; [lra|]. intros Q. rewrite Q in L2. unfold rlen in L2.
      replace (rlen2 rzero) with 0 in L2 by (unfold rlen2, rdot, rzero, v3; cbn; ring). rewrite sqrt_0, Rabs_right in L2; lra. }
    assert (D : 0 <= p_depth p) by (rewrite F4, draw_depth_R; apply depth_nonneg; cbn; lra).
    assert (HH : forall g, 0 <= fst (e_canon half g) < 1) by (intros; cbn; lra).
    cbn [emission_loop]. rnum. rewrite (proj2 (Rltb_true 0 2)) by lra.
    destruct (still_step half 1 (em_tab (ex_em 0)) p (push_event (static_field rzero rzero) 1 (pl_new "Photons" default_max)) g1 M D F3) as (S1 & S2 & S3 & S4 & _).
    rewrite S1. cbn [bind]. rewrite (proj2 (Rltb_true (0 + 1) 2)) by lra.
    match goal with |- context [stochastic_interact _ _ (push_particle _ _ _ ?a) ?b ?c] =>
      destruct (still_step half 1 (em_tab (ex_em 0)) a b c S2 S3 S4) as (Q1 & _) end.
    rewrite Q1. cbn [bind]. rewrite (proj2 (Rltb_false (0 + 1 + 1) 2)) by lra. cbn [bind]. eauto. }
  destruct X as (pr & g' & X). exists pr, g'. split; [exact X|].
  apply C94_energy_without_field in X; [|cbn; lra|intros; cbn; lra|cbn; lra|cbn; lra|cbn; apply v3_neq; right; right; lra].
  destruct X as (X & _). rewrite X. cbn [tk_mass tk_kinetic]. replace (3 * 3 + 4 * 4) with (5 * 5) by ring. apply sqrt_square. lra.
Qed.

(** ** C95: destroying the process *)
Definition ow_inv (o : owned) : Prop :=
  NoDup (ow_heap o) /\ (forall a, In a (ow_heap o) -> (a < ow_next o)%nat) /\
  match ow_part o with PIndet => True | PNull => False | PAddr a => ~ In a (ow_heap o) /\ (a < ow_next o)%nat end.

Lemma remove1_spec a : forall h h', remove1 a h = Some h' -> NoDup h -> NoDup h' /\ ~ In a h' /\ (forall b, In b h' -> In b h).
Proof.
  induction h as [|b h IH]; intros h' X N; cbn in X; [discriminate|]. inversion N; subst. destruct (Nat.eqb_spec a b) as [->|NE].
  - injection X; intros <-. repeat split; auto. intros c Hc. now right.
  - destruct (remove1 a h) as [h2|] eqn:R; [|discriminate]. injection X; intros <-. destruct (IH _ eq_refl) as (A & B & C); auto. split; [|split].
    + constructor; auto.
    + intros [Q|Q]; auto.
    + intros c [Q|Q]; [left; auto|right; auto].
Qed.
Lemma free_spec a h h' : free a h = Ok h' -> NoDup h -> NoDup h' /\ ~ In a h' /\ (forall b, In b h' -> In b h).
Proof. unfold free. destruct (remove1 a h) eqn:R; [|discriminate]. intros X. injection X; intros <-. apply (remove1_spec a h _ R). Qed.
Lemma free_missing a h : ~ In a h -> free a h = UB DoubleFree.
Proof.
  intros N. unfold free. replace (remove1 a h) with (@None heap); [reflexivity|]. symmetry. induction h as [|b h IH]; [reflexivity|]. cbn.
  destruct (Nat.eqb_spec a b) as [->|_]; [exfalso; apply N; left; auto|]. rewrite IH; [reflexivity|]. intros Q. apply N. right; auto.
Qed.

Lemma ow_photons_spec k : forall o, ow_part (ow_photons k o) = ow_part o /\ (ow_next o <= ow_next (ow_photons k o))%nat /\
  (NoDup (ow_heap o) -> (forall a, In a (ow_heap o) -> (a < ow_next o)%nat) ->
   NoDup (ow_heap (ow_photons k o)) /\ (forall a, In a (ow_heap (ow_photons k o)) -> (a < ow_next (ow_photons k o))%nat)).
Proof.
  induction k as [|k IH]; intros o; cbn [ow_photons]; [auto|]. destruct (IH (mkOwned (ow_field o) (ow_part o) (PAddr (ow_next o)) (ow_process o) (ow_pusher o)
    (ow_next o :: ow_heap o) (S (ow_next o)))) as (A & B & C). cbn [ow_part ow_next ow_heap] in *. split; [exact A|]. split; [lia|]. intros N L.
  apply C; [constructor; auto; intros Q; apply L in Q; lia|]. intros a [<-|Q]; [lia|]. apply L in Q. lia.
Qed.

Lemma ow_exec_inv c o o' : ow_inv o -> ow_exec c o = Ok o' -> ow_inv o'.
Proof.
  intros (N & L & P) X. destruct c as [|m k|a]; cbn [ow_exec] in X.
  - injection X; intros <-. unfold ow_inv, ow_set_field. cbn [ow_heap ow_next ow_part]. split; [|split].
    + repeat constructor; cbn; try tauto; intros Q; try (destruct Q as [Q|Q]; [lia|]); try (destruct Q as [Q|Q]; [lia|]); apply L in Q; lia.
    + intros a [<-|[<-|[<-|Q]]]; try lia. apply L in Q. lia.
    + destruct (ow_part o); auto. destruct P as [P1 P2]. split; [|lia]. intros [Q|[Q|[Q|Q]]]; try lia. auto.
  - unfold ow_step in X. cbv zeta in X. apply bind_ok in X. destruct X as [[] [_ X]]. apply bind_ok in X. destruct X as [h [F X]]. injection X; intros <-.
    match type of F with free _ (ow_heap (ow_photons k ?o1)) = _ => set (oo := o1) in *; destruct (ow_photons_spec k oo) as (A & B & C) end.
    destruct C as (C1 & C2).
    { unfold oo. cbn. constructor; auto. intros Q. apply L in Q. lia. }
    { unfold oo. cbn. intros a [<-|Q]; [lia|]. apply L in Q. lia. }
    destruct (free_spec _ _ _ F C1) as (F1 & F2 & F3). unfold ow_inv. cbn [ow_heap ow_next ow_part]. split; [exact F1|]. split; [intros a Q; apply C2; auto|].
    rewrite A. unfold oo at 1. cbn [ow_part]. split; [exact F2|]. unfold oo in B at 1. cbn [ow_next] in B. lia.
  - unfold ow_geant in X. apply bind_ok in X. destruct X as [h [F X]]. injection X; intros <-. destruct (free_spec _ _ _ F N) as (F1 & F2 & F3).
    unfold ow_inv. cbn [ow_heap ow_next ow_part]. split; [exact F1|]. split; [auto|]. destruct (ow_part o); auto. destruct P as [P1 P2]. split; auto.
Qed.

(** After any sequence of calls (fields set, steps with any number of photons, secondaries deleted by Geant4), the destructor has undefined
    behaviour. *)
Theorem C95_destructor_undefined : forall h next cs o, NoDup h -> (forall a, In a h -> (a < next)%nat) ->
  ow_run cs (ow_new h next) = Ok o -> exists b, ow_destroy o = UB b.
Proof.
  intros h next cs o N L X.
  assert (I : ow_inv (ow_new h next)) by (unfold ow_inv; cbn; auto).
  assert (J : ow_inv o).
  { revert I X. generalize (ow_new h next). clear. induction cs as [|c cs IH]; intros o0 I X; cbn in X; [injection X; intros <-; exact I|].
    apply bind_ok in X. destruct X as [o1 [A X]]. eapply IH; [eapply ow_exec_inv; eauto|exact X]. }
  destruct J as (N1 & _ & P). unfold ow_destroy.
  destruct (ow_field o) as [| |a]; cbn [delete bind]; [eauto| |].
  - destruct (ow_part o) as [| |b]; [cbn; eauto|contradiction|]. cbn [delete]. rewrite free_missing by apply P. cbn. eauto.
  - unfold free at 1. destruct (remove1 a (ow_heap o)) as [h1|] eqn:R; [|cbn; eauto]. cbn [bind]. destruct (remove1_spec _ _ _ R N1) as (_ & _ & S1).
    destruct (ow_part o) as [| |b]; [cbn; eauto|contradiction|]. cbn [delete]. rewrite free_missing; [cbn; eauto|]. intros Q. apply P. auto.
Qed.
Print Assumptions C95_destructor_undefined.
(** the normal life: a field is set, two steps with photons are made, Geant4 deletes the photons *)
Example C95_case : exists o, ow_run [OwField; OwStep true 2; OwStep true 1; OwGeant 4; OwGeant 5; OwGeant 7] (ow_new [] 0) = Ok o /\
  ow_destroy o = UB DoubleFree.
Proof. eexists. split; [vm_compute; reflexivity|]. vm_compute. reflexivity. Qed.

(** ** C96: the neural-network process *)
Section C96.
Context {T : Type} `{Num T}.
Variable E : Engine T.
Variable skewed : vec T * vec T * vec T -> est E -> vec T * est E.
Variable poisson : T -> est E -> nat * est E.

(** All photons of a step are copies of each other, made from the sample that also makes the electron; their energy is the squared momentum. *)
Theorem C96_photons_are_copies : forall elec phot mean escale pscale g pr g', tf_step E skewed poisson elec phot mean escale pscale g = Ok (pr, g') ->
  exists (c : vec T * vec T * vec T) g1 n g2, In c (gr_comp elec) /\ poisson mean (snd (skewed c g1)) = (n, g2) /\
    let sample := fst (skewed c g1) in
    let pe := mkV (nmul (vx sample) (vx escale)) (nmul (vy sample) (vy escale)) (nmul (vz sample) (vz escale)) in
    let pp := mkV (nmul (vx sample) (vx pscale)) (nmul (vy sample) (vy pscale)) (nmul (vz sample) (vz pscale)) in
    pr_kinetic pr = ndiv (nsqrt (nadd (mag2 pe) n1)) (g4_energy si_units) /\ pr_dir pr = vnorm pe /\ pr_photons pr = repeat (ndiv (mag2 pp) (g4_energy si_units), vnorm pp) n.
Proof.
  intros elec phot mean es ps g pr g' X. unfold tf_step in X. apply bind_ok in X. destruct X as [[i g1] [_ X]]. cbn [fst snd] in X.
  apply bind_ok in X. destruct X as [c [C X]]. destruct (skewed c g1) as [sample g2] eqn:SK. destruct (poisson mean g2) as [n g3] eqn:PO.
  apply bind_ok in X. destruct X as [[l g4] [P X]]. injection X; intros _ <-. cbn [pr_kinetic pr_dir pr_photons fst]. exists c, g1, n, g3. rewrite SK. cbn [fst snd].
  split.
  { unfold get in C. destruct (_ || _)%bool; [discriminate|]. destruct (nth_error (gr_comp elec) (Z.to_nat i)) eqn:NE; [|discriminate]. injection C; intros <-.
    eapply nth_error_In; eauto. }
  split; [exact PO|]. cbv zeta. split; [reflexivity|]. split; [reflexivity|]. clear - P. revert g3 l g4 P. induction n as [|n IH]; intros g3 l g4 P; cbn [tf_photons] in P.
  - injection P; intros <- <-. reflexivity.
  - apply bind_ok in P. destruct P as [[[d e] g5] [Q P]]. apply bind_ok in P. destruct P as [[l2 g6] [P R]]. injection R; intros <- <-.
    unfold tf_photon in Q. apply bind_ok in Q. destruct Q as [[j g7] [_ Q]]. apply bind_ok in Q. destruct Q as [c [_ Q]]. cbn [fst snd] in Q.
    destruct (skewed c g7). injection Q; intros _ <- <-. cbn [map fst snd repeat]. f_equal. eapply IH. exact P.
Qed.

(** The photon component is chosen with the weights of the electron graph: if the electron graph has more components than the photon graph, a photon
    for which such a component is drawn reads outside the photon graph's result. *)
Theorem C96_photon_component : forall elec phot scale sample g i g1, rand_discrete E (gr_frac elec) g = Ok (i, g1) ->
  (Z.of_nat (length (gr_comp phot)) <= i)%Z -> tf_photon E skewed elec phot scale sample g = UB OutOfBounds.
Proof.
  intros elec phot scale sample g i g1 R L. unfold tf_photon. rewrite R. cbn [bind fst]. unfold get.
  replace (Z.of_nat (length (gr_comp phot)) <=? i)%Z with true by (symmetry; apply Z.leb_le; exact L). rewrite orb_true_r. reflexivity.
Qed.
End C96.
Print Assumptions C96_photons_are_copies.
Print Assumptions C96_photon_component.
Example C96_case : let c := (v3 1 2 3, v3 1 1 1, v3 0 0 0) in
  exists pr g', tf_step half (fun c g => (fst (fst c), g)) (fun _ g => (2%nat, g)) (mkGraph [1; 1] [c; c]) (mkGraph [1; 1] [c; c]) 2 (v3 1 1 1) (v3 2 1 1) tt = Ok (pr, g') /\
    length (pr_photons pr) = 2%nat.
Proof.
  intros c. unfold tf_step, tf_photons, tf_photon, rand_discrete. cbn [gr_frac cdf_of cdf_from]. unfold rand_double. cbn [half e_canon last first_cdf bind].
  rnum. rewrite (proj2 (Rltb_true _ _)) by lra. cbn [bind fst snd get gr_comp nth_error]. 
  change (get [c; c] 1) with (Ok c). cbn [bind fst snd]. eexists. eexists. split; [reflexivity|]. reflexivity.
Qed.
