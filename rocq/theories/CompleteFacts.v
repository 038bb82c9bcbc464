(** * Runs in which no process ends the program *)
From Coq Require Import String ZArith List Bool Lia.
From Verif Require Import Num Outcome OutcomeFacts Vec MCTools Particle ParticleFacts ParticleList Source SourceFacts Fields Pusher Process ProcessSafe Sim SimFacts SimTime
  Histogram HistFacts Program ProgramFacts.
Import ListNotations.

Section Run.
Context {T : Type} `{Num T}.
Variable E : Engine T.
Variable w : world T.

(** no call of the process ends the program *)
Definition never_exits (pr : process T) : Prop := forall p l g, interact E pr p l g <> Exit (-1).
Definition reliable : Prop := forall pr, In pr (w_procs w) -> process_ok pr /\ never_exits pr.

Lemma get_no_exit {A} (l : plist A) k c : pl_get l k <> Exit c.
Proof. unfold pl_get. destruct (_ || _)%bool; [discriminate|]. destruct (nth_error _ _); discriminate. Qed.
Lemma processes_no_exit k prs : (forall pr, In pr prs -> never_exits pr) -> forall l g, call_processes E k prs l g <> Exit (-1).
Proof.
  induction prs as [|pr prs IH]; intros HN l g; cbn [call_processes]; [discriminate|].
  unfold call_process at 1. pose proof (get_no_exit l k (-1)) as HG. destruct (pl_get l k) as [p| | | |]; cbn [bind]; try discriminate; try congruence.
  pose proof (HN pr (or_introl eq_refl) p l g) as HI. destruct (interact E pr p l g) as [[[p' l'] g']| | | |]; cbn [bind]; try discriminate; try congruence.
  apply IH. intros; apply HN; right; auto.
Qed.
Lemma pass_from_no_exit fuel : (forall pr, In pr (w_procs w) -> never_exits pr) -> forall k l g, pass_from E w fuel k l g <> Exit (-1).
Proof.
  intros HN. induction fuel as [|f IH]; intros k l g; cbn [pass_from]; destruct (Z.ltb _ _); try discriminate.
  assert (HV : visit E w k l g <> Exit (-1)).
  { unfold visit. pose proof (get_no_exit l k (-1)) as HG. destruct (pl_get l k) as [p| | | |]; cbn [bind]; try discriminate; try congruence.
    apply processes_no_exit; auto. }
  destruct (visit E w k l g) as [[l1 g1]| | | |]; cbn [bind]; try apply IH; try discriminate; congruence.
Qed.
Lemma pass_ok l g : reliable -> wf l -> exists l' g', pass E w l g = Ok (l', g') /\ wf l'.
Proof.
  intros HR HW. destruct (pass_safe E w l g (fun pr HP => proj1 (HR pr HP)) HW) as [HX|HX]; [exact HX|].
  exfalso. revert HX. apply pass_from_no_exit. intros pr HP. apply HR, HP.
Qed.

(** filling that returns as long as the state is good *)
Variable S : Type.
Variable htimes : list T.
Variable fill : nat -> T -> list (particle T) -> S -> res S.
Variable good : S -> Prop.
Definition fills_well : Prop := forall i t ps x, (i < length htimes)%nat -> good x -> exists x', fill i t ps x = Ok x' /\ good x'.
Notation st := (state E S).

Lemma step_ok (s : st) : reliable -> fills_well -> wf (st_ev _ s) -> good (st_hist _ s) ->
  exists s', time_step E w htimes fill s = Ok s' /\ wf (st_ev _ s') /\ good (st_hist _ s') /\ st_time _ s' = nadd (st_time _ s) (w_dt w).
Proof.
  intros HR HF HW HG. unfold time_step.
  assert (HC : exists s1, hist_check E htimes fill s = Ok s1 /\ good (st_hist _ s1)).
  { unfold hist_check. destruct (nth_error htimes (st_hc _ s)) eqn:EN; [|eauto]. destruct (nleb _ _); [|eauto].
    destruct (HF (st_hc _ s) (st_time _ s) (pl_items (st_ev _ s)) (st_hist _ s)) as (h & HX & HY); [apply nth_error_Some; congruence|auto|].
    rewrite HX. cbn. eauto. }
  destruct HC as (s1 & HC & G1). rewrite HC. cbn [bind]. pose proof (hist_check_ev E htimes fill _ _ HC) as (C1 & C2 & C3). rewrite C1, C2.
  destruct (pass_ok (st_ev _ s) (st_rng _ s) HR HW) as (l' & g' & HX & HW'). rewrite HX. cbn [bind]. eexists. split; [reflexivity|].
  cbn. rewrite C3. auto.
Qed.
Lemma loop_ok tEnd N : reliable -> fills_well -> forall (s : st) t0 a, st_time _ s = clock t0 (w_dt w) a -> (a <= N)%nat ->
  wf (st_ev _ s) -> good (st_hist _ s) -> nltb (clock t0 (w_dt w) N) tEnd = false -> forall fuel, (N - a <= fuel)%nat ->
  exists s', time_loop E w htimes fill fuel tEnd s = Ok s' /\ good (st_hist _ s').
Proof.
  intros HR HF s t0 a HT HA HW HG HE fuel. revert s a HT HA HW HG. induction fuel as [|f IH]; intros s a HT HA HW HG HL; cbn.
  - assert (a = N) by lia. subst a. rewrite HT, HE. eauto.
  - destruct (nltb (st_time _ s) tEnd) eqn:ET; [|eauto]. destruct (Nat.eq_dec a N) as [->|NE]; [congruence|].
    destruct (step_ok s HR HF HW HG) as (s1 & ES & HW1 & HG1 & HT1). rewrite ES. cbn.
    apply (IH s1 (a + 1)%nat); auto; try lia. rewrite HT1, HT, Nat.add_comm. reflexivity.
Qed.
Lemma rest_ok n : fills_well -> forall s : st, (st_hc _ s + n = length htimes)%nat -> good (st_hist _ s) ->
  exists s', fill_rest E fill n s = Ok s' /\ good (st_hist _ s').
Proof.
  intros HF. induction n as [|n IH]; intros s HN HG; cbn; [eauto|].
  destruct (HF (st_hc _ s) (st_time _ s) (pl_items (st_ev _ s)) (st_hist _ s)) as (h & HX & HY); [lia|auto|]. rewrite HX. cbn.
  apply IH; cbn; [lia|exact HY].
Qed.
Lemma run_ok tEnd N l g h : reliable -> fills_well -> wf l -> good h -> nltb (clock n0 (w_dt w) N) tEnd = false ->
  forall fuel, (N <= fuel)%nat -> exists s', run_event E w htimes fill fuel tEnd l g h = Ok s' /\ good (st_hist _ s').
Proof.
  intros HR HF HW HG HE fuel HL. unfold run_event.
  destruct (loop_ok tEnd N HR HF (mkSt n0 l g 0 h) n0 0 eq_refl (Nat.le_0_l _) HW HG HE fuel ltac:(lia)) as (s & HX & HG').
  rewrite HX. cbn [bind].
  destruct (loop_gen E w htimes fill l g n0 tEnd fuel (mkSt n0 l g 0 h) _ 0%nat eq_refl eq_refl (Nat.le_0_l _) HX) as
    (? & ? & ? & _ & _ & _ & _ & _ & _ & _ & HC & _).
  apply rest_ok; auto. lia.
Qed.
End Run.

(** ** The events of a source *)
Section Events.
Context {T : Type} `{Num T}.
Variable E : Engine T.

Definition usable (n : nat) (hs : list (hist T)) : Prop := length hs = n /\ Forall hwf hs.
Lemma hist_fill_well htimes n : length htimes = n -> fills_well (list (hist T)) htimes hist_fill (usable n).
Proof.
  intros HL i t ps hs HI [H1 H2]. unfold hist_fill. destruct (nth_error hs i) as [h|] eqn:EN; [|apply nth_error_None in EN; lia].
  assert (HW : hwf h) by (rewrite Forall_forall in H2; apply H2; eapply nth_error_In; eauto).
  rewrite (app_named_eq _ _ HW). destruct (add_values_ok (map get_energy (named h ps)) h HW) as (h' & HX & HW' & _). rewrite HX. cbn [bind].
  eexists. split; [reflexivity|]. split; [now rewrite length_upd|]. clear -H2 HW'. revert i. induction H2; intros [|i]; cbn [upd]; constructor; auto.
Qed.

Lemma with_count_id (s : source T) : with_count s (s_count s) = s.
Proof. destruct s. reflexivity. Qed.
Lemma events_ok_gen w tEnd fuel ty nm m q (fine : event T -> Prop)
    (Hneg : neqb (nlit (-1) 0) (nlit (-1) 0) = true :> bool) (Hpos : neqb (n1 : T) (nlit (-1) 0) = false) :
  (forall l g hs, wf l -> fine l -> Forall hwf hs ->
     exists st, run_event E w (map hi_time hs) hist_fill fuel tEnd l g hs = Ok st /\ usable (length hs) (st_hist _ st)) ->
  forall n src g hs, species (s_type src) ty nm m q -> wf_source src -> (0 <= s_count src)%Z -> (s_count src + Z.of_nat n <= s_nPart src)%Z ->
  (forall k g l src' g', generate_list E (with_count src k) g = Ok (l, src', g') -> fine l) ->
  Forall hwf hs -> exists evs g' hs', events_of E fuel w tEnd n src g hs evs g' hs' /\
    forall e, In e evs -> exists p, pl_items (fst e) = [p] /\ p_type p = ty /\ p_name p = nm.
Proof.
  intros HRUN. induction n as [|n IH]; intros src g hs HS HW HC HN HG0 HH; [exists [], g, hs; split; [constructor|intros e []]|].
  destruct (generate_list_spec E src g ty nm m q Hneg Hpos HS HW) as (l & g1 & HG & EV); [lia|].
  destruct (generate_single _ _ _ _ _ _ HG) as (p & P1 & P2 & P3 & P4 & _).
  destruct (HRUN l g1 hs P4) as (st & HX & _ & HH'); auto.
  { eapply (HG0 (s_count src)). rewrite with_count_id. exact HG. }
  destruct (IH (with_count src (s_count src + 1)) (st_rng E st) (st_hist E st)) as (evs & g' & hs' & HY & HZ); auto; try (cbn; lia).
  exists ((l, st_ev E st) :: evs), g', hs'. split; [econstructor; eauto|]. intros e [<-|HI]; [|auto].
  destruct EV as (_ & p' & Q1 & Q2 & Q3 & _). exists p'. auto.
Qed.
Lemma events_ok w tEnd N (HR : reliable E w) (HE : nltb (clock n0 (w_dt w) N) tEnd = false)
    (Hneg : neqb (nlit (-1) 0) (nlit (-1) 0) = true :> bool) (Hpos : neqb (n1 : T) (nlit (-1) 0) = false) fuel ty nm m q : (N <= fuel)%nat ->
  forall n src g hs, species (s_type src) ty nm m q -> wf_source src -> (0 <= s_count src)%Z -> (s_count src + Z.of_nat n <= s_nPart src)%Z ->
  Forall hwf hs -> exists evs g' hs', events_of E fuel w tEnd n src g hs evs g' hs' /\
    forall e, In e evs -> exists p, pl_items (fst e) = [p] /\ p_type p = ty /\ p_name p = nm.
Proof.
  intros HF n src g hs HS HW HC HN HH. apply (events_ok_gen w tEnd fuel ty nm m q (fun _ => True)); auto.
  intros l g1 hs1 HW1 _ HH1.
  apply (run_ok E w _ (map hi_time hs1) hist_fill (usable (length hs1)) tEnd N l g1 hs1 HR); auto.
  { apply hist_fill_well. apply map_length. }
  split; auto.
Qed.

(** ** Without pair creation only photons are added *)
Definition emission (pr : process T) : Prop := match pr with BreitWheeler _ => False | _ => True end.
Definition only_photons (l l' : event T) : Prop := exists more, map p_name (pl_items l') = map p_name (pl_items l) ++ more /\
  Forall (fun x => x = "Photon"%string) more.
Lemma only_photons_refl l : only_photons l l.
Proof. exists []. rewrite app_nil_r. auto. Qed.
Lemma only_photons_trans a b c : only_photons a b -> only_photons b c -> only_photons a c.
Proof. intros (x & X1 & X2) (y & Y1 & Y2). exists (x ++ y). rewrite Y1, X1, app_assoc. split; [auto|]. apply Forall_app; auto. Qed.
Lemma only_photons_add l ph : p_name ph = "Photon"%string -> only_photons l (pl_add l ph).
Proof.
  intros HN. unfold pl_add. destruct (Z.ltb _ _); [|exists []; cbn; rewrite app_nil_r; auto].
  exists [p_name ph]. cbn. rewrite map_app. auto.
Qed.
Lemma photon_name en x d wt t tr g : p_name (fst (new_photon_energy E en x d wt t tr g)) = "Photon"%string.
Proof. unfold new_photon_energy. pose proof (new_particle_fields E PPhoton "Photon"%string n0 n0 x (smul en (vnorm d)) wt t tr g) as F. apply F. Qed.
Lemma interact_only_photons pr p l g p' l' g' : emission pr -> interact E pr p l g = Ok (p', l', g') -> only_photons l l'.
Proof.
  destruct pr as [c|c cl|c]; cbn [emission interact]; intros HE HX; [| |contradiction].
  - unfold stochastic_interact in HX. destruct (_ || _)%bool; [injection HX; intros; subst; apply only_photons_refl|]. cbv zeta in HX.
    apply bind_ok in HX. destruct HX as [logh [_ HX]]. destruct (nltb _ _); [|injection HX; intros; subst; apply only_photons_refl].
    apply bind_ok in HX. destruct HX as [cg [_ HX]].
    destruct (if nltb _ _ then _ else _) as [keep g2]. destruct keep.
    + match type of HX with context [new_photon_energy E ?a ?b ?c ?d ?e ?f ?g] => pose proof (photon_name a b c d e f g) as PN;
        destruct (new_photon_energy E a b c d e f g) as [ph g3] end.
      destruct (init_depth E _ g3) as [p4 g4]. injection HX; intros; subst. apply only_photons_add. exact PN.
    + destruct (init_depth E _ g2) as [p4 g4]. injection HX; intros; subst. apply only_photons_refl.
  - unfold continuous_interact in HX. destruct (_ || _)%bool; [injection HX; intros; subst; apply only_photons_refl|].
    destruct (rand_double E n0 n1 g) as [r g1]. destruct (nltb _ _); [injection HX; intros; subst; apply only_photons_refl|]. cbv zeta in HX.
    apply bind_ok in HX. destruct HX as [[[logh chi] g2] [_ HX]]. destruct (nltb _ _); [|injection HX; intros; subst; apply only_photons_refl].
    match type of HX with context [new_photon_energy E ?a ?b ?c ?d ?e ?f ?g] => pose proof (photon_name a b c d e f g) as PN;
        destruct (new_photon_energy E a b c d e f g) as [ph g3] end.
    injection HX; intros; subst. apply only_photons_add. exact PN.
Qed.
Lemma names_upd (l : list (particle T)) k p' : nth_error (map p_name l) k = Some (p_name p') -> map p_name (upd l k p') = map p_name l.
Proof. revert k. induction l as [|a l IH]; intros [|k] HN; cbn in *; try discriminate; [congruence|]. f_equal. eauto. Qed.
Lemma set_only_photons (l : event T) k p p' : pl_get l k = Ok p -> p_name p' = p_name p -> only_photons l (pl_set l k p').
Proof.
  intros HG HP. apply pl_get_inv in HG. destruct HG as [_ HG]. exists []. unfold pl_set. cbn [pl_items]. rewrite app_nil_r. split; [|auto].
  apply names_upd. rewrite HP. now apply map_nth_error.
Qed.
Lemma run_only_photons w {S} htimes fill fuel tEnd l g (h : S) s' : (forall pr, In pr (w_procs w) -> emission pr) ->
  run_event E w htimes fill fuel tEnd l g h = Ok s' -> only_photons l (st_ev _ s').
Proof.
  intros HE HX. apply (lift_run E w (fun a b => only_photons (fst a) (fst b))) in HX; [exact HX| | | |].
  - intros a. apply only_photons_refl.
  - intros a b c. apply only_photons_trans.
  - intros k l0 g0 p HP. cbn [fst]. apply (set_only_photons _ _ _ _ HP). apply push_evolved.
  - intros k pr l0 g0 l' g' HI HP. cbn [fst]. apply call_process_change in HP.
    destruct HP as (_ & p & p' & st & lo & (C1 & C2 & _) & _ & HID & _ & _ & _ & l1 & HP & ->).
    apply interact_only_photons in HP; [|auto]. destruct HP as (more & M1 & M2).
    exists more. split; [|exact M2]. rewrite <- M1. unfold pl_set. cbn [pl_items]. apply names_upd. rewrite M1.
    pose proof (map_nth_error p_name _ _ C1) as NU. rewrite nth_error_app1 by (apply nth_error_Some; congruence). rewrite NU. f_equal.
    symmetry. apply HID.
Qed.
End Events.
