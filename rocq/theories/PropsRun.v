(** * Properties of the Python run manager: C71-C73, C90, C91 *)
From Coq Require Import String ZArith List Bool Lia Permutation Reals Lra.
From Verif Require Import Num RNum Outcome OutcomeFacts Vec Units MCTools Particle ParticleList ParticleFacts Source SourceFacts
  Fields Pusher Process ProcessFacts Sim SimFacts RunManager RunFacts.
Import ListNotations.
Local Open Scope string_scope.
Local Open Scope list_scope.

(** ** Specification: what a call history has set up *)
Section Spec.
Context {T : Type} `{Num T}.

(** The value of the last call that has one. *)
Definition latest {A} (f : call T -> option A) (cs : list (call T)) : option A :=
  fold_left (fun acc c => match f c with Some a => Some a | None => acc end) cs None.

Definition time_arg (c : call T) : option T := match c with SetTime a _ => Some a | _ => None end.
Definition field_arg (c : call T) : option string := match c with SetField ty _ _ _ _ _ _ _ => Some ty | _ => None end.
Definition physics_arg (c : call T) : option string := match c with SetPhysics p => Some p | _ => None end.
Definition generator_arg (c : call T) : option unit :=
  match c with SetGenerator _ _ _ _ _ _ _ _ _ => Some tt | _ => None end.

Definition field_names : list string := ["gaussian"; "Gaussian"; "focusing"; "Focusing"].
Definition physics_names : list string :=
  ["Classical"; "clasical"; "Semiclassical"; "semiclassical"; "Quantum"; "quantum"].

(** The next beamOn passes its checks. *)
Definition ready (cs : list (call T)) : Prop :=
  (exists ts, latest time_arg cs = Some ts /\ neqb (ndiv ts (ref_time si_units)) n0 = false) /\
  (exists ty, latest field_arg cs = Some ty /\ In ty field_names) /\
  (exists ph, latest physics_arg cs = Some ph /\ In ph physics_names) /\
  latest generator_arg cs <> None.

(** beamOn does more than print that OpenMP is missing. *)
Definition reaches (omp : bool) (threads : Z) : Prop := omp = true \/ threads = 1%Z.

(** Some run has created the objects. *)
Definition has_run (omp : bool) (cs : list (call T)) : Prop :=
  exists a n t b, cs = a ++ BeamOn n t :: b /\ reaches omp t /\ ready a.

(** A beamOn fails its checks although an earlier one has created the objects. *)
Definition failed_after_run (omp : bool) (cs : list (call T)) : Prop :=
  exists a n t b, cs = a ++ BeamOn n t :: b /\ reaches omp t /\ ~ ready a /\ has_run omp a.

Lemma latest_snoc {A} (f : call T -> option A) cs c :
  latest f (cs ++ [c]) = match f c with Some a => Some a | None => latest f cs end.
Proof. unfold latest. now rewrite fold_left_app. Qed.

Lemma snoc_split {A} (l a b : list A) c x : l ++ [c] = a ++ x :: b ->
  (b = [] /\ a = l /\ x = c) \/ exists b', b = b' ++ [c] /\ l = a ++ x :: b'.
Proof.
  intros E. destruct (rev b) as [|y r] eqn:Eb.
  - apply (f_equal (@rev A)) in Eb. rewrite rev_involutive in Eb. simpl in Eb. subst b.
    apply app_inj_tail in E. destruct E as [-> ->]. auto.
  - apply (f_equal (@rev A)) in Eb. rewrite rev_involutive in Eb. simpl in Eb. subst b. right.
    rewrite app_comm_cons, app_assoc in E. apply app_inj_tail in E. destruct E as [-> ->]. eauto.
Qed.

Lemma has_run_snoc omp cs c : has_run omp (cs ++ [c]) <->
  has_run omp cs \/ (exists n t, c = BeamOn n t /\ reaches omp t /\ ready cs).
Proof.
  split.
  - intros (a & n & t & b & E & R & Y). apply snoc_split in E. destruct E as [(-> & -> & <-)|(b' & -> & ->)].
    + right. eauto.
    + left. exists a, n, t, b'. auto.
  - intros [(a & n & t & b & -> & R & Y)|(n & t & -> & R & Y)].
    + exists a, n, t, (b ++ [c]). rewrite <- app_assoc. auto.
    + exists cs, n, t, []. auto.
Qed.
Lemma failed_snoc omp cs c : failed_after_run omp (cs ++ [c]) <->
  failed_after_run omp cs \/ (has_run omp cs /\ exists n t, c = BeamOn n t /\ reaches omp t /\ ~ ready cs).
Proof.
  split.
  - intros (a & n & t & b & E & R & Y & P). apply snoc_split in E. destruct E as [(-> & -> & <-)|(b' & -> & ->)].
    + right. split; eauto.
    + left. exists a, n, t, b'. auto.
  - intros [(a & n & t & b & -> & R & Y & P)|(P & n & t & -> & R & Y)].
    + exists a, n, t, (b ++ [c]). rewrite <- app_assoc. auto.
    + exists cs, n, t, []. auto.
Qed.
Lemma failed_has_run omp cs : failed_after_run omp cs -> has_run omp cs.
Proof.
  intros (a & n & t & b & -> & _ & _ & (a' & n' & t' & b' & -> & R & Y)).
  exists a', n', t', (b' ++ BeamOn n t :: b). rewrite <- app_assoc. auto.
Qed.
Lemma failed_more omp cs ds : failed_after_run omp cs -> failed_after_run omp (cs ++ ds).
Proof.
  intros (a & n & t & b & -> & R). exists a, n, t, (b ++ ds). rewrite <- app_assoc. auto.
Qed.
End Spec.

(** ** C72: life cycle *)
Section Life.
Context {T : Type} `{Num T}.
Variable E : Engine T.
Variable load_em : res (em_tables T).
Variable load_bw : res (bw_tables T).
Variable loop : world T -> source T -> nat -> T -> est E -> res (tables T * est E).
Variable omp : bool.
Hypothesis zero_is_zero : neqb (n0 : T) n0 = true.

Definition flags_of (cs : list (call T)) (m : manager T) : Prop :=
  (m_timeStep m = match latest time_arg cs with Some ts => ndiv ts (ref_time si_units) | None => n0 end) /\
  (m_fieldSet m = true <-> exists ty, latest field_arg cs = Some ty /\ In ty field_names) /\
  (m_physSet m = true <-> exists ph, latest physics_arg cs = Some ph /\ In ph physics_names) /\
  (m_genSet m = true <-> latest generator_arg cs <> None) /\
  (m_fieldSet m = true -> m_fieldPar m <> None) /\ (m_genSet m = true -> m_genPar m <> None).

Lemma set_up_ready cs m : flags_of cs m -> (set_up m = true <-> ready cs).
Proof.
  intros (Ht & Hf & Hp & Hg & _). unfold set_up, ready.
  rewrite negb_true_iff, !orb_false_iff, !negb_false_iff, Hf, Hp, Hg, Ht. clear Hf Hp Hg Ht.
  destruct (latest time_arg cs) as [ts|].
  - split.
    + intros (((A & B) & C) & D). split; [exists ts; auto|auto].
    + intros ((ts' & A & A') & B & C & D). inversion A; subst. auto.
  - split.
    + intros (((A & _) & _) & _). congruence.
    + intros ((ts & A & _) & _). discriminate.
Qed.

Definition pointer_of (cs : list (call T)) (p : ptr) : Prop :=
  (p = Null /\ ~ has_run omp cs) \/ (p = Live /\ has_run omp cs /\ ~ failed_after_run omp cs) \/
  (p = Dangling /\ failed_after_run omp cs).

Definition good (cs : list (call T)) (m : manager T) : Prop :=
  flags_of cs m /\ m_units m = Live /\ m_pusher m = m_field m /\ m_generator m = m_field m /\
  pointer_of cs (m_field m).

Lemma good_new : good [] new_manager.
Proof.
  split; [|split; [reflexivity|split; [reflexivity|split; [reflexivity|]]]].
  - unfold flags_of. cbn. repeat split; try congruence; try (intros (? & ? & _); discriminate).
  - left. split; [reflexivity|]. intros (a & n & t & b & K & _). destruct a; discriminate.
Qed.

Lemma names_dec (names : list string) (s : string) : existsb (String.eqb s) names = true <-> In s names.
Proof.
  rewrite existsb_exists. split.
  - intros (x & I & Q). apply String.eqb_eq in Q. now subst.
  - intros I. exists s. split; [exact I|apply String.eqb_refl].
Qed.

(** a call other than beamOn changes no pointer *)
Lemma pointer_keep cs c p : (forall n t, c <> BeamOn n t) -> pointer_of cs p -> pointer_of (cs ++ [c]) p.
Proof.
  intros N [[-> A]|[(-> & A & B)|[-> A]]]; unfold pointer_of; rewrite has_run_snoc, failed_snoc.
  - left. split; [reflexivity|]. intros [K|(n & t & K & _)]; [auto|now apply N in K].
  - right. left. split; [reflexivity|]. split; [auto|]. intros [K|(_ & n & t & K & _)]; [auto|now apply N in K].
  - right. right. auto.
Qed.

Lemma flags_keep_beam cs n t m m' : flags_of cs m ->
  m_timeStep m' = m_timeStep m -> m_fieldSet m' = m_fieldSet m -> m_physSet m' = m_physSet m -> m_genSet m' = m_genSet m ->
  m_fieldPar m' = m_fieldPar m -> m_genPar m' = m_genPar m -> flags_of (cs ++ [BeamOn n t]) m'.
Proof.
  intros F E1 E2 E3 E4 E5 E6. unfold flags_of in *. rewrite E1, E2, E3, E4, E5, E6.
  rewrite !latest_snoc. exact F.
Qed.

Lemma good_set cs c m m' g s : good cs m -> (forall n t, c <> BeamOn n t) ->
  do_call E load_em load_bw loop omp c m g = Ok (m', g, s) -> good (cs ++ [c]) m'.
Proof.
  intros (F & U & P1 & P2 & P3) N X.
  assert (FF := F). destruct F as (Ft & Ff & Fp & Fg & Ff' & Fg').
  unfold good. destruct c; cbn [do_call] in X; try (now destruct (N events threads));
    inversion X; subst; clear X.
  - split; [|split; [exact U|split; [exact P1|split; [exact P2|now apply pointer_keep]]]].
    unfold flags_of. rewrite !latest_snoc. cbn [time_arg field_arg physics_arg generator_arg set_time
      m_timeStep m_fieldSet m_physSet m_genSet m_fieldPar m_genPar]. repeat split; tauto || auto.
  - assert (Q : (String.eqb ty "gaussian" || String.eqb ty "Gaussian" || String.eqb ty "focusing" || String.eqb ty "Focusing")%bool
              = existsb (String.eqb ty) field_names) by (cbn [existsb field_names]; now rewrite orb_false_r, !orb_assoc).
    unfold set_field. rewrite Q. destruct (existsb _ field_names) eqn:X.
    + apply names_dec in X.
      split; [|split; [exact U|split; [exact P1|split; [exact P2|now apply pointer_keep]]]].
      unfold flags_of. rewrite !latest_snoc. cbn [time_arg field_arg physics_arg generator_arg with_field
        m_timeStep m_fieldSet m_physSet m_genSet m_fieldPar m_genPar].
      split; [auto|]. split; [split; [intros _; exists ty; auto|auto]|]. split; [auto|]. split; [auto|].
      split; [discriminate|auto].
    + split; [|split; [exact U|split; [exact P1|split; [exact P2|now apply pointer_keep]]]].
      unfold flags_of. rewrite !latest_snoc. cbn [time_arg field_arg physics_arg generator_arg with_field
        m_timeStep m_fieldSet m_physSet m_genSet m_fieldPar m_genPar].
      split; [auto|]. split; [split; [discriminate|]|].
      { intros (ty' & K & I). inversion K; subst. apply names_dec in I. congruence. }
      split; [auto|]. split; [auto|]. split; [discriminate|auto].
  - assert (Q : (String.eqb physics "Classical" || String.eqb physics "clasical" ||
      String.eqb physics "Semiclassical" || String.eqb physics "semiclassical" ||
      String.eqb physics "Quantum" || String.eqb physics "quantum")%bool
              = existsb (String.eqb physics) physics_names) by (cbn [existsb physics_names]; now rewrite orb_false_r, !orb_assoc).
    unfold set_physics. rewrite Q. destruct (existsb _ physics_names) eqn:X.
    + apply names_dec in X.
      split; [|split; [exact U|split; [exact P1|split; [exact P2|now apply pointer_keep]]]].
      unfold flags_of. rewrite !latest_snoc. cbn [time_arg field_arg physics_arg generator_arg with_physics
        m_timeStep m_fieldSet m_physSet m_genSet m_fieldPar m_genPar].
      split; [auto|]. split; [auto|]. split; [split; [intros _; exists physics; auto|auto]|]. auto.
    + split; [|split; [exact U|split; [exact P1|split; [exact P2|now apply pointer_keep]]]].
      unfold flags_of. rewrite !latest_snoc. cbn [time_arg field_arg physics_arg generator_arg with_physics
        m_timeStep m_fieldSet m_physSet m_genSet m_fieldPar m_genPar].
      split; [auto|]. split; [auto|]. split; [split; [discriminate|]|auto].
      intros (ty' & K & I). inversion K; subst. apply names_dec in I. congruence.
  - split; [|split; [exact U|split; [exact P1|split; [exact P2|now apply pointer_keep]]]].
    unfold flags_of. rewrite !latest_snoc. cbn [time_arg field_arg physics_arg generator_arg set_generator
      m_timeStep m_fieldSet m_physSet m_genSet m_fieldPar m_genPar].
    split; [auto|]. split; [auto|]. split; [auto|]. split; [split; [discriminate|auto]|]. split; [auto|discriminate].
  - assert (K : good (cs ++ [SetSampleFraction frac]) (set_sample_fraction frac m)); [|exact K].
    unfold good, set_sample_fraction. destruct (_ && _)%bool;
      (split; [|split; [exact U|split; [exact P1|split; [exact P2|now apply pointer_keep]]]];
       unfold flags_of; rewrite !latest_snoc; exact FF).
  - split; [|split; [exact U|split; [exact P1|split; [exact P2|now apply pointer_keep]]]].
    unfold flags_of; rewrite !latest_snoc; exact FF.
  - split; [|split; [exact U|split; [exact P1|split; [exact P2|now apply pointer_keep]]]].
    unfold flags_of; rewrite !latest_snoc; exact FF.
Qed.

Lemma not_reaches t : (negb omp && negb (t =? 1)%Z)%bool = true -> ~ reaches omp t.
Proof.
  intros K. apply andb_true_iff in K. destruct K as [K1 K2]. apply negb_true_iff in K1, K2.
  apply Z.eqb_neq in K2. intros [R|R]; congruence.
Qed.
Lemma is_reaches t : (negb omp && negb (t =? 1)%Z)%bool = false -> reaches omp t.
Proof.
  intros K. apply andb_false_iff in K. rewrite !negb_false_iff in K. destruct K as [K|K]; [now left|right].
  now apply Z.eqb_eq.
Qed.

(** a beamOn: either the objects are freed twice, or it goes on with its checks *)
Lemma good_beam cs n t m g : good cs m ->
  (failed_after_run omp cs /\ reaches omp t /\ beam_on E load_em load_bw loop omp n t m g = UB DoubleFree) \/
  (beam_on E load_em load_bw loop omp n t m g <> UB DoubleFree \/
   load_em = UB DoubleFree \/ load_bw = UB DoubleFree \/ exists w s k e g', loop w s k e g' = UB DoubleFree) /\
  forall m' g' b, beam_on E load_em load_bw loop omp n t m g = Ok (m', g', b) -> good (cs ++ [BeamOn n t]) m'.
Proof.
  intros (F & U & P1 & P2 & P3). pose proof (set_up_ready _ _ F) as SR.
  unfold beam_on. destruct (negb omp && negb (t =? 1)%Z)%bool eqn:R.
  { right. split; [left; discriminate|]. intros m' g' b X. inversion X; subst.
    apply not_reaches in R. split; [now apply (flags_keep_beam cs n t m')|].
    split; [exact U|split; [exact P1|split; [exact P2|]]].
    destruct P3 as [[Q A]|[(Q & A & B)|[Q A]]]; unfold pointer_of; rewrite has_run_snoc, failed_snoc.
    - left. split; [exact Q|]. intros [K|(? & ? & K & K' & _)]; [auto|]. inversion K; subst; auto.
    - right. left. split; [exact Q|]. split; [auto|].
      intros [K|(_ & ? & ? & K & K' & _)]; [auto|]. inversion K; subst; auto.
    - right. right. auto. }
  apply is_reaches in R. rewrite P1, P2.
  destruct P3 as [[Q A]|[(Q & A & B)|[Q A]]]; rewrite Q; cbn [delete bind].
  1,2: right; destruct (set_up m) eqn:Su.
  - (* first run *)
    assert (Rd : ready cs) by now apply SR.
    destruct (build_world load_em load_bw m) as [w| | |why|] eqn:Bw; cbn [bind].
    2,3,5: split; [left; discriminate|intros; discriminate].
    2: { split; [|intros; discriminate]. destruct why; try (left; discriminate). right.
         unfold build_world in Bw. destruct (m_fieldPar m) eqn:Fp; [|discriminate].
         unfold build_physics in Bw.
         destruct (_ || _)%bool; [|destruct (_ || _)%bool];
          (destruct load_em as [te| | |[]|]; cbn [bind] in Bw; try discriminate; auto;
           destruct (m_useBW m); cbn [bind] in Bw; try discriminate;
           destruct load_bw as [tb| | |[]|]; cbn [bind] in Bw; try discriminate; auto). }
    unfold build_source. destruct (m_genPar m) as [gp|] eqn:Gp; cbn [bind]; [|split; [left; discriminate|intros; discriminate]].
    match goal with |- context [new_source ?a ?b ?c ?d ?e ?f ?g ?h ?i ?j ?k ?l ?n] =>
      destruct (new_source a b c d e f g h i j k l n) as [src g1] end.
    cbn [fst snd].
    assert (Good : forall lost tt, good (cs ++ [BeamOn n t]) (with_pointers Live Live Live lost tt m)).
    { intros lost tt. split; [now apply (flags_keep_beam cs n t m)|]. split; [exact U|]. split; [reflexivity|].
      split; [reflexivity|]. right. left. split; [reflexivity|]. rewrite has_run_snoc, failed_snoc.
      split; [right; eauto|]. intros [K|(K & _)]; [apply A; now apply failed_has_run|auto]. }
    destruct (t <? 0)%Z; [split; [left; discriminate|]; intros m' g' b X; inversion X; apply Good|].
    destruct (loop w src (Z.to_nat t) (m_timeEnd m) g1) as [[tt g2]| | |why|] eqn:L; cbn [bind fst snd].
    + split; [left; discriminate|]. intros m' g' b X; inversion X; apply Good.
    + split; [left; discriminate|intros; discriminate].
    + split; [left; discriminate|intros; discriminate].
    + split; [|intros; discriminate]. destruct why; try (left; discriminate). right. right. right. eauto 10.
    + split; [left; discriminate|intros; discriminate].
  - split; [left; discriminate|]. intros m' g' b X. inversion X; subst.
    assert (Rd : ~ ready cs) by (rewrite <- SR; congruence).
    split; [now apply (flags_keep_beam cs n t m)|]. split; [exact U|]. split; [reflexivity|].
    split; [reflexivity|]. left. split; [reflexivity|]. rewrite has_run_snoc.
    intros [K|(? & ? & K & K' & K2)]; auto.
  - (* a further run *)
    assert (Rd : ready cs) by now apply SR.
    destruct (build_world load_em load_bw m) as [w| | |why|] eqn:Bw; cbn [bind].
    2,3,5: split; [left; discriminate|intros; discriminate].
    2: { split; [|intros; discriminate]. destruct why; try (left; discriminate). right.
         unfold build_world in Bw. destruct (m_fieldPar m) eqn:Fp; [|discriminate].
         unfold build_physics in Bw.
         destruct (_ || _)%bool; [|destruct (_ || _)%bool];
          (destruct load_em as [te| | |[]|]; cbn [bind] in Bw; try discriminate; auto;
           destruct (m_useBW m); cbn [bind] in Bw; try discriminate;
           destruct load_bw as [tb| | |[]|]; cbn [bind] in Bw; try discriminate; auto). }
    unfold build_source. destruct (m_genPar m) as [gp|] eqn:Gp; cbn [bind]; [|split; [left; discriminate|intros; discriminate]].
    match goal with |- context [new_source ?a ?b ?c ?d ?e ?f ?g ?h ?i ?j ?k ?l ?n] =>
      destruct (new_source a b c d e f g h i j k l n) as [src g1] end.
    cbn [fst snd].
    assert (Good : forall lost tt, good (cs ++ [BeamOn n t]) (with_pointers Live Live Live lost tt m)).
    { intros lost tt. split; [now apply (flags_keep_beam cs n t m)|]. split; [exact U|]. split; [reflexivity|].
      split; [reflexivity|]. right. left. split; [reflexivity|]. rewrite has_run_snoc, failed_snoc.
      split; [left; exact A|]. intros [K|(_ & ? & ? & _ & _ & K)]; auto. }
    destruct (t <? 0)%Z; [split; [left; discriminate|]; intros m' g' b X; inversion X; apply Good|].
    destruct (loop w src (Z.to_nat t) (m_timeEnd m) g1) as [[tt g2]| | |why|] eqn:L; cbn [bind fst snd].
    + split; [left; discriminate|]. intros m' g' b X; inversion X; apply Good.
    + split; [left; discriminate|intros; discriminate].
    + split; [left; discriminate|intros; discriminate].
    + split; [|intros; discriminate]. destruct why; try (left; discriminate). right. right. right. eauto 10.
    + split; [left; discriminate|intros; discriminate].
  - split; [left; discriminate|]. intros m' g' b X. inversion X; subst.
    assert (Rd : ~ ready cs) by (rewrite <- SR; congruence).
    split; [now apply (flags_keep_beam cs n t m)|]. split; [exact U|]. split; [reflexivity|].
    split; [reflexivity|]. right. right. split; [reflexivity|]. rewrite failed_snoc. right. eauto 10.
  - left. auto.
Qed.

(** reading tables and the event loop do not themselves free anything twice *)
Definition quiet : Prop := load_em <> UB DoubleFree /\ load_bw <> UB DoubleFree /\
  forall w s k e g, loop w s k e g <> UB DoubleFree.
(** ... they all return *)
Definition returns : Prop := (exists a, load_em = Ok a) /\ (exists b, load_bw = Ok b) /\
  forall w s k e g, exists r, loop w s k e g = Ok r.

Lemma calls_good : forall ds cs m g, good cs m ->
  (quiet -> do_calls E load_em load_bw loop omp ds m g = UB DoubleFree -> failed_after_run omp (cs ++ ds)) /\
  (forall m' g' l, do_calls E load_em load_bw loop omp ds m g = Ok (m', g', l) -> good (cs ++ ds) m').
Proof.
  induction ds as [|c ds IH]; intros cs m g G.
  - cbn [do_calls]. rewrite app_nil_r. split; [discriminate|]. intros m' g' l X. inversion X; subst. exact G.
  - cbn [do_calls]. replace (cs ++ c :: ds) with ((cs ++ [c]) ++ ds) by now rewrite <- app_assoc.
    assert (K : (exists n t, c = BeamOn n t) \/ forall n t, c <> BeamOn n t).
    { destruct c; try (right; intros; discriminate). left. eauto. }
    destruct K as [(n & t & ->)|N].
    + cbn [do_call]. destruct (good_beam cs n t m g G) as [(Fa & R & X)|[X Y]].
      * rewrite X. cbn [bind]. split; [|intros; discriminate]. intros _ _. rewrite <- app_assoc. now apply failed_more.
      * destruct (beam_on E load_em load_bw loop omp n t m g) as [[[m1 g1] b]| | |why|] eqn:B; cbn [bind fst snd];
          try (split; [discriminate|intros; discriminate]).
        -- specialize (Y m1 g1 b eq_refl). destruct (IH _ m1 g1 Y) as [I1 I2].
           destruct (do_calls _ _ _ _ _ ds m1 g1) as [[[m2 g2] l]| | |why|]; cbn [bind fst snd];
             try (split; [discriminate|intros; discriminate]).
           ++ split; [discriminate|]. intros m' g' l' Z. inversion Z; subst. eapply I2. reflexivity.
           ++ split; [|intros; discriminate]. intros Q Z. apply I1; auto.
        -- split; [|intros; discriminate]. intros (Q1 & Q2 & Q3) Z. inversion Z; subst.
           destruct X as [X|[X|[X|(w & s & k & e & g' & X)]]]; try congruence; now apply Q3 in X.
    + assert (D : exists m1 s, do_call E load_em load_bw loop omp c m g = Ok (m1, g, s)).
      { destruct c; cbn [do_call]; eauto. now destruct (N events threads). }
      destruct D as (m1 & s & D). pose proof (good_set _ _ _ _ _ _ G N D) as G1. rewrite D. cbn [bind fst snd].
      destruct (IH _ m1 g G1) as [I1 I2].
      destruct (do_calls _ _ _ _ _ ds m1 g) as [[[m2 g2] l]| | |why|]; cbn [bind fst snd];
        try (split; [discriminate|intros; discriminate]).
      * split; [discriminate|]. intros m' g' l' Z. inversion Z; subst. eapply I2. reflexivity.
      * split; [|intros; discriminate]. intros Q Z. apply I1; auto.
Qed.

Lemma calls_return : returns -> forall ds cs m g, good cs m ->
  (exists r, do_calls E load_em load_bw loop omp ds m g = Ok r) \/ do_calls E load_em load_bw loop omp ds m g = UB DoubleFree.
Proof.
  intros ([te Le] & [tb Lb] & Ll). induction ds as [|c ds IH]; intros cs m g G; [left; eexists; reflexivity|].
  cbn [do_calls].
  assert (K : (exists n t, c = BeamOn n t) \/ forall n t, c <> BeamOn n t).
  { destruct c; try (right; intros; discriminate). left. eauto. }
  destruct K as [(n & t & ->)|N].
  - cbn [do_call].
    assert (B : (exists r, beam_on E load_em load_bw loop omp n t m g = Ok r) \/ beam_on E load_em load_bw loop omp n t m g = UB DoubleFree).
    { destruct G as ((_ & _ & _ & _ & Fp & Gp) & _ & P1 & P2 & _). unfold beam_on.
      destruct (_ && _)%bool; [left; eexists; reflexivity|]. rewrite P1, P2.
      destruct (m_field m) eqn:Fi; cbn [delete bind]; [| |now right].
      all: destruct (set_up m) eqn:Su; [|left; eexists; reflexivity].
      all: unfold set_up in Su; rewrite negb_true_iff, !orb_false_iff, !negb_false_iff in Su.
      all: destruct Su as (((_ & S1) & _) & S2).
      all: assert (Bw : exists w, build_world load_em load_bw m = Ok w).
      1,3: unfold build_world; destruct (m_fieldPar m) as [f|]; [|now destruct (Fp S1)].
      1,2: unfold build_physics; rewrite Le, Lb; cbn [bind].
      1,2: destruct (_ || _)%bool; [|destruct (_ || _)%bool]; cbn [bind]; destruct (m_useBW m); cbn [bind]; eexists; reflexivity.
      all: destruct Bw as [w ->]; cbn [bind]; unfold build_source.
      all: destruct (m_genPar m) as [gp|]; [|now destruct (Gp S2)]; cbn [bind].
      all: destruct (t <? 0)%Z; [left; eexists; reflexivity|].
      all: match goal with |- context [loop ?a ?b ?c ?d ?e] => destruct (Ll a b c d e) as [r ->] end.
      all: cbn [bind]; left; eexists; reflexivity. }
    destruct (good_beam cs n t m g G) as [(Fa & R & X)|[X Y]]; [rewrite X; now right|].
    destruct B as [[[[m1 g1] b] B]|B]; rewrite B; cbn [bind fst snd]; [|now right].
    destruct (IH _ m1 g1 (Y _ _ _ B)) as [[[[m2 g2] l] ->]| ->]; cbn [bind]; [left; eexists; reflexivity|now right].
  - assert (D : exists m1 s, do_call E load_em load_bw loop omp c m g = Ok (m1, g, s)).
    { destruct c; cbn [do_call]; eauto. now destruct (N events threads). }
    destruct D as (m1 & s & D). rewrite D. cbn [bind fst snd].
    destruct (IH _ m1 g (good_set _ _ _ _ _ _ G N D)) as [[[[m2 g2] l] ->]| ->]; cbn [bind]; [left; eexists; reflexivity|now right].
Qed.

Lemma destroy_good cs m : good cs m ->
  (failed_after_run omp cs /\ destroy m = UB DoubleFree) \/ (~ failed_after_run omp cs /\ destroy m = Ok (m_lost m)).
Proof.
  intros (_ & U & P1 & P2 & P3). unfold destroy. rewrite U, P1, P2.
  destruct P3 as [[Q A]|[(Q & A & B)|[Q A]]]; rewrite Q; cbn [delete bind]; auto.
  right. split; [|reflexivity]. intros K. apply A. now apply failed_has_run.
Qed.

(** An object is freed twice only if a beamOn failed its checks after a run; such a session never
    completes; and when table reading and event loops return, it is exactly then that an object is freed
    twice, and otherwise the session completes. *)
Theorem C72_double_free : forall cs g,
  (quiet -> session E load_em load_bw loop omp cs g = UB DoubleFree -> failed_after_run omp cs) /\
  (failed_after_run omp cs -> forall r, session E load_em load_bw loop omp cs g <> Ok r) /\
  (returns -> (session E load_em load_bw loop omp cs g = UB DoubleFree <-> failed_after_run omp cs) /\
              (~ failed_after_run omp cs -> exists r, session E load_em load_bw loop omp cs g = Ok r)).
Proof.
  intros cs g. destruct (calls_good cs [] new_manager g good_new) as [G1 G2]. cbn [app] in *. unfold session.
  assert (Rq : returns -> quiet).
  { intros ([te Le] & [tb Lb] & L). unfold quiet. rewrite Le, Lb. split; [discriminate|]. split; [discriminate|].
    intros w s k e g' K. destruct (L w s k e g') as [r L']. congruence. }
  assert (A : quiet -> (let* r := do_calls E load_em load_bw loop omp cs new_manager g in
     let* n := destroy (fst (fst r)) in Ok (snd r, n)) = UB DoubleFree -> failed_after_run omp cs).
  { intros Q X. destruct (do_calls _ _ _ _ _ cs new_manager g) as [[[m g'] l]| | |why|]; cbn [bind fst snd] in X;
      try discriminate.
    - destruct (destroy_good _ _ (G2 _ _ _ eq_refl)) as [[F D]|[F D]]; [exact F|rewrite D in X; discriminate].
    - apply G1; auto. now inversion X. }
  assert (B : failed_after_run omp cs -> forall r, (let* r := do_calls E load_em load_bw loop omp cs new_manager g in
     let* n := destroy (fst (fst r)) in Ok (snd r, n)) <> Ok r).
  { intros F r X. destruct (do_calls _ _ _ _ _ cs new_manager g) as [[[m g'] l]| | |why|]; cbn [bind fst snd] in X;
      try discriminate.
    destruct (destroy_good _ _ (G2 _ _ _ eq_refl)) as [[F' D]|[F' D]]; [rewrite D in X; discriminate|contradiction]. }
  split; [exact A|]. split; [exact B|]. intros Rt.
  destruct (calls_return Rt cs [] new_manager g good_new) as [[[[m g'] l] X]|X]; rewrite X in *; cbn [bind fst snd] in *.
  - destruct (destroy_good _ _ (G2 _ _ _ eq_refl)) as [[F' D]|[F' D]]; rewrite D in *; cbn [bind] in *.
    + split; [split; auto|tauto].
    + split; [split; [discriminate|tauto]|]. intros _. eexists. reflexivity.
  - assert (F : failed_after_run omp cs) by (apply G1; auto). split; [tauto|tauto].
Qed.

End Life.

(** The theorem applies to the loop of the build without OpenMP. *)
Theorem C72_serial_build : forall {T} `{Num T} (E : Engine T) load_em load_bw fuel cs g,
  neqb (n0 : T) n0 = true -> load_em <> UB DoubleFree -> load_bw <> UB DoubleFree ->
  session E load_em load_bw (serial_loop E fuel) false cs g = UB DoubleFree -> failed_after_run false cs.
Proof.
  intros T HT E load_em load_bw fuel cs g Hz Le Lb X.
  destruct (C72_double_free E load_em load_bw (serial_loop E fuel) false Hz cs g) as [A _]. apply A; [|exact X].
  split; [exact Le|]. split; [exact Lb|]. intros w s k e g'. apply serial_events_nd.
Qed.

(** ** C90: the processes of every run are leaked *)
Section Leak.
Context {T : Type} `{Num T}.

Definition pair_arg (c : call T) : option bool := match c with UsePairProduction b => Some b | _ => None end.

(** One emission process per run, and one more with pair production. *)
Inductive created (omp : bool) : list (call T) -> nat -> Prop :=
| created_nil : created omp [] 0
| created_run : forall cs k n t, created omp cs k -> reaches omp t -> ready cs ->
    created omp (cs ++ [BeamOn n t]) (k + (if match latest pair_arg cs with Some b => b | None => false end then 2 else 1))
| created_other : forall cs k c, created omp cs k -> (forall n t, c = BeamOn n t -> ~ (reaches omp t /\ ready cs)) ->
    created omp (cs ++ [c]) k.

Variable E : Engine T.
Variable load_em : res (em_tables T).
Variable load_bw : res (bw_tables T).
Variable loop : world T -> source T -> nat -> T -> est E -> res (tables T * est E).
Variable omp : bool.
Hypothesis zero_is_zero : neqb (n0 : T) n0 = true.

Definition counted (cs : list (call T)) (m : manager T) : Prop :=
  m_useBW m = match latest pair_arg cs with Some b => b | None => false end /\ created omp cs (m_lost m).

Lemma calls_counted : forall ds cs m g m' g' l, good omp cs m -> counted cs m ->
  do_calls E load_em load_bw loop omp ds m g = Ok (m', g', l) -> counted (cs ++ ds) m'.
Proof.
  induction ds as [|c ds IH]; intros cs m g m' g' l G C X.
  - inversion X; subst. now rewrite app_nil_r.
  - cbn [do_calls] in X. replace (cs ++ c :: ds) with ((cs ++ [c]) ++ ds) by now rewrite <- app_assoc.
    destruct (do_call E load_em load_bw loop omp c m g) as [[[m1 g1] s]| | | |] eqn:D; cbn [bind fst snd] in X; try discriminate.
    destruct (do_calls _ _ _ _ _ ds m1 g1) as [[[m2 g2] l2]| | | |] eqn:Y; cbn [bind fst snd] in X; try discriminate.
    inversion X; subst. clear X.
    assert (K : (exists n t, c = BeamOn n t) \/ forall n t, c <> BeamOn n t).
    { destruct c; try (right; intros; discriminate). left. eauto. }
    destruct C as [Cb Cc]. destruct K as [(n & t & ->)|N].
    + cbn [do_call] in D.
      destruct (beam_on E load_em load_bw loop omp n t m g) as [[[m3 g3] b]| | | |] eqn:B; cbn [bind fst snd] in D; try discriminate.
      inversion D; subst. clear D.
      destruct (good_beam E load_em load_bw loop omp zero_is_zero cs n t m g G) as [(_ & _ & Z)|[_ G1]]; [congruence|].
      specialize (G1 _ _ _ B). apply (IH _ _ _ _ _ _ G1) in Y; [exact Y|]. clear Y IH.
      unfold counted. rewrite latest_snoc. cbn [pair_arg].
      destruct G as (F & _). pose proof (set_up_ready zero_is_zero _ _ F) as SR.
      unfold beam_on in B. destruct (_ && _)%bool eqn:R.
      { inversion B; subst. split; [exact Cb|]. apply created_other; [exact Cc|]. intros n' t' Q (K & _). inversion Q; subst.
        now apply (not_reaches omp t') in R. }
      apply is_reaches in R.
      destruct (delete (m_pusher m)) as [p1| | | |]; try discriminate.
      destruct (delete (m_generator m)) as [p2| | | |]; try discriminate.
      destruct (delete (m_field m)) as [p3| | | |]; try discriminate. cbn [bind] in B.
      destruct (set_up m) eqn:Su.
      * assert (Rd : ready cs) by now apply SR.
        destruct (build_world load_em load_bw m) as [w| | | |] eqn:Bw; try discriminate. cbn [bind] in B.
        destruct (build_source E m n g) as [[src g4]| | | |]; try discriminate. cbn [bind fst snd] in B.
        assert (Lw : length (w_procs w) = if m_useBW m then 2 else 1).
        { unfold build_world in Bw. destruct (m_fieldPar m); [|discriminate].
          destruct (build_physics _ _ _ _ _) as [pp| | | |]; try discriminate. cbn [bind] in Bw.
          destruct (m_useBW m).
          - destruct load_bw; try discriminate. cbn [bind] in Bw. now inversion Bw.
          - cbn [bind] in Bw. now inversion Bw. }
        assert (Q : m_lost m1 = m_lost m + length (w_procs w) /\ m_useBW m1 = m_useBW m).
        { destruct (t <? 0)%Z; [inversion B; subst; auto|].
          destruct (loop w src (Z.to_nat t) (m_timeEnd m) g4) as [[tt g5]| | | |]; try discriminate.
          cbn [bind] in B. inversion B; subst; auto. }
        destruct Q as [-> ->]. split; [exact Cb|]. rewrite Lw, Cb. now apply created_run.
      * inversion B; subst. split; [exact Cb|]. cbn [with_pointers m_lost]. apply created_other; [exact Cc|].
        intros n' t' Q (_ & K). apply SR in K. congruence.
    + assert (Gg : g1 = g).
      { destruct c; cbn [do_call] in D; try (inversion D; reflexivity). now destruct (N events threads). }
      subst g1. pose proof (good_set E load_em load_bw loop omp _ _ _ _ _ _ G N D) as G1.
      apply (IH _ _ _ _ _ _ G1) in Y; [exact Y|]. clear Y IH.
      unfold counted. rewrite latest_snoc.
      destruct c; cbn [do_call] in D; try (now destruct (N events threads)); inversion D; subst; cbn [pair_arg];
        try (split; [exact Cb|apply created_other; [exact Cc|intros; discriminate]]).
      * unfold set_field. destruct (_ || _)%bool; (split; [exact Cb|apply created_other; [exact Cc|intros; discriminate]]).
      * unfold set_physics. destruct (_ || _)%bool; (split; [exact Cb|apply created_other; [exact Cc|intros; discriminate]]).
      * unfold set_sample_fraction. destruct (_ && _)%bool; (split; [exact Cb|apply created_other; [exact Cc|intros; discriminate]]).
      * split; [reflexivity|apply created_other; [exact Cc|intros; discriminate]].
Qed.

(** When the manager has been destroyed, all process objects that its runs created are still allocated. *)
Theorem C90_processes_leak : forall cs g l k,
  session E load_em load_bw loop omp cs g = Ok (l, k) -> created omp cs k.
Proof.
  intros cs g l k X. unfold session in X.
  destruct (do_calls E load_em load_bw loop omp cs new_manager g) as [[[m g'] l']| | | |] eqn:D; try discriminate.
  cbn [bind fst snd] in X. pose proof D as D'.
  apply calls_counted with (cs := []) in D; [|apply good_new|split; [reflexivity|constructor]].
  destruct (calls_good E load_em load_bw loop omp zero_is_zero cs [] new_manager g (good_new omp)) as [_ G].
  destruct (destroy_good omp _ _ (G _ _ _ D')) as [[_ K]|[_ K]]; rewrite K in X; try discriminate.
  cbn [bind] in X. inversion X; subst. apply D.
Qed.
End Leak.

(** ** C71: names of the physics models *)
Section Names.
Context {T : Type} `{Num T}.
Variable E : Engine T.
Variable load_em : res (em_tables T).
Variable load_bw : res (bw_tables T).
Variable loop : world T -> source T -> nat -> T -> est E -> res (tables T * est E).
Variable omp : bool.

(** Names that mean the same model: the misspelt name means the quantum model. *)
Definition synonyms (a b : string) : Prop :=
  a = b \/ (In a ["Quantum"; "quantum"; "clasical"] /\ In b ["Quantum"; "quantum"; "clasical"]) \/
  (In a ["Semiclassical"; "semiclassical"] /\ In b ["Semiclassical"; "semiclassical"]).

Definition same_call (c d : call T) : Prop :=
  c = d \/ exists a b, c = SetPhysics a /\ d = SetPhysics b /\ synonyms a b.

Definition same_manager (m m' : manager T) : Prop :=
  exists ph, synonyms (m_physics m) ph /\ m' = with_physics (m_physSet m) ph (m_sampleFrac m) (m_useBW m) m.

Lemma same_manager_refl m : same_manager m m.
Proof. exists (m_physics m). split; [now left|]. now destruct m. Qed.

Definition same_result (x y : res (manager T * est E * seen T)) : Prop :=
  match x, y with
  | Ok (m, g, s), Ok (m', g', s') => same_manager m m' /\ g = g' /\ s = s'
  | Ok _, _ | _, Ok _ => False
  | Exit a, Exit b => a = b
  | Throw, Throw => True
  | UB a, UB b => a = b
  | Fuel, Fuel => True
  | _, _ => False
  end.

Lemma same_result_refl_err (x : res (manager T * est E * seen T)) : same_result x x.
Proof. destruct x as [[[m g] s]| | | |]; simpl; auto using same_manager_refl. Qed.

Lemma same_physics a b fld dt frac : synonyms a b ->
  build_physics load_em a fld dt frac = build_physics load_em b fld dt frac.
Proof.
  intros [->|[[A B]|[A B]]]; [reflexivity| |];
    simpl in A, B; intuition subst; reflexivity.
Qed.

Lemma set_physics_synonyms a b m m' : synonyms a b -> same_manager m m' -> same_manager (set_physics a m) (set_physics b m').
Proof.
  intros S (ph & Sp & ->). unfold set_physics.
  assert (K : a = b \/ (In a physics_names /\ In b physics_names)).
  { destruct S as [S|[[A B]|[A B]]]; [now left| |]; right; simpl in A, B; unfold physics_names; simpl; intuition subst; auto 10. }
  assert (Q : forall s, (String.eqb s "Classical" || String.eqb s "clasical" ||
      String.eqb s "Semiclassical" || String.eqb s "semiclassical" ||
      String.eqb s "Quantum" || String.eqb s "quantum")%bool
              = existsb (String.eqb s) physics_names) by (intros; cbn [existsb physics_names]; now rewrite orb_false_r, !orb_assoc).
  rewrite !Q. destruct K as [->|[A B]].
  - destruct (existsb (String.eqb b) physics_names); [exists b; split; [now left|reflexivity]|exists ph; split; [exact Sp|reflexivity]].
  - apply names_dec in A, B. rewrite A, B. exists b. split; [exact S|reflexivity].
Qed.

Lemma same_calls_step c d m m' g : same_call c d -> same_manager m m' ->
  same_result (do_call E load_em load_bw loop omp c m g) (do_call E load_em load_bw loop omp d m' g).
Proof.
  intros [->|(a & b & -> & -> & S)] M.
  2: { cbn [do_call same_result]. split; [now apply set_physics_synonyms|auto]. }
  pose proof M as (ph & Sp & Em).
  destruct d; cbn [do_call].
  - split; [|auto]. subst m'. exists ph. split; [exact Sp|reflexivity].
  - split; [|auto]. unfold set_field. subst m'. destruct (_ || _)%bool; (exists ph; split; [exact Sp|reflexivity]).
  - split; [|auto]. apply set_physics_synonyms; [now left|exact M].
  - split; [|auto]. subst m'. exists ph. split; [exact Sp|reflexivity].
  - split; [|auto]. unfold set_sample_fraction. subst m'. destruct (_ && _)%bool; (exists ph; split; [exact Sp|reflexivity]).
  - split; [|auto]. subst m'. exists ph. split; [exact Sp|reflexivity].
  - assert (Bw : build_world load_em load_bw m' = build_world load_em load_bw m).
    { subst m'. unfold build_world. cbn [with_physics m_fieldPar m_fieldType m_physics m_timeStep m_sampleFrac m_useBW].
      destruct (m_fieldPar m); [|reflexivity]. now rewrite (same_physics _ _ _ _ _ Sp). }
    assert (Bs : build_source E m' events g = build_source E m events g) by (subst m'; reflexivity).
    assert (Su : set_up m' = set_up m) by (subst m'; reflexivity).
    unfold beam_on. rewrite Bw, Bs, Su.
    replace (m_pusher m') with (m_pusher m) by (subst m'; reflexivity).
    replace (m_generator m') with (m_generator m) by (subst m'; reflexivity).
    replace (m_field m') with (m_field m) by (subst m'; reflexivity).
    replace (m_lost m') with (m_lost m) by (subst m'; reflexivity).
    replace (m_tables m') with (m_tables m) by (subst m'; reflexivity).
    replace (m_timeEnd m') with (m_timeEnd m) by (subst m'; reflexivity).
    destruct (_ && _)%bool; [cbn [bind same_result fst snd]; auto|].
    destruct (delete (m_pusher m)); cbn [bind same_result]; auto.
    destruct (delete (m_generator m)); cbn [bind same_result]; auto.
    destruct (delete (m_field m)); cbn [bind same_result]; auto.
    assert (Wp : forall f p g l t, same_manager (with_pointers f p g l t m) (with_pointers f p g l t m')).
    { intros. subst m'. exists ph. split; [exact Sp|reflexivity]. }
    destruct (set_up m); [|cbn [bind same_result fst snd]; auto].
    destruct (build_world load_em load_bw m); cbn [bind same_result]; auto.
    destruct (build_source E m events g) as [[src g1]| | | |]; cbn [bind same_result fst snd]; auto.
    destruct (threads <? 0)%Z; [cbn [bind same_result fst snd]; auto|].
    destruct (loop a2 src (Z.to_nat threads) (m_timeEnd m) g1) as [[tt g2]| | | |]; cbn [bind same_result fst snd]; auto.
  - split; [exact M|]. split; [reflexivity|]. subst m'. reflexivity.
Qed.

Lemma same_calls_run : forall cs ds, Forall2 same_call cs ds -> forall m m' g, same_manager m m' ->
  match do_calls E load_em load_bw loop omp cs m g, do_calls E load_em load_bw loop omp ds m' g with
  | Ok (m1, g1, l1), Ok (m2, g2, l2) => same_manager m1 m2 /\ g1 = g2 /\ l1 = l2
  | Ok _, _ | _, Ok _ => False
  | Exit a, Exit b => a = b
  | Throw, Throw => True
  | UB a, UB b => a = b
  | Fuel, Fuel => True
  | _, _ => False
  end.
Proof.
  intros cs ds F. induction F as [|c d cs ds Hc F IH]; intros m m' g M; cbn [do_calls]; [auto|].
  pose proof (same_calls_step c d m m' g Hc M) as S.
  destruct (do_call _ _ _ _ _ c m g) as [[[m1 g1] s1]| | | |], (do_call _ _ _ _ _ d m' g) as [[[m2 g2] s2]| | | |];
    cbn [same_result] in S; try contradiction; cbn [bind fst snd]; auto.
  destruct S as (S1 & <- & <-). specialize (IH m1 m2 g1 S1).
  destruct (do_calls _ _ _ _ _ cs m1 g1) as [[[m3 g3] l3]| | | |], (do_calls _ _ _ _ _ ds m2 g1) as [[[m4 g4] l4]| | | |];
    try contradiction; cbn [bind fst snd]; auto.
  destruct IH as (I1 & <- & <-). auto.
Qed.

(** Replacing the physics names by synonyms anywhere in a session changes nothing that can be observed:
    in particular the misspelt name runs the quantum model. *)
Theorem C71_synonyms : forall cs ds g, Forall2 same_call cs ds ->
  session E load_em load_bw loop omp cs g = session E load_em load_bw loop omp ds g.
Proof.
  intros cs ds g F. unfold session.
  pose proof (same_calls_run cs ds F new_manager new_manager g (same_manager_refl _)) as S.
  destruct (do_calls _ _ _ _ _ cs new_manager g) as [[[m1 g1] l1]| | | |], (do_calls _ _ _ _ _ ds new_manager g) as [[[m2 g2] l2]| | | |];
    try contradiction; subst; cbn [bind fst snd]; try reflexivity.
  destruct S as ((ph & _ & ->) & <- & <-). reflexivity.
Qed.

(** What is run under each accepted name: the force law of the pusher and the radiation process. *)
Theorem C71_model_of_name : forall m w, build_world load_em load_bw m = Ok w ->
  exists t fld rest,
  w_force w = (if existsb (String.eqb (m_physics m)) ["Classical"; "classical"] then landau_force
               else if existsb (String.eqb (m_physics m)) ["Semiclassical"; "semiclassical"] then modified_landau_force
               else lorentz_force) /\
  w_procs w = (if existsb (String.eqb (m_physics m)) ["Classical"; "classical"] then Continuous (mkEm fld (m_timeStep m) (m_sampleFrac m) n0 false t) true
               else if existsb (String.eqb (m_physics m)) ["Semiclassical"; "semiclassical"] then Continuous (mkEm fld (m_timeStep m) (m_sampleFrac m) n0 false t) false
               else Stochastic (mkEm fld (m_timeStep m) (m_sampleFrac m) n0 false t)) :: rest /\
  (rest <> [] <-> m_useBW m = true).
Proof.
  intros m w B. unfold build_world in B. destruct (m_fieldPar m) as [f|]; [|discriminate].
  unfold build_physics in B. cbn [existsb]. rewrite !orb_false_r.
  set (c1 := (String.eqb (m_physics m) "Classical" || String.eqb (m_physics m) "classical")%bool) in *.
  set (c2 := (String.eqb (m_physics m) "Semiclassical" || String.eqb (m_physics m) "semiclassical")%bool) in *.
  clearbody c1 c2.
  destruct load_em as [t| | | |]; [|destruct c1, c2; discriminate ..].
  exists t. exists (build_field (m_fieldType m) f).
  destruct (m_useBW m).
  - destruct load_bw as [u| | | |]; [|destruct c1, c2; discriminate ..].
    exists [BreitWheeler (mkBw (build_field (m_fieldType m) f) (m_timeStep m) false u)].
    destruct c1; [|destruct c2]; inversion B; subst; repeat split; discriminate.
  - exists []. destruct c1; [|destruct c2]; inversion B; subst; repeat split; congruence.
Qed.

(** A name that is not accepted makes the next beamOn a failure: nothing is run, no table changes. *)
Theorem C71_rejected_names : forall cs s n t g m g1 l1 m' g' l,
  do_calls E load_em load_bw loop omp cs new_manager g = Ok (m, g1, l1) ->
  do_calls E load_em load_bw loop omp (cs ++ [SetPhysics s; BeamOn n t]) new_manager g = Ok (m', g', l) ->
  ~ In s physics_names -> m_tables m' = m_tables m /\ g' = g1.
Proof.
  intros cs s n t g m g1 l1 m' g' l X Y N.
  assert (Ap : forall ds cs m g, do_calls E load_em load_bw loop omp (cs ++ ds) m g =
     let* x := do_calls E load_em load_bw loop omp cs m g in
     let* y := do_calls E load_em load_bw loop omp ds (fst (fst x)) (snd (fst x)) in
     Ok (fst (fst y), snd (fst y), snd x ++ snd y)).
  { intros ds. induction cs0 as [|c cs0 IH]; intros m0 g0; cbn [app do_calls bind fst snd].
    - destruct (do_calls _ _ _ _ _ ds m0 g0) as [[[? ?] ?]| | | |]; reflexivity.
    - destruct (do_call _ _ _ _ _ c m0 g0) as [[[m2 g2] s2]| | | |]; cbn [bind fst snd]; auto. rewrite IH.
      destruct (do_calls _ _ _ _ _ cs0 m2 g2) as [[[m3 g3] s3]| | | |]; cbn [bind fst snd]; auto.
      destruct (do_calls _ _ _ _ _ ds m3 g3) as [[[m4 g4] s4]| | | |]; cbn [bind fst snd]; auto. }
  rewrite Ap, X in Y. cbn [bind fst snd do_calls do_call] in Y.
  assert (Sp : m_physSet (set_physics s m) = false /\ m_tables (set_physics s m) = m_tables m).
  { unfold set_physics. destruct (_ || _)%bool eqn:Q; [|auto]. exfalso. apply N. apply names_dec.
    cbn [existsb physics_names]. rewrite orb_false_r, !orb_assoc. exact Q. }
  destruct Sp as [Sp St]. unfold beam_on in Y.
  destruct (_ && _)%bool; [cbn [bind fst snd] in Y; inversion Y; subst; auto|].
  destruct (delete (m_pusher _)) as [p1| | | |]; try discriminate.
  destruct (delete (m_generator _)) as [p2| | | |]; try discriminate.
  destruct (delete (m_field _)) as [p3| | | |]; try discriminate. cbn [bind] in Y.
  unfold set_up in Y. rewrite Sp in Y. cbn [negb] in Y. rewrite orb_true_r in Y. cbn [orb negb bind fst snd] in Y.
  inversion Y; subst. cbn [with_pointers m_tables]. auto.
Qed.
End Names.
Print Assumptions C72_double_free.
Print Assumptions C72_serial_build.
Print Assumptions C90_processes_leak.
Print Assumptions C71_synonyms.
Print Assumptions C71_model_of_name.
Print Assumptions C71_rejected_names.
