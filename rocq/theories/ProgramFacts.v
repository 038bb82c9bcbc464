(** * The main program as a sequence of calls of the output manager *)
From Coq Require Import String ZArith List Bool Lia.
From Verif Require Import Num Outcome OutcomeFacts Vec Units MCTools Particle ParticleList Source Fields Pusher Process Sim Histogram HistFacts Hdf5 Output
  OutFacts OutFile SourceFacts SimFacts SimTime Program.
From Verif Require FileParser.
Import ListNotations.
Local Open Scope list_scope.

Section Spec.
Context {T : Type} `{Num T}.
Variable E : Engine T.
Variable fuel : nat.
Variable w : world T.
Variable tEnd : T.

(** First and final list of each event of one source, simulated one after the other; the histograms are filled on the way. *)
Inductive events_of : nat -> source T -> est E -> list (hist T) -> list (event T * event T) -> est E -> list (hist T) -> Prop :=
| ev_nil : forall src g hs, events_of 0 src g hs [] g hs
| ev_cons : forall n src g hs l src1 g1 st evs g2 hs2,
    generate_list E src g = Ok (l, src1, g1) ->
    run_event E w (map hi_time hs) hist_fill fuel tEnd l g1 hs = Ok st ->
    events_of n src1 (st_rng E st) (st_hist E st) evs g2 hs2 ->
    events_of (S n) src g hs ((l, st_ev E st) :: evs) g2 hs2.

Inductive sources_of : list (bool * source T) -> est E -> list (hist T) -> list (list (event T * event T)) -> est E -> list (hist T) -> Prop :=
| so_nil : forall g hs, sources_of [] g hs [] g hs
| so_cons : forall o src ss g hs evs g1 hs1 evss g2 hs2,
    events_of (Z.to_nat (s_nPart src)) src g hs evs g1 hs1 ->
    sources_of ss g1 hs1 evss g2 hs2 ->
    sources_of ((o, src) :: ss) g hs (evs :: evss) g2 hs2.

(** The storing calls of events number [j], [j+1], ... *)
Fixpoint calls_of (output tracking : bool) (j : nat) (evs : list (event T * event T)) : list (op T) :=
  match evs with
  | [] => []
  | (l, fin) :: r =>
      (if output then [OPrimary l (Z.of_nat j); OFinal fin (Z.of_nat j)] else []) ++
      (if tracking then [OTrack fin (Z.of_nat j)] else []) ++ calls_of output tracking (S j) r
  end.
Fixpoint runs_of (tracking : bool) (ss : list (bool * source T)) (evss : list (list (event T * event T))) : list (source_run T) :=
  match ss, evss with
  | (o, src) :: ss', evs :: evss' => mkSR o (s_nPart src) (calls_of o tracking 0 evs) :: runs_of tracking ss' evss'
  | _, _ => []
  end.
End Spec.

Section Refine.
Context {T : Type} `{Num T}.
Variable E : Engine T.
Variable code : objinfo.
Variable garbage : T.
Variable fld : field T.
Variable fuel : nat.
Variable w : world T.
Variable tEnd : T.
Notation run := (exec_all code garbage fld).

Lemma one_event_iff output tracking j src (s : prog E) src1 s' :
  one_event E garbage fuel w tEnd output tracking (Z.of_nat j) src s = Ok (src1, s') <->
  exists l g1 st, generate_list E src (pg_rng E s) = Ok (l, src1, g1) /\
    run_event E w (map hi_time (pg_hists E s)) hist_fill fuel tEnd l g1 (pg_hists E s) = Ok st /\
    pg_hists E s' = st_hist E st /\ pg_rng E s' = st_rng E st /\
    run (pg_om E s) (calls_of output tracking j [(l, st_ev E st)]) = Ok (pg_om E s').
Proof.
  unfold one_event. split.
  - intros X. apply bind_ok in X. destruct X as [[[l s1] g1] [G X]]. apply bind_ok in X. destruct X as [o1 [O1 X]].
    apply bind_ok in X. destruct X as [st [R X]]. apply bind_ok in X. destruct X as [o2 [O2 X]]. apply bind_ok in X. destruct X as [o3 [O3 X]].
    injection X; intros <- <-. exists l, g1, st. split; [exact G|]. split; [exact R|]. split; [reflexivity|]. split; [reflexivity|].
    cbn [calls_of pg_om]. rewrite app_nil_r. unfold when in *. destruct output, tracking; cbn [app exec_all exec].
    + rewrite O1. cbn [bind]. rewrite O2. cbn [bind]. injection O3; intros <-. reflexivity.
    + rewrite O1. cbn [bind]. rewrite O2. injection O3; intros <-. reflexivity.
    + injection O1; intros <-. injection O2; intros <-. injection O3; intros <-. reflexivity.
    + congruence.
  - intros (l & g1 & st & G & R & HH & HR & X). rewrite G. cbn [bind]. destruct s' as [o' h' r']. cbn in HH, HR, X. subst h' r'.
    rewrite app_nil_r in X. unfold when. destruct output, tracking; cbn [app exec_all exec] in X.
    + apply bind_ok in X. destruct X as [o1 [O1 X]]. apply bind_ok in X. destruct X as [o2 [O2 X]]. cbn [bind] in X. injection X; intros <-.
      rewrite O1. cbn [bind]. rewrite R. cbn [bind]. rewrite O2. reflexivity.
    + apply bind_ok in X. destruct X as [o1 [O1 X]]. apply bind_ok in X. destruct X as [o2 [O2 X]]. injection X; intros <-.
      rewrite O1. cbn [bind]. rewrite R. cbn [bind]. rewrite O2. reflexivity.
    + cbn [bind] in X. injection X; intros <-. cbn [bind]. rewrite R. reflexivity.
    + injection X; intros <-. cbn [bind]. rewrite R. reflexivity.
Qed.

Lemma calls_of_cons output tracking j (e : event T * event T) evs :
  calls_of output tracking j (e :: evs) = calls_of output tracking j [e] ++ calls_of output tracking (S j) evs.
Proof. destruct e as [l fin]. cbn [calls_of]. rewrite app_nil_r, app_assoc. reflexivity. Qed.

Lemma source_events_iff output tracking : forall n j src (s s' : prog E),
  source_events E garbage fuel w tEnd output tracking n (Z.of_nat j) src s = Ok s' <->
  exists evs, events_of E fuel w tEnd n src (pg_rng E s) (pg_hists E s) evs (pg_rng E s') (pg_hists E s') /\
    run (pg_om E s) (calls_of output tracking j evs) = Ok (pg_om E s').
Proof.
  induction n as [|n IH]; intros j src s s'; cbn [source_events].
  - split.
    + intros X. injection X; intros <-. exists []. split; [constructor|reflexivity].
    + intros (evs & X & Y). destruct s, s'. cbn in *. inversion X; subst. cbn in Y. congruence.
  - replace (Z.of_nat j + 1)%Z with (Z.of_nat (S j)) by lia. split.
    + intros X. apply bind_ok in X. destruct X as [[src1 s1] [O X]]. cbn [fst snd] in X.
      apply one_event_iff in O. destruct O as (l & g1 & st & G & R & HH & HR & Y). apply IH in X. destruct X as (evs & X & Z).
      exists ((l, st_ev E st) :: evs). split; [econstructor; eauto; rewrite <- HH, <- HR; exact X|].
      rewrite calls_of_cons, exec_all_app. unfold event in *. rewrite Y. exact Z.
    + intros (evs & X & Y). inversion X as [|? ? ? ? l src1 g1 st evs' ? ? G R Z]; subst. rewrite calls_of_cons, exec_all_app in Y.
      apply bind_ok in Y. destruct Y as [o1 [O1 Y]].
      assert (O : one_event E garbage fuel w tEnd output tracking (Z.of_nat j) src s = Ok (src1, mkProg E o1 (st_hist E st) (st_rng E st))).
      { apply one_event_iff. exists l, g1, st. auto. }
      rewrite O. cbn [bind fst snd]. apply IH. exists evs'. auto.
Qed.

Lemma source_loop_iff tracking : forall ss (s s' : prog E),
  source_loop E code garbage fuel w tEnd tracking ss s = Ok s' <->
  exists evss, sources_of E fuel w tEnd ss (pg_rng E s) (pg_hists E s) evss (pg_rng E s') (pg_hists E s') /\
    run (pg_om E s) (main_calls tracking (runs_of tracking ss evss) []) = Ok (pg_om E s').
Proof.
  induction ss as [|[o src] ss IH]; intros s s'; cbn [source_loop].
  - split.
    + intros X. injection X; intros <-. exists []. split; [constructor|reflexivity].
    + intros (evs & X & Y). destruct s, s'. cbn in *. inversion X; subst. cbn in Y. congruence.
  - assert (INIT : forall s : om T, run s (if o then [OInit (s_nPart src)] else []) = Ok (if o then init_source s (s_nPart src) else s)) by (intros; destruct o; reflexivity).
    split.
    + intros X. apply bind_ok in X. destruct X as [s1 [X1 X]]. apply bind_ok in X. destruct X as [o1 [O1 X]].
      apply (source_events_iff o tracking _ 0) in X1. destruct X1 as (evs & X1 & Y1). cbn [pg_om pg_hists pg_rng] in X1, Y1.
      apply IH in X. destruct X as (evss & X & Y). cbn [pg_om pg_hists pg_rng] in X, Y. exists (evs :: evss). split; [econstructor; eauto|].
      unfold main_calls in *. cbn [runs_of flat_map sr_output sr_number sr_calls map]. cbn [map] in Y. rewrite !app_nil_r in *.
      rewrite !exec_all_app, INIT. cbn [bind]. rewrite exec_all_app, Y1. cbn [bind exec_all exec]. rewrite O1. exact Y.
    + intros (evss & X & Y). inversion X as [|? ? ? ? ? evs g1 hs1 evss' ? ? X1 X2]; subst.
      unfold main_calls in Y. cbn [runs_of flat_map sr_output sr_number sr_calls map] in Y. rewrite app_nil_r, !exec_all_app, INIT in Y. cbn [bind] in Y.
      rewrite exec_all_app in Y. apply bind_ok in Y. destruct Y as [o1 [Y1 Y]]. apply bind_ok in Y1. destruct Y1 as [o2 [Y1 Y2]]. cbn [exec_all exec] in Y2.
      apply bind_ok in Y2. destruct Y2 as [o3 [Y2 Y3]]. injection Y3; intros <-.
      assert (S1 : source_events E garbage fuel w tEnd o tracking (Z.to_nat (s_nPart src)) 0 src
        (mkProg E (if o then init_source (pg_om E s) (s_nPart src) else pg_om E s) (pg_hists E s) (pg_rng E s)) = Ok (mkProg E o2 hs1 g1)).
      { apply (source_events_iff o tracking _ 0). exists evs. auto. }
      rewrite S1. cbn [bind pg_om]. rewrite Y2. cbn [bind pg_hists pg_rng]. apply IH. exists evss'. split; [exact X2|].
      unfold main_calls. cbn [map pg_om]. rewrite app_nil_r. exact Y.
Qed.

Lemma write_histograms_eq hs : forall o : om T, write_histograms code o hs = run o (map OHist hs).
Proof. induction hs as [|h hs IH]; intros o; [reflexivity|]. cbn. destruct (out_hist code o h); cbn; auto. Qed.

Lemma main_calls_hists tracking (rs : list (source_run T)) hs : main_calls tracking rs hs = main_calls tracking rs [] ++ map OHist hs.
Proof. unfold main_calls. cbn [map]. rewrite app_nil_r. reflexivity. Qed.
End Refine.

(** ** Facts about the events of a run *)
Section Events.
Context {T : Type} `{Num T}.
Variable E : Engine T.

Lemma generate_single (s : source T) g l s1 g1 : generate_list E s g = Ok (l, s1, g1) ->
  exists p, pl_items l = [p] /\ pl_get l 0 = Ok p /\ pl_max l = default_max /\ wf l /\ s_nPart s1 = s_nPart s.
Proof.
  unfold generate_list. destruct (_ =? _)%Z; [discriminate|]. intros X.
  do 6 (apply bind_ok in X; destruct X as [? [_ X]]).
  apply bind_ok in X. destruct X as [[p g'] [Q X]]. inversion X; subst. clear X. exists p.
  split; [reflexivity|]. split; [reflexivity|]. split; [reflexivity|]. split; [|reflexivity]. unfold wf. cbn. unfold default_max. lia.
Qed.

Lemma run_wf (w : world T) {S} htimes fill fuel tEnd l g (h : S) s' :
  run_event E w htimes fill fuel tEnd l g h = Ok s' -> wf l -> wf (st_ev _ s').
Proof.
  intros X W. apply (lift_run E w (fun a b => wf (fst a) -> wf (fst b))) in X; [exact X| | | | |exact W].
  - intros a Ha. exact Ha.
  - intros a b c HAB HBC Ha. auto.
  - intros k l0 g0 p HP. cbn [fst]. destruct (push_change w k l0 p HP) as (_ & _ & _ & _ & _ & A). exact A.
  - intros k pr l0 g0 l' g' _ HP. cbn [fst]. destruct (call_process_n E k pr l0 g0 l' g' HP) as [A _]. exact A.
Qed.

(** a complete event: one particle at first, at least one and at most the capacity in the end *)
Definition sound (e : event T * event T) : Prop :=
  (exists p, pl_items (fst e) = [p] /\ pl_get (fst e) 0 = Ok p) /\ pl_items (snd e) <> [] /\ (pl_n (snd e) <= default_max)%Z.

Lemma events_sound fuel w tEnd : forall n src g hs evs g' hs', events_of E fuel w tEnd n src g hs evs g' hs' ->
  length evs = n /\ Forall sound evs.
Proof.
  intros n src g hs evs g' hs' HX. induction HX as [|n src g hs l src1 g1 st evs g2 hs2 G R X [IH1 IH2]]; [split; [reflexivity|constructor]|].
  split; [cbn; auto|]. constructor; [|auto]. destruct (generate_single _ _ _ _ _ G) as (p & P1 & P2 & P3 & P4 & _). split; [exists p; auto|].
  pose proof (run_wf _ _ _ _ _ _ _ _ _ R P4) as W. apply (run_extends E w) in R. destruct R as (M & _ & olds & news & lost & I & F & _).
  cbn [snd]. split.
  - rewrite I. rewrite P1 in F. inversion F; subst. discriminate.
  - unfold wf in W. rewrite M, P3 in W. exact W.
Qed.

(** what filling keeps, even of an unusable histogram *)
Definition kept (h h' : hist T) : Prop := same_axes h h' /\ length (hi_values h') = length (hi_values h).
Lemma kept_refl h : kept h h.
Proof. split; [apply same_axes_refl|auto]. Qed.
Lemma kept_trans a b c : kept a b -> kept b c -> kept a c.
Proof. intros [A1 A2] [B1 B2]. split; [eapply same_axes_trans; eauto|congruence]. Qed.
Lemma add_value_kept h v h' : add_value h v = Ok h' -> kept h h'.
Proof.
  unfold add_value. cbv zeta. intros X. apply bind_ok in X. destruct X as [c [_ X]]. apply bind_ok in X. destruct X as [b [_ X]]. destruct b.
  - apply bind_ok in X. destruct X as [i [_ X]]. apply bind_ok in X. destruct X as [x [_ X]]. injection X; intros <-. split; [repeat split|]. cbn. apply length_upd.
  - injection X; intros <-. split; [repeat split|reflexivity].
Qed.
Lemma app_particle_kept h p h' : app_particle h p = Ok h' -> kept h h'.
Proof. unfold app_particle. repeat (destruct (_ : bool); [try discriminate; try apply add_value_kept|]); discriminate. Qed.
Lemma app_named_kept ps : forall h h', app_named h ps = Ok h' -> kept h h'.
Proof.
  induction ps as [|p ps IH]; intros h h' X; cbn [app_named] in X; [injection X; intros <-; apply kept_refl|].
  apply bind_ok in X. destruct X as [h1 [X1 X]]. eapply kept_trans; [|eauto]. destruct (String.eqb _ _); [eapply app_particle_kept; eauto|].
  injection X1; intros <-. apply kept_refl.
Qed.
Lemma Forall2_refl_kept hs : Forall2 kept hs hs.
Proof. induction hs; constructor; auto. apply kept_refl. Qed.
Lemma Forall2_trans_kept a : forall b c, Forall2 kept a b -> Forall2 kept b c -> Forall2 kept a c.
Proof. induction a; intros b c X Y; inversion X; subst; inversion Y; subst; constructor; eauto. eapply kept_trans; eauto. Qed.
Lemma hist_fill_kept i t ps hs hs' : hist_fill i t ps hs = Ok hs' -> Forall2 kept hs hs'.
Proof.
  unfold hist_fill. destruct (nth_error hs i) as [h|] eqn:EN; [|discriminate]. intros X. apply bind_ok in X. destruct X as [h1 [X1 X]]. injection X; intros <-.
  apply app_named_kept in X1. clear X. revert i EN. induction hs as [|a hs IH]; intros [|i] EN; cbn in EN; try discriminate; cbn [upd].
  - injection EN; intros <-. constructor; [auto|apply Forall2_refl_kept].
  - constructor; [apply kept_refl|]. apply IH. exact EN.
Qed.
Lemma fills_kept snaps : forall i hs hs', fills hist_fill i snaps hs = Ok hs' -> Forall2 kept hs hs'.
Proof.
  induction snaps as [|[t ps] snaps IH]; intros i hs hs' X; cbn [fills] in X; [injection X; intros <-; apply Forall2_refl_kept|].
  apply bind_ok in X. destruct X as [hs1 [X1 X]]. eapply Forall2_trans_kept; [eapply hist_fill_kept; eauto|eauto].
Qed.
Lemma events_kept fuel w tEnd : forall n src g hs evs g' hs', events_of E fuel w tEnd n src g hs evs g' hs' -> Forall2 kept hs hs'.
Proof.
  intros n src g hs evs g' hs' HX. induction HX as [|n src g hs l src1 g1 st evs g2 hs2 G R X IH]; [apply Forall2_refl_kept|].
  eapply Forall2_trans_kept; [|exact IH]. apply (run_decompose E w) in R. destruct R as (N & ns & sn & _ & _ & _ & _ & _ & _ & F & _). eapply fills_kept; eauto.
Qed.
Lemma sources_kept fuel w tEnd : forall ss g hs evss g' hs', sources_of E fuel w tEnd ss g hs evss g' hs' -> Forall2 kept hs hs'.
Proof.
  intros ss g hs evss g' hs' HX. induction HX as [|o src ss g hs evs g1 hs1 evss g2 hs2 X1 X2 IH]; [apply Forall2_refl_kept|].
  eapply Forall2_trans_kept; [eapply events_kept; eauto|exact IH].
Qed.
Lemma kept_names hs hs' : Forall2 kept hs hs' -> map hi_name hs' = map hi_name hs.
Proof. induction 1 as [|a b la lb [(A & _) _] _ IH]; cbn; [auto|]. congruence. Qed.

Lemma make_histograms_names counters : forall hs i, map hi_name (make_histograms (T := T) counters i hs) = map (@FileParser.h_name T) hs.
Proof. induction hs as [|h hs IH]; intros i; cbn; [auto|]. f_equal. apply IH. Qed.
Lemma make_histograms_nth counters : forall hs i k h, nth_error (make_histograms (T := T) counters i hs) k = Some h <->
  exists q, nth_error hs k = Some q /\ h = make_histogram counters (i + k) q.
Proof.
  induction hs as [|q hs IH]; intros i [|k] h; cbn.
  - split; [discriminate|intros (? & ? & _); discriminate].
  - split; [discriminate|intros (? & ? & _); discriminate].
  - rewrite Nat.add_0_r. split; [intros X; injection X; eauto|intros (q' & X & ->); congruence].
  - rewrite IH, Nat.add_succ_r. reflexivity.
Qed.

(** the sources are those of the file *)
Definition source_for (tracking : bool) (q : FileParser.particle T) (os : bool * source T) : Prop :=
  fst os = FileParser.p_output q /\ s_nPart (snd os) = FileParser.p_number q /\ s_type (snd os) = FileParser.p_type q /\
  s_track (snd os) = tracking /\ s_count (snd os) = 0%Z.
Lemma make_source_for tracking q g : let r := make_source E tracking q g in source_for tracking q (FileParser.p_output q, fst r).
Proof.
  cbv zeta. unfold make_source, new_source. repeat match goal with |- context [let '(_, _) := ?x in _] => destruct x end. repeat split.
Qed.
Lemma make_sources_for tracking : forall qs g ss g', make_sources E tracking qs g = (ss, g') -> Forall2 (source_for tracking) qs ss.
Proof.
  induction qs as [|q qs IH]; intros g ss g' X; cbn [make_sources] in X; [inversion X; subst; constructor|].
  pose proof (make_source_for tracking q g) as F. cbv zeta in F. destruct (make_source E tracking q g) as [s g1]. destruct (make_sources E tracking qs g1) as [ss1 g2] eqn:MS.
  injection X; intros _ <-. constructor; [exact F|]. eapply IH; eauto.
Qed.

Lemma runs_outputs fuel w tEnd tracking ss g hs evss g' hs' : sources_of E fuel w tEnd ss g hs evss g' hs' ->
  Forall2 (fun os r => exists evs, r = mkSR (fst os) (s_nPart (snd os)) (calls_of (fst os) tracking 0 evs) /\
    length evs = Z.to_nat (s_nPart (snd os)) /\ Forall sound evs) ss (runs_of tracking ss evss).
Proof.
  intros HX. induction HX as [|o src ss g hs evs g1 hs1 evss g2 hs2 X1 X2 IH]; cbn [runs_of]; constructor; [|exact IH].
  exists evs. split; [reflexivity|]. eapply events_sound; eauto.
Qed.

(** the calls of the events of an output source *)
Lemma calls_of_event tracking (evs : list (event T * event T)) : forall j0 o, In o (calls_of true tracking j0 evs) -> exists j e,
  nth_error evs j = Some e /\ (o = OPrimary (fst e) (Z.of_nat (j0 + j)) \/ o = OFinal (snd e) (Z.of_nat (j0 + j)) \/ o = OTrack (snd e) (Z.of_nat (j0 + j))).
Proof.
  induction evs as [|[l fin] evs IH]; intros j0 o HO; cbn [calls_of] in HO; [contradiction|].
  assert (HD : (o = OPrimary l (Z.of_nat j0) \/ o = OFinal fin (Z.of_nat j0) \/ o = OTrack fin (Z.of_nat j0)) \/ In o (calls_of true tracking (S j0) evs)).
  { destruct tracking; cbn in HO; intuition. }
  destruct HD as [HD|HD].
  - exists 0%nat, (l, fin). rewrite Nat.add_0_r. split; [reflexivity|exact HD].
  - destruct (IH _ _ HD) as (j & e & EJ & HE). exists (S j), e. rewrite Nat.add_succ_r. split; [exact EJ|exact HE].
Qed.
Lemma calls_of_all tracking (evs : list (event T * event T)) : forall j0 j e, nth_error evs j = Some e ->
  In (OPrimary (fst e) (Z.of_nat (j0 + j))) (calls_of true tracking j0 evs) /\ In (OFinal (snd e) (Z.of_nat (j0 + j))) (calls_of true tracking j0 evs).
Proof.
  induction evs as [|[l fin] evs IH]; intros j0 [|j] e EJ; cbn [nth_error] in EJ; try discriminate; cbn [calls_of app].
  - injection EJ; intros <-. rewrite Nat.add_0_r. cbn [fst snd In]. auto.
  - destruct (IH (S j0) j e EJ) as [A B]. rewrite Nat.add_succ_r. split; right; right; apply in_or_app; right; [exact A|exact B].
Qed.
Definition first_of (evs : list (event T * event T)) (j : nat) : event T := fst (nth j evs (pl_new "" 0, pl_new "" 0)).
Definition last_of (evs : list (event T * event T)) (j : nat) : event T := snd (nth j evs (pl_new "" 0, pl_new "" 0)).
Lemma calls_of_event_calls tracking evs : event_calls (length evs) (first_of evs) (last_of evs) (calls_of true tracking 0 evs).
Proof.
  split.
  - intros j Hj. destruct (nth_error evs j) as [e|] eqn:EJ; [|apply nth_error_None in EJ; lia].
    unfold first_of, last_of. rewrite (nth_error_nth _ _ _ EJ). apply (calls_of_all tracking evs 0 j e EJ).
  - intros o HO. destruct (calls_of_event tracking evs 0 o HO) as (j & e & EJ & HE). exists j. split; [apply nth_error_Some; congruence|].
    unfold first_of, last_of. rewrite (nth_error_nth _ _ _ EJ). exact HE.
Qed.
Lemma tracks_calls_of output (evs : list (event T * event T)) : forall j0, tracks_of (calls_of output true j0 evs) =
  flat_map (fun je => map (track_of (Z.of_nat (fst je))) (pl_items (snd (snd je)))) (combine (seq j0 (length evs)) evs).
Proof.
  induction evs as [|[l fin] evs IH]; intros j0; [reflexivity|]. cbn [calls_of length seq combine flat_map fst snd]. rewrite <- IH.
  destruct output; reflexivity.
Qed.
End Events.
