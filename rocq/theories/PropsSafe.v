(** * The main program has no undefined behaviour: C135 *)
From Coq Require Import String Ascii ZArith List Lia Bool.
From Verif Require Import Num Outcome OutcomeFacts Vec Units MCTools Particle ParticleList ParticleFacts Source SourceFacts Fields Pusher Process ProcessFacts ProcessSafe
  Sim SimFacts SimTime Histogram HistFacts Hdf5 Output OutFacts OutFile OutBuffers PropsOut Program ProgramFacts PropsTables PropsProgram PropsClose ProgramSafe Tables PropsShipped PropsUse.
From Verif Require FileParser IniReader Text PropsFile PropsCheck.
Import ListNotations.
Local Open Scope string_scope.
Local Open Scope list_scope.

(** ** Specification *)
Definition never_ub {A} (r : res A) : Prop := forall w, r <> UB w.

Section Spec.
Context {T : Type} `{NT : Num T}.
Variable E : Engine T.
Variable load_em : res (em_tables T).
Variable load_bw : res (bw_tables T).
Variable fuel : nat.

(** the final particles with a name, over all events of a source *)
Definition final_count (name : string) (evs : list (event T * event T)) : Z :=
  Z.of_nat (length (filter (fun p => String.eqb (p_name p) name) (flat_map (fun e => pl_items (snd e)) evs))).

(** a source with fewer than 2^29 final particles of each species *)
Definition few_particles (pa : FileParser.parameters T) (q : FileParser.particle T) : Prop :=
  forall w g0 g hs evs g' hs', set_up_world load_em load_bw pa = Ok w ->
    events_of E fuel w (FileParser.g_timeEnd (FileParser.in_general pa)) (Z.to_nat (FileParser.p_number q))
      (fst (make_source E (FileParser.g_tracking (FileParser.in_general pa)) q g0)) g hs evs g' hs' ->
    forall name, In name ["Electron"; "Positron"; "Photon"] -> (final_count name evs < 2 ^ 29)%Z.

(** what the input file has to respect *)
Definition good_input (pa : FileParser.parameters T) : Prop :=
  (forall h, In h (FileParser.in_histograms pa) -> path (FileParser.h_name h) <> [] /\ (FileParser.h_bins h < 2 ^ 31)%Z) /\
  (forall q, In q (FileParser.in_particles pa) -> FileParser.p_output q = true -> few_particles pa q).

Definition loads_well : Prop :=
  never_ub load_em /\ (forall t, load_em = Ok t -> em_tables_ok t) /\ never_ub load_bw /\ (forall t, load_bw = Ok t -> bw_tables_ok t).
End Spec.

Lemma check_sat argv : argv <> [] -> sat (check_arguments argv) (fun a => exists p, argv = [p; a]).
Proof.
  destruct argv as [|p [|a [|b r]]]; intros NE; cbn [check_arguments]; [contradiction|exact I| |exact I].
  destruct (String.eqb a "-h"); [exact I|]. cbv zeta. destruct (_ <? _)%Z; [exact I|]. destruct (String.eqb _ ".ini"); [|exact I]. cbn [sat]. eauto.
Qed.
Lemma u32_range z : (0 <= u32 z < 2 ^ 32)%Z.
Proof. apply Z.mod_pos_bound. reflexivity. Qed.
Lemma counts32 {T} `{Num T} special p ps : FileParser.file_parser special p = Ok ps ->
  Forall (fun q => (0 <= FileParser.p_number q < 2 ^ 32)%Z) (FileParser.in_particles ps) /\ Forall (fun h => (0 <= FileParser.h_bins h)%Z) (FileParser.in_histograms ps).
Proof.
  unfold FileParser.file_parser. destruct (IniReader.new_reader p) as [x|c| |w|]; try discriminate. cbn [bind]. unfold FileParser.read_all. destruct (FileParser.check_vitals (fst x)); try discriminate. cbn [bind].
  destruct (FileParser.read_general special (fst x)) as [ug|c| |w|]; try discriminate. cbn [bind]. destruct (FileParser.read_field special (fst x) (fst ug)); try discriminate. cbn [bind].
  destruct (FileParser.read_numbered (fst x) (FileParser.read_particle special (fst x) (fst ug)) "Particle" _ 1) eqn:E1; try discriminate. cbn [bind].
  destruct (FileParser.read_numbered (fst x) (FileParser.read_histogram special (fst x) (fst ug)) "Histogram" _ 1) eqn:E2; try discriminate. intros E. injection E as <-. cbn [FileParser.in_particles FileParser.in_histograms]. split.
  - eapply PropsCheck.numbered_each; [|exact E1]. intros s q. unfold FileParser.read_particle. destruct (FileParser.vect (fst x) s "position"); try discriminate. cbn [bind]. destruct (FileParser.vect (fst x) s "direction"); try discriminate.
    cbn [bind]. intros E. injection E as <-. cbn [FileParser.p_number]. apply u32_range.
  - eapply PropsCheck.numbered_each; [|exact E2]. intros s q. unfold FileParser.read_histogram. intros E. injection E as <-. cbn [FileParser.h_bins]. apply u32_range.
Qed.

Section Setup.
Context {T : Type} `{NT : Num T}.
Variable E : Engine T.
Variable load_em : res (em_tables T).
Variable load_bw : res (bw_tables T).
Hypothesis LW : loads_well load_em load_bw.

Lemma world_sat pa : sat (set_up_world load_em load_bw pa) (fun w => forall pr, In pr (w_procs w) -> process_ok pr).
Proof.
  destruct LW as (N1 & O1 & N2 & O2). unfold set_up_world. cbv zeta.
  apply sat_bind with (Q := fun _ => True); [destruct (FileParser.in_field pa); exact I|]. intros fld _ _.
  apply sat_bind with (Q := fun p : force T * process T => process_ok (snd p)).
  - unfold choose_physics. cbv zeta.
    repeat match goal with |- sat (if ?b then _ else _) _ => destruct b;
      [apply sat_bind with (1 := never_sat _ N1); intros t X _; cbn [sat snd process_ok em_tab]; apply O1; exact X|] end. exact I.
  - intros p _ PP. apply sat_bind with (Q := Forall process_ok).
    + unfold choose_pairs. destruct (FileParser.y_pair _); [|constructor]. apply sat_bind with (1 := never_sat _ N2). intros t X _.
      cbn [sat]. constructor; [exact (O2 t X)|constructor].
    + intros bw _ PB. cbn [sat w_procs]. intros pr [<-|PI]; [exact PP|]. rewrite Forall_forall in PB. auto.
Qed.
Lemma histograms_ok counters hs : (forall h, In h hs -> (0 <= FileParser.h_bins h < 2 ^ 31)%Z) -> forall i,
  hoks (length hs) (make_histograms (T := T) counters i hs).
Proof.
  intros HB. induction hs as [|h hs IH]; intros i; cbn [make_histograms length]; [split; [constructor|reflexivity]|].
  destruct (IH (fun q Q => HB q (or_intror Q)) (S i)) as [F L]. split; [|cbn [length]; congruence]. constructor; [|exact F].
  specialize (HB h (or_introl eq_refl)). unfold hok, make_histogram, hist_new, initialise. cbn [hi_n hi_centres hi_values]. rewrite map_length, seq_length, repeat_length. lia.
Qed.
Lemma sources_ok tracking (P : FileParser.particle T -> bool * source T -> Prop) : delivers E -> forall qs g ss g',
  (forall q, In q qs -> (0 <= FileParser.p_number q < 2 ^ 32)%Z) ->
  (forall q g0, In q qs -> P q (FileParser.p_output q, fst (make_source E tracking q g0))) ->
  make_sources E tracking qs g = (ss, g') -> Forall (fun os => srcok (snd os) /\ exists q, In q qs /\ P q os) ss.
Proof.
  intros D. induction qs as [|q qs IH]; intros g ss g' HN HP X; cbn [make_sources] in X; [inversion X; subst; constructor|].
  pose proof (HP q g (or_introl eq_refl)) as PQ.
  pose proof (new_source_wf E (FileParser.p_type q) (FileParser.p_distro q) (FileParser.p_number q) (FileParser.p_energy1 q) (FileParser.p_energy2 q)
    (FileParser.p_radius q) (FileParser.p_duration q) (FileParser.p_divergence q) (FileParser.p_position q) (FileParser.p_direction q) tracking g D (HN q (or_introl eq_refl))) as W.
  fold (make_source E tracking q g) in W. destruct (make_source E tracking q g) as [s g1]. destruct (make_sources E tracking qs g1) as [ss1 g2] eqn:MS.
  injection X; intros _ <-. cbn [fst] in W, PQ. cbv zeta in W. constructor.
  - cbn [snd]. destruct W as (W1 & W2 & W3 & _). split; [split; [exact W1|]|exists q; split; [left; reflexivity|exact PQ]]. rewrite W2. destruct W1 as (A & _). lia.
  - eapply Forall_impl; [|apply (IH g1 ss1 g2); auto; [intros; apply HN; right; auto|intros; apply HP; right; auto]].
    cbn beta. intros os (A & q' & B & C). split; [exact A|]. exists q'. split; [right; exact B|exact C].
Qed.
End Setup.

(** ** C135 *)
Section Main.
Context {T : Type} `{NT : Num T}.
Variable E : Engine T.
Variable load_em : res (em_tables T).
Variable load_bw : res (bw_tables T).
Variable counters : nat -> Z.
Variable code : objinfo.
Variable garbage : T.
Variable fuel : nat.
Hypothesis DL : delivers E.
Hypothesis LW : loads_well load_em load_bw.
Hypothesis CC : objinfo_inverted code \/ objinfo_documented code.

Lemma simulation_sat pa g :
  (forall q, In q (FileParser.in_particles pa) -> (0 <= FileParser.p_number q < 2 ^ 32)%Z) ->
  (forall h, In h (FileParser.in_histograms pa) -> (0 <= FileParser.h_bins h)%Z) -> good_input E load_em load_bw fuel pa ->
  sat (simulation E load_em load_bw counters code garbage fuel pa g) (fun f => f_group f <> GFreed).
Proof.
  intros HN HB [GH GQ]. unfold simulation. cbv zeta. apply sat_bind with (1 := world_sat load_em load_bw LW pa). intros w W PO.
  set (tracking := FileParser.g_tracking (FileParser.in_general pa)) in *. set (tEnd := FileParser.g_timeEnd (FileParser.in_general pa)) in *.
  destruct (make_sources E tracking (FileParser.in_particles pa) g) as [ss g1] eqn:MS.
  set (hs := make_histograms counters 0 (FileParser.in_histograms pa)).
  assert (HK : hoks (length (FileParser.in_histograms pa)) hs) by (apply histograms_ok; intros h HI; split; [apply HB; exact HI|apply GH; exact HI]).
  assert (SS : Forall (fun os => srcok (snd os) /\ few E fuel w tEnd os) ss).
  { eapply Forall_impl; [|eapply (sources_ok E tracking (fun q os => few E fuel w tEnd os) DL); [exact HN| |exact MS]]; [cbn beta; intros os (A & q & _ & B); auto|].
    intros q g0 HI HO g2 hs2 evs g3 hs3 EV name NM. cbn [fst snd] in HO, EV.
    destruct (make_source_for E tracking q g0) as (_ & NP & _). cbn [snd] in NP. rewrite NP in EV. apply (GQ q HI HO w g0 g2 hs2 evs g3 hs3 W EV name NM). }
  apply sat_bind with (1 := om_new_sat code CC). intros o0 _ J0.
  apply sat_bind with (1 := source_loop_sat E code garbage fuel w PO tEnd tracking (length (FileParser.in_histograms pa)) ss (mkProg E o0 hs g1) SS J0 HK).
  intros s X [J1 [HK1 _]]. apply (source_loop_iff E code garbage (w_field w)) in X. destruct X as (evss & SO & _). cbn [pg_rng pg_hists] in SO.
  pose proof (kept_names _ _ (sources_kept E fuel w _ _ _ _ _ _ _ SO)) as KN. unfold hs in KN. rewrite make_histograms_names in KN.
  assert (NE : Forall (fun h => path (hi_name h) <> []) (pg_hists E s)).
  { apply Forall_forall. intros h HI. apply (in_map hi_name) in HI. rewrite KN in HI. apply in_map_iff in HI. destruct HI as (q & <- & HQ). apply GH. exact HQ. }
  apply sat_bind with (1 := write_sat code garbage (w_field w) (pg_hists E s) HK1 NE (pg_om E s) J1). intros o1 _ J2. cbn [sat]. eapply J_live. exact J2.
Qed.
End Main.

(** A run of the main program, including the destruction of the output file object at its end, has no undefined behaviour, whatever the
    input file, the arguments, the random numbers, the arithmetic and the contents of uninitialised memory, if
    - the tables that are loaded have consistent sizes,
    - no histogram has a name that is empty or consists of slashes, or 2^31 bins or more,
    - no source with output ends with 2^29 or more particles of one species. *)
Theorem C135_no_undefined_behaviour : forall (T : Type) (NT : Num T) (E : Engine T) load_em load_bw counters code garbage fuel disk special argv g,
  delivers E -> loads_well load_em load_bw -> objinfo_inverted code \/ objinfo_documented code -> argv <> [] ->
  (forall p a pa, argv = [p; a] -> FileParser.file_parser special (disk a) = Ok pa -> good_input E load_em load_bw fuel pa) ->
  never_ub (let* f := program E load_em load_bw counters code garbage fuel disk special argv g in file_delete f).
Proof.
  intros T NT E load_em load_bw counters code garbage fuel disk special argv g DL LW CC NE GI.
  assert (S : sat (program E load_em load_bw counters code garbage fuel disk special argv g) (fun f => f_group f <> GFreed)).
  { unfold program. apply sat_bind with (1 := check_sat argv NE). intros a _ (p & HA).
    assert (FP : sat (FileParser.file_parser special (disk a)) (fun _ => True)).
    { destruct (PropsFile.C70_reader_total special (disk a)) as [[pa X]|X]; rewrite X; exact I. }
    apply sat_bind with (1 := FP). intros pa X _. destruct (counts32 special _ _ X) as [CN CH]. rewrite Forall_forall in CN, CH.
    apply simulation_sat; auto. eapply GI; eauto. }
  intros w. apply (sat_never _ (fun _ => True)). apply sat_bind with (1 := S). intros f _ G. unfold file_delete. destruct (f_group f); [exact I|exact I|congruence].
Qed.
Print Assumptions C135_no_undefined_behaviour.

(** An event ends with at most a million particles, so that up to 536 particles per output source can never be too many. *)
Lemma few_enough {T} `{Num T} (E : Engine T) load_em load_bw fuel pa q : (FileParser.p_number q <= 536)%Z -> few_particles E load_em load_bw fuel pa q.
Proof.
  intros HN w g0 g hs evs g' hs' _ EV name _. destruct (events_sound _ _ _ _ _ _ _ _ _ _ _ EV) as [LE SND].
  assert (B : (final_count name evs <= 1000000 * Z.of_nat (length evs))%Z).
  { unfold final_count. clear LE EV. induction SND as [|e evs [_ [_ HM]] SND IH]; cbn [flat_map length]; [cbn; lia|]. rewrite filter_app, app_length.
    unfold pl_n, default_max in HM. pose proof (filter_length_le (fun p => String.eqb (p_name p) name) (pl_items (snd e))). unfold event in *. rewrite Nat2Z.inj_add, Nat2Z.inj_succ. lia. }
  lia.
Qed.
Theorem C135_small_runs : forall (T : Type) (NT : Num T) (E : Engine T) load_em load_bw counters code garbage fuel disk special argv g,
  delivers E -> loads_well load_em load_bw -> objinfo_inverted code \/ objinfo_documented code -> argv <> [] ->
  (forall p a pa, argv = [p; a] -> FileParser.file_parser special (disk a) = Ok pa ->
     (forall h, In h (FileParser.in_histograms pa) -> path (FileParser.h_name h) <> [] /\ (FileParser.h_bins h < 2 ^ 31)%Z) /\
     (forall q, In q (FileParser.in_particles pa) -> FileParser.p_output q = true -> (FileParser.p_number q <= 536)%Z)) ->
  never_ub (let* f := program E load_em load_bw counters code garbage fuel disk special argv g in file_delete f).
Proof.
  intros T NT E load_em load_bw counters code garbage fuel disk special argv g DL LW CC NE GI. apply C135_no_undefined_behaviour; auto.
  intros p a pa HA X. destruct (GI p a pa HA X) as [A B]. split; [exact A|]. intros q HQ HO. apply few_enough. apply B; auto.
Qed.
Print Assumptions C135_small_runs.

(** In particular with the shipped tables. *)
Lemma shipped_well {T} `{Num T} junk1 jl1 junk2 jl2 dir disk : tables_at dir disk ->
  loads_well (load_em (T := T) junk1 jl1 (Some dir) disk) (load_bw (T := T) junk2 jl2 (Some dir) disk).
Proof.
  intros HA. destruct (C123_emission_tables (T := T) dir disk HA) as (t1 & L1 & _). destruct (C123_pair_tables (T := T) dir disk HA) as (t2 & L2 & _).
  unfold loads_well, never_ub. rewrite (L1 junk1 jl1), (L2 junk2 jl2). split; [discriminate|]. split.
  - intros t E. apply (shipped_em_ok dir). exists disk, junk1, jl1. split; [exact HA|]. rewrite (L1 junk1 jl1). exact E.
  - split; [discriminate|]. intros t E. apply (shipped_bw_ok dir). exists disk, junk2, jl2. split; [exact HA|]. rewrite (L2 junk2 jl2). exact E.
Qed.
Theorem C135_shipped_tables : forall (T : Type) (NT : Num T) (E : Engine T) junk1 jl1 junk2 jl2 dir files counters code garbage fuel disk special argv g,
  delivers E -> tables_at dir files -> objinfo_inverted code \/ objinfo_documented code -> argv <> [] ->
  (forall p a pa, argv = [p; a] -> FileParser.file_parser special (disk a) = Ok pa ->
     (forall h, In h (FileParser.in_histograms pa) -> path (FileParser.h_name h) <> [] /\ (FileParser.h_bins h < 2 ^ 31)%Z) /\
     (forall q, In q (FileParser.in_particles pa) -> FileParser.p_output q = true -> (FileParser.p_number q <= 536)%Z)) ->
  never_ub (let* f := program E (load_em junk1 jl1 (Some dir) files) (load_bw junk2 jl2 (Some dir) files) counters code garbage fuel disk special argv g in file_delete f).
Proof. intros. apply C135_small_runs; auto. apply shipped_well. assumption. Qed.
Print Assumptions C135_shipped_tables.

(** The condition on the names is needed: with a histogram whose name is empty or consists of slashes no run comes to its end, because the group
    handle is freed a second time, at the next histogram or when the output file is closed. *)
Section Nameless.
Context {T : Type} `{NT : Num T}.
Variable code : objinfo.
Hypothesis CI : objinfo_inverted code.
Definition held (o : om T) : Prop := exists_ (f_tree (om_file o)) ["Histograms"] = true /\ f_group (om_file o) <> GNull.
Lemma exists_grows (t t' : tree T) p : grows t t' -> exists_ t p = true -> exists_ t' p = true.
Proof. intros G. unfold exists_. destruct p; [auto|]. destruct (lookup t _) eqn:L; [|discriminate]. intros _. rewrite (G _ _ L). reflexivity. Qed.
Lemma array_keeps (o : om T) buf d name o' : o_array o buf d name = Ok o' -> f_group (om_file o') = f_group (om_file o).
Proof. unfold o_array, add_array. destruct (create _ _ _); try discriminate. cbn [bind]. destruct (_ <? _)%Z; [discriminate|]. cbn [bind]. intros E. injection E as <-. reflexivity. Qed.
Lemma group_keeps (o : om T) name o' : f_group (om_file o) <> GNull -> o_group code o name = Ok o' ->
  f_group (om_file o) = GLive /\ f_group (om_file o') = if exists_ (f_tree (om_file o)) (path name) then GFreed else GLive.
Proof.
  destruct CI as [CT CF]. unfold o_group, add_group. destruct (f_group (om_file o)); [contradiction| |discriminate]. intros _. cbn [bind]. destruct (exists_ _ _).
  - destruct (Z.eqb_spec (code true) 0); [contradiction|]. cbn [negb Bool.eqb bind]. intros E; injection E; intros <-. auto.
  - rewrite CF. cbn [Z.eqb negb Bool.eqb]. destruct (create _ _ _); try discriminate. cbn [bind]. intros E. injection E as <-. auto.
Qed.
Variable garbage : T.
Variable fld : field T.
Lemma hist_keeps (o : om T) h o' : held o -> out_hist code o h = Ok o' ->
  f_group (om_file o) = GLive /\ held o' /\ (path (hi_name h) = [] -> f_group (om_file o') = GFreed).
Proof.
  intros [HE HG] X. pose proof (proj1 (exec_grows code garbage fld o (OHist h) o' X)) as G.
  unfold out_hist in X. cbv zeta in X. apply bind_ok in X. destruct X as (o1 & X1 & X). apply bind_ok in X. destruct X as (o2 & X2 & X3).
  destruct (group_keeps _ _ _ HG X1) as [LV G1]. apply array_keeps in X2. apply array_keeps in X3. split; [exact LV|].
  replace (path ("Histograms/" ++ hi_name h)) with (["Histograms"] ++ path (hi_name h)) in G1 by (symmetry; apply (path_app "Histograms")).
  split.
  - split; [eapply exists_grows; eauto|]. rewrite X3, X2, G1.
    destruct (exists_ (f_tree (om_file o)) (["Histograms"] ++ path (hi_name h))); discriminate.
  - intros PN. rewrite X3, X2, G1, PN, app_nil_r, HE. reflexivity.
Qed.
Lemma write_keeps hs : forall o o' : om T, held o -> write_histograms code o hs = Ok o' ->
  (exists h, In h hs /\ path (hi_name h) = []) -> f_group (om_file o') = GFreed.
Proof.
  induction hs as [|h hs IH]; intros o o' HO X (k & HI & PN); [destruct HI|]. cbn [write_histograms] in X. apply bind_ok in X. destruct X as (o1 & X1 & X2).
  destruct (hist_keeps _ _ _ HO X1) as (_ & H1 & FR). destruct HI as [->|HI]; [|eapply IH; eauto].
  destruct hs as [|h2 hs]; cbn [write_histograms] in X2; [injection X2 as <-; auto|]. apply bind_ok in X2. destruct X2 as (o2 & X2 & _).
  apply (hist_keeps _ _ _ H1) in X2. destruct X2 as [LV _]. rewrite (FR PN) in LV. discriminate.
Qed.
End Nameless.
Lemma calls_tidy {T} `{Num T} tr ss evss : Forall tidy_call (main_calls (T := T) tr (runs_of tr ss evss) []).
Proof.
  unfold main_calls. rewrite app_nil_r. apply Forall_forall. intros c I. apply in_flat_map in I. destruct I as (r & R & I).
  assert (FR : Forall tidy_call (sr_calls r)).
  { clear -R. revert evss R. induction ss as [|[o src] ss IH]; intros [|evs evss] R; cbn [runs_of] in R; try contradiction.
    destruct R as [<-|R]; [|eauto]. cbn [sr_calls]. clear IH. generalize 0. induction evs as [|[l fi] evs IHe]; intros j; cbn [calls_of]; [constructor|].
    destruct o, tr; cbn [app]; repeat (constructor; [exact I|]); apply IHe. }
  rewrite !in_app_iff in I. destruct I as [I|[I|I]].
  - destruct (sr_output r); [destruct I as [<-|[]]; exact I|destruct I].
  - rewrite Forall_forall in FR. auto.
  - destruct I as [<-|[]]. exact Logic.I.
Qed.
Theorem C135_names_needed : forall (T : Type) (NT : Num T) (E : Engine T) load_em load_bw counters code garbage fuel disk special p a g pa h,
  objinfo_inverted code -> FileParser.file_parser special (disk a) = Ok pa -> In h (FileParser.in_histograms pa) -> path (FileParser.h_name h) = [] ->
  forall r, (let* f := program E load_em load_bw counters code garbage fuel disk special [p; a] g in file_delete f) <> Ok r.
Proof.
  intros T NT E load_em load_bw counters code garbage fuel disk special p a g pa h CI FP HI PN r X.
  apply bind_ok in X. destruct X as (f & X & FD). unfold program in X. apply bind_ok in X. destruct X as (a' & CA & X).
  assert (A : a' = a).
  { cbn [check_arguments] in CA. destruct (String.eqb a "-h"); [discriminate|]. destruct (_ <? _)%Z; [discriminate|]. destruct (String.eqb _ ".ini"); [congruence|discriminate]. }
  subst a'. rewrite FP in X. cbn [bind] in X. unfold simulation in X. cbv zeta in X. apply bind_ok in X. destruct X as (w & W & X).
  destruct (make_sources _ _ _ _) as [ss g1] eqn:MS. rewrite (om_new_inv (T := T) code None CI) in X. cbn [bind] in X.
  apply bind_ok in X. destruct X as (s & SL & X). apply bind_ok in X. destruct X as (o1 & WH & X). injection X as <-.
  apply (source_loop_iff E code garbage (w_field w)) in SL. destruct SL as (evss & SO & RUN). cbn [pg_om pg_hists pg_rng] in SO, RUN.
  set (o0 := mkOM _ None _ _ _ _ _ _ _ _) in RUN.
  assert (HO : held (pg_om E s)).
  { split.
    - eapply exists_grows; [apply (exec_all_grows code garbage (w_field w) _ _ _ RUN)|reflexivity].
    - pose proof (exec_all_tidy code garbage (w_field w) CI _ (calls_tidy _ _ _) _ _ (new_tidy code CI None o0 (om_new_inv code None CI)) RUN) as TD. destruct TD as (G & _). congruence. }
  pose proof (kept_names _ _ (sources_kept E fuel w _ _ _ _ _ _ _ SO)) as KN. rewrite make_histograms_names in KN.
  assert (EX : exists k, In k (pg_hists E s) /\ path (hi_name k) = []).
  { assert (I2 : In (FileParser.h_name h) (map hi_name (pg_hists E s))) by (rewrite KN; apply in_map; exact HI).
    apply in_map_iff in I2. destruct I2 as (k & HK & I2). exists k. rewrite HK. auto. }
  pose proof (write_keeps code CI garbage (w_field w) _ _ _ HO WH EX) as FR. unfold file_delete in FD. rewrite FR in FD. discriminate.
Qed.
Print Assumptions C135_names_needed.

(** A run that meets the conditions, with one histogram and two photons; and one with a nameless histogram before another one. *)
Definition c_em2 : em_tables SpecFloat.spec_float :=
  let a := [f64_lit 0 0; f64_lit 1 0] in mkEmT a a 2 a [a; a] [a; a] 2 2.
Definition c_disk (t : Text.text) (name : string) : IniReader.path := if String.eqb name "run.ini" then IniReader.Present (Some t) else IniReader.Missing.
Definition c_prog (t : Text.text) (argv : list string) : res unit :=
  let* f := @program _ (Num_F64 c_libm) c_engine (Ok c_em2) Throw (fun _ => 0%Z) ex_code (f64_lit 7 0) 10 (c_disk t) (fun _ => f64_lit 0 0) argv tt in file_delete f.
Example C135_case :
  delivers c_engine /\ loads_well (Ok c_em2) (Throw : res (bw_tables SpecFloat.spec_float)) /\ objinfo_inverted ex_code /\
  (exists pa, @FileParser.file_parser _ (Num_F64 c_libm) (fun _ => f64_lit 0 0) (c_disk (c_text "true" "") "run.ini") = Ok pa /\
     map (fun h => (FileParser.h_name h, FileParser.h_bins h)) (FileParser.in_histograms pa) = [("spectrum", 3%Z)] /\
     map (fun q => (FileParser.p_output q, FileParser.p_number q)) (FileParser.in_particles pa) = [(true, 2%Z)]) /\
  c_prog (c_text "true" "") ["qedcasc"; "run.ini"] = Ok tt /\
  c_prog (c_text "false" "[Histogram2]
name = //
particle = Photon
type = energy
[Histogram3]
name = other
particle = Photon
type = energy
") ["qedcasc"; "run.ini"] = UB DoubleFree.
Proof.
  split; [intros n g; apply repeat_length|]. split.
  { split; [discriminate|]. split; [|split; discriminate]. intros t E. injection E as <-. unfold em_tables_ok, c_em2. cbn [h_axis h_data h_len ph_axis ph_data ph_chi ph_etaLen ph_chiLen length].
    repeat (split; [lia|]). intros row [I|I]; destruct I as [<-|[<-|[]]]; reflexivity. }
  split; [split; [discriminate|reflexivity]|]. split; [eexists; split; [vm_compute; reflexivity|split; vm_compute; reflexivity]|].
  split; vm_compute; reflexivity.
Qed.
