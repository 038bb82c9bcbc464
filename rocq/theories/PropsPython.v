(** * Property C108: the Python module and the main program simulate the same events *)
From Coq Require Import String ZArith List Bool Lia.
From Verif Require Import Num Outcome OutcomeFacts Vec Units MCTools Particle ParticleList Source Fields Pusher Process Sim Histogram Hdf5 Output
  OutFacts OutFile PropsOut PropsTables RunManager RunFacts Program ProgramFacts PropsProgram TrackFacts TrackFile PropsTrack.
From Verif Require FileParser IniReader Text.
Import ListNotations.
Local Open Scope string_scope.
Local Open Scope list_scope.

(** ** Specification *)
Section Spec.
Context {T : Type} `{NT : Num T}.
Variable special : Text.text -> T.

(** The Python session that passes on what the input file says: the values that the file parser looks up, before any conversion of
    units, in the calls of the interface; then one run and the four tables. *)
Definition settings (r : IniReader.reader) (start focus position direction : vec T) : list (call T) :=
  let real := FileParser.real special r in
  let text := FileParser.strg r in
  [SetTime (real "General" "time_step" n0) (real "General" "time_end" n0);
   SetField (text "Field" "field_type" "") (real "Field" "e_max" n0) (real "Field" "wavelength" n1) (real "Field" "duration" n1)
     (real "Field" "waist" n1) (real "Field" "polerisation" n0) start focus;
   SetPhysics (text "Physics" "radiation_model" "");
   SetSampleFraction (real "Physics" "sample_fraction" n1);
   UsePairProduction (FileParser.bool_ r "Physics" "pair_production" false);
   SetGenerator (text "Particle1" "particle_type" "Electron") (text "Particle1" "energy_distribution" "mono")
     (real "Particle1" "energy_mean" n0) (real "Particle1" "energy_sig" n0) (real "Particle1" "radius" n0)
     (real "Particle1" "duration" n0) (real "Particle1" "divergence" n0) position direction].
Definition script (r : IniReader.reader) : res (list (call T)) :=
  let* start := FileParser.vect r "Field" "start" in
  let* focus := FileParser.vect r "Field" "focus" in
  let* position := FileParser.vect r "Particle1" "position" in
  let* direction := FileParser.vect r "Particle1" "direction" in
  Ok (settings r start focus position direction ++
      [BeamOn (FileParser.int_ r "Particle1" "number_particles" 1) 1; Get TInput; Get TElectron; Get TPositron; Get TPhoton]).

(** Input files within the reach of the Python module: SI units, one of its two fields, one source with output, one of the names of the
    radiation models that both sides know, no lower bound on the energy of photons, a sample fraction in its range. *)
Record within_reach (r : IniReader.reader) (pa : FileParser.parameters T) (n : nat) : Prop := mkReach {
  reach_units : FileParser.g_units (FileParser.in_general pa) = "SI";
  reach_step : neqb (FileParser.g_timeStep (FileParser.in_general pa)) n0 = false;
  reach_field : In (FileParser.strg r "Field" "field_type" "") ["gaussian"; "focusing"];
  reach_physics : In (FileParser.y_physics (FileParser.in_physics pa)) ["Classical"; "Semiclassical"; "semiclassical"; "Quantum"; "quantum"];
  reach_minimum : FileParser.y_minEnergy (FileParser.in_physics pa) = n0;
  reach_fraction : nleb n0 (FileParser.y_fraction (FileParser.in_physics pa)) = true /\ nleb (FileParser.y_fraction (FileParser.in_physics pa)) n1 = true;
  reach_source : length (FileParser.in_particles pa) = 1%nat;
  reach_output : Forall (fun q => FileParser.p_output q = true) (FileParser.in_particles pa);
  reach_number : FileParser.int_ r "Particle1" "number_particles" 1 = Z.of_nat n /\ (Z.of_nat n < 2 ^ 29)%Z }.

(** The rows of a table of the output file: those of the final particles with a name, event after event. *)
Definition file_rows (name : string) (evs : list (history (T := T))) : list (list T) :=
  flat_map (fun je => spec_rows name (fst je) (snd (snd je))) (combine (seq 0 (length evs)) evs).
Definition primary_rows (evs : list (history (T := T))) : list (list T) :=
  flat_map (fun je => map (spec_row (fst je)) (fst (snd je))) (combine (seq 0 (length evs)) evs).
End Spec.

(** ** Proofs *)
Section Proofs.
Context {T : Type} `{NT : Num T}.
Variable E : Engine T.

(** Observing an event does not change it. *)
Lemma unobserved_loop (w : world T) {S} htimes (fill : nat -> T -> list (particle T) -> S -> res S) tEnd : forall fuel t l g k h st,
  time_loop E w htimes fill fuel tEnd (mkSt t l g k h) = Ok st ->
  time_loop E w [] (fun _ _ _ (u : unit) => Ok u) fuel tEnd (mkSt t l g 0 tt) = Ok (mkSt (st_time E st) (st_ev E st) (st_rng E st) 0 tt).
Proof.
  induction fuel as [|fuel IH]; intros t l g k h st; cbn [time_loop st_time].
  - destruct (nltb t tEnd); [discriminate|]. intros X. injection X; intros <-. reflexivity.
  - destruct (nltb t tEnd); [|intros X; injection X; intros <-; reflexivity].
    intros X. apply bind_ok in X. destruct X as [s1 [X1 X]]. unfold time_step in X1 |- *.
    apply bind_ok in X1. destruct X1 as [s0 [H0 X1]]. apply bind_ok in X1. destruct X1 as [r [P X1]]. injection X1; intros <-. clear X1.
    assert (H1 : st_time E s0 = t /\ st_ev E s0 = l /\ st_rng E s0 = g).
    { unfold hist_check in H0. destruct (nth_error _ _); [|injection H0; intros <-; auto].
      destruct (nleb _ _); [|injection H0; intros <-; auto]. apply bind_ok in H0. destruct H0 as [h' [_ H0]]. injection H0; intros <-. auto. }
    destruct H1 as (H3 & H1 & H2). rewrite H1, H2 in P. rewrite H3 in X. unfold hist_check. cbn [st_hc nth_error bind st_ev st_rng st_time st_hist].
    rewrite P. cbn [bind]. eapply IH. exact X.
Qed.
Lemma fill_rest_same {S} (fill : nat -> T -> list (particle T) -> S -> res S) : forall n (s st : state E S),
  fill_rest E fill n s = Ok st -> st_time E st = st_time E s /\ st_ev E st = st_ev E s /\ st_rng E st = st_rng E s.
Proof.
  induction n as [|n IH]; intros s st X; cbn [fill_rest] in X; [injection X; intros <-; auto|].
  apply bind_ok in X. destruct X as [h [_ X]]. apply IH in X. exact X.
Qed.
Lemma unobserved (w : world T) {S} htimes (fill : nat -> T -> list (particle T) -> S -> res S) fuel tEnd l g h st :
  run_event E w htimes fill fuel tEnd l g h = Ok st ->
  exists t, time_loop E w [] (fun _ _ _ (u : unit) => Ok u) fuel tEnd (mkSt n0 l g 0 tt) = Ok (mkSt t (st_ev E st) (st_rng E st) 0 tt).
Proof.
  unfold run_event. intros X. apply bind_ok in X. destruct X as [s [X Y]]. apply fill_rest_same in Y. destruct Y as (_ & -> & ->).
  exists (st_time E s). eapply unobserved_loop. exact X.
Qed.

Definition history_of (e : event T * event T) : history (T := T) := (pl_items (fst e), pl_items (snd e)).

Lemma events_simulated (w : world T) fuel tEnd : forall n src g hs evs g2 hs2,
  events_of E fuel w tEnd n src g hs evs g2 hs2 -> simulated E fuel w tEnd src g (map history_of evs) g2 /\ length evs = n.
Proof.
  induction 1 as [|n src g hs l src1 g1 st evs g2 hs2 G R X [IH IL]]; [split; [constructor|reflexivity]|].
  apply unobserved in R. destruct R as [t R]. split; [|cbn; now f_equal]. cbn [map]. unfold history_of at 1. cbn [fst snd].
  exact (sim_cons E fuel w tEnd src g l src1 g1 (mkSt t (st_ev E st) (st_rng E st) 0 tt) _ _ G R IH).
Qed.

Lemma simulated_serial (w : world T) fuel tEnd : forall s g evs g2, simulated E fuel w tEnd s g evs g2 -> forall t : tables T, shape 1 t ->
  exists t', serial_events E fuel (length evs) w tEnd s t g = Ok (t', g2).
Proof.
  induction 1 as [s g|s g l s1 g1 st evs g2 G L X IH]; intros t HT; cbn [length serial_events]; [eauto|]. rewrite G. cbn [bind].
  destruct (do_pushes_ok 1 0 (input_pushes (pl_items l)) t HT) as (t1 & P1 & S1 & _); [lia|]. rewrite P1. cbn [bind]. rewrite L. cbn [bind].
  destruct (do_pushes_ok 1 0 (final_pushes (pl_items (st_ev E st))) t1 S1) as (t2 & P2 & S2 & _); [lia|]. rewrite P2. cbn [bind]. exact (IH t2 S2).
Qed.
Lemma simulated_unique (w : world T) fuel tEnd : forall s g evs g2, simulated E fuel w tEnd s g evs g2 -> forall evs' g2',
  simulated E fuel w tEnd s g evs' g2' -> length evs' = length evs -> evs' = evs /\ g2' = g2.
Proof.
  induction 1 as [s g|s g l s1 g1 st evs g2 G L X IH]; intros evs' g2' Y HL.
  - destruct evs'; [|discriminate]. inversion Y; subst. auto.
  - inversion Y as [|? ? l' s1' g1' st' evs'' ? G' L' Y' Q1 Q2 Q3 Q4]; subst; [discriminate|]. rewrite G in G'. injection G'; intros <- <- <-.
    rewrite L in L'. injection L'; intros <-. destruct (IH _ _ Y') as [-> ->]; [cbn in HL; lia|]. auto.
Qed.

Lemma nth_flat_map {A B} (d : A) (f : nat -> A -> list B) : forall (l : list A) k,
  flat_map (fun j => f (k + j)%nat (nth j l d)) (seq 0 (length l)) = flat_map (fun je => f (fst je) (snd je)) (combine (seq k (length l)) l).
Proof.
  induction l as [|a l IH]; intros k; cbn [length seq combine flat_map nth fst snd]; [reflexivity|]. rewrite Nat.add_0_r. f_equal.
  rewrite <- (IH (S k)), <- seq_shift, !flat_map_concat_map, map_map. f_equal. apply map_ext. intros j. cbn [nth]. f_equal. lia.
Qed.
Lemma combine_map_flat {A B C} (h : A -> B) (f : nat -> B -> list C) : forall (l : list A) k,
  flat_map (fun je => f (fst je) (snd je)) (combine (seq k (length l)) (map h l)) = flat_map (fun je => f (fst je) (h (snd je))) (combine (seq k (length l)) l).
Proof. induction l as [|a l IH]; intros k; cbn [length seq combine flat_map map fst snd]; [reflexivity|]. f_equal. apply IH. Qed.
Lemma file_rows_of name (evs : list (event T * event T)) : PropsOut.spec_table name (length evs) (last_of evs) = file_rows name (map history_of evs).
Proof.
  unfold PropsOut.spec_table, file_rows. rewrite map_length, (combine_map_flat history_of (fun j h => spec_rows name j (snd h)) evs 0).
  exact (nth_flat_map (pl_new "" 0, pl_new "" 0) (fun j e => spec_rows name j (pl_items (snd e))) evs 0).
Qed.
Lemma primary_rows_of (evs : list (event T * event T)) (first : nat -> particle T) :
  (forall j, (j < length evs)%nat -> pl_items (first_of evs j) = [first j]) ->
  map (fun j => spec_row j (first j)) (seq 0 (length evs)) = primary_rows (map history_of evs).
Proof.
  intros HF. unfold primary_rows. rewrite map_length, (combine_map_flat history_of (fun j h => map (spec_row j) (fst h)) evs 0).
  rewrite <- (nth_flat_map (pl_new "" 0, pl_new "" 0) (fun j e => map (spec_row j) (fst (history_of e))) evs 0).
  assert (HG : forall l, (forall j, In j l -> (j < length evs)%nat) ->
     map (fun j => spec_row j (first j)) l = flat_map (fun j => map (spec_row j) (pl_items (first_of evs j))) l).
  { induction l as [|j l IH]; intros HJ; cbn [map flat_map]; [reflexivity|]. rewrite HF by (apply HJ; left; reflexivity). cbn [map app]. f_equal. apply IH. intros i HI. apply HJ. right. exact HI. }
  apply HG. intros j HJ. apply in_seq in HJ. exact (proj2 HJ).
Qed.
End Proofs.

Section Main.
Context {T : Type} `{NT : Num T}.
Variable E : Engine T.
Variable load_em : res (em_tables T).
Variable load_bw : res (bw_tables T).
Variable counters : nat -> Z.
Variable code : objinfo.
Variable garbage : T.
Variable fuel : nat.
Variable special : Text.text -> T.
Notation sim_ pa g := (simulation E load_em load_bw counters code garbage fuel pa g).

Lemma reach_worlds r pa n w : FileParser.read_all special r = Ok pa -> within_reach r pa n ->
  set_up_world load_em load_bw (set_tracking false pa) = Ok w ->
  exists q cs m, FileParser.in_particles pa = [q] /\ FileParser.p_number q = Z.of_nat n /\ FileParser.p_output q = true /\
    script special r = Ok (cs ++ [BeamOn (Z.of_nat n) 1; Get TInput; Get TElectron; Get TPositron; Get TPhoton]) /\
    (forall g loop, do_calls E load_em load_bw loop false cs new_manager g = Ok (m, g, repeat Nothing 6)) /\
    set_up m = true /\ build_world load_em load_bw m = Ok w /\ m_timeEnd m = FileParser.g_timeEnd (FileParser.in_general pa) /\
    (forall g, build_source E m (Z.of_nat n) g = Ok (make_source E false q g)) /\
    m_units m = Live /\ m_field m = Null /\ m_pusher m = Null /\ m_generator m = Null.
Proof.
  intros HR [U DT FT PH MIN [F0 F1] SRC OUT [NUM NB]] HW. unfold FileParser.read_all in HR.
  apply bind_ok in HR. destruct HR as [[] [_ HR]]. apply bind_ok in HR. destruct HR as [[u ge] [HG HR]]. apply bind_ok in HR. destruct HR as [fi [HF HR]].
  apply bind_ok in HR. destruct HR as [ps [HP HR]]. cbv zeta in HR. apply bind_ok in HR. destruct HR as [hs [HH HR]]. injection HR; intros <-. clear HR.
  cbn [FileParser.in_general FileParser.in_field FileParser.in_physics FileParser.in_particles FileParser.in_histograms fst snd] in *.
  unfold FileParser.read_general in HG. apply bind_ok in HG. destruct HG as [u0 [HU HG]]. injection HG; intros <- <-. clear HG.
  cbn [FileParser.g_units FileParser.g_timeStep] in U, DT. rewrite U in HU. injection HU; intros <-. clear HU HH.
  cbn [FileParser.read_numbered] in HP.
  change ("Particle" ++ to_string 1)%string with "Particle1" in HP. destruct (FileParser.has_section r "Particle1"); [|injection HP; intros <-; discriminate].
  apply bind_ok in HP. destruct HP as [q [HQ HP]]. apply bind_ok in HP. destruct HP as [ps' [_ HP]]. injection HP; intros <-. clear HP.
  destruct ps' as [|? ?]; [|discriminate].
  unfold FileParser.read_particle in HQ. apply bind_ok in HQ. destruct HQ as [pos [HPOS HQ]]. apply bind_ok in HQ. destruct HQ as [dir [HDIR HQ]].
  assert (HQ' : Ok q = Ok q) by reflexivity. injection HQ; intros EQ. clear HQ HQ'.
  assert (HFI : exists st fo, FileParser.vect r "Field" "start" = Ok st /\ FileParser.vect r "Field" "focus" = Ok fo /\
    fi = (if String.eqb (FileParser.strg r "Field" "field_type" "") "gaussian" then FileParser.GaussianField (T := T) else FileParser.FocusingField)
           (ndiv (FileParser.real special r "Field" "e_max" n0) (ref_eField si_units)) (ndiv (FileParser.real special r "Field" "wavelength" n1) (ref_length si_units))
           (ndiv (FileParser.real special r "Field" "duration" n1) (ref_time si_units)) (ndiv (FileParser.real special r "Field" "waist" n1) (ref_length si_units))
           (FileParser.real special r "Field" "polerisation" n0) (vdivs st (ref_length si_units)) (vdivs fo (ref_length si_units))).
  { unfold FileParser.read_field in HF. destruct (FileParser.has_section r "Field").
    2:{ injection HF; intros <-. unfold set_up_world in HW. cbn [set_tracking FileParser.in_field choose_field bind] in HW. discriminate. }
    cbv zeta in HF. destruct FT as [FT|[FT|[]]]; rewrite <- FT in HF |- *; cbn [String.eqb Ascii.eqb Bool.eqb] in HF |- *;
      apply bind_ok in HF; destruct HF as [st [HS HF]]; apply bind_ok in HF; destruct HF as [fo [HFO HF]]; injection HF; intros <-;
      exists st, fo; (split; [exact HS|]); (split; [exact HFO|]); reflexivity. }
  clear HF. destruct HFI as (st & fo & HST & HFO & ->).
  assert (HC : exists m, (forall g loop, do_calls E load_em load_bw loop false (settings special r st fo pos dir) new_manager g = Ok (m, g, repeat Nothing 6)) /\
    m = mkM Live Null Null Null 0 (mkTab [] [] [] []) (ndiv (FileParser.real special r "General" "time_step" n0) (ref_time si_units))
      (ndiv (FileParser.real special r "General" "time_end" n0) (ref_time si_units)) true (FileParser.strg r "Field" "field_type" "")
      (Some (mkFS (ndiv (FileParser.real special r "Field" "e_max" n0) (ref_eField si_units)) (ndiv (FileParser.real special r "Field" "wavelength" n1) (ref_length si_units))
           (ndiv (FileParser.real special r "Field" "duration" n1) (ref_time si_units)) (ndiv (FileParser.real special r "Field" "waist" n1) (ref_length si_units))
           (FileParser.real special r "Field" "polerisation" n0) (vdivs st (ref_length si_units)) (vdivs fo (ref_length si_units))))
      true (FileParser.strg r "Physics" "radiation_model" "") (FileParser.real special r "Physics" "sample_fraction" n1)
      (FileParser.bool_ r "Physics" "pair_production" false) true
      (Some (mkGS (FileParser.strg r "Particle1" "particle_type" "Electron") (FileParser.strg r "Particle1" "energy_distribution" "mono")
         (ndiv (FileParser.real special r "Particle1" "energy_mean" n0) (ref_energy si_units)) (ndiv (FileParser.real special r "Particle1" "energy_sig" n0) (ref_energy si_units))
         (ndiv (FileParser.real special r "Particle1" "radius" n0) (ref_length si_units)) (ndiv (FileParser.real special r "Particle1" "duration" n0) (ref_time si_units))
         (FileParser.real special r "Particle1" "divergence" n0) (vdivs pos (ref_length si_units)) dir))).
  { eexists. split; [|reflexivity]. intros g loop. unfold settings. cbv zeta. cbn [do_calls do_call bind fst snd].
    unfold set_field. assert (FT' := FT). destruct FT' as [FT'|[FT'|[]]]; rewrite <- FT'; cbn [String.eqb Ascii.eqb Bool.eqb orb];
      (unfold set_physics; cbn [FileParser.read_physics FileParser.y_physics FileParser.y_fraction] in PH, F0, F1;
       replace (String.eqb _ "Classical" || _ || _ || _ || _ || _)%bool with true
         by (destruct PH as [<-|[<-|[<-|[<-|[<-|[]]]]]]; reflexivity);
       unfold set_sample_fraction; rewrite F0, F1; reflexivity). }
  destruct HC as (m & HC & EM).
  exists q, (settings special r st fo pos dir), m. split; [reflexivity|].
  apply Forall_inv in OUT. rename OUT into OQ. subst q m.
  split; [cbn [FileParser.p_number]; rewrite NUM; unfold u32; apply Z.mod_small; lia|]. split; [exact OQ|].
  split; [unfold script; rewrite HST, HFO, HPOS, HDIR; cbn [bind]; rewrite NUM; reflexivity|].
  split; [exact HC|].
  split; [unfold set_up; cbn [m_timeStep m_fieldSet m_physSet m_genSet]; rewrite DT; reflexivity|].
  split; [|split; [reflexivity|split; [|repeat split; reflexivity]]].
  - unfold build_world. cbn [m_fieldPar m_fieldType m_timeStep m_sampleFrac m_useBW m_physics].
    unfold set_up_world, set_tracking in HW. cbn [FileParser.in_general FileParser.g_timeStep FileParser.in_field FileParser.in_physics FileParser.g_tracking] in HW.
    apply bind_ok in HW. destruct HW as [fld [HF HW]]. apply bind_ok in HW. destruct HW as [phy [HY HW]]. apply bind_ok in HW. destruct HW as [bw [HB HW]].
    cbv zeta.
    assert (EF : build_field (FileParser.strg r "Field" "field_type" "") (mkFS (ndiv (FileParser.real special r "Field" "e_max" n0) (ref_eField si_units))
      (ndiv (FileParser.real special r "Field" "wavelength" n1) (ref_length si_units)) (ndiv (FileParser.real special r "Field" "duration" n1) (ref_time si_units))
      (ndiv (FileParser.real special r "Field" "waist" n1) (ref_length si_units)) (FileParser.real special r "Field" "polerisation" n0)
      (vdivs st (ref_length si_units)) (vdivs fo (ref_length si_units))) = fld).
    { unfold build_field. cbn [f_max f_wavelength f_duration f_waist f_pol f_start f_focus].
      destruct FT as [FT|[FT|[]]]; rewrite <- FT in HF |- *; cbn [String.eqb Ascii.eqb Bool.eqb orb choose_field] in HF |- *; injection HF; auto. }
    rewrite EF. clear EF HF.
    unfold choose_physics in HY. cbn [FileParser.read_physics FileParser.y_physics FileParser.y_fraction FileParser.y_minEnergy] in HY, MIN, PH.
    cbv zeta in HY. rewrite MIN in HY. unfold choose_pairs in HB. cbn [FileParser.read_physics FileParser.y_pair] in HB.
    assert (EY : build_physics load_em (FileParser.strg r "Physics" "radiation_model" "") fld
       (ndiv (FileParser.real special r "General" "time_step" n0) (ref_time si_units)) (FileParser.real special r "Physics" "sample_fraction" n1) = Ok phy).
    { rewrite <- HY. unfold build_physics. destruct PH as [<-|[<-|[<-|[<-|[<-|[]]]]]]; reflexivity. }
    rewrite EY. cbn [bind]. rewrite HB. exact HW.
  - intros g. unfold build_source, make_source. cbn [m_genPar FileParser.p_number].
    cbn [FileParser.p_type FileParser.p_distro FileParser.p_energy1 FileParser.p_energy2 FileParser.p_radius FileParser.p_duration
         FileParser.p_divergence FileParser.p_position FileParser.p_direction g_type g_dist g_energy1 g_energy2 g_radius g_duration g_divergence g_position g_direction].
    rewrite NUM. reflexivity.
Qed.

Lemma do_calls_app loop omp : forall cs ds m (g : est E), do_calls E load_em load_bw loop omp (cs ++ ds) m g =
  let* x := do_calls E load_em load_bw loop omp cs m g in
  let* y := do_calls E load_em load_bw loop omp ds (fst (fst x)) (snd (fst x)) in Ok (fst (fst y), snd (fst y), snd x ++ snd y).
Proof.
  induction cs as [|c cs IH]; intros ds m g; cbn [app do_calls bind fst snd].
  - destruct (do_calls E load_em load_bw loop omp ds m g) as [[[a b] l]| | | |]; reflexivity.
  - destruct (do_call E load_em load_bw loop omp c m g) as [[[a b] x]| | | |]; cbn [bind fst snd]; try reflexivity. rewrite IH.
    destruct (do_calls E load_em load_bw loop omp cs a b) as [[[a' b'] l']| | | |]; cbn [bind fst snd]; try reflexivity.
    destruct (do_calls E load_em load_bw loop omp ds a' b') as [[[a'' b''] l'']| | | |]; reflexivity.
Qed.
Lemma set_tracking_same (pa : FileParser.parameters T) : set_tracking (FileParser.g_tracking (FileParser.in_general pa)) pa = pa.
Proof. destruct pa as [[a b c d e] f y ps hs]. reflexivity. Qed.

(** Main program and Python module on the same input: if the main program completes on the parameters it reads from a file within
    reach, then the Python session with the same values, started with the same random numbers, completes too and returns four tables;
    there is one list of events (initial and final particles) that both of them show: the Python tables hold the rows of its particles,
    and so do the data sets of the output file, in the same order. *)
Theorem C108_same_simulation : forall path r e pa n g f,
  charges_differ (T := T) -> objinfo_inverted code ->
  IniReader.new_reader path = Ok (r, e) -> FileParser.file_parser special path = Ok pa -> within_reach r pa n ->
  NoDup (map (@FileParser.h_name T) (FileParser.in_histograms pa)) ->
  (forall h, In h (FileParser.in_histograms pa) -> no_slash (FileParser.h_name h) /\ FileParser.h_name h <> "" /\ (0 <= FileParser.h_bins h)%Z) ->
  sim_ pa g = Ok f ->
  exists cs evs k, script special r = Ok cs /\ length evs = n /\
    session E load_em load_bw (serial_loop E fuel) false cs g =
      Ok (repeat Nothing 7 ++ map (fun tb => Table (PropsTables.spec_table tb evs)) [TInput; TElectron; TPositron; TPhoton], k) /\
    let at_ x := lookup (f_tree f) ["Particles"; "ParticleSource"; x] in
    ((forall name, (Z.of_nat (length (file_rows name evs)) < 2 ^ 29)%Z) ->
     at_ "Primary" = Some (Dat [Z.of_nat n; 8%Z] (concat (primary_rows evs))) /\
     at_ "Electrons" = spec_node (file_rows "Electron" evs) /\
     at_ "Positrons" = spec_node (file_rows "Positron" evs) /\
     at_ "Photons" = spec_node (file_rows "Photon" evs)).
Proof.
  intros path r e pa n g f CD HI HP HR HW HD HH X.
  unfold FileParser.file_parser in HR. rewrite HP in HR. cbn [bind fst] in HR.
  (* without tracking *)
  assert (HS : exists pa' f', pa' = set_tracking false pa /\ sim_ pa' g = Ok f' /\
     forall x, lookup (f_tree f) ["Particles"; "ParticleSource"; x] = lookup (f_tree f') ["Particles"; "ParticleSource"; x]).
  { exists (set_tracking false pa). destruct (FileParser.g_tracking (FileParser.in_general pa)) eqn:ET.
    - assert (X' := X). rewrite <- (set_tracking_same pa), ET in X'. destruct (C101_file T NT E load_em load_bw counters code garbage fuel pa g f HI X') as (f' & Y & L & _).
      exists f'. split; [reflexivity|]. split; [exact Y|]. intros x. symmetry. apply L. discriminate.
    - exists f. rewrite <- ET, (set_tracking_same pa). auto. }
  destruct HS as (pa' & f' & EP & X' & LK).
  set (fld := (fun _ _ => (mkV n0 n0 n0, mkV n0 n0 n0)) : field T).
  assert (Y := X'). apply (C91_run_iff E load_em load_bw counters code garbage fuel fld) in Y.
  destruct Y as (w & ss & g1 & o0 & evss & g2 & hs & o & Y1 & Y2 & Y3 & Y4 & _ & _).
  rewrite EP in Y1. destruct (reach_worlds r pa n w HR HW Y1) as (q & cs & m & Q1 & Q2 & Q3 & Q4 & Q5 & Q6 & Q7 & Q8 & Q9 & P1 & P2 & P3 & P4).
  assert (HPA : FileParser.in_particles pa' = [q]) by (rewrite EP; exact Q1).
  assert (HTR : FileParser.g_tracking (FileParser.in_general pa') = false) by (rewrite EP; reflexivity).
  assert (HTE : FileParser.g_timeEnd (FileParser.in_general pa') = FileParser.g_timeEnd (FileParser.in_general pa)) by (rewrite EP; reflexivity).
  assert (HHI : FileParser.in_histograms pa' = FileParser.in_histograms pa) by (rewrite EP; reflexivity).
  rewrite HPA, HTR in Y2. cbn [make_sources] in Y2. destruct (make_source E false q g) as [src g1'] eqn:MS. injection Y2; intros <- <-. clear Y2.
  inversion Y4 as [|? ? ? ? ? evs ga hsa evss' ? ? EV SO]; subst evss. subst. inversion SO; subst. clear Y4 SO.
  assert (SN : s_nPart src = Z.of_nat n).
  { pose proof (make_source_for E false q g) as SF. cbv zeta in SF. rewrite MS in SF. destruct SF as (_ & SN & _). cbn [fst snd] in SN. congruence. }
  rewrite SN, Nat2Z.id in EV.
  destruct (events_simulated E w fuel _ _ _ _ _ _ _ _ EV) as [SI LE].
  exists (cs ++ [BeamOn (Z.of_nat n) 1; Get TInput; Get TElectron; Get TPositron; Get TPhoton]), (map history_of evs), (m_lost m + length (w_procs w))%nat.
  split; [exact Q4|]. split; [rewrite map_length; exact LE|].
  split.
  - assert (SL : exists t', serial_loop E fuel w src 1 (m_timeEnd m) g1' = Ok (t', g2)).
    { unfold serial_loop. rewrite SN, Nat2Z.id, Q8, <- HTE, <- LE. rewrite <- (map_length history_of evs). eapply simulated_serial; [exact SI|apply empty_shape]. }
    destruct SL as [t' SL].
    assert (BO : beam_on E load_em load_bw (serial_loop E fuel) false (Z.of_nat n) 1 m g =
       Ok (with_pointers Live Live Live (m_lost m + length (w_procs w)) t' m, g2, false)).
    { unfold beam_on. cbn [negb andb Z.eqb Pos.eqb]. rewrite P2, P3, P4. cbn [delete bind]. rewrite Q6, Q7. cbn [bind]. rewrite Q9, MS. cbn [bind fst snd].
      change (1 <? 0)%Z with false. cbv iota. change (Z.to_nat 1) with 1%nat. rewrite SL. reflexivity. }
    destruct (C73_serial_tables CD E load_em load_bw fuel _ _ _ _ _ _ Q6 BO) as (w' & src' & g0' & evs' & B1 & B2 & _ & B3 & B4 & B5 & _).
    rewrite Q7 in B1. injection B1; intros <-. rewrite Q9, MS in B2. injection B2; intros <- <-.
    assert (LE' : length evs' = length (map history_of evs)).
    { rewrite map_length, LE. apply Nat2Z.inj. rewrite B4. apply Z.mod_small. destruct HW as [_ _ _ _ _ _ _ _ [_ NB]]. lia. }
    rewrite Q8, <- HTE in B3. destruct (simulated_unique E w fuel _ _ _ _ _ SI _ _ B3 LE') as [-> _].
    unfold session. rewrite do_calls_app, Q5. cbn [bind fst snd do_calls do_call]. rewrite BO. cbn [bind fst snd].
    rewrite !(proj1 (B5 _)). unfold destroy. cbn [with_pointers m_units m_field m_generator m_pusher m_lost]. rewrite P1. cbn [delete bind].
    reflexivity.
  - cbv beta zeta. intros HB. rewrite !LK.
    destruct (C91_output_file E load_em load_bw counters code garbage fuel (set_tracking false pa) g q w src g1' n evs g2 hs HI HPA Q3 Q2 Y1) as (o1 & f1 & first & Z1 & _ & Z2 & Z3); auto.
    { destruct HW as [_ _ _ _ _ _ _ _ [_ NB]]. exact NB. }
    { intros name. rewrite <- LE, file_rows_of. apply HB. }
    rewrite X' in Z1. injection Z1; intros <-. cbv zeta in Z3. destruct Z3 as (Z3 & Z4 & Z5 & Z6 & _).
    rewrite Z3, Z4, Z5, Z6. rewrite <- LE. rewrite <- LE in Z2. rewrite (primary_rows_of evs first Z2), !file_rows_of. auto.
Qed.

(** The name "classical", which the main program accepts, is out of reach: whatever else the file says, the session runs no event and
    all its tables are empty. *)
Theorem C108_classical_name : forall r cs g, script special r = Ok cs -> FileParser.strg r "Physics" "radiation_model" "" = "classical" ->
  session E load_em load_bw (serial_loop E fuel) false cs g = Ok (repeat Nothing 7 ++ repeat (Table []) 4, 0%nat).
Proof.
  intros r cs g HS HN. unfold script in HS. apply bind_ok in HS. destruct HS as [st [_ HS]]. apply bind_ok in HS. destruct HS as [fo [_ HS]].
  apply bind_ok in HS. destruct HS as [pos [_ HS]]. apply bind_ok in HS. destruct HS as [dir [_ HS]]. injection HS; intros <-. clear HS.
  unfold session. rewrite HN. cbn [do_calls do_call bind fst snd].
  unfold set_field, set_physics. cbn [String.eqb Ascii.eqb Bool.eqb orb]. unfold set_sample_fraction.
  destruct (String.eqb _ "gaussian" || _ || _ || _)%bool, (nleb n0 _ && _)%bool;
    (unfold beam_on, set_up; cbn; rewrite !orb_true_r; reflexivity).
Qed.
End Main.

Print Assumptions C108_same_simulation.
Print Assumptions C108_classical_name.

(** Two photons in a laser pulse in binary64, with a histogram and with or without tracking. *)
Definition y_text (tracking model : string) : Text.text := Text.tx (
"[General]
units = SI
time_step = 1e-15
time_end = 2.5e-15
tracking = " ++ tracking ++ "
[Field]
field_type = gaussian
e_max = 1
wavelength = 8e-7
duration = 1e-14
waist = 2e-6
start = [0 0 -1]
[Particle1]
number_particles = 2
particle_type = photon
energy_mean = 1e-10
energy_sig = 1e-10
direction = [0 0 1]
output = true
[Physics]
radiation_model = " ++ model ++ "
[Histogram1]
name = spectrum
particle = Photon
type = energy
bins = 3
max_bin = 10000
").
Definition y_reader (t : Text.text) : IniReader.reader := match IniReader.new_reader (IniReader.Present (Some t)) with Ok (r, _) => r | _ => IniReader.empty_reader end.
Definition y_file (t : Text.text) := @FileParser.file_parser _ (Num_F64 c_libm) (fun _ => f64_lit 0 0) (IniReader.Present (Some t)).
Definition y_main (pa : FileParser.parameters SpecFloat.spec_float) :=
  @simulation _ (Num_F64 c_libm) c_engine (Ok c_em) Throw (fun _ => 0%Z) ex_code (f64_lit 7 0) 10 pa tt.
Definition y_pa (t : Text.text) : FileParser.parameters SpecFloat.spec_float :=
  match y_file t with Ok pa => pa | _ => FileParser.mkParams (FileParser.mkGeneral "" (f64_lit 0 0) (f64_lit 0 0) "" false) FileParser.NoField
    (FileParser.mkPhysics "" (f64_lit 0 0) (f64_lit 0 0) false) [] [] end.
Lemma y_reach tracking : In tracking ["true"; "false"] ->
  @within_reach _ (Num_F64 c_libm) (y_reader (y_text tracking "Quantum")) (y_pa (y_text tracking "Quantum")) 2.
Proof.
  intros [<-|[<-|[]]]; constructor.
  1,10: vm_compute; reflexivity.
  1,9: vm_compute; reflexivity.
  1,8: left; vm_compute; reflexivity.
  1,7: do 3 right; left; vm_compute; reflexivity.
  1,6: vm_compute; reflexivity.
  1,5: split; vm_compute; reflexivity.
  1,4: vm_compute; reflexivity.
  1,3: vm_compute; constructor; [reflexivity|constructor].
  1,2: split; vm_compute; reflexivity.
Qed.
Example C108_case : forall tracking, In tracking ["true"; "false"] ->
  (exists e, IniReader.new_reader (IniReader.Present (Some (y_text tracking "Quantum"))) = Ok (y_reader (y_text tracking "Quantum"), e)) /\
  y_file (y_text tracking "Quantum") = Ok (y_pa (y_text tracking "Quantum")) /\
  @within_reach _ (Num_F64 c_libm) (y_reader (y_text tracking "Quantum")) (y_pa (y_text tracking "Quantum")) 2 /\
  map (@FileParser.h_name _) (FileParser.in_histograms (y_pa (y_text tracking "Quantum"))) = ["spectrum"] /\
  (exists f, y_main (y_pa (y_text tracking "Quantum")) = Ok f /\ lookup (f_tree f) ["Particles"; "ParticleSource"; "Photons"] <> None).
Proof.
  intros tracking HT. split; [|split; [|split; [exact (y_reach tracking HT)|]]]; destruct HT as [<-|[<-|[]]].
  1,2: eexists; vm_compute; reflexivity.
  1,2: vm_compute; reflexivity.
  1,2: (split; [vm_compute; reflexivity|]); eexists; (split; [vm_compute; reflexivity|]); vm_compute; discriminate.
Qed.
Example C108_classical_case : FileParser.strg (y_reader (y_text "false" "classical")) "Physics" "radiation_model" "" = "classical" /\
  (exists cs, @script _ (Num_F64 c_libm) (fun _ => f64_lit 0 0) (y_reader (y_text "false" "classical")) = Ok cs) /\
  exists f, y_main (y_pa (y_text "false" "classical")) = Ok f.
Proof. split; [vm_compute; reflexivity|]. split; [eexists; vm_compute; reflexivity|]. eexists. vm_compute. reflexivity. Qed.
