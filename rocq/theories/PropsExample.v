(** * Properties C127, C128: runs with classical emission, and the example that comes with the program *)
From Coq Require Import String ZArith Reals Lra Psatz List Bool Ascii Lia SpecFloat.
From Verif Require Import Num RNum Outcome OutcomeFacts Vec Units MCTools MCFacts Numerics NumericsFacts Particle ParticleList Source SourceFacts Fields Pusher Process
  ProcessSafe Sim SimFacts SimTime SimClock Histogram HistFacts Hdf5 Output OutFacts OutFile PropsOut PropsTables Program ProgramFacts PropsProgram
  Shipped PropsShipped ShippedReal PropsProcess PropsSample PropsUse CompleteFacts ExampleData.
From Verif Require FileParser IniReader Text Tables.
Import ListNotations.
Local Open Scope string_scope.
Local Open Scope list_scope.
Local Open Scope R_scope.

(** ** C127: with classical emission and the shipped tables every run completes *)
Lemma classical_never_exits (E : Engine R) path c : with_emission_tables path (em_tab c) -> never_exits E (Continuous c true).
Proof.
  intros HT p l g. pose proof (shipped_em_ok path _ HT) as OK. pose proof HT as (disk & junk & jl & HA & HL).
  destruct (em_real path disk junk jl _ HA HL) as [_ (K1 & K2 & K3 & K4 & K5 & K6 & _)].
  pose proof (em_axis_inc _ K3 K6) as INC.
  cbn [interact]. unfold continuous_interact. destruct (_ || _)%bool; [discriminate|].
  destruct (rand_double E n0 n1 g) as [r g1]. destruct (nltb _ _); [discriminate|]. cbv zeta. rewrite orb_true_r.
  rewrite (h_first path c HT). cbn [bind].
  assert (NE : calculate_chi E (em_tab c) (nexp (-5)) g1 <> Exit (-1)).
  { intros HX. apply chi_exit_iff in HX; auto; [|lia]. rewrite K3 in HX. change (100 - 2)%nat with 98%nat in HX. rewrite K6 in HX by lia.
    rewrite INR_IZR_INZ in HX. cbn [Z.of_nat Pos.of_succ_nat Pos.succ] in HX. rnum. rewrite ln_exp in HX.
    pose proof ln10_bounds as [B1 B2]. assert (Q : -5 / ln 10 * ln 10 = -5) by (field; lra). nra. }
  destruct (calculate_chi E (em_tab c) (nexp (-5)) g1) as [[chi g2]| | | |]; cbn [bind]; try discriminate; [|congruence].
  destruct (nltb _ _); [|discriminate]. destruct (new_photon_energy E _ _ _ _ _ _ _). discriminate.
Qed.

(** a complete configuration: one source written to the file, histograms with at least one bin and different simple names *)
Definition simple_names (hs : list (FileParser.histogram R)) : Prop :=
  NoDup (map (@FileParser.h_name R) hs) /\
  forall h, In h hs -> no_slash (FileParser.h_name h) /\ FileParser.h_name h <> "" /\ (1 <= FileParser.h_bins h < 2 ^ 31)%Z.

(** table of a species in the output file *)
Definition rows_in (f : file R) (tab : string) : option (list Z) :=
  match lookup (f_tree f) ["Particles"; "ParticleSource"; tab] with Some (Dat d _) => Some d | _ => None end.
Definition bins_in (f : file R) (name part : string) : option (list Z) :=
  match lookup (f_tree f) ["Histograms"; name; part] with Some (Dat d _) => Some d | _ => None end.

Lemma rows_count name j (ps : list (particle R)) : length (spec_rows name j ps) = count_occ string_dec (map p_name ps) name.
Proof.
  unfold spec_rows. rewrite map_length. induction ps as [|p ps IH]; cbn [filter map count_occ]; [reflexivity|]. unfold PropsOut.named at 1.
  destruct (string_dec (p_name p) name); cbn [length]; auto.
Qed.
Lemma no_others name (l : list string) : name <> "Photon" -> Forall (fun x => x = "Photon") l -> count_occ string_dec l name = 0%nat.
Proof. intros HN. induction 1 as [|x l HX _ IH]; [reflexivity|]. cbn [count_occ]. destruct (string_dec x name); [congruence|exact IH]. Qed.
Lemma flat_length {A B} (f : A -> list B) k l : (forall a, In a l -> length (f a) = k) -> length (flat_map f l) = (length l * k)%nat.
Proof.
  induction l as [|a l IH]; intros HX; cbn [flat_map length]; [reflexivity|]. rewrite app_length, IH by (intros; apply HX; right; auto).
  rewrite (HX a (or_introl eq_refl)). lia.
Qed.
Lemma flat_length_le {A B} (f : A -> list B) (k : Z) l : (forall a, In a l -> (Z.of_nat (length (f a)) <= k)%Z) ->
  (Z.of_nat (length (flat_map f l)) <= Z.of_nat (length l) * k)%Z.
Proof.
  induction l as [|a l IH]; intros HX; cbn [flat_map length]; [lia|]. rewrite app_length.
  specialize (IH ltac:(intros; apply HX; right; auto)). specialize (HX a (or_introl eq_refl)). lia.
Qed.
Lemma node_shape (tab : list (list R)) n : (1 <= n)%nat -> length tab = n ->
  match spec_node tab with Some (Dat d _) => Some d | _ => None end = Some [Z.of_nat n; 8%Z].
Proof. intros Hn HL. destruct tab as [|r tab]; cbn [spec_node length] in *; [lia|]. now rewrite HL. Qed.

(** a program with a single source and emission processes only, whose runs of the source's events complete *)
Lemma simulation_ok (E : Engine R) t lbw counters code garbage fuel pa g q n ty nm m c w src g1 (fine : event R -> Prop) :
  objinfo_inverted code -> FileParser.in_particles pa = [q] -> FileParser.p_output q = true ->
  species (FileParser.p_type q) ty nm m c -> FileParser.p_number q = Z.of_nat n -> (1 <= n <= 536)%nat ->
  simple_names (FileParser.in_histograms pa) ->
  set_up_world (Ok t) lbw pa = Ok w -> (forall pr, In pr (w_procs w) -> emission pr) ->
  make_source E (FileParser.g_tracking (FileParser.in_general pa)) q g = (src, g1) ->
  wf_source src -> s_count src = 0%Z -> s_nPart src = Z.of_nat n -> s_type src = FileParser.p_type q ->
  (forall k g l src' g', generate_list E (with_count src k) g = Ok (l, src', g') -> fine l) ->
  (forall l g hs, wf l -> fine l -> Forall hwf hs ->
     exists st, run_event E w (map hi_time hs) hist_fill fuel (FileParser.g_timeEnd (FileParser.in_general pa)) l g hs = Ok st /\ usable (length hs) (st_hist _ st)) ->
  exists f, simulation E (Ok t) lbw counters code garbage fuel pa g = Ok f /\
    rows_in f "Primary" = Some [Z.of_nat n; 8%Z] /\
    rows_in f "Electrons" = (if String.eqb nm "Electron" then Some [Z.of_nat n; 8%Z] else None) /\
    rows_in f "Positrons" = (if String.eqb nm "Positron" then Some [Z.of_nat n; 8%Z] else None) /\
    forall h, In h (FileParser.in_histograms pa) ->
      bins_in f (FileParser.h_name h) "BinCentres" = Some [FileParser.h_bins h] /\
      bins_in f (FileParser.h_name h) "BinValues" = Some [FileParser.h_bins h].
Proof.
  intros HI HP HO HS HN Hn HH HW HEM MS SW1 SW2 SW3 SW4 HFI HRUN.
  set (tEnd := FileParser.g_timeEnd (FileParser.in_general pa)) in *.
  set (tracking := FileParser.g_tracking (FileParser.in_general pa)) in *.
  set (hs0 := make_histograms counters 0 (FileParser.in_histograms pa)).
  assert (HU : Forall hwf hs0).
  { apply Forall_forall. intros h Hh. apply In_nth_error in Hh. destruct Hh as [k Hk]. unfold hs0 in Hk. apply make_histograms_nth in Hk.
    destruct Hk as (qh & Q1 & ->). unfold make_histogram, hist_new. apply initialise_wf. apply (proj2 HH qh (nth_error_In _ _ Q1)). }
  destruct (events_ok_gen E w tEnd fuel ty nm m c fine neqb_neg_R neqb_pos_R HRUN n src g1 hs0) as (evs & g2 & hs & EV & PR); auto;
    try (rewrite ?SW2, ?SW3, ?SW4; auto; lia).
  (* names in the final lists *)
  assert (ON : forall e, In e evs -> exists p, pl_items (fst e) = [p] /\ p_name p = nm /\ only_photons (fst e) (snd e) /\ (pl_n (snd e) <= default_max)%Z).
  { clear - EV PR HEM. induction EV as [|n src g hs l src1 g1 st evs g2 hs2 G X Y IH]; intros e [].
    - subst e. destruct (PR (l, st_ev E st) (or_introl eq_refl)) as (p & P1 & _ & P2). exists p. split; [auto|]. split; [auto|].
      split; [cbn [fst snd]; eapply run_only_photons; eauto|].
      destruct (generate_single _ _ _ _ _ _ G) as (p' & _ & _ & P3 & P4 & _).
      pose proof (run_wf E _ _ _ _ _ _ _ _ _ X P4) as W. apply (run_extends E w) in X. destruct X as (M & _).
      cbn [snd]. unfold wf in W. rewrite M, P3 in W. exact W.
    - apply IH; auto. intros; apply PR; right; auto. }
  destruct (events_sound E fuel w _ _ _ _ _ _ _ _ EV) as [LE _].
  assert (LJ : forall j, (j < n)%nat -> In (nth j evs (pl_new "" 0, pl_new "" 0)) evs) by (intros; apply nth_In; lia).
  assert (CNT : forall name, name <> "Photon" -> length (PropsOut.spec_table name n (last_of evs)) = if String.eqb nm name then n else 0%nat).
  { intros name NP. unfold PropsOut.spec_table. rewrite (flat_length _ (if String.eqb nm name then 1%nat else 0%nat)).
    - rewrite seq_length. destruct (String.eqb nm name); lia.
    - intros j Hj. apply in_seq in Hj. rewrite rows_count. destruct (ON _ (LJ j ltac:(lia))) as (p & P1 & P2 & (more & M1 & M2) & _).
      unfold last_of. rewrite M1, P1. cbn [map]. rewrite count_occ_app. rewrite (no_others name more NP M2). cbn [count_occ]. rewrite P2.
      destruct (String.eqb_spec nm name) as [->|NE]; destruct (string_dec _ _); try congruence; reflexivity. }
  destruct (C91_output_file E (Ok t) lbw counters code garbage fuel pa g q w src g1 n evs g2 hs) as (o0 & f & first & F1 & _ & _ & F2 & F3 & F4 & _ & F5 & _); auto.
  { lia. }
  { intros name. apply Z.le_lt_trans with (Z.of_nat n * default_max)%Z; [|unfold default_max; lia].
    unfold PropsOut.spec_table. rewrite <- (seq_length n 0) at 2. apply flat_length_le. intros j Hj. apply in_seq in Hj.
    destruct (ON _ (LJ j ltac:(lia))) as (p & _ & _ & _ & P4). unfold spec_rows. rewrite map_length. unfold last_of.
    eapply Z.le_trans; [|exact P4]. unfold pl_n. apply Nat2Z.inj_le. apply filter_length_le. }
  { apply HH. }
  { intros h Hh. destruct (proj2 HH h Hh) as (A & B & C). repeat split; auto; lia. }
  exists f. split; [exact F1|]. unfold rows_in. rewrite F2, F3, F4. split; [reflexivity|].
  split; [|split].
  - pose proof (CNT "Electron" ltac:(discriminate)) as L. destruct (String.eqb nm "Electron"); [apply node_shape; [lia|exact L]|].
    destruct (PropsOut.spec_table "Electron" n (last_of evs)); [reflexivity|discriminate].
  - pose proof (CNT "Positron" ltac:(discriminate)) as L. destruct (String.eqb nm "Positron"); [apply node_shape; [lia|exact L]|].
    destruct (PropsOut.spec_table "Positron" n (last_of evs)); [reflexivity|discriminate].
  - intros h Hh. pose proof (events_kept E fuel w _ _ _ _ _ _ _ _ EV) as KE. apply In_nth_error in Hh. destruct Hh as [k Hk].
    assert (H0 : nth_error hs0 k = Some (make_histogram counters (0 + k) h)) by (apply make_histograms_nth; eauto).
    assert (K : exists h', nth_error hs k = Some h' /\ kept (make_histogram counters (0 + k) h) h').
    { set (hh := make_histogram counters (0 + k) h) in *. clearbody hh. clear -KE H0. revert k H0.
      induction KE as [|a b la lb AB _ IH]; intros [|k] B; cbn in B; try discriminate; [injection B; intros <-; eexists; split; [reflexivity|auto]|].
      cbn. eapply IH; eauto. }
    destruct K as (h' & K1 & (K2 & _ & _ & _ & K3 & _) & _). destruct (F5 h' (nth_error_In _ _ K1)) as [G1 G2].
    rewrite K2, K3 in G1, G2. cbn [make_histogram hist_new initialise hi_name hi_n] in G1, G2. unfold bins_in. rewrite G1, G2. auto.
Qed.

Theorem C127_classical_run : forall (E : Engine R) path t lbw counters code garbage fuel pa g q n ty nm m c,
  delivers E -> with_emission_tables path t -> objinfo_inverted code ->
  In (FileParser.y_physics (FileParser.in_physics pa)) ["Classical"; "classical"] ->
  FileParser.y_pair (FileParser.in_physics pa) = false -> FileParser.in_field pa <> FileParser.NoField ->
  FileParser.in_particles pa = [q] -> FileParser.p_output q = true -> species (FileParser.p_type q) ty nm m c ->
  FileParser.p_number q = Z.of_nat n -> (1 <= n <= 536)%nat ->
  simple_names (FileParser.in_histograms pa) ->
  0 < FileParser.g_timeStep (FileParser.in_general pa) ->
  FileParser.g_timeEnd (FileParser.in_general pa) <= INR fuel * FileParser.g_timeStep (FileParser.in_general pa) ->
  exists f, simulation E (Ok t) lbw counters code garbage fuel pa g = Ok f /\
    rows_in f "Primary" = Some [Z.of_nat n; 8%Z] /\
    rows_in f "Electrons" = (if String.eqb nm "Electron" then Some [Z.of_nat n; 8%Z] else None) /\
    rows_in f "Positrons" = (if String.eqb nm "Positron" then Some [Z.of_nat n; 8%Z] else None) /\
    forall h, In h (FileParser.in_histograms pa) ->
      bins_in f (FileParser.h_name h) "BinCentres" = Some [FileParser.h_bins h] /\
      bins_in f (FileParser.h_name h) "BinValues" = Some [FileParser.h_bins h].
Proof.
  intros E path t lbw counters code garbage fuel pa g q n ty nm m c HD HT HI HY HYP HFL HP HO HS HN Hn HH Hdt HF.
  set (dt := FileParser.g_timeStep (FileParser.in_general pa)) in *.
  set (tEnd := FileParser.g_timeEnd (FileParser.in_general pa)) in *.
  set (tracking := FileParser.g_tracking (FileParser.in_general pa)) in *.
  assert (HW : exists fld c0, em_tab c0 = t /\ set_up_world (Ok t) lbw pa = Ok (mkWorld landau_force fld dt [Continuous c0 true])).
  { unfold set_up_world. fold dt tracking.
    assert (CF : exists fld, choose_field (FileParser.in_field pa) = Ok fld) by (destruct (FileParser.in_field pa); cbn; eauto; contradiction).
    destruct CF as (fld & CF). rewrite CF. cbn [bind].
    assert (CP : choose_physics (Ok t) (FileParser.in_physics pa) fld dt tracking = Ok (landau_force,
      Continuous (mkEm fld dt (FileParser.y_fraction (FileParser.in_physics pa)) (FileParser.y_minEnergy (FileParser.in_physics pa)) tracking t) true)).
    { unfold choose_physics. destruct HY as [<-|[<-|[]]]; reflexivity. }
    rewrite CP. cbn [bind fst snd]. unfold choose_pairs. rewrite HYP. cbn [bind]. eexists _, _. split; [|reflexivity]. reflexivity. }
  destruct HW as (fld & c0 & HC & HW). set (w := mkWorld landau_force fld dt [Continuous c0 true]) in *.
  destruct (make_source E tracking q g) as [src g1] eqn:MS.
  assert (SW : wf_source src /\ s_count src = 0%Z /\ s_nPart src = Z.of_nat n /\ s_type src = FileParser.p_type q).
  { unfold make_source in MS. pose proof (new_source_wf E (FileParser.p_type q) (FileParser.p_distro q) (FileParser.p_number q)
      (FileParser.p_energy1 q) (FileParser.p_energy2 q) (FileParser.p_radius q) (FileParser.p_duration q) (FileParser.p_divergence q)
      (FileParser.p_position q) (FileParser.p_direction q) tracking g HD ltac:(lia)) as SW.
    cbv zeta in SW. rewrite MS in SW. cbn [fst] in SW. rewrite <- HN. tauto. }
  destruct SW as (SW1 & SW2 & SW3 & SW4).
  assert (HR : reliable E w).
  { intros pr [<-|[]]. split; [cbn [process_ok]; rewrite HC; eapply shipped_em_ok; eauto|]. eapply classical_never_exits. rewrite HC. exact HT. }
  eapply (simulation_ok E t lbw counters code garbage fuel pa g q n ty nm m c w src g1 (fun _ => True)); eauto.
  { intros pr [<-|[]]. exact I. }
  intros l g0 hs HWl _ HH1. apply (run_ok E w _ (map hi_time hs) hist_fill (usable (length hs)) tEnd fuel l g0 hs HR); auto.
  { apply hist_fill_well. apply map_length. }
  { split; auto. }
  rewrite clock_R. apply Rltb_false. cbn [w w_dt]. rnum. lra.
Qed.
Print Assumptions C127_classical_run.

(** ** C128: the example *)
(** the configuration that example/example.ini describes; lengths, times, energies and the field in the units of the code *)
Definition example_configuration {T} `{Num T} : FileParser.parameters T :=
  let u := si_units (T := T) in
  let len m e := ndiv (nlit m e) (ref_length u) in let time m e := ndiv (nlit m e) (ref_time u) in
  let vlen a b c := vdivs (mkV a b c) (ref_length u) in
  let spectrum name t := FileParser.mkHistogram name "Electron" "energy" t 400 (nlit 0 0) (nlit 5000 0) in
  FileParser.mkParams
    (FileParser.mkGeneral "SI" (time 1 (-17))%Z (time 100 (-15))%Z "example.h5" false)
    (FileParser.GaussianField (ndiv (nlit 200 12) (ref_eField u)) (len 8 (-7))%Z (time 100 (-16))%Z (len 50 (-7))%Z (nlit 0 0)
       (vlen (nlit 0 0) (nlit 0 0) (nlit 100 (-7))) (vlen (nlit 0 0) (nlit 0 0) (nlit 0 0)))
    (FileParser.mkPhysics "Classical" (ndiv (nlit 0 0) (ref_energy u)) (nlit 1 (-1)) false)
    [FileParser.mkParticle 100 "electron" "electron" "gaussian" (vlen (nlit 0 0) (nlit 0 0) (nneg (nlit 10 (-6))))
       (mkV (nlit 0 0) (nlit 0 0) (nlit 1 0)) (ndiv (nlit 8176 (-15)) (ref_energy u)) (ndiv (nlit 8176 (-16)) (ref_energy u))
       (len 10 (-7))%Z (nlit 0 (-1)) (time 50 (-16))%Z true]
    [spectrum "start" (time 0 (-15))%Z; spectrum "end" (time 100 (-15))%Z].

(** any arithmetic: the parser reads that configuration from the text of the file *)
Theorem C128_input : forall (T : Type) (NT : Num T) (special : Text.text -> T),
  FileParser.file_parser special (IniReader.Present (Some (file_of example_lines))) = Ok example_configuration.
Proof. intros T NT special. vm_compute. reflexivity. Qed.
Print Assumptions C128_input.

(** *** One event of the example *)
Notation ex_dt := (FileParser.g_timeStep (FileParser.in_general example_configuration)).
Notation ex_end := (FileParser.g_timeEnd (FileParser.in_general example_configuration)).
Notation ex_times := (map (@FileParser.h_time _) (FileParser.in_histograms example_configuration)).

(** two histograms, the first due at the start, the second not before the end *)
Lemma start_and_end {T} `{Num T} (E : Engine T) (w : world T) S fill tEnd N ht fuel l g (h : S) s' :
  step_count n0 (w_dt w) tEnd N -> (1 <= N)%nat -> nleb ht n0 = true -> (forall n, (n < N)%nat -> nleb tEnd (clock n0 (w_dt w) n) = false) ->
  run_event E w [ht; tEnd] fill fuel tEnd l g h = Ok s' ->
  passes E w N l g = Ok (st_ev E s', st_rng E s') /\
  fills fill 0 [(n0, pl_items l); (clock n0 (w_dt w) N, pl_items (st_ev E s'))] h = Ok (st_hist E s').
Proof.
  intros HN H1 H2 H3 HX. destruct (run_decompose E w _ _ _ _ _ _ _ _ HX) as (M & ns & sn & HM & _ & HP & HS & _ & HF & HH & _).
  assert (M = N) by (eapply step_count_unique; eauto). subst M. split; [exact HP|].
  inversion HS as [|? ? ? Q|? ? ? n ns' Q1 Q2 Q3 Q4]; subst.
  - specialize (Q 0%nat ltac:(lia)). cbn [clock] in Q. congruence.
  - assert (n = 0%nat).
    { destruct n as [|n]; [auto|]. specialize (Q3 0%nat ltac:(lia)). cbn [clock] in Q3. congruence. }
    subst n. inversion Q4 as [|? ? ? Q|? ? ? n ns'' R1 R2 R3 R4]; subst; [|rewrite H3 in R2 by lia; discriminate].
    cbn [length Nat.sub repeat app] in HF. inversion HF as [|? a ? b S1 F1]; subst. inversion F1 as [|? c ? d S2 F2]; subst. inversion F2; subst.
    destruct S1 as (l1 & g1 & P1 & ->). destruct S2 as (l2 & g2 & P2 & ->). cbn [passes] in P1. injection P1; intros <- <-.
    rewrite HP in P2. injection P2; intros <- <-. exact HH.
Qed.

Definition ten_thousand : nat := Z.to_nat 10000.

(** exact reals: 10000 steps *)
Lemma ref_time_pos : 0 < @ref_time R si_units.
Proof. apply (units_pos si_units). reflexivity. Qed.
Lemma ex_dt_R : (ex_dt : R) = 1 / 100000000000000000 / ref_time si_units.
Proof. cbn [example_configuration FileParser.in_general FileParser.g_timeStep]. rlit. rnum. reflexivity. Qed.
Lemma ex_end_R : (ex_end : R) = 10000 * ex_dt.
Proof. rewrite ex_dt_R. cbn [example_configuration FileParser.in_general FileParser.g_timeEnd]. rlit. rnum. pose proof ref_time_pos. field. lra. Qed.
Lemma ten_thousand_R : INR ten_thousand = 10000.
Proof. unfold ten_thousand. rewrite INR_IZR_INZ, Z2Nat.id by lia. reflexivity. Qed.
Lemma ex_dt_pos : 0 < (ex_dt : R).
Proof. rewrite ex_dt_R. apply Rdiv_lt_0_compat; [lra|apply ref_time_pos]. Qed.
Theorem C128_event : forall (E : Engine R) (w : world R) S fill fuel l g (h : S) s', w_dt w = ex_dt ->
  run_event E w ex_times fill fuel ex_end l g h = Ok s' ->
  passes E w ten_thousand l g = Ok (st_ev E s', st_rng E s') /\
  fills fill 0 [(0, pl_items l); (ex_end, pl_items (st_ev E s'))] h = Ok (st_hist E s').
Proof.
  intros E w S fill fuel l g h s' HD HX. pose proof ex_dt_pos as HP. pose proof ten_thousand_R as HT.
  assert (HC : clock n0 (w_dt w) ten_thousand = ex_end) by (rewrite clock_R, HD, HT, ex_end_R, n0_R; ring).
  assert (LT : forall n, (n < ten_thousand)%nat -> clock n0 (w_dt w) n < ex_end).
  { intros n Hn. rewrite clock_R, HD, n0_R, ex_end_R. apply lt_INR in Hn. rewrite HT in Hn. nra. }
  rewrite <- HC at 1. replace (0, pl_items l) with (@n0 R _, pl_items l) by (now rewrite n0_R).
  refine (start_and_end E w S fill ex_end ten_thousand (nth 0 ex_times 0) fuel l g h s' _ _ _ _ HX).
  - split; [intros m Hm; apply Rltb_true, LT, Hm|]. apply Rltb_false. rewrite HC. lra.
  - unfold ten_thousand. lia.
  - cbn [example_configuration FileParser.in_histograms map nth FileParser.h_time]. rlit. rnum. apply Rleb_true. unfold Rdiv. rewrite !Rmult_0_l. lra.
  - intros n Hn. apply Rleb_false, LT, Hn.
Qed.
Print Assumptions C128_event.

(** binary64: 10000 steps as well, though the clock does not hit the end exactly *)
Section Double.
Variables dt tEnd : SpecFloat.spec_float.
Fixpoint all_before (k : nat) (t : SpecFloat.spec_float) : bool :=
  match k with
  | O => negb (SFltb t tEnd)
  | S k' => SFltb t tEnd && negb (SFleb tEnd t) && all_before k' (SFadd 53 1024 t dt)
  end.
End Double.
Lemma all_before_spec (L : Libm) dt tEnd k : forall a t, t = @clock _ (Num_F64 L) (@n0 _ (Num_F64 L)) dt a -> all_before dt tEnd k t = true ->
  (forall m, (a <= m < a + k)%nat -> @nltb _ (Num_F64 L) (@clock _ (Num_F64 L) (@n0 _ (Num_F64 L)) dt m) tEnd = true /\
     @nleb _ (Num_F64 L) tEnd (@clock _ (Num_F64 L) (@n0 _ (Num_F64 L)) dt m) = false) /\
  @nltb _ (Num_F64 L) (@clock _ (Num_F64 L) (@n0 _ (Num_F64 L)) dt (a + k)) tEnd = false.
Proof.
  induction k as [|k IH]; intros a t HT HX; cbn [all_before] in HX.
  - rewrite Nat.add_0_r. split; [intros; lia|]. apply negb_true_iff in HX. rewrite <- HT. exact HX.
  - apply andb_true_iff in HX. destruct HX as [HX H3]. apply andb_true_iff in HX. destruct HX as [H1 H2]. apply negb_true_iff in H2.
    destruct (IH (Datatypes.S a) _ (f_equal (fun x => SFadd 53 1024 x dt) HT) H3) as [I1 I2]. split; [|rewrite Nat.add_succ_r; exact I2].
    intros m Hm. destruct (Nat.eq_dec m a) as [->|]; [rewrite <- HT; split; [exact H1|exact H2]|]. apply I1. lia.
Qed.
Lemma ex_dt_F L : @FileParser.g_timeStep _ (FileParser.in_general (@example_configuration _ (Num_F64 L))) = S754_finite false 8535993552953500 (-40).
Proof. vm_compute. reflexivity. Qed.
Lemma ex_end_F L : @FileParser.g_timeEnd _ (FileParser.in_general (@example_configuration _ (Num_F64 L))) = S754_finite false 5209957002535095 (-26).
Proof. vm_compute. reflexivity. Qed.
Lemma ex_steps_F : all_before (S754_finite false 8535993552953500 (-40)) (S754_finite false 5209957002535095 (-26)) ten_thousand (S754_zero false) = true.
Proof. vm_compute. reflexivity. Qed.
Lemma ten_positive : (1 <= ten_thousand)%nat.
Proof. unfold ten_thousand. lia. Qed.
Lemma double_event (L : Libm) (E : Engine spec_float) (w : world spec_float) S fill dt tEnd ht N fuel l g (h : S) s' :
  all_before dt tEnd N (@n0 _ (Num_F64 L)) = true -> (1 <= N)%nat -> SFleb ht (@n0 _ (Num_F64 L)) = true -> w_dt w = dt ->
  @run_event _ (Num_F64 L) E w S [ht; tEnd] fill fuel tEnd l g h = Ok s' ->
  @passes _ (Num_F64 L) E w N l g = Ok (st_ev E s', st_rng E s') /\
  exists t, fills fill 0 [(@n0 _ (Num_F64 L), pl_items l); (t, pl_items (st_ev E s'))] h = Ok (st_hist E s') /\ SFltb t tEnd = false.
Proof.
  intros HA HN HT HD HX. destruct (all_before_spec L dt tEnd N 0 _ eq_refl HA) as [A1 A2]. rewrite <- HD in A1, A2.
  destruct (@start_and_end _ (Num_F64 L) E w S fill tEnd N ht fuel l g h s') as [B1 B2].
  - split; [intros m Hm; apply A1; lia|exact A2].
  - exact HN.
  - exact HT.
  - intros n Hn. apply A1. lia.
  - exact HX.
  - split; [exact B1|]. eexists. split; [exact B2|exact A2].
Qed.
Theorem C128_event_double : forall (L : Libm) (E : Engine spec_float) (w : world spec_float) S fill fuel l g (h : S) s',
  let cfg := @example_configuration _ (Num_F64 L) in
  let tEnd := FileParser.g_timeEnd (FileParser.in_general cfg) in
  w_dt w = FileParser.g_timeStep (FileParser.in_general cfg) ->
  @run_event _ (Num_F64 L) E w S (map (@FileParser.h_time _) (FileParser.in_histograms cfg)) fill fuel tEnd l g h = Ok s' ->
  @passes _ (Num_F64 L) E w ten_thousand l g = Ok (st_ev E s', st_rng E s') /\
  exists t, fills fill 0 [(@n0 _ (Num_F64 L), pl_items l); (t, pl_items (st_ev E s'))] h = Ok (st_hist E s') /\ SFltb t tEnd = false.
Proof.
  intros L E w S fill fuel l g h s' cfg tEnd HD HX. unfold cfg in HD. rewrite ex_dt_F in HD.
  assert (ET : tEnd = S754_finite false 5209957002535095 (-26)) by (apply ex_end_F).
  assert (EH : map (@FileParser.h_time _) (FileParser.in_histograms cfg) = [@n0 _ (Num_F64 L); S754_finite false 5209957002535095 (-26)]) by (vm_compute; reflexivity).
  rewrite EH in HX. clearbody tEnd. subst tEnd.
  apply (double_event L E w S fill _ _ (@n0 _ (Num_F64 L)) ten_thousand fuel l g h s' ex_steps_F ten_positive eq_refl HD HX).
Qed.
Print Assumptions C128_event_double.

(** *** The run of the example *)
Lemma example_names : simple_names (FileParser.in_histograms (@example_configuration R _)).
Proof.
  split.
  - cbn. constructor; [intros [HX|[]]; discriminate|]. constructor; [intros []|constructor].
  - intros h [<-|[<-|[]]]; (split; [|split; [discriminate|cbn; lia]]); intros c HC;
    cbn in HC; repeat (destruct HC as [<-|HC]; [discriminate|]); destruct HC.
Qed.

(** With the shipped tables, any draws and enough time the program started as the README says completes: 100 primaries, 100 electrons at the end, no
    positron, and two spectra of 400 bins. *)
Theorem C128_run : forall (E : Engine R) path tdisk junk jl lbw counters code garbage fuel files special prog g,
  delivers E -> tables_at path tdisk -> objinfo_inverted code -> (ten_thousand <= fuel)%nat ->
  files "example.ini" = IniReader.Present (Some (file_of example_lines)) ->
  exists f, program E (Tables.load_em junk jl (Some path) tdisk) lbw counters code garbage fuel files special [prog; "example.ini"] g = Ok f /\
    rows_in f "Primary" = Some [100; 8]%Z /\ rows_in f "Electrons" = Some [100; 8]%Z /\ rows_in f "Positrons" = None /\
    forall name part, In name ["start"; "end"] -> In part ["BinCentres"; "BinValues"] -> bins_in f name part = Some [400%Z].
Proof.
  intros E path tdisk junk jl lbw counters code garbage fuel files special prog g HD HT HI HF HX.
  destruct (C123_emission_tables (T := R) path tdisk HT) as (t & HL & _). rewrite (HL junk jl).
  assert (WT : with_emission_tables path t) by (exists tdisk, junk, jl; auto).
  change "example.ini" with ("example" ++ ".ini")%string. rewrite C74_input_file by (cbn; lia). change ("example" ++ ".ini")%string with "example.ini".
  rewrite HX, C128_input. cbn [bind].
  destruct (C127_classical_run E path t lbw counters code garbage fuel example_configuration g
    (nth 0 (FileParser.in_particles example_configuration) (FileParser.mkParticle 0 "" "" "" (mkV 0 0 0) (mkV 0 0 0) 0 0 0 0 0 false)) 100 PLepton "Electron" 1 (-1))
    as (f & F1 & F2 & F3 & F4 & F5); auto.
  - left. reflexivity.
  - discriminate.
  - constructor.
  - lia.
  - apply example_names.
  - apply ex_dt_pos.
  - rewrite ex_end_R. apply Rmult_le_compat_r; [left; apply ex_dt_pos|]. rewrite <- ten_thousand_R. apply le_INR. exact HF.
  - exists f. split; [exact F1|]. split; [exact F2|]. split; [exact F3|]. split; [exact F4|].
    intros name part [<-|[<-|[]]] [<-|[<-|[]]].
    + apply (F5 (nth 0 (FileParser.in_histograms example_configuration) (FileParser.mkHistogram "" "" "" 0 0 0 0))). left. reflexivity.
    + apply (F5 (nth 0 (FileParser.in_histograms example_configuration) (FileParser.mkHistogram "" "" "" 0 0 0 0))). left. reflexivity.
    + apply (F5 (nth 1 (FileParser.in_histograms example_configuration) (FileParser.mkHistogram "" "" "" 0 0 0 0))). right. left. reflexivity.
    + apply (F5 (nth 1 (FileParser.in_histograms example_configuration) (FileParser.mkHistogram "" "" "" 0 0 0 0))). right. left. reflexivity.
Qed.
Print Assumptions C128_run.

(** any arithmetic: if H5Oget_info_by_name fails for a missing object, as documented, the example does not complete *)
Theorem C128_documented_library : forall (T : Type) (NT : Num T) (E : Engine T) lem lbw counters code garbage fuel files special prog g f,
  objinfo_documented code -> files "example.ini" = IniReader.Present (Some (file_of example_lines)) ->
  program E lem lbw counters code garbage fuel files special [prog; "example.ini"] g <> Ok f.
Proof.
  intros T NT E lem lbw counters code garbage fuel files special prog g f HD HX.
  change "example.ini" with ("example" ++ ".ini")%string. rewrite C74_input_file by (cbn; lia). change ("example" ++ ".ini")%string with "example.ini".
  rewrite HX, C128_input. cbn [bind]. apply C92_documented_library; [exact HD|]. left. discriminate.
Qed.
Print Assumptions C128_documented_library.

(** there are such engines, disks and libraries *)
Example C128_case : delivers neg_engine /\ tables_at "Tables" (one_disk "Tables" shipped_tables) /\ objinfo_inverted ex_code.
Proof. split; [intros n g; cbn; apply repeat_length|]. split; [apply C123_case|]. split; [discriminate|reflexivity]. Qed.

Example C127_case : let pa := @example_configuration R _ in
  (exists t, with_emission_tables (T := R) "Tables" t) /\ delivers neg_engine /\ objinfo_inverted ex_code /\
  In (FileParser.y_physics (FileParser.in_physics pa)) ["Classical"; "classical"] /\ FileParser.in_field pa <> FileParser.NoField /\
  simple_names (FileParser.in_histograms pa) /\ (0 < FileParser.g_timeStep (FileParser.in_general pa)).
Proof.
  intros pa. split; [apply have_emission_tables|]. split; [apply C128_case|]. split; [apply C128_case|].
  split; [left; reflexivity|]. split; [discriminate|]. split; [apply example_names|apply ex_dt_pos].
Qed.
