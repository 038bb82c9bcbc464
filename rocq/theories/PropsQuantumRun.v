(** * Property C133: the main program with quantum emission and the shipped tables *)
From Coq Require Import String ZArith Reals Lra Psatz List Bool Ascii Lia.
From Verif Require Import Num RNum Outcome OutcomeFacts Vec SpecVec VecFacts SpecDyn Units MCTools MCFacts Numerics NumericsFacts Particle ParticleList ParticleFacts
  Source SourceFacts Fields FieldFacts PropsFields Pusher Process ProcessSafe Sim SimFacts SimTime SimClock Histogram HistFacts Hdf5 Output OutFacts OutFile PropsOut PropsTables
  Program ProgramFacts PropsProgram Shipped PropsShipped ShippedReal PropsProcess PropsSample PropsUse CompleteFacts ExampleData PropsExample BoundedRun PropsQuantum.
From Verif Require FileParser IniReader Text Tables.
Import ListNotations.
Local Open Scope string_scope.
Local Open Scope list_scope.
Local Open Scope R_scope.

(** the energies that the source of a particle section may sample are at most P in size *)
Definition energies_within (E : Engine R) (q : FileParser.particle R) (P : R) : Prop :=
  if (String.eqb (FileParser.p_distro q) "gaussian" || String.eqb (FileParser.p_distro q) "Gaussian")%bool
  then forall n g z, In z (fst (e_normals E n g)) -> Rabs (z * FileParser.p_energy2 q + FileParser.p_energy1 q) <= P
  else Rabs (FileParser.p_energy1 q) <= P /\ Rabs (FileParser.p_energy2 q) <= P.

Lemma uniform_within (E : Engine R) a b P : (forall g, 0 <= fst (e_canon E g) <= 1) -> Rabs a <= P -> Rabs b <= P -> forall n g e,
  In e (fst (sample_uniform E a b n g)) -> Rabs e <= P.
Proof.
  intros HU Ha Hb. induction n as [|n IH]; intros g e; cbn [sample_uniform]; [intros []|]. unfold rand_double. specialize (HU g).
  destruct (e_canon E g) as [u g1]. specialize (IH g1 e). destruct (sample_uniform E a b n g1) as [l g2]. cbn [fst] in *. intros [<-|HI]; [|auto].
  rnum. apply Rabs_le. pose proof (Rle_abs a). pose proof (Rle_abs b). pose proof (Rle_abs (- a)). pose proof (Rle_abs (- b)). rewrite !Rabs_Ropp in *.
  replace (u * (b - a) + a) with (u * b + (1 - u) * a) by ring. nra.
Qed.
Lemma source_energies (E : Engine R) tr q g P : (forall g, 0 <= fst (e_canon E g) <= 1) -> energies_within E q P ->
  forall e, In e (s_energies (fst (make_source E tr q g))) -> Rabs e <= P.
Proof.
  intros HU HE e. unfold make_source, new_source. unfold energies_within in HE.
  destruct (sample_norm E n0 _ _ g) as [xs g1]. destruct (sample_norm E n0 _ _ g1) as [ys g2]. destruct (sample_norm E n0 _ _ g2) as [zs g3].
  destruct (sample_norm E n0 _ _ g3) as [ths g4]. destruct (sample_uniform E n0 _ _ g4) as [phs g5].
  destruct (_ || _)%bool.
  - unfold sample_norm. specialize (HE (Z.to_nat (FileParser.p_number q)) g5). destruct (e_normals E _ g5) as [ns g6]. cbn [fst s_energies] in *.
    intros HI. apply in_map_iff in HI. destruct HI as (z & <- & HI). rnum. now apply HE.
  - pose proof (uniform_within E (FileParser.p_energy1 q) (FileParser.p_energy2 q) P HU (proj1 HE) (proj2 HE) (Z.to_nat (FileParser.p_number q)) g5 e) as U.
    destruct (sample_uniform E _ _ _ g5) as [es g6]. cbn [fst s_energies] in *. exact U.
Qed.

Lemma unit_le v : rlen (runit v) <= 1.
Proof.
  destruct (Req_dec (rlen v) 0) as [Z|NZ].
  - unfold runit. rewrite Z. unfold Rdiv. rewrite Rinv_0. unfold rlen. destruct v as [a b c]. runf. replace (_ + _ + _) with 0 by ring. rewrite sqrt_0. lra.
  - rewrite rlen_unit; [lra|]. intros ->. apply NZ. unfold rlen. replace (rlen2 rzero) with 0 by (runf; ring). apply sqrt_0.
Qed.

Lemma get_In {A} (l : list A) i a : get l i = Ok a -> In a l.
Proof.
  unfold get. destruct (_ || _)%bool; [discriminate|]. destruct (nth_error l (Z.to_nat i)) eqn:EN; [|discriminate]. intros HX. injection HX; intros ->.
  eapply nth_error_In; eauto.
Qed.
Lemma primary_slower (E : Engine R) P src g l src' g' : double_draws E -> (forall e, In e (s_energies src) -> Rabs e <= P) ->
  generate_list E src g = Ok (l, src', g') -> Forall (slower P) (pl_items l).
Proof.
  intros HU HE. unfold generate_list. destruct (_ =? _)%Z; [discriminate|].
  intros HX. do 5 (apply bind_ok in HX; destruct HX as [? [_ HX]]). apply bind_ok in HX. destruct HX as [en [HG HX]].
  assert (HEn : Rabs en <= P) by (apply HE; eapply get_In; eauto).
  apply bind_ok in HX. destruct HX as [[p g1] [HM HX]]. injection HX; intros _ _ <-. clear HX.
  assert (HS : slower P p).
  { unfold make_primary in HM.
    assert (K : forall d, rlen (smul en (vnorm d)) <= P).
    { intros d. rewrite smul_R, vnorm_R, rlen_scale. pose proof (unit_le d). pose proof (rlen_nonneg (runit d)). pose proof (Rabs_pos en). nra. }
    destruct (is_name _ _ _); [|destruct (is_name _ _ _); [|destruct (is_name _ _ _); [|discriminate]]].
    - left. injection HM; intros HM'; replace p with (fst (p, g1)) by reflexivity; rewrite <- HM'. unfold new_photon_energy.
      match goal with |- p_mass (fst (new_particle E ?a ?b ?c ?d ?e ?f ?g ?h ?i ?j)) = _ => pose proof (new_particle_fields E a b c d e f g h i j) as F end.
      cbv zeta in F. rewrite (proj1 (proj2 (proj2 F))). rnum. reflexivity.
    - right. injection HM; intros HM'; replace p with (fst (p, g1)) by reflexivity; rewrite <- HM'. unfold new_lepton_energy.
      match goal with |- context [new_particle E ?a ?b ?c ?d ?e ?f ?g ?h ?i ?j] => pose proof (new_particle_fields E a b c d e f g h i j) as F end.
      cbv zeta in F. destruct F as (F1 & _ & F3 & F4 & _ & F6 & _ & _ & _ & _ & _ & _ & _ & _ & F15 & _). rewrite F1, F3, F4, F6, F15.
      split; [auto|]. split; [rnum; auto|]. split; [rlit; apply Rabs_le; lra|]. split; [now apply draw_nonneg|apply K].
    - right. injection HM; intros HM'; replace p with (fst (p, g1)) by reflexivity; rewrite <- HM'. unfold new_lepton_energy.
      match goal with |- context [new_particle E ?a ?b ?c ?d ?e ?f ?g ?h ?i ?j] => pose proof (new_particle_fields E a b c d e f g h i j) as F end.
      cbv zeta in F. destruct F as (F1 & _ & F3 & F4 & _ & F6 & _ & _ & _ & _ & _ & _ & _ & _ & F15 & _). rewrite F1, F3, F4, F6, F15.
      split; [auto|]. split; [rnum; auto|]. split; [rnum; apply Rabs_le; lra|]. split; [now apply draw_nonneg|apply K]. }
  unfold pl_add. destruct (Z.ltb _ _); cbn [pl_items pl_new app]; [constructor; [exact HS|constructor]|constructor].
Qed.

(** One source written to the file, quantum emission without pair creation, fields up to A and B, energies of the source up to P, N steps to the end
    time, and sqrt (1 + p^2) (A + B) <= 8.69 for p = max P 1 + N dt (A + B): the program completes. *)
Theorem C133_quantum_run : forall (E : Engine R) path t lbw counters code garbage fuel pa g q n ty nm m c fld A B P N,
  delivers E -> double_draws E -> with_emission_tables path t -> objinfo_inverted code ->
  In (FileParser.y_physics (FileParser.in_physics pa)) ["Quantum"; "quantum"] ->
  FileParser.y_pair (FileParser.in_physics pa) = false ->
  choose_field (FileParser.in_field pa) = Ok fld -> field_within A B fld ->
  FileParser.in_particles pa = [q] -> FileParser.p_output q = true -> species (FileParser.p_type q) ty nm m c ->
  FileParser.p_number q = Z.of_nat n -> (1 <= n <= 536)%nat -> energies_within E q P ->
  simple_names (FileParser.in_histograms pa) ->
  let dt := FileParser.g_timeStep (FileParser.in_general pa) in
  0 <= dt -> FileParser.g_timeEnd (FileParser.in_general pa) <= INR N * dt -> (N <= fuel)%nat ->
  let pmax := Rmax P 1 + INR N * (dt * (A + B)) in sqrt (1 + pmax * pmax) * (A + B) <= 869/100 ->
  exists f, simulation E (Ok t) lbw counters code garbage fuel pa g = Ok f /\
    rows_in f "Primary" = Some [Z.of_nat n; 8%Z] /\
    rows_in f "Electrons" = (if String.eqb nm "Electron" then Some [Z.of_nat n; 8%Z] else None) /\
    rows_in f "Positrons" = (if String.eqb nm "Positron" then Some [Z.of_nat n; 8%Z] else None) /\
    forall h, In h (FileParser.in_histograms pa) ->
      bins_in f (FileParser.h_name h) "BinCentres" = Some [FileParser.h_bins h] /\
      bins_in f (FileParser.h_name h) "BinValues" = Some [FileParser.h_bins h].
Proof.
  intros E path t lbw counters code garbage fuel pa g q n ty nm m c fld A B P N HD HU HT HI HY HYP CF HF HP HO HS HN Hn HEN HH dt Hdt HE HL pmax HB.
  set (tracking := FileParser.g_tracking (FileParser.in_general pa)) in *.
  set (c0 := mkEm fld dt (FileParser.y_fraction (FileParser.in_physics pa)) (FileParser.y_minEnergy (FileParser.in_physics pa)) tracking t).
  set (w := mkWorld lorentz_force fld dt [Stochastic c0]).
  assert (HW : set_up_world (Ok t) lbw pa = Ok w).
  { unfold set_up_world. fold dt tracking. rewrite CF. cbn [bind].
    assert (CP : choose_physics (Ok t) (FileParser.in_physics pa) fld dt tracking = Ok (lorentz_force, Stochastic c0)).
    { unfold choose_physics. destruct HY as [<-|[<-|[]]]; reflexivity. }
    rewrite CP. cbn [bind fst snd]. unfold choose_pairs. rewrite HYP. reflexivity. }
  destruct (make_source E tracking q g) as [src g1] eqn:MS.
  assert (SW : wf_source src /\ s_count src = 0%Z /\ s_nPart src = Z.of_nat n /\ s_type src = FileParser.p_type q).
  { unfold make_source in MS. pose proof (new_source_wf E (FileParser.p_type q) (FileParser.p_distro q) (FileParser.p_number q)
      (FileParser.p_energy1 q) (FileParser.p_energy2 q) (FileParser.p_radius q) (FileParser.p_duration q) (FileParser.p_divergence q)
      (FileParser.p_position q) (FileParser.p_direction q) tracking g HD ltac:(lia)) as SW.
    cbv zeta in SW. rewrite MS in SW. cbn [fst] in SW. rewrite <- HN. tauto. }
  destruct SW as (SW1 & SW2 & SW3 & SW4).
  assert (SE : forall e, In e (s_energies src) -> Rabs e <= P).
  { pose proof (source_energies E tracking q g P) as SE. rewrite MS in SE. apply SE; auto. intros g0. pose proof (HU g0). lra. }
  eapply (simulation_ok E t lbw counters code garbage fuel pa g q n ty nm m c w src g1 (fun l => Forall (slower P) (pl_items l))); eauto.
  { intros pr [<-|[]]. exact I. }
  { intros k g0 l src' g' HG. apply (primary_slower E P (with_count src k) g0 l src' g' HU SE HG). }
  intros l g0 hs HWl HSl HH1.
  destruct (C132_run_completes E w path A B P N HU eq_refl HF Hdt) with (S := list (hist R)) (htimes := map hi_time hs) (fill := hist_fill (T := R))
    (good := usable (T := R) (length hs)) (tEnd := FileParser.g_timeEnd (FileParser.in_general pa)) (l := l) (g := g0) (h := hs) (fuel := fuel) as (s' & HX & HG & _); auto.
  { intros pr [<-|[]]. cbn [shipped_emission c0 em_tab em_field em_dt]. auto. }
  { apply hist_fill_well. apply map_length. }
  { split; auto. }
  exists s'. auto.
Qed.
Print Assumptions C133_quantum_run.

(** ** The example of the README with quantum emission *)
(** example/example.ini with the line for the model changed *)
Definition quantum_lines : list string :=
  map (fun l => if String.eqb l "radiation_model = Classical" then "radiation_model = Quantum" else l) example_lines.
Definition quantum_configuration {T} `{Num T} : FileParser.parameters T :=
  let pa := example_configuration in
  FileParser.mkParams (FileParser.in_general pa) (FileParser.in_field pa)
    (FileParser.mkPhysics "Quantum" (FileParser.y_minEnergy (FileParser.in_physics pa)) (FileParser.y_fraction (FileParser.in_physics pa)) false)
    (FileParser.in_particles pa) (FileParser.in_histograms pa).
Theorem C133_input : forall (T : Type) (NT : Num T) (special : Text.text -> T),
  FileParser.file_parser special (IniReader.Present (Some (file_of quantum_lines))) = Ok quantum_configuration.
Proof. intros T NT special. vm_compute. reflexivity. Qed.
Print Assumptions C133_input.

(** the numbers of the example in the units of the code *)
Definition ex_amplitude : R := 200000000000000 / ref_eField si_units.
Lemma amplitude_le : 0 < ex_amplitude <= 15114/100000000.
Proof. unfold ex_amplitude, si_units, ref_eField, si_eSchw. rlit. lra. Qed.
Lemma ex_dt_le : (ex_dt : R) <= 7764.
Proof.
  rewrite ex_dt_R. unfold si_units, ref_time, si_eSchw, si_qe, si_me, si_c. rnum. rlit.
  match goal with |- ?a / (1 / ?b) <= _ => replace (a / (1 / b)) with (a * b) by (field; repeat split; lra) end. lra.
Qed.
Lemma ex_energies z : Rabs z <= 500 -> Rabs (z * (8176 / 10000000000000000 / ref_energy si_units) + 8176 / 1000000000000000 / ref_energy si_units) <= 5100.
Proof.
  intros Hz. assert (HE : 8187/100000000000000000 <= @ref_energy R si_units) by (unfold si_units, ref_energy, si_me, si_c; rnum; rlit; lra).
  set (e := ref_energy si_units) in *. assert (HI : / e <= 1 / (8187/100000000000000000)) by (unfold Rdiv; rewrite Rmult_1_l; apply Rinv_le_contravar; lra).
  assert (0 < / e) by (apply Rinv_0_lt_compat; lra). apply Rabs_le. pose proof (Rle_abs z). pose proof (Rle_abs (- z)) as Q. rewrite Rabs_Ropp in Q.
  unfold Rdiv. nra.
Qed.
Lemma down_dir a : 0 < a -> good_dir (v3 0 0 (- a)).
Proof.
  intros Ha. assert (NZ : v3 0 0 (- a) <> rzero) by (intros HX; injection HX; intros; lra). split; [exact NZ|]. right.
  assert (L : rlen (v3 0 0 (- a)) = a).
  { unfold rlen. replace (rlen2 (v3 0 0 (- a))) with (a * a) by (runf; ring). apply sqrt_square. lra. }
  unfold runit. rewrite L. runf. f_equal; field; lra.
Qed.
Lemma example_field : exists fld, choose_field (FileParser.in_field (@quantum_configuration R _)) = Ok fld /\ field_within (15114/100000000) (15114/100000000) fld.
Proof.
  eexists. split; [reflexivity|]. intros t x. pose proof (units_pos si_units eq_refl) as (U1 & U2 & U3 & _). pose proof amplitude_le as AM.
  match goal with |- context [gauss_field (new_gauss ?m ?w ?d ?a ?p ?s ?f) t x] => pose proof (C28_gauss_bound m w d a p s f t x) as HG;
    assert (HM : Rabs m <= 15114/100000000); [|assert (HD : rminus f s = v3 0 0 (- (1 / 100000 / ref_length si_units)))] end.
  { rnum. rlit. fold ex_amplitude. rewrite Rabs_pos_eq by lra. lra. }
  { rewrite !vdivs_R. runf. rlit. cbn [vx vy vz]. f_equal; field; lra. }
  destruct (gauss_field _ t x) as [e b]. destruct HG as (_ & _ & G1 & G2).
  - rewrite HD. apply down_dir. apply Rdiv_lt_0_compat; lra.
  - rnum. rlit. apply Rgt_not_eq, Rdiv_lt_0_compat; lra.
  - rnum. rlit. apply Rgt_not_eq, Rdiv_lt_0_compat; lra.
  - rnum. rlit. apply Rgt_not_eq, Rdiv_lt_0_compat; lra.
  - cbn [fst snd]. rewrite <- G1. lra.
Qed.

(** With the shipped tables, draws below 1 - 1e-16 and normal deviates within 500 the program completes: 100 primaries, 100 electrons at the end, no positron, and
    two spectra of 400 bins. *)
Theorem C133_example_run : forall (E : Engine R) path tdisk junk jl lbw counters code garbage fuel files special prog g,
  delivers E -> double_draws E -> (forall n g z, In z (fst (e_normals E n g)) -> Rabs z <= 500) ->
  tables_at path tdisk -> objinfo_inverted code -> (ten_thousand <= fuel)%nat ->
  files "example.ini" = IniReader.Present (Some (file_of quantum_lines)) ->
  exists f, program E (Tables.load_em junk jl (Some path) tdisk) lbw counters code garbage fuel files special [prog; "example.ini"] g = Ok f /\
    rows_in f "Primary" = Some [100; 8]%Z /\ rows_in f "Electrons" = Some [100; 8]%Z /\ rows_in f "Positrons" = None /\
    forall name part, In name ["start"; "end"] -> In part ["BinCentres"; "BinValues"] -> bins_in f name part = Some [400%Z].
Proof.
  intros E path tdisk junk jl lbw counters code garbage fuel files special prog g HD HU HNo HT HI HF HX.
  destruct (C123_emission_tables (T := R) path tdisk HT) as (t & HL & _). rewrite (HL junk jl).
  assert (WT : with_emission_tables path t) by (exists tdisk, junk, jl; auto).
  change "example.ini" with ("example" ++ ".ini")%string. rewrite C74_input_file by (cbn; lia). change ("example" ++ ".ini")%string with "example.ini".
  rewrite HX, C133_input. cbn [bind]. destruct example_field as (fld & CF & FW).
  pose proof ex_dt_pos as DP. pose proof ex_dt_le as DL.
  destruct (C133_quantum_run E path t lbw counters code garbage fuel quantum_configuration g
    (nth 0 (FileParser.in_particles example_configuration) (FileParser.mkParticle 0 "" "" "" (mkV 0 0 0) (mkV 0 0 0) 0 0 0 0 0 false)) 100 PLepton "Electron" 1 (-1)
    fld (15114/100000000) (15114/100000000) 5100 ten_thousand)
    as (f & F1 & F2 & F3 & F4 & F5); auto.
  - left. reflexivity.
  - constructor.
  - lia.
  - unfold energies_within. cbn [example_configuration FileParser.in_particles nth FileParser.p_distro FileParser.p_energy1 FileParser.p_energy2 String.eqb Ascii.eqb Bool.eqb orb].
    intros n g0 z HZ. rnum. rlit. apply ex_energies. eapply HNo; eauto.
  - apply example_names.
  - change (FileParser.g_timeStep (FileParser.in_general quantum_configuration)) with (ex_dt : R). lra.
  - change (FileParser.g_timeStep (FileParser.in_general quantum_configuration)) with (ex_dt : R).
    change (FileParser.g_timeEnd (FileParser.in_general quantum_configuration)) with (ex_end : R). rewrite ex_end_R, ten_thousand_R. lra.
  - change (FileParser.g_timeStep (FileParser.in_general quantum_configuration)) with (ex_dt : R). rewrite ten_thousand_R, Rmax_left by lra.
    set (d := ex_dt : R) in *. clearbody d.
    match goal with |- sqrt (1 + ?p * ?p) * _ <= _ => assert (0 <= p <= 28570) by lra; assert (S1 : sqrt (1 + p * p) <= 28571) end.
    { apply Rle_trans with (sqrt (28571 * 28571)); [apply sqrt_le_1_alt; nra|rewrite sqrt_square; lra]. }
    lra.
  - exists f. split; [exact F1|]. split; [exact F2|]. split; [exact F3|]. split; [exact F4|].
    intros name part [<-|[<-|[]]] [<-|[<-|[]]].
    + apply (F5 (nth 0 (FileParser.in_histograms example_configuration) (FileParser.mkHistogram "" "" "" 0 0 0 0))). left. reflexivity.
    + apply (F5 (nth 0 (FileParser.in_histograms example_configuration) (FileParser.mkHistogram "" "" "" 0 0 0 0))). left. reflexivity.
    + apply (F5 (nth 1 (FileParser.in_histograms example_configuration) (FileParser.mkHistogram "" "" "" 0 0 0 0))). right. left. reflexivity.
    + apply (F5 (nth 1 (FileParser.in_histograms example_configuration) (FileParser.mkHistogram "" "" "" 0 0 0 0))). right. left. reflexivity.
Qed.
Print Assumptions C133_example_run.

Example C133_case : delivers neg_engine /\ double_draws neg_engine /\ (forall n g z, In z (fst (e_normals neg_engine n g)) -> Rabs z <= 500) /\
  tables_at "Tables" (one_disk "Tables" shipped_tables) /\ objinfo_inverted ex_code /\ quantum_lines <> example_lines.
Proof.
  split; [apply C128_case|]. split; [intros g; cbn; lra|]. split; [intros n g z HZ; cbn in HZ; apply repeat_spec in HZ; subst z; rewrite Rabs_R0; lra|].
  split; [apply C123_case|]. split; [apply C128_case|]. vm_compute. discriminate.
Qed.
