(** * The program built with OpenMP: C138 *)
From Coq Require Import String ZArith List Bool Lia Permutation SpecFloat.
From Verif Require Import Num Outcome OutcomeFacts Vec Units Numerics MCTools Particle ParticleList Source SourceFacts Fields Pusher Process Sim Histogram Hdf5
  Output Text Ini IniReader Program PropsTables PropsOut PropsProgram Threads ThreadFacts ThreadSerial ThreadReplay ThreadProgram ThreadOrder ProgramFacts Num.
From Verif Require FileParser PropsSafe.
Import ListNotations.
Local Open Scope string_scope.
Local Open Scope list_scope.

Section Spec.
Context {T : Type} `{NT : Num T}.
Variable disk : string -> path.
Variable special : text -> T.
(** the input file named by the arguments is read *)
Definition reads (argv : list string) (pa : FileParser.parameters T) : Prop :=
  exists name, check_arguments argv = Ok name /\ FileParser.file_parser special (disk name) = Ok pa.
(** the file asks for no tracks *)
Definition untracked (argv : list string) : Prop := forall pa, reads argv pa -> FileParser.g_tracking (FileParser.in_general pa) = false.
(** the uniform numbers are in [dom], the normal deviates in [domn] *)
Definition draws_in (dom domn : T -> bool) (E : Engine T) : Prop :=
  (forall g, dom (fst (e_canon E g)) = true) /\ (forall n g z, In z (fst (e_normals E n g)) -> domn z = true).
End Spec.

Section Main.
Context {T : Type} `{NT : Num T}.
Variable E : Engine T.
Variable load_em : res (em_tables T).
Variable load_bw : res (bw_tables T).
Variable counters : nat -> Z.
Variable code : objinfo.
Variable garbage : T.
Variable fuel : nat.
Variable disk : string -> path.
Variable special : text -> T.
Notation serial E := (program E load_em load_bw counters code garbage fuel disk special).
Notation threaded := (threaded_program E garbage code fuel load_em load_bw counters disk special).

(** Whatever the order of the accesses: if the program with threads completes, then there is a serial run, of a generator that delivers the
    same random numbers in another order (the normal deviates of each sample in another order, the uniform numbers in another order), that
    writes the same file. *)
Theorem C138_serialises : forall dom domn argv g f, delivers E -> draws_in dom domn E -> untracked disk special argv -> threaded argv g (Ok f) ->
  exists ns us g' ns' us', delivered E g ns us g' /\ Forall2 (@Permutation T) ns ns' /\ Permutation us us' /\
    serial (replay dom domn) argv (ns', us') = Ok f.
Proof.
  intros dom domn argv g f DL [DM DN] UT X. unfold threaded_program in X. unfold program.
  destruct (check_arguments argv) as [name| | | |] eqn:CA; cbn [bind] in *; try discriminate X.
  destruct (FileParser.file_parser special (disk name)) as [pa| | | |] eqn:FP; cbn [bind] in *; try discriminate X.
  specialize (UT pa (ex_intro _ name (conj CA FP))). destruct (PropsSafe.counts32 special _ _ FP) as [CN _].
  unfold threaded_simulation, simulation in *. cbv zeta in *. rewrite UT in *.
  destruct (set_up_world load_em load_bw pa) as [w| | | |]; cbn [bind] in *; try discriminate X.
  destruct (make_sources E false (FileParser.in_particles pa) g) as [ss g1] eqn:MS.
  destruct (om_new code None) as [o| | | |]; cbn [bind] in *; try discriminate X.
  destruct X as (y & TL & X). destruct y as [s'| | | |]; try discriminate X. cbn [bind] in X.
  destruct (sources_replay E dom domn DM DN DL false (FileParser.in_particles pa) CN g ss g1 MS) as (FR & ns & us & D1 & R1).
  destruct (threaded_sources E dom domn garbage code fuel DM w _ ss FR _ _ TL) as (sgs & vs & vs' & A & D2 & P2 & R2). cbn [pg_rng pg_om pg_hists] in *.
  destruct (R1 sgs A) as (ns' & us' & P1 & P3 & R3).
  exists ns, (us ++ vs), (pg_rng E s'), ns', (us' ++ vs').
  split; [rewrite <- (app_nil_r ns); eapply delivered_app; [exact D1|]; apply drawn_delivered; exact D2|].
  split; [exact P1|]. split; [apply Permutation_app; assumption|].
  specialize (R3 [] vs'). rewrite app_nil_r in R3. rewrite R3. specialize (R2 [] []). rewrite app_nil_r in R2. rewrite R2. cbn [bind pg_om pg_hists]. symmetry. exact X.
Qed.

(** So what holds for the files of all serial runs holds for the files of all threaded runs. *)
Theorem C138_transfers : forall (dom domn : T -> bool) argv (P : file T -> Prop), dom n0 = true -> domn n0 = true ->
  (forall (E' : Engine T) g f, delivers E' -> draws_in dom domn E' -> serial E' argv g = Ok f -> P f) ->
  delivers E -> draws_in dom domn E -> untracked disk special argv -> forall g f, threaded argv g (Ok f) -> P f.
Proof.
  intros dom domn argv P D0 DN0 HP DL DM UT g f X. destruct (C138_serialises dom domn argv g f DL DM UT X) as (_ & _ & _ & ns' & us' & _ & _ & _ & R).
  exact (HP (replay dom domn) (ns', us') f (replay_delivers dom domn) (conj (replay_domain dom domn D0) (replay_normals dom domn DN0)) R).
Qed.

(** The serial run is one of the runs with threads, also if it fails. *)
Lemma serial_loop w tEnd tracking ss : Forall (fun x => s_count (snd x) = 0%Z) ss -> forall s,
  threaded_loop E garbage code fuel w tEnd tracking ss s (source_loop E code garbage fuel w tEnd tracking ss s).
Proof.
  induction ss as [|[output src] ss IH]; intros C s; cbn [threaded_loop source_loop]; [reflexivity|]. apply Forall_cons_iff in C as [C1 C2]. cbn [snd] in C1. cbv zeta.
  set (o0 := if output then _ else _). set (s0 := mkSh E (pg_rng E s) src (pg_hists E s) o0).
  set (its := map _ _). set (n := Z.to_nat (s_nPart src)) in *.
  assert (L : length its = n) by (unfold its; rewrite map_length, seq_length; reflexivity).
  pose proof (order_all E garbage its (seq 0 n) s0) as P. rewrite L in P. specialize (P (Permutation_refl _)).
  exists (run_order E garbage its (seq 0 n) s0). split; [exact P|].
  pose proof (run_order_serial E garbage w (plan_of (pg_hists E s)) fuel tEnd output tracking src n 0 (seq 0 n) its s0 0 eq_refl) as Q. rewrite Nat.sub_0_r in Q.
  specialize (Q eq_refl). unfold s0 at 1 2 4 5 in Q. unfold prog_of at 2 in Q. cbn [sh_src sh_hists sh_om sh_rng] in Q. change (Z.of_nat 0) with 0%Z in Q. rewrite <- Q; clear Q; auto.
  2:{ rewrite <- (with_count_same src) at 1. now rewrite C1. }
  destruct (run_order E garbage its (seq 0 n) s0) as [s1| | | |]; cbn [bind rmap]; try reflexivity. unfold prog_of. cbn [pg_om pg_hists pg_rng].
  destruct (output_events code garbage (sh_om E s1) output tracking) as [o1| | | |]; cbn [bind]; try reflexivity. apply IH. exact C2.
Qed.
Lemma sources_unused tracking qs : forall g, Forall (fun x => s_count (snd x) = 0%Z) (fst (make_sources E tracking qs g)).
Proof.
  induction qs as [|q qs IH]; intros g; cbn [make_sources]; [constructor|]. pose proof (make_source_for E tracking q g) as (_ & _ & _ & _ & MC).
  destruct (make_source E tracking q g) as [s g1]. specialize (IH g1). destruct (make_sources E tracking qs g1) as [ss g2]. cbn [fst] in *. constructor; [|exact IH]. exact MC.
Qed.
Theorem C138_serial_schedule : forall argv g, threaded argv g (serial E argv g).
Proof.
  intros argv g. unfold threaded_program, program. destruct (check_arguments argv) as [name| | | |]; cbn [bind rmap]; try reflexivity.
  destruct (FileParser.file_parser special (disk name)) as [pa| | | |]; cbn [bind rmap]; try reflexivity.
  unfold threaded_simulation, simulation. cbv zeta. destruct (set_up_world load_em load_bw pa) as [w| | | |]; cbn [bind rmap]; try reflexivity.
  pose proof (sources_unused (FileParser.g_tracking (FileParser.in_general pa)) (FileParser.in_particles pa) g) as SU.
  destruct (make_sources E _ (FileParser.in_particles pa) g) as [ss g1]. cbn [fst] in SU. destruct (om_new code None) as [o| | | |]; cbn [bind rmap]; try reflexivity.
  eexists. split; [apply serial_loop; exact SU|]. reflexivity.
Qed.

(** ** Schedules that run whole iterations, in any order *)
Fixpoint ordered_loop (w : world T) (tEnd : T) (tracking : bool) (orders : list (list nat)) (ss : list (bool * source T)) (s : prog E) : res (prog E) :=
  match ss, orders with
  | (output, src) :: r, order :: orders' =>
      let o0 := if output then init_source (pg_om E s) (s_nPart src) else pg_om E s in
      let its := map (fun j => iteration w (plan_of (pg_hists E s)) fuel tEnd output tracking src (Z.of_nat j)) (seq 0 (Z.to_nat (s_nPart src))) in
      let* s1 := run_order E garbage its order (mkSh E (pg_rng E s) src (pg_hists E s) o0) in
      let* o1 := output_events code garbage (sh_om E s1) output tracking in
      ordered_loop w tEnd tracking orders' r (mkProg E o1 (sh_hists E s1) (sh_rng E s1))
  | _, _ => Ok s
  end.
Definition ordered_program (orders : list (list nat)) (argv : list string) (g : est E) : res (file T) :=
  let* name := check_arguments argv in
  let* pa := FileParser.file_parser special (disk name) in
  let tracking := FileParser.g_tracking (FileParser.in_general pa) in
  let* w := set_up_world load_em load_bw pa in
  let '(ss, g1) := make_sources E tracking (FileParser.in_particles pa) g in
  let* o := om_new code None in
  let* s := ordered_loop w (FileParser.g_timeEnd (FileParser.in_general pa)) tracking orders ss (mkProg E o (make_histograms counters 0 (FileParser.in_histograms pa)) g1) in
  let* o1 := write_histograms code (pg_om E s) (pg_hists E s) in Ok (om_file o1).
Lemma ordered_threaded w tEnd tracking ss : forall orders s, Forall2 (fun o x => Permutation (seq 0 (Z.to_nat (s_nPart (snd x)))) o) orders ss ->
  threaded_loop E garbage code fuel w tEnd tracking ss s (ordered_loop w tEnd tracking orders ss s).
Proof.
  induction ss as [|[output src] ss IH]; intros orders s F; (destruct orders as [|order orders]; [|]); try (inversion F; fail); cbn [threaded_loop ordered_loop]; [reflexivity|].
  apply Forall2_head in F as [P F]. cbn [snd] in P. cbv zeta. eexists. split; [apply order_all; rewrite map_length, seq_length; exact P|].
  destruct (run_order _ _ _ _ _) as [s1| | | |]; cbn [bind]; try reflexivity. destruct (output_events _ _ _ _ _) as [o1| | | |]; cbn [bind]; try reflexivity. apply IH. exact F.
Qed.
Theorem C138_any_order : forall orders argv g,
  (forall pa, reads disk special argv pa -> Forall2 (fun o q => Permutation (seq 0 (Z.to_nat (FileParser.p_number q))) o) orders (FileParser.in_particles pa)) ->
  threaded argv g (ordered_program orders argv g).
Proof.
  intros orders argv g HO. unfold threaded_program, ordered_program. destruct (check_arguments argv) as [name| | | |] eqn:CA; cbn [bind rmap]; try reflexivity.
  destruct (FileParser.file_parser special (disk name)) as [pa| | | |] eqn:FP; cbn [bind rmap]; try reflexivity. specialize (HO pa (ex_intro _ name (conj CA FP))).
  unfold threaded_simulation. cbv zeta. destruct (set_up_world load_em load_bw pa) as [w| | | |]; cbn [bind rmap]; try reflexivity.
  destruct (make_sources E _ (FileParser.in_particles pa) g) as [ss g1] eqn:MS. destruct (om_new code None) as [o| | | |]; cbn [bind rmap]; try reflexivity.
  eexists. split; [apply ordered_threaded|reflexivity].
  revert MS. generalize (FileParser.g_tracking (FileParser.in_general pa)). intros b. revert g ss g1. induction HO as [|o1 q os qs P HO IH]; intros g ss g1 MS; cbn [make_sources] in MS.
  - injection MS as <- _. constructor.
  - pose proof (make_source_for E b q g) as (_ & NP & _). destruct (make_source E b q g) as [s g2]. destruct (make_sources E b qs g2) as [ss1 g3] eqn:M2. injection MS as <- _.
    cbn [fst snd] in *. constructor; [cbn [snd]; rewrite NP; exact P|]. eapply IH. exact M2.
Qed.
End Main.
Print Assumptions C138_serialises.
Print Assumptions C138_transfers.
Print Assumptions C138_serial_schedule.
Print Assumptions C138_any_order.

(** ** Concrete runs in binary64: two photons from a source of finite size *)
Definition t_text (tracking : string) : Text.text := Text.tx (
"[General]
units = SI
time_step = 1e-15
time_end = 2.5e-15
file_name = out.h5
tracking = " ++ tracking ++ "
[Field]
field_type = static
[Particle1]
number_particles = 2
name = beam
particle_type = photon
energy_mean = 1e-10
energy_sig = 1e-10
radius = 1e-6
direction = [0 0 1]
output = true
[Physics]
radiation_model = quantum
[Histogram1]
name = spectrum
particle = Photon
type = energy
bins = 3
min_bin = 0
max_bin = 10000
")%string.
Definition t_disk (tracking name : string) : path := if String.eqb name "run.ini" then Present (Some (t_text tracking)) else Missing.
(** a generator that counts *)
Definition t_engine : Engine spec_float :=
  mkEngine _ nat (fun g => (f64_lit 5 (-1), S g)) (fun n g => (map (fun i => f64_lit (Z.of_nat i) 0) (seq g n), (g + n)%nat)).
Notation t_serial := (@program _ (Num_F64 c_libm) t_engine (Ok c_em) Throw (fun _ => 0%Z) ex_code (f64_lit 7 0) 10 (t_disk "false") (fun _ => f64_lit 0 0)) (only parsing).
Notation t_ordered := (@ordered_program _ (Num_F64 c_libm) t_engine (Ok c_em) Throw (fun _ => 0%Z) ex_code (f64_lit 7 0) 10 (t_disk "false") (fun _ => f64_lit 0 0)) (only parsing).
Notation t_threaded := (@threaded_program _ (Num_F64 c_libm) t_engine (f64_lit 7 0) ex_code 10 (Ok c_em) Throw (fun _ => 0%Z) (t_disk "false") (fun _ => f64_lit 0 0)) (only parsing).
Notation t_args := ["qedcasc"; "run.ini"] (only parsing).
Lemma t_read : exists pa q, @FileParser.file_parser _ (Num_F64 c_libm) (fun _ => f64_lit 0 0) (t_disk "false" "run.ini") = Ok pa /\
  FileParser.in_particles pa = [q] /\ FileParser.p_number q = 2%Z /\ FileParser.g_tracking (FileParser.in_general pa) = false.
Proof. do 2 eexists. do 3 (split; [vm_compute; reflexivity|]). vm_compute. reflexivity. Qed.
Lemma t_argument : check_arguments t_args = Ok "run.ini".
Proof. vm_compute. reflexivity. Qed.
Definition primary_table (f : file spec_float) := lookup (f_tree f) ["Particles"; "ParticleSource"; "Primary"].
Lemma t_files : exists f1 f2, t_serial t_args 0%nat = Ok f1 /\ t_ordered [[1%nat; 0%nat]] t_args 0%nat = Ok f2 /\ primary_table f1 <> primary_table f2.
Proof. do 2 eexists. split; [vm_compute; reflexivity|]. split; [vm_compute; reflexivity|]. vm_compute. discriminate. Qed.
Lemma t_reads pa : @reads _ (Num_F64 c_libm) (t_disk "false") (fun _ => f64_lit 0 0) t_args pa ->
  @FileParser.file_parser _ (Num_F64 c_libm) (fun _ => f64_lit 0 0) (t_disk "false" "run.ini") = Ok pa.
Proof. intros (name & A & B). rewrite t_argument in A. injection A as <-. exact B. Qed.

(** The file is not determined by the input file and the generator: the second iteration may take the first sample. *)
Theorem C138_one_file_refuted : exists f1 f2, t_threaded t_args 0%nat (Ok f1) /\ t_threaded t_args 0%nat (Ok f2) /\ primary_table f1 <> primary_table f2.
Proof.
  destruct t_files as (f1 & f2 & A & B & C). exists f1, f2. split; [|split; [|exact C]].
  - rewrite <- A. apply C138_serial_schedule.
  - rewrite <- B. apply C138_any_order. intros pa R. apply t_reads in R. destruct t_read as (pa' & q & F & P & N & _). rewrite F in R. injection R as <-.
    rewrite P. constructor; [|constructor]. rewrite N. apply perm_swap.
Qed.
Print Assumptions C138_one_file_refuted.

(** a serial run for the second of these schedules *)
Example C138_case : exists f2 ns us g' ns' us', t_ordered [[1%nat; 0%nat]] t_args 0%nat = Ok f2 /\ t_threaded t_args 0%nat (Ok f2) /\
  delivered t_engine 0%nat ns us g' /\ Forall2 (@Permutation spec_float) ns ns' /\ Permutation us us' /\
  @program _ (Num_F64 c_libm) (@replay _ (Num_F64 c_libm) (fun _ => true) (fun _ => true)) (Ok c_em) Throw (fun _ => 0%Z) ex_code (f64_lit 7 0) 10 (t_disk "false") (fun _ => f64_lit 0 0) t_args (ns', us') = Ok f2.
Proof.
  destruct t_files as (_ & f2 & _ & B & _). destruct t_read as (pa' & q & F & P & N & TR).
  assert (TH : t_threaded t_args 0%nat (Ok f2)).
  { rewrite <- B. apply C138_any_order. intros pa R. apply t_reads in R. rewrite F in R. injection R as <-. rewrite P. constructor; [|constructor]. rewrite N. apply perm_swap. }
  destruct (@C138_serialises _ (Num_F64 c_libm) t_engine (Ok c_em) Throw (fun _ => 0%Z) ex_code (f64_lit 7 0) 10 (t_disk "false") (fun _ => f64_lit 0 0) (fun _ => true) (fun _ => true) t_args 0%nat f2) as (ns & us & g' & ns' & us' & R).
  - intros n g. cbn. rewrite map_length. apply seq_length.
  - split; reflexivity.
  - intros pa R. apply t_reads in R. rewrite F in R. injection R as <-. exact TR.
  - exact TH.
  - exists f2, ns, us, g', ns', us'. exact (conj B (conj TH R)).
Qed.
