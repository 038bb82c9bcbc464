(** * The program built with OpenMP, with tracks: C141 *)
From Coq Require Import String ZArith List Bool Lia Permutation FinFun SpecFloat.
From Verif Require Import Num Outcome OutcomeFacts Vec Units Numerics MCTools Particle ParticleList Source SourceFacts Fields Pusher Process Sim Histogram Hdf5
  Output OutFacts OutFile Text Ini IniReader Program PropsTables PropsOut PropsProgram Threads ThreadFacts ThreadSerial ThreadReplay ThreadProgram ThreadOrder ProgramFacts
  ThreadSafe ThreadFail ThreadTracks ThreadTrackFail ProgramSafe PropsThreads Num.
From Verif Require FileParser PropsSafe PropsThreadSafe.
Import ListNotations.
Local Open Scope string_scope.
Local Open Scope list_scope.

Section Spec.
Context {T : Type} `{NT : Num T}.
(** the data sets of a track *)
Definition set_names : list string := ["Position"; "Momentum"; "Time"; "Gamma"].
(** the place of data set [x] of track number [m] *)
Definition track_set (m : nat) (x : string) : list string := ["Particles"; "ParticleTrack"; ("Event" ++ to_string m)%string; x].
(** The files have the same tracks, number [m] of [f] being number [sg m] of [f'], and are equal otherwise. *)
Definition renumbered (f f' : file T) : Prop := exists sg, Permutation (seq 0 (length sg)) sg /\
  (forall m i x, nth_error sg m = Some i -> In x set_names ->
     exists nd, lookup (f_tree f) (track_set m x) = Some nd /\ lookup (f_tree f') (track_set i x) = Some nd) /\
  (forall p, (forall m x, (m < length sg)%nat -> In x set_names -> p <> track_set m x) -> lookup (f_tree f) p = lookup (f_tree f') p).
End Spec.

Lemma perm_index {A} (l l' : list A) : Permutation l l' -> exists sg, length sg = length l /\ Permutation (seq 0 (length l)) sg /\
  forall m i, nth_error sg m = Some i -> nth_error l m = nth_error l' i.
Proof.
  intros P. apply Permutation_sym in P. apply Permutation_nth_error in P as (LE & f & IJ & F). exists (map f (seq 0 (length l))).
  assert (LS : length (map f (seq 0 (length l))) = length l) by (rewrite map_length, seq_length; reflexivity). split; [exact LS|].
  assert (BD : forall n, (n < length l)%nat -> (f n < length l)%nat).
  { intros n B. apply nth_error_Some in B. rewrite F in B. apply nth_error_Some in B. lia. }
  split.
  - apply Permutation_sym. apply NoDup_Permutation_bis.
    + apply Injective_map_NoDup; [exact IJ|apply seq_NoDup].
    + rewrite LS, seq_length. apply le_n.
    + intros x I. apply in_map_iff in I as (n & <- & I). apply in_seq in I. apply in_seq. specialize (BD n ltac:(lia)). lia.
  - intros m i N. assert (B : (m < length l)%nat) by (rewrite <- LS; apply nth_error_Some; congruence).
    rewrite nth_error_map in N. rewrite nth_error_nth' with (d := 0%nat) in N by (rewrite seq_length; exact B). rewrite seq_nth in N by exact B. injection N as <-. apply F.
Qed.

Section Main.
Context {T : Type} `{NT : Num T}.
Variable E : Engine T.
Variable load_em : res (em_tables T).
Variable load_bw : res (bw_tables T).
Variable counters : nat -> Z.
Variable code : objinfo.
Variable garbage : T.
Variable fuel : nat.
Variable disk : string -> path.
Variable special : text -> T.
Notation serial E := (program E load_em load_bw counters code garbage fuel disk special).
Notation threaded := (threaded_program E garbage code fuel load_em load_bw counters disk special).

Lemma new_tracks (o : om T) u : om_new code u = Ok o -> om_tracks o = [].
Proof.
  intros ON. unfold om_new in ON. apply bind_ok in ON as (x & A1 & ON). apply bind_ok in ON as (x0 & A2 & ON).
  apply o_group_rest in A1 as [A1 _], A2 as [A2 _], ON as [A3 _]. cbn [om_tracks] in A1. congruence.
Qed.
Lemma renumbered_refl (f : file T) : renumbered f f.
Proof. exists []. split; [constructor|]. split; [intros [|m]; discriminate|reflexivity]. Qed.
Lemma renumbered_files (o o' : om T) : same_but_numbers o o' -> renumbered (om_file o) (om_file o').
Proof.
  intros (P & W & I1 & I2). destruct (perm_index _ _ P) as (sg & LS & PS & NS). exists sg. rewrite LS. split; [exact PS|]. apply om_twin_file in W as (_ & W & U & _). split.
  - intros m i x N IX. specialize (NS m i N). assert (B : (m < length (om_tracks o))%nat) by (rewrite <- LS; apply nth_error_Some; congruence).
    destruct (nth_error (om_tracks o) m) as [k|] eqn:K; [|apply nth_error_None in K; lia]. symmetry in NS.
    assert (IN : exists nd, In (x, nd) (track_nodes o k)) by (destruct IX as [<-|[<-|[<-|[<-|[]]]]]; eexists; cbn; eauto 6).
    destruct IN as [nd IN]. exists nd. split; [exact (I1 m k x nd K IN)|]. apply (I2 i k x nd NS). unfold track_nodes in *. destruct (scale_same o o' U) as (-> & -> & ->). exact IN.
  - intros p NP. apply (proj1 (twin_lookup _ _ _ W p)). intros (m & x & B & IX & Q). exact (NP m x B IX Q).
Qed.

(** Whatever the order of the accesses, and whether tracks are kept or not: if the program with threads completes, then there is a serial run,
    of a generator that delivers the same random numbers in another order, that writes the same file except that the tracks may be numbered
    differently. *)
Theorem C141_tracked : forall dom domn argv g f, delivers E -> draws_in dom domn E -> threaded argv g (Ok f) ->
  exists ns us g' ns' us' f', delivered E g ns us g' /\ Forall2 (@Permutation T) ns ns' /\ Permutation us us' /\
    serial (replay dom domn) argv (ns', us') = Ok f' /\ renumbered f f'.
Proof.
  intros dom domn argv g f DL [DM DN] X. pose proof X as X0. unfold threaded_program in X. unfold program.
  destruct (check_arguments argv) as [name| | | |] eqn:CA; cbn [bind] in *; try discriminate X.
  destruct (FileParser.file_parser special (disk name)) as [pa| | | |] eqn:FP; cbn [bind] in *; try discriminate X.
  destruct (FileParser.g_tracking (FileParser.in_general pa)) eqn:TR.
  2:{ destruct (C138_serialises E load_em load_bw counters code garbage fuel disk special dom domn argv g f DL (conj DM DN)) as (ns & us & g' & ns' & us' & A & B & C & D); [|exact X0|].
      - intros pa' (name' & CA' & FP'). rewrite CA in CA'. injection CA' as <-. rewrite FP in FP'. injection FP' as <-. exact TR.
      - exists ns, us, g', ns', us', f. split; [exact A|]. split; [exact B|]. split; [exact C|]. split; [|apply renumbered_refl]. unfold program in D. rewrite CA in D. cbn [bind] in D. rewrite FP in D. exact D. }
  destruct (PropsSafe.counts32 special _ _ FP) as [CN _].
  unfold threaded_simulation, simulation in *. cbv zeta in *. rewrite TR in *.
  destruct (set_up_world load_em load_bw pa) as [w| | | |]; cbn [bind] in *; try discriminate X.
  destruct (make_sources E true (FileParser.in_particles pa) g) as [ss g1] eqn:MS.
  destruct (om_new code None) as [o| | | |] eqn:ON; cbn [bind] in *; try discriminate X.
  destruct X as (y & TL & X). destruct y as [s'| | | |]; try discriminate X. cbn [bind] in X.
  destruct (write_histograms code (pg_om E s') (pg_hists E s')) as [o1| | | |] eqn:WH; try discriminate X. injection X as ->.
  destruct (sources_replay E dom domn DM DN DL true (FileParser.in_particles pa) CN g ss g1 MS) as (FR & ns & us & D1 & R1).
  pose proof (new_tracks o None ON) as T0.
  destruct (tracked_sources E dom domn DM garbage code fuel w _ ss FR (mkProg E o (make_histograms counters 0 (FileParser.in_histograms pa)) g1) _ T0 TL) as (sgs & vs & vs' & A & D2 & P2 & R2). cbn [pg_rng pg_om pg_hists] in *.
  destruct (R1 sgs A) as (ns' & us' & P1 & P3 & R3).
  destruct (R2 [] []) as (o' & R4 & SB). rewrite app_nil_r in R4.
  pose proof SB as (PT & W & I1 & I2). destruct (hists_twin code _ _ _ _ _ W WH) as (o1' & WH' & W').
  destruct (hists_grow code _ _ _ WH) as [G1 K1]. destruct (hists_grow code _ _ _ WH') as [G2 K2].
  exists ns, (us ++ vs), (pg_rng E s'), ns', (us' ++ vs'), (om_file o1').
  split; [rewrite <- (app_nil_r ns); eapply delivered_app; [exact D1|]; apply drawn_delivered; exact D2|].
  split; [exact P1|]. split; [apply Permutation_app; assumption|]. split.
  - specialize (R3 [] vs'). rewrite app_nil_r in R3. rewrite R3, R4. cbn [bind pg_om pg_hists]. rewrite WH'. reflexivity.
  - apply renumbered_files. split; [rewrite K1, K2; exact PT|]. rewrite K1. split; [exact W'|]. split; [exact (tracks_stay _ _ _ G1 I1)|]. rewrite K2. exact (tracks_stay _ _ _ G2 I2).
Qed.

(** So what holds for the files of all serial runs, and does not depend on how the tracks are numbered, holds for the files of all threaded runs. *)
Theorem C141_transfers : forall (dom domn : T -> bool) argv (P : file T -> Prop), dom n0 = true -> domn n0 = true ->
  (forall f f', renumbered f f' -> P f' -> P f) ->
  (forall (E' : Engine T) g f, delivers E' -> draws_in dom domn E' -> serial E' argv g = Ok f -> P f) ->
  delivers E -> draws_in dom domn E -> forall g f, threaded argv g (Ok f) -> P f.
Proof.
  intros dom domn argv P D0 DN0 RN HP DL DM g f X. destruct (C141_tracked dom domn argv g f DL DM X) as (_ & _ & _ & ns' & us' & f' & _ & _ & _ & R & R').
  apply (RN f f' R'). exact (HP (replay dom domn) (ns', us') f' (replay_delivers dom domn) (conj (replay_domain dom domn D0) (replay_normals dom domn DN0)) R).
Qed.

(** In particular everything but the tracks is as in a serial run. *)
Theorem C141_tables : forall (dom domn : T -> bool) argv g f p, dom n0 = true -> domn n0 = true -> delivers E -> draws_in dom domn E -> threaded argv g (Ok f) ->
  (forall m x, In x set_names -> p <> track_set m x) ->
  exists (E' : Engine T) g' f', delivers E' /\ draws_in dom domn E' /\ serial E' argv g' = Ok f' /\ lookup (f_tree f) p = lookup (f_tree f') p.
Proof.
  intros dom domn argv g f p D0 DN0 DL DM X NP. destruct (C141_tracked dom domn argv g f DL DM X) as (_ & _ & _ & ns' & us' & f' & _ & _ & _ & R & (sg & _ & _ & Q)).
  exists (replay dom domn), (ns', us'), f'. split; [apply replay_delivers|]. split; [exact (conj (replay_domain dom domn D0) (replay_normals dom domn DN0))|]. split; [exact R|].
  apply Q. intros m x _. apply NP.
Qed.

(** Also the failures are those of serial runs, with tracks or without. *)
Definition same_end (x y : res (file T)) : Prop := match x, y with Ok f, Ok f' => renumbered f f' | _, _ => x = y end.
Theorem C141_outcomes : forall dom domn argv g x, delivers E -> draws_in dom domn E -> PropsThreadSafe.countable disk special argv -> threaded argv g x ->
  exists ns us, same_end x (serial (replay dom domn) argv (ns, us)).
Proof.
  intros dom domn argv g x DL DI CB X.
  destruct x as [f|e| |r|] eqn:QX; [destruct (C141_tracked dom domn argv g f DL DI X) as (_ & _ & _ & ns' & us' & f' & _ & _ & _ & R & RN); exists ns', us'; rewrite R; exact RN|..];
    rewrite <- QX in X |- *.
  all: assert (NX : forall f, x <> Ok f) by (rewrite QX; discriminate); clear QX.
  all: assert (SE : forall y, y = x -> same_end x y) by (intros y ->; destruct x; try reflexivity; exfalso; exact (NX _ eq_refl)).
  all: cut (exists ns us, serial (replay dom domn) argv (ns, us) = x); [intros (ns & us & R); exists ns, us; apply SE; exact R|]; clear SE.
  all: pose proof X as X0; pose proof DI as [DM DN]; unfold threaded_program in X; unfold program.
  all: destruct (check_arguments argv) as [name| | | |] eqn:CA; cbn [bind rmap] in *; try (exists [], []; symmetry; exact X).
  all: destruct (FileParser.file_parser special (disk name)) as [pa| | | |] eqn:FP; cbn [bind rmap] in *; try (exists [], []; symmetry; exact X).
  all: pose proof (CB pa (ex_intro _ name (conj CA FP))) as CB'; destruct (PropsSafe.counts32 special _ _ FP) as [CN CH].
  all: unfold threaded_simulation, simulation in *; cbv zeta in *.
  all: destruct (FileParser.g_tracking (FileParser.in_general pa)) eqn:TR; [|
    assert (UT : untracked disk special argv) by (intros pa' (name' & CA' & FP'); rewrite CA in CA'; injection CA' as <-; rewrite FP in FP'; injection FP' as <-; exact TR);
    destruct (PropsThreadSafe.C139_outcomes E load_em load_bw counters code garbage fuel disk special dom domn argv g x DL DI UT CB X0) as (ns & us & R); exists ns, us;
    unfold program, simulation in R; cbv zeta in R; rewrite CA in R; cbn [bind] in R; rewrite FP in R; cbn [bind] in R; rewrite TR in R; exact R].
  all: destruct (set_up_world load_em load_bw pa) as [w| | | |]; cbn [bind rmap] in *; try (exists [], []; symmetry; exact X).
  all: destruct (make_sources E true (FileParser.in_particles pa) g) as [ss g1] eqn:MS.
  all: destruct (sources_replay E dom domn DM DN DL true (FileParser.in_particles pa) CN g ss g1 MS) as (FR & ns & us & D1 & R1).
  all: destruct (om_new code None) as [o| | | |] eqn:ON; cbn [bind rmap] in *;
    try (destruct (arranged ss) as (sgs & A); destruct (R1 sgs A) as (ns' & us' & _ & _ & R3); exists (ns' ++ []), (us' ++ []); rewrite R3; symmetry; exact X).
  all: destruct X as (y & TL & X); rewrite Forall_forall in CH;
    assert (HK : hoks (length (FileParser.in_histograms pa)) (make_histograms counters 0 (FileParser.in_histograms pa))) by (apply PropsSafe.histograms_ok; intros h HI; split; [apply CH; exact HI|apply CB'; exact HI]).
  all: assert (D : (exists s', y = Ok s') \/ forall s', y <> Ok s') by (destruct y; [left; eauto|right; discriminate..]); destruct D as [(s' & ->)|NY].
  all: try (destruct (tracked_sources E dom domn DM garbage code fuel w _ ss FR (mkProg E o (make_histograms counters 0 (FileParser.in_histograms pa)) g1) _ (new_tracks _ _ ON) TL) as (sgs & vs & vs' & A & D2 & P2 & R2);
    destruct (R1 sgs A) as (ns' & us' & P1 & P3 & R3); exists (ns' ++ []), (us' ++ vs' ++ []); rewrite R3; destruct (R2 [] []) as (o' & R4 & SB); cbn [pg_rng pg_om pg_hists] in R4; rewrite R4; cbn [bind pg_om pg_hists] in *;
    pose proof (hists_lock code _ (pg_hists E s') _ _ (conj (proj1 (proj2 SB)) (proj1 SB))) as HL;
    destruct (write_histograms code (pg_om E s') (pg_hists E s')) as [a| | | |]; destruct (write_histograms code o' (pg_hists E s')) as [b| | | |]; cbn in HL; try contradiction; cbn [bind] in *; rewrite X; try (rewrite HL); try reflexivity;
    exfalso; exact (NX _ X)).
  all: destruct (tracked_fails garbage dom domn E DM code fuel w _ true _ ss FR (mkProg E o (make_histograms counters 0 (FileParser.in_histograms pa)) g1) HK y TL NY) as (sgs & vs & A & R2); cbn [pg_om pg_hists] in R2;
    destruct (R1 sgs A) as (ns' & us' & _ & _ & R3); exists (ns' ++ []), (us' ++ vs ++ []); rewrite R3; specialize (R2 0%nat o [] (rel_refl 0 o));
    destruct (source_loop _ _ _ _ _ _ _ _ _) as [p| | | |]; destruct y as [s'| | | |]; try (exfalso; exact (NY _ eq_refl)); try discriminate R2;
    cbn [bind] in *; unfold quietly in R2; cbn [rmap] in R2; rewrite X; try (injection R2 as ->); reflexivity.
Qed.

(** So if all serial runs complete, with files that have a property independent of the numbering of the tracks, then so do all runs with threads. *)
Theorem C141_completes : forall (dom domn : T -> bool) argv (P : file T -> Prop), dom n0 = true -> domn n0 = true ->
  (forall f f', renumbered f f' -> P f' -> P f) ->
  (forall (E' : Engine T) g, delivers E' -> draws_in dom domn E' -> exists f, serial E' argv g = Ok f /\ P f) ->
  delivers E -> draws_in dom domn E -> PropsThreadSafe.countable disk special argv -> forall g x, threaded argv g x -> exists f, x = Ok f /\ P f.
Proof.
  intros dom domn argv P D0 DN0 RN HP DL DM CB g x X. destruct (C141_outcomes dom domn argv g x DL DM CB X) as (ns & us & R).
  destruct (HP (replay dom domn) (ns, us) (replay_delivers dom domn) (conj (replay_domain dom domn D0) (replay_normals dom domn DN0))) as (f' & Q & PF).
  rewrite Q in R. destruct x as [f| | | |]; try discriminate R. exists f. split; [reflexivity|]. exact (RN f f' R PF).
Qed.
End Main.
Print Assumptions C141_outcomes.
Print Assumptions C141_completes.
Print Assumptions C141_tracked.
Print Assumptions C141_transfers.
Print Assumptions C141_tables.

(** ** A concrete run in binary64 with tracks: the second iteration goes first *)
Notation t_ordered := (@ordered_program _ (Num_F64 c_libm) t_engine (Ok c_em) Throw (fun _ => 0%Z) ex_code (f64_lit 7 0) 10 (t_disk "true") (fun _ => f64_lit 0 0)) (only parsing).
Notation t_serial := (@program _ (Num_F64 c_libm) t_engine (Ok c_em) Throw (fun _ => 0%Z) ex_code (f64_lit 7 0) 10 (t_disk "true") (fun _ => f64_lit 0 0)) (only parsing).
Notation t_threaded := (@threaded_program _ (Num_F64 c_libm) t_engine (f64_lit 7 0) ex_code 10 (Ok c_em) Throw (fun _ => 0%Z) (t_disk "true") (fun _ => f64_lit 0 0)) (only parsing).
Notation t_args := ["qedcasc"; "run.ini"] (only parsing).
Lemma tt_read : exists pa q, @FileParser.file_parser _ (Num_F64 c_libm) (fun _ => f64_lit 0 0) (t_disk "true" "run.ini") = Ok pa /\
  FileParser.in_particles pa = [q] /\ FileParser.p_number q = 2%Z /\ FileParser.g_tracking (FileParser.in_general pa) = true.
Proof. do 2 eexists. do 3 (split; [vm_compute; reflexivity|]). vm_compute. reflexivity. Qed.
Lemma tt_reads pa : @reads _ (Num_F64 c_libm) (t_disk "true") (fun _ => f64_lit 0 0) t_args pa ->
  @FileParser.file_parser _ (Num_F64 c_libm) (fun _ => f64_lit 0 0) (t_disk "true" "run.ini") = Ok pa.
Proof. intros (name & A & B). rewrite t_argument in A. injection A as <-. exact B. Qed.
(** position of the first entry of a track, and of a row of the table of primaries *)
Definition first3 (o : option (node spec_float)) (k : nat) : list spec_float := match o with Some (Dat _ v) => firstn 3 (skipn k v) | _ => [] end.
Definition track_start (f : file spec_float) (m : nat) := first3 (lookup (f_tree f) (track_set m "Position")) 0.
Lemma tt_file : exists f, t_ordered [[1%nat; 0%nat]] t_args 0%nat = Ok f /\ length (track_start f 0) = 3%nat /\ length (track_start f 1) = 3%nat /\ track_start f 0 <> track_start f 1.
Proof. eexists. split; [vm_compute; reflexivity|]. split; [vm_compute; reflexivity|]. split; [vm_compute; reflexivity|]. vm_compute. discriminate. Qed.
Example C141_case : exists f ns us g' ns' us' f', t_threaded t_args 0%nat (Ok f) /\ track_start f 0 <> track_start f 1 /\
  delivered t_engine 0%nat ns us g' /\ Forall2 (@Permutation spec_float) ns ns' /\ Permutation us us' /\
  @program _ (Num_F64 c_libm) (@replay _ (Num_F64 c_libm) (fun _ => true) (fun _ => true)) (Ok c_em) Throw (fun _ => 0%Z) ex_code (f64_lit 7 0) 10 (t_disk "true") (fun _ => f64_lit 0 0) t_args (ns', us') = Ok f' /\
  renumbered f f'.
Proof.
  destruct tt_file as (f & B & _ & _ & NE). destruct tt_read as (pa' & q & F & P & N & TR).
  assert (TH : t_threaded t_args 0%nat (Ok f)).
  { rewrite <- B. apply C138_any_order. intros pa R. apply tt_reads in R. rewrite F in R. injection R as <-. rewrite P. constructor; [|constructor]. rewrite N. apply perm_swap. }
  destruct (@C141_tracked _ (Num_F64 c_libm) t_engine (Ok c_em) Throw (fun _ => 0%Z) ex_code (f64_lit 7 0) 10 (t_disk "true") (fun _ => f64_lit 0 0) (fun _ => true) (fun _ => true) t_args 0%nat f) as (ns & us & g' & ns' & us' & f' & R).
  - intros n g. cbn. rewrite map_length. apply seq_length.
  - split; reflexivity.
  - exact TH.
  - exists f, ns, us, g', ns', us', f'. exact (conj TH (conj NE R)).
Qed.
(** the input of this run meets the condition of C141_outcomes *)
Lemma tt_bins : exists pa, @FileParser.file_parser _ (Num_F64 c_libm) (fun _ => f64_lit 0 0) (t_disk "true" "run.ini") = Ok pa /\
  map (@FileParser.h_bins _) (FileParser.in_histograms pa) = [3%Z].
Proof. eexists. split; [vm_compute; reflexivity|]. vm_compute. reflexivity. Qed.
Example C141_case_countable : @PropsThreadSafe.countable _ (Num_F64 c_libm) (t_disk "true") (fun _ => f64_lit 0 0) t_args.
Proof.
  intros pa R h I. apply tt_reads in R. destruct tt_bins as (pa' & F & B). rewrite F in R. injection R as <-. apply (in_map (@FileParser.h_bins _)) in I. rewrite B in I. destruct I as [<-|[]]. reflexivity.
Qed.
