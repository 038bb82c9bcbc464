(** * The program built with OpenMP: failures and undefined behaviour: C139 *)
From Coq Require Import String ZArith List Bool Lia Permutation SpecFloat Reals Lra.
From Verif Require Import Num RNum Outcome OutcomeFacts Vec Units Numerics MCTools MCFacts Particle ParticleList Source SourceFacts Fields Pusher Process ProcessSafe Sim Histogram Hdf5
  Output OutFacts OutFile Text Ini IniReader Program PropsTables PropsOut PropsProgram Threads ThreadFacts ThreadSerial ThreadReplay ThreadProgram ThreadOrder ProgramFacts ProgramSafe PropsSafe
  ThreadSafe ThreadFail PropsThreads PropsShipped PropsUse OutBuffers ExampleData PropsProcess PropsSample PropsExample PropsQuantum PropsQuantumRun.
From Verif Require FileParser Tables PropsFile Shipped.
Import ListNotations.
Local Open Scope string_scope.
Local Open Scope list_scope.

Section Spec.
Context {T : Type} `{NT : Num T}.
Variable disk : string -> path.
Variable special : text -> T.
(** no histogram has 2^31 bins or more *)
Definition countable (argv : list string) : Prop :=
  forall pa, reads disk special argv pa -> forall h, In h (FileParser.in_histograms pa) -> (FileParser.h_bins h < 2 ^ 31)%Z.
End Spec.

(** ** Every interleaving comes to an end *)
Section Ends.
Context {T : Type} `{NT : Num T}.
Variable E : Engine T.
Variable garbage : T.
(** an access by one of the iterations that have not ended *)
Definition moves (x y : list (co T unit) * shared E) : Prop :=
  exists t c c' s', nth_error (fst x) t = Some c /\ c <> Now (Ok tt) /\ act E garbage c (snd x) = Ok (c', s') /\ y = (upd (fst x) t c', s').
Inductive child : co T unit -> co T unit -> Prop :=
| ch_draw k u : child (k u) (Draw k)
| ch_take k c : child (k c) (Take k)
| ch_count i p k : child k (Count i p k)
| ch_store c k : child k (Store c k).
Lemma child_acc c : Acc child c.
Proof.
  induction c as [r|k IH|k IH|i p k IH|x k IH]; constructor; intros y HY; inversion HY; subst; auto.
Qed.
Definition one_child (l' l : list (co T unit)) : Prop := exists t c c', nth_error l t = Some c /\ child c' c /\ l' = upd l t c'.
Lemma children_acc l : Acc one_child l.
Proof.
  induction l as [|a l IH].
  - constructor. intros y (t & c & c' & N & _). destruct t; discriminate N.
  - pose proof (child_acc a) as HA. revert l IH. induction HA as [a _ IHa]. intros l HL. pose proof HL as HL0. induction HL as [l HL IHl]. constructor.
    intros y (t & c & c' & N & C & ->). destruct t as [|t]; cbn [nth_error upd] in *.
    + injection N as ->. apply IHa; assumption.
    + assert (O : one_child (upd l t c') l) by (exists t, c, c'; auto). apply IHl; [exact O|]. apply HL. exact O.
Qed.
Lemma move_child c s c' s' : c <> Now (Ok tt) -> act E garbage c s = Ok (c', s') -> child c' c.
Proof.
  destruct c as [r|k|k|i p k|x k]; cbn [act]; intros NE X.
  - destruct r as [[]| | | |]; cbn [bind] in X; try discriminate X. contradiction.
  - destruct (e_canon E (sh_rng E s)) as [u g]. injection X as <- _. constructor.
  - destruct (take (sh_src E s)); cbn [bind] in X; try discriminate X. injection X as <- _. constructor.
  - destruct (count i p (sh_hists E s)); cbn [bind] in X; try discriminate X. injection X as <- _. constructor.
  - destruct (store garbage x (sh_om E s)); cbn [bind] in X; try discriminate X. injection X as <- _. constructor.
Qed.
(** There is no endless sequence of accesses; and iterations that have not all ended can go on or fail. *)
Theorem C139_schedules_end : forall x, Acc (fun z y => moves y z) x.
Proof.
  intros [ts s]. revert s. induction (children_acc ts) as [ts _ IH]. intros s. constructor. intros [ts' s2] (t & c & c' & s' & N & NE & X & Q). cbn [fst snd] in *.
  injection Q as -> ->. apply IH. exists t, c, c'. split; [exact N|]. split; [|reflexivity]. eapply move_child; eauto.
Qed.
Theorem C139_schedules_go_on : forall ts s c, In c ts -> c <> Now (Ok tt) -> (exists y, moves (ts, s) y) \/ par E garbage ts s (rmap snd (act E garbage c s)).
Proof.
  intros ts s c HI NE. destruct (act E garbage c s) as [[c' s']| | | |] eqn:X.
  - left. apply In_nth_error in HI as (t & N). exists (upd ts t c', s'), t, c, c', s'. auto.
  - right. eapply par_fail; [exact HI| |rewrite X; reflexivity]. intros y. rewrite X. discriminate.
  - right. eapply par_fail; [exact HI| |rewrite X; reflexivity]. intros y. rewrite X. discriminate.
  - right. eapply par_fail; [exact HI| |rewrite X; reflexivity]. intros y. rewrite X. discriminate.
  - right. eapply par_fail; [exact HI| |rewrite X; reflexivity]. intros y. rewrite X. discriminate.
Qed.
End Ends.
Print Assumptions C139_schedules_end.
Print Assumptions C139_schedules_go_on.

Section Main.
Context {T : Type} `{NT : Num T}.
Variable E : Engine T.
Variable load_em : res (em_tables T).
Variable load_bw : res (bw_tables T).
Variable counters : nat -> Z.
Variable code : objinfo.
Variable garbage : T.
Variable fuel : nat.
Variable disk : string -> path.
Variable special : text -> T.
Notation serial E := (program E load_em load_bw counters code garbage fuel disk special).
Notation threaded := (threaded_program E garbage code fuel load_em load_bw counters disk special).

(** Whatever the order of the accesses: what a run with threads ends with, a file, an exit, an exception or undefined behaviour, some serial run
    ends with. *)
Theorem C139_outcomes : forall dom domn argv g x, delivers E -> draws_in dom domn E -> untracked disk special argv -> countable disk special argv ->
  threaded argv g x -> exists ns us, serial (replay dom domn) argv (ns, us) = x.
Proof.
  intros dom domn argv g x DL DI UT CB X.
  destruct x as [f|e| |r|] eqn:QX; [destruct (C138_serialises E load_em load_bw counters code garbage fuel disk special dom domn argv g f DL DI UT X) as (_ & _ & _ & ns' & us' & _ & _ & _ & R); eauto|..];
    rewrite <- QX in X |- *.
  all: assert (NX : forall f, x <> Ok f) by (rewrite QX; discriminate); clear QX; destruct DI as [DM DN].
  all: unfold threaded_program in X; unfold program.
  all: destruct (check_arguments argv) as [name| | | |] eqn:CA; cbn [bind rmap] in *; try (exists [], []; symmetry; exact X).
  all: destruct (FileParser.file_parser special (disk name)) as [pa| | | |] eqn:FP; cbn [bind rmap] in *; try (exists [], []; symmetry; exact X).
  all: specialize (UT pa (ex_intro _ name (conj CA FP))); specialize (CB pa (ex_intro _ name (conj CA FP))); destruct (counts32 special _ _ FP) as [CN CH].
  all: unfold threaded_simulation, simulation in *; cbv zeta in *; rewrite UT in *.
  all: destruct (set_up_world load_em load_bw pa) as [w| | | |]; cbn [bind rmap] in *; try (exists [], []; symmetry; exact X).
  all: destruct (make_sources E false (FileParser.in_particles pa) g) as [ss g1] eqn:MS.
  all: destruct (sources_replay E dom domn DM DN DL false (FileParser.in_particles pa) CN g ss g1 MS) as (FR & ns & us & D1 & R1).
  all: destruct (om_new code None) as [o| | | |]; cbn [bind rmap] in *;
    try (destruct (arranged ss) as (sgs & A); destruct (R1 sgs A) as (ns' & us' & _ & _ & R3); exists (ns' ++ []), (us' ++ []); rewrite R3; symmetry; exact X).
  all: destruct X as (y & TL & X); rewrite Forall_forall in CH;
    assert (HK : hoks (length (FileParser.in_histograms pa)) (make_histograms counters 0 (FileParser.in_histograms pa))) by (apply histograms_ok; intros h HI; split; [apply CH; exact HI|apply CB; exact HI]).
  all: assert (D : (exists s', y = Ok s') \/ forall s', y <> Ok s') by (destruct y; [left; eauto|right; discriminate..]); destruct D as [(s' & ->)|NY].
  all: try (destruct (threaded_sources E dom domn garbage code fuel DM w _ ss FR _ _ TL) as (sgs & vs & vs' & A & D2 & P2 & R2); cbn [pg_rng pg_om pg_hists bind] in *;
    destruct (R1 sgs A) as (ns' & us' & P1 & P3 & R3); exists (ns' ++ []), (us' ++ vs' ++ []); rewrite R3; rewrite R2; cbn [bind pg_om pg_hists]; symmetry; exact X).
  all: destruct (threaded_fails garbage dom domn E DM code fuel w _ _ ss FR (mkProg E o (make_histograms counters 0 (FileParser.in_histograms pa)) g1) HK y TL NY) as (sgs & vs & A & R2); cbn [pg_om pg_hists] in R2;
    destruct (R1 sgs A) as (ns' & us' & _ & _ & R3); exists (ns' ++ []), (us' ++ vs ++ []); rewrite R3; specialize (R2 []);
    destruct (source_loop _ _ _ _ _ _ _ _ _) as [p| | | |]; destruct y as [s'| | | |]; try (exfalso; exact (NY _ eq_refl)); try discriminate R2;
    cbn [bind] in *; unfold quietly in R2; cbn [rmap] in R2; rewrite X; try (injection R2 as ->); reflexivity.
Qed.

(** So if all serial runs complete, all runs with threads complete; and if all serial runs end with files that have a property, so do all runs with threads. *)
Theorem C139_completes : forall (dom domn : T -> bool) argv (P : file T -> Prop), dom n0 = true -> domn n0 = true ->
  (forall (E' : Engine T) g, delivers E' -> draws_in dom domn E' -> exists f, serial E' argv g = Ok f /\ P f) ->
  delivers E -> draws_in dom domn E -> untracked disk special argv -> countable disk special argv -> forall g x, threaded argv g x -> exists f, x = Ok f /\ P f.
Proof.
  intros dom domn argv P D0 DN0 HP DL DM UT CB g x X. destruct (C139_outcomes dom domn argv g x DL DM UT CB X) as (ns & us & R). rewrite <- R.
  exact (HP (replay dom domn) (ns, us) (replay_delivers dom domn) (conj (replay_domain dom domn D0) (replay_normals dom domn DN0))).
Qed.

(** ** Undefined behaviour *)
Hypothesis DL : delivers E.
Hypothesis LW : loads_well load_em load_bw.
Hypothesis CC : objinfo_inverted code \/ objinfo_documented code.
Lemma few_rearranged dom domn w tracking pa : draws_in dom domn E -> set_up_world load_em load_bw pa = Ok w -> tracking = FileParser.g_tracking (FileParser.in_general pa) ->
  forall qs, (forall q, In q qs -> FileParser.p_output q = true -> few_particles (replay dom domn) load_em load_bw fuel pa q) ->
  Forall (fun q => (0 <= FileParser.p_number q < 2 ^ 32)%Z) qs -> forall g ss g1, make_sources E tracking qs g = (ss, g1) ->
  Forall (fun os => few_shuffled dom domn fuel w (FileParser.g_timeEnd (FileParser.in_general pa)) os) ss.
Proof.
  intros [DM DN] W TR qs HQ HN. induction HN as [|q qs B HN IH]; intros g ss g1 MS; cbn [make_sources] in MS; [injection MS as <- _; constructor|].
  pose proof (make_source_for E tracking q g) as (_ & NP & _).
  destruct (make_source E tracking q g) as [s g2] eqn:M1. destruct (make_sources E tracking qs g2) as [ss1 g3] eqn:M2. injection MS as <- _. cbn [fst snd] in NP.
  constructor; [|eapply IH; [intros q' HI; apply HQ; right; exact HI|exact M2]].
  intros HO sg AR. cbn [fst snd] in HO, AR |- *. destruct (source_replay E dom domn DM DN DL tracking q g s g2 ltac:(lia) M1) as (ns & us & _ & R). destruct (R sg AR) as (ns' & us' & _ & _ & MR).
  specialize (MR [] []). intros _ g3' hs evs g4 hs' EV. cbn [fst snd] in EV. specialize (HQ q (or_introl eq_refl) HO w (ns' ++ [], us' ++ []) g3' hs evs g4 hs' W). subst tracking.
  apply HQ. rewrite MR. cbn [fst]. cbn [shuffle s_nPart] in EV. rewrite NP in EV. exact EV.
Qed.
Lemma threaded_sat dom domn pa g x : draws_in dom domn E ->
  (forall q, In q (FileParser.in_particles pa) -> (0 <= FileParser.p_number q < 2 ^ 32)%Z) ->
  (forall h, In h (FileParser.in_histograms pa) -> (0 <= FileParser.h_bins h)%Z) -> good_input (replay dom domn) load_em load_bw fuel pa ->
  threaded_simulation E garbage code fuel load_em load_bw counters pa g x -> sat x (fun f => f_group f <> GFreed).
Proof.
  intros DI HN HB [GH GQ] X. unfold threaded_simulation in X. cbv zeta in X.
  pose proof (world_sat load_em load_bw LW pa) as WS. destruct (set_up_world load_em load_bw pa) as [w| | | |] eqn:W; cbn [rmap] in X; try (subst x; exact WS).
  set (tracking := FileParser.g_tracking (FileParser.in_general pa)) in *. set (tEnd := FileParser.g_timeEnd (FileParser.in_general pa)) in *.
  destruct (make_sources E tracking (FileParser.in_particles pa) g) as [ss g1] eqn:MS.
  set (hs := make_histograms counters 0 (FileParser.in_histograms pa)) in *.
  assert (HK : hoks (length (FileParser.in_histograms pa)) hs) by (apply histograms_ok; intros h HI; split; [apply HB; exact HI|apply GH; exact HI]).
  pose proof DI as [DM DN]. rewrite <- Forall_forall in HN.
  destruct (sources_replay E dom domn DM DN DL tracking (FileParser.in_particles pa) HN g ss g1 MS) as (FR & _).
  pose proof (few_rearranged dom domn w tracking pa DI W eq_refl _ GQ HN g ss g1 MS) as FS.
  assert (SS : Forall (fun os => fresh (snd os) /\ few_shuffled dom domn fuel w tEnd os) ss) by (rewrite Forall_forall in FR, FS |- *; intros os HI; split; [apply FR|apply FS]; exact HI).
  pose proof (om_new_sat (T := T) code CC) as OS. destruct (om_new code None) as [o| | | |]; cbn [rmap] in X; try (subst x; exact OS).
  destruct X as (y & TL & ->).
  apply sat_bind with (1 := threaded_loop_sat E dom domn DM code garbage fuel w WS tEnd tracking _ ss (mkProg E o hs g1) SS OS HK y TL). cbn [pg_hists].
  intros s _ [J1 LK]. pose proof (like_hoks _ _ _ HK LK) as HK1. destruct LK as [_ AX].
  assert (KN : map hi_name (pg_hists E s) = map (@FileParser.h_name T) (FileParser.in_histograms pa)).
  { rewrite <- (make_histograms_names counters _ 0). fold hs. transitivity (map snd (map axes (pg_hists E s))); [now rewrite map_map|]. rewrite AX. now rewrite map_map. }
  assert (NE : Forall (fun h => Hdf5.path (hi_name h) <> []) (pg_hists E s)).
  { apply Forall_forall. intros h HI. apply (in_map hi_name) in HI. rewrite KN in HI. apply in_map_iff in HI. destruct HI as (q & <- & HQ). apply GH. exact HQ. }
  apply sat_bind with (1 := write_sat code garbage (w_field w) (pg_hists E s) (proj1 HK1) NE (pg_om E s) J1). intros o1 _ J2. cbn [sat]. eapply J_live. exact J2.
Qed.
End Main.
Print Assumptions C139_outcomes.
Print Assumptions C139_completes.

(** A run with threads, including the destruction of the output file object at its end, has no undefined behaviour under the conditions of
    C135, whatever the order of the accesses, also with tracks. *)
Theorem C139_no_undefined_behaviour : forall (T : Type) (NT : Num T) (E : Engine T) load_em load_bw counters code garbage fuel disk special dom domn argv g x,
  delivers E -> draws_in dom domn E -> loads_well load_em load_bw -> objinfo_inverted code \/ objinfo_documented code -> argv <> [] ->
  (forall pa, reads disk special argv pa -> good_input (replay dom domn) load_em load_bw fuel pa) ->
  threaded_program E garbage code fuel load_em load_bw counters disk special argv g x -> never_ub (let* f := x in file_delete f).
Proof.
  intros T NT E load_em load_bw counters code garbage fuel disk special dom domn argv g x DL DI LW CC NE GI X.
  assert (HS : sat x (fun f => f_group f <> GFreed)).
  { unfold threaded_program in X. pose proof (check_sat argv NE) as CS. destruct (check_arguments argv) as [name| | | |] eqn:CA; cbn [bind rmap] in X; try (subst x; exact CS).
    destruct (PropsFile.C70_reader_total special (disk name)) as [[pa FP]|FP]; rewrite FP in X; cbn [rmap] in X; [|subst x; exact I].
    destruct (counts32 special _ _ FP) as [CN CH]. rewrite Forall_forall in CN, CH. eapply threaded_sat; eauto. apply GI. exists name. auto. }
  intros r. apply (sat_never _ (fun _ => True)). apply sat_bind with (1 := HS). intros f _ G. unfold file_delete. destruct (f_group f); [exact I|exact I|congruence].
Qed.
Print Assumptions C139_no_undefined_behaviour.
(** In particular with at most 536 particles per output source and the shipped tables. *)
Theorem C139_shipped_tables : forall (T : Type) (NT : Num T) (E : Engine T) junk1 jl1 junk2 jl2 dir files counters code garbage fuel disk special argv g x,
  delivers E -> tables_at dir files -> objinfo_inverted code \/ objinfo_documented code -> argv <> [] ->
  (forall pa, reads disk special argv pa ->
     (forall h, In h (FileParser.in_histograms pa) -> Hdf5.path (FileParser.h_name h) <> [] /\ (FileParser.h_bins h < 2 ^ 31)%Z) /\
     (forall q, In q (FileParser.in_particles pa) -> FileParser.p_output q = true -> (FileParser.p_number q <= 536)%Z)) ->
  threaded_program E garbage code fuel (Tables.load_em junk1 jl1 (Some dir) files) (Tables.load_bw junk2 jl2 (Some dir) files) counters disk special argv g x ->
  never_ub (let* f := x in file_delete f).
Proof.
  intros T NT E junk1 jl1 junk2 jl2 dir files counters code garbage fuel disk special argv g x DL HT CC NE GI X.
  eapply (C139_no_undefined_behaviour T NT E _ _ counters code garbage fuel disk special (fun _ => true) (fun _ => true)); [exact DL|split; reflexivity|apply shipped_well; exact HT|exact CC|exact NE| |exact X].
  intros pa R. destruct (GI pa R) as [A B]. split; [exact A|]. intros q HQ HO. apply few_enough. apply B; auto.
Qed.
Print Assumptions C139_shipped_tables.

(** ** The example of the README on several threads *)
Lemma example_reads {T} `{NT : Num T} files special prog lines cfg (pa : FileParser.parameters T) :
  (forall sp : text -> T, FileParser.file_parser sp (Present (Some lines)) = Ok cfg) -> files "example.ini" = Present (Some lines) ->
  reads files special [prog; "example.ini"] pa -> pa = cfg.
Proof.
  intros IN FX (name & CA & FP). assert (name = "example.ini") as ->.
  { cbn [check_arguments] in CA. destruct (String.eqb "example.ini" "-h"); [discriminate|]. destruct (_ <? _)%Z; [discriminate|]. destruct (String.eqb _ ".ini"); [congruence|discriminate]. }
  rewrite FX, IN in FP. congruence.
Qed.
Local Open Scope R_scope.
(** what the run writes *)
Definition example_file (f : file R) : Prop :=
  rows_in f "Primary" = Some [100; 8]%Z /\ rows_in f "Electrons" = Some [100; 8]%Z /\ rows_in f "Positrons" = None /\
  forall name part, In name ["start"; "end"] -> In part ["BinCentres"; "BinValues"] -> bins_in f name part = Some [400%Z].
Theorem C139_example : forall (E : Engine R) path tdisk junk jl lbw counters code garbage fuel files special prog g x,
  delivers E -> tables_at path tdisk -> objinfo_inverted code -> (ten_thousand <= fuel)%nat ->
  files "example.ini" = Present (Some (Shipped.file_of example_lines)) ->
  threaded_program E garbage code fuel (Tables.load_em junk jl (Some path) tdisk) lbw counters files special [prog; "example.ini"] g x ->
  exists f, x = Ok f /\ example_file f.
Proof.
  intros E path tdisk junk jl lbw counters code garbage fuel files special prog g x DL HT CI FU FX X.
  assert (RD : forall pa, reads files special [prog; "example.ini"] pa -> pa = example_configuration) by (intros pa; apply (example_reads files special prog (Shipped.file_of example_lines)); [intros sp; apply C128_input|exact FX]).
  apply (C139_completes E (Tables.load_em junk jl (Some path) tdisk) lbw counters code garbage fuel files special (fun _ => true) (fun _ => true) [prog; "example.ini"]) with (g := g); auto.
  - intros E' g' DL' _. exact (C128_run E' path tdisk junk jl lbw counters code garbage fuel files special prog g' DL' HT CI FU FX).
  - split; reflexivity.
  - intros pa R. rewrite (RD pa R). reflexivity.
  - intros pa R. rewrite (RD pa R). intros h HI. cbn [example_configuration FileParser.in_histograms] in HI. destruct HI as [<-|[<-|[]]]; reflexivity.
Qed.
Print Assumptions C139_example.
(** with quantum emission *)
Theorem C139_quantum_example : forall (E : Engine R) path tdisk junk jl lbw counters code garbage fuel files special prog g x,
  delivers E -> double_draws E -> (forall n g z, In z (fst (e_normals E n g)) -> Rabs z <= 500) ->
  tables_at path tdisk -> objinfo_inverted code -> (ten_thousand <= fuel)%nat ->
  files "example.ini" = Present (Some (Shipped.file_of quantum_lines)) ->
  threaded_program E garbage code fuel (Tables.load_em junk jl (Some path) tdisk) lbw counters files special [prog; "example.ini"] g x ->
  exists f, x = Ok f /\ example_file f.
Proof.
  intros E path tdisk junk jl lbw counters code garbage fuel files special prog g x DL DD NB HT CI FU FX X.
  assert (RD : forall pa, reads files special [prog; "example.ini"] pa -> pa = quantum_configuration) by (intros pa; apply (example_reads files special prog (Shipped.file_of quantum_lines)); [intros sp; apply C133_input|exact FX]).
  set (dom := fun u : R => if Rle_dec 0 u then if Rle_dec u (1 - / 10000000000000000) then true else false else false).
  set (domn := fun z : R => if Rle_dec (Rabs z) 500 then true else false).
  apply (C139_completes E (Tables.load_em junk jl (Some path) tdisk) lbw counters code garbage fuel files special dom domn [prog; "example.ini"]) with (g := g); auto.
  - unfold dom. rewrite n0_R. destruct (Rle_dec 0 0) as [_|N]; [|exfalso; apply N; apply Rle_refl]. destruct (Rle_dec 0 _) as [_|N]; [reflexivity|]. exfalso. apply N. lra.
  - unfold domn. rewrite n0_R, Rabs_R0. destruct (Rle_dec 0 500) as [_|N]; [reflexivity|]. exfalso. apply N. lra.
  - intros E' g' DL' [DM' DN']. apply (C133_example_run E' path tdisk junk jl lbw counters code garbage fuel files special prog g' DL'); auto.
    + intros g1. specialize (DM' g1). unfold dom in DM'. destruct (Rle_dec 0 _); [|discriminate]. destruct (Rle_dec _ _); [|discriminate]. auto.
    + intros n g1 z HI. specialize (DN' n g1 z HI). unfold domn in DN'. destruct (Rle_dec _ _); [assumption|discriminate].
  - split.
    + intros g1. destruct (DD g1) as [A B]. unfold dom. destruct (Rle_dec 0 _); [|contradiction]. destruct (Rle_dec _ _); [reflexivity|contradiction].
    + intros n g1 z HI. specialize (NB n g1 z HI). unfold domn. destruct (Rle_dec _ _); [reflexivity|contradiction].
  - intros pa R. rewrite (RD pa R). reflexivity.
  - intros pa R. rewrite (RD pa R). intros h HI. cbn [quantum_configuration FileParser.in_histograms] in HI. destruct HI as [<-|[<-|[]]]; reflexivity.
Qed.
Print Assumptions C139_quantum_example.

(** ** Concrete runs in binary64: two photons with tracks, and two photons with a histogram without bins *)
Definition u_text : Text.text := Text.tx (
"[General]
units = SI
time_step = 1e-15
time_end = 2.5e-15
file_name = out.h5
tracking = false
[Field]
field_type = static
[Particle1]
number_particles = 2
name = beam
particle_type = photon
energy_mean = 1e-10
energy_sig = 1e-10
radius = 1e-6
direction = [0 0 1]
output = true
[Physics]
radiation_model = quantum
[Histogram1]
name = spectrum
particle = Photon
type = energy
bins = 0
min_bin = 0
max_bin = 10000
")%string.
Definition u_disk (tracks : bool) (name : string) : IniReader.path :=
  if String.eqb name "run.ini" then Present (Some (if tracks then t_text "true" else u_text)) else Missing.
Notation u_ordered b := (@ordered_program _ (Num_F64 c_libm) t_engine (Ok c_em2) Throw (fun _ => 0%Z) ex_code (f64_lit 7 0) 10 (u_disk b) (fun _ => f64_lit 0 0)) (only parsing).
Notation u_threaded b := (@threaded_program _ (Num_F64 c_libm) t_engine (f64_lit 7 0) ex_code 10 (Ok c_em2) Throw (fun _ => 0%Z) (u_disk b) (fun _ => f64_lit 0 0)) (only parsing).
Notation u_args := ["qedcasc"; "run.ini"] (only parsing).
Lemma u_read b : exists pa q h, @FileParser.file_parser _ (Num_F64 c_libm) (fun _ => f64_lit 0 0) (u_disk b "run.ini") = Ok pa /\
  FileParser.in_particles pa = [q] /\ FileParser.p_number q = 2%Z /\ FileParser.g_tracking (FileParser.in_general pa) = b /\
  FileParser.in_histograms pa = [h] /\ Hdf5.path (FileParser.h_name h) = ["spectrum"] /\ FileParser.h_bins h = (if b then 3 else 0)%Z.
Proof. destruct b; do 3 eexists; do 6 (split; [vm_compute; reflexivity|]); vm_compute; reflexivity. Qed.
Lemma u_reads b pa : @reads _ (Num_F64 c_libm) (u_disk b) (fun _ => f64_lit 0 0) u_args pa ->
  @FileParser.file_parser _ (Num_F64 c_libm) (fun _ => f64_lit 0 0) (u_disk b "run.ini") = Ok pa.
Proof. intros (name & A & B). rewrite t_argument in A. injection A as <-. exact B. Qed.
Lemma u_engine : delivers t_engine.
Proof. intros n g. cbn. rewrite map_length. apply seq_length. Qed.
Lemma u_loads : loads_well (Ok c_em2) (Throw : res (bw_tables spec_float)).
Proof.
  split; [discriminate|]. split; [|split; discriminate]. intros t E. injection E as <-. unfold em_tables_ok, c_em2. cbn [h_axis h_data h_len ph_axis ph_data ph_chi ph_etaLen ph_chiLen length].
  repeat (split; [lia|]). intros row [I|I]; destruct I as [<-|[<-|[]]]; reflexivity.
Qed.
Lemma u_run b : u_threaded b u_args 0%nat (u_ordered b [[1%nat; 0%nat]] u_args 0%nat).
Proof.
  apply C138_any_order. intros pa R. apply u_reads in R. destruct (u_read b) as (pa' & q & h & F & P & N & _). rewrite F in R. injection R as <-. rewrite P. constructor; [|constructor]. rewrite N. apply perm_swap.
Qed.
Lemma u_code : objinfo_inverted ex_code.
Proof. split; [discriminate|reflexivity]. Qed.
Lemma u_good pa : @reads _ (Num_F64 c_libm) (u_disk true) (fun _ => f64_lit 0 0) u_args pa ->
  @good_input _ (Num_F64 c_libm) (@replay _ (Num_F64 c_libm) (fun _ => true) (fun _ => true)) (Ok c_em2) Throw 10 pa.
Proof.
  intros R. apply u_reads in R. destruct (u_read true) as (pa' & q & h & F & P & N & _ & HH & HN & HB). rewrite F in R. injection R as <-. clear F. split.
  - rewrite HH. intros h' [<-|[]]. rewrite HN, HB. split; [discriminate|reflexivity].
  - rewrite P. intros q' [<-|[]] _. apply few_enough. rewrite N. discriminate.
Qed.
Example C139_case : (exists f, u_ordered true [[1%nat; 0%nat]] u_args 0%nat = Ok f /\ u_threaded true u_args 0%nat (Ok f)) /\
  (forall x, u_threaded true u_args 0%nat x -> never_ub (let* f := x in file_delete f)).
Proof.
  split.
  - assert (Q : exists f, u_ordered true [[1%nat; 0%nat]] u_args 0%nat = Ok f) by (eexists; vm_compute; reflexivity). destruct Q as (f & Q). exists f. split; [exact Q|]. rewrite <- Q. apply u_run.
  - intros x X. refine (@C139_no_undefined_behaviour _ (Num_F64 c_libm) t_engine (Ok c_em2) Throw (fun _ => 0%Z) ex_code (f64_lit 7 0) 10 (u_disk true) (fun _ => f64_lit 0 0) (fun _ => true) (fun _ => true) u_args 0%nat x
      u_engine (conj (fun _ => eq_refl) (fun _ _ _ _ => eq_refl)) u_loads (or_introl u_code) _ u_good X). discriminate.
Qed.
Example C139_failure : u_threaded false u_args 0%nat (Exit 1) /\
  exists ns us, @program _ (Num_F64 c_libm) (@replay _ (Num_F64 c_libm) (fun _ => true) (fun _ => true)) (Ok c_em2) Throw (fun _ => 0%Z) ex_code (f64_lit 7 0) 10 (u_disk false) (fun _ => f64_lit 0 0) u_args (ns, us) = Exit 1.
Proof.
  assert (X : u_threaded false u_args 0%nat (Exit 1)).
  { assert (Q : u_ordered false [[1%nat; 0%nat]] u_args 0%nat = Exit 1) by (vm_compute; reflexivity). rewrite <- Q. apply u_run. }
  split; [exact X|].
  refine (@C139_outcomes _ (Num_F64 c_libm) t_engine (Ok c_em2) Throw (fun _ => 0%Z) ex_code (f64_lit 7 0) 10 (u_disk false) (fun _ => f64_lit 0 0) (fun _ => true) (fun _ => true) u_args 0%nat (Exit 1)
    u_engine (conj (fun _ => eq_refl) (fun _ _ _ _ => eq_refl)) _ _ X); clear X.
  - intros pa R. apply u_reads in R. destruct (u_read false) as (pa' & q & h & F & _ & _ & TR & _). rewrite F in R. injection R as <-. exact TR.
  - intros pa R. apply u_reads in R. destruct (u_read false) as (pa' & q & h & F & _ & _ & _ & HH & _ & HB). rewrite F in R. injection R as <-. rewrite HH. intros h' [<-|[]]. rewrite HB. reflexivity.
Qed.
