(** * C137: a run with MPI is the merger of serial runs *)
From Coq Require Import String ZArith Reals Lra List Bool Lia Arith Permutation.
From Verif Require Import Num RNum Outcome OutcomeFacts Vec Units MCTools Particle ParticleList Source Fields Pusher Process Sim SimFacts SimTime Histogram HistFacts Hdf5 Output
  OutFacts OutFile Text Ini IniReader Mpi MpiFacts MpiGather MpiHist PropsTables PropsOut Program ProgramFacts PropsMpi PropsProgram MpiProgram.
From Verif Require FileParser.
Import ListNotations.
Local Open Scope string_scope.
Local Open Scope list_scope.

Section Run.
Context {T : Type} `{NT : Num T}.
Variable E : Engine T.
Variable load_em : res (em_tables T).
Variable load_bw : res (bw_tables T).
Variable counters : nat -> Z.
Variable code : objinfo.
Variable garbage : T.
Variable fuel : nat.
Variable disk : string -> IniReader.path.
Variable special : text -> T.
Notation tracking_of pa := (FileParser.g_tracking (FileParser.in_general pa)).
Notation end_of pa := (FileParser.g_timeEnd (FileParser.in_general pa)).

(** ** Specification *)
(** the values of a data set of a file; none if it is not there *)
Definition stored (f : file T) (q : list string) : list T := match lookup (f_tree f) q with Some (Dat _ d) => d | _ => [] end.
Definition source_table (x : string) : list string := ["Particles"; "ParticleSource"; x].
Definition values_of (h : FileParser.histogram T) : list string := ["Histograms"; FileParser.h_name h; "BinValues"].
Definition centres_of (h : FileParser.histogram T) : list string := ["Histograms"; FileParser.h_name h; "BinCentres"].
(** a table with these rows of eight values *)
Definition full_table (d : list T) : node T := Dat [Z.of_nat (length d) / 8; 8]%Z d.
Definition joined (d : list T) : option (node T) := match d with [] => None | _ => Some (full_table d) end.
(** with generator state [g] the [n] events [evs] (first and last particle list) of the source [q] are simulated, and the histograms [hs] come out *)
Definition simulated (pa : FileParser.parameters T) (q : FileParser.particle T) (n : nat) (g : est E) (e : list (event T * event T) * list (hist T)) : Prop :=
  exists w src g1 g2, set_up_world load_em load_bw pa = Ok w /\ make_source E (tracking_of pa) q g = (src, g1) /\
    events_of E fuel w (end_of pa) n src g1 (make_histograms counters 0 (FileParser.in_histograms pa)) (fst e) g2 (snd e).
Definition merges (pa : FileParser.parameters T) (f0 : file T) (fs : list (file T)) (f : file T) : Prop :=
  lookup (f_tree f) (source_table "Primary") = Some (full_table (flat_map (fun f => stored f (source_table "Primary")) (f0 :: fs))) /\
  (forall x, In x ["Electrons"; "Positrons"; "Photons"] -> lookup (f_tree f) (source_table x) = joined (flat_map (fun f => stored f (source_table x)) (f0 :: fs))) /\
  (forall h, In h (FileParser.in_histograms pa) ->
     lookup (f_tree f) (centres_of h) = lookup (f_tree f0) (centres_of h) /\
     (forall f', In f' (f0 :: fs) -> Z.of_nat (length (stored f' (values_of h))) = FileParser.h_bins h) /\
     exists order vals, Permutation order fs /\ lookup (f_tree f) (values_of h) = Some (Dat [FileParser.h_bins h] vals) /\
       Z.of_nat (length vals) = FileParser.h_bins h /\
       forall i, (i < length vals)%nat ->
         nth_error vals i = Some (fold_left nadd (map (fun f => nth i (stored f (values_of h)) n0) order) (nth i (stored f0 (values_of h)) n0))) /\
  (forall p, lookup (f_tree f) ("Particles" :: "ParticleTrack" :: p) = None).

(** ** What a rank does *)
Lemma rank_events_eq w tEnd o tr : forall n src g hs evs g2 hs2, events_of E fuel w tEnd n src g hs evs g2 hs2 ->
  forall j, rank_events E fuel w tEnd o tr n (Z.of_nat j) src g hs = Ok (calls_of o tr j evs, g2, hs2).
Proof.
  intros n src g hs evs g2 hs2 HX. induction HX as [|n src g hs l src1 g1 st evs g2 hs2 G R X IH]; intros j; cbn [rank_events]; [reflexivity|].
  rewrite G. cbn [bind]. rewrite R. cbn [bind]. replace (Z.of_nat j + 1)%Z with (Z.of_nat (S j)) by lia. rewrite IH. reflexivity.
Qed.
Lemma rank_runs pa q n g e : FileParser.in_particles pa = [q] -> FileParser.p_output q = true -> FileParser.p_number q = Z.of_nat n -> simulated pa q n g e ->
  rank_simulation E load_em load_bw counters fuel pa g = Ok ([mkSR true (Z.of_nat n) (calls_of true (tracking_of pa) 0 (fst e))], snd e).
Proof.
  intros HP HO HN (w & src & g1 & g2 & HW & HS & HE). unfold rank_simulation. rewrite HW. cbn [bind]. rewrite HP. cbn [make_sources]. rewrite HS, HO. cbn [rank_sources].
  pose proof (make_source_for E (tracking_of pa) q g) as SF. cbv zeta in SF. rewrite HS in SF. destruct SF as (_ & SN & _). cbn [fst snd] in SN.
  rewrite SN, HN, Nat2Z.id. rewrite (rank_events_eq _ _ _ _ _ _ _ _ _ _ _ HE 0). reflexivity.
Qed.

(** histograms are filled particle by particle *)
Lemma filled_trans (a b c : hist T) : filled a b -> filled b c -> filled a c.
Proof. intros X Y. induction Y as [|h1 h2 p Y IH A]; [exact X|]. eapply fi_app; [exact IH|exact A]. Qed.
Lemma app_named_filled ps : forall h h' : hist T, app_named h ps = Ok h' -> filled h h'.
Proof.
  induction ps as [|p ps IH]; intros h h' X; cbn [app_named] in X; [injection X; intros <-; constructor|].
  apply bind_ok in X. destruct X as [h1 [X1 X]]. eapply filled_trans; [|eauto]. destruct (String.eqb _ _); [eapply fi_app; [constructor|exact X1]|].
  injection X1; intros <-. constructor.
Qed.
Lemma all_refl (hs : list (hist T)) : Forall2 filled hs hs.
Proof. induction hs; constructor; auto. constructor. Qed.
Lemma all_trans (a : list (hist T)) : forall b c, Forall2 filled a b -> Forall2 filled b c -> Forall2 filled a c.
Proof. induction a; intros b c X Y; inversion X; subst; inversion Y; subst; constructor; eauto. eapply filled_trans; eauto. Qed.
Lemma hist_fill_filled i t ps (hs hs' : list (hist T)) : hist_fill i t ps hs = Ok hs' -> Forall2 filled hs hs'.
Proof.
  unfold hist_fill. destruct (nth_error hs i) as [h|] eqn:EN; [|discriminate]. intros X. apply bind_ok in X. destruct X as [h1 [X1 X]]. injection X; intros <-.
  apply app_named_filled in X1. clear X. revert i EN. induction hs as [|a hs IH]; intros [|i] EN; cbn in EN; try discriminate; cbn [upd].
  - injection EN; intros <-. constructor; [auto|apply all_refl].
  - constructor; [constructor|]. apply IH. exact EN.
Qed.
Lemma fills_filled snaps : forall i (hs hs' : list (hist T)), fills hist_fill i snaps hs = Ok hs' -> Forall2 filled hs hs'.
Proof.
  induction snaps as [|[t ps] snaps IH]; intros i hs hs' X; cbn [fills] in X; [injection X; intros <-; apply all_refl|].
  apply bind_ok in X. destruct X as [hs1 [X1 X]]. eapply all_trans; [eapply hist_fill_filled; eauto|eauto].
Qed.
Lemma events_filled w tEnd : forall n src g hs evs g' hs', events_of E fuel w tEnd n src g hs evs g' hs' -> Forall2 filled hs hs'.
Proof.
  intros n src g hs evs g' hs' HX. induction HX as [|n src g hs l src1 g1 st evs g2 hs2 G R X IH]; [apply all_refl|].
  eapply all_trans; [|exact IH]. apply (run_decompose E w) in R. destruct R as (N & ns & sn & _ & _ & _ & _ & _ & _ & F & _). eapply fills_filled; eauto.
Qed.
Definition conf_of (h : FileParser.histogram T) : hconf T :=
  mkHC (FileParser.h_name h) (FileParser.h_particle h) (FileParser.h_type h) (FileParser.h_time h) (FileParser.h_minBin h) (FileParser.h_maxBin h) (FileParser.h_bins h).
Lemma hists_of_confs hs : forall i (l : list (hist T)), Forall2 filled (make_histograms counters i hs) l -> Forall2 hist_of (map conf_of hs) l.
Proof. induction hs as [|h hs IH]; intros i l X; cbn [make_histograms map] in *; inversion X; subst; constructor; eauto. eexists. exact H1. Qed.

(** ** A rank and its serial run *)
Definition dead : particle T := Particle.mkP PPhoton "" n0 n0 n0 n0 n0 false false (mkV n0 n0 n0) (mkV n0 n0 n0) [] [] [] [].
Definition head_of (l : event T) : particle T := match pl_items l with p :: _ => p | [] => dead end.
Definition rank_of (tr : bool) (n : nat) (e : list (event T * event T) * list (hist T)) : rank T :=
  mkRank n (first_of (fst e)) (last_of (fst e)) (fun j => head_of (first_of (fst e) j)) (calls_of true tr 0 (fst e)) (snd e).
Definition few (n : nat) (es : list (list (event T * event T) * list (hist T))) : Prop :=
  (Z.of_nat (length es * n) < 2 ^ 28)%Z /\ forall name, (Z.of_nat (length (flat_map (fun e => spec_table name n (last_of (fst e))) es)) < 2 ^ 28)%Z.
Definition good_names (pa : FileParser.parameters T) : Prop :=
  NoDup (map (@FileParser.h_name T) (FileParser.in_histograms pa)) /\
  forall h, In h (FileParser.in_histograms pa) -> no_slash (FileParser.h_name h) /\ FileParser.h_name h <> "" /\ (0 <= FileParser.h_bins h)%Z.
Lemma rank_of_ok pa q n g e : simulated pa q n g e -> rank_ok (rank_of (tracking_of pa) n e) /\ Forall2 hist_of (map conf_of (FileParser.in_histograms pa)) (snd e).
Proof.
  intros (w & src & g1 & g2 & HW & HS & HE). destruct (events_sound E fuel w _ _ _ _ _ _ _ _ HE) as [LE SE].
  assert (SJ : forall j, (j < n)%nat -> sound (first_of (fst e) j, last_of (fst e) j)).
  { intros j Hj. unfold first_of, last_of. rewrite <- surjective_pairing. rewrite Forall_forall in SE. apply SE. apply nth_In. lia. }
  split; [|eapply hists_of_confs; eapply events_filled; exact HE]. split; [|split]; cbn [rank_of rk_n rk_prim rk_fin rk_first rk_calls].
  - rewrite <- LE. apply calls_of_event_calls.
  - intros j Hj. destruct (SJ j Hj) as ((p & P1 & P2) & _). cbn [fst] in P1, P2. unfold head_of. rewrite P1. exact P2.
  - intros j Hj. destruct (SJ j Hj) as (_ & _ & B). cbn [snd] in B. unfold default_max in B. lia.
Qed.
(** the tables and histograms of the serial run *)
Definition serial_file (pa : FileParser.parameters T) (n : nat) (e : list (event T * event T) * list (hist T)) (f : file T) : Prop :=
  lookup (f_tree f) (source_table "Primary") = Some (Dat [Z.of_nat n; 8%Z] (concat (map (fun j => spec_row j (head_of (first_of (fst e) j))) (seq 0 n)))) /\
  lookup (f_tree f) (source_table "Electrons") = spec_node (spec_table "Electron" n (last_of (fst e))) /\
  lookup (f_tree f) (source_table "Positrons") = spec_node (spec_table "Positron" n (last_of (fst e))) /\
  lookup (f_tree f) (source_table "Photons") = spec_node (spec_table "Photon" n (last_of (fst e))) /\
  (forall h, In h (snd e) ->
      lookup (f_tree f) ["Histograms"; hi_name h; "BinCentres"] = Some (Dat [hi_n h] (hi_centres h)) /\
      lookup (f_tree f) ["Histograms"; hi_name h; "BinValues"] = Some (Dat [hi_n h] (hi_values h))).
Lemma serial_run pa q n g e es : objinfo_inverted code -> FileParser.in_particles pa = [q] -> FileParser.p_output q = true -> FileParser.p_number q = Z.of_nat n ->
  good_names pa -> simulated pa q n g e -> few n es -> In e es ->
  exists f, simulation E load_em load_bw counters code garbage fuel pa g = Ok f /\ serial_file pa n e f.
Proof.
  intros HI HP HO HN [GN GH] (w & src & g1 & g2 & HW & HS & HE) [F1 F2] HIn.
  assert (A : (1 <= length es)%nat) by (destruct es; [contradiction|cbn; lia]).
  destruct (C91_output_file E load_em load_bw counters code garbage fuel pa g q w src g1 n (fst e) g2 (snd e) HI HP HO HN HW HS HE) as (o0 & f & first & X & _ & HF & A1 & A2 & A3 & A4 & A5 & _); auto.
  - nia.
  - intros name. specialize (F2 name). apply in_split in HIn. destruct HIn as (a & b & ->). rewrite flat_map_app in F2. cbn [flat_map] in F2. rewrite !app_length in F2. lia.
  - exists f. split; [exact X|]. cbv zeta in *. split; [|split; [exact A2|split; [exact A3|split; [exact A4|exact A5]]]].
    rewrite <- (map_ext_in (fun j => spec_row j (first j))); [exact A1|]. intros j Hj. apply in_seq in Hj. unfold head_of. rewrite HF by lia. reflexivity.
Qed.

(** ** The merger *)
Lemma other_ranks_eq argv gs : forall acts, length acts = length gs ->
  (forall i g, nth_error gs i = Some g -> exists x a, nth_error acts i = Some a /\ rank_program E load_em load_bw counters fuel disk special argv g = Ok x /\
     slave_main code garbage no_field om_slave (fst x) (snd x) = Ok a) ->
  other_ranks E load_em load_bw counters code garbage fuel disk special argv gs = Ok acts.
Proof.
  induction gs as [|g gs IH]; intros [|a acts] HL HX; cbn in HL; try discriminate; [reflexivity|]. cbn [other_ranks].
  destruct (HX 0%nat g eq_refl) as (x & a' & A & B & C). cbn in A. injection A; intros <-. rewrite B. cbn [bind]. rewrite C. cbn [bind].
  rewrite (IH acts); [reflexivity|lia|]. intros i g' Hi. apply (HX (S i) g' Hi).
Qed.
Lemma concat8 (rows : list (list T)) : (forall r, In r rows -> length r = 8%nat) -> Z.of_nat (length rows) = (Z.of_nat (length (concat rows)) / 8)%Z.
Proof. intros X. rewrite (concat_length8 rows X). rewrite Nat2Z.inj_mul. replace (Z.of_nat 8 * Z.of_nat (length rows))%Z with (Z.of_nat (length rows) * 8)%Z by lia. rewrite Z.div_mul by lia. reflexivity. Qed.
Lemma spec_node_joined (rows : list (list T)) : (forall r, In r rows -> length r = 8%nat) -> spec_node rows = joined (concat rows).
Proof.
  intros X. unfold spec_node, joined. destruct rows as [|r rows]; [reflexivity|]. assert (R8 : length r = 8%nat) by (apply X; left; auto).
  destruct (concat (r :: rows)) as [|d ds] eqn:EC.
  - cbn [concat] in EC. apply app_eq_nil in EC. destruct EC as [-> _]. discriminate.
  - rewrite <- EC. unfold full_table. rewrite <- concat8; [reflexivity|exact X].
Qed.
Lemma spec_table_rows name n (fin : nat -> plist (particle T)) r : In r (spec_table name n fin) -> length r = 8%nat.
Proof. intros X. apply in_flat_map in X. destruct X as (j & _ & X). apply in_map_iff in X. destruct X as (p & <- & _). reflexivity. Qed.
Lemma flat_concat {X} (f : X -> list (list T)) l : concat (flat_map f l) = flat_map (fun x => concat (f x)) l.
Proof. induction l as [|x l IH]; [reflexivity|]. cbn [flat_map]. rewrite concat_app, IH. reflexivity. Qed.
Lemma Forall2_flat {X Y} (P : X -> Y -> Prop) (a : X -> list T) (b : Y -> list T) l m : (forall x y, P x y -> a x = b y) -> Forall2 P l m -> flat_map a l = flat_map b m.
Proof. intros HX. induction 1; cbn [flat_map]; [reflexivity|]. f_equal; auto. Qed.
Lemma Forall2_map_eq {X Y Z} (P : X -> Y -> Prop) (a : X -> Z) (b : Y -> Z) l m : (forall x y, P x y -> a x = b y) -> Forall2 P l m -> map a l = map b m.
Proof. intros HX. induction 1; cbn [map]; [reflexivity|]. f_equal; auto. Qed.
Lemma Forall2_exists {X Y} (P : X -> Y -> Prop) l : (forall x, In x l -> exists y, P x y) -> exists m, Forall2 P l m.
Proof.
  induction l as [|x l IH]; intros HX; [exists []; constructor|]. destruct (HX x) as [y Hy]; [left; auto|]. destruct IH as [m Hm]; [intros; apply HX; right; auto|].
  exists (y :: m). constructor; auto.
Qed.

(** All ranks read the same input file, with one source with output.  If on every rank the events can be simulated, then so can they in serial runs;
    the communicating processes then come to an end without an error in whatever order things happen, and the file is the merger of the files
    of the serial runs. *)
Theorem C137_merge : forall argv name pa q n g0 gs e0 es, objinfo_inverted code ->
  check_arguments argv = Ok name -> FileParser.file_parser special (disk name) = Ok pa ->
  FileParser.in_particles pa = [q] -> FileParser.p_output q = true -> FileParser.p_number q = Z.of_nat n -> good_names pa ->
  Forall2 (simulated pa q n) (g0 :: gs) (e0 :: es) -> few n (e0 :: es) ->
  exists f0 fs w0,
    program E load_em load_bw counters code garbage fuel disk special argv g0 = Ok f0 /\
    Forall2 (fun g f => program E load_em load_bw counters code garbage fuel disk special argv g = Ok f) gs fs /\
    mpi_program E load_em load_bw counters code garbage fuel disk special argv g0 gs = Ok w0 /\
    Acc (fun w' w => step w w') w0 /\
    forall w, reach w0 w -> w_master w <> Fail /\ ((exists s, done w s) \/ exists w', step w w') /\ forall s, done w s -> merges pa f0 fs (om_file s).
Proof.
  intros argv name pa q n g0 gs e0 es HI HA HF HP HO HN GN HS FW.
  set (R := rank_of (tracking_of pa) n). set (cs := map conf_of (FileParser.in_histograms pa)).
  assert (SIM : forall e, In e (e0 :: es) -> exists g, simulated pa q n g e).
  { intros e He. clear -HS He. revert He. induction HS as [|g e' gl el X _ IH]; intros []; [subst; eauto|auto]. }
  assert (OKR : forall e, In e (e0 :: es) -> rank_ok (R e) /\ Forall2 hist_of cs (snd e)).
  { intros e He. destruct (SIM e He) as [g X]. exact (rank_of_ok _ _ _ _ _ X). }
  assert (LG : length gs = length es) by (apply SimFacts.Forall2_length in HS; cbn in HS; lia).
  destruct (mpi_run code no_field garbage None (R e0) (map R es) (repeat garbage (length es)) (repeat om_slave (length es)) cs HI) as (s0 & acts & N0 & LA & SL & AC & RUN).
  { intros r Hr. change (R e0 :: map R es) with (map R (e0 :: es)) in Hr. apply in_map_iff in Hr. destruct Hr as (e & <- & He). apply OKR. exact He. }
  { destruct FW as [F1 F2]. change (R e0 :: map R es) with (map R (e0 :: es)).
    assert (B : forall x, all_final x (map R (e0 :: es)) = flat_map (fun e => spec_table x n (last_of (fst e))) (e0 :: es)).
    { intros x. unfold all_final. generalize (e0 :: es). intros l. induction l as [|e l IH]; [reflexivity|]. cbn [map flat_map]. rewrite IH. reflexivity. }
    intros t [<-|[<-|[<-|[<-|[]]]]]; try (rewrite B; apply F2).
    assert (L : length (all_primary (map R (e0 :: es))) = (length (e0 :: es) * n)%nat); [|rewrite L; exact F1].
    unfold all_primary. generalize (e0 :: es). intros l. induction l as [|e l IH]; [reflexivity|]. cbn [map flat_map length]. rewrite app_length, IH, map_length, seq_length. cbn [R rank_of rk_n]. lia. }
  { unfold cs. rewrite map_map. exact (proj1 GN). }
  { intros c Hc. apply in_map_iff in Hc. destruct Hc as (h & <- & Hh). exact (proj2 GN h Hh). }
  { intros r Hr. change (R e0 :: map R es) with (map R (e0 :: es)) in Hr. apply in_map_iff in Hr. destruct Hr as (e & <- & He). apply OKR. exact He. }
  { rewrite repeat_length, map_length. reflexivity. }
  { rewrite repeat_length, map_length. reflexivity. }
  assert (RP : forall g e, simulated pa q n g e -> rank_program E load_em load_bw counters fuel disk special argv g = Ok (source_of (R e), rk_hists (R e))).
  { intros g e X. unfold rank_program. rewrite HA. cbn [bind]. rewrite HF. cbn [bind]. rewrite (rank_runs pa q n g e HP HO HN X). reflexivity. }
  assert (SER : forall g e, simulated pa q n g e -> In e (e0 :: es) -> exists f, program E load_em load_bw counters code garbage fuel disk special argv g = Ok f /\ serial_file pa n e f).
  { intros g e X He. destruct (serial_run pa q n g e (e0 :: es) HI HP HO HN GN X FW He) as (f & F1 & F2). exists f. split; [|exact F2].
    unfold program. rewrite HA. cbn [bind]. rewrite HF. cbn [bind]. exact F1. }
  inversion HS as [|? ? ? ? S0 SS]; subst.
  destruct (SER g0 e0 S0 (or_introl eq_refl)) as (f0 & P0 & Q0).
  assert (FS : exists fs, Forall2 (fun g f => program E load_em load_bw counters code garbage fuel disk special argv g = Ok f) gs fs /\ Forall2 (serial_file pa n) es fs).
  { assert (SER' : forall g e, simulated pa q n g e -> In e es -> exists f, program E load_em load_bw counters code garbage fuel disk special argv g = Ok f /\ serial_file pa n e f) by (intros; apply SER; [assumption|right; assumption]).
    clear -SS SER'. induction SS as [|g e gl el X _ IH]; [exists []; split; constructor|]. destruct (SER' g e X (or_introl eq_refl)) as (f & A & B).
    destruct IH as (fs & C & D); [intros; apply SER'; [assumption|right; assumption]|]. exists (f :: fs). split; constructor; assumption. }
  destruct FS as (fs & PS & QS). exists f0, fs. rewrite map_length in *. cbv zeta in AC, RUN.
  set (w0 := start _ acts) in *. exists w0. split; [exact P0|]. split; [exact PS|]. split; [|split; [exact AC|]].
  - unfold mpi_program. rewrite (RP g0 e0 S0). cbn [bind]. rewrite N0. cbn [bind]. rewrite (other_ranks_eq argv gs acts); [cbn [bind fst snd]; rewrite LG; reflexivity|lia|].
    intros i g Hi. assert (NE : exists e, nth_error es i = Some e /\ simulated pa q n g e).
    { clear -SS Hi. revert i Hi. induction SS as [|g' e gl el X _ IH]; intros [|i] Hi; cbn in Hi; try discriminate; [injection Hi; intros <-; exists e; auto|apply IH; exact Hi]. }
    destruct NE as (e & E1 & E2). exists (source_of (R e), rk_hists (R e)).
    assert (Hl : (i < length es)%nat) by (apply nth_error_Some; congruence).
    destruct (SL i (R e) garbage om_slave) as (a & A1 & A2); [rewrite nth_error_map, E1; reflexivity|apply nth_error_repeat; exact Hl|apply nth_error_repeat; exact Hl|].
    exists a. split; [exact A1|]. split; [apply RP; exact E2|exact A2].
  - intros w HR. destruct (RUN w HR) as (W1 & W2 & W3). split; [exact W1|]. split; [exact W2|]. intros s [DS _]. destruct (W3 s DS) as (TD & HD & NTR). clear W3.
    assert (Q : Forall2 (serial_file pa n) (e0 :: es) (f0 :: fs)) by (constructor; assumption).
    destruct TD as (T1 & T2 & T3 & T4). cbv beta zeta in *.
    assert (FL : forall x y, (forall e f, serial_file pa n e f -> lookup (f_tree f) (source_table y) = spec_node (spec_table x n (last_of (fst e)))) ->
      spec_node (all_final x (R e0 :: map R es)) = joined (flat_map (fun f => stored f (source_table y)) (f0 :: fs))).
    { intros x y HX. change (R e0 :: map R es) with (map R (e0 :: es)). rewrite spec_node_joined.
      - unfold all_final. rewrite flat_concat. f_equal. rewrite <- (Forall2_flat _ (fun e => concat (spec_table x n (last_of (fst e)))) _ _ _) with (2 := Q).
        + generalize (e0 :: es). intros l. induction l as [|e l IH]; [reflexivity|]. cbn [map flat_map]. rewrite IH. reflexivity.
        + intros e f X. unfold stored. rewrite (HX e f X). destruct (spec_table x n (last_of (fst e))); reflexivity.
      - intros r Hr. unfold all_final in Hr. apply in_flat_map in Hr. destruct Hr as (r' & _ & Hr). eapply spec_table_rows; exact Hr. }
    split; [|split; [|split]].
    + unfold source_table at 1. rewrite T1. change (R e0 :: map R es) with (map R (e0 :: es)). unfold full_table. rewrite concat8.
      * assert (EQ : concat (all_primary (map R (e0 :: es))) = flat_map (fun f => stored f (source_table "Primary")) (f0 :: fs)); [|rewrite EQ; reflexivity].
        unfold all_primary. rewrite flat_concat. rewrite <- (Forall2_flat _ (fun e => concat (map (fun j => spec_row j (head_of (first_of (fst e) j))) (seq 0 n))) _ _ _) with (2 := Q).
        -- generalize (e0 :: es). intros l. induction l as [|e l IH]; [reflexivity|]. cbn [map flat_map]. rewrite IH. reflexivity.
        -- intros e f (X & _). unfold stored. rewrite X. reflexivity.
      * intros r Hr. unfold all_primary in Hr. apply in_flat_map in Hr. destruct Hr as (r' & _ & Hr). apply in_map_iff in Hr. destruct Hr as (j & <- & _). reflexivity.
    + intros x [<-|[<-|[<-|[]]]]; unfold source_table at 1; [rewrite T2|rewrite T3|rewrite T4]; apply FL; intros e f X; apply X.
    + intros h Hh. apply In_nth_error in Hh. destruct Hh as [k Hk]. destruct (HD k (conf_of h)) as (D1 & order & vals & D2 & D3 & D4 & D5); [unfold cs; rewrite nth_error_map, Hk; reflexivity|].
      cbn [conf_of hc_name hc_bins] in *.
      assert (HV : forall e f, In e (e0 :: es) -> serial_file pa n e f -> lookup (f_tree f) (centres_of h) = Some (Dat [FileParser.h_bins h] (axis (conf_of h))) /\
         stored f (values_of h) = nth k (map hi_values (snd e)) [] /\ Z.of_nat (length (stored f (values_of h))) = FileParser.h_bins h).
      { intros e f He (_ & _ & _ & _ & X). destruct (OKR e He) as [_ HO2].
        assert (NK : exists h', nth_error (snd e) k = Some h' /\ hist_of (conf_of h) h').
        { assert (Hk' : nth_error cs k = Some (conf_of h)) by (unfold cs; rewrite nth_error_map, Hk; reflexivity). clear -HO2 Hk'. revert k Hk'.
          induction HO2 as [|c h' cl hl Y _ IH]; intros [|k] Hk'; cbn in Hk'; try discriminate; [injection Hk'; intros ->; exists h'; auto|apply IH; exact Hk']. }
        destruct NK as (h' & K1 & K2). destruct (hist_of_axes (conf_of h) h' K2) as (B1 & B2 & B3 & B4 & _); [apply GN; eapply nth_error_In; exact Hk|].
        destruct (X h' (nth_error_In _ _ K1)) as [X1 X2]. cbn [conf_of hc_name hc_bins] in *. rewrite B1 in X1, X2. rewrite B2, B3 in X1. unfold centres_of, stored, values_of. rewrite X1, X2. split; [reflexivity|]. split; [|exact B4].
        symmetry. erewrite (nth_error_nth (map hi_values (snd e))); [reflexivity|]. rewrite nth_error_map, K1. reflexivity. }
      destruct (HV e0 f0 (or_introl eq_refl) Q0) as (V1 & V2 & V3). split; [unfold centres_of at 1; rewrite D1, V1; reflexivity|]. split.
      { intros f' Hf'. assert (PX : exists e, In e (e0 :: es) /\ serial_file pa n e f') by (clear -Q Hf'; revert Hf'; induction Q as [|e f el fl X _ IH]; intros []; [subst; exists e; split; [left; reflexivity|exact X]|destruct IH as (e' & A & B); [assumption|]; exists e'; split; [right; exact A|exact B]]).
        destruct PX as (e & He & X). apply (HV e f' He X). }
      apply Permutation_map_inv in D2. destruct D2 as (es' & -> & PE). destruct (Permutation_Forall2 PE QS) as (fs' & PF & QF).
      exists fs', vals. split; [apply Permutation_sym; exact PF|]. split; [exact D3|]. split; [exact D4|]. intros i Hi. rewrite (D5 i Hi). do 2 f_equal.
      * rewrite map_map. assert (HV' : forall e f, In e es' -> serial_file pa n e f -> bin k i (R e) = nth i (stored f (values_of h)) n0).
        { intros e f He X. destruct (HV e f) as (_ & Y & _); [right; eapply Permutation_in; [apply Permutation_sym; exact PE|exact He]|exact X|]. rewrite Y. reflexivity. }
        clear -QF HV'. induction QF as [|e f el fl X _ IH]; [reflexivity|]. cbn [map]. f_equal; [apply HV'; [left; reflexivity|exact X]|]. apply IH. intros e' f' He'. apply HV'. right. exact He'.
      * rewrite V2. reflexivity.
    + exact NTR.
Qed.

(** a serial run that completes has simulated its events *)
Lemma serial_simulated pa q n g f : FileParser.in_particles pa = [q] -> FileParser.p_number q = Z.of_nat n ->
  simulation E load_em load_bw counters code garbage fuel pa g = Ok f -> exists e, simulated pa q n g e.
Proof.
  intros HP HN X. apply (C91_run_iff E load_em load_bw counters code garbage fuel no_field) in X. destruct X as (w & ss & g1 & o0 & evss & g2 & hs & o & HW & MS & _ & SO & _).
  rewrite HP in MS. cbn [make_sources] in MS. destruct (make_source E (tracking_of pa) q g) as [src g1'] eqn:HS. injection MS; intros <- <-.
  pose proof (make_source_for E (tracking_of pa) q g) as SF. cbv zeta in SF. rewrite HS in SF. destruct SF as (_ & SN & _). cbn [fst snd] in SN.
  inversion SO as [|? ? ? ? ? evs g3 hs1 ? ? ? EV SR]; subst. inversion SR; subst. rewrite SN, HN, Nat2Z.id in EV. exists (evs, hs), w, src, g1', g2. auto.
Qed.
(** an event holds at most [default_max] particles *)
Lemma table_bound pa q n g e name : simulated pa q n g e -> (Z.of_nat (length (spec_table name n (last_of (fst e)))) <= Z.of_nat n * default_max)%Z.
Proof.
  intros (w & src & g1 & g2 & HW & HS & HE). destruct (events_sound E fuel w _ _ _ _ _ _ _ _ HE) as [LE SE].
  unfold spec_table. assert (B : forall j, (j < n)%nat -> (Z.of_nat (length (spec_rows name j (pl_items (last_of (fst e) j)))) <= default_max)%Z).
  { intros j Hj. unfold spec_rows. rewrite map_length. rewrite Forall_forall in SE.
    destruct (SE (nth j (fst e) (pl_new "" 0, pl_new "" 0))) as (_ & _ & B); [apply nth_In; lia|]. fold (last_of (fst e) j) in B.
    assert (F : (length (filter (named name) (pl_items (last_of (fst e) j))) <= length (pl_items (last_of (fst e) j)))%nat).
    { clear. induction (pl_items _) as [|p l IH]; [auto|]. cbn. destruct (named name p); cbn; lia. }
    unfold pl_n in B. unfold event in *. lia. }
  assert (K : forall m a, (a + m <= n)%nat -> (Z.of_nat (length (flat_map (fun j => spec_rows name j (pl_items (last_of (fst e) j))) (seq a m))) <= Z.of_nat m * default_max)%Z); [|apply K; lia].
  induction m as [|m IH]; intros a Ha; [cbn; lia|]. cbn [seq flat_map]. rewrite app_length. pose proof (B a ltac:(lia)). pose proof (IH (S a) ltac:(lia)). lia.
Qed.

(** Serial runs that complete: their merger is what the ranks with the same random numbers write, if they have not more than 268 events together. *)
Theorem C137_serial_runs : forall argv name pa q n g0 gs f0 fs, objinfo_inverted code ->
  check_arguments argv = Ok name -> FileParser.file_parser special (disk name) = Ok pa ->
  FileParser.in_particles pa = [q] -> FileParser.p_output q = true -> FileParser.p_number q = Z.of_nat n -> good_names pa ->
  Forall2 (fun g f => program E load_em load_bw counters code garbage fuel disk special argv g = Ok f) (g0 :: gs) (f0 :: fs) ->
  (S (length gs) * n <= 268)%nat ->
  exists w0, mpi_program E load_em load_bw counters code garbage fuel disk special argv g0 gs = Ok w0 /\ Acc (fun w' w => step w w') w0 /\
    forall w, reach w0 w -> w_master w <> Fail /\ ((exists s, done w s) \/ exists w', step w w') /\ forall s, done w s -> merges pa f0 fs (om_file s).
Proof.
  intros argv name pa q n g0 gs f0 fs HI HA HF HP HO HN GN HS HB.
  assert (SIM : exists es, Forall2 (simulated pa q n) (g0 :: gs) es).
  { apply Forall2_exists. intros g Hg. assert (PX : exists f, program E load_em load_bw counters code garbage fuel disk special argv g = Ok f).
    { clear -HS Hg. revert Hg. induction HS as [|g' f gl fl X _ IH]; intros []; [subst; eauto|auto]. }
    destruct PX as (f & X). unfold program in X. rewrite HA in X. cbn [bind] in X. rewrite HF in X. cbn [bind] in X. eapply serial_simulated; eauto. }
  destruct SIM as (el & SS). destruct el as [|e0 es]; [inversion SS|].
  assert (LG : length gs = length es) by (apply SimFacts.Forall2_length in SS; cbn in SS; lia).
  destruct (C137_merge argv name pa q n g0 gs e0 es HI HA HF HP HO HN GN SS) as (f0' & fs' & w0 & P0 & PS & M & AC & RUN).
  - rewrite LG in HB. change (S (length es)) with (length (e0 :: es)) in HB. split.
    + apply (Z.le_lt_trans _ 268); [|reflexivity]. apply (Nat2Z.inj_le _ 268). exact HB.
    + intros x. assert (K : (Z.of_nat (length (flat_map (fun e => spec_table x n (last_of (fst e))) (e0 :: es))) <= Z.of_nat (length (e0 :: es) * n) * default_max)%Z).
      { assert (BE : forall e, In e (e0 :: es) -> (Z.of_nat (length (spec_table x n (last_of (fst e)))) <= Z.of_nat n * default_max)%Z).
        { intros e He. assert (PX : exists g, simulated pa q n g e) by (clear -SS He; revert He; induction SS as [|g' e' gl el X _ IH]; intros []; [subst; eauto|auto]).
          destruct PX as (g & X). eapply table_bound; exact X. }
        revert BE. generalize (e0 :: es). intros l. induction l as [|e l IH]; intros BE; [cbn; lia|]. cbn [flat_map length]. rewrite app_length.
        pose proof (BE e (or_introl eq_refl)). pose proof (IH (fun e' He' => BE e' (or_intror He'))). lia. }
      unfold default_max in K. lia.
  - exists w0. split; [exact M|]. split; [exact AC|]. intros w HR. destruct (RUN w HR) as (W1 & W2 & W3). split; [exact W1|]. split; [exact W2|].
    inversion HS as [|? ? ? ? S0 SF]; subst. assert (f0' = f0) as -> by congruence.
    assert (fs' = fs) as ->; [|exact W3]. clear -PS SF. revert fs SF. induction PS as [|g f gl fl X _ IH]; intros fs SF; inversion SF; subst; [reflexivity|]. f_equal; [congruence|auto].
Qed.
End Run.
Print Assumptions C137_merge.
Print Assumptions C137_serial_runs.

(** exact arithmetic: the bins are the sums of the bins of the serial runs *)
Theorem C137_sum : forall pa f0 fs f h, merges (T := R) pa f0 fs f -> In h (FileParser.in_histograms pa) ->
  lookup (f_tree f) (values_of h) = Some (Dat [FileParser.h_bins h]
    (map (fun i => fold_right Rplus 0%R (map (fun f => nth i (stored f (values_of h)) 0%R) (f0 :: fs))) (seq 0 (Z.to_nat (FileParser.h_bins h))))).
Proof.
  intros pa f0 fs f h (_ & _ & HH & _) Hh. destruct (HH h Hh) as (_ & HLEN & order & vals & PO & L & LV & N). rewrite L. do 2 f_equal. apply nth_error_same. intros i.
  rewrite nth_error_map. destruct (Nat.lt_ge_cases i (length vals)) as [Hi|Hi].
  - rewrite (N i Hi), nth_error_nth' with (d := 0%nat) by (rewrite seq_length; lia). rewrite seq_nth by lia. cbn [option_map Nat.add map fold_right]. f_equal.
    change (@nadd R _) with Rplus. rewrite fold_plus, n0_R. f_equal. apply sum_perm. apply Permutation_map. exact PO.
  - rewrite (proj2 (nth_error_None _ _) Hi). symmetry. rewrite (proj2 (nth_error_None (seq _ _) _)); [reflexivity|]. rewrite seq_length. lia.
Qed.
Print Assumptions C137_sum.
(** a single rank *)
Theorem C137_one_rank : forall (T : Type) (NT : Num T) pa (f0 f : file T), merges pa f0 [] f ->
  (forall x, In x ["Primary"; "Electrons"; "Positrons"; "Photons"] -> stored f (source_table x) = stored f0 (source_table x)) /\
  (forall h, In h (FileParser.in_histograms pa) -> stored f (values_of h) = stored f0 (values_of h)).
Proof.
  intros T NT pa f0 f (P & X & HH & _). split.
  - intros x [<-|Hx]; unfold stored at 1.
    + rewrite P. unfold full_table. cbn [flat_map]. apply app_nil_r.
    + rewrite (X x Hx). cbn [flat_map]. rewrite app_nil_r. unfold joined. destruct (stored f0 (source_table x)); reflexivity.
  - intros h Hh. destruct (HH h Hh) as (_ & HLEN & order & vals & PO & L & LV & N). pose proof (HLEN f0 (or_introl eq_refl)) as HL. unfold stored at 1. rewrite L. apply nth_error_same. intros i.
    apply Permutation_sym, Permutation_nil in PO. subst order. cbn [map fold_left] in N. destruct (Nat.lt_ge_cases i (length vals)) as [Hi|Hi].
    + rewrite (N i Hi). symmetry. apply nth_error_nth'. lia.
    + rewrite (proj2 (nth_error_None _ _) Hi). symmetry. apply nth_error_None. lia.
Qed.
Print Assumptions C137_one_rank.

Lemma some_inj {X} (a b : X) : Some a = Some b -> a = b.
Proof. congruence. Qed.
(** three ranks with the input of C91: two photons each; all six are in the first bin *)
Definition m_disk (name : string) : IniReader.path := if String.eqb name "run.ini" then IniReader.Present (Some (c_text "true" "")) else IniReader.Missing.
Notation m_serial := (@program _ (Num_F64 c_libm) c_engine (Ok c_em) Throw (fun _ => 0%Z) ex_code (f64_lit 7 0) 10 m_disk (fun _ => f64_lit 0 0)) (only parsing).
Notation m_run := (@mpi_program _ (Num_F64 c_libm) c_engine (Ok c_em) Throw (fun _ => 0%Z) ex_code (f64_lit 7 0) 10 m_disk (fun _ => f64_lit 0 0)) (only parsing).
Notation m_parse := (@FileParser.file_parser _ (Num_F64 c_libm) (fun _ => f64_lit 0 0)) (only parsing).
Lemma m_input : exists pa q h, m_parse (m_disk "run.ini") = Ok pa /\
    FileParser.in_particles pa = [q] /\ FileParser.p_output q = true /\ FileParser.p_number q = Z.of_nat 2 /\ FileParser.in_histograms pa = [h] /\
    FileParser.h_name h = "spectrum" /\ FileParser.h_bins h = 3%Z.
Proof. do 3 eexists. do 6 (split; [vm_compute; reflexivity|]). vm_compute. reflexivity. Qed.
Lemma m_file : exists f, m_serial ["qedcasc"; "run.ini"] tt = Ok f /\ stored f ["Histograms"; "spectrum"; "BinValues"] = [f64_lit 2 0; f64_lit 0 0; f64_lit 0 0].
Proof. eexists. split; vm_compute; reflexivity. Qed.
Lemma m_argument : check_arguments ["qedcasc"; "run.ini"] = Ok "run.ini".
Proof. vm_compute. reflexivity. Qed.
Lemma m_sum : fold_left (@nadd _ (Num_F64 c_libm)) [f64_lit 2 0; f64_lit 2 0] (f64_lit 2 0) = f64_lit 6 0 /\
  fold_left (@nadd _ (Num_F64 c_libm)) [f64_lit 0 0; f64_lit 0 0] (f64_lit 0 0) = f64_lit 0 0.
Proof. split; vm_compute; reflexivity. Qed.
Example C137_case : exists w0, m_run ["qedcasc"; "run.ini"] tt [tt; tt] = Ok w0 /\ Acc (fun w' w => step w w') w0 /\
  forall w, reach w0 w -> w_master w <> Fail /\ ((exists s, done w s) \/ exists w', step w w') /\
    forall s, done w s -> lookup (f_tree (om_file s)) ["Histograms"; "spectrum"; "BinValues"] = Some (Dat [3%Z] [f64_lit 6 0; f64_lit 0 0; f64_lit 0 0]).
Proof.
  destruct m_input as (pa & q & h & F & P1 & P2 & P3 & P4 & P5 & P6). destruct m_file as (f & ER & HV). destruct m_sum as [S6 S0].
  destruct (@C137_serial_runs _ (Num_F64 c_libm) c_engine (Ok c_em) Throw (fun _ => 0%Z) ex_code (f64_lit 7 0) 10 m_disk (fun _ => f64_lit 0 0)
    ["qedcasc"; "run.ini"] "run.ini" pa q 2 tt [tt; tt] f [f; f] (proj1 C56_case) m_argument F P1 P2 P3) as (w0 & M & AC & RUN).
  - unfold good_names. rewrite P4. split; [repeat constructor; intros []|]. intros h' [<-|[]]. rewrite P5, P6. split; [|split; [discriminate|lia]].
    intros x Hx. cbn in Hx. intuition (subst; discriminate).
  - do 3 (apply Forall2_cons; [exact ER|]). apply Forall2_nil.
  - cbn. lia.
  - exists w0. split; [exact M|]. split; [exact AC|]. intros w HR. destruct (RUN w HR) as (W1 & W2 & W3). split; [exact W1|]. split; [exact W2|].
    intros s DS. destruct (W3 s DS) as (_ & _ & HH & _). destruct (HH h) as (_ & _ & order & vals & PO & L & LV & N); [rewrite P4; left; reflexivity|].
    change [f; f] with (repeat f 2) in PO. apply Permutation_repeat in PO. subst order. unfold values_of in L, N. rewrite P5, P6 in L. rewrite P5, HV in N. rewrite P6 in LV. rewrite L.
    assert (length vals = 3%nat) as L3 by lia. destruct vals as [|a [|b [|c [|? ?]]]]; try discriminate L3.
    pose proof (some_inj _ _ (N 0%nat ltac:(cbn; lia))) as N0'. pose proof (some_inj _ _ (N 1%nat ltac:(cbn; lia))) as N1'. pose proof (some_inj _ _ (N 2%nat ltac:(cbn; lia))) as N2'.
    cbn [repeat map nth_error nth] in N0', N1', N2'. rewrite HV in N0', N1', N2'. cbn [nth] in N0', N1', N2'. rewrite S6 in N0'. rewrite S0 in N1', N2'. rewrite N0', N1', N2'. reflexivity.
Qed.
