(** * Properties C74, C91, C92: the main program *)
From Coq Require Import String ZArith List Bool Lia Ascii.
From Verif Require Import Num Outcome OutcomeFacts Vec Units MCTools Particle ParticleList Source SourceFacts Fields Pusher Process Sim SimFacts
  Histogram HistFacts Hdf5 Output OutFacts OutFile PropsOut PropsTables Program ProgramFacts.
From Verif Require FileParser IniReader Text.
Import ListNotations.
Local Open Scope string_scope.
Local Open Scope list_scope.

Lemma substring_all a : substring 0 (String.length a) a = a.
Proof. induction a as [|c a IH]; cbn; [reflexivity|]. now rewrite IH. Qed.
Lemma substring_split : forall a n, (n <= String.length a)%nat -> a = (substring 0 n a ++ substring n (String.length a - n) a)%string.
Proof.
  induction a as [|c a IH]; intros [|n] HL; cbn [String.length] in *; try lia; try reflexivity.
  - cbn [append substring]. rewrite Nat.sub_0_r. cbn. now rewrite substring_all.
  - cbn [substring append Nat.sub]. f_equal. apply IH. lia.
Qed.
Lemma substring_tail a b : substring (String.length a) (String.length (a ++ b) - String.length a) (a ++ b) = b.
Proof.
  induction a as [|c a IH]; cbn [String.length append substring Nat.sub].
  - rewrite Nat.sub_0_r. apply substring_all.
  - exact IH.
Qed.
Lemma append_length a b : String.length (a ++ b) = (String.length a + String.length b)%nat.
Proof. induction a; cbn; auto. Qed.

Lemma hists_other {T} `{Num T} (code : objinfo) (garbage : T) (fld : field T) hs q : forall s s' : om T, exec_all code garbage fld s (map OHist hs) = Ok s' ->
  (forall r, q <> "Histograms" :: r) -> lookup (f_tree (om_file s')) q = lookup (f_tree (om_file s)) q.
Proof.
  induction hs as [|h hs IH]; intros s s' X HQ; cbn [map exec_all exec] in X; [injection X; intros <-; reflexivity|].
  apply bind_ok in X. destruct X as [s1 [X1 X]]. rewrite (IH _ _ X HQ). unfold out_hist in X1. cbv zeta in X1.
  apply bind_ok in X1. destruct X1 as [a [A X1]]. apply bind_ok in X1. destruct X1 as [b [B X1]].
  change "/BinValues" with ("/" ++ "BinValues")%string in X1. change "/BinCentres" with ("/" ++ "BinCentres")%string in B.
  assert (PN : path ("Histograms/" ++ hi_name h) = "Histograms" :: path (hi_name h)).
  { change ("Histograms/" ++ hi_name h)%string with ("Histograms" ++ "/" ++ hi_name h)%string. rewrite path_app. reflexivity. }
  rewrite (o_array_other _ _ _ _ _ q X1) by (rewrite path_app, PN; apply HQ).
  rewrite (o_array_other _ _ _ _ _ q B) by (rewrite path_app, PN; apply HQ).
  apply (o_group_other code s _ a q A). rewrite PN. apply HQ.
Qed.

Section Program.
Context {T : Type} `{NT : Num T}.
Variable E : Engine T.
Variable load_em : res (em_tables T).
Variable load_bw : res (bw_tables T).
Variable counters : nat -> Z.
Variable code : objinfo.
Variable garbage : T.
Variable fuel : nat.
Variable disk : string -> IniReader.path.
Variable special : Text.text -> T.
Notation prog_ argv g := (program E load_em load_bw counters code garbage fuel disk special argv g).
Notation sim_ pa g := (simulation E load_em load_bw counters code garbage fuel pa g).

(** ** C74: the command line *)
(** a run that completes was started with one argument, and it ends in ".ini" *)
Theorem C74_argument_of_a_run : forall argv g f, prog_ argv g = Ok f -> exists p base, argv = [p; (base ++ ".ini")%string].
Proof.
  intros argv g f X. unfold program in X. apply bind_ok in X. destruct X as [a [A _]]. unfold check_arguments in A.
  destruct argv as [|p [|b [|c r]]]; try discriminate. destruct (String.eqb_spec b "-h"); [discriminate|]. cbv zeta in A.
  destruct (Z.ltb_spec (Z.of_nat (String.length b)) (u64 (Z.of_nat (String.length b) - 4))) as [L|L]; [discriminate|].
  destruct (String.eqb_spec (substring (Z.to_nat (u64 (Z.of_nat (String.length b) - 4))) (String.length b - Z.to_nat (u64 (Z.of_nat (String.length b) - 4))) b) ".ini") as [Q|Q]; [|discriminate].
  exists p. rewrite (substring_split b (Z.to_nat (u64 (Z.of_nat (String.length b) - 4)))) by lia. rewrite Q. eauto.
Qed.

(** with such an argument the program reads that file and simulates what it describes *)
Theorem C74_input_file : forall p base g, (Z.of_nat (String.length base) + 4 < 2 ^ 64)%Z ->
  prog_ [p; (base ++ ".ini")%string] g = let* pa := FileParser.file_parser special (disk (base ++ ".ini")%string) in sim_ pa g.
Proof.
  intros p base g HL. unfold program, check_arguments. destruct (String.eqb_spec (base ++ ".ini") "-h") as [Q|_].
  { exfalso. apply (f_equal String.length) in Q. rewrite append_length in Q. cbn in Q. lia. }
  cbv zeta. rewrite append_length. change (String.length ".ini") with 4%nat.
  assert (U : u64 (Z.of_nat (String.length base + 4) - 4) = Z.of_nat (String.length base)) by (unfold u64; rewrite Z.mod_small; lia).
  rewrite U. destruct (Z.ltb_spec (Z.of_nat (String.length base + 4)) (Z.of_nat (String.length base))) as [L|_]; [lia|].
  rewrite Nat2Z.id. pose proof (substring_tail base ".ini") as ST. rewrite append_length in ST. change (String.length ".ini") with 4%nat in ST.
  rewrite ST. reflexivity.
Qed.

(** everything else is refused with status 1, whatever is on the disk; but an argument of less than four characters other than
    "-h" ends in an uncaught exception *)
Theorem C74_refused : forall argv g, argv <> [] -> (forall p base, argv <> [p; (base ++ ".ini")%string]) ->
  (forall p a, argv = [p; a] -> (Z.of_nat (String.length a) < 2 ^ 64)%Z) ->
  (forall p a, argv = [p; a] -> a <> "-h" -> (String.length a < 4)%nat -> prog_ argv g = Throw) /\
  ((forall p a, argv = [p; a] -> a = "-h" \/ (4 <= String.length a)%nat) -> prog_ argv g = Exit 1).
Proof.
  intros argv g NE NI HB. unfold program, check_arguments. split.
  - intros p a -> NH HL. destruct (String.eqb_spec a "-h"); [contradiction|]. cbv zeta.
    assert (U : u64 (Z.of_nat (String.length a) - 4) = (Z.of_nat (String.length a) - 4 + 2 ^ 64)%Z).
    { unfold u64. symmetry. apply (Z.mod_unique_pos _ _ (-1)); lia. }
    rewrite U. destruct (Z.ltb_spec (Z.of_nat (String.length a)) (Z.of_nat (String.length a) - 4 + 2 ^ 64)) as [_|L]; [reflexivity|lia].
  - intros HA. destruct argv as [|p [|a [|c r]]]; try reflexivity; [contradiction|]. destruct (String.eqb_spec a "-h"); [reflexivity|].
    destruct (HA p a eq_refl) as [Q|HL]; [contradiction|]. specialize (HB p a eq_refl). cbv zeta.
    assert (U : u64 (Z.of_nat (String.length a) - 4) = (Z.of_nat (String.length a) - 4)%Z) by (unfold u64; rewrite Z.mod_small; lia). rewrite U.
    destruct (Z.ltb_spec (Z.of_nat (String.length a)) (Z.of_nat (String.length a) - 4)) as [L|_]; [lia|].
    destruct (String.eqb_spec (substring (Z.to_nat (Z.of_nat (String.length a) - 4)) (String.length a - Z.to_nat (Z.of_nat (String.length a) - 4)) a) ".ini") as [Q|Q]; [|reflexivity].
    exfalso. apply (NI p (substring 0 (Z.to_nat (Z.of_nat (String.length a) - 4)) a)). rewrite <- Q, <- substring_split by lia. reflexivity.
Qed.

(** ** C91: what a run writes *)
Notation tracking_of pa := (FileParser.g_tracking (FileParser.in_general pa)).
Notation end_of pa := (FileParser.g_timeEnd (FileParser.in_general pa)).

(** A run completes exactly if the set-up succeeds, all events of all sources can be simulated in the order of the file with one
    stream of random numbers, and the sequence of calls of the output manager that these events prescribe succeeds. *)
Theorem C91_run_iff : forall fld pa g f,
  sim_ pa g = Ok f <->
  exists w ss g1 o0 evss g2 hs o,
    set_up_world load_em load_bw pa = Ok w /\ make_sources E (tracking_of pa) (FileParser.in_particles pa) g = (ss, g1) /\
    om_new code None = Ok o0 /\
    sources_of E fuel w (end_of pa) ss g1 (make_histograms counters 0 (FileParser.in_histograms pa)) evss g2 hs /\
    exec_all code garbage fld o0 (main_calls (tracking_of pa) (runs_of (tracking_of pa) ss evss) hs) = Ok o /\ f = om_file o.
Proof.
  intros fld pa g f. unfold simulation. split.
  - intros X. apply bind_ok in X. destruct X as [w [W X]]. destruct (make_sources E _ _ g) as [ss g1] eqn:MS.
    apply bind_ok in X. destruct X as [o0 [O0 X]]. apply bind_ok in X. destruct X as [s [S X]]. apply bind_ok in X. destruct X as [o1 [O1 X]].
    injection X; intros <-. apply (source_loop_iff E code garbage fld) in S. destruct S as (evss & S & Y). cbn [pg_om pg_hists pg_rng] in S, Y.
    exists w, ss, g1, o0, evss, (pg_rng E s), (pg_hists E s), o1. split; [auto|]. split; [auto|]. split; [auto|]. split; [exact S|]. split; [|reflexivity].
    rewrite (write_histograms_eq code garbage fld) in O1. rewrite main_calls_hists, exec_all_app, Y. exact O1.
  - intros (w & ss & g1 & o0 & evss & g2 & hs & o & W & MS & O0 & S & X & ->). rewrite W. cbn [bind]. rewrite MS, O0. cbn [bind].
    rewrite main_calls_hists, exec_all_app in X. apply bind_ok in X. destruct X as [o1 [X1 X2]].
    assert (SL : source_loop E code garbage fuel w (end_of pa) (tracking_of pa) ss
      (mkProg E o0 (make_histograms counters 0 (FileParser.in_histograms pa)) g1) = Ok (mkProg E o1 hs g2)).
    { apply (source_loop_iff E code garbage fld). exists evss. auto. }
    rewrite SL. cbn [bind pg_om pg_hists]. rewrite (write_histograms_eq code garbage fld), X2. reflexivity.
Qed.

(** One output source, events that can be simulated, histograms with different simple names (and the convention in which missing groups
    are created): the run completes and its file holds one primary row per event, one row per final particle in the table of its
    species, event after event, the contents of the histograms and, with tracking, the track of every final particle. *)
Theorem C91_output_file : forall pa g q w src g1 n evs g2 hs,
  objinfo_inverted code ->
  FileParser.in_particles pa = [q] -> FileParser.p_output q = true -> FileParser.p_number q = Z.of_nat n ->
  set_up_world load_em load_bw pa = Ok w -> make_source E (tracking_of pa) q g = (src, g1) ->
  events_of E fuel w (end_of pa) n src g1 (make_histograms counters 0 (FileParser.in_histograms pa)) evs g2 hs ->
  (Z.of_nat n < 2 ^ 29)%Z -> (forall name, (Z.of_nat (length (PropsOut.spec_table name n (last_of evs))) < 2 ^ 29)%Z) ->
  NoDup (map (@FileParser.h_name T) (FileParser.in_histograms pa)) ->
  (forall h, In h (FileParser.in_histograms pa) -> no_slash (FileParser.h_name h) /\ FileParser.h_name h <> "" /\ (0 <= FileParser.h_bins h)%Z) ->
  exists o0 f first, sim_ pa g = Ok f /\ om_new code None = Ok o0 /\
    (forall j, (j < n)%nat -> pl_items (first_of evs j) = [first j]) /\
    let at_ x := lookup (f_tree f) ["Particles"; "ParticleSource"; x] in
    at_ "Primary" = Some (Dat [Z.of_nat n; 8%Z] (concat (map (fun j => spec_row j (first j)) (seq 0 n)))) /\
    at_ "Electrons" = spec_node (PropsOut.spec_table "Electron" n (last_of evs)) /\
    at_ "Positrons" = spec_node (PropsOut.spec_table "Positron" n (last_of evs)) /\
    at_ "Photons" = spec_node (PropsOut.spec_table "Photon" n (last_of evs)) /\
    (forall h, In h hs ->
      lookup (f_tree f) ["Histograms"; hi_name h; "BinCentres"] = Some (Dat [hi_n h] (hi_centres h)) /\
      lookup (f_tree f) ["Histograms"; hi_name h; "BinValues"] = Some (Dat [hi_n h] (hi_values h))) /\
    (tracking_of pa = true -> forall m j p x nd,
       nth_error (flat_map (fun je => map (pair (fst je)) (pl_items (snd (snd je)))) (combine (seq 0 n) evs)) m = Some (j, p) ->
       In (x, nd) (track_nodes o0 (track_of (Z.of_nat j) p)) ->
       lookup (f_tree f) ["Particles"; "ParticleTrack"; ("Event" ++ to_string m)%string; x] = Some nd).
Proof.
  intros pa g q w src g1 n evs g2 hs HI HP HO HN HW HS HE Hn Ht HD HH.
  destruct (events_sound E fuel w _ _ _ _ _ _ _ _ HE) as [LE SE]. set (fld := (fun _ _ => (mkV n0 n0 n0, mkV n0 n0 n0)) : field T).
  set (dp := mkP PPhoton "" n0 n0 n0 n0 n0 false false (mkV n0 n0 n0) (mkV n0 n0 n0) [] [] [] [] : particle T).
  set (first := fun j => match pl_items (first_of evs j) with p :: _ => p | [] => dp end).
  assert (SJ : forall j, (j < n)%nat -> sound (first_of evs j, last_of evs j)).
  { intros j Hj. unfold first_of, last_of. rewrite <- surjective_pairing. rewrite Forall_forall in SE. apply SE. apply nth_In. lia. }
  assert (F1 : forall j, (j < n)%nat -> pl_items (first_of evs j) = [first j] /\ pl_get (first_of evs j) 0 = Ok (first j)).
  { intros j Hj. destruct (SJ j Hj) as ((p & P1 & P2) & _). cbn [fst] in P1, P2. unfold first. rewrite P1. auto. }
  pose proof (calls_of_event_calls (tracking_of pa) evs) as EC. rewrite LE in EC.
  destruct (one_source_run T NT code garbage fld None n (first_of evs) (last_of evs) first _ (tracking_of pa) HI EC) as
    (o0 & s & N0 & X & _ & A1 & A2 & A3 & A4 & A5 & A6 & A7); auto.
  { intros j Hj. apply F1. exact Hj. }
  { intros j Hj. destruct (SJ j Hj) as (_ & _ & B). cbn [snd] in B. unfold default_max in B. lia. }
  pose proof (events_kept E fuel w _ _ _ _ _ _ _ _ HE) as KE.
  assert (NH : map hi_name hs = map (@FileParser.h_name T) (FileParser.in_histograms pa)).
  { rewrite (kept_names _ _ KE). apply make_histograms_names. }
  assert (NN : o0 = mkOM (mkFile fresh_tree GLive) None false false false [] (mkTab [] []) (mkTab [] []) (mkTab [] []) []).
  { rewrite (om_new_inv code None HI) in N0. congruence. }
  destruct (write_hists code garbage fld hs HI) with (s := s) as (s' & X' & [G' _] & L'); auto.
  { rewrite NH. exact HD. }
  { intros h Hh. apply In_nth_error in Hh. destruct Hh as [k Hk].
    destruct (nth_error (make_histograms counters 0 (FileParser.in_histograms pa)) k) as [h0|] eqn:E0.
    2:{ apply nth_error_None in E0. rewrite <- (SimFacts.Forall2_length _ _ _ KE) in E0. apply nth_error_None in E0. congruence. }
    assert (KH : kept h0 h).
    { revert k Hk E0. clear -KE. induction KE; intros [|k] A B; cbn in A, B; try discriminate; [congruence|eauto]. }
    apply make_histograms_nth in E0. destruct E0 as (qh & Q1 & ->). destruct (HH qh (nth_error_In _ _ Q1)) as (B1 & B2 & B3).
    destruct KH as [(K1 & _ & _ & _ & K5 & K6) K7]. rewrite K1, K5, K7, K6. cbn [make_histogram hist_new initialise hi_name hi_n hi_centres hi_values].
    rewrite map_length, seq_length, repeat_length. split; [exact B1|]. split; [exact B2|]. lia. }
  { rewrite A7 by discriminate. rewrite NN. reflexivity. }
  { intros h r Hh. rewrite A7 by discriminate. rewrite NN. reflexivity. }
  exists o0, (om_file s'), first. split.
  { apply (C91_run_iff fld). exists w, [(true, src)], g1, o0, [evs], g2, hs, s'. split; [auto|]. split.
    { rewrite HP. cbn [make_sources]. rewrite HS, HO. reflexivity. }
    pose proof (make_source_for E (tracking_of pa) q g) as SF. cbv zeta in SF. rewrite HS in SF. destruct SF as (_ & SN & _). cbn [fst snd] in SN.
    split; [auto|]. split; [econstructor; [rewrite SN, HN, Nat2Z.id; exact HE|constructor]|]. split; [|reflexivity].
    cbn [runs_of]. rewrite main_calls_hists, exec_all_app, SN, HN, X. exact X'. }
  split; [exact N0|]. split; [intros j Hj; apply F1; exact Hj|]. cbv beta zeta in *.
  assert (OLD : forall r, lookup (f_tree (om_file s')) ("Particles" :: r) = lookup (f_tree (om_file s)) ("Particles" :: r)).
  { intros r. eapply hists_other; [exact X'|discriminate]. }
  rewrite !OLD. split; [exact A1|]. split; [exact A2|]. split; [exact A3|]. split; [exact A4|]. split; [exact L'|].
  intros TR m j p x nd HM HX. rewrite OLD. apply (A5 TR m (track_of (Z.of_nat j) p)); [|exact HX].
  rewrite TR, tracks_calls_of, LE. 
  replace (flat_map (fun je => map (track_of (Z.of_nat (fst je))) (pl_items (snd (snd je)))) (combine (seq 0 n) evs))
    with (map (fun jp => track_of (Z.of_nat (fst jp)) (snd jp)) (flat_map (fun je => map (pair (fst je)) (pl_items (snd (snd je)))) (combine (seq 0 n) evs))).
  { rewrite nth_error_map, HM. reflexivity. }
  clear. induction (combine (seq 0 n) evs) as [|je l IH]; [reflexivity|]. cbn [flat_map]. rewrite map_app, map_map, IH. reflexivity.
Qed.

(** ** C92: input files with which no run completes *)
Definition anywhere : field T := fun _ _ => (mkV n0 n0 n0, mkV n0 n0 n0).

Lemma Forall2_split {A B} (P : A -> B -> Prop) a x b l : Forall2 P (a ++ x :: b) l ->
  exists a' x' b', l = a' ++ x' :: b' /\ Forall2 P a a' /\ P x x' /\ Forall2 P b b'.
Proof.
  intros F. apply Forall2_app_inv_l in F. destruct F as (a' & l' & Fa & Fb & ->). inversion Fb; subst. eauto 10.
Qed.

(** two sources with output *)
Theorem C92_two_output_sources : forall pa g f a q1 b q2 c, FileParser.in_particles pa = a ++ q1 :: b ++ q2 :: c ->
  FileParser.p_output q1 = true -> FileParser.p_output q2 = true -> sim_ pa g <> Ok f.
Proof.
  intros pa g f a q1 b q2 c HP O1 O2 X. apply (C91_run_iff anywhere) in X.
  destruct X as (w & ss & g1 & o0 & evss & g2 & hs & o & _ & MS & _ & SO & X & _).
  apply make_sources_for in MS. rewrite HP in MS. apply (runs_outputs E fuel w (end_of pa) (tracking_of pa)) in SO.
  apply Forall2_split in MS. destruct MS as (a' & s1 & r' & -> & _ & (S1 & _) & MS). apply Forall2_split in MS. destruct MS as (b' & s2 & c' & -> & _ & (S2 & _) & _).
  set (rs := runs_of _ _ _) in *. clearbody rs.
  apply Forall2_split in SO. destruct SO as (ra & r1 & rr & -> & _ & (ev1 & -> & _) & SO). apply Forall2_split in SO. destruct SO as (rb & r2 & rc & -> & _ & (ev2 & -> & _) & _).
  rewrite S1, S2, O1, O2 in X. eapply C58_program; exact X.
Qed.

(** tracking, and a source after one that has events *)
Theorem C92_tracking_two_sources : forall pa g f a q1 q2 c, FileParser.in_particles pa = a ++ q1 :: q2 :: c ->
  tracking_of pa = true -> (0 < FileParser.p_number q1)%Z -> sim_ pa g <> Ok f.
Proof.
  intros pa g f a q1 q2 c HP TR HN X. apply (C91_run_iff anywhere) in X.
  destruct X as (w & ss & g1 & o0 & evss & g2 & hs & o & _ & MS & _ & SO & X & _).
  apply make_sources_for in MS. rewrite HP in MS. apply (runs_outputs E fuel w (end_of pa) (tracking_of pa)) in SO.
  apply Forall2_split in MS. destruct MS as (a' & s1 & r' & -> & _ & (_ & S1 & _) & MS). inversion MS as [|? s2 ? c' _ _]; subst.
  set (rs := runs_of _ _ _) in *. clearbody rs.
  apply Forall2_split in SO. destruct SO as (ra & r1 & rr & -> & _ & (ev1 & -> & L1 & F1) & SO). inversion SO as [|? r2 ? rc (ev2 & -> & _) _]; subst.
  rewrite TR in X. destruct ev1 as [|[l fin] ev1]; [cbn in L1; lia|]. inversion F1 as [|? ? (_ & NE & _) _]; subst. cbn [snd] in NE.
  unfold main_calls in X. rewrite flat_map_app, <- app_assoc in X. apply prefix_ok in X. destruct X as (s & _ & X).
  apply (C81_program T NT code garbage anywhere s o (fst s1) (fst s2) (s_nPart (snd s1)) (s_nPart (snd s2))
    (calls_of (fst s1) true 0 ((l, fin) :: ev1)) (calls_of (fst s2) true 0 ev2) rc hs fin 0%Z); [|exact NE|exact X].
  cbn [calls_of]. apply in_or_app. right. left. reflexivity.
Qed.

(** two histograms whose names lead to the same place in the file *)
Theorem C92_two_histograms : forall pa g f a h1 b h2 c, FileParser.in_histograms pa = a ++ h1 :: b ++ h2 :: c ->
  path (FileParser.h_name h1) = path (FileParser.h_name h2) -> sim_ pa g <> Ok f.
Proof.
  intros pa g f a h1 b h2 c HP HN X. apply (C91_run_iff anywhere) in X.
  destruct X as (w & ss & g1 & o0 & evss & g2 & hs & o & _ & _ & _ & SO & X & _).
  apply sources_kept, kept_names in SO. rewrite make_histograms_names, HP, map_app in SO. cbn [map] in SO. rewrite map_app in SO. cbn [map] in SO.
  rewrite main_calls_hists in X. apply prefix_ok in X. destruct X as (s & _ & X).
  assert (MS : forall (xs : list (hist T)) ys y zs, map hi_name xs = ys ++ y :: zs -> exists u x v, xs = u ++ x :: v /\ hi_name x = y /\ map hi_name v = zs).
  { clear. intros xs ys. revert xs. induction ys as [|y0 ys IH]; intros [|x xs] y zs HX; cbn in HX; try discriminate.
    - injection HX; intros <- <-. exists [], x, xs. auto.
    - injection HX; intros HX' _. destruct (IH _ _ _ HX') as (u & x1 & v & -> & A & B). exists (x :: u), x1, v. auto. }
  destruct (MS _ _ _ _ SO) as (u & x1 & v & -> & N1 & SO2). destruct (MS _ _ _ _ SO2) as (u2 & x2 & v2 & -> & N2 & _).
  rewrite !map_app in X. cbn [map] in X. rewrite map_app in X. cbn [map] in X.
  eapply C84_same_name_twice; [|exact X]. rewrite N1, N2. exact HN.
Qed.

(** and, if H5Gget_objinfo answers as documented, nothing at all can be written *)
Theorem C92_documented_library : forall pa g f, objinfo_documented code ->
  FileParser.in_histograms pa <> [] \/ (exists q, In q (FileParser.in_particles pa) /\ FileParser.p_output q = true) -> sim_ pa g <> Ok f.
Proof.
  intros pa g f HD HX X. apply (C91_run_iff anywhere) in X.
  destruct X as (w & ss & g1 & o0 & evss & g2 & hs & o & _ & MS & N0 & SO & X & _).
  destruct (C59_program T NT code garbage anywhere None HD) as (o0' & N0' & P & _). rewrite N0 in N0'. injection N0'; intros <-.
  eapply P; [|exact X]. destruct HX as [HX|(q & HQ & HO)].
  - left. intros ->. apply sources_kept, kept_names in SO. rewrite make_histograms_names in SO. destruct (FileParser.in_histograms pa); [contradiction|discriminate].
  - right. apply make_sources_for in MS. apply (runs_outputs E fuel w (end_of pa) (tracking_of pa)) in SO.
    apply in_split in HQ. destruct HQ as (a & b & HQ). rewrite HQ in MS. apply Forall2_split in MS. destruct MS as (a' & s1 & b' & -> & _ & (S1 & _) & _).
    set (rs := runs_of _ _ _) in *. clearbody rs. apply Forall2_split in SO. destruct SO as (ra & r1 & rb & -> & _ & (ev & -> & _) & _).
    eexists. split; [apply in_or_app; right; left; reflexivity|]. cbn [sr_output]. congruence.
Qed.

End Program.
Print Assumptions C74_argument_of_a_run.
Print Assumptions C74_input_file.
Print Assumptions C74_refused.
Print Assumptions C91_run_iff.
Print Assumptions C91_output_file.
Print Assumptions C92_two_output_sources.
Print Assumptions C92_tracking_two_sources.
Print Assumptions C92_two_histograms.
Print Assumptions C92_documented_library.

(** ** Whole runs in binary64, from the text of the input file *)
Definition c_text (tracking : string) (more : string) : Text.text := Text.tx (
"[General]
units = SI
time_step = 1e-15
time_end = 2.5e-15
file_name = out.h5
tracking = " ++ tracking ++ "
[Field]
field_type = static
[Particle1]
number_particles = 2
name = beam
particle_type = photon
energy_mean = 1e-10
energy_sig = 1e-10
direction = [0 0 1]
output = true
[Physics]
radiation_model = quantum
[Histogram1]
name = spectrum
particle = Photon
type = energy
bins = 3
min_bin = 0
max_bin = 10000
" ++ more)%string.
Definition c_run (t : Text.text) (argv : list string) : res (file SpecFloat.spec_float) :=
  @program _ (Num_F64 c_libm) c_engine (Ok c_em) Throw (fun _ => 0%Z) ex_code (f64_lit 7 0) 10
    (fun name => if String.eqb name "run.ini" then IniReader.Present (Some t) else IniReader.Missing) (fun _ => f64_lit 0 0) argv tt.
(** the data sets of a file with their shapes *)
Definition shapes (r : res (file SpecFloat.spec_float)) : option (list (list string * list Z)) :=
  match r with
  | Ok f => Some (flat_map (fun e => match snd e with Dat d _ => [(fst e, d)] | Grp => [] end) (f_tree f))
  | _ => None
  end.

Example C74_case :
  c_run (c_text "false" "") ["qedcasc"] = Exit 1 /\ c_run (c_text "false" "") ["qedcasc"; "-h"] = Exit 1 /\
  c_run (c_text "false" "") ["qedcasc"; "x"] = Throw /\ c_run (c_text "false" "") ["qedcasc"; "run.txt"] = Exit 1 /\
  c_run (c_text "false" "") ["qedcasc"; "other.ini"] = Exit 1 /\ shapes (c_run (c_text "false" "") ["qedcasc"; "run.ini"]) <> None.
Proof. repeat (split; [vm_compute; reflexivity|]). vm_compute. discriminate. Qed.

(** two photons: two primary rows, two photon rows, three bins; both photons are in one bin.  With tracking four data sets more per photon *)
Example C91_case :
  shapes (c_run (c_text "false" "") ["qedcasc"; "run.ini"]) = Some
    [(["Histograms"; "spectrum"; "BinValues"], [3%Z]); (["Histograms"; "spectrum"; "BinCentres"], [3%Z]);
     (["Particles"; "ParticleSource"; "Photons"], [2%Z; 8%Z]); (["Particles"; "ParticleSource"; "Primary"], [2%Z; 8%Z])] /\
  (exists f, c_run (c_text "false" "") ["qedcasc"; "run.ini"] = Ok f /\
    lookup (f_tree f) ["Histograms"; "spectrum"; "BinValues"] = Some (Dat [3%Z] [f64_lit 2 0; f64_lit 0 0; f64_lit 0 0])) /\
  option_map (@length _) (shapes (c_run (c_text "true" "") ["qedcasc"; "run.ini"])) = Some 12.
Proof.
  split; [vm_compute; reflexivity|]. split; [eexists; split; vm_compute; reflexivity|]. vm_compute. reflexivity.
Qed.

Example C92_case :
  let second out := ("[Particle2]
number_particles = 1
name = b2
particle_type = photon
energy_mean = 1e-10
energy_sig = 1e-10
direction = [0 0 1]
output = " ++ out ++ "
")%string in
  let again := "[Histogram2]
name = spectrum/
particle = Photon
type = energy
bins = 3
min_bin = 0
max_bin = 10000
" in
  c_run (c_text "false" (second "true")) ["qedcasc"; "run.ini"] = Throw /\
  shapes (c_run (c_text "false" (second "false")) ["qedcasc"; "run.ini"]) <> None /\
  c_run (c_text "true" (second "false")) ["qedcasc"; "run.ini"] = Throw /\
  c_run (c_text "false" again) ["qedcasc"; "run.ini"] = Throw.
Proof. cbv zeta. split; [vm_compute; reflexivity|]. split; [vm_compute; discriminate|]. split; vm_compute; reflexivity. Qed.
