(** * C142: charge balance of the tables of the output file *)
From Coq Require Import String ZArith Reals Lra List Bool Lia Arith Permutation SpecFloat.
From Verif Require Import Num RNum Outcome OutcomeFacts Vec Units MCTools Particle ParticleList Source SourceFacts Fields Pusher Process Sim SimFacts SimTime Histogram HistFacts Hdf5 Output
  OutFacts OutFile Text Ini IniReader PropsTables PropsOut Program ProgramFacts PropsProgram LedgerFacts CompleteFacts.
From Verif Require FileParser Mpi MpiFacts MpiProgram PropsMpiRun Threads ThreadReplay ThreadProgram PropsThreads PropsTrackThreads.
Import ListNotations.
Local Open Scope string_scope.
Local Open Scope list_scope.

(** ** Specification *)
Section Spec.
Context {T : Type} `{NT : Num T}.
Definition table_of (f : file T) (x : string) : list T :=
  match lookup (f_tree f) ["Particles"; "ParticleSource"; x] with Some (Dat _ d) => d | _ => [] end.
(** the rows of eight values *)
Fixpoint rows8 (d : list T) : list (list T) :=
  match d with a0 :: a1 :: a2 :: a3 :: a4 :: a5 :: a6 :: a7 :: r => [a0; a1; a2; a3; a4; a5; a6; a7] :: rows8 r | _ => [] end.
(** number of rows of a table, and of those that carry event number [j] *)
Definition total (f : file T) (x : string) : nat := length (rows8 (table_of f x)).
Definition of_event (f : file T) (x : string) (j : nat) : nat :=
  length (filter (fun r => match r with i :: _ => neqb i (nZ (Z.of_nat j)) | [] => false end) (rows8 (table_of f x))).
(** the arithmetic tells the event numbers apart *)
Definition apart (n : nat) : Prop := forall i j, (i < n)%nat -> (j < n)%nat -> neqb (nZ (Z.of_nat i) : T) (nZ (Z.of_nat j)) = Nat.eqb i j.
Definition one_if (b : bool) : nat := if b then 1%nat else 0%nat.
Definition is_a (x nm : string) : bool := if string_dec x nm then true else false.
(** Event [j] of a source of particles [nm] with charge [c]: one primary; not more than a million particles, and if fewer then the charges add up
    to that of the primary; not more pairs than photons. *)
Definition event_ledger (nm : string) (c : Z) (f : file T) (j : nat) : Prop :=
  let e := of_event f "Electrons" j in let p := of_event f "Positrons" j in let y := of_event f "Photons" j in
  of_event f "Primary" j = 1%nat /\ (1 <= e + p + y)%nat /\ (Z.of_nat (e + p + y) <= 1000000)%Z /\
  ((Z.of_nat (e + p + y) < 1000000)%Z -> (Z.of_nat p - Z.of_nat e = c)%Z) /\
  (p <= y + one_if (is_a "Positron" nm))%nat /\ (e <= y + one_if (is_a "Electron" nm))%nat.
(** The same for the whole tables, [n] events. *)
Definition file_ledger (nm : string) (c : Z) (n : nat) (f : file T) : Prop :=
  let e := total f "Electrons" in let p := total f "Positrons" in let y := total f "Photons" in
  total f "Primary" = n /\ (n <= e + p + y)%nat /\
  ((Z.of_nat (e + p + y) < 1000000)%Z -> (Z.of_nat p - Z.of_nat e = c * Z.of_nat n)%Z) /\
  (p <= y + n * one_if (is_a "Positron" nm))%nat /\ (e <= y + n * one_if (is_a "Electron" nm))%nat.
End Spec.

Section Counting.
Context {T : Type} `{NT : Num T}.
Lemma rows8_concat (rows : list (list T)) : (forall r, In r rows -> length r = 8%nat) -> rows8 (concat rows) = rows.
Proof.
  induction rows as [|r rows IH]; intros HX; [reflexivity|]. pose proof (HX r (or_introl eq_refl)) as L8.
  destruct r as [|a0 [|a1 [|a2 [|a3 [|a4 [|a5 [|a6 [|a7 [|a8 r]]]]]]]]]; try discriminate L8. cbn [concat app rows8]. f_equal. apply IH. intros; apply HX; right; auto.
Qed.
Lemma rows_len name j (ps : list (particle T)) : length (spec_rows name j ps) = cnt name (map p_name ps).
Proof.
  unfold spec_rows. rewrite map_length. induction ps as [|p ps IH]; cbn [filter map count_occ]; [reflexivity|]. unfold PropsOut.named at 1.
  destruct (string_dec (p_name p) name); cbn [length]; auto.
Qed.
Lemma row8 name n (fin : nat -> plist (particle T)) r : In r (PropsOut.spec_table name n fin) -> length r = 8%nat.
Proof. intros X. apply in_flat_map in X. destruct X as (j & _ & X). apply in_map_iff in X. destruct X as (p & <- & _). reflexivity. Qed.
Definition mine (j : nat) (r : list T) : bool := match r with i :: _ => neqb i (nZ (Z.of_nat j)) | [] => false end.
Lemma mine_rows name i j (ps : list (particle T)) b : neqb (nZ (Z.of_nat i) : T) (nZ (Z.of_nat j)) = b ->
  length (filter (mine j) (spec_rows name i ps)) = if b then cnt name (map p_name ps) else 0%nat.
Proof.
  intros HB. rewrite <- rows_len with (j := i). unfold spec_rows. induction (filter _ ps) as [|p l IH]; [destruct b; reflexivity|].
  cbn [map filter]. change (mine j (spec_row i p)) with (neqb (nZ (Z.of_nat i) : T) (nZ (Z.of_nat j))). rewrite HB. destruct b; [cbn [length]; rewrite IH; reflexivity|exact IH].
Qed.
Lemma filter_flat {A B} (p : B -> bool) (f : A -> list B) l : length (filter p (flat_map f l)) = list_sum (map (fun a => length (filter p (f a))) l).
Proof. induction l as [|a l IH]; [reflexivity|]. cbn [flat_map map]. rewrite filter_app, app_length, IH. reflexivity. Qed.
Lemma sum_at (f : nat -> nat) j : forall n a, (a <= j < a + n)%nat -> (forall i, (a <= i < a + n)%nat -> i <> j -> f i = 0%nat) -> list_sum (map f (seq a n)) = f j.
Proof.
  induction n as [|n IH]; intros a Hj HZ; [lia|]. cbn [seq map]. change (list_sum (f a :: map f (seq (S a) n))) with (f a + list_sum (map f (seq (S a) n)))%nat.
  destruct (Nat.eq_dec a j) as [->|NE].
  - assert (Z0 : forall m b, (forall i, (b <= i < b + m)%nat -> f i = 0%nat) -> list_sum (map f (seq b m)) = 0%nat).
    { induction m as [|m IHm]; intros b Hb; [reflexivity|]. cbn [seq map]. change (list_sum (f b :: map f (seq (S b) m))) with (f b + list_sum (map f (seq (S b) m)))%nat.
      rewrite Hb by lia. rewrite IHm; [reflexivity|]. intros i Hi. apply Hb. lia. }
    rewrite Z0; [lia|]. intros i Hi. apply HZ; lia.
  - rewrite HZ by lia. rewrite IH; [reflexivity|lia|]. intros i Hi. apply HZ. lia.
Qed.
Lemma table_event name n (fin : nat -> plist (particle T)) j : apart (T := T) n -> (j < n)%nat ->
  length (filter (mine j) (PropsOut.spec_table name n fin)) = cnt name (map p_name (pl_items (fin j))).
Proof.
  intros AP Hj. unfold PropsOut.spec_table. rewrite filter_flat. rewrite (sum_at (fun i => length (filter (mine j) (spec_rows name i (pl_items (fin i))))) j).
  - rewrite (mine_rows _ _ _ _ true); [reflexivity|]. rewrite AP by lia. apply Nat.eqb_refl.
  - lia.
  - intros i Hi NE. rewrite (mine_rows _ _ _ _ false); [reflexivity|]. rewrite AP by lia. apply Nat.eqb_neq. exact NE.
Qed.
Lemma flat_len {A B} (f : A -> list B) l : length (flat_map f l) = list_sum (map (fun a => length (f a)) l).
Proof. induction l as [|a l IH]; [reflexivity|]. cbn [flat_map map]. rewrite app_length, IH. reflexivity. Qed.
Lemma table_total name n (fin : nat -> plist (particle T)) :
  length (PropsOut.spec_table name n fin) = list_sum (map (fun j => cnt name (map p_name (pl_items (fin j)))) (seq 0 n)).
Proof. unfold PropsOut.spec_table. rewrite flat_len. f_equal. apply map_ext. intros j. apply rows_len. Qed.
Lemma node_table (f : file T) x rows : (forall r, In r rows -> length r = 8%nat) ->
  lookup (f_tree f) ["Particles"; "ParticleSource"; x] = spec_node rows -> rows8 (table_of f x) = rows.
Proof. intros R8 HL. unfold table_of. rewrite HL. destruct rows as [|r rows]; [reflexivity|]. cbn [spec_node]. apply rows8_concat. exact R8. Qed.
(** a list of particles of the three species *)
Lemma cnt_all (l : list string) : (forall x, In x l -> x = "Electron" \/ x = "Positron" \/ x = "Photon") ->
  (cnt "Electron" l + cnt "Positron" l + cnt "Photon" l = length l)%nat.
Proof.
  induction l as [|x l IH]; intros HX; [reflexivity|]. specialize (IH (fun y Hy => HX y (or_intror Hy))). cbn [count_occ length].
  destruct (HX x (or_introl eq_refl)) as [Q|[Q|Q]]; rewrite Q; cbn; lia.
Qed.
End Counting.

Section Run.
Context {T : Type} `{NT : Num T}.
Variable E : Engine T.
Hypothesis CD : charges_differ (T := T).
Notation Hneg := (proj1 CD).
Notation Hpos := (proj1 (proj2 (proj2 (proj2 CD)))).

(** what holds for each event *)
Definition event_ok (nm : string) (c : Z) (e : event T * event T) : Prop :=
  let k x := cnt x (map p_name (pl_items (snd e))) in
  (1 <= k "Electron" + k "Positron" + k "Photon")%nat /\ (Z.of_nat (k "Electron" + k "Positron" + k "Photon") <= 1000000)%Z /\
  ((Z.of_nat (k "Electron" + k "Positron" + k "Photon") < 1000000)%Z -> (Z.of_nat (k "Positron") - Z.of_nat (k "Electron") = c)%Z) /\
  (k "Positron" <= k "Photon" + one_if (is_a "Positron" nm))%nat /\ (k "Electron" <= k "Photon" + one_if (is_a "Electron" nm))%nat.
Definition no_pairs (nm : string) (e : event T * event T) : Prop :=
  let k x := cnt x (map p_name (pl_items (snd e))) in
  k "Positron" = one_if (is_a "Positron" nm) /\ k "Electron" = one_if (is_a "Electron" nm).

Lemma used_photons (l : event T) : (forall p, In p (pl_items l) -> p_type p = PPhoton -> p_name p = "Photon") -> (used l <= cnt "Photon" (map p_name (pl_items l)))%nat.
Proof.
  unfold used. induction (pl_items l) as [|p ps IH]; intros HX; [auto|]. specialize (IH (fun q Hq => HX q (or_intror Hq))). cbn [filter map count_occ].
  destruct (spent p) eqn:SP; [|destruct (string_dec _ _); lia]. unfold spent in SP. destruct (p_type p) eqn:TY; try discriminate. rewrite (HX p (or_introl eq_refl) TY). cbn [length]. destruct (string_dec _ _); [lia|congruence].
Qed.
Lemma one_event_ok w {S} htimes fill fuel tEnd src g l src1 g1 (h : S) st ty nm m c : species (s_type src) ty nm m c ->
  generate_list E src g = Ok (l, src1, g1) -> run_event E w htimes fill fuel tEnd l g1 h = Ok st ->
  event_ok nm c (l, st_ev E st) /\ ((forall pr, In pr (w_procs w) -> emission pr) -> no_pairs nm (l, st_ev E st)) /\ s_type src1 = s_type src.
Proof.
  intros HS HG HX. destruct (generate_named E Hneg Hpos src g l src1 g1 ty nm m c HS HG) as (p & P1 & P2 & P3 & P4 & P5 & P6).
  destruct (generate_single _ _ _ _ _ _ HG) as (_ & _ & _ & PM & PW & _).
  pose proof (run_wf E _ _ _ _ _ _ _ _ _ HX PW) as W'. pose proof (run_extends E w _ _ _ _ _ _ _ _ HX) as (MX & _ & olds & news & lost & I1 & F2 & _).
  destruct (run_ledger E Hneg Hpos w htimes fill fuel tEnd l g1 h st HX) as (EV & RO & PA).
  assert (KN : Forall known (pl_items (st_ev E st))).
  { apply (proj2 (C55_names T NT E) w S htimes fill fuel tEnd l g1 h st); [|exact HX]. rewrite P1. constructor; [|constructor]. unfold known. rewrite P3. inversion HS; cbn; auto. }
  set (l' := st_ev E st) in *. split; [|split; [|exact P6]].
  - unfold event_ok. cbn [snd]. cbv zeta. pose (kE := cnt "Electron" (map p_name (pl_items l'))). pose (kP := cnt "Positron" (map p_name (pl_items l'))). pose (kY := cnt "Photon" (map p_name (pl_items l'))).
    assert (KA : (kE + kP + kY = length (pl_items l'))%nat).
    { unfold kE, kP, kY. rewrite cnt_all, map_length; [reflexivity|]. intros x Hx. apply in_map_iff in Hx. destruct Hx as (q & <- & Hq). rewrite Forall_forall in KN. destruct (KN q Hq) as [<-|[<-|[<-|[]]]]; auto. }
    fold kE kP kY. rewrite KA.
    assert (N1 : (1 <= length (pl_items l'))%nat).
    { rewrite I1, app_length. apply SimFacts.Forall2_length in F2. rewrite P1 in F2. cbn in F2. lia. }
    assert (CAP : (Z.of_nat (length (pl_items l')) <= 1000000)%Z) by (unfold wf, pl_n in W'; rewrite MX, PM in W'; exact W').
    assert (PD : paid (one_if (is_a "Positron" nm)) (one_if (is_a "Electron" nm)) l).
    { unfold paid, names, used. rewrite P1. cbn [map filter]. rewrite P3. unfold spent. rewrite P4, P5.
      inversion HS; subst; cbn; (split; [intros q [<-|[]] TQ; congruence|lia]). }
    destruct (PA _ _ PD) as (A1 & A2 & A3). pose proof (used_photons l' A1) as UP. unfold names in A2, A3. fold kP in A2. fold kE in A3. fold kY in UP.
    split; [exact N1|]. split; [exact CAP|]. split; [|lia].
    intros LT. assert (R0 : roomy l) by (left; exact P2). destruct (RO R0) as [L0|FU]; [|rewrite MX, PM in FU; unfold pl_n, default_max in FU; unfold event in *; lia].
    unfold even, ever in EV. rewrite L0, P1, P2 in EV. rewrite !app_nil_r in EV. cbn [map] in EV. rewrite P3 in EV.
    fold kE kP in EV. clearbody kE kP kY. clear - HS EV. destruct HS; cbn in EV; lia.
  - intros EM. pose proof (run_only_photons E w htimes fill fuel tEnd l g1 h st EM HX) as (more & M1 & M2). fold l' in M1.
    unfold no_pairs. cbn [snd]. rewrite M1, P1. cbn [map app]. rewrite P3.
    assert (Z0 : forall x, x <> "Photon" -> cnt x more = 0%nat).
    { intros x NE. clear -M2 NE. induction M2 as [|y ys -> _ IH]; [reflexivity|]. cbn [count_occ]. destruct (string_dec "Photon" x); [congruence|exact IH]. }
    inversion HS; subst; cbn [count_occ]; rewrite !Z0 by discriminate; cbn; auto.
Qed.
Lemma events_ledger fuel w tEnd ty nm m c : forall n src g hs evs g' hs', events_of E fuel w tEnd n src g hs evs g' hs' -> species (s_type src) ty nm m c ->
  Forall (event_ok nm c) evs /\ ((forall pr, In pr (w_procs w) -> emission pr) -> Forall (no_pairs nm) evs).
Proof.
  intros n src g hs evs g' hs' HX. induction HX as [|n src g hs l src1 g1 st evs g2 hs2 G R X IH]; intros HS; [split; constructor|].
  destruct (one_event_ok w _ _ _ _ _ _ _ _ _ _ _ _ _ _ _ HS G R) as (A & B & C). rewrite <- C in HS. destruct (IH HS) as (I1 & I2).
  split; [constructor; auto|]. intros EM. constructor; auto.
Qed.
End Run.

(** The input file has one source, with output, of at most 536 particles [nm] of charge [c]; the histograms have different simple names. *)
Definition beam {T} (pa : FileParser.parameters T) (n : nat) (nm : string) (c : Z) : Prop := exists q ty m,
  FileParser.in_particles pa = [q] /\ FileParser.p_output q = true /\ FileParser.p_number q = Z.of_nat n /\ (n <= 536)%nat /\
  species (FileParser.p_type q) ty nm m c /\
  NoDup (map (@FileParser.h_name T) (FileParser.in_histograms pa)) /\
  forall h, In h (FileParser.in_histograms pa) -> no_slash (FileParser.h_name h) /\ FileParser.h_name h <> "" /\ (0 <= FileParser.h_bins h)%Z.

Section Main.
Context {T : Type} `{NT : Num T}.
Variable E : Engine T.
Variable load_em : res (em_tables T).
Variable load_bw : res (bw_tables T).
Variable counters : nat -> Z.
Variable code : objinfo.
Variable garbage : T.
Variable fuel : nat.
Variable disk : string -> IniReader.path.
Variable special : text -> T.
Hypothesis CD : charges_differ (T := T).
Notation serial E := (program E load_em load_bw counters code garbage fuel disk special).
Notation threaded := (Threads.threaded_program E garbage code fuel load_em load_bw counters disk special).
Notation reads := (PropsThreads.reads disk special).

(** the tables of a run are those of its events *)
Definition tables_of (n : nat) (f : file T) (evs : list (event T * event T)) : Prop :=
  length evs = n /\ (exists first, rows8 (table_of f "Primary") = map (fun j => spec_row j (first j)) (seq 0 n)) /\
  forall x s, In (x, s) [("Electrons", "Electron"); ("Positrons", "Positron"); ("Photons", "Photon")] -> rows8 (table_of f x) = PropsOut.spec_table s n (last_of evs).
Definition eights (f : file T) : Prop := forall x, In x ["Primary"; "Electrons"; "Positrons"; "Photons"] -> exists rows, (forall r, In r rows -> length r = 8%nat) /\ table_of f x = concat rows.
Lemma run_tables argv g f pa n nm c : objinfo_inverted code -> reads argv pa -> beam pa n nm c -> serial E argv g = Ok f ->
  eights f /\ exists evs, tables_of n f evs /\ Forall (event_ok nm c) evs /\ (FileParser.y_pair (FileParser.in_physics pa) = false -> Forall (no_pairs nm) evs).
Proof.
  intros HI (name & CA & FP) (q & ty & m & HP & HO & HN & Hn & HS & GN & GH) X. unfold program in X. rewrite CA in X. cbn [bind] in X. rewrite FP in X. cbn [bind] in X.
  destruct (PropsMpiRun.serial_simulated E load_em load_bw counters code garbage fuel pa q n g f HP HN X) as (e & SI).
  pose proof SI as (w & src & g1 & g2 & HW & MS & HE).
  destruct (C91_output_file E load_em load_bw counters code garbage fuel pa g q w src g1 n (fst e) g2 (snd e) HI HP HO HN HW MS HE) as (o0 & f' & first & X' & _ & HF & A1 & A2 & A3 & A4 & _); auto.
  - lia.
  - intros x. pose proof (PropsMpiRun.table_bound E load_em load_bw counters fuel pa q n g e x SI) as TB. unfold default_max in TB. lia.
  - assert (f' = f) as -> by congruence. cbv zeta in *. split.
    { intros x HX. assert (SN : forall s, lookup (f_tree f) ["Particles"; "ParticleSource"; x] = spec_node (PropsOut.spec_table s n (last_of (fst e))) ->
        exists rows, (forall r, In r rows -> length r = 8%nat) /\ table_of f x = concat rows).
      { intros s HL. exists (PropsOut.spec_table s n (last_of (fst e))). split; [intros r; apply row8|]. unfold table_of. rewrite HL. destruct (PropsOut.spec_table s n (last_of (fst e))); reflexivity. }
      destruct HX as [<-|[<-|[<-|[<-|[]]]]]; eauto. eexists. split; [|unfold table_of; rewrite A1; reflexivity].
      intros r Hr. apply in_map_iff in Hr. destruct Hr as (j & <- & _). reflexivity. }
    exists (fst e).
    pose proof (make_source_for E (FileParser.g_tracking (FileParser.in_general pa)) q g) as SF. cbv zeta in SF. rewrite MS in SF. destruct SF as (_ & _ & ST & _). cbn [fst snd] in ST. rewrite <- ST in HS.
    destruct (events_ledger E CD fuel w _ ty nm m c _ _ _ _ _ _ _ HE HS) as (L1 & L2).
    split; [split; [apply (events_sound E fuel w _ _ _ _ _ _ _ _ HE)|split]|split; [exact L1|]].
    + exists first. unfold table_of. rewrite A1. apply rows8_concat. intros r Hr. apply in_map_iff in Hr. destruct Hr as (j & <- & _). reflexivity.
    + intros x s [HX|[HX|[HX|[]]]]; injection HX as <- <-; apply node_table; auto; intros r Hr; eapply row8; exact Hr.
    + intros NP. apply L2. unfold set_up_world, choose_pairs in HW. rewrite NP in HW.
      apply bind_ok in HW. destruct HW as (fld & _ & HW). apply bind_ok in HW. destruct HW as (p & CP & HW). cbn [bind] in HW. injection HW as <-. cbn [w_procs].
      intros pr [<-|[]]. unfold choose_physics in CP. destruct (_ || _)%bool; [|destruct (_ || _)%bool; [|destruct (_ || _)%bool; [|discriminate]]];
        apply bind_ok in CP; destruct CP as (t & _ & CP); injection CP as <-; exact I.
Qed.
Lemma of_event_eq n f evs x s j : tables_of n f evs -> apart (T := T) n -> (j < n)%nat -> In (x, s) [("Electrons", "Electron"); ("Positrons", "Positron"); ("Photons", "Photon")] ->
  of_event f x j = cnt s (map p_name (pl_items (last_of evs j))).
Proof. intros (_ & _ & TB) AP Hj HX. unfold of_event. rewrite (TB x s HX). apply table_event; auto. Qed.
Lemma primary_event n f evs j : tables_of n f evs -> apart (T := T) n -> (j < n)%nat -> of_event f "Primary" j = 1%nat.
Proof.
  intros (_ & (first & TB) & _) AP Hj. unfold of_event. rewrite TB.
  change (fun r : list T => match r with [] => false | i :: _ => neqb i (nZ (Z.of_nat j)) end) with (mine (T := T) j).
  assert (K : length (filter (mine j) (map (fun i => spec_row i (first i)) (seq 0 n))) = list_sum (map (fun i => if Nat.eqb i j then 1%nat else 0%nat) (seq 0 n))).
  { assert (B : forall i, In i (seq 0 n) -> (i < n)%nat) by (intros i Hi; apply in_seq in Hi; lia). revert B. generalize (seq 0 n). intros l. induction l as [|i l IH]; intros B; [reflexivity|].
    cbn [map filter]. change (mine j (spec_row i (first i))) with (neqb (nZ (Z.of_nat i) : T) (nZ (Z.of_nat j))). rewrite AP by (auto; apply B; left; reflexivity).
    specialize (IH (fun k Hk => B k (or_intror Hk))). destruct (Nat.eqb i j); cbn [length list_sum fold_right]; rewrite IH; reflexivity. }
  rewrite K, (sum_at (fun i => if Nat.eqb i j then 1%nat else 0%nat) j); [rewrite Nat.eqb_refl; reflexivity|lia|]. intros i _ NE. apply Nat.eqb_neq in NE. now rewrite NE.
Qed.
Lemma nth_ok {P : event T * event T -> Prop} n evs j : length evs = n -> (j < n)%nat -> Forall P evs -> P (nth j evs (pl_new "" 0, pl_new "" 0)).
Proof. intros L Hj F. rewrite Forall_forall in F. apply F. apply nth_In. lia. Qed.

(** Each event of a completed run. *)
Theorem C142_events : forall argv g f pa n nm c, objinfo_inverted code -> reads argv pa -> beam pa n nm c -> apart (T := T) n -> serial E argv g = Ok f ->
  forall j, (j < n)%nat -> event_ledger nm c f j.
Proof.
  intros argv g f pa n nm c HI HR HB AP X j Hj. destruct (run_tables argv g f pa n nm c HI HR HB X) as (_ & evs & TB & EO & _).
  unfold event_ledger. cbv zeta. rewrite (primary_event n f evs j TB AP Hj).
  rewrite (of_event_eq n f evs "Electrons" "Electron" j TB AP Hj), (of_event_eq n f evs "Positrons" "Positron" j TB AP Hj), (of_event_eq n f evs "Photons" "Photon" j TB AP Hj) by (cbn; auto).
  split; [reflexivity|]. exact (nth_ok n evs j (proj1 TB) Hj EO).
Qed.

(** The whole tables. *)
Lemma sum_le (a b : nat -> nat) k l : (forall j, In j l -> (a j <= b j + k)%nat) -> (list_sum (map a l) <= list_sum (map b l) + length l * k)%nat.
Proof. induction l as [|j l IH]; intros HX; [auto|]. specialize (IH (fun i Hi => HX i (or_intror Hi))). specialize (HX j (or_introl eq_refl)). cbn [map list_sum fold_right length] in *. unfold list_sum in IH. lia. Qed.
Lemma sum_le0 (a : nat -> nat) j l : In j l -> (a j <= list_sum (map a l))%nat.
Proof. induction l as [|i l IH]; intros []; cbn [map list_sum fold_right]; [subst; lia|]. specialize (IH H). unfold list_sum in IH. lia. Qed.
Theorem C142_file : forall argv g f pa n nm c, objinfo_inverted code -> reads argv pa -> beam pa n nm c -> serial E argv g = Ok f -> file_ledger nm c n f.
Proof.
  intros argv g f pa n nm c HI HR HB X. destruct (run_tables argv g f pa n nm c HI HR HB X) as (_ & evs & (LE & (first & TP) & TB) & EO & _).
  unfold file_ledger, total. cbv zeta. rewrite TP, (TB "Electrons" "Electron"), (TB "Positrons" "Positron"), (TB "Photons" "Photon") by (cbn; auto). rewrite map_length, seq_length, !table_total.
  set (kE := fun j => cnt "Electron" (map p_name (pl_items (last_of evs j)))). set (kP := fun j => cnt "Positron" (map p_name (pl_items (last_of evs j)))). set (kY := fun j => cnt "Photon" (map p_name (pl_items (last_of evs j)))).
  assert (EV : forall j, In j (seq 0 n) -> (1 <= kE j + kP j + kY j)%nat /\ ((Z.of_nat (kE j + kP j + kY j) < 1000000)%Z -> (Z.of_nat (kP j) - Z.of_nat (kE j) = c)%Z) /\
     (kP j <= kY j + one_if (is_a "Positron" nm))%nat /\ (kE j <= kY j + one_if (is_a "Electron" nm))%nat).
  { intros j Hj. apply in_seq in Hj. destruct (nth_ok n evs j LE ltac:(lia) EO) as (A1 & _ & A2 & A3). auto. }
  clearbody kE kP kY. clear - EV. split; [reflexivity|]. pose proof (seq_length n 0) as LN. revert LN EV. generalize (seq 0 n). intros l LN EV. rewrite <- LN. clear n LN.
  pose proof (sum_le kP kY (one_if (is_a "Positron" nm)) l (fun j Hj => proj1 (proj2 (proj2 (EV j Hj))))) as B1. pose proof (sum_le kE kY (one_if (is_a "Electron" nm)) l (fun j Hj => proj2 (proj2 (proj2 (EV j Hj))))) as B2.
  split; [|split; [|split; assumption]]; clear B1 B2.
  - induction l as [|j l IH]; [auto|]. specialize (IH (fun i Hi => EV i (or_intror Hi))). destruct (EV j (or_introl eq_refl)) as [A _]. cbn [map list_sum fold_right length] in *. unfold list_sum in IH. lia.
  - induction l as [|j l IH]; intros B; [cbn; lia|]. specialize (IH (fun i Hi => EV i (or_intror Hi))). destruct (EV j (or_introl eq_refl)) as (_ & A & _). cbn [map list_sum fold_right length] in *. unfold list_sum in IH. lia.
Qed.

(** Without pair creation the leptons are those of the source. *)
Theorem C142_no_pairs : forall argv g f pa n nm c, objinfo_inverted code -> reads argv pa -> beam pa n nm c -> FileParser.y_pair (FileParser.in_physics pa) = false ->
  serial E argv g = Ok f ->
  total f "Positrons" = (n * one_if (is_a "Positron" nm))%nat /\ total f "Electrons" = (n * one_if (is_a "Electron" nm))%nat /\
  (apart (T := T) n -> forall j, (j < n)%nat -> of_event f "Positrons" j = one_if (is_a "Positron" nm) /\ of_event f "Electrons" j = one_if (is_a "Electron" nm)).
Proof.
  intros argv g f pa n nm c HI HR HB NP X. destruct (run_tables argv g f pa n nm c HI HR HB X) as (_ & evs & TB & _ & EO). specialize (EO NP). pose proof TB as (LE & _ & TB').
  assert (SUM : forall (a : nat -> nat) k, (forall j, (j < n)%nat -> a j = k) -> list_sum (map a (seq 0 n)) = (n * k)%nat).
  { intros a k HA. rewrite <- (seq_length n 0) at 2. assert (HA' : forall j, In j (seq 0 n) -> a j = k) by (intros j Hj; apply in_seq in Hj; apply HA; lia). clear HA. revert HA'. generalize (seq 0 n).
    intros l. induction l as [|j l IH]; intros HA; [reflexivity|]. cbn [map list_sum fold_right length]. specialize (IH (fun i Hi => HA i (or_intror Hi))). unfold list_sum in IH. rewrite IH, (HA j) by (left; reflexivity). lia. }
  unfold total. rewrite (TB' "Electrons" "Electron"), (TB' "Positrons" "Positron") by (cbn; auto). rewrite !table_total.
  split; [|split].
  - apply SUM. intros j Hj. apply (nth_ok n evs j LE Hj EO).
  - apply SUM. intros j Hj. apply (nth_ok n evs j LE Hj EO).
  - intros AP j Hj. rewrite (of_event_eq n f evs "Electrons" "Electron" j TB AP Hj), (of_event_eq n f evs "Positrons" "Positron" j TB AP Hj) by (cbn; auto). exact (nth_ok n evs j LE Hj EO).
Qed.

(** ** Threads *)
Lemma same_table (f f' : file T) x : In x ["Primary"; "Electrons"; "Positrons"; "Photons"] -> PropsTrackThreads.renumbered f f' -> table_of f x = table_of f' x.
Proof. intros _ (sg & _ & _ & OT). unfold table_of. rewrite OT; [reflexivity|]. intros m y _ _. unfold PropsTrackThreads.track_set. discriminate. Qed.
End Main.

Section Threads.
Context {T : Type} `{NT : Num T}.
Variable E : Engine T.
Variable load_em : res (em_tables T).
Variable load_bw : res (bw_tables T).
Variable counters : nat -> Z.
Variable code : objinfo.
Variable garbage : T.
Variable fuel : nat.
Variable disk : string -> IniReader.path.
Variable special : text -> T.
Hypothesis CD : charges_differ (T := T).
Notation serial E := (program E load_em load_bw counters code garbage fuel disk special).
Notation threaded := (Threads.threaded_program E garbage code fuel load_em load_bw counters disk special).
Notation reads := (PropsThreads.reads disk special).

(** Also if the program runs on several threads, with tracks or without. *)
Theorem C142_threads : forall argv g f pa n nm c, objinfo_inverted code -> reads argv pa -> beam pa n nm c -> delivers E -> threaded argv g (Ok f) ->
  file_ledger nm c n f /\ (apart (T := T) n -> forall j, (j < n)%nat -> event_ledger nm c f j).
Proof.
  intros argv g f pa n nm c HI HR HB DL X.
  refine (PropsTrackThreads.C141_transfers E load_em load_bw counters code garbage fuel disk special (fun _ => true) (fun _ => true) argv
    (fun f => file_ledger nm c n f /\ (apart (T := T) n -> forall j, (j < n)%nat -> event_ledger nm c f j)) eq_refl eq_refl _ _ DL _ g f X).
  - intros f1 f2 RN. unfold file_ledger, event_ledger, total, of_event. rewrite (same_table f1 f2 "Primary"), (same_table f1 f2 "Electrons"), (same_table f1 f2 "Positrons"), (same_table f1 f2 "Photons"); cbn; auto.
  - intros E' g' f' _ _ X'. split.
    + exact (C142_file E' load_em load_bw counters code garbage fuel disk special CD argv g' f' pa n nm c HI HR HB X').
    + intros AP. exact (C142_events E' load_em load_bw counters code garbage fuel disk special CD argv g' f' pa n nm c HI HR HB AP X').
  - split; reflexivity.
Qed.

(** ** Several MPI processes *)
Lemma rows8_app (rows : list (list T)) d : (forall r, In r rows -> length r = 8%nat) -> rows8 (concat rows ++ d) = rows ++ rows8 d.
Proof.
  induction rows as [|r rows IH]; intros HX; [reflexivity|]. pose proof (HX r (or_introl eq_refl)) as L8.
  destruct r as [|a0 [|a1 [|a2 [|a3 [|a4 [|a5 [|a6 [|a7 [|a8 r]]]]]]]]]; try discriminate L8. cbn [concat app rows8]. f_equal. apply IH. intros; apply HX; right; auto.
Qed.
Lemma rows8_flat x (fs : list (file T)) : In x ["Primary"; "Electrons"; "Positrons"; "Photons"] -> Forall eights fs ->
  length (rows8 (flat_map (fun f => table_of f x) fs)) = list_sum (map (fun f => total f x) fs).
Proof.
  intros HX. induction 1 as [|f fs E8 _ IH]; [reflexivity|]. cbn [flat_map map list_sum fold_right]. unfold list_sum in IH. rewrite <- IH. destruct (E8 x HX) as (rows & R8 & TB).
  unfold total. rewrite TB, rows8_app, rows8_concat, app_length by exact R8. reflexivity.
Qed.
Theorem C142_mpi : forall argv pa n nm c g0 gs f0 fs, objinfo_inverted code -> reads argv pa -> beam pa n nm c ->
  Forall2 (fun g f => serial E argv g = Ok f) (g0 :: gs) (f0 :: fs) -> (S (length gs) * n <= 268)%nat ->
  exists w0, MpiProgram.mpi_program E load_em load_bw counters code garbage fuel disk special argv g0 gs = Ok w0 /\
    forall w s, Mpi.reach w0 w -> Mpi.done w s -> file_ledger nm c (S (length gs) * n) (om_file s).
Proof.
  intros argv pa n nm c g0 gs f0 fs HI HR HB SR HL. pose proof HR as (name & CA & FP). pose proof HB as (q & ty & m & HP & HO & HN & Hn & HS & GN & GH).
  destruct (PropsMpiRun.C137_serial_runs E load_em load_bw counters code garbage fuel disk special argv name pa q n g0 gs f0 fs HI CA FP HP HO HN (conj GN GH) SR HL) as (w0 & M & _ & RUN).
  exists w0. split; [exact M|]. intros w s RW DW. destruct (RUN w RW) as (_ & _ & ME). specialize (ME s DW). destruct ME as (M1 & M2 & _).
  assert (TBL : forall x, In x ["Primary"; "Electrons"; "Positrons"; "Photons"] -> table_of (om_file s) x = flat_map (fun f => table_of f x) (f0 :: fs)).
  { intros x [<-|HX]; unfold table_of at 1.
    - change ["Particles"; "ParticleSource"; "Primary"] with (PropsMpiRun.source_table "Primary"). rewrite M1. reflexivity.
    - change ["Particles"; "ParticleSource"; x] with (PropsMpiRun.source_table x). rewrite (M2 x HX). change (fun f => PropsMpiRun.stored f (PropsMpiRun.source_table x)) with (fun f : file T => table_of f x).
      destruct (flat_map (fun f => table_of f x) (f0 :: fs)); reflexivity. }
  assert (ALL : Forall (fun f => eights f /\ file_ledger nm c n f) (f0 :: fs)).
  { clear -SR CD HI HR HB. induction SR as [|g f gl fl X _ IH]; [constructor|]. constructor; [|exact IH]. split.
    - apply (run_tables E load_em load_bw counters code garbage fuel disk special CD argv g f pa n nm c HI HR HB X).
    - exact (C142_file E load_em load_bw counters code garbage fuel disk special CD argv g f pa n nm c HI HR HB X). }
  assert (LEN : length (f0 :: fs) = S (length gs)) by (apply SimFacts.Forall2_length in SR; cbn in *; lia). rewrite <- LEN. clear - TBL ALL. revert TBL ALL. generalize (f0 :: fs). clear. intros l TBL ALL.
  assert (E8 : Forall eights l) by (revert ALL; apply Forall_impl; intros f [A _]; exact A).
  unfold file_ledger, total. cbv zeta. rewrite !TBL by (cbn; auto). rewrite !rows8_flat by (cbn; auto). clear TBL E8.
  induction ALL as [|f l (_ & P1 & P2 & P3 & P4 & P5) _ IH]; [cbn; lia|]. destruct IH as (I1 & I2 & I3 & I4 & I5). cbn [map list_sum fold_right length] in *. unfold list_sum in I1, I2, I3, I4, I5. fold (list_sum (map (fun f => total f "Primary") l)).
  unfold list_sum. rewrite P1, I1. nia.
Qed.
End Threads.
Print Assumptions C142_events.
Print Assumptions C142_file.
Print Assumptions C142_no_pairs.
Print Assumptions C142_threads.
Print Assumptions C142_mpi.

(** exact arithmetic and binary64 meet the conditions *)
Lemma apart_R n : apart (T := R) n.
Proof. intros i j _ _. rewrite !nZ_R. cbn [neqb Num_R]. destruct (Nat.eqb_spec i j) as [->|NE]; [apply Reqb_true; reflexivity|]. apply Reqb_false. intros Q. apply eq_IZR in Q. lia. Qed.
Theorem C142_exact : forall (E : Engine R) load_em load_bw counters code garbage fuel disk special argv g f pa n nm c, objinfo_inverted code ->
  PropsThreads.reads disk special argv pa -> beam pa n nm c -> program E load_em load_bw counters code garbage fuel disk special argv g = Ok f ->
  file_ledger nm c n f /\ forall j, (j < n)%nat -> event_ledger nm c f j.
Proof.
  intros E load_em load_bw counters code garbage fuel disk special argv g f pa n nm c HI HR HB X. split.
  - exact (C142_file E load_em load_bw counters code garbage fuel disk special charges_differ_R argv g f pa n nm c HI HR HB X).
  - exact (C142_events E load_em load_bw counters code garbage fuel disk special charges_differ_R argv g f pa n nm c HI HR HB (apart_R n) X).
Qed.
Print Assumptions C142_exact.
(** ** Binary64: the numbers of at most 536 events are told apart *)
Definition whole (x : spec_float) : Z := match x with S754_finite _ m e => Z.shiftr (Zpos m) (- e) | _ => 0 end.
Lemma whole_back : forallb (fun i => Z.eqb (whole (f64_lit (Z.of_nat i) 0)) (Z.of_nat i)) (seq 0 536) = true.
Proof. vm_compute. reflexivity. Qed.
Lemma plain_lit : forallb (fun i => match f64_lit (Z.of_nat i) 0 with S754_finite false _ _ | S754_zero false => true | _ => false end) (seq 0 536) = true.
Proof. vm_compute. reflexivity. Qed.
Lemma apart_F64 (L : Libm) n : (n <= 536)%nat -> @apart _ (Num_F64 L) n.
Proof.
  intros Hn i j Hi Hj. change (neqb (nZ (Z.of_nat i)) (nZ (Z.of_nat j))) with (SFeqb (f64_lit (Z.of_nat i) 0) (f64_lit (Z.of_nat j) 0)).
  pose proof (proj1 (forallb_forall _ _) whole_back) as W. pose proof (proj1 (forallb_forall _ _) plain_lit) as P.
  assert (Ii : In i (seq 0 536)) by (apply in_seq; lia). assert (Ij : In j (seq 0 536)) by (apply in_seq; lia).
  pose proof (proj1 (Z.eqb_eq _ _) (W i Ii)) as Wi. pose proof (proj1 (Z.eqb_eq _ _) (W j Ij)) as Wj. specialize (P i Ii) as Pi. specialize (P j Ij) as Pj. cbn beta in *.
  assert (Q : Nat.eqb i j = true -> f64_lit (Z.of_nat i) 0 = f64_lit (Z.of_nat j) 0) by (intros EQ; apply Nat.eqb_eq in EQ; subst; reflexivity).
  assert (Q' : f64_lit (Z.of_nat i) 0 = f64_lit (Z.of_nat j) 0 -> i = j) by (intros EQ; rewrite EQ in Wi; lia).
  destruct (f64_lit (Z.of_nat i) 0) as [[]|[]| |[] mi ei]; try discriminate Pi; destruct (f64_lit (Z.of_nat j) 0) as [[]|[]| |[] mj ej]; try discriminate Pj.
  - rewrite Q' by reflexivity. rewrite Nat.eqb_refl. reflexivity.
  - destruct (Nat.eqb i j); [discriminate (Q eq_refl)|reflexivity].
  - destruct (Nat.eqb i j); [discriminate (Q eq_refl)|reflexivity].
  - unfold SFeqb, SFcompare. destruct (Nat.eqb_spec i j) as [EQ|NE].
    + injection (Q eq_refl) as -> ->. rewrite Z.compare_refl. fold (Pos.compare mj mj). rewrite Pos.compare_refl. reflexivity.
    + destruct (Z.compare_spec ei ej) as [->| |]; try reflexivity. fold (Pos.compare mi mj). destruct (Pos.compare_spec mi mj) as [->| |]; try reflexivity. exfalso. apply NE. apply Q'. reflexivity.
Qed.
Theorem C142_binary64 : forall (L : Libm) (E : Engine spec_float) load_em load_bw counters code garbage fuel disk special argv g f pa n nm c, objinfo_inverted code ->
  @PropsThreads.reads _ (Num_F64 L) disk special argv pa -> beam pa n nm c -> @program _ (Num_F64 L) E load_em load_bw counters code garbage fuel disk special argv g = Ok f ->
  file_ledger nm c n f /\ forall j, (j < n)%nat -> @event_ledger _ (Num_F64 L) nm c f j.
Proof.
  intros L E load_em load_bw counters code garbage fuel disk special argv g f pa n nm c HI HR HB X. split.
  - exact (@C142_file _ (Num_F64 L) E load_em load_bw counters code garbage fuel disk special (charges_differ_F64 L) argv g f pa n nm c HI HR HB X).
  - assert (Hn : (n <= 536)%nat) by (destruct HB as (q & ty & m & _ & _ & _ & B & _); exact B).
    exact (@C142_events _ (Num_F64 L) E load_em load_bw counters code garbage fuel disk special (charges_differ_F64 L) argv g f pa n nm c HI HR HB (apart_F64 L n Hn) X).
Qed.
Print Assumptions C142_binary64.

(** ** A case in binary64: both photons of the source turn into pairs *)
Definition l_text : text := Text.tx
"[General]
units = SI
time_step = 1e-15
time_end = 2.5e-15
file_name = out.h5
[Field]
field_type = static
b_field = [1e8 0 0]
e_field = [0 0 0]
[Particle1]
number_particles = 2
name = beam
particle_type = photon
energy_mean = 1e-10
energy_sig = 1e-10
direction = [0 0 1]
output = true
[Physics]
radiation_model = classical
sample_fraction = 0
pair_production = true
".
Definition l_disk (name : string) : IniReader.path := if String.eqb name "run.ini" then IniReader.Present (Some l_text) else IniReader.Missing.
Definition l_bw : bw_tables spec_float := mkBwT [f64_lit 0 0; f64_lit 1 0] [f64_lit 0 0; f64_lit 0 0] 2
  [f64_lit (-1) 0; f64_lit 1 9; f64_lit 2 9] [f64_lit 5 (-1); f64_lit 5 (-1); f64_lit 5 (-1)] (repeat [f64_lit 0 0; f64_lit 6 (-1); f64_lit 1 0] 3) 3.
Notation l_run := (@program _ (Num_F64 c_libm) c_engine (Ok c_em) (Ok l_bw) (fun _ => 0%Z) ex_code (f64_lit 7 0) 10 l_disk (fun _ => f64_lit 0 0)) (only parsing).
Lemma l_input : exists pa q, @PropsThreads.reads _ (Num_F64 c_libm) l_disk (fun _ => f64_lit 0 0) ["qedcasc"; "run.ini"] pa /\
  FileParser.in_particles pa = [q] /\ FileParser.p_output q = true /\ FileParser.p_number q = Z.of_nat 2 /\ FileParser.p_type q = "photon" /\ FileParser.in_histograms pa = [].
Proof. do 2 eexists. split; [exists "run.ini"; split; vm_compute; reflexivity|]. do 4 (split; [vm_compute; reflexivity|]). vm_compute. reflexivity. Qed.
Lemma l_file : exists f, l_run ["qedcasc"; "run.ini"] tt = Ok f /\ map (fun x => total f x) ["Electrons"; "Positrons"; "Photons"] = [2; 2; 2]%nat /\
  map (fun x => map (@of_event _ (Num_F64 c_libm) f x) [0; 1]%nat) ["Primary"; "Electrons"; "Positrons"; "Photons"] = [[1; 1]; [1; 1]; [1; 1]; [1; 1]]%nat.
Proof. eexists. split; [vm_compute; reflexivity|]. split; vm_compute; reflexivity. Qed.
Example C142_case : exists f (pa : FileParser.parameters spec_float), l_run ["qedcasc"; "run.ini"] tt = Ok f /\ beam pa 2 "Photon" 0 /\
  map (fun x => total f x) ["Electrons"; "Positrons"; "Photons"] = [2; 2; 2]%nat /\ file_ledger "Photon" 0 2 f /\ forall j, (j < 2)%nat -> @event_ledger _ (Num_F64 c_libm) "Photon" 0 f j.
Proof.
  destruct l_input as (pa & q & HR & P1 & P2 & P3 & P4 & P5). destruct l_file as (f & X & TT & _). exists f, pa.
  assert (HB : beam pa 2 "Photon" 0).
  { exists q, PPhoton, 0%Z. split; [exact P1|]. split; [exact P2|]. split; [exact P3|]. split; [lia|]. split; [rewrite P4; constructor|]. rewrite P5. split; [constructor|intros h []]. }
  split; [exact X|]. split; [exact HB|]. split; [exact TT|].
  exact (@C142_binary64 c_libm c_engine (Ok c_em) (Ok l_bw) (fun _ => 0%Z) ex_code (f64_lit 7 0) 10 l_disk (fun _ => f64_lit 0 0) ["qedcasc"; "run.ini"] tt f pa 2 "Photon" 0%Z (proj1 C56_case) HR HB X).
Qed.
