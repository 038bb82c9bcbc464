(** * Properties C55-C60, C81-C84: the output manager *)
From Coq Require Import String Ascii ZArith Reals Lra List Bool Lia Arith Permutation.
From Verif Require Import Num RNum Outcome OutcomeFacts Vec SpecVec Units MCTools Particle ParticleList Fields Pusher Process ProcessFacts Sim SimFacts
  Source SourceFacts Histogram Hdf5 Output OutFacts OutFile.
Import ListNotations.

(** ** Specification *)
Section Spec.
Context {T : Type} `{Num T}.
Definition comps (v : vec T) : list T := [vx v; vy v; vz v].
(** the row of a particle: event number, energy, momentum, position *)
Definition spec_row (id : nat) (p : particle T) : list T := [nZ (Z.of_nat id); get_energy p] ++ comps (p_mom p) ++ comps (p_pos p).
Definition named (name : string) (p : particle T) : bool := if string_dec (p_name p) name then true else false.
Definition known (p : particle T) : Prop := In (p_name p) ["Electron"; "Positron"; "Photon"]%string.
(** rows of the particles with a name, in list order *)
Definition spec_rows (name : string) (id : nat) (ps : list (particle T)) : list (list T) := map (spec_row id) (filter (named name) ps).
(** rows of a whole source, event by event *)
Definition spec_table (name : string) (n : nat) (fin : nat -> plist (particle T)) : list (list T) :=
  flat_map (fun j => spec_rows name j (pl_items (fin j))) (seq 0 n).
(** a table of the file: absent if it would be empty *)
Definition spec_node (rows : list (list T)) : option (node T) :=
  match rows with [] => None | _ => Some (Dat [Z.of_nat (length rows); 8%Z] (concat rows)) end.

Lemma named_is name (p : particle T) : named name p = is_named name p.
Proof.
  unfold named, is_named. destruct (string_dec (p_name p) name) as [->|NE]; [symmetry; apply String.eqb_refl|].
  symmetry. apply String.eqb_neq. auto.
Qed.
Lemma spec_rows_eq name id (ps : list (particle T)) : spec_rows name id ps = rows_of name (Z.of_nat id) ps.
Proof. unfold spec_rows, rows_of. rewrite (filter_ext _ _ (named_is name)). reflexivity. Qed.
Lemma spec_table_eq name n fin : spec_table name n fin = all_rows name n fin.
Proof. unfold spec_table, all_rows. apply flat_map_ext. intros j. apply spec_rows_eq. Qed.
End Spec.

(** ** C55 *)
(** storing the final particles of event [id]: slot [id] of each table gets the rows of its species and nothing else changes *)
Theorem C55_final_rows : forall (T : Type) (NT : Num T) (garbage : T) (s : om T) (l : plist (particle T)) (id : nat),
  (forall tb, In tb [om_el s; om_po s; om_ph s] -> (id < length (tb_rows tb))%nat /\ length (tb_count tb) = length (tb_rows tb)) ->
  (pl_n l < 2 ^ 29)%Z ->
  exists s', store_final garbage s l (Z.of_nat id) = Ok s' /\ om_prim s' = om_prim s /\ om_file s' = om_file s /\ om_tracks s' = om_tracks s /\
    forall name tb tb', In (name, tb, tb') [("Electron"%string, om_el s, om_el s'); ("Positron"%string, om_po s, om_po s'); ("Photon"%string, om_ph s, om_ph s')] ->
      length (tb_rows tb') = length (tb_rows tb) /\
      nth_error (tb_rows tb') id = Some (Some (concat (spec_rows name id (pl_items l)))) /\
      nth_error (tb_count tb') id = Some (Z.of_nat (length (spec_rows name id (pl_items l)))) /\
      (forall j, j <> id -> nth_error (tb_rows tb') j = nth_error (tb_rows tb) j /\ nth_error (tb_count tb') j = nth_error (tb_count tb) j).
Proof.
  intros T NT garbage s l id HT HB.
  assert (HL : forall name, (Z.of_nat (length (filter (is_named name) (pl_items l))) < 2 ^ 29)%Z) by (intros name; pose proof (filter_length_le (is_named name) (pl_items l)); unfold pl_n in HB; lia).
  assert (HE : forall name tb, In tb [om_el s; om_po s; om_ph s] -> store_species garbage name (Z.of_nat id) (pl_items l) tb =
     Ok (mkTab (upd (tb_rows tb) id (Some (concat (spec_rows name id (pl_items l))))) (upd (tb_count tb) id (Z.of_nat (length (spec_rows name id (pl_items l))))))).
  { intros name tb HI. destruct (HT tb HI) as [A B]. rewrite store_species_eq by (auto; lia). rewrite Nat2Z.id, spec_rows_eq. reflexivity. }
  unfold store_final. rewrite !HE by (cbn; auto). cbn [bind]. eexists. split; [reflexivity|]. cbn [with_tables om_prim om_file om_tracks om_el om_po om_ph].
  split; [auto|]. split; [auto|]. split; [auto|].
  intros name tb tb' HI.
  assert (HQ : In tb [om_el s; om_po s; om_ph s] /\ tb' = mkTab (upd (tb_rows tb) id (Some (concat (spec_rows name id (pl_items l))))) (upd (tb_count tb) id (Z.of_nat (length (spec_rows name id (pl_items l)))))).
  { destruct HI as [HI|[HI|[HI|[]]]]; injection HI; intros <- <- <-; cbn; auto. }
  destruct HQ as [HI' ->]. destruct (HT tb HI') as [A B]. cbn [tb_rows tb_count]. rewrite length_upd.
  split; [auto|]. split; [apply nth_error_upd_same; lia|]. split; [apply nth_error_upd_same; lia|]. intros j NE. split; apply nth_error_upd_other; auto.
Qed.
Print Assumptions C55_final_rows.

(** every particle of the list has exactly one row in exactly one table: the three tables together are a permutation of the list *)
Lemma one_row_each : forall (T : Type) (NT : Num T) (ps : list (particle T)) (id : nat), Forall known ps ->
  Permutation (spec_rows "Electron" id ps ++ spec_rows "Positron" id ps ++ spec_rows "Photon" id ps) (map (spec_row id) ps) /\
  (forall p, In p ps -> exists! name, In name ["Electron"; "Positron"; "Photon"]%string /\ named name p = true).
Proof.
  intros T NT ps id HK. split.
  - unfold spec_rows. rewrite <- !map_app. apply Permutation_map. induction HK as [|p ps HK HP IH]; [constructor|].
    cbn [filter]. unfold known in HK.
    assert (HE : forall name, named name p = if string_dec (p_name p) name then true else false) by reflexivity.
    destruct HK as [HN|[HN|[HN|[]]]]; rewrite !HE, <- HN; clear HE.
    + cbn. constructor. exact IH.
    + cbn. eapply Permutation_trans; [symmetry; apply Permutation_middle|]. constructor. exact IH.
    + cbn. rewrite app_assoc. eapply Permutation_trans; [symmetry; apply Permutation_middle|]. constructor. rewrite <- app_assoc. exact IH.
  - intros p HP. rewrite Forall_forall in HK. specialize (HK p HP). unfold known in HK. exists (p_name p). split.
    + split; [exact HK|]. unfold named. destruct (string_dec (p_name p) (p_name p)); [auto|contradiction].
    + intros name [_ HX]. unfold named in HX. destruct (string_dec (p_name p) name); [auto|discriminate].
Qed.

(** in the stored tables: the rows written to slot [id] of the three tables together are the rows of the particles of the list, each once *)
Theorem C55_one_row_each : forall (T : Type) (NT : Num T) (garbage : T) (s : om T) (l : plist (particle T)) (id : nat),
  (forall tb, In tb [om_el s; om_po s; om_ph s] -> (id < length (tb_rows tb))%nat /\ length (tb_count tb) = length (tb_rows tb)) ->
  (pl_n l < 2 ^ 29)%Z -> Forall known (pl_items l) ->
  exists s' el po ph, store_final garbage s l (Z.of_nat id) = Ok s' /\
    Permutation (el ++ po ++ ph) (map (spec_row id) (pl_items l)) /\
    (forall tb' rows, In (tb', rows) [(om_el s', el); (om_po s', po); (om_ph s', ph)] ->
       nth_error (tb_rows tb') id = Some (Some (concat rows)) /\ nth_error (tb_count tb') id = Some (Z.of_nat (length rows))) /\
    (forall p, In p (pl_items l) -> exists! rows, In rows [("Electron"%string, el); ("Positron"%string, po); ("Photon"%string, ph)] /\
       p_name p = fst rows) /\
    (forall rows r, In rows [("Electron"%string, el); ("Positron"%string, po); ("Photon"%string, ph)] -> In r (snd rows) ->
       exists p, In p (pl_items l) /\ p_name p = fst rows /\ r = spec_row id p).
Proof.
  intros T NT garbage s l id HT HB HK. destruct (C55_final_rows T NT garbage s l id HT HB) as (s' & E1 & _ & _ & _ & E2).
  exists s', (spec_rows "Electron" id (pl_items l)), (spec_rows "Positron" id (pl_items l)), (spec_rows "Photon" id (pl_items l)).
  destruct (one_row_each T NT (pl_items l) id HK) as [P1 P2]. split; [auto|]. split; [auto|]. split; [|split].
  - intros tb' rows [HI|[HI|[HI|[]]]]; injection HI; intros <- <-.
    + destruct (E2 "Electron"%string (om_el s) (om_el s') (or_introl eq_refl)) as (_ & A & B & _). auto.
    + destruct (E2 "Positron"%string (om_po s) (om_po s') (or_intror (or_introl eq_refl))) as (_ & A & B & _). auto.
    + destruct (E2 "Photon"%string (om_ph s) (om_ph s') (or_intror (or_intror (or_introl eq_refl)))) as (_ & A & B & _). auto.
  - intros p HP. rewrite Forall_forall in HK. specialize (HK p HP). unfold known in HK. exists (p_name p, spec_rows (p_name p) id (pl_items l)). split.
    + split; [|reflexivity]. destruct HK as [HN|[HN|[HN|[]]]]; rewrite <- HN; cbn; auto.
    + intros [n rows] [HI HE]. cbn [fst] in HE. subst n. destruct HI as [HI|[HI|[HI|[]]]]; injection HI; intros <- <-; reflexivity.
  - intros [n rows] r HI HR. assert (HQ : rows = spec_rows n id (pl_items l)) by (destruct HI as [HI|[HI|[HI|[]]]]; injection HI; intros <- <-; reflexivity).
    cbn [fst snd] in *. subst rows. unfold spec_rows in HR. apply in_map_iff in HR. destruct HR as (p & <- & HR). apply filter_In in HR. destruct HR as [HR HN].
    exists p. split; [auto|]. split; [|reflexivity]. unfold named in HN. destruct (string_dec (p_name p) n); [auto|discriminate].
Qed.
Print Assumptions C55_one_row_each.

Theorem C55_primary_row : forall (T : Type) (NT : Num T) (s : om T) (l : plist (particle T)) (p : particle T) ps (id : nat),
  pl_items l = p :: ps -> (pl_n l <= pl_max l)%Z -> (id < length (om_prim s))%nat ->
  exists s', store_primary s l (Z.of_nat id) = Ok s' /\ length (om_prim s') = length (om_prim s) /\
    nth_error (om_prim s') id = Some (Some (spec_row id p)) /\ (forall j, j <> id -> nth_error (om_prim s') j = nth_error (om_prim s) j) /\
    om_el s' = om_el s /\ om_po s' = om_po s /\ om_ph s' = om_ph s.
Proof.
  intros T NT s l p ps id HL HM HI. unfold store_primary, pl_get. unfold pl_n in HM. rewrite HL in HM. cbn [length] in HM.
  destruct (Z.leb_spec (pl_max l) 0); [lia|]. rewrite HL. cbn [Z.ltb Z.compare orb Z.to_nat nth_error bind].
  rewrite (get_Z _ _ None) by lia. cbn [bind]. eexists. split; [reflexivity|]. cbn [om_prim om_el om_po om_ph with_prim]. rewrite Nat2Z.id, length_upd.
  split; [auto|]. split; [apply nth_error_upd_same; auto|]. split; [intros j NE; apply nth_error_upd_other; auto|]. auto.
Qed.
Print Assumptions C55_primary_row.

(** the hypothesis on the names holds for every simulated event: generated events have known names and steps keep them *)
Theorem C55_names : forall (T : Type) (NT : Num T) (E : Engine T),
  (forall (s : source T) i type ty nm m q l, species type ty nm m q -> event_of_sample s i ty nm m q l -> Forall known (pl_items l)) /\
  (forall (w : world T) S htimes fill fuel tEnd l g (h : S) s', Forall known (pl_items l) ->
     run_event E w htimes fill fuel tEnd l g h = Ok s' -> Forall known (pl_items (st_ev _ s'))).
Proof.
  intros T NT E. split.
  - intros s i type ty nm m q l HS (_ & p & -> & _ & HN & _). constructor; [|constructor]. unfold known. rewrite HN. destruct HS; cbn; auto.
  - intros w S htimes fill fuel tEnd l g h s' HK HX.
    assert (HC : forall k (l : event T) p p' st lo l', change k l p p' st lo l' -> same_identity p p' -> Forall known st -> Forall known (pl_items l) -> Forall known (pl_items l')).
    { intros k l0 p p' st lo l' (A & -> & _) (_ & HN & _) HST HKl. apply Forall_app. split; [|exact HST]. rewrite Forall_forall in HKl |- *. intros q HQ.
      apply In_nth_error in HQ. destruct HQ as (i & HQ). destruct (Nat.eq_dec i k) as [->|NE].
      - rewrite nth_error_upd_same in HQ by (apply nth_error_Some; congruence). injection HQ; intros <-. unfold known. rewrite HN. apply HKl. eapply nth_error_In; eauto.
      - rewrite nth_error_upd_other in HQ by auto. apply HKl. eapply nth_error_In; eauto. }
    apply (lift_run E w (fun a b => Forall known (pl_items (fst a)) -> Forall known (pl_items (fst b)))) in HX; [exact HX| | | | |exact HK].
    + intros a HA. exact HA.
    + intros a b c HAB HBC HA. auto.
    + intros k l0 g0 p HP. cbn [fst]. eapply HC; [apply push_change; eauto| |constructor]. apply push_evolved.
    + intros k pr l0 g0 l' g' _ HP. apply call_process_change in HP. destruct HP as (_ & p & p' & st & lo & HCh & (_ & HB) & HI & _). cbn [fst].
      eapply HC; [exact HCh|exact HI|]. apply Forall_forall. intros q HQ.
      assert (HL : forall c x, new_lepton_like c x -> known x).
      { intros c x (_ & HN & _). unfold known. rewrite HN. unfold lepton_name. destruct (neqb c _); cbn; auto. }
      assert (HPh : forall x : particle T, new_photon_like x -> known x) by (intros x (_ & HN & _); unfold known; rewrite HN; cbn; auto).
      assert (HQ' : In q (st ++ lo)) by (apply in_or_app; auto).
      destruct HB as [[HN _]|[(ph & HN & H1 & _)|(a & b & HN & H1 & H2 & _)]]; rewrite HN in HQ'; cbn in HQ'.
      * contradiction.
      * destruct HQ' as [<-|[]]. auto.
      * destruct HQ' as [<-|[<-|[]]]; eauto.
Qed.
Print Assumptions C55_names.

Lemma out_arrays_other {T} `{Num T} (s s' : om T) g pos mom a b time gamma q : out_arrays s g pos mom a b time gamma = Ok s' ->
  (forall r, q <> path g ++ r) -> lookup (f_tree (om_file s')) q = lookup (f_tree (om_file s)) q.
Proof.
  unfold out_arrays. intros HX HQ. apply bind_ok in HX. destruct HX as (a1 & A1 & HX). apply bind_ok in HX. destruct HX as (a2 & A2 & HX). apply bind_ok in HX. destruct HX as (a3 & A3 & A4).
  assert (NP : forall y, q <> path (g ++ ("/" ++ y))) by (intros y HY; rewrite path_app in HY; apply (HQ (path y)); exact HY).
  change "/Position"%string with ("/" ++ "Position")%string in A1. change "/Momentum"%string with ("/" ++ "Momentum")%string in A2.
  change "/Time"%string with ("/" ++ "Time")%string in A3. change "/Gamma"%string with ("/" ++ "Gamma")%string in A4.
  rewrite (o_array_other _ _ _ _ _ _ A4 (NP _)), (o_array_other _ _ _ _ _ _ A3 (NP _)), (o_array_other _ _ _ _ _ _ A2 (NP _)), (o_array_other _ _ _ _ _ _ A1 (NP _)). reflexivity.
Qed.
Lemma output_tracks_other {T} `{Num T} (code : objinfo) (s3 : om T) q : (forall r, q <> ["Particles"; "ParticleTrack"]%string ++ r) ->
  forall ts i s, output_tracks_from code s i ts = Ok s3 -> lookup (f_tree (om_file s3)) q = lookup (f_tree (om_file s)) q.
Proof.
  intros HQ. assert (HQ' : forall i r, q <> tpath i ++ r) by (intros i r; apply (HQ (ev i :: r))).
  induction ts as [|k ts IH]; intros i s HX; cbn [output_tracks_from] in HX.
  - injection HX; intros <-. reflexivity.
  - cbv zeta in HX. pose proof (path_ev i) as PE. revert HX PE. generalize ("Particles/ParticleTrack/Event" ++ to_string i)%string. intros g HX PE.
    apply bind_ok in HX. destruct HX as (t & HT & HX). apply bind_ok in HX. destruct HX as (t2 & HT2 & HX). rewrite (IH _ _ HX).
    rewrite (out_arrays_other _ _ _ _ _ _ _ _ _ q HT2) by (rewrite PE; apply HQ').
    eapply o_group_other; [exact HT|]. rewrite PE. rewrite <- (app_nil_r (tpath i)). apply HQ'.
Qed.
Lemma output_track_other {T} `{Num T} (code : objinfo) (s2 s3 : om T) : output_track code s2 = Ok s3 ->
  forall q, (forall r, q <> ["Particles"; "ParticleTrack"]%string ++ r) -> lookup (f_tree (om_file s3)) q = lookup (f_tree (om_file s2)) q.
Proof.
  intros E3 q HQ. unfold output_track in E3. apply bind_ok in E3. destruct E3 as (s & HS & E3).
  rewrite (output_tracks_other code s3 q HQ _ _ _ E3).
  destruct (om_list s2); [injection HS; intros <-; auto|]. apply bind_ok in HS. destruct HS as (t & HT & HS). injection HS; intros <-. cbn [with_list om_file].
  eapply o_group_other; [exact HT|]. apply (HQ []).
Qed.

(** ** C56 *)
Lemma one_source_run : forall (T : Type) (NT : Num T) (code : objinfo) (garbage : T) (fld : field T) (u : option (units T)) (n : nat)
    (prim fin : nat -> plist (particle T)) (first : nat -> particle T) (calls : list (op T)) (tracking : bool),
  objinfo_inverted code ->
  event_calls n prim fin calls ->
  (forall j, (j < n)%nat -> pl_get (prim j) 0 = Ok (first j)) ->
  (Z.of_nat n < 2 ^ 29)%Z -> (forall j, (j < n)%nat -> (pl_n (fin j) < 2 ^ 29)%Z) -> (forall name, (Z.of_nat (length (spec_table name n fin)) < 2 ^ 29)%Z) ->
  exists s0 s, om_new code u = Ok s0 /\ exec_all code garbage fld s0 (main_calls tracking [mkSR true (Z.of_nat n) calls] []) = Ok s /\ (tracking = false -> om_source s = true) /\
    let at_ x := lookup (f_tree (om_file s)) ["Particles"; "ParticleSource"; x]%string in
    at_ "Primary"%string = Some (Dat [Z.of_nat n; 8%Z] (concat (map (fun j => spec_row j (first j)) (seq 0 n)))) /\
    at_ "Electrons"%string = spec_node (spec_table "Electron" n fin) /\
    at_ "Positrons"%string = spec_node (spec_table "Positron" n fin) /\
    at_ "Photons"%string = spec_node (spec_table "Photon" n fin) /\
    (tracking = true -> forall m k x nd, nth_error (tracks_of calls) m = Some k -> In (x, nd) (track_nodes s0 k) ->
       lookup (f_tree (om_file s)) (["Particles"; "ParticleTrack"; "Event" ++ to_string m]%string ++ [x]) = Some nd) /\
    f_group (om_file s) <> GFreed /\
    (forall q, (forall r, q <> "Particles"%string :: r) -> lookup (f_tree (om_file s)) q = lookup (f_tree (om_file s0)) q).
Proof.
  intros T NT code garbage fld u n prim fin first calls tracking HI [HC1 HC2] HP Hn Hf Ht.
  rewrite (om_new_inv code u HI). set (s0 := mkOM _ _ _ _ _ _ _ _ _ _). exists s0.
  destruct (run_calls code garbage fld n prim fin first calls HP Hf HC2 (fun _ => None) (fun _ => None) (init_source s0 (Z.of_nat n)) (init_slots s0 n)) as
    (s1 & P' & F' & E1 & SL & _ & _ & _ & _ & AP & AF & R1 & R2 & R3 & R4 & R5 & R6); try (intros; discriminate).
  assert (HS : stored n first fin s1) by (eapply slots_stored; [exact SL| |]; intros j Hj; [apply AP|apply AF]; auto; apply HC1; auto).
  destruct (output_source_new code garbage n first fin s1) as (s2 & E2 & U2 & K2 & L2 & G2 & M2 & T2); auto.
  { rewrite R1. discriminate. } { rewrite R1. reflexivity. } { intros q. rewrite R1. reflexivity. }
  { intros name. rewrite <- spec_table_eq. auto. }
  assert (HT2 : lookup (f_tree (om_file s2)) ["Particles"; "ParticleSource"; "Primary"]%string = Some (Dat [Z.of_nat n; 8%Z] (concat (map (fun j => spec_row j (first j)) (seq 0 n)))) /\
     lookup (f_tree (om_file s2)) ["Particles"; "ParticleSource"; "Electrons"]%string = spec_node (spec_table "Electron" n fin) /\
     lookup (f_tree (om_file s2)) ["Particles"; "ParticleSource"; "Positrons"]%string = spec_node (spec_table "Positron" n fin) /\
     lookup (f_tree (om_file s2)) ["Particles"; "ParticleSource"; "Photons"]%string = spec_node (spec_table "Photon" n fin) /\
     lookup (f_tree (om_file s2)) ["Particles"%string] = Some Grp /\ (forall q, lookup (f_tree (om_file s2)) (["Particles"; "ParticleTrack"]%string ++ q) = None)).
  { rewrite T2, R1, !spec_table_eq. cbn [init_source with_tables with_prim om_file s0 f_tree fresh_tree]. unfold spec_node, table_entry.
    destruct (all_rows "Photon" n fin), (all_rows "Positron" n fin), (all_rows "Electron" n fin); repeat (split; [reflexivity|]); intros q; reflexivity. }
  destruct HT2 as (Q1 & Q2 & Q3 & Q4 & Q5 & Q6).
  assert (FR : forall q, (forall r, q <> "Particles"%string :: r) -> lookup (f_tree (om_file s2)) q = lookup (f_tree (om_file s0)) q).
  { intros q HQ. rewrite T2, R1. cbn [init_source with_tables with_prim om_file].
    assert (TE : forall b r (t : tree T), lookup (table_entry b r ++ t) q = lookup t q).
    { intros b r t. destruct r as [|y r]; [reflexivity|]. cbn [table_entry app]. rewrite lookup_cons. destruct (list_eq_dec string_dec _ _) as [EQ|_]; [|auto]. elim (HQ _ EQ). }
    rewrite !TE, !lookup_cons. destruct (list_eq_dec string_dec _ _) as [EQ|_]; [elim (HQ _ EQ)|].
    destruct (list_eq_dec string_dec _ _) as [EQ|_]; [elim (HQ _ EQ)|]. reflexivity. }
  assert (RUN : exec_all code garbage fld s0 (main_calls tracking [mkSR true (Z.of_nat n) calls] []) = (if tracking then output_track code s2 else Ok s2)).
  { unfold main_calls. cbn [flat_map sr_output sr_number sr_calls map app]. rewrite !app_nil_r. cbn [exec_all exec bind].
    rewrite exec_all_app, E1. cbn [bind exec_all exec]. unfold output_events. rewrite E2. cbn [bind]. destruct tracking; [|reflexivity].
    destruct (output_track code s2); reflexivity. }
  rewrite RUN. destruct tracking.
  - assert (L2' : om_list s2 = false) by (rewrite L2, R4; reflexivity).
    destruct (output_track_new code s2 HI L2') as (s3 & E3 & [G3 _] & L3 & N3); auto; [rewrite G2; discriminate|].
    exists s3. split; [auto|]. split; [auto|]. split; [discriminate|]. cbv beta zeta.
    pose proof (output_track_other code s2 s3 E3) as ABS.
    rewrite !ABS by (intros r HX; discriminate). split; [exact Q1|]. split; [exact Q2|]. split; [exact Q3|]. split; [exact Q4|].
    split; [|split; [exact L3|intros q HQ; rewrite ABS by (intros r; apply HQ); apply FR; exact HQ]].
    intros _ m k x nd HM HX. apply (N3 m k x nd).
    + rewrite K2, R3. exact HM.
    + unfold track_nodes in *. assert (HU : om_units s2 = om_units s0) by (rewrite U2, R2; reflexivity). destruct (scale_same s0 s2 HU) as (-> & -> & ->). exact HX.
  - exists s2. split; [auto|]. split; [auto|]. split; [auto|]. cbv zeta. split; [exact Q1|]. split; [exact Q2|]. split; [exact Q3|]. split; [exact Q4|]. split; [discriminate|].
    split; [rewrite G2; discriminate|exact FR].
Qed.
(** the calls of the events of a source are made in any order, each event storing its first particle and its final list; then the
    tables of the file are the rows event by event.  (Under the convention in which missing groups are created, see C59.) *)
Theorem C56_tables : forall (T : Type) (NT : Num T) (code : objinfo) (garbage : T) (fld : field T) (u : option (units T)) (n : nat)
    (prim fin : nat -> plist (particle T)) (first : nat -> particle T) (calls : list (op T)) (tracking : bool),
  objinfo_inverted code ->
  event_calls n prim fin calls ->
  (forall j, (j < n)%nat -> pl_get (prim j) 0 = Ok (first j)) ->
  (Z.of_nat n < 2 ^ 29)%Z -> (forall j, (j < n)%nat -> (pl_n (fin j) < 2 ^ 29)%Z) -> (forall name, (Z.of_nat (length (spec_table name n fin)) < 2 ^ 29)%Z) ->
  exists s0 s, om_new code u = Ok s0 /\ exec_all code garbage fld s0 (main_calls tracking [mkSR true (Z.of_nat n) calls] []) = Ok s /\
    let at_ x := lookup (f_tree (om_file s)) ["Particles"; "ParticleSource"; x]%string in
    at_ "Primary"%string = Some (Dat [Z.of_nat n; 8%Z] (concat (map (fun j => spec_row j (first j)) (seq 0 n)))) /\
    at_ "Electrons"%string = spec_node (spec_table "Electron" n fin) /\
    at_ "Positrons"%string = spec_node (spec_table "Positron" n fin) /\
    at_ "Photons"%string = spec_node (spec_table "Photon" n fin) /\
    (tracking = true -> forall m k x nd, nth_error (tracks_of calls) m = Some k -> In (x, nd) (track_nodes s0 k) ->
       lookup (f_tree (om_file s)) (["Particles"; "ParticleTrack"; "Event" ++ to_string m]%string ++ [x]) = Some nd).
Proof.
  intros T NT code garbage fld u n prim fin first calls tracking H1 H2 H3 H4 H5 H6.
  destruct (one_source_run T NT code garbage fld u n prim fin first calls tracking H1 H2 H3 H4 H5 H6) as (s0 & s & A & B & _ & C).
  exists s0, s. cbv zeta in *. destruct C as (C1 & C2 & C3 & C4 & C5 & _). auto 10.
Qed.
Print Assumptions C56_tables.

(** two orders of the same calls give the same tables *)
Theorem C56_any_order : forall (T : Type) (NT : Num T) (code : objinfo) (garbage garbage' : T) (fld : field T) (u : option (units T)) (n : nat)
    (prim fin : nat -> plist (particle T)) (first : nat -> particle T) (calls calls' : list (op T)),
  objinfo_inverted code -> event_calls n prim fin calls -> Permutation calls calls' ->
  (forall j, (j < n)%nat -> pl_get (prim j) 0 = Ok (first j)) ->
  (Z.of_nat n < 2 ^ 29)%Z -> (forall j, (j < n)%nat -> (pl_n (fin j) < 2 ^ 29)%Z) -> (forall name, (Z.of_nat (length (spec_table name n fin)) < 2 ^ 29)%Z) ->
  exists s0 s s', om_new code u = Ok s0 /\
    exec_all code garbage fld s0 (main_calls false [mkSR true (Z.of_nat n) calls] []) = Ok s /\
    exec_all code garbage' fld s0 (main_calls false [mkSR true (Z.of_nat n) calls'] []) = Ok s' /\
    forall x, In x ["Primary"; "Electrons"; "Positrons"; "Photons"]%string ->
      lookup (f_tree (om_file s)) ["Particles"; "ParticleSource"; x]%string = lookup (f_tree (om_file s')) ["Particles"; "ParticleSource"; x]%string.
Proof.
  intros T NT code garbage garbage' fld u n prim fin first calls calls' HI HC HP H1 H2 H3 H4.
  assert (HC' : event_calls n prim fin calls').
  { destruct HC as [A B]. split.
    - intros j Hj. destruct (A j Hj). split; (eapply Permutation_in; [exact HP|auto]).
    - intros o Ho. apply B. eapply Permutation_in; [symmetry; exact HP|auto]. }
  destruct (C56_tables T NT code garbage fld u n prim fin first calls false HI HC H1 H2 H3 H4) as (s0 & s & N0 & E1 & A1 & A2 & A3 & A4 & _).
  destruct (C56_tables T NT code garbage' fld u n prim fin first calls' false HI HC' H1 H2 H3 H4) as (s0' & s' & N0' & E1' & B1 & B2 & B3 & B4 & _).
  rewrite N0 in N0'. injection N0'; intros <-. exists s0, s, s'. split; [auto|]. split; [auto|]. split; [auto|].
  cbv beta zeta in *. intros x [<-|[<-|[<-|[<-|[]]]]]; congruence.
Qed.
Print Assumptions C56_any_order.

(** two events, finished in the order 1, 0 *)
Definition ex_el (x : R) : particle R :=
  mkP PLepton "Electron"%string 1%R (-1)%R 1%R 0%R 0%R true true (mkV x 0 0)%R (mkV 0 0 1)%R [mkV x 0 0]%R [mkV 0 0 1]%R [0]%R [2]%R.
Definition ex_ph : particle R :=
  mkP PPhoton "Photon"%string 0%R 0%R 1%R 0%R 0%R true false (mkV 5 0 0)%R (mkV 0 0 1)%R [] [] [] [].
Definition ex_prim (j : nat) : plist (particle R) := mkPL (to_string j) 10 [ex_el (INR j)] [].
Definition ex_fin (j : nat) : plist (particle R) := mkPL (to_string j) 10 [ex_el (INR j); ex_ph] [].
Definition ex_calls : list (op R) :=
  [OPrimary (ex_prim 1) 1; OPrimary (ex_prim 0) 0; OFinal (ex_fin 1) 1; OTrack (ex_fin 1) 1; OFinal (ex_fin 0) 0; OTrack (ex_fin 0) 0].
Definition ex_code : objinfo := fun b : bool => if b then 1%Z else 0%Z.
Example C56_case : objinfo_inverted ex_code /\ event_calls 2 ex_prim ex_fin ex_calls /\
  (forall j, (j < 2)%nat -> pl_get (ex_prim j) 0 = Ok (ex_el (INR j))) /\
  (forall j, (j < 2)%nat -> (pl_n (ex_fin j) < 2 ^ 29)%Z) /\ (forall name, (Z.of_nat (length (spec_table name 2 ex_fin)) < 2 ^ 29)%Z) /\
  length (spec_table "Electron" 2 ex_fin) = 2%nat /\ length (tracks_of ex_calls) = 4%nat.
Proof.
  split; [split; [discriminate|reflexivity]|]. split.
  { split.
    - intros j Hj. destruct j as [|[|j]]; [| |lia]; cbn; auto 10.
    - intros o Ho. cbn in Ho. destruct Ho as [<-|[<-|[<-|[<-|[<-|[<-|[]]]]]]]; [exists 1%nat|exists 0%nat|exists 1%nat|exists 1%nat|exists 0%nat|exists 0%nat]; split; auto. }
  split; [intros j Hj; reflexivity|]. split; [intros j Hj; reflexivity|]. split; [|split; reflexivity].
  intros name. unfold spec_table. cbn [seq flat_map]. rewrite app_nil_r, app_length. unfold spec_rows. rewrite !map_length.
  pose proof (filter_length_le (named name) (pl_items (ex_fin 0))) as A. pose proof (filter_length_le (named name) (pl_items (ex_fin 1))) as B.
  change (length (pl_items (ex_fin 0))) with 2%nat in A. change (length (pl_items (ex_fin 1))) with 2%nat in B. lia.
Qed.
Example C55_case : Forall known (pl_items (ex_fin 0)) /\ length (spec_rows "Photon" 0 (pl_items (ex_fin 0))) = 1%nat /\ p_alive ex_ph = false.
Proof. split; [|split; reflexivity]. constructor; [|constructor; [|constructor]]; unfold known; cbn; auto. Qed.

(** ** C57 *)
(** with at most 2^32 points, from a fresh manager: the array of every component at every time holds, at flat index
    i*ny*nz+j*nz+k, the field at the grid point (i, j, k), whatever the fresh memory contained *)
Theorem C57_layout : forall (T : Type) (NT : Num T) (code : objinfo) (garbage : T) (fld : field T) (u : option (units T)) (ts xs ys zs : list T),
  objinfo_inverted code -> (Z.of_nat (length xs * length ys * length zs) <= 2 ^ 32)%Z ->
  exists s0 s, om_new code u = Ok s0 /\ exec_all code garbage fld s0 [OField ts xs ys zs] = Ok s /\
    forall m t, nth_error ts m = Some t ->
    forall dir c, In (dir, c) [(0%nat, @vx T); (1%nat, @vy T); (2%nat, @vz T)] ->
    forall letter pick, In (letter, pick) [("E"%string, @fst (vec T) (vec T)); ("B"%string, @snd (vec T) (vec T))] ->
    exists vals, lookup (f_tree (om_file s)) ["Fields"; to_string m; letter ++ to_string dir]%string =
        Some (Dat [Z.of_nat (length xs); Z.of_nat (length ys); Z.of_nat (length zs)] vals) /\
      length vals = (length xs * length ys * length zs)%nat /\
      forall i j k x y z, nth_error xs i = Some x -> nth_error ys j = Some y -> nth_error zs k = Some z ->
        nth_error vals (i * length ys * length zs + j * length zs + k) = Some (c (pick (fld t (mkV x y z)))).
Proof.
  intros T NT code garbage fld u ts xs ys zs HI HB. rewrite (om_new_inv code u HI). set (s0 := mkOM _ _ _ _ _ _ _ _ _ _). exists s0.
  destruct (out_field_new code garbage fld ts xs ys zs HI HB 0 s0) as (s & E1 & _ & L); [discriminate|reflexivity|reflexivity|].
  exists s. split; [auto|]. split. { cbn [exec_all exec]. unfold out_field. rewrite E1. reflexivity. }
  intros m t HM dir c HD letter pick HL.
  assert (HD' : (dir < 3)%nat /\ c = comp dir) by (destruct HD as [HD|[HD|[HD|[]]]]; injection HD; intros <- <-; split; auto).
  destruct HD' as [HD1 ->]. destruct (L m t dir HM HD1) as [LE LB].
  exists (map (fun p => comp dir (pick (fld t (grid_point xs ys zs p)))) (grid (length xs) (length ys) (length zs))).
  split; [destruct HL as [HL|[HL|[]]]; injection HL; intros <- <-; [exact LE|exact LB]|].
  split; [rewrite map_length; apply grid_length|].
  intros i j k x y z Hx Hy Hz.
  assert (B : (i < length xs /\ j < length ys /\ k < length zs)%nat) by (repeat split; apply nth_error_Some; congruence).
  rewrite grid_nth by apply B. unfold grid_point. rewrite (nth_error_nth _ _ _ Hx), (nth_error_nth _ _ _ Hy), (nth_error_nth _ _ _ Hz). reflexivity.
Qed.
Print Assumptions C57_layout.

(** the index is a bijection between the points of the grid and the entries of the array *)
Lemma grid_bijection : forall nx ny nz : nat,
  (forall i j k, i < nx -> j < ny -> k < nz -> i * ny * nz + j * nz + k < nx * ny * nz)%nat /\
  (forall i j k i' j' k', j < ny -> k < nz -> j' < ny -> k' < nz ->
     i * ny * nz + j * nz + k = i' * ny * nz + j' * nz + k' -> i = i' /\ j = j' /\ k = k')%nat /\
  (forall m, m < nx * ny * nz -> exists i j k, i < nx /\ j < ny /\ k < nz /\ m = i * ny * nz + j * nz + k)%nat.
Proof.
  intros nx ny nz. split; [|split].
  - intros i j k Hi Hj Hk. assert (HX : In (i * ny * nz + j * nz + k)%nat (seq 0 (nx * ny * nz))).
    { rewrite <- grid_indices. apply (in_map (flat_index ny nz) _ (i, j, k)). apply in_grid. auto. }
    apply in_seq in HX. lia.
  - intros i j k i' j' k' A B C D HX. apply (flat_index_inj ny nz); auto.
  - intros m Hm. assert (HX : In m (map (flat_index ny nz) (grid nx ny nz))) by (rewrite grid_indices; apply in_seq; lia).
    apply in_map_iff in HX. destruct HX as ([[i j] k] & HE & HG). apply in_grid in HG. exists i, j, k. cbn [flat_index] in HE. intuition auto.
Qed.

(** every entry of a stored array belongs to exactly one point of the grid and holds the field there *)
Theorem C57_bijection : forall (T : Type) (NT : Num T) (code : objinfo) (garbage : T) (fld : field T) (u : option (units T)) (ts xs ys zs : list T),
  objinfo_inverted code -> (Z.of_nat (length xs * length ys * length zs) <= 2 ^ 32)%Z ->
  exists s0 s, om_new code u = Ok s0 /\ exec_all code garbage fld s0 [OField ts xs ys zs] = Ok s /\
    forall m t, nth_error ts m = Some t ->
    forall dir c, In (dir, c) [(0%nat, @vx T); (1%nat, @vy T); (2%nat, @vz T)] ->
    forall letter pick, In (letter, pick) [("E"%string, @fst (vec T) (vec T)); ("B"%string, @snd (vec T) (vec T))] ->
    exists vals, lookup (f_tree (om_file s)) ["Fields"; to_string m; letter ++ to_string dir]%string =
        Some (Dat [Z.of_nat (length xs); Z.of_nat (length ys); Z.of_nat (length zs)] vals) /\
      forall e v, nth_error vals e = Some v ->
      exists i j k x y z, nth_error xs i = Some x /\ nth_error ys j = Some y /\ nth_error zs k = Some z /\ v = c (pick (fld t (mkV x y z))) /\
        e = (i * length ys * length zs + j * length zs + k)%nat /\
        forall i' j' k', (i' < length xs)%nat -> (j' < length ys)%nat -> (k' < length zs)%nat ->
          e = (i' * length ys * length zs + j' * length zs + k')%nat -> i' = i /\ j' = j /\ k' = k.
Proof.
  intros T NT code garbage fld u ts xs ys zs HI HB. destruct (C57_layout T NT code garbage fld u ts xs ys zs HI HB) as (s0 & s & A & B & C).
  exists s0, s. split; [auto|]. split; [auto|]. intros m t HM dir c HD letter pick HL. destruct (C m t HM dir c HD letter pick HL) as (vals & L1 & L2 & L3).
  exists vals. split; [auto|]. intros e v HE. destruct (grid_bijection (length xs) (length ys) (length zs)) as (_ & G2 & G3).
  destruct (G3 e) as (i & j & k & Hi & Hj & Hk & ->). { rewrite <- L2. apply nth_error_Some. congruence. }
  destruct (nth_error xs i) as [x|] eqn:Ex; [|apply nth_error_None in Ex; lia]. destruct (nth_error ys j) as [y|] eqn:Ey; [|apply nth_error_None in Ey; lia].
  destruct (nth_error zs k) as [z|] eqn:Ez; [|apply nth_error_None in Ez; lia].
  exists i, j, k, x, y, z. split; [auto|]. split; [auto|]. split; [auto|]. rewrite (L3 i j k x y z Ex Ey Ez) in HE. split; [congruence|]. split; [reflexivity|].
  intros i' j' k' Hi' Hj' Hk' HX. destruct (G2 i j k i' j' k' Hj Hk Hj' Hk' HX) as (-> & -> & ->). auto.
Qed.
Print Assumptions C57_bijection.

(** beyond 2^32 points the index is cut to 32 bits: the entries from 2^32 on are never written *)
Theorem C57_beyond : forall (T : Type) (NT : Num T) (q : nat * nat * nat -> T) (nx ny nz : nat) (buf : list T), length buf = (nx * ny * nz)%nat ->
  exists vals, grid_fill q ny nz (grid nx ny nz) buf = Ok vals /\ length vals = length buf /\
    forall m, (2 ^ 32 <= Z.of_nat m)%Z -> nth_error vals m = nth_error buf m.
Proof.
  intros T NT q nx ny nz buf HL.
  assert (HG : forall gs buf', length buf' = (nx * ny * nz)%nat -> (forall g, In g gs -> In g (grid nx ny nz)) ->
     exists vals, grid_fill q ny nz gs buf' = Ok vals /\ length vals = length buf' /\ forall m, (2 ^ 32 <= Z.of_nat m)%Z -> nth_error vals m = nth_error buf' m).
  { clear HL buf. induction gs as [|g gs IH]; intros buf HL HG; cbn [grid_fill]; [eauto|].
    assert (HI : (0 <= grid_index ny nz g < 2 ^ 32 /\ grid_index ny nz g < Z.of_nat (length buf))%Z).
    { destruct g as [[i j] k]. pose proof (HG _ (or_introl eq_refl)) as HIN. apply in_grid in HIN.
      destruct (grid_bijection nx ny nz) as [B _]. specialize (B i j k). cbn [grid_index]. rewrite HL. unfold u32.
      pose proof (Z.mod_pos_bound (Z.of_nat (i * ny * nz + j * nz + k)) (2 ^ 32) ltac:(lia)) as M1.
      pose proof (Z.mod_le (Z.of_nat (i * ny * nz + j * nz + k)) (2 ^ 32) ltac:(lia) ltac:(lia)) as M2. lia. }
    unfold put. destruct (Z.ltb_spec (grid_index ny nz g) 0); [lia|]. destruct (Z.leb_spec (Z.of_nat (length buf)) (grid_index ny nz g)); [lia|]. cbn [orb bind].
    destruct (IH (upd buf (Z.to_nat (grid_index ny nz g)) (q g))) as (vals & E1 & E2 & E3); [rewrite length_upd; auto|intros; apply HG; right; auto|].
    exists vals. split; [auto|]. rewrite length_upd in E2. split; [auto|]. intros m Hm. rewrite E3 by auto. apply nth_error_upd_other. lia. }
  apply HG; auto.
Qed.
Print Assumptions C57_beyond.
Example C57_case : (Z.of_nat (length [1; 2]%R * length [1; 2; 3]%R * length [4]%R) <= 2 ^ 32)%Z /\ (1 * 3 * 1 + 2 * 1 + 0 = 5)%nat.
Proof. split; [cbn; lia|reflexivity]. Qed.

(** ** C58 *)
Section Twice.
Context {T : Type} `{Num T}.
Variable code : objinfo.
Variable garbage : T.
Variable fld : field T.
Lemma prefix_ok os1 os2 (s s' : om T) : exec_all code garbage fld s (os1 ++ os2) = Ok s' ->
  exists s1, exec_all code garbage fld s os1 = Ok s1 /\ exec_all code garbage fld s1 os2 = Ok s'.
Proof. rewrite exec_all_app. intros HX. apply bind_ok in HX. exact HX. Qed.
Lemma second_source (s : om T) b s' : lookup (f_tree (om_file s)) ["Particles"; "ParticleSource"; "Primary"]%string <> None ->
  output_events code garbage s true b <> Ok s'.
Proof.
  intros HL HX. unfold output_events in HX. apply bind_ok in HX. destruct HX as (s1 & HX & _). unfold output_source in HX.
  apply bind_ok in HX. destruct HX as (s2 & H2 & HX). apply bind_ok in HX. destruct HX as (pb & _ & HX).
  apply bind_ok in HX. destruct HX as (s3 & H3 & _).
  assert (HG : ogrows s s2) by (eapply once_grows; [apply w_source|exact H2]).
  rewrite o_array_taken in H3; [discriminate|]. apply exists_lookup; [discriminate|]. destruct (lookup (f_tree (om_file s)) _) as [nd|] eqn:EL; [|contradiction].
  exists nd. apply HG. exact EL.
Qed.
End Twice.

(** whatever the library returns and whatever else is written, two outputs of a source never both succeed *)
Theorem C58_second_source_fails : forall (T : Type) (NT : Num T) (code : objinfo) (garbage : T) (fld : field T) (s s' : om T) os1 os2 os3 b1 b2,
  exec_all code garbage fld s (os1 ++ OEvents true b1 :: os2 ++ OEvents true b2 :: os3) <> Ok s'.
Proof.
  intros T NT code garbage fld s s' os1 os2 os3 b1 b2 HX. apply prefix_ok in HX. destruct HX as (s1 & _ & HX).
  cbn [exec_all exec] in HX. apply bind_ok in HX. destruct HX as (s2 & H2 & HX). apply prefix_ok in HX. destruct HX as (s3 & H3 & HX).
  cbn [exec_all exec] in HX. apply bind_ok in HX. destruct HX as (s4 & H4 & _).
  destruct (output_events_grows code garbage s1 true b1 s2 H2) as [_ HP]. apply exec_all_grows in H3. destruct H3 as [H3 _].
  destruct (HP eq_refl) as [nd HL]. eapply second_source; [|exact H4]. pose proof (H3 _ _ HL) as HM. change (path "Particles/ParticleSource/Primary") with ["Particles"; "ParticleSource"; "Primary"]%string in HM. rewrite HM. discriminate.
Qed.
Print Assumptions C58_second_source_fails.
(** in particular no run of the program with two output sources completes *)
Theorem C58_program : forall (T : Type) (NT : Num T) (code : objinfo) (garbage : T) (fld : field T) (s0 s' : om T) tracking
    srcs1 srcs2 srcs3 n1 n2 calls1 calls2 hs,
  exec_all code garbage fld s0 (main_calls tracking (srcs1 ++ mkSR true n1 calls1 :: srcs2 ++ mkSR true n2 calls2 :: srcs3) hs) <> Ok s'.
Proof.
  intros. unfold main_calls. set (f := fun r : source_run T => _).
  assert (HF : forall n c, f (mkSR true n c) = (OInit n :: c) ++ [OEvents true tracking]) by reflexivity.
  rewrite flat_map_app. cbn [flat_map]. rewrite flat_map_app. cbn [flat_map]. rewrite !HF, <- !app_assoc. cbn [app].
  pose proof (C58_second_source_fails T NT code garbage fld s0 s' (flat_map f srcs1 ++ OInit n1 :: calls1) (flat_map f srcs2 ++ OInit n2 :: calls2) (flat_map f srcs3 ++ map OHist hs) tracking tracking) as HX.
  rewrite <- !app_assoc in HX. cbn [app] in HX. exact HX.
Qed.
Print Assumptions C58_program.

(** with complete events the second source ends in an exception, under either convention *)
Theorem C58_throws : forall (T : Type) (NT : Num T) (code : objinfo) (garbage : T) (fld : field T) (u : option (units T)) (n m : nat)
    (prim fin : nat -> plist (particle T)) (first : nat -> particle T) (calls : list (op T))
    (prim' fin' : nat -> plist (particle T)) (first' : nat -> particle T) (calls' : list (op T)) rest hs,
  objinfo_inverted code ->
  event_calls n prim fin calls -> (forall j, (j < n)%nat -> pl_get (prim j) 0 = Ok (first j)) ->
  (Z.of_nat n < 2 ^ 29)%Z -> (forall j, (j < n)%nat -> (pl_n (fin j) < 2 ^ 29)%Z) -> (forall name, (Z.of_nat (length (spec_table name n fin)) < 2 ^ 29)%Z) ->
  event_calls m prim' fin' calls' -> (forall j, (j < m)%nat -> pl_get (prim' j) 0 = Ok (first' j)) ->
  (Z.of_nat m < 2 ^ 29)%Z -> (forall j, (j < m)%nat -> (pl_n (fin' j) < 2 ^ 29)%Z) ->
  exists s0, om_new code u = Ok s0 /\
    exec_all code garbage fld s0 (main_calls false (mkSR true (Z.of_nat n) calls :: mkSR true (Z.of_nat m) calls' :: rest) hs) = Throw.
Proof.
  intros T NT code garbage fld u n m prim fin first calls prim' fin' first' calls' rest hs HI HC H1 H2 H3 H4 [HC1' HC2'] H1' H2' H3'.
  destruct (one_source_run T NT code garbage fld u n prim fin first calls false HI HC H1 H2 H3 H4) as (s0 & s & N0 & E1 & M1 & A1 & _).
  specialize (M1 eq_refl). cbv beta zeta in A1. exists s0. split; [auto|].
  assert (HE : forall r, main_calls false (mkSR true (Z.of_nat n) calls :: r) hs = main_calls false [mkSR true (Z.of_nat n) calls] [] ++ main_calls false r hs).
  { intros r. unfold main_calls. cbn [flat_map map sr_output]. rewrite !app_nil_r, <- !app_assoc. reflexivity. }
  rewrite HE, exec_all_app, E1. cbn [bind]. unfold main_calls. cbn [flat_map sr_output sr_number sr_calls]. rewrite <- !app_assoc. cbn [app exec_all exec bind].
  rewrite exec_all_app.
  destruct (run_calls code garbage fld m prim' fin' first' calls' H1' H3' HC2' (fun _ => None) (fun _ => None) (init_source s (Z.of_nat m)) (init_slots s m)) as
    (s1 & P' & F' & E2 & SL & _ & _ & _ & _ & AP & AF & R1 & R2 & R3 & R4 & R5 & R6); try (intros; discriminate).
  assert (HS : stored m first' fin' s1) by (eapply slots_stored; [exact SL| |]; intros j Hj; [apply AP|apply AF]; auto; apply HC1'; auto).
  rewrite E2. cbn [bind app exec_all exec]. unfold output_events.
  assert (HT : output_source code garbage s1 = Throw); [|rewrite HT; reflexivity].
  unfold output_source. rewrite R5. cbn [init_source with_tables with_prim om_source]. rewrite M1. cbn [bind].
  destruct HS as [S1 _]. rewrite S1. set (rs := map (fun j => row (Z.of_nat j) (first' j)) (seq 0 m)).
  assert (HL : length rs = m) by (unfold rs; rewrite map_length, seq_length; auto).
  assert (H8 : forall r, In r rs -> length r = 8%nat) by (intros r Hr'; apply in_map_iff in Hr'; destruct Hr' as (j & <- & _); apply row_length).
  pose proof (prime_rows_eq rs H8 [] (repeat garbage (length (map Some rs) * 8)) 0) as PR. cbn [app] in PR. change (Z.of_nat 0) with 0%Z in PR.
  rewrite PR; [|reflexivity|rewrite repeat_length, map_length; lia|rewrite repeat_length, map_length; cbn [length]; lia]. cbn [bind].
  rewrite o_array_taken; [reflexivity|]. apply exists_lookup; [discriminate|]. rewrite R1. cbn [init_source with_tables with_prim om_file]. eexists. exact A1.
Qed.
Print Assumptions C58_throws.

(** ** C59 *)
(** the documented return codes: an existing group is created again (exception), a missing one is not created *)
Theorem C59_add_group : forall (T : Type) (code : objinfo) (f : file T) (name : string), objinfo_documented code -> f_group f <> GFreed ->
  (exists_ (f_tree f) (path name) = true -> add_group code f name = Throw) /\
  (exists_ (f_tree f) (path name) = false -> exists f', add_group code f name = Ok f' /\ f_tree f' = f_tree f).
Proof.
  intros T code f name HD HG. rewrite (add_group_documented code f name HD HG).
  destruct (exists_ (f_tree f) (path name)); split; intros HX; try discriminate; [auto|]. eexists. split; reflexivity.
Qed.
Print Assumptions C59_add_group.

(** hence nothing is ever written: after any calls that complete the file is empty *)
Theorem C59_file_stays_empty : forall (T : Type) (NT : Num T) (code : objinfo) (garbage : T) (fld : field T) (u : option (units T)),
  objinfo_documented code ->
  exists s0, om_new code u = Ok s0 /\ forall os s, exec_all code garbage fld s0 os = Ok s -> f_tree (om_file s) = [].
Proof.
  intros T NT code garbage fld u HD. destruct (om_new_doc code u HD) as (s0 & N0 & U0). exists s0. split; [auto|].
  intros os s HX. apply (exec_all_doc code garbage fld os HD s0 s U0) in HX. rewrite HX. reflexivity.
Qed.
Print Assumptions C59_file_stays_empty.

(** and no call that has something to write completes: no run of the program with a histogram or an output source does; with histograms
    only, it ends in an exception *)
Theorem C59_program : forall (T : Type) (NT : Num T) (code : objinfo) (garbage : T) (fld : field T) (u : option (units T)),
  objinfo_documented code ->
  exists s0, om_new code u = Ok s0 /\
    (forall tracking srcs hs s, hs <> [] \/ (exists r, In r srcs /\ sr_output r = true) ->
       exec_all code garbage fld s0 (main_calls tracking srcs hs) <> Ok s) /\
    (forall srcs h hs, (forall r, In r srcs -> sr_output r = false /\ sr_calls r = []) ->
       exec_all code garbage fld s0 (main_calls false srcs (h :: hs)) = Throw).
Proof.
  intros T NT code garbage fld u HD. destruct (om_new_doc code u HD) as (s0 & N0 & U0). exists s0. split; [auto|].
  assert (HH : forall (s : om T) h, untouched s -> out_hist code s h = Throw).
  { intros s h HU. unfold out_hist. cbv zeta. rewrite o_group_doc_ok; auto.
    - cbn [bind]. rewrite o_array_doc; [reflexivity|auto|]. change "/BinCentres"%string with ("/" ++ "BinCentres")%string. apply path2; [|discriminate].
      change ("Histograms/" ++ hi_name h)%string with ("Histograms" ++ "/" ++ hi_name h)%string. apply head_path. discriminate.
    - change ("Histograms/" ++ hi_name h)%string with ("Histograms" ++ "/" ++ hi_name h)%string. apply head_path. discriminate. }
  split.
  - intros tracking srcs hs s HX HE. unfold main_calls in HE. apply prefix_ok in HE. destruct HE as (s1 & E1 & E2).
    destruct HX as [HX|(r & HR & HO)].
    + destruct hs as [|h hs]; [contradiction|]. cbn [map exec_all exec] in E2. rewrite HH in E2; [discriminate|]. eapply exec_all_doc; eauto.
    + clear E2 HH. apply in_split in HR. destruct HR as (a & b & ->). rewrite flat_map_app in E1. cbn [flat_map] in E1. rewrite HO in E1.
      apply prefix_ok in E1. destruct E1 as (s2 & A1 & E1). apply prefix_ok in E1. destruct E1 as (s3 & A2 & _).
      cbn [app] in A2. rewrite app_comm_cons in A2. apply prefix_ok in A2. destruct A2 as (s4 & A2 & A3). cbn [exec_all exec] in A3. apply bind_ok in A3. destruct A3 as (s5 & A3 & _).
      unfold output_events in A3. apply bind_ok in A3. destruct A3 as (s6 & A3 & _). eapply output_source_doc; [exact HD| |exact A3].
      eapply exec_all_doc; [exact HD| |exact A2]. eapply exec_all_doc; [exact HD| |exact A1]. auto.
  - intros srcs h hs HS. unfold main_calls. rewrite exec_all_app.
    assert (HN : exec_all code garbage fld s0 (flat_map (fun r => (if sr_output r then [OInit (sr_number r)] else []) ++ sr_calls r ++ [OEvents (sr_output r) false]) srcs) = Ok s0).
    { clear HH. induction srcs as [|r srcs IH]; [reflexivity|]. cbn [flat_map]. destruct (HS r (or_introl eq_refl)) as [-> ->]. cbn [app exec_all exec output_events bind].
      apply IH. intros r' Hr'. apply HS. right. auto. }
    rewrite HN. cbn [bind map exec_all exec]. rewrite HH by auto. reflexivity.
Qed.
Print Assumptions C59_program.
Example C59_case : objinfo_documented (fun b : bool => if b then 0%Z else (-1)%Z) /\ f_group (file_new (T := R)) <> GFreed /\
  exists_ [(["Histograms"%string], Grp (T := R))] (path "Histograms") = true.
Proof. split; [split; reflexivity|]. split; [discriminate|reflexivity]. Qed.
Example C58_case : exec_all ex_code 7%R (fun _ _ => (mkV 0 0 0, mkV 0 0 0))%R
  (mkOM (mkFile fresh_tree GLive) None false false false [] (mkTab [] []) (mkTab [] []) (mkTab [] []) [])
  (main_calls false [mkSR true 2%Z ex_calls; mkSR true 1%Z [OPrimary (ex_prim 0) 0; OFinal (ex_fin 0) 0]] []) = Throw.
Proof. vm_compute. reflexivity. Qed.

(** ** C60 *)
(** the data sets of tracks written with OutputEvents and with ListTracks *)
Lemma tracks_written {T} `{Num T} code (ts : list (track T)) : forall i s s', output_tracks_from code s i ts = Ok s' ->
  forall m k, nth_error ts m = Some k ->
    lookup (f_tree (om_file s')) (tpath (i + m) ++ ["Gamma"%string]) = Some (Dat [len (tk_gamma k)] (map (fun x => nmul x (scale_time s)) (tk_gamma k))) /\
    lookup (f_tree (om_file s')) (tpath (i + m) ++ ["Time"%string]) = Some (Dat [len (tk_time k)] (map (fun x => nmul x (scale_time s)) (tk_time k))).
Proof.
  induction ts as [|k ts IH]; intros i s s' HX m k' HM; [destruct m; discriminate|].
  cbn [output_tracks_from] in HX. cbv zeta in HX. pose proof (path_ev i) as PE. revert HX PE. generalize ("Particles/ParticleTrack/Event" ++ to_string i)%string. intros g HX PE.
  apply bind_ok in HX. destruct HX as (t & HT & HX). apply bind_ok in HX. destruct HX as (t2 & HT2 & HX).
  apply o_group_grows in HT. pose proof (out_arrays_grows _ _ _ _ _ _ _ _ _ HT2) as G2. pose proof (output_tracks_from_grows code _ _ _ _ HX) as G3.
  destruct (scale_same s t (proj2 HT)) as (_ & _ & ST). destruct (scale_same t t2 (proj2 G2)) as (_ & _ & ST2).
  destruct m as [|m]; cbn [nth_error] in HM.
  - injection HM; intros <-. rewrite Nat.add_0_r. rewrite <- ST.
    unfold out_arrays in HT2. apply bind_ok in HT2. destruct HT2 as (a1 & A1 & HT2). apply bind_ok in HT2. destruct HT2 as (a2 & A2 & HT2). apply bind_ok in HT2. destruct HT2 as (a3 & A3 & A4).
    change "/Time"%string with ("/" ++ "Time")%string in A3. change "/Gamma"%string with ("/" ++ "Gamma")%string in A4.
    apply o_array_grows in A3. apply o_array_grows in A4. rewrite path_app, PE in A3, A4. destruct A3 as [_ A3]. destruct A4 as [[A5 _] A4].
    assert (FN : forall l : list T, firstn (Z.to_nat (zprod [len l])) l = l) by (intros l; unfold len; cbn [zprod]; rewrite Z.mul_1_r, Nat2Z.id; apply firstn_all).
    rewrite FN in A3, A4. unfold len in A3, A4. rewrite map_length in A3, A4. split; [apply G3; exact A4|apply G3; apply A5; exact A3].
  - replace (i + S m)%nat with (S i + m)%nat by lia. destruct (IH _ _ _ HX m k' HM) as [B1 B2]. rewrite ST2, ST in B1, B2. auto.
Qed.
Lemma lists_written {T} `{Num T} code name (ps : list (particle T)) : forall i s s', list_tracks_from code s name i ps = Ok s' ->
  forall m p, nth_error ps m = Some p ->
    lookup (f_tree (om_file s')) (["Particles"; "ParticleList"]%string ++ path name ++ path (to_string (i + m)) ++ ["Gamma"%string]) = Some (Dat [len (p_gammaHist p)] (p_gammaHist p)).
Proof.
  induction ps as [|p ps IH]; intros i s s' HX m p' HM; [destruct m; discriminate|].
  cbn [list_tracks_from] in HX. destruct (negb (p_tracking p)); [discriminate|]. cbv zeta in HX.
  assert (PE : path ("Particles/ParticleList/" ++ name ++ "/" ++ to_string i) = ["Particles"; "ParticleList"]%string ++ path name ++ path (to_string i)).
  { change ("Particles/ParticleList/" ++ name ++ "/" ++ to_string i)%string with ("Particles/ParticleList" ++ "/" ++ (name ++ "/" ++ to_string i))%string. rewrite !path_app. reflexivity. }
  revert HX PE. generalize ("Particles/ParticleList/" ++ name ++ "/" ++ to_string i)%string. intros g HX PE.
  apply bind_ok in HX. destruct HX as (t & HT & HX). apply bind_ok in HX. destruct HX as (t2 & HT2 & HX).
  pose proof (list_tracks_from_grows code _ _ _ _ _ HX) as G3.
  destruct m as [|m]; cbn [nth_error] in HM.
  - injection HM; intros <-. rewrite Nat.add_0_r.
    unfold out_arrays in HT2. apply bind_ok in HT2. destruct HT2 as (a1 & A1 & HT2). apply bind_ok in HT2. destruct HT2 as (a2 & A2 & HT2). apply bind_ok in HT2. destruct HT2 as (a3 & A3 & A4).
    change "/Gamma"%string with ("/" ++ "Gamma")%string in A4. apply o_array_grows in A4. rewrite path_app, PE in A4. destruct A4 as [_ A4].
    assert (FN : forall l : list T, firstn (Z.to_nat (zprod [len l])) l = l) by (intros l; unfold len; cbn [zprod]; rewrite Z.mul_1_r, Nat2Z.id; apply firstn_all).
    rewrite FN in A4. apply G3. rewrite <- !app_assoc in A4. exact A4.
  - replace (i + S m)%nat with (S i + m)%nat by lia. apply (IH _ _ _ HX m p' HM).
Qed.

(** exact reals, any convention: whenever tracks are written, gamma is multiplied by the time unit like a time; without a unit system the
    values are unchanged *)
Theorem C60_gamma : forall (code : objinfo) (garbage : R) (s s' : om R) (a : bool), output_events code garbage s a true = Ok s' ->
  forall m k, nth_error (om_tracks s) m = Some k ->
    exists gs ts, lookup (f_tree (om_file s')) ["Particles"; "ParticleTrack"; "Event" ++ to_string m; "Gamma"]%string = Some (Dat [Z.of_nat (length (tk_gamma k))] gs) /\
      lookup (f_tree (om_file s')) ["Particles"; "ParticleTrack"; "Event" ++ to_string m; "Time"]%string = Some (Dat [Z.of_nat (length (tk_time k))] ts) /\
      match om_units s with
      | Some u => gs = map (fun g => g * ref_time u)%R (tk_gamma k) /\ ts = map (fun t => t * ref_time u)%R (tk_time k)
      | None => gs = tk_gamma k /\ ts = tk_time k
      end.
Proof.
  intros code garbage s s' a HX m k HM. unfold output_events in HX. apply bind_ok in HX. destruct HX as (s1 & H1 & HX).
  assert (HS : om_units s1 = om_units s /\ om_tracks s1 = om_tracks s).
  { destruct a; [|injection H1; intros <-; auto]. split; [apply (output_source_grows code garbage _ _ H1)|]. eapply output_source_tracks; exact H1. }
  destruct HS as [HU HK]. unfold output_track in HX. apply bind_ok in HX. destruct HX as (s2 & H2 & HX).
  assert (HS2 : om_units s2 = om_units s1 /\ om_tracks s2 = om_tracks s1).
  { destruct (om_list s1); [injection H2; intros <-; auto|]. apply bind_ok in H2. destruct H2 as (t & HT & H2). injection H2; intros <-.
    unfold o_group in HT. apply bind_ok in HT. destruct HT as (f & _ & HT). injection HT; intros <-. auto. }
  destruct HS2 as [HU2 HK2]. rewrite <- HK, <- HK2 in HM. destruct (tracks_written code _ _ _ _ HX m k HM) as [A B]. cbn [Nat.add] in A, B.
  eexists. eexists. split; [exact A|]. split; [exact B|]. unfold scale_time. rewrite HU2, HU. destruct (om_units s) as [u|]; [split; reflexivity|].
  assert (HM1 : forall l : list R, map (fun x => nmul x n1) l = l).
  { intros l. rewrite <- (map_id l) at 2. apply map_ext. intros x. rewrite n1_R. cbn [nmul Num_R]. apply Rmult_1_r. }
  rewrite !HM1. auto.
Qed.
Print Assumptions C60_gamma.

(** the same history written by ListTracks keeps gamma, with or without units *)
Theorem C60_list_tracks : forall (T : Type) (NT : Num T) (code : objinfo) (s s' : om T) (l : plist (particle T)) (name : string),
  list_tracks code s l name = Ok s' ->
  forall m p, nth_error (pl_items l) m = Some p ->
    lookup (f_tree (om_file s')) (["Particles"; "ParticleList"]%string ++ path name ++ [to_string m; "Gamma"%string]) = Some (Dat [Z.of_nat (length (p_gammaHist p))] (p_gammaHist p)).
Proof.
  intros T NT code s s' l name HX m p HM. unfold list_tracks in HX. apply bind_ok in HX. destruct HX as (s1 & _ & HX). apply bind_ok in HX. destruct HX as (s2 & _ & HX).
  pose proof (lists_written code name _ _ _ _ HX m p HM) as HL. cbn [Nat.add] in HL. rewrite (path_one (to_string m)) in HL by apply to_string_spec. exact HL.
Qed.
Print Assumptions C60_list_tracks.

Definition ex_units : units R := (mkUnits 1 3 5 1 1 7 1 1 1 1)%R.
Definition ex_om (u : option (units R)) : om R :=
  mkOM (mkFile fresh_tree GLive) u false false false [] (mkTab [] []) (mkTab [] []) (mkTab [] []) [].
(** a track of one point with gamma 2 and unit 3: written as 2*3 by OutputEvents and as 2 by ListTracks *)
Example C60_case : exists s1 s2,
  exec_all ex_code 7%R (fun _ _ => (mkV 0 0 0, mkV 0 0 0))%R (ex_om (Some ex_units)) [OTrack (ex_fin 0) 0; OEvents false true] = Ok s1 /\
  lookup (f_tree (om_file s1)) ["Particles"; "ParticleTrack"; "Event0"; "Gamma"]%string = Some (Dat [1%Z] [(2 * 3)%R]) /\
  exec_all ex_code 7%R (fun _ _ => (mkV 0 0 0, mkV 0 0 0))%R (ex_om (Some ex_units)) [OListTracks (ex_fin 0) "run"] = Ok s2 /\
  lookup (f_tree (om_file s2)) ["Particles"; "ParticleList"; "run"; "0"; "Gamma"]%string = Some (Dat [1%Z] [2%R]).
Proof. eexists. eexists. split; [vm_compute; reflexivity|]. split; [vm_compute; reflexivity|]. split; vm_compute; reflexivity. Qed.

(** ** C81: tracks of two sources *)
Lemma tracks_grow {T} `{Num T} code garbage fld (o : op T) (s s' : om T) : exec code garbage fld s o = Ok s' -> om_tracks s <> [] -> om_tracks s' <> [].
Proof.
  intros HX HN.
  assert (RA : forall g pos mom a b ti ga (x x' : om T), out_arrays x g pos mom a b ti ga = Ok x' -> om_tracks x' = om_tracks x).
  { unfold out_arrays. intros g pos mom a b ti ga x x' HY. apply bind_ok in HY. destruct HY as (a1 & A1 & HY). apply bind_ok in HY. destruct HY as (a2 & A2 & HY).
    apply bind_ok in HY. destruct HY as (a3 & A3 & A4). apply o_array_rest in A1, A2, A3, A4. destruct A1, A2, A3, A4. congruence. }
  assert (RO : forall b x g (w : om T -> om T) x', (forall y, om_tracks (w y) = om_tracks y) ->
    (if b : bool then Ok x else let* x := o_group code x g in Ok (w x)) = Ok x' -> om_tracks x' = om_tracks x).
  { intros b x g w x' HW HY. destruct b; [congruence|]. apply bind_ok in HY. destruct HY as (y & HY & HZ). injection HZ; intros <-. rewrite HW. apply o_group_rest in HY. apply HY. }
  destruct o as [p name|l name|l name|n|l id|l id|l id|a b|ts xs ys zs|h]; cbn [exec] in HX.
  - unfold single_particle in HX. apply bind_ok in HX. destruct HX as (s1 & H1 & HX). apply RO in H1; [|auto]. destruct (negb (p_tracking p)); [discriminate|]. cbv zeta in HX.
    apply bind_ok in HX. destruct HX as (ms & _ & HX). apply bind_ok in HX. destruct HX as (s2 & H2 & HX). apply RA in HX. apply o_group_rest in H2. destruct H2. congruence.
  - unfold list_tracks in HX. apply bind_ok in HX. destruct HX as (s1 & H1 & HX). apply RO in H1; [|auto]. apply bind_ok in HX. destruct HX as (s2 & H2 & HX). apply o_group_rest in H2. destruct H2 as [H2 _].
    assert (G : forall ps i x x', list_tracks_from code x name i ps = Ok x' -> om_tracks x' = om_tracks x).
    { induction ps as [|p ps IH]; intros i x x' HY; cbn [list_tracks_from] in HY; [congruence|]. destruct (negb (p_tracking p)); [discriminate|]. cbv zeta in HY.
      apply bind_ok in HY. destruct HY as (x1 & Y1 & HY). apply bind_ok in HY. destruct HY as (x2 & Y2 & HY). apply IH in HY. apply RA in Y2. apply o_group_rest in Y1. destruct Y1. congruence. }
    apply G in HX. congruence.
  - unfold list_properties in HX. apply bind_ok in HX. destruct HX as (s1 & H1 & HX). apply RO in H1; [|auto]. cbv zeta in HX. apply bind_ok in HX. destruct HX as (s2 & H2 & HX).
    apply o_group_rest in H2. apply o_array_rest in HX. destruct H2, HX. congruence.
  - injection HX; intros <-. exact HN.
  - unfold store_primary in HX. apply bind_ok in HX. destruct HX as (p & _ & HX). apply bind_ok in HX. destruct HX as (q & _ & HX). injection HX; intros <-. exact HN.
  - unfold store_final in HX. apply bind_ok in HX. destruct HX as (p & _ & HX). apply bind_ok in HX. destruct HX as (q & _ & HX). apply bind_ok in HX. destruct HX as (r & _ & HX). injection HX; intros <-. exact HN.
  - injection HX; intros <-. cbn [store_track with_tracks om_tracks]. intros HE. apply app_eq_nil in HE. destruct HE; auto.
  - unfold output_events in HX. apply bind_ok in HX. destruct HX as (s1 & H1 & HX).
    assert (E1 : om_tracks s1 = om_tracks s) by (destruct a; [apply output_source_tracks in H1; apply H1|congruence]).
    destruct b; [|injection HX; intros <-; congruence]. unfold output_track in HX. apply bind_ok in HX. destruct HX as (s2 & H2 & HX). apply RO in H2; [|auto].
    assert (G : forall ps i x x', output_tracks_from code x i ps = Ok x' -> om_tracks x' = om_tracks x).
    { induction ps as [|p ps IH]; intros i x x' HY; cbn [output_tracks_from] in HY; [congruence|]. cbv zeta in HY.
      apply bind_ok in HY. destruct HY as (x1 & Y1 & HY). apply bind_ok in HY. destruct HY as (x2 & Y2 & HY). apply IH in HY. apply RA in Y2. apply o_group_rest in Y1. destruct Y1. congruence. }
    apply G in HX. congruence.
  - unfold out_field in HX. assert (D : forall x g t d x', out_dir garbage fld x g t xs ys zs d = Ok x' -> om_tracks x' = om_tracks x).
    { intros x g t d x' HY. unfold out_dir in HY. cbv zeta in HY. apply bind_ok in HY. destruct HY as (e & _ & HY). apply bind_ok in HY. destruct HY as (b & _ & HY).
      apply bind_ok in HY. destruct HY as (x1 & Y1 & HY). apply o_array_rest in Y1, HY. destruct Y1, HY. congruence. }
    assert (G : forall ts i x x', out_field_from code garbage fld x i ts xs ys zs = Ok x' -> om_tracks x' = om_tracks x).
    { induction ts0 as [|t ts0 IH]; intros i x x' HY; cbn [out_field_from] in HY; [congruence|]. cbv zeta in HY.
      apply bind_ok in HY. destruct HY as (x1 & Y1 & HY). apply bind_ok in HY. destruct HY as (x2 & Y2 & HY). apply bind_ok in HY. destruct HY as (x3 & Y3 & HY). apply bind_ok in HY. destruct HY as (x4 & Y4 & HY).
      apply IH in HY. apply D in Y2, Y3, Y4. apply o_group_rest in Y1. destruct Y1. congruence. }
    apply G in HX. congruence.
  - unfold out_hist in HX. cbv zeta in HX. apply bind_ok in HX. destruct HX as (s1 & H1 & HX). apply bind_ok in HX. destruct HX as (s2 & H2 & HX).
    apply o_group_rest in H1. apply o_array_rest in H2, HX. destruct H1, H2, HX. congruence.
Qed.
Lemma tracks_grow_all {T} `{Num T} code garbage fld (os : list (op T)) : forall s s' : om T, exec_all code garbage fld s os = Ok s' -> om_tracks s <> [] -> om_tracks s' <> [].
Proof.
  induction os as [|o os IH]; intros s s' HX HN; cbn [exec_all] in HX; [congruence|]. apply bind_ok in HX. destruct HX as (s1 & H1 & HX). eapply IH; [exact HX|]. eapply tracks_grow; eauto.
Qed.
Lemma track_output_first {T} `{Num T} code garbage (s s' : om T) a : output_events code garbage s a true = Ok s' -> om_tracks s <> [] ->
  lookup (f_tree (om_file s')) (tpath 0 ++ ["Gamma"%string]) <> None /\ lookup (f_tree (om_file s)) (tpath 0 ++ ["Gamma"%string]) = None.
Proof.
  intros HX HN. unfold output_events in HX. apply bind_ok in HX. destruct HX as (s1 & H1 & HX).
  assert (E1 : ogrows s s1 /\ om_tracks s1 = om_tracks s) by (destruct a; [split; [apply output_source_grows in H1; apply H1|apply output_source_tracks in H1; apply H1]|injection H1; intros <-; split; [apply ogrows_refl|auto]]).
  destruct E1 as [G1 E1]. unfold output_track in HX. apply bind_ok in HX. destruct HX as (s2 & H2 & HX).
  assert (E2 : ogrows s1 s2) by (eapply once_grows; [apply w_list|exact H2]).
  assert (E3 : om_tracks s2 = om_tracks s1).
  { destruct (om_list s1); [congruence|]. apply bind_ok in H2. destruct H2 as (y & HY & HZ). injection HZ; intros <-. apply o_group_rest in HY. apply HY. }
  rewrite E3, E1 in HX. destruct (om_tracks s) as [|k ts]; [contradiction|]. split.
  - pose proof (tracks_written code (k :: ts) _ _ _ HX 0 k eq_refl) as [A _]. cbn [Nat.add] in A. rewrite A. discriminate.
  - destruct (lookup (f_tree (om_file s)) (tpath 0 ++ ["Gamma"%string])) as [nd|] eqn:EL; [|auto]. exfalso.
    apply G1 in EL. apply E2 in EL. cbn [output_tracks_from] in HX. cbv zeta in HX. pose proof (path_ev 0) as PE. revert HX PE. generalize ("Particles/ParticleTrack/Event" ++ to_string 0)%string. intros g HX PE.
    apply bind_ok in HX. destruct HX as (t & HT & HX). apply bind_ok in HX. destruct HX as (t2 & HT2 & HX). apply o_group_grows in HT. apply HT in EL.
    unfold out_arrays in HT2. apply bind_ok in HT2. destruct HT2 as (a1 & A1 & HT2). apply bind_ok in HT2. destruct HT2 as (a2 & A2 & HT2). apply bind_ok in HT2. destruct HT2 as (a3 & A3 & A4).
    apply o_array_grows in A1, A2, A3. apply (proj1 (proj1 A1)) in EL. apply (proj1 (proj1 A2)) in EL. apply (proj1 (proj1 A3)) in EL.
    change "/Gamma"%string with ("/" ++ "Gamma")%string in A4. rewrite o_array_taken in A4; [discriminate|]. rewrite path_app, PE. apply exists_lookup; [discriminate|]. eauto.
Qed.

(** once a track has been stored, tracks can be output only once, whatever the library returns and whatever happens in between *)
Theorem C81_tracks_twice : forall (T : Type) (NT : Num T) (code : objinfo) (garbage : T) (fld : field T) (s s' : om T) os1 os2 os3 l id a1 a2,
  pl_items l <> [] ->
  exec_all code garbage fld s (os1 ++ OTrack l id :: os2 ++ OEvents a1 true :: os3 ++ [OEvents a2 true]) <> Ok s'.
Proof.
  intros T NT code garbage fld s s' os1 os2 os3 l id a1 a2 HL HX. apply prefix_ok in HX. destruct HX as (s1 & _ & HX). cbn [exec_all exec bind] in HX.
  apply prefix_ok in HX. destruct HX as (s2 & H2 & HX). apply tracks_grow_all in H2.
  2:{ cbn [store_track with_tracks om_tracks]. intros HE. apply app_eq_nil in HE. destruct HE as [_ HE]. apply map_eq_nil in HE. auto. }
  cbn [exec_all exec] in HX. apply bind_ok in HX. destruct HX as (s3 & H3 & HX). apply prefix_ok in HX. destruct HX as (s4 & H4 & HX).
  cbn [exec_all exec] in HX. apply bind_ok in HX. destruct HX as (s5 & H5 & _).
  assert (N3 : om_tracks s3 <> []) by (eapply (tracks_grow code garbage fld (OEvents a1 true)); eauto).
  pose proof (tracks_grow_all _ _ _ _ _ _ H4 N3) as N4.
  destruct (track_output_first code garbage s2 s3 a1 H3 H2) as [P1 _]. destruct (track_output_first code garbage s4 s5 a2 H5 N4) as [_ P2].
  destruct (lookup (f_tree (om_file s3)) (tpath 0 ++ ["Gamma"%string])) as [nd|] eqn:EL; [|contradiction].
  apply exec_all_grows in H4. apply H4 in EL. congruence.
Qed.
Print Assumptions C81_tracks_twice.
(** so with tracking a second source never completes, even if no output is requested for the sources *)
Theorem C81_program : forall (T : Type) (NT : Num T) (code : objinfo) (garbage : T) (fld : field T) (s0 s' : om T) o1 o2 n1 n2 calls1 calls2 srcs hs l id,
  In (OTrack l id) calls1 -> pl_items l <> [] ->
  exec_all code garbage fld s0 (main_calls true (mkSR o1 n1 calls1 :: mkSR o2 n2 calls2 :: srcs) hs) <> Ok s'.
Proof.
  intros T NT code garbage fld s0 s' o1 o2 n1 n2 calls1 calls2 srcs hs l id HI HL HX. apply in_split in HI. destruct HI as (a & b & ->).
  unfold main_calls in HX. cbn [flat_map sr_output sr_number sr_calls] in HX. set (f := fun r : source_run T => _) in HX.
  set (i1 := if o1 then _ else _) in HX. set (i2 := if o2 then _ else _) in HX.
  replace (((i1 ++ (a ++ OTrack l id :: b) ++ [OEvents o1 true]) ++ (i2 ++ calls2 ++ [OEvents o2 true]) ++ flat_map f srcs) ++ map OHist hs)
    with (((i1 ++ a) ++ OTrack l id :: b ++ OEvents o1 true :: (i2 ++ calls2) ++ [OEvents o2 true]) ++ (flat_map f srcs ++ map OHist hs)) in HX
    by (repeat (rewrite <- ?app_assoc; cbn [app]); reflexivity).
  apply prefix_ok in HX. destruct HX as (s1 & H1 & _). eapply C81_tracks_twice; [exact HL|exact H1].
Qed.
Print Assumptions C81_program.
Example C81_case : exec_all ex_code 7%R (fun _ _ => (mkV 0 0 0, mkV 0 0 0))%R (ex_om None)
  (main_calls true [mkSR false 1%Z [OTrack (ex_fin 0) 0]; mkSR false 1%Z [OTrack (ex_fin 1) 0]] []) = Throw /\
  exists s, exec_all ex_code 7%R (fun _ _ => (mkV 0 0 0, mkV 0 0 0))%R (ex_om None)
  (main_calls true [mkSR false 1%Z [OTrack (ex_fin 0) 0]] []) = Ok s.
Proof. split; [vm_compute; reflexivity|]. eexists. vm_compute. reflexivity. Qed.

(** ** C82: the event number of a track is lost *)
Definition file_of {T} (r : res (om T)) : res (file T) := let* s := r in Ok (om_file s).
Lemma group_tracks {T} `{Num T} code (x : om T) a g : o_group code (with_tracks x a) g = let* y := o_group code x g in Ok (with_tracks y a).
Proof. unfold o_group. cbn [with_tracks om_file]. destruct (add_group code (om_file x) g); reflexivity. Qed.
Lemma array_tracks {T} `{Num T} (x : om T) a b d g : o_array (with_tracks x a) b d g = let* y := o_array x b d g in Ok (with_tracks y a).
Proof. unfold o_array. cbn [with_tracks om_file]. destruct (add_array (om_file x) b d g); reflexivity. Qed.
Lemma arrays_tracks {T} `{Num T} (x : om T) a g pos mom n m ti ga : out_arrays (with_tracks x a) g pos mom n m ti ga = let* y := out_arrays x g pos mom n m ti ga in Ok (with_tracks y a).
Proof.
  unfold out_arrays. rewrite array_tracks. destruct (o_array x _ _ _); cbn [bind]; auto. rewrite array_tracks. destruct (o_array _ mom _ _); cbn [bind]; auto.
  rewrite array_tracks. destruct (o_array _ ti _ _); cbn [bind]; auto. apply array_tracks.
Qed.
Lemma from_tracks {T} `{Num T} code (ts : list (track T)) a : forall i x, output_tracks_from code (with_tracks x a) i ts = let* y := output_tracks_from code x i ts in Ok (with_tracks y a).
Proof.
  induction ts as [|k ts IH]; intros i x; cbn [output_tracks_from]; [reflexivity|]. cbv zeta. rewrite group_tracks. destruct (o_group code x _) as [y| | | |]; cbn [bind]; auto.
  change (scale_length (with_tracks y a)) with (scale_length y). change (scale_momentum (with_tracks y a)) with (scale_momentum y). change (scale_time (with_tracks y a)) with (scale_time y).
  rewrite arrays_tracks. destruct (out_arrays y _ _ _ _ _ _ _); cbn [bind]; auto.
Qed.
(** two stores that differ only in the event numbers produce the same file (or the same failure) *)
Theorem C82_ids_not_written : forall (T : Type) (NT : Num T) (code : objinfo) (ts ts' : list (track T)) (s : om T),
  Forall2 (fun k k' => tk_pos k = tk_pos k' /\ tk_mom k = tk_mom k' /\ tk_time k = tk_time k' /\ tk_gamma k = tk_gamma k') ts ts' ->
  file_of (output_track code (with_tracks s ts)) = file_of (output_track code (with_tracks s ts')).
Proof.
  intros T NT code ts ts' s HF.
  assert (G : forall i x, output_tracks_from code x i ts = output_tracks_from code x i ts').
  { induction HF as [|k k' ts ts' (E1 & E2 & E3 & E4) HF IH]; intros i x; cbn [output_tracks_from]; [reflexivity|]. cbv zeta. rewrite E1, E2, E3, E4.
    destruct (o_group code x _) as [y| | | |]; cbn [bind]; auto. destruct (out_arrays y _ _ _ _ _ _ _); cbn [bind]; auto. }
  assert (K : forall a x i, file_of (output_tracks_from code (with_tracks x a) i ts) = file_of (output_tracks_from code x i ts')).
  { intros a x i. rewrite from_tracks, G. destruct (output_tracks_from code x i ts'); reflexivity. }
  assert (K' : forall a x i, file_of (output_tracks_from code (with_tracks x a) i ts') = file_of (output_tracks_from code x i ts')).
  { intros a x i. rewrite from_tracks. destruct (output_tracks_from code x i ts'); reflexivity. }
  unfold output_track. rewrite !group_tracks. cbn [with_tracks om_list]. destruct (om_list s).
  - cbn [bind om_tracks with_tracks]. rewrite K, K'. reflexivity.
  - destruct (o_group code s _) as [y| | | |]; cbn [bind]; try reflexivity.
    change (with_list (with_tracks y ts)) with (with_tracks (with_list y) ts). change (with_list (with_tracks y ts')) with (with_tracks (with_list y) ts').
    cbn [om_tracks with_tracks]. change (mkOM _ _ _ _ _ _ _ _ _ ts) with (with_tracks (with_list y) ts). change (mkOM _ _ _ _ _ _ _ _ _ ts') with (with_tracks (with_list y) ts').
    rewrite K, K'. reflexivity.
Qed.
Print Assumptions C82_ids_not_written.

(** and the groups are numbered in the order in which the threads stored the tracks: two schedules of the same two events exchange
    "Event0" and "Event1" *)
Theorem C82_schedule_dependent : forall (T : Type) (NT : Num T) (code : objinfo) (garbage : T) (fld : field T) (u : option (units T)) (k0 k1 : particle T) name max,
  objinfo_inverted code ->
  let ev_ j k := OTrack (mkPL name max [k] []) j in
  exists s0 s s', om_new code u = Ok s0 /\
    exec_all code garbage fld s0 [ev_ 0%Z k0; ev_ 1%Z k1; OEvents false true] = Ok s /\
    exec_all code garbage fld s0 [ev_ 1%Z k1; ev_ 0%Z k0; OEvents false true] = Ok s' /\
    forall x, In x ["Position"; "Momentum"; "Time"; "Gamma"]%string ->
      lookup (f_tree (om_file s)) ["Particles"; "ParticleTrack"; "Event0"; x]%string <> None /\
      lookup (f_tree (om_file s)) ["Particles"; "ParticleTrack"; "Event0"; x]%string = lookup (f_tree (om_file s')) ["Particles"; "ParticleTrack"; "Event1"; x]%string /\
      lookup (f_tree (om_file s)) ["Particles"; "ParticleTrack"; "Event1"; x]%string = lookup (f_tree (om_file s')) ["Particles"; "ParticleTrack"; "Event0"; x]%string.
Proof.
  intros T NT code garbage fld u k0 k1 name max HI ev_. rewrite (om_new_inv code u HI). set (s0 := mkOM _ _ _ _ _ _ _ _ _ _). exists s0.
  set (sa := with_tracks s0 [track_of 0 k0; track_of 1 k1]). set (sb := with_tracks s0 [track_of 1 k1; track_of 0 k0]).
  destruct (output_track_new code sa HI) as (s & EA & _ & _ & NA); [reflexivity|discriminate|reflexivity|intros q; reflexivity|].
  destruct (output_track_new code sb HI) as (s' & EB & _ & _ & NB); [reflexivity|discriminate|reflexivity|intros q; reflexivity|].
  exists s, s'. split; [auto|].
  assert (RA : exec_all code garbage fld s0 [ev_ 0%Z k0; ev_ 1%Z k1; OEvents false true] = (let* x := output_track code sa in Ok x)) by reflexivity.
  assert (RB : exec_all code garbage fld s0 [ev_ 1%Z k1; ev_ 0%Z k0; OEvents false true] = (let* x := output_track code sb in Ok x)) by reflexivity.
  rewrite RA, RB, EA, EB. split; [reflexivity|]. split; [reflexivity|].
  intros x HX.
  assert (TN : forall id k, exists nd, In (x, nd) (track_nodes sa (track_of id k)) /\ In (x, nd) (track_nodes sb (track_of id k)) /\
     (forall id', In (x, nd) (track_nodes sb (track_of id' k)))).
  { intros id k. destruct HX as [<-|[<-|[<-|[<-|[]]]]]; eexists; (split; [|split]); try (intros id'); cbn [track_nodes In]; [left; reflexivity|left; reflexivity|left; reflexivity
      |right; left; reflexivity|right; left; reflexivity|right; left; reflexivity|right; right; left; reflexivity|right; right; left; reflexivity|right; right; left; reflexivity
      |right; right; right; left; reflexivity|right; right; right; left; reflexivity|right; right; right; left; reflexivity]. }
  destruct (TN 0%Z k0) as (n0 & I0 & J0 & _). destruct (TN 1%Z k1) as (n1 & I1 & J1 & _).
  pose proof (NA 0%nat _ x n0 eq_refl I0) as A0. pose proof (NA 1%nat _ x n1 eq_refl I1) as A1.
  pose proof (NB 1%nat _ x n0 eq_refl J0) as B0. pose proof (NB 0%nat _ x n1 eq_refl J1) as B1.
  change (tpath 0 ++ [x]) with ["Particles"; "ParticleTrack"; "Event0"; x]%string in A0, B1. change (tpath 1 ++ [x]) with ["Particles"; "ParticleTrack"; "Event1"; x]%string in A1, B0.
  rewrite A0, A1, B0, B1. split; [discriminate|]. auto.
Qed.
Print Assumptions C82_schedule_dependent.
Example C82_case : Forall2 (fun k k' : track R => tk_pos k = tk_pos k' /\ tk_mom k = tk_mom k' /\ tk_time k = tk_time k' /\ tk_gamma k = tk_gamma k')
  [track_of 0 (ex_el 1)] [track_of 5 (ex_el 1)] /\ track_of 0 (ex_el 1) <> track_of 5 (ex_el 1).
Proof. split; [repeat constructor|]. discriminate. Qed.

(** ** C84: histogram names *)
Theorem C84_same_name_twice : forall (T : Type) (NT : Num T) (code : objinfo) (garbage : T) (fld : field T) (s s' : om T) os1 os2 os3 (h1 h2 : hist T),
  path (hi_name h1) = path (hi_name h2) ->
  exec_all code garbage fld s (os1 ++ OHist h1 :: os2 ++ OHist h2 :: os3) <> Ok s'.
Proof.
  intros T NT code garbage fld s s' os1 os2 os3 h1 h2 HN HX. apply prefix_ok in HX. destruct HX as (s1 & _ & HX). cbn [exec_all exec] in HX.
  apply bind_ok in HX. destruct HX as (s2 & H2 & HX). apply prefix_ok in HX. destruct HX as (s3 & H3 & HX). cbn [exec_all exec] in HX. apply bind_ok in HX. destruct HX as (s4 & H4 & _).
  assert (PN : forall h : hist T, path ("Histograms/" ++ hi_name h) = "Histograms"%string :: path (hi_name h)).
  { intros h. change ("Histograms/" ++ hi_name h)%string with ("Histograms" ++ "/" ++ hi_name h)%string. rewrite path_app. reflexivity. }
  unfold out_hist in H2, H4. cbv zeta in H2, H4. change "/BinValues"%string with ("/" ++ "BinValues")%string in H2, H4. change "/BinCentres"%string with ("/" ++ "BinCentres")%string in H2, H4.
  apply bind_ok in H2. destruct H2 as (a & _ & H2). apply bind_ok in H2. destruct H2 as (b & _ & H2). apply o_array_grows in H2. destruct H2 as [_ H2].
  apply exec_all_grows in H3. apply H3 in H2.
  apply bind_ok in H4. destruct H4 as (c & C1 & H4). apply bind_ok in H4. destruct H4 as (d & D1 & H4). apply o_group_grows in C1. apply C1 in H2. apply o_array_grows in D1. apply (proj1 (proj1 D1)) in H2.
  rewrite path_app, PN, HN, <- PN, <- path_app in H2. rewrite o_array_taken in H4; [discriminate|]. apply exists_lookup; [|eauto].
  rewrite path_app, PN. discriminate.
Qed.
Print Assumptions C84_same_name_twice.

Lemma write_hists {T} `{Num T} (code : objinfo) (garbage : T) (fld : field T) (hs : list (hist T)) : objinfo_inverted code -> NoDup (map hi_name hs) ->
  (forall h, In h hs -> no_slash (hi_name h) /\ hi_name h <> ""%string /\ hi_n h = Z.of_nat (length (hi_centres h)) /\ length (hi_values h) = length (hi_centres h)) ->
  forall s : om T, f_group (om_file s) <> GFreed -> lookup (f_tree (om_file s)) ["Histograms"%string] = Some Grp ->
    (forall h q, In h hs -> lookup (f_tree (om_file s)) ("Histograms"%string :: hi_name h :: q) = None) ->
    exists s', exec_all code garbage fld s (map OHist hs) = Ok s' /\ ogrows s s' /\ forall h, In h hs ->
      lookup (f_tree (om_file s')) ["Histograms"; hi_name h; "BinCentres"]%string = Some (Dat [hi_n h] (hi_centres h)) /\
      lookup (f_tree (om_file s')) ["Histograms"; hi_name h; "BinValues"]%string = Some (Dat [hi_n h] (hi_values h)).
Proof.
  intros HI HD HH.
  induction hs as [|h hs IH]; intros s HG HP HN.
  - exists s. split; [reflexivity|]. split; [apply ogrows_refl|]. intros h [].
  - destruct (HH h (or_introl eq_refl)) as (NS & NE & LN & LV). cbn [map exec_all exec]. unfold out_hist. cbv zeta.
    assert (PN : path ("Histograms/" ++ hi_name h) = ["Histograms"%string; hi_name h]).
    { change ("Histograms/" ++ hi_name h)%string with ("Histograms" ++ "/" ++ hi_name h)%string. rewrite path_app, (path_one (hi_name h)) by auto. reflexivity. }
    change "/BinValues"%string with ("/" ++ "BinValues")%string. change "/BinCentres"%string with ("/" ++ "BinCentres")%string.
    assert (PV : path (("Histograms/" ++ hi_name h) ++ "/" ++ "BinValues") = ["Histograms"%string; hi_name h; "BinValues"%string]) by (rewrite path_app, PN; reflexivity).
    assert (PC : path (("Histograms/" ++ hi_name h) ++ "/" ++ "BinCentres") = ["Histograms"%string; hi_name h; "BinCentres"%string]) by (rewrite path_app, PN; reflexivity).
    revert PN PV PC. generalize (("Histograms/" ++ hi_name h) ++ "/" ++ "BinValues")%string as gv. generalize (("Histograms/" ++ hi_name h) ++ "/" ++ "BinCentres")%string as gc.
    generalize ("Histograms/" ++ hi_name h)%string as g. intros g gc gv PN PV PC.
    pose proof (fun q => HN h q (or_introl eq_refl)) as N0.
    rewrite o_group_new; auto; rewrite ?PN; cbn [exists_ removelast is_group]; rewrite ?N0, ?HP; auto. cbn [bind].
    assert (LL : forall x n (t : tree T) p, p <> x -> lookup ((x, n) :: t) p = lookup t p).
    { intros x n t p NQ. rewrite lookup_cons. destruct (list_eq_dec string_dec _ _); [contradiction|auto]. }
    assert (LS : forall x n (t : tree T), lookup ((x, n) :: t) x = Some n).
    { intros x n t. rewrite lookup_cons. destruct (list_eq_dec string_dec _ _); [auto|contradiction]. }
    rewrite o_array_new; cbn [with_file om_file f_tree f_group]; rewrite ?PC, ?PN; cbn [exists_ removelast is_group zprod].
    2:{ rewrite LL by discriminate. rewrite N0. reflexivity. } 2:{ rewrite LS. reflexivity. } 2:{ lia. }
    cbn [bind]. rewrite o_array_new; cbn [with_file om_file f_tree f_group]; rewrite ?PV, ?PN; cbn [exists_ removelast is_group zprod].
    2:{ rewrite !LL by discriminate. rewrite N0. reflexivity. } 2:{ rewrite LL by discriminate. rewrite LS. reflexivity. } 2:{ lia. }
    cbn [bind]. set (s2 := with_file _ _). inversion HD as [|? ? HNI HD']; subst.
    destruct (IH HD' (fun x Hx => HH x (or_intror Hx)) s2) as (s' & E' & [G' U'] & L').
    + discriminate.
    + cbn [s2 with_file om_file f_tree]. rewrite !LL by discriminate. exact HP.
    + intros h' q Hh'. assert (NH : hi_name h' <> hi_name h) by (intros HE; apply HNI; rewrite <- HE; apply in_map; auto).
      cbn [s2 with_file om_file f_tree]. rewrite !LL by congruence. apply HN. right. auto.
    + exists s'. split; [exact E'|].
      assert (G2 : ogrows s s2).
      { split; [|reflexivity]. intros p nd HL. cbn [s2 with_file om_file f_tree].
        rewrite !LL; [exact HL|intros ->; rewrite N0 in HL; discriminate|intros ->; rewrite N0 in HL; discriminate|intros ->; rewrite N0 in HL; discriminate]. }
      split; [eapply ogrows_trans; [exact G2|split; [exact G'|exact U']]|].
      intros h' [<-|Hh']; [|apply L'; auto]. split; apply G'; cbn [s2 with_file om_file f_tree]; [rewrite LL by discriminate|]; apply LS.
Qed.
(** histograms with different one-component names are all written *)
Theorem C84_distinct_names : forall (T : Type) (NT : Num T) (code : objinfo) (garbage : T) (fld : field T) (u : option (units T)) (hs : list (hist T)),
  objinfo_inverted code -> NoDup (map hi_name hs) ->
  (forall h, In h hs -> no_slash (hi_name h) /\ hi_name h <> ""%string /\ hi_n h = Z.of_nat (length (hi_centres h)) /\ length (hi_values h) = length (hi_centres h)) ->
  exists s0 s, om_new code u = Ok s0 /\ exec_all code garbage fld s0 (main_calls false [] hs) = Ok s /\
    forall h, In h hs ->
      lookup (f_tree (om_file s)) ["Histograms"; hi_name h; "BinCentres"]%string = Some (Dat [hi_n h] (hi_centres h)) /\
      lookup (f_tree (om_file s)) ["Histograms"; hi_name h; "BinValues"]%string = Some (Dat [hi_n h] (hi_values h)).
Proof.
  intros T NT code garbage fld u hs HI HD HH. rewrite (om_new_inv code u HI). set (s0 := mkOM _ _ _ _ _ _ _ _ _ _). exists s0.
  unfold main_calls. cbn [flat_map app].
  destruct (write_hists code garbage fld hs HI HD HH s0) as (s & E & _ & L); [discriminate|reflexivity|intros; reflexivity|]. exists s. auto.
Qed.
Print Assumptions C84_distinct_names.
Example C84_case : exists h1 h2 : hist R, hi_name h1 <> hi_name h2 /\ path (hi_name h1) = path (hi_name h2) /\ NoDup (map hi_name [h1]).
Proof. exists (mkH "a" "Electron" "Energy" 0 0 0 [] [])%R, (mkH "a/" "Electron" "Energy" 0 0 0 [] [])%R. split; [discriminate|]. split; [reflexivity|]. repeat constructor. intros []. Qed.

(** ** C83: one flag for two groups *)
Section Shared.
Context {T : Type} `{Num T}.
Variable code : objinfo.
Variable garbage : T.
Variable fld : field T.
Definition off (g : string) : Prop :=
  (exists a r, path g = a :: r /\ a <> "Particles"%string) \/ (exists b r, path g = "Particles"%string :: b :: r /\ b <> "ParticleTrack"%string).
Lemma off_app g x : off g -> off (g ++ String "/" x).
Proof.
  change (String "/" x) with ("/" ++ x)%string.
  intros [(a & r & E & N)|(b & r & E & N)]; [left; exists a, (r ++ path x)%list|right; exists b, (r ++ path x)%list]; rewrite path_app, E; auto.
Qed.
Lemma off_ne g q : off g -> ["Particles"; "ParticleTrack"]%string ++ q <> path g.
Proof. intros [(a & r & E & N)|(b & r & E & N)] HX; rewrite E in HX; cbn [app] in HX; injection HX; intros; congruence. Qed.
Definition nt (s : om T) : Prop := om_list s = true /\ forall q, lookup (f_tree (om_file s)) (["Particles"; "ParticleTrack"]%string ++ q) = None.
Lemma nt_group s g s' : off g -> o_group code s g = Ok s' -> nt s -> nt s'.
Proof.
  intros HO HX [A B]. split; [apply o_group_rest in HX; destruct HX; congruence|]. intros q. rewrite (o_group_other code _ _ _ _ HX (off_ne g q HO)). apply B.
Qed.
Lemma nt_array s buf d g s' : off g -> o_array s buf d g = Ok s' -> nt s -> nt s'.
Proof.
  intros HO HX [A B]. split; [apply o_array_rest in HX; destruct HX; congruence|]. intros q. rewrite (o_array_other _ _ _ _ _ _ HX (off_ne g q HO)). apply B.
Qed.
Lemma nt_arrays s g pos mom a b ti ga s' : off g -> out_arrays s g pos mom a b ti ga = Ok s' -> nt s -> nt s'.
Proof.
  intros HO HX HN. unfold out_arrays in HX. apply bind_ok in HX. destruct HX as (a1 & A1 & HX). apply bind_ok in HX. destruct HX as (a2 & A2 & HX). apply bind_ok in HX. destruct HX as (a3 & A3 & A4).
  eapply nt_array; [apply off_app; exact HO|exact A4|]. eapply nt_array; [apply off_app; exact HO|exact A3|]. eapply nt_array; [apply off_app; exact HO|exact A2|].
  eapply nt_array; [apply off_app; exact HO|exact A1|]. exact HN.
Qed.
Lemma off_list x : off ("Particles/ParticleList" ++ String "/" x).
Proof. apply off_app. right. exists "ParticleList"%string, []. split; [reflexivity|discriminate]. Qed.
Lemma list_from_nt name ps : forall i s s', list_tracks_from code s name i ps = Ok s' -> nt s -> nt s'.
Proof.
  induction ps as [|p ps IH]; intros i s s' HX HN; cbn [list_tracks_from] in HX; [congruence|]. destruct (negb (p_tracking p)); [discriminate|]. cbv zeta in HX.
  assert (HO : off ("Particles/ParticleList/" ++ name ++ "/" ++ to_string i)) by apply (off_list (name ++ "/" ++ to_string i)).
  revert HX HO. generalize ("Particles/ParticleList/" ++ name ++ "/" ++ to_string i)%string. intros g HX HO.
  apply bind_ok in HX. destruct HX as (s1 & H1 & HX). apply bind_ok in HX. destruct HX as (s2 & H2 & HX). apply IH in HX; [exact HX|]. eapply nt_arrays; eauto. eapply nt_group; eauto.
Qed.
(** with the flag set and no group, tracks cannot be written *)
Lemma nt_tracks ts s s' : nt s -> ts <> [] -> output_tracks_from code s 0 ts <> Ok s'.
Proof.
  intros [_ HN] HT HX. destruct ts as [|k ts]; [contradiction|]. cbn [output_tracks_from] in HX. cbv zeta in HX.
  pose proof (path_ev 0) as PE. revert HX PE. generalize ("Particles/ParticleTrack/Event" ++ to_string 0)%string. intros g HX PE.
  apply bind_ok in HX. destruct HX as (s1 & H1 & HX). apply bind_ok in HX. destruct HX as (s2 & H2 & _).
  assert (HE : lookup (f_tree (om_file s1)) (tpath 0) = None).
  { unfold o_group, add_group in H1. apply bind_ok in H1. destruct H1 as (f & H1 & HZ). injection HZ; intros <-. cbn [with_file om_file].
    apply bind_ok in H1. destruct H1 as (gp & _ & H1). destruct (Bool.eqb _ false); [|injection H1; intros <-; apply (HN [ev 0])].
    apply bind_ok in H1. destruct H1 as (t & H1 & _). apply create_ok in H1. destruct H1 as (_ & H1 & _). rewrite PE in H1. unfold tpath in H1. cbn [removelast is_group] in H1.
    pose proof (HN []) as HN0. cbn [app] in HN0. unfold is_group in H1. rewrite HN0 in H1. discriminate. }
  unfold out_arrays in H2. apply bind_ok in H2. destruct H2 as (a & H2 & _). unfold o_array, add_array in H2. apply bind_ok in H2. destruct H2 as (f & H2 & _).
  apply bind_ok in H2. destruct H2 as (t & H2 & _). apply create_ok in H2. destruct H2 as (_ & H2 & _). change "/Position"%string with ("/" ++ "Position")%string in H2.
  rewrite path_app, PE in H2. change (path "Position") with ["Position"%string] in H2. rewrite removelast_last in H2. unfold is_group in H2. cbn [tpath] in H2. fold (tpath 0) in H2. rewrite HE in H2. discriminate.
Qed.
Lemma nt_exec o s s' : exec code garbage fld s o = Ok s' -> nt s -> nt s' /\ (forall a, o = OEvents a true -> om_tracks s = []).
Proof.
  intros HX HN. split; [|intros a ->].
  2:{ cbn [exec] in HX. unfold output_events in HX. apply bind_ok in HX. destruct HX as (s1 & H1 & HX). unfold output_track in HX.
      assert (N1 : nt s1 /\ om_tracks s1 = om_tracks s).
      { destruct a; [|injection H1; intros <-; auto]. split; [|apply output_source_tracks in H1; apply H1]. unfold output_source in H1.
        assert (HO : forall x, off ("Particles/ParticleSource" ++ String "/" x)) by (intros x; apply off_app; right; exists "ParticleSource"%string, []; split; [reflexivity|discriminate]).
        apply bind_ok in H1. destruct H1 as (x & X1 & H1). apply bind_ok in H1. destruct H1 as (pb & _ & H1). apply bind_ok in H1. destruct H1 as (x2 & X2 & H1).
        apply bind_ok in H1. destruct H1 as (eb & _ & H1). apply bind_ok in H1. destruct H1 as (qb & _ & H1). apply bind_ok in H1. destruct H1 as (gb & _ & H1).
        apply bind_ok in H1. destruct H1 as (x3 & X3 & H1). apply bind_ok in H1. destruct H1 as (x4 & X4 & X5).
        assert (S0 : nt x). { destruct (om_source s); [injection X1; intros <-; auto|]. apply bind_ok in X1. destruct X1 as (y & Y1 & X1). injection X1; intros <-.
          assert (nt y) by (eapply nt_group; [|exact Y1|exact HN]; right; exists "ParticleSource"%string, []; split; [reflexivity|discriminate]). exact H0. }
        assert (SP : forall z tb bf nm z', out_species z tb bf nm = Ok z' -> nt z -> nt z').
        { intros z tb bf nm z' HZ HNz. unfold out_species in HZ. destruct (Z.ltb _ _); [|congruence]. eapply nt_array; [apply (HO nm)|exact HZ|exact HNz]. }
        eapply SP; [exact X5|]. eapply SP; [exact X4|]. eapply SP; [exact X3|]. eapply nt_array; [apply (HO "Primary"%string)|exact X2|exact S0]. }
      destruct N1 as [N1 E1]. rewrite (proj1 N1) in HX. cbn [bind] in HX. destruct (om_tracks s) as [|k ts] eqn:ET; [auto|]. exfalso. rewrite E1 in HX. eapply nt_tracks; [exact N1| |exact HX]. discriminate. }
  assert (ONCE : forall x g w x', off g -> (forall y, nt y -> nt (w y)) -> forall b : bool, (if b then Ok x else let* y := o_group code x g in Ok (w y)) = Ok x' -> nt x -> nt x').
  { intros x g w x' HO HW b HY HNx. destruct b; [congruence|]. apply bind_ok in HY. destruct HY as (y & HY & HZ). injection HZ; intros <-. apply HW. eapply nt_group; eauto. }
  assert (HOS : forall x, off ("Particles/Single" ++ String "/" x)) by (intros x; apply off_app; right; exists "Single"%string, []; split; [reflexivity|discriminate]).
  assert (HOL : off "Particles/ParticleList") by (right; exists "ParticleList"%string, []; split; [reflexivity|discriminate]).
  destruct o as [p name|l name|l name|n|l id|l id|l id|a b|ts xs ys zs|h]; cbn [exec] in HX.
  - unfold single_particle in HX. apply bind_ok in HX. destruct HX as (s1 & H1 & HX). eapply ONCE in H1; [|right; exists "Single"%string, []; split; [reflexivity|discriminate]|auto|auto].
    destruct (negb (p_tracking p)); [discriminate|]. cbv zeta in HX. apply bind_ok in HX. destruct HX as (ms & _ & HX). apply bind_ok in HX. destruct HX as (s2 & H2 & HX).
    eapply nt_arrays; [apply (HOS name)|exact HX|]. eapply nt_group; [apply (HOS name)|exact H2|exact H1].
  - unfold list_tracks in HX. apply bind_ok in HX. destruct HX as (s1 & H1 & HX). eapply ONCE in H1; [|exact HOL|intros y [_ HY]; split; [reflexivity|exact HY]|auto].
    apply bind_ok in HX. destruct HX as (s2 & H2 & HX). eapply list_from_nt; [exact HX|]. eapply nt_group; [apply (off_list name)|exact H2|exact H1].
  - unfold list_properties in HX. apply bind_ok in HX. destruct HX as (s1 & H1 & HX). eapply ONCE in H1; [|exact HOL|intros y [_ HY]; split; [reflexivity|exact HY]|auto].
    cbv zeta in HX. apply bind_ok in HX. destruct HX as (s2 & H2 & HX). eapply nt_array; [|exact HX|eapply nt_group; [apply (off_list (pl_name l))|exact H2|exact H1]].
    apply off_app. apply (off_list (pl_name l)).
  - injection HX; intros <-. exact HN.
  - unfold store_primary in HX. apply bind_ok in HX. destruct HX as (p & _ & HX). apply bind_ok in HX. destruct HX as (q & _ & HX). injection HX; intros <-. exact HN.
  - unfold store_final in HX. apply bind_ok in HX. destruct HX as (p & _ & HX). apply bind_ok in HX. destruct HX as (q & _ & HX). apply bind_ok in HX. destruct HX as (r & _ & HX). injection HX; intros <-. exact HN.
  - injection HX; intros <-. exact HN.
  - unfold output_events in HX. apply bind_ok in HX. destruct HX as (s1 & H1 & HX).
    assert (N1 : nt s1).
    { destruct a; [|injection H1; intros <-; auto]. unfold output_source in H1.
      assert (HO : forall x, off ("Particles/ParticleSource" ++ String "/" x)) by (intros x; apply off_app; right; exists "ParticleSource"%string, []; split; [reflexivity|discriminate]).
      apply bind_ok in H1. destruct H1 as (x & X1 & H1). apply bind_ok in H1. destruct H1 as (pb & _ & H1). apply bind_ok in H1. destruct H1 as (x2 & X2 & H1).
      apply bind_ok in H1. destruct H1 as (eb & _ & H1). apply bind_ok in H1. destruct H1 as (qb & _ & H1). apply bind_ok in H1. destruct H1 as (gb & _ & H1).
      apply bind_ok in H1. destruct H1 as (x3 & X3 & H1). apply bind_ok in H1. destruct H1 as (x4 & X4 & X5).
      eapply ONCE in X1; [|right; exists "ParticleSource"%string, []; split; [reflexivity|discriminate]|auto|auto].
      assert (SP : forall z tb bf nm z', out_species z tb bf nm = Ok z' -> nt z -> nt z').
      { intros z tb bf nm z' HZ HNz. unfold out_species in HZ. destruct (Z.ltb _ _); [|congruence]. eapply nt_array; [apply (HO nm)|exact HZ|exact HNz]. }
      eapply SP; [exact X5|]. eapply SP; [exact X4|]. eapply SP; [exact X3|]. eapply nt_array; [apply (HO "Primary"%string)|exact X2|exact X1]. }
    destruct b; [|injection HX; intros <-; exact N1]. unfold output_track in HX. rewrite (proj1 N1) in HX. cbn [bind] in HX.
    destruct (om_tracks s1) as [|k ts] eqn:ET; [cbn [output_tracks_from] in HX; congruence|]. exfalso. eapply nt_tracks; [exact N1| |exact HX]. discriminate.
  - unfold out_field in HX. assert (D : forall g, off g -> forall x t d x', out_dir garbage fld x g t xs ys zs d = Ok x' -> nt x -> nt x').
    { intros g HO x t d x' HY HNx. unfold out_dir in HY. cbv zeta in HY. apply bind_ok in HY. destruct HY as (e & _ & HY). apply bind_ok in HY. destruct HY as (b & _ & HY).
      apply bind_ok in HY. destruct HY as (x1 & Y1 & HY). eapply nt_array; [|exact HY|eapply nt_array; [|exact Y1|exact HNx]].
      - change ("/B" ++ to_string d)%string with (String "/" ("B" ++ to_string d)). apply off_app; auto.
      - change ("/E" ++ to_string d)%string with (String "/" ("E" ++ to_string d)). apply off_app; auto. }
    assert (G : forall ts i x x', out_field_from code garbage fld x i ts xs ys zs = Ok x' -> nt x -> nt x').
    { induction ts0 as [|t ts0 IH]; intros i x x' HY HNx; cbn [out_field_from] in HY; [congruence|]. cbv zeta in HY.
      assert (HO : off ("Fields" ++ String "/" (to_string i))) by (apply off_app; left; exists "Fields"%string, []; split; [reflexivity|discriminate]).
      change ("Fields/" ++ to_string i)%string with ("Fields" ++ String "/" (to_string i))%string in HY. revert HO HY. generalize ("Fields" ++ String "/" (to_string i))%string. intros g HO HY.
      apply bind_ok in HY. destruct HY as (x1 & Y1 & HY). apply bind_ok in HY. destruct HY as (x2 & Y2 & HY). apply bind_ok in HY. destruct HY as (x3 & Y3 & HY). apply bind_ok in HY. destruct HY as (x4 & Y4 & HY).
      apply IH in HY; [exact HY|]. eapply D; [exact HO|exact Y4|]. eapply D; [exact HO|exact Y3|]. eapply D; [exact HO|exact Y2|]. eapply nt_group; eauto. }
    eapply G; eauto.
  - unfold out_hist in HX. cbv zeta in HX. assert (HO : off ("Histograms" ++ String "/" (hi_name h))) by (apply off_app; left; exists "Histograms"%string, []; split; [reflexivity|discriminate]).
    change ("Histograms/" ++ hi_name h)%string with ("Histograms" ++ String "/" (hi_name h))%string in HX. revert HO HX. generalize ("Histograms" ++ String "/" (hi_name h))%string. intros g HO HX.
    apply bind_ok in HX. destruct HX as (s1 & H1 & HX). apply bind_ok in HX. destruct HX as (s2 & H2 & HX).
    eapply nt_array; [apply off_app; exact HO|exact HX|]. eapply nt_array; [apply off_app; exact HO|exact H2|]. eapply nt_group; eauto.
Qed.
Lemma nt_exec_all os : forall s s', exec_all code garbage fld s os = Ok s' -> nt s -> nt s'.
Proof.
  induction os as [|o os IH]; intros s s' HX HN; cbn [exec_all] in HX; [congruence|]. apply bind_ok in HX. destruct HX as (s1 & H1 & HX).
  eapply IH; [exact HX|]. eapply nt_exec; eauto.
Qed.
End Shared.

(** after a successful ListTracks on a new manager, no non-empty track output succeeds, whatever happens in between *)
Theorem C83_list_then_tracks : forall (T : Type) (NT : Num T) (code : objinfo) (garbage : T) (fld : field T) (u : option (units T)) (s0 s' : om T) l name os1 l' id os2 a os3,
  om_new code u = Ok s0 -> pl_items l' <> [] ->
  exec_all code garbage fld s0 (OListTracks l name :: os1 ++ OTrack l' id :: os2 ++ OEvents a true :: os3) <> Ok s'.
Proof.
  intros T NT code garbage fld u s0 s' l name os1 l' id os2 a os3 HN HL HX.
  assert (N0 : om_list s0 = false /\ forall q, lookup (f_tree (om_file s0)) (["Particles"; "ParticleTrack"]%string ++ q) = None).
  { unfold om_new in HN. cbv zeta in HN. apply bind_ok in HN. destruct HN as (a1 & A1 & HN). apply bind_ok in HN. destruct HN as (a2 & A2 & A3).
    split; [apply o_group_rest in A1, A2, A3; destruct A1 as [_ A1], A2 as [_ A2], A3 as [_ A3]; rewrite A3, A2, A1; reflexivity|].
    intros q. rewrite (o_group_other code _ _ _ _ A3) by discriminate. rewrite (o_group_other code _ _ _ _ A2) by discriminate. rewrite (o_group_other code _ _ _ _ A1) by discriminate. reflexivity. }
  destruct N0 as [L0 N0]. cbn [exec_all exec] in HX. apply bind_ok in HX. destruct HX as (s1 & H1 & HX).
  assert (N1 : nt s1).
  { unfold list_tracks in H1. rewrite L0 in H1. apply bind_ok in H1. destruct H1 as (x & X1 & H1). apply bind_ok in X1. destruct X1 as (y & Y1 & X1). injection X1; intros <-. apply bind_ok in H1. destruct H1 as (x2 & X2 & H1).
    eapply list_from_nt; [exact H1|]. eapply nt_group; [apply (off_list name)|exact X2|]. split; [reflexivity|]. intros q. cbn [with_list om_file].
    rewrite (o_group_other code _ _ _ _ Y1) by discriminate. apply N0. }
  apply prefix_ok in HX. destruct HX as (s2 & H2 & HX). apply nt_exec_all in H2; [|exact N1]. cbn [exec_all exec bind] in HX. apply prefix_ok in HX. destruct HX as (s3 & H3 & HX).
  assert (N3 : nt s3) by (eapply nt_exec_all; [exact H3|]; exact H2).
  assert (T3 : om_tracks s3 <> []).
  { eapply tracks_grow_all; [exact H3|]. cbn [store_track with_tracks om_tracks]. intros HE. apply app_eq_nil in HE. destruct HE as [_ HE]. apply map_eq_nil in HE. auto. }
  cbn [exec_all] in HX. apply bind_ok in HX. destruct HX as (s4 & H4 & _). destruct (nt_exec code garbage fld _ _ _ H4 N3) as [_ HT]. apply T3. eapply HT. reflexivity.
Qed.
Print Assumptions C83_list_then_tracks.
Example C83_case : exec_all ex_code 7%R (fun _ _ => (mkV 0 0 0, mkV 0 0 0))%R (ex_om None)
    [OListTracks (ex_fin 0) "run"; OTrack (ex_fin 0) 0; OEvents false true] = Throw /\
  (exists s, exec_all ex_code 7%R (fun _ _ => (mkV 0 0 0, mkV 0 0 0))%R (ex_om None) [OTrack (ex_fin 0) 0; OEvents false true] = Ok s) /\
  om_new ex_code (T := R) None = Ok (ex_om None).
Proof. split; [vm_compute; reflexivity|]. split; [eexists; vm_compute; reflexivity|]. apply om_new_inv. split; [discriminate|reflexivity]. Qed.
