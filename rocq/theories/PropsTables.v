(** * The tables that Python reads: C73 *)
From Coq Require Import String ZArith List Bool Lia Permutation Reals Lra SpecFloat.
From Verif Require Import Num RNum Outcome OutcomeFacts Vec Units MCTools Particle ParticleList ParticleFacts Source SourceFacts
  Fields Pusher Process ProcessFacts Sim SimFacts RunManager RunFacts PropsRun.
Import ListNotations.
Local Open Scope string_scope.
Local Open Scope list_scope.

(** ** Specification *)
Section Spec.
Context {T : Type} `{Num T}.

(** Initial and final particles of one event. *)
Definition history := (list (particle T) * list (particle T))%type.

(** SI momentum, SI position. *)
Definition spec_row6 (p : particle T) : list T :=
  map (fun x => nmul x (ref_momentum si_units)) [vx (p_mom p); vy (p_mom p); vz (p_mom p)] ++
  map (fun x => nmul x (ref_length si_units)) [vx (p_pos p); vy (p_pos p); vz (p_pos p)].
Definition spec_row7 (p : particle T) : list T := spec_row6 p ++ [p_weight p].

Definition called (name : string) (p : particle T) : bool := if string_dec (p_name p) name then true else false.

Definition spec_table (tb : table) (evs : list history) : list (list T) :=
  match tb with
  | TInput => map spec_row6 (flat_map fst evs)
  | TElectron => map spec_row7 (filter (called "Electron") (flat_map snd evs))
  | TPositron => map spec_row7 (filter (called "Positron") (flat_map snd evs))
  | TPhoton => map spec_row7 (filter (called "Photon") (flat_map snd evs))
  end.

(** Events simulated one after the other with one random number stream. *)
Variable E : Engine T.
Inductive simulated (fuel : nat) (w : world T) (tEnd : T) : source T -> est E -> list history -> est E -> Prop :=
| sim_nil : forall s g, simulated fuel w tEnd s g [] g
| sim_cons : forall s g l s1 g1 st evs g2,
    generate_list E s g = Ok (l, s1, g1) ->
    time_loop E w [] (fun _ _ _ (h : unit) => Ok h) fuel tEnd (mkSt n0 l g1 0 tt) = Ok st ->
    simulated fuel w tEnd s1 (st_rng _ st) evs g2 ->
    simulated fuel w tEnd s g ((pl_items l, pl_items (st_ev _ st)) :: evs) g2.

(** The three charges can be told apart. *)
Definition charges_differ : Prop :=
  neqb (nlit (-1) 0 : T) (nlit (-1) 0) = true /\ neqb (n0 : T) (nlit (-1) 0) = false /\ neqb (n0 : T) n0 = true /\
  neqb (n1 : T) (nlit (-1) 0) = false /\ neqb (n1 : T) n0 = false /\ neqb (n1 : T) n1 = true.

(** Name and charge agree. *)
Definition identified (p : particle T) : Prop :=
  (p_name p = "Electron" /\ p_charge p = nlit (-1) 0) \/ (p_name p = "Photon" /\ p_charge p = n0) \/
  (p_name p = "Positron" /\ p_charge p = n1).
End Spec.

Lemma charges_differ_R : charges_differ (T := R).
Proof.
  split; [exact neqb_neg_R|]. split; [rnum; apply Reqb_false; lra|]. split; [rnum; apply Reqb_true; lra|].
  split; [exact neqb_pos_R|]. split; [rnum; apply Reqb_false; lra|rnum; apply Reqb_true; lra].
Qed.
Lemma charges_differ_F64 (L : Libm) : @charges_differ _ (Num_F64 L).
Proof. repeat split; vm_compute; reflexivity. Qed.

(** ** Proofs *)
Section Proofs.
Context {T : Type} `{NT : Num T}.
Hypothesis CD : charges_differ (T := T).
Variable E : Engine T.

Lemma identified_same (p p' : particle T) : same_identity p p' -> identified p -> identified p'.
Proof. intros (_ & N & _ & C & _). unfold identified. now rewrite N, C. Qed.

Lemma births_identified (p p' : particle T) news : births p p' news -> Forall identified news.
Proof.
  destruct CD as (C1 & _ & _ & C4 & _ & _).
  intros (_ & [[-> _]|[(ph & -> & (_ & N & _ & C) & _)|(a & b & -> & (_ & Na & _ & Ca) & (_ & Nb & _ & Cb) & _)]]).
  - constructor.
  - constructor; [|constructor]. right. left. auto.
  - constructor; [|constructor; [|constructor]].
    + right. right. rewrite Na. unfold lepton_name. rewrite C4. auto.
    + left. rewrite Nb. unfold lepton_name. rewrite C1. auto.
Qed.

Lemma loop_identified (w : world T) fuel tEnd l g st :
  time_loop E w [] (fun _ _ _ (h : unit) => Ok h) fuel tEnd (mkSt n0 l g 0 tt) = Ok st ->
  Forall identified (pl_items l) -> Forall identified (pl_items (st_ev _ st)).
Proof.
  intros X HI.
  assert (HC : forall k (l : event T) p p' st lo l', change k l p p' st lo l' -> same_identity p p' ->
     Forall identified st -> Forall identified (pl_items l) -> Forall identified (pl_items l')).
  { intros k l0 p p' sto lo l' (A & -> & _) HN HST HKl. apply Forall_app. split; [|exact HST].
    rewrite Forall_forall in HKl |- *. intros q HQ. apply In_nth_error in HQ. destruct HQ as (i & HQ).
    destruct (Nat.eq_dec i k) as [->|NE].
    - rewrite nth_error_upd_same in HQ by (apply nth_error_Some; congruence). injection HQ; intros <-.
      eapply identified_same; [exact HN|]. apply HKl. eapply nth_error_In; eauto.
    - rewrite nth_error_upd_other in HQ by auto. apply HKl. eapply nth_error_In; eauto. }
  apply (lift_loop E w (fun a b => Forall identified (pl_items (fst a)) -> Forall identified (pl_items (fst b)))) in X;
    [apply X; exact HI| | | |].
  - intros a HA. exact HA.
  - intros a b c HAB HBC HA. auto.
  - intros k l0 g0 p HP. cbn [fst]. eapply HC; [apply push_change; eauto| |constructor]. apply push_evolved.
  - intros k pr l0 g0 l' g' _ HP. apply call_process_change in HP.
    destruct HP as (_ & p & p' & sto & lo & HCh & HB & HId & _). cbn [fst].
    eapply HC; [exact HCh|exact HId|]. apply births_identified in HB. apply Forall_app in HB. apply HB.
Qed.

Lemma generate_one (s : source T) g l s1 g1 : generate_list E s g = Ok (l, s1, g1) ->
  exists p, pl_items l = [p] /\ identified p /\ s1 = with_count s (u32 (s_count s + 1)).
Proof.
  destruct CD as (C1 & _ & _ & C4 & _ & _).
  unfold generate_list. destruct (_ =? _)%Z; [discriminate|]. intros X.
  do 6 (apply bind_ok in X; destruct X as [? [_ X]]).
  apply bind_ok in X. destruct X as [[p g'] [Q X]].
  inversion X; subst. clear X. exists p. split; [reflexivity|]. split; [|reflexivity].
  unfold make_primary in Q.
  unfold new_photon_energy, new_lepton_energy, new_particle in Q.
  repeat match type of Q with context [let '(_, _) := ?z in _] => destruct z end.
  destruct (is_name _ _ _); [inversion Q; subst; right; left; split; reflexivity|].
  destruct (is_name _ _ _); [inversion Q; subst; left; cbn; unfold lepton_name; rewrite C1; auto|].
  destruct (is_name _ _ _); [inversion Q; subst; right; right; cbn; unfold lepton_name; rewrite C4; auto|discriminate].
Qed.

Definition sound_event (e : history (T := T)) : Prop :=
  (exists p, fst e = [p]) /\ Forall identified (snd e).

Lemma serial_spec fuel (w : world T) tEnd : forall n s (t : tables T) g t' g', shape 1 t ->
  serial_events E fuel n w tEnd s t g = Ok (t', g') ->
  exists evs, length evs = n /\ simulated E fuel w tEnd s g evs g' /\ Forall sound_event evs /\ shape 1 t' /\
    forall tb, buffer tb t' 0 = buffer tb t 0 ++ concat (flat_map (event_rows tb) evs).
Proof.
  induction n as [|n IH]; intros s t g t' g' Sh X; cbn [serial_events] in X.
  - inversion X; subst. exists []. split; [reflexivity|]. split; [constructor|]. split; [constructor|]. split; [exact Sh|].
    intros tb. cbn. now rewrite app_nil_r.
  - apply bind_ok in X. destruct X as [[[l s1] g1] [G X]].
    destruct (do_pushes_ok 1 0 (input_pushes (pl_items l)) t Sh) as (t1 & P1 & S1 & B1); [lia|]. rewrite P1 in X. cbn [bind] in X.
    apply bind_ok in X. destruct X as [st [TL X]].
    destruct (do_pushes_ok 1 0 (final_pushes (pl_items (st_ev E st))) t1 S1) as (t2 & P2 & S2 & B2); [lia|]. rewrite P2 in X. cbn [bind] in X.
    destruct (IH _ _ _ _ _ S2 X) as (evs & Ln & Sim & Snd & S3 & B3).
    exists ((pl_items l, pl_items (st_ev E st)) :: evs). split; [cbn; auto|]. split; [econstructor; eauto|].
    destruct (generate_one s g l s1 g1 G) as (p & Lp & Ip & _).
    split; [constructor; [|exact Snd]; split; [exists p; exact Lp|]; cbn [snd]; eapply loop_identified; [exact TL|]; rewrite Lp; auto|].
    split; [exact S3|]. intros tb. rewrite B3, B2, B1. cbn [Nat.eqb flat_map]. rewrite concat_app, <- values_event, values_app, <- !app_assoc. reflexivity.
Qed.

Lemma called_goes (p : particle T) : identified p ->
  goes_to TElectron p = called "Electron" p /\ goes_to TPositron p = called "Positron" p /\ goes_to TPhoton p = called "Photon" p.
Proof.
  destruct CD as (C1 & C2 & C3 & C4 & C5 & C6). unfold goes_to, final_table, called.
  intros [[-> ->]|[[-> ->]|[-> ->]]]; rewrite ?C1, ?C2, ?C3, ?C4, ?C5, ?C6; auto.
Qed.

Lemma filter_ext_Forall {A} (f g : A -> bool) l : Forall (fun a => f a = g a) l -> filter f l = filter g l.
Proof. induction 1 as [|a l Ha _ IH]; [reflexivity|]. cbn. now rewrite Ha, IH. Qed.

Lemma rows_spec_table tb evs : Forall sound_event evs -> flat_map (event_rows tb) evs = spec_table tb evs.
Proof.
  induction 1 as [|e evs [_ He] _ IH]; [now destruct tb|]. cbn [flat_map]. rewrite IH.
  destruct tb; cbn [spec_table flat_map event_rows]; rewrite ?filter_app, map_app; f_equal;
    (f_equal; apply filter_ext_Forall; eapply Forall_impl; [|exact He]; intros p Hp; apply called_goes; exact Hp).
Qed.

Lemma sound_total evs : Forall sound_event evs ->
  length (spec_table TInput evs) = length evs /\
  Permutation (spec_table TElectron evs ++ spec_table TPositron evs ++ spec_table TPhoton evs) (map spec_row7 (flat_map snd evs)).
Proof.
  intros F. split.
  - cbn. rewrite map_length. induction F as [|e evs [[p Hp] _] _ IH]; [reflexivity|]. cbn. rewrite Hp. cbn. now rewrite IH.
  - cbn [spec_table]. rewrite <- !map_app. apply Permutation_map.
    assert (Fi : Forall identified (flat_map snd evs)).
    { induction F as [|e evs [_ He] _ IH]; [constructor|]. cbn. apply Forall_app. auto. }
    clear F. induction Fi as [|p ps Hp _ IH]; [constructor|].
    assert (Hc : forall nm, called nm p = if string_dec (p_name p) nm then true else false) by reflexivity.
    cbn [filter]. rewrite !Hc. destruct Hp as [[-> _]|[[-> _]|[-> _]]]; cbn.
    + constructor. exact IH.
    + rewrite app_assoc. eapply Permutation_trans; [symmetry; apply Permutation_middle|]. constructor. rewrite <- app_assoc. exact IH.
    + eapply Permutation_trans; [symmetry; apply Permutation_middle|]. constructor. exact IH.
Qed.

(** ** C73 *)
Variable load_em : res (em_tables T).
Variable load_bw : res (bw_tables T).

(** In the build without OpenMP a beamOn that passes its checks and ends normally simulates the requested number of
    events (modulo 2^32) one after the other; the tables then hold one 6-column row per event and one 7-column row per
    final particle, each in the table of its species, and nothing of earlier runs. *)
Theorem C73_serial_tables : forall fuel n m g m' g' b,
  set_up m = true -> beam_on E load_em load_bw (serial_loop E fuel) false n 1 m g = Ok (m', g', b) ->
  exists w src g0 evs, build_world load_em load_bw m = Ok w /\ build_source E m n g = Ok (src, g0) /\ b = false /\
    simulated E fuel w (m_timeEnd m) src g0 evs g' /\ Z.of_nat (length evs) = (n mod 2 ^ 32)%Z /\
    (forall tb, get_table tb m' = spec_table tb evs /\ Forall (fun r => length r = width tb) (get_table tb m')) /\
    length (get_table TInput m') = length evs /\
    Permutation (get_table TElectron m' ++ get_table TPositron m' ++ get_table TPhoton m') (map spec_row7 (flat_map snd evs)).
Proof.
  intros fuel n m g m' g' b Su X. unfold beam_on in X. cbn [negb Z.eqb Pos.eqb andb] in X.
  apply bind_ok in X. destruct X as [? [_ X]]. apply bind_ok in X. destruct X as [? [_ X]].
  apply bind_ok in X. destruct X as [? [_ X]]. rewrite Su in X.
  apply bind_ok in X. destruct X as [w [Bw X]]. apply bind_ok in X. destruct X as [[src g0] [Bs X]].
  cbn [Z.ltb Z.compare fst snd] in X. apply bind_ok in X. destruct X as [[t g1] [L X]]. inversion X; subst. clear X.
  unfold serial_loop in L. apply serial_spec in L; [|apply empty_shape].
  destruct L as (evs & Ln & Sim & Snd & Sh & B).
  exists w, src, g0, evs. split; [exact Bw|]. split; [exact Bs|]. split; [reflexivity|]. split; [exact Sim|].
  assert (Nn : s_nPart src = (n mod 2 ^ 32)%Z).
  { unfold build_source in Bs. destruct (m_genPar m) as [p|]; [|discriminate]. inversion Bs as [Q].
    apply (f_equal fst) in Q. cbn [fst] in Q. rewrite <- Q. unfold new_source.
    repeat match goal with |- context [let '(_, _) := ?x in _] => destruct x end. reflexivity. }
  split. { rewrite Ln, Nn, Z2Nat.id; [reflexivity|]. apply Z.mod_pos_bound. lia. }
  assert (Tb : forall tb, get_table tb (with_pointers Live Live Live (m_lost m + length (w_procs w)) t m) = spec_table tb evs).
  { intros tb. rewrite <- (rows_spec_table tb evs Snd). unfold get_table.
    change (match tb with TInput => 6 | _ => 7 end) with (width tb).
    apply to_array_rows; [destruct tb; simpl; lia|apply rows_width|].
    cbn [with_pointers m_tables fst]. specialize (B tb). rewrite empty_buffer in B. cbn [app] in B. rewrite <- B.
    specialize (Sh tb). unfold buffer. destruct (of_table tb t) as [|b1 [|b2 r]]; try discriminate. cbn. now rewrite app_nil_r. }
  split. { intros tb. split; [apply Tb|]. rewrite Tb, <- (rows_spec_table tb evs Snd). apply rows_width. }
  rewrite !Tb. apply sound_total. exact Snd.
Qed.

(** With OpenMP: however the events are distributed over the threads and however their steps interleave, no
    vector is accessed out of range, the loop can always go on until all events are done, and then each table
    holds a permutation of the rows of all events; for events whose particles carry names and charges that agree
    this is the same specification as without OpenMP. *)
Theorem C73_any_assignment : forall (evs : list (history (T := T))) plan sched r,
  Permutation (concat plan) (seq 0 (length evs)) -> Forall sound_event evs ->
  threads_run sched (threads_start evs plan) = Some r ->
  exists s, r = Ok s /\ (~ threads_done s -> exists tid r', threads_step tid s = Some r') /\
    (threads_done s -> forall tb,
       Permutation (to_array (width tb) (of_table tb (snd s))) (spec_table tb evs)).
Proof.
  intros evs plan sched r P Snd X.
  destruct (threads_run_facts (length plan) sched (threads_start evs plan) r) as (s & -> & _ & _ & _);
    [apply empty_shape|unfold threads_start; cbn [fst]; apply map_length|exact X|].
  exists s. split; [reflexivity|]. split; [apply threads_progress|]. intros D tb.
  rewrite (threads_finished evs plan sched (Ok s) s X); [|intros s' Q; inversion Q; subst; exact D|reflexivity].
  rewrite <- (rows_spec_table tb evs Snd), <- (seq_rows evs tb). unfold plan_rows. now apply Permutation_flat_map.
Qed.
End Proofs.
Print Assumptions C73_serial_tables.
Print Assumptions C73_any_assignment.

(** The events of a run are sound in that sense. *)
Theorem C73_events_sound : forall {T} `{Num T} (E : Engine T) fuel (w : world T) tEnd src g evs g',
  charges_differ (T := T) -> simulated E fuel w tEnd src g evs g' -> Forall sound_event evs.
Proof.
  intros T HT E fuel w tEnd src g evs g' CD X.
  induction X as [|s g l s1 g1 st evs g2 G L X IH]; [constructor|]. constructor; [|exact IH].
  destruct (generate_one CD E s g l s1 g1 G) as (p & Lp & Ip & _).
  split; [exists p; exact Lp|]. cbn [snd]. eapply loop_identified; [exact CD|exact L|]. rewrite Lp. auto.
Qed.
Print Assumptions C73_events_sound.

(** ** Concrete sessions, in binary64 *)
Definition c_libm : Libm := Build_Libm (fun x => x) (fun x => x) (fun x => x) (fun _ _ => f64_lit 1 0)
  (fun _ => f64_lit 0 0) (fun _ => f64_lit 1 0) (fun x => x).
Definition c_engine : Engine spec_float :=
  mkEngine _ unit (fun g => (f64_lit 5 (-1), g)) (fun n g => (repeat (f64_lit 0 0) n, g)).
Definition c_em : em_tables spec_float := mkEmT [] [] 0 [] [] [] 0 0.
Definition c_vec (x y z : Z) : vec spec_float := mkV (f64_lit x 0) (f64_lit y 0) (f64_lit z 0).
Definition c_setup (physics : string) : list (call spec_float) :=
  [SetTime (f64_lit 1 (-15)) (f64_lit 25 (-16));
   SetField "gaussian" (f64_lit 1 0) (f64_lit 8 (-7)) (f64_lit 1 (-14)) (f64_lit 2 (-6)) (f64_lit 0 0) (c_vec 0 0 (-1)) (c_vec 0 0 0);
   SetPhysics physics;
   SetGenerator "photon" "mono" (f64_lit 1 (-10)) (f64_lit 0 0) (f64_lit 0 0) (f64_lit 0 0) (f64_lit 0 0) (c_vec 0 0 0) (c_vec 0 0 1)].
Definition c_session (cs : list (call spec_float)) :=
  @session _ (Num_F64 c_libm) c_engine (Ok c_em) Throw (@serial_loop _ (Num_F64 c_libm) c_engine 10) false cs tt.

Definition c_bad_field : call spec_float :=
  SetField "static" (f64_lit 1 0) (f64_lit 8 (-7)) (f64_lit 1 (-14)) (f64_lit 2 (-6)) (f64_lit 0 0) (c_vec 0 0 (-1)) (c_vec 0 0 0).

(** two photons, three time steps: the session ends well, two rows in two tables, none in the others, one process lost *)
Definition rows_seen (x : res (list (seen spec_float) * nat)) : option (list (option (list nat)) * nat) :=
  match x with
  | Ok (l, k) => Some (map (fun s => match s with Table r => Some (map (@length _) r) | _ => None end) l, k)
  | _ => None
  end.
Example C73_case : rows_seen (c_session (c_setup "Quantum" ++ [BeamOn 2 1; Get TInput; Get TElectron; Get TPositron; Get TPhoton])) =
  Some ([None; None; None; None; None; Some [6; 6]; Some []; Some []; Some [7; 7]], 1).
Proof. vm_compute. reflexivity. Qed.

(** the events of two threads, one of them idle, under a schedule *)
Example C73_threads_case :
  let p := mkP PPhoton "Photon" (f64_lit 0 0) (f64_lit 0 0) (f64_lit 1 0) (f64_lit 0 0) (f64_lit 0 0) false true (c_vec 0 0 0) (c_vec 1 0 0) [] [] [] [] in
  let e := mkP PLepton "Electron" (f64_lit 1 0) (f64_lit (-1) 0) (f64_lit 1 0) (f64_lit 0 0) (f64_lit 0 0) false true (c_vec 0 0 0) (c_vec 2 0 0) [] [] [] [] in
  let evs := [([p], [p]); ([e], [e; p])] in
  Permutation (concat [[1]; []; [0]]) (seq 0 (length evs)) /\ Forall (@sound_event _ (Num_F64 c_libm)) evs /\
  exists s, @threads_run _ (repeat 2 13 ++ repeat 0 20) (@threads_start _ (Num_F64 c_libm) evs [[1]; []; [0]]) = Some (Ok s) /\
    threads_done s /\ length (to_array 7 (of_table TPhoton (snd s))) = 2.
Proof.
  split; [apply Permutation_sym; cbn; apply perm_swap|]. split.
  { constructor; [|constructor; [|constructor]]; (split; [eexists; reflexivity|]); repeat apply Forall_cons; try apply Forall_nil;
      unfold identified; cbn; auto. }
  eexists. split; [vm_compute; reflexivity|]. split; [repeat constructor|vm_compute; reflexivity].
Qed.

(** C71: the misspelt name and the quantum model *)
Example C71_case :
  let q := c_setup "Quantum" ++ [BeamOn 2 1; Get TPhoton] in
  let c := c_setup "clasical" ++ [BeamOn 2 1; Get TPhoton] in
  let r := c_setup "classical" ++ [BeamOn 2 1; Get TPhoton] in
  Forall2 same_call q c /\ c_session q = c_session c /\
  rows_seen (c_session c) = Some ([None; None; None; None; None; Some [7; 7]], 1) /\
  rows_seen (c_session r) = Some ([None; None; None; None; None; Some []], 0) /\
  ~ In "classical" physics_names.
Proof.
  cbv zeta. split; [|split; [apply C71_synonyms|split; [vm_compute; reflexivity|split; [vm_compute; reflexivity|]]]].
  1,2: unfold c_setup; cbn [app]; repeat (constructor; [first [now left | right; exists "Quantum", "clasical"; unfold synonyms; cbn; auto 10]|]); constructor.
  cbn. intuition discriminate.
Qed.

(** C72: an invalid field name between two runs *)
Example C72_case :
  let good := c_setup "Quantum" ++ [BeamOn 1 1; BeamOn 2 1] in
  let bad := c_setup "Quantum" ++ [BeamOn 1 1; c_bad_field; BeamOn 1 1] in
  rows_seen (c_session good) = Some ([None; None; None; None; None; None], 2) /\ c_session bad = UB DoubleFree.
Proof. cbv zeta. split; vm_compute; reflexivity. Qed.

(** C90: two runs, the second with pair production *)
Example C90_case :
  match @session _ (Num_F64 c_libm) c_engine (Ok c_em) (Ok (mkBwT [] [] 0 [] [] [] 0)) (@serial_loop _ (Num_F64 c_libm) c_engine 10) false
    (c_setup "Quantum" ++ [BeamOn 1 1; UsePairProduction true; BeamOn 0 1]) tt with Ok (_, k) => k = 3 | _ => False end.
Proof. vm_compute. reflexivity. Qed.
