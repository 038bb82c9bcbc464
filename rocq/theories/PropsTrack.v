(** * Property C101: recording tracks has no influence on the physics *)
From Coq Require Import String ZArith List Bool Lia.
From Verif Require Import Num Outcome OutcomeFacts Vec Units MCTools Particle ParticleList Source Fields Pusher Process Sim Histogram Hdf5 Output
  PropsOut PropsTables Program PropsProgram TrackFacts TrackFile.
From Verif Require FileParser IniReader Text.
Import ListNotations.
Local Open Scope string_scope.
Local Open Scope list_scope.

(** ** Specification: the same up to the recording of tracks *)
(** everything but the tracking flag and the four histories *)
Definition same_physics {T} (p q : particle T) : Prop :=
  p_type p = p_type q /\ p_name p = p_name q /\ p_mass p = p_mass q /\ p_charge p = p_charge q /\ p_weight p = p_weight q /\
  p_time p = p_time q /\ p_depth p = p_depth q /\ p_alive p = p_alive q /\ p_pos p = p_pos q /\ p_mom p = p_mom q.
Definition same_event {T} (l m : event T) : Prop :=
  pl_name l = pl_name m /\ pl_max l = pl_max m /\ Forall2 same_physics (pl_items l) (pl_items m) /\ Forall2 same_physics (pl_lost l) (pl_lost m).
Definition same_emission {T} (c d : em_cfg T) : Prop :=
  em_field c = em_field d /\ em_dt c = em_dt d /\ em_frac c = em_frac d /\ em_eMin c = em_eMin d /\ em_tab c = em_tab d.
Definition same_process {T} (a b : process T) : Prop :=
  match a, b with
  | Stochastic c, Stochastic d => same_emission c d
  | Continuous c k, Continuous d k' => same_emission c d /\ k = k'
  | BreitWheeler c, BreitWheeler d => bw_field c = bw_field d /\ bw_dt c = bw_dt d /\ bw_tab c = bw_tab d
  | _, _ => False
  end.
Definition same_world {T} (w v : world T) : Prop :=
  w_force w = w_force v /\ w_field w = w_field v /\ w_dt w = w_dt v /\ Forall2 same_process (w_procs w) (w_procs v).
(** the same outcome: both fail in the same way, or both give a state with the same clock, random numbers and fillings and the same event *)
Definition same_outcome {T} (E : Engine T) {S} (x y : res (state E S)) : Prop :=
  match x, y with
  | Ok s, Ok t => st_time E s = st_time E t /\ st_rng E s = st_rng E t /\ st_hc E s = st_hc E t /\ st_hist E s = st_hist E t /\ same_event (st_ev E s) (st_ev E t)
  | Exit a, Exit b => a = b
  | Throw, Throw => True
  | UB a, UB b => a = b
  | Fuel, Fuel => True
  | _, _ => False
  end.

Lemma same_erase {T} (p q : particle T) : same_physics p q <-> erase p = erase q.
Proof.
  split.
  - intros (A & B & C & D & E & F & G & I & J & K). unfold erase. congruence.
  - intros HE. unfold same_physics. repeat split; match goal with |- ?f p = ?f q => apply (f_equal f) in HE; exact HE end.
Qed.
Lemma same_erase_all {T} (l m : list (particle T)) : Forall2 same_physics l m <-> map erase l = map erase m.
Proof.
  split.
  - induction 1 as [|p q l m HP _ IH]; cbn [map]; [reflexivity|]. f_equal; [apply same_erase, HP|exact IH].
  - revert m. induction l as [|p l IH]; intros [|q m] HE; try discriminate; constructor.
    + apply same_erase. apply (f_equal (hd (erase p))) in HE. exact HE.
    + apply IH. apply (f_equal (@tl _)) in HE. exact HE.
Qed.
Lemma same_event_erase {T} (l m : event T) : same_event l m <-> erase_list l = erase_list m.
Proof.
  split.
  - intros (A & B & C & D). apply same_erase_all in C, D. unfold erase_list. congruence.
  - intros HE. split; [apply (f_equal pl_name) in HE; exact HE|]. split; [apply (f_equal pl_max) in HE; exact HE|].
    split; apply same_erase_all; [apply (f_equal pl_items) in HE|apply (f_equal pl_lost) in HE]; exact HE.
Qed.
Lemma same_process_erase {T} (a b : process T) : same_process a b -> erase_proc a = erase_proc b.
Proof.
  destruct a as [c|c k|c], b as [d|d k'|d]; cbn [same_process]; try contradiction; unfold same_emission.
  - intros (A & B & C & D & F). cbn [erase_proc]. congruence.
  - intros ((A & B & C & D & F) & ->). cbn [erase_proc]. congruence.
  - intros (A & B & C). cbn [erase_proc]. congruence.
Qed.
Lemma same_world_erase {T} (w v : world T) : same_world w v -> erase_world w = erase_world v.
Proof.
  intros (A & B & C & D). unfold erase_world. rewrite A, B, C. f_equal. induction D as [|a b l m HA _ IH]; cbn [map]; [reflexivity|].
  f_equal; [apply same_process_erase, HA|exact IH].
Qed.

(** ** One event *)
(** In any arithmetic, with any random numbers and any observer of the particles' physical state: an event simulated twice, with
    different tracking flags of processes and particles, has the same outcome. *)
Theorem C101_event : forall (T : Type) (NT : Num T) (E : Engine T) (w v : world T) (S : Type) htimes (fill : nat -> T -> list (particle T) -> S -> res S)
    fuel tEnd l m g h,
  same_world w v -> same_event l m ->
  (forall i t ps qs x, Forall2 same_physics ps qs -> fill i t ps x = fill i t qs x) ->
  same_outcome E (run_event E w htimes fill fuel tEnd l g h) (run_event E v htimes fill fuel tEnd m g h).
Proof.
  intros T NT E w v S htimes fill fuel tEnd l m g h HW HL HF.
  assert (FE : forall i t ps x, fill i t (map erase ps) x = fill i t ps x).
  { intros i t ps x. apply HF. apply same_erase_all. rewrite map_map. apply map_ext. reflexivity. }
  assert (HE : rmap (erase_state E) (run_event E w htimes fill fuel tEnd l g h) = rmap (erase_state E) (run_event E v htimes fill fuel tEnd m g h)).
  { rewrite !(erase_run E _ _ _ FE), (same_world_erase _ _ HW). apply same_event_erase in HL. rewrite HL. reflexivity. }
  destruct (run_event E w _ _ _ _ _ _ _) as [s|a| |a|], (run_event E v _ _ _ _ _ _ _) as [t|b| |b|]; try discriminate; cbn [same_outcome]; try exact I;
    try (injection HE; auto; fail). cbn [rmap bind] in HE.
  assert (ES : erase_state E s = erase_state E t) by congruence.
  split; [apply (f_equal (st_time E)) in ES; exact ES|]. split; [apply (f_equal (st_rng E)) in ES; exact ES|]. split; [apply (f_equal (st_hc E)) in ES; exact ES|].
  split; [apply (f_equal (st_hist E)) in ES; exact ES|]. apply same_event_erase. apply (f_equal (st_ev E)) in ES. exact ES.
Qed.

(** The histograms of the program are such observers. *)
Theorem C101_histograms : forall (T : Type) (NT : Num T) i t ps qs (hs : list (hist T)), Forall2 same_physics ps qs -> hist_fill i t ps hs = hist_fill i t qs hs.
Proof. intros T NT i t ps qs hs HP. apply same_erase_all in HP. rewrite <- (erase_hist_fill i t ps), <- (erase_hist_fill i t qs), HP. reflexivity. Qed.

(** ** The whole program *)
(** If a run with tracking completes, the same run without tracking completes too, and its file has the same groups and data sets with
    the same contents, except that there is nothing under Particles/ParticleTrack. *)
Theorem C101_file : forall (T : Type) (NT : Num T) (E : Engine T) load_em load_bw counters code (garbage : T) fuel pa g f,
  objinfo_inverted code ->
  simulation E load_em load_bw counters code garbage fuel (set_tracking true pa) g = Ok f ->
  exists f', simulation E load_em load_bw counters code garbage fuel (set_tracking false pa) g = Ok f' /\
    (forall q, (forall r, q <> "Particles" :: "ParticleTrack" :: r) -> lookup (f_tree f') q = lookup (f_tree f) q) /\
    (forall r, lookup (f_tree f') ("Particles" :: "ParticleTrack" :: r) = None).
Proof.
  intros T NT E load_em load_bw counters code garbage fuel pa g f HI X. destruct (simulation_both _ _ _ _ _ _ _ _ _ _ HI X) as (f' & X' & L1 & L2).
  exists f'. split; [exact X'|]. split; [exact L1|]. intros r. apply L2. intros HO. exact (HO r eq_refl).
Qed.

Print Assumptions C101_event.
Print Assumptions C101_histograms.
Print Assumptions C101_file.

(** Two photons in binary64, with and without tracking: the same values in the table, tracks in the first file only. *)
Example C101_case :
  exists f f', c_run (c_text "true" "") ["qedcasc"; "run.ini"] = Ok f /\ c_run (c_text "false" "") ["qedcasc"; "run.ini"] = Ok f' /\
    lookup (f_tree f) ["Particles"; "ParticleTrack"; "Event1"; "Time"] <> None /\ lookup (f_tree f') ["Particles"; "ParticleTrack"; "Event1"; "Time"] = None /\
    lookup (f_tree f') ["Particles"; "ParticleSource"; "Photons"] = lookup (f_tree f) ["Particles"; "ParticleSource"; "Photons"] /\
    lookup (f_tree f') ["Particles"; "ParticleSource"; "Photons"] <> None.
Proof.
  eexists _, _. split; [vm_compute; reflexivity|]. split; [vm_compute; reflexivity|]. split; [vm_compute; discriminate|]. split; [vm_compute; reflexivity|].
  split; [vm_compute; reflexivity|]. vm_compute. discriminate.
Qed.
(** The parameters of the two files differ in the tracking flag only. *)
Example C101_parameters :
  let read t := @FileParser.file_parser _ (Num_F64 c_libm) (fun _ => f64_lit 0 0) (IniReader.Present (Some t)) in
  read (c_text "false" "") = rmap (set_tracking false) (read (c_text "true" "")) /\
  read (c_text "true" "") = rmap (set_tracking true) (read (c_text "true" "")) /\ read (c_text "true" "") <> Throw.
Proof. split; [vm_compute; reflexivity|]. split; [vm_compute; reflexivity|]. vm_compute. discriminate. Qed.
