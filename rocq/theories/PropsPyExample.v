(** * Property C129: the Python example *)
From Coq Require Import String ZArith Reals Lra Psatz List Bool Lia SpecFloat Permutation.
From Verif Require Import Num RNum Outcome OutcomeFacts Vec Units MCTools MCFacts Numerics Particle ParticleList ParticleFacts Source SourceFacts Fields Pusher Process
  ProcessFacts ProcessSafe Sim SimFacts SimTime SimClock RunManager RunFacts PropsRun PropsTables Program ProgramFacts Shipped PropsShipped ShippedReal PropsSample PropsUse CompleteFacts PyExample PropsExample.
Import ListNotations.
Local Open Scope string_scope.
Local Open Scope list_scope.

Section Any.
Context {T : Type} `{NT : Num T}.

(** the manager when beamOn is called *)
Definition script_manager : manager T :=
  set_generator "Electron" "gaussian" (nlit 8176 (-14)) (nlit 8176 (-15)) (nlit 0 0) (nlit 0 0) (nlit 0 0)
    (mkV (nlit 0 (-6)) (nlit 0 0) (nneg (nlit 10 (-6)))) (mkV (nlit 0 0) (nlit 0 0) (nlit 1 0))
    (set_sample_fraction (nlit 1 (-1)) (set_physics "Semiclassical"
      (set_field "gaussian" (nlit 100 12) (nlit 8 (-7)) (nlit 300 (-16)) (nlit 10 (-6)) (nlit 0 0)
        (mkV (nlit 0 0) (nlit 0 0) (nlit 100 (-7))) (mkV (nlit 0 0) (nlit 0 0) (nlit 0 (-6)))
        (set_time (nlit 5 (-17)) (nlit 100 (-15)) new_manager)))).

Variable E : Engine T.
Variable load_em : res (em_tables T).
Variable load_bw : res (bw_tables T).
Variable loop : world T -> source T -> nat -> T -> est E -> res (tables T * est E).

Lemma script_session omp th g : session E load_em load_bw loop omp (script_with th) g =
  let* r := beam_on E load_em load_bw loop omp 1000 th script_manager g in
  let m := fst (fst r) in
  let* n := destroy m in
  Ok (repeat Nothing 5 ++ [if snd r then Raised else Nothing] ++
      [Table (get_table TInput m); Table (get_table TElectron m); Table (get_table TPhoton m)], n).
Proof.
  unfold session, script_with, do_calls, do_call, bind, script_manager, fst, snd.
  match goal with |- context [beam_on ?a ?b ?c ?d ?e ?f ?g0 ?m ?h] => destruct (beam_on a b c d e f g0 m h) as [[[m1 g1] b1]| | | |] end; reflexivity.
Qed.

(** without OpenMP the script runs nothing: beamOn refuses two threads and all tables are empty *)
Theorem C129_without_openmp : forall g,
  session E load_em load_bw loop false example_script g = Ok (repeat Nothing 6 ++ repeat (Table []) 3, 0%nat).
Proof.
  intros g. unfold example_script. rewrite script_session. unfold beam_on. cbn [negb Z.eqb Pos.eqb andb bind fst snd].
  unfold script_manager, set_sample_fraction. destruct (_ && _)%bool; reflexivity.
Qed.

(** ** One electron and the continuous model *)
Definition one_emitter (l : event T) : Prop := forall i p, nth_error (pl_items l) i = Some p -> (1 <= i)%nat -> p_mass p = n0.
Hypothesis Z0 : neqb (n0 : T) n0 = true.

Lemma continuous_adds c cl p l g p' l' g' : interact E (Continuous c cl) p l g = Ok (p', l', g') ->
  p' = p /\ (l' = l \/ p_mass p <> n0 /\ exists ph, p_mass ph = n0 /\ l' = pl_add l ph).
Proof.
  cbn [interact]. unfold continuous_interact. destruct (neqb (p_mass p) n0) eqn:EM; cbn [orb].
  { intros HX. injection HX; intros; subst. auto. }
  assert (NM : p_mass p <> n0) by (intros HX; rewrite HX in EM; congruence).
  destruct (negb _). { intros HX. injection HX; intros; subst. auto. }
  destruct (rand_double E n0 n1 g) as [r g1]. destruct (nltb _ r). { intros HX. injection HX; intros; subst. auto. }
  cbv zeta. intros HX. apply bind_ok in HX. destruct HX as [[[logh chi] g2] [_ HX]]. destruct (nltb _ _).
  - match type of HX with context [new_photon_energy ?e ?a ?b ?c0 ?d ?t ?k ?g0] =>
      pose proof (new_particle_fields e PPhoton "Photon"%string n0 n0 b (smul a (vnorm c0)) d t k g0) as F;
      destruct (new_photon_energy e a b c0 d t k g0) as [ph g3] eqn:EP end.
    injection HX; intros; subst. split; [reflexivity|]. right. split; [exact NM|]. exists ph. split; [|reflexivity].
    unfold new_photon_energy in EP. rewrite EP in F. cbn [fst] in F. tauto.
  - injection HX; intros; subst. auto.
Qed.

Lemma set_emitter (l : event T) k p p' : nth_error (pl_items l) (Z.to_nat k) = Some p -> p_mass p' = p_mass p -> one_emitter l -> one_emitter (pl_set l k p').
Proof.
  intros HG HM HO i q HQ Hi. unfold pl_set in HQ. cbn [pl_items] in HQ.
  destruct (Nat.eq_dec i (Z.to_nat k)) as [->|NE].
  - rewrite nth_error_upd_same in HQ by (apply nth_error_Some; congruence). injection HQ; intros <-. rewrite HM. eapply HO; eauto.
  - rewrite nth_error_upd_other in HQ by auto. eapply HO; eauto.
Qed.
Lemma add_emitter (l : event T) ph : p_mass ph = n0 -> pl_items l <> [] -> one_emitter l -> one_emitter (pl_add l ph).
Proof.
  intros HM HN HO i q HQ Hi. unfold pl_add in HQ. destruct (Z.ltb _ _); cbn [pl_items] in HQ; [|eapply HO; eauto].
  destruct (Nat.lt_ge_cases i (length (pl_items l))) as [HL|HL].
  - rewrite nth_error_app1 in HQ by auto. eapply HO; eauto.
  - rewrite nth_error_app2 in HQ by auto. destruct (i - _)%nat as [|[|?]]; try discriminate. injection HQ; intros <-. exact HM.
Qed.
Lemma add_n (l : event T) ph : (pl_n (pl_add l ph) <= pl_n l + 1)%Z.
Proof. unfold pl_add, pl_n. destruct (Z.ltb _ _); cbn [pl_items]; rewrite ?app_length; cbn [length]; lia. Qed.
Lemma set_n (l : event T) k p : pl_n (pl_set l k p) = pl_n l.
Proof. unfold pl_n, pl_set. cbn [pl_items]. now rewrite length_upd. Qed.

Variable w : world T.
Variables (c : em_cfg T) (cl : bool).
Hypothesis W : w_procs w = [Continuous c cl].

Lemma visit_adds k l g l' g' : visit E w k l g = Ok (l', g') -> one_emitter l ->
  one_emitter l' /\ (pl_n l' <= pl_n l + (if (k =? 0)%Z then 1 else 0))%Z.
Proof.
  unfold visit. intros HX HO. apply bind_ok in HX. destruct HX as [p [HP HX]].
  pose proof (push_evolved (w_force w) (w_field w) (w_dt w) p) as [(_ & _ & HM & _) _].
  set (p1 := push_particle _ _ _ p) in *. rewrite W in HX. cbn [call_processes] in HX. apply bind_ok in HX. destruct HX as [[l2 g2] [HC HX]].
  cbn [fst snd] in HX. injection HX; intros; subst. clear HX. unfold call_process in HC. apply bind_ok in HC. destruct HC as [q [HQ HC]].
  apply bind_ok in HC. destruct HC as [[[q' l1] g1] [HI HC]]. injection HC; intros; subst. clear HC.
  pose proof (set_emitter l k p p1 (proj2 (pl_get_inv _ _ _ HP)) HM HO) as HO1.
  destruct (continuous_adds _ _ _ _ _ _ _ _ HI) as [-> HL]. apply pl_get_inv in HQ. destruct HQ as [Hk HQ].
  destruct HL as [->|(NM & ph & HPh & ->)].
  - split; [eapply set_emitter; eauto|]. rewrite !set_n. destruct (Z.eqb k 0); lia.
  - assert (K0 : (k = 0)%Z).
    { destruct (Z.eq_dec k 0); [auto|]. exfalso. apply NM. eapply HO1; [exact HQ|lia]. }
    subst k. assert (GA : nth_error (pl_items (pl_add (pl_set l 0 p1) ph)) (Z.to_nat 0) = Some q).
    { unfold pl_add. destruct (_ <? _)%Z; cbn [pl_items]; [|exact HQ]. rewrite nth_error_app1; [exact HQ|]. apply nth_error_Some. congruence. }
    split.
    + eapply set_emitter; [exact GA|reflexivity|]. apply add_emitter; auto. intros HX. rewrite HX in HQ. destruct (Z.to_nat 0); discriminate.
    + rewrite set_n. pose proof (add_n (pl_set l 0 p1) ph). rewrite set_n in H. cbn [Z.eqb]. lia.
Qed.
Lemma pass_from_adds fuel : forall k l g l' g', pass_from E w fuel k l g = Ok (l', g') -> one_emitter l -> (0 <= k)%Z ->
  one_emitter l' /\ (pl_n l' <= pl_n l + (if (k =? 0)%Z then 1 else 0))%Z.
Proof.
  induction fuel as [|f IH]; intros k l g l' g' HX HO Hk; cbn [pass_from] in HX; destruct (Z.ltb _ _); try discriminate.
  - injection HX; intros; subst. split; [auto|]. destruct (Z.eqb k 0); lia.
  - apply bind_ok in HX. destruct HX as [[l1 g1] [HV HX]]. destruct (visit_adds _ _ _ _ _ HV HO) as [HO1 HN1].
    destruct (IH _ _ _ _ _ HX HO1) as [HO2 HN2]; [lia|]. split; [exact HO2|]. destruct (Z.eqb_spec (k + 1) 0); [lia|]. cbn [fst] in HN2. lia.
  - injection HX; intros; subst. split; [auto|]. destruct (Z.eqb k 0); lia.
Qed.
Lemma passes_add N : forall l g l' g', passes E w N l g = Ok (l', g') -> one_emitter l -> one_emitter l' /\ (pl_n l' <= pl_n l + Z.of_nat N)%Z.
Proof.
  induction N as [|N IH]; intros l g l' g' HX HO; cbn [passes] in HX.
  - injection HX; intros; subst. split; [auto|lia].
  - apply bind_ok in HX. destruct HX as [[l1 g1] [HP HX]]. destruct (IH _ _ _ _ HP HO) as [HO1 HN1]. unfold pass in HX. cbn [fst snd] in HX.
    destruct (pass_from_adds _ _ _ _ _ _ HX HO1) as [HO2 HN2]; [lia|]. split; [auto|]. cbn [Z.eqb] in HN2. lia.
Qed.

(** ** The loops return or end the program *)
Lemma loop_or_exit tEnd N : (forall pr, In pr (w_procs w) -> process_ok pr) -> nltb (clock n0 (w_dt w) N) tEnd = false ->
  forall fuel a l g, (a <= N)%nat -> (N - a <= fuel)%nat -> wf l ->
  let r := time_loop E w [] (fun _ _ _ (h : unit) => Ok h) fuel tEnd (mkSt (clock n0 (w_dt w) a) l g 0 tt) in
  (exists s, r = Ok s) \/ r = Exit (-1).
Proof.
  intros HO HE. induction fuel as [|f IH]; intros a l g HA HF HW; cbn [time_loop st_time].
  - assert (a = N) by lia. subst a. rewrite HE. eauto.
  - destruct (nltb (clock n0 (w_dt w) a) tEnd) eqn:EL; [|eauto].
    assert (a <> N) by congruence. unfold time_step, hist_check. cbn [nth_error st_hc bind st_ev st_rng st_time st_hist].
    destruct (pass_safe E w l g HO HW) as [(l1 & g1 & HX & HW1)|HX]; rewrite HX; cbn [bind fst snd]; [|auto].
    apply (IH (Datatypes.S a) l1 g1); [lia|lia|exact HW1].
Qed.
Lemma serial_or_exit tEnd N fuel ty nm m q (CD : charges_differ (T := T)) : (forall pr, In pr (w_procs w) -> process_ok pr) ->
  nltb (clock n0 (w_dt w) N) tEnd = false -> (N <= fuel)%nat ->
  forall n s t g, shape 1 t -> species (s_type s) ty nm m q -> wf_source s -> (0 <= s_count s)%Z -> (s_count s + Z.of_nat n <= s_nPart s)%Z ->
  (exists t' g', serial_events E fuel n w tEnd s t g = Ok (t', g')) \/ serial_events E fuel n w tEnd s t g = Exit (-1).
Proof.
  intros HO HE HF. destruct CD as (C1 & _ & _ & C4 & _). induction n as [|n IH]; intros s t g Sh HS HW HC HN; cbn [serial_events]; [eauto|].
  destruct (generate_list_spec E s g ty nm m q C1 C4 HS HW) as (l & g1 & HG & EV); [lia|]. rewrite HG. cbn [bind].
  destruct (do_pushes_ok 1 0 (input_pushes (pl_items l)) t Sh) as (t1 & P1 & S1 & _); [lia|]. rewrite P1. cbn [bind].
  destruct (generate_single _ _ _ _ _ _ HG) as (pp & LP & _ & _ & WL & _).
  destruct (loop_or_exit tEnd N HO HE fuel 0 l g1) as [(st & HX)|HX]; [lia|lia|exact WL| |]; cbn [clock] in HX; rewrite HX; cbn [bind]; [|auto].
  destruct (do_pushes_ok 1 0 (final_pushes (pl_items (st_ev E st))) t1 S1) as (t2 & P2 & S2 & _); [lia|]. rewrite P2. cbn [bind].
  apply IH; auto; cbn [with_count s_count s_nPart s_type]; try lia.
Qed.
End Any.
Print Assumptions C129_without_openmp.

(** ** The time of the script *)
Notation py_dt := (m_timeStep script_manager).
Notation py_end := (m_timeEnd script_manager).
Definition two_thousand : nat := Z.to_nat 2000.


Lemma py_dt_any {T} `{Num T} : (py_dt : T) = ndiv (nlit 5 (-17)) (ref_time si_units) /\ (py_end : T) = ndiv (nlit 100 (-15)) (ref_time si_units).
Proof. unfold script_manager, set_sample_fraction. destruct (_ && _)%bool; split; reflexivity. Qed.

Local Open Scope R_scope.
Lemma py_dt_R : (py_dt : R) = 5 / 100000000000000000 / ref_time si_units.
Proof. rewrite (proj1 py_dt_any). rlit. rnum. reflexivity. Qed.
Lemma py_end_R : (py_end : R) = 2000 * py_dt.
Proof. rewrite py_dt_R, (proj2 py_dt_any). rlit. rnum. pose proof ref_time_pos. field. lra. Qed.
Lemma py_dt_pos : 0 < (py_dt : R).
Proof. rewrite py_dt_R. apply Rdiv_lt_0_compat; [lra|apply ref_time_pos]. Qed.
Lemma two_thousand_R : INR two_thousand = 2000.
Proof. unfold two_thousand. rewrite INR_IZR_INZ, Z2Nat.id by lia. reflexivity. Qed.
Lemma py_count : step_count n0 (py_dt : R) py_end two_thousand.
Proof.
  pose proof py_dt_pos as HP. pose proof two_thousand_R as HT. split.
  - intros m Hm. apply Rltb_true. rewrite clock_R, n0_R, py_end_R. apply lt_INR in Hm. rewrite HT in Hm. nra.
  - apply Rltb_false. rewrite clock_R, n0_R, py_end_R, HT. lra.
Qed.

Lemma counted {T} `{Num T} (E : Engine T) (w : world T) S fill fuel tEnd N l g (h : S) s' : step_count n0 (w_dt w) tEnd N ->
  time_loop E w [] fill fuel tEnd (mkSt n0 l g 0 h) = Ok s' -> passes E w N l g = Ok (st_ev E s', st_rng E s').
Proof.
  intros HC HX. destruct (loop_gen E w [] fill l g n0 tEnd fuel (mkSt n0 l g 0 h) _ 0%nat eq_refl eq_refl (Nat.le_0_l _) HX) as
    (M & ? & ? & _ & H1 & H2 & _ & HP & _). replace N with M; [exact HP|].
  apply (step_count_unique n0 (w_dt w) tEnd); [split; [intros; apply H1; lia|exact H2]|exact HC].
Qed.

(** an event of the script, with whatever number of threads, makes exactly 2000 passes: exact reals *)
Theorem C129_event : forall (E : Engine R) (w : world R) S fill fuel l g (h : S) s', w_dt w = py_dt ->
  time_loop E w [] fill fuel py_end (mkSt n0 l g 0 h) = Ok s' -> passes E w two_thousand l g = Ok (st_ev E s', st_rng E s').
Proof. intros E w S fill fuel l g h s' HD HX. eapply counted; [|exact HX]. rewrite HD. apply py_count. Qed.
Print Assumptions C129_event.

(** ... and binary64 *)
Lemma py_dt_F L : @m_timeStep _ (@script_manager _ (Num_F64 L)) = S754_finite false 5334995970595937 (-37).
Proof. vm_compute. reflexivity. Qed.
Lemma py_end_F L : @m_timeEnd _ (@script_manager _ (Num_F64 L)) = S754_finite false 5209957002535095 (-26).
Proof. vm_compute. reflexivity. Qed.
Lemma py_steps_F : all_before (S754_finite false 5334995970595937 (-37)) (S754_finite false 5209957002535095 (-26)) two_thousand (S754_zero false) = true.
Proof. vm_compute. reflexivity. Qed.
Lemma double_count (L : Libm) dt tEnd N : all_before dt tEnd N (@n0 _ (Num_F64 L)) = true -> @step_count _ (Num_F64 L) (@n0 _ (Num_F64 L)) dt tEnd N.
Proof. intros HA. destruct (all_before_spec L dt tEnd N 0 _ eq_refl HA) as [A1 A2]. split; [intros m Hm; apply A1; lia|exact A2]. Qed.
Theorem C129_event_double : forall (L : Libm) (E : Engine spec_float) (w : world spec_float) S fill fuel l g (h : S) s',
  let m := @script_manager _ (Num_F64 L) in w_dt w = m_timeStep m ->
  @time_loop _ (Num_F64 L) E w S [] fill fuel (m_timeEnd m) (mkSt (@n0 _ (Num_F64 L)) l g 0 h) = Ok s' ->
  @passes _ (Num_F64 L) E w two_thousand l g = Ok (st_ev E s', st_rng E s').
Proof.
  intros L E w S fill fuel l g h s' m HD HX. unfold m in *. rewrite py_dt_F in HD. rewrite py_end_F in HX.
  refine (@counted _ (Num_F64 L) E w S fill fuel _ two_thousand l g h s' _ HX). rewrite HD. apply double_count. exact py_steps_F.
Qed.
Print Assumptions C129_event_double.

(** ** The run *)
(** the world and the source of the script *)
Lemma py_set_up : set_up (script_manager : manager R) = true.
Proof.
  unfold set_up. replace (neqb py_dt (n0 : R)) with false.
  - unfold script_manager, set_sample_fraction. destruct (_ && _)%bool; reflexivity.
  - symmetry. apply Reqb_false. rewrite n0_R. pose proof py_dt_pos. lra.
Qed.
Lemma py_world (E : Engine R) t lbw : exists fld,
  build_world (Ok t) lbw script_manager = Ok (mkWorld modified_landau_force fld py_dt [Continuous (mkEm fld py_dt (1/10) 0 false t) false]).
Proof.
  assert (HF : (nleb n0 (nlit 1 (-1) : R) && nleb (nlit 1 (-1) : R) n1)%bool = true).
  { apply andb_true_intro. rlit. rnum. split; apply Rleb_true; lra. }
  eexists. unfold build_world, script_manager, set_sample_fraction. rewrite HF. cbn. rlit. rnum. reflexivity.
Qed.
Lemma py_source (E : Engine R) g : delivers E -> exists s g0, build_source E script_manager 1000 g = Ok (s, g0) /\
  wf_source s /\ s_count s = 0%Z /\ s_nPart s = 1000%Z /\ s_type s = "Electron".
Proof.
  intros HD. assert (HG : exists a b c d e x y, @m_genPar R script_manager = Some (mkGS "Electron" "gaussian" a b c d e x y)).
  { unfold script_manager, set_sample_fraction. destruct (_ && _)%bool; cbn; eauto 10. }
  destruct HG as (a & b & c & d & e & x & y & HG). unfold build_source. rewrite HG. cbn [g_type g_dist g_energy1 g_energy2 g_radius g_duration g_divergence g_position g_direction].
  change (u32 1000) with 1000%Z.
  pose proof (new_source_wf E "Electron" "gaussian" 1000 a b c d e x y false g HD ltac:(lia)) as (W1 & W2 & W3 & W4 & _).
  destruct (new_source E _ _ _ _ _ _ _ _ _ _ _ _) as [s g0]. exists s, g0. auto.
Qed.
Lemma py_alive : exists fi, @m_pusher R script_manager = Null /\ @m_generator R script_manager = Null /\ @m_field R script_manager = fi /\ fi = Null /\
  @m_units R script_manager = Live /\ @m_lost R script_manager = 0%nat.
Proof. exists Null. unfold script_manager, set_sample_fraction. destruct (_ && _)%bool; repeat split. Qed.

(** with OpenMP: the loop over 1000 electrons is entered with two threads, the semiclassical force and emission with a sample fraction of 1/10;
    the tables shown are those of the loop *)
Theorem C129_with_openmp : forall (E : Engine R) t lbw loop g, delivers E -> exists fld s g0,
  wf_source s /\ s_count s = 0%Z /\ s_nPart s = 1000%Z /\ s_type s = "Electron" /\
  session E (Ok t) lbw loop true example_script g =
  let* r := loop (mkWorld modified_landau_force fld py_dt [Continuous (mkEm fld py_dt (1/10) 0 false t) false]) s 2%nat py_end g0 in
  Ok (repeat Nothing 6 ++ [Table (to_array 6 (t_input (fst r))); Table (to_array 7 (t_electron (fst r))); Table (to_array 7 (t_photon (fst r)))], 1%nat).
Proof.
  intros E t lbw loop g HD. destruct (py_world E t lbw) as [fld HW]. destruct (py_source E g HD) as (s & g0 & HS & A1 & A2 & A3 & A4).
  exists fld, s, g0. do 4 (split; [assumption|]). unfold example_script. rewrite script_session. unfold beam_on. cbn [negb andb].
  destruct py_alive as (fi & -> & -> & -> & -> & PU & PL). cbn [delete bind]. rewrite py_set_up, HW. cbn [bind]. rewrite HS. cbn [bind fst snd w_procs length].
  change (2 <? 0)%Z with false. change (Z.to_nat 2) with 2%nat. cbv iota. destruct (loop _ _ _ _ _) as [[tb g1]| | | |]; try reflexivity.
  cbn [bind fst snd destroy with_pointers m_units m_field m_pusher m_generator m_lost]. unfold destroy. cbn [with_pointers m_units m_field m_pusher m_generator m_lost].
  rewrite PU, PL. reflexivity.
Qed.
Print Assumptions C129_with_openmp.

Lemma sum_rows {A} (f : history (T := R) -> list A) (k : Z) evs : Forall (fun e => (Z.of_nat (length (f e)) = k)%Z) evs ->
  Z.of_nat (length (flat_map f evs)) = (Z.of_nat (length evs) * k)%Z.
Proof. induction 1 as [|e evs HE _ IH]; [reflexivity|]. cbn [flat_map length]. rewrite app_length. lia. Qed.
Lemma sum_rows_le {A} (f : history (T := R) -> list A) (k : Z) evs : Forall (fun e => (Z.of_nat (length (f e)) <= k)%Z) evs ->
  (Z.of_nat (length (flat_map f evs)) <= Z.of_nat (length evs) * k)%Z.
Proof. induction 1 as [|e evs HE _ IH]; [reflexivity|]. cbn [flat_map length]. rewrite app_length. lia. Qed.
Lemma filter_flat {A B} (f : A -> list B) (p : B -> bool) l : filter p (flat_map f l) = flat_map (fun a => filter p (f a)) l.
Proof. induction l as [|a l IH]; [reflexivity|]. cbn [flat_map]. now rewrite filter_app, IH. Qed.
Lemma count_called nm (ps : list (particle R)) : length (filter (called nm) ps) = count_occ string_dec (map p_name ps) nm.
Proof.
  induction ps as [|p ps IH]; [reflexivity|]. cbn [filter map count_occ]. unfold called at 1. destruct (string_dec (p_name p) nm); cbn [length]; auto.
Qed.

(** in an event of the semiclassical model there is one electron at the end and at most one photon per step *)
Lemma py_events (E : Engine R) fuel w c cl tEnd N ty nm m q : w_procs w = [Continuous c cl] -> step_count n0 (w_dt w) tEnd N -> nm <> "Photon" ->
  forall s g evs g', simulated E fuel w tEnd s g evs g' -> species (s_type s) ty nm m q -> wf_source s -> (0 <= s_count s)%Z ->
  (s_count s + Z.of_nat (length evs) <= s_nPart s)%Z ->
  Forall (fun e => count_occ string_dec (map p_name (snd e)) nm = 1%nat /\ (count_occ string_dec (map p_name (snd e)) "Photon" <= N)%nat) evs.
Proof.
  intros HW HC HP s g evs g' HX. induction HX as [|s g l s1 g1 st evs g2 HG HL HX IH]; intros HS WS H0 HN; [constructor|].
  cbn [length] in HN.
  destruct (generate_list_spec E s g ty nm m q neqb_neg_R neqb_pos_R HS WS) as (l' & g1' & HG' & EV); [lia|].
  rewrite HG in HG'. injection HG'; intros -> -> ->. clear HG'.
  constructor; [|apply IH; cbn [with_count s_type s_count s_nPart]; auto; lia].
  destruct EV as (_ & p & LP & _ & PN & _). cbn [snd].
  assert (HR : run_event E w [] (fun _ _ _ (h : unit) => Ok h) fuel tEnd l' g1' tt = Ok st).
  { unfold run_event. rewrite HL. reflexivity. }
  destruct (run_only_photons E w [] (fun _ _ _ (h : unit) => Ok h) fuel tEnd l' g1' tt st) as (more & HM & HF); [|exact HR|].
  { intros pr HI. rewrite HW in HI. destruct HI as [<-|[]]. exact I. }
  rewrite LP in HM. cbn [map app] in HM. rewrite HM, PN.
  assert (O1 : one_emitter l').
  { intros i q' HQ Hi. rewrite LP in HQ. destruct i as [|[|i]]; [lia|discriminate|discriminate]. }
  pose proof (counted E w unit _ fuel tEnd N l' g1' tt st HC HL) as HPS.
  assert (Z0 : neqb (n0 : R) n0 = true) by (apply Reqb_true; reflexivity).
  destruct (passes_add E Z0 w c cl HW N _ _ _ _ HPS O1) as [_ HB].
  assert (LM : length more = (length (pl_items (st_ev E st)) - 1)%nat).
  { apply (f_equal (@length _)) in HM. rewrite map_length in HM. cbn [length] in HM. lia. }
  unfold pl_n in HB. rewrite LP in HB. cbn [length] in HB.
  cbn [count_occ]. destruct (string_dec nm nm) as [_|NE]; [|congruence]. destruct (string_dec nm "Photon") as [HE|_]; [congruence|].
  rewrite (no_others nm more HP HF). split; [reflexivity|].
  assert (CL : (count_occ string_dec more "Photon" <= length more)%nat).
  { clear. induction more as [|x more IH]; [reflexivity|]. cbn [count_occ length]. destruct (string_dec x "Photon"); lia. }
  lia.
Qed.

(** one thread, build without OpenMP, shipped tables: the script either completes, with 1000 primaries, 1000 electrons and at most two
    million photons, or the program ends with code -1 *)
Theorem C129_one_thread : forall (E : Engine R) path t lbw fuel g, delivers E -> with_emission_tables path t -> (two_thousand <= fuel)%nat ->
  let r := session E (Ok t) lbw (serial_loop E fuel) false (script_with 1) g in
  r = Exit (-1) \/
  exists inp el ph, r = Ok (repeat Nothing 6 ++ [Table inp; Table el; Table ph], 1%nat) /\
    Z.of_nat (length inp) = 1000%Z /\ Z.of_nat (length el) = 1000%Z /\ (Z.of_nat (length ph) <= 2000000)%Z.
Proof.
  intros E path t lbw fuel g HD HT HF r. unfold r. clear r. rewrite script_session.
  destruct (py_world E t lbw) as [fld HW]. destruct (py_source E g HD) as (s & g0 & HS & A1 & A2 & A3 & A4).
  set (w := mkWorld _ _ _ _) in HW.
  assert (PO : forall pr, In pr (w_procs w) -> process_ok pr).
  { intros pr [<-|[]]. cbn [process_ok em_tab]. eapply shipped_em_ok; eauto. }
  assert (SE : species (s_type s) PLepton "Electron" 1 (-1)) by (rewrite A4; constructor).
  assert (Z0 : neqb (n0 : R) n0 = true) by (apply Reqb_true; reflexivity).
  assert (SO := serial_or_exit E Z0 w py_end two_thousand fuel PLepton "Electron" 1 (-1) charges_differ_R PO (proj2 py_count) HF
    (Z.to_nat (s_nPart s)) s (empty_tables 1) g0 (empty_shape 1) SE A1 ltac:(lia) ltac:(lia)).
  assert (BX : beam_on E (Ok t) lbw (serial_loop E fuel) false 1000 1 script_manager g =
    let* r := serial_events E fuel (Z.to_nat (s_nPart s)) w py_end s (empty_tables 1) g0 in
    Ok (with_pointers Live Live Live 1 (fst r) script_manager, snd r, false)).
  { unfold beam_on. cbn [negb Z.eqb Pos.eqb andb]. destruct py_alive as (fi & -> & -> & -> & -> & PU & PL). cbn [delete bind].
    rewrite py_set_up, HW. cbn [bind]. rewrite HS. cbn [bind fst snd]. change (1 <? 0)%Z with false. cbv iota. unfold serial_loop. change (Z.to_nat 1) with 1%nat.
    rewrite PL. reflexivity. }
  destruct SO as [(t' & g' & HX)|HX]; rewrite HX in BX; cbn [bind fst snd] in BX.
  2: { left. rewrite BX. reflexivity. }
  right. destruct (C73_serial_tables charges_differ_R E (Ok t) lbw fuel 1000 script_manager g _ _ _ py_set_up BX) as
    (w' & s' & g0' & evs & W1 & W2 & _ & SI & LE & TB & LI & _).
  rewrite HW in W1. injection W1; intros <-. rewrite HS in W2. injection W2; intros <- <-. clear W1 W2. change (1000 mod 2 ^ 32)%Z with 1000%Z in LE.
  rewrite BX. cbn [bind fst snd]. unfold destroy. cbn [with_pointers m_units m_field m_pusher m_generator m_lost].
  destruct py_alive as (fi & _ & _ & _ & _ & PU & _). rewrite PU. cbn [delete bind].
  do 3 eexists. split; [reflexivity|]. split; [rewrite LI; exact LE|].
  pose proof (py_events E fuel w _ _ py_end two_thousand _ "Electron" _ _ eq_refl py_count ltac:(discriminate) _ _ _ _ SI SE A1 ltac:(lia) ltac:(lia)) as FE.
  rewrite (proj1 (TB TElectron)), (proj1 (TB TPhoton)). cbn [PropsTables.spec_table]. rewrite !map_length, !filter_flat. split.
  - rewrite (sum_rows _ 1%Z); [lia|]. eapply Forall_impl; [|exact FE]. intros e [HE _]. cbn beta. rewrite count_called, HE. reflexivity.
  - eapply Z.le_trans; [apply (sum_rows_le _ 2000%Z)|rewrite LE; lia]. eapply Forall_impl; [|exact FE]. intros e [_ HE]. cbn beta.
    rewrite count_called. unfold two_thousand in HE. lia.
Qed.
Print Assumptions C129_one_thread.

(** ** Case: an engine and tables as assumed; a session with one thread refused by nothing, the same one with two threads refused *)
Example C129_case : exists (E : Engine R) (t : em_tables R), delivers E /\ with_emission_tables "Tables" t /\
  set_up (script_manager : manager R) = true /\ (two_thousand <= two_thousand)%nat /\
  step_count n0 (m_timeStep script_manager : R) (m_timeEnd script_manager) two_thousand.
Proof.
  destruct (have_emission_tables (T := R)) as [t HT]. exists neg_engine, t. split; [apply C128_case|]. split; [exact HT|]. split; [exact py_set_up|].
  split; [apply Nat.le_refl|exact py_count].
Qed.
