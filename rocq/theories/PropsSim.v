(** * Properties C39 (whole run), C43-C48, C54, C78: the event loop *)
From Coq Require Import String ZArith Reals Lra Psatz List Bool Lia Permutation.
From Coq Require Import Floats.SpecFloat.
From Verif Require Import Num RNum Outcome OutcomeFacts Vec SpecVec MCTools Particle ParticleList Fields Pusher PusherFacts
  Process ProcessFacts ProcessRFacts ProcessSafe PropsProcess Sim SimFacts SimTime SimClock.
Import ListNotations.
Local Open Scope R_scope.

(** ** A concrete run, in binary64 (maths library as in C42_case): a photon of energy 6 converts in the first of three steps *)
Definition ex_photon6 : particle spec_float :=
  mkP PPhoton "Photon" (f_lit 0 0) (f_lit 0 0) (f_lit 1 0) (f_lit 0 0) (f_lit 0 0) false true
    (mkV (f_lit 0 0) (f_lit 0 0) (f_lit 0 0)) (mkV (f_lit 6 0) (f_lit 0 0) (f_lit 0 0)) [] [] [] [].
Definition ex_world64 : world spec_float :=
  mkWorld (@lorentz_force _ (Num_F64 ex_libm)) (bw_field ex_bw64) (f_lit 1 0) [BreitWheeler ex_bw64].
Definition ex_event64 : event spec_float := pl_add (pl_new "0"%string 10) ex_photon6.
Definition ex_trace (i : nat) (t : spec_float) (ps : list (particle spec_float)) (h : list (nat * spec_float * nat)) :=
  Ok (h ++ [(i, t, length ps)]).
Definition ex_run := @run_event _ (Num_F64 ex_libm) ex_engine64 ex_world64 _ [f_lit 2 0; f_lit 1 0; f_lit 0 0] ex_trace 3 (f_lit 25 (-1)) ex_event64 tt [].

(** ** C39 over a whole run *)
Definition quantum_process (pr : process R) : Prop :=
  match pr with Stochastic c => 1 <= em_frac c | Continuous _ _ => False | BreitWheeler _ => True end.

(** with sample fraction 1 no run of stochastic emission (with or without pair creation) ever contains a photon: the event
    keeps its leptons and nothing else, whatever the number of steps *)
Theorem C39_no_photon_in_a_run : forall (E : Engine R) (w : world R) S htimes fill fuel tEnd l g (h : S) s',
  (forall g, 0 <= fst (e_canon E g) < 1) ->
  (forall pr, In pr (w_procs w) -> quantum_process pr) ->
  (forall p, In p (pl_items l) -> p_type p = PLepton) ->
  run_event E w htimes fill fuel tEnd l g h = Ok s' ->
  length (pl_items (st_ev _ s')) = length (pl_items l) /\ pl_lost (st_ev _ s') = pl_lost l /\
  forall p, In p (pl_items (st_ev _ s')) -> p_type p = PLepton.
Proof.
  intros E w S htimes fill fuel tEnd l g h s' HE HW HL HX.
  set (P := fun a b : event R * est E => (forall p, In p (pl_items (fst a)) -> p_type p = PLepton) ->
     length (pl_items (fst b)) = length (pl_items (fst a)) /\ pl_lost (fst b) = pl_lost (fst a) /\
     forall p, In p (pl_items (fst b)) -> p_type p = PLepton).
  assert (HP : P (l, g) (st_ev _ s', st_rng _ s')); [|exact (HP HL)].
  assert (CH : forall k (l l' : event R) p p', change k l p p' [] [] l' -> same_identity p p' ->
     (forall p, In p (pl_items l) -> p_type p = PLepton) ->
     length (pl_items l') = length (pl_items l) /\ pl_lost l' = pl_lost l /\ forall p, In p (pl_items l') -> p_type p = PLepton).
  { clear. intros k l l' p p' (C1 & C2 & C3 & _) (I1 & _) HL. rewrite app_nil_r in C2, C3. split; [rewrite C2; apply length_upd|].
    split; [auto|]. intros q Hq. rewrite C2 in Hq. destruct (upd_split _ _ _ p' C1) as (l1 & l2 & H1 & _ & H2). rewrite H2 in Hq.
    apply in_app_or in Hq. destruct Hq as [Hq|[<-|Hq]].
    - apply HL. rewrite H1. apply in_or_app; auto.
    - rewrite I1. apply HL. rewrite H1. apply in_or_app; right; left; auto.
    - apply HL. rewrite H1. apply in_or_app; right; right; auto. }
  revert HX. apply (lift_run E w P).
  - intros s HQ. auto.
  - intros a b c H1 H2 HQ. destruct (H1 HQ) as (A1 & A2 & A3). destruct (H2 A3) as (B1 & B2 & B3). split; [congruence|]. split; [congruence|auto].
  - intros k l0 g0 p HG HQ. eapply CH; [apply push_change; exact HG| |exact HQ].
    destruct (push_keeps (w_force w) (w_field w) (w_dt w) p) as (K1&K2&K3&K4&K5&_&K7&_). unfold same_identity. auto 10.
  - intros k pr l0 g0 l1 g1 HI HC HQ. cbn [fst] in *. specialize (HW pr HI).
    pose proof (call_process_change E k pr l0 g0 l1 g1 HC) as (_ & p & p' & st & lo & HCh & HB & HId & _ & _ & _ & l2 & HIn & HL2).
    assert (HT : p_type p = PLepton) by (apply HQ; destruct HCh as (C1 & _); eapply nth_error_In; eauto).
    assert (HE2 : l2 = l0).
    { destruct pr as [c|c cl|c]; [|destruct HW|].
      - eapply C39_default_fraction_no_photon; [exact HE| |exact HIn]. exact HW.
      - rewrite C31_other_species_ignored in HIn by auto. injection HIn; intros; subst; auto. }
    subst l2. assert (HN : st = [] /\ lo = []).
    { destruct HCh as (_ & C2 & C3 & _). rewrite HL2 in C2, C3. cbn [pl_set pl_items pl_lost] in C2, C3.
      apply (f_equal (@length _)) in C2. apply (f_equal (@length _)) in C3. rewrite app_length in C2, C3. rewrite !length_upd in C2.
      destruct st, lo; cbn in C2, C3; auto; lia. }
    destruct HN as [-> ->]. eapply CH; eauto.
Qed.
Print Assumptions C39_no_photon_in_a_run.

(** ** C43 *)
(** any arithmetic: the charges of all particles ever in the event are the initial ones plus zeros plus equally many
    1 and -1 *)
Theorem C43_charges_come_in_pairs : forall {T} `{Num T} (E : Engine T) (w : world T) S htimes fill fuel tEnd l g (h : S) s',
  run_event E w htimes fill fuel tEnd l g h = Ok s' -> pl_lost l = [] -> pl_lost (st_ev _ s') = [] ->
  exists a b, Permutation (map p_charge (pl_items (st_ev _ s')))
    (map p_charge (pl_items l) ++ repeat n0 a ++ repeat n1 b ++ repeat (nlit (-1) 0) b).
Proof.
  intros T HT E w S htimes fill fuel tEnd l g h s' HX HL HL'. destruct (run_charges E w htimes fill fuel tEnd l g h s' HX) as (a & b & HP).
  exists a, b. unfold charges in HP. rewrite HL, HL', !app_nil_r in HP. exact HP.
Qed.
Print Assumptions C43_charges_come_in_pairs.

Definition total_charge (ps : list (particle R)) : R := sumR (map p_charge ps).

Theorem C43_charge_conserved : forall (E : Engine R) (w : world R) S htimes fill fuel tEnd l g (h : S) s',
  run_event E w htimes fill fuel tEnd l g h = Ok s' -> pl_lost l = [] -> pl_lost (st_ev _ s') = [] ->
  total_charge (pl_items (st_ev _ s')) = total_charge (pl_items l).
Proof.
  intros E w S htimes fill fuel tEnd l g h s' HX HL HL'.
  destruct (C43_charges_come_in_pairs E w S htimes fill fuel tEnd l g h s' HX HL HL') as (a & b & HP).
  unfold total_charge. rewrite (sumR_perm _ _ HP), !sumR_app, !sumR_repeat, n0_R, n1_R. rlit. lra.
Qed.
Print Assumptions C43_charge_conserved.

(** the charge carried by the particles that are alive is conserved too *)
Theorem C43_live_charge_conserved : forall (E : Engine R) (w : world R) S htimes fill fuel tEnd l g (h : S) s',
  run_event E w htimes fill fuel tEnd l g h = Ok s' -> pl_lost l = [] -> pl_lost (st_ev _ s') = [] ->
  (forall p, In p (pl_items l) -> p_type p = PPhoton -> p_charge p = 0) ->
  live_charge (pl_items (st_ev _ s')) = live_charge (pl_items l).
Proof.
  intros E w S htimes fill fuel tEnd l g h s' HX HL HL' HN.
  destruct (run_live E w htimes fill fuel tEnd l g h s' HX HN) as [_ HC]. cbn [fst] in HC. rewrite HL, HL', !app_nil_r in HC. exact HC.
Qed.
Print Assumptions C43_live_charge_conserved.

(** a run in which a pair is made *)
Example C43_case : exists s', ex_run = Ok s' /\ length (pl_items (st_ev _ s')) = 3%nat /\ pl_lost (st_ev _ s') = [] /\
  map p_charge (pl_items (st_ev _ s')) = [f_lit 0 0; f_lit 1 0; f_lit (-1) 0] /\ map p_alive (pl_items (st_ev _ s')) = [false; true; true].
Proof. eexists. split; [vm_compute; reflexivity|]. vm_compute. auto. Qed.

(** ** C44 *)
(** one free place, any arithmetic: the positron is stored, the electron is not *)
Theorem C44_electron_lost : forall {T} `{Num T} (E : Engine T) k c (l : event T) p g l' g',
  pl_get l k = Ok p -> p_type p = PPhoton ->
  pl_n l = (pl_max l - 1)%Z ->
  call_process E k (BreitWheeler c) l g = Ok (l', g') -> pl_n l' <> pl_n l ->
  exists po el q, p_charge po = n1 /\ p_charge el = nlit (-1) 0 /\
    pl_items l' = upd (pl_items l) (Z.to_nat k) q ++ [po] /\ p_alive q = false /\ same_identity p q /\
    pl_lost l' = pl_lost l ++ [el].
Proof.
  intros T H0 E k c l p g l' g' HG HT HN HC HD. unfold call_process in HC. rewrite HG in HC. cbn [bind] in HC.
  apply bind_ok in HC. destruct HC as [[[p' l1] g1] [HI HC]]. injection HC; intros; subst l' g'.
  destruct (pl_get_inv l k p HG) as [Hk HP].
  assert (HA : p_alive p = true).
  { destruct (p_alive p) eqn:EA; [auto|]. destruct (interact_dead_inv E (BreitWheeler c) p l g p' l1 g1 HI EA) as (-> & -> & _).
    exfalso. apply HD. unfold pl_n, pl_set. cbn. rewrite length_upd. reflexivity. }
  destruct (C41_pair_or_nothing E c p l g p' l1 g1 HT HA HI) as [(_ & -> & _)|(HA' & (d & Hd) & po & el & HL & Q1 & Q2 & _)].
  { exfalso. apply HD. unfold pl_n, pl_set. cbn. rewrite length_upd. reflexivity. }
  assert (H1 : pl_add l po = mkPL (pl_name l) (pl_max l) (pl_items l ++ [po]) (pl_lost l)).
  { unfold pl_add. assert (HB : (pl_n l <? pl_max l)%Z = true) by (apply Z.ltb_lt; lia). rewrite HB. reflexivity. }
  assert (H2 : l1 = mkPL (pl_name l) (pl_max l) (pl_items l ++ [po]) (pl_lost l ++ [el])).
  { rewrite HL, H1. unfold pl_add. cbn [pl_max pl_items pl_lost pl_name].
    assert (HB : (pl_n (mkPL (pl_name l) (pl_max l) (pl_items l ++ [po]) (pl_lost l)) <? pl_max l)%Z = false).
    { apply Z.ltb_ge. unfold pl_n in *. cbn [pl_items]. rewrite app_length. cbn. lia. }
    rewrite HB. reflexivity. }
  exists po, el, p'. split; [auto|]. split; [auto|]. rewrite H2. unfold pl_set. cbn [pl_items pl_lost].
  assert (HU : upd (pl_items l ++ [po]) (Z.to_nat k) p' = upd (pl_items l) (Z.to_nat k) p' ++ [po]) by (apply upd_app, nth_error_Some; congruence).
  rewrite HU. assert (HS : same_identity p p') by (rewrite Hd; repeat split). auto.
Qed.
Print Assumptions C44_electron_lost.

(** so the stored charge goes up by one *)
Theorem C44_charge_off_by_one : forall (E : Engine R) k c (l : event R) p g l' g',
  pl_get l k = Ok p -> p_type p = PPhoton ->
  pl_n l = (pl_max l - 1)%Z ->
  call_process E k (BreitWheeler c) l g = Ok (l', g') -> pl_n l' <> pl_n l ->
  total_charge (pl_items l') = total_charge (pl_items l) + 1.
Proof.
  intros E k c l p g l' g' HG HT HN HC HD.
  destruct (C44_electron_lost E k c l p g l' g' HG HT HN HC HD) as (po & el & q & Q1 & _ & HI & _ & HS & _).
  destruct (pl_get_inv l k p HG) as [_ HP]. destruct (upd_split _ _ _ q HP) as (a & b & E1 & _ & E2).
  rewrite HI. unfold total_charge. rewrite E2, E1, !map_app, !sumR_app. cbn [map].
  assert (HQ : p_charge q = p_charge p) by apply HS. rewrite HQ, Q1, n1_R. unfold sumR. simpl. lra.
Qed.
Print Assumptions C44_charge_off_by_one.

(** no free place: the photon is gone and nothing is stored *)
Theorem C44_pair_lost : forall {T} `{Num T} (E : Engine T) k c (l : event T) p g l' g',
  pl_get l k = Ok p -> p_type p = PPhoton -> p_alive p = true -> pl_n l = pl_max l ->
  call_process E k (BreitWheeler c) l g = Ok (l', g') ->
  pl_n l' = pl_n l /\
  (forall q, nth_error (pl_items l') (Z.to_nat k) = Some q -> p_alive q = false ->
     exists po el, pl_lost l' = pl_lost l ++ [po; el] /\ p_charge po = n1 /\ p_charge el = nlit (-1) 0).
Proof.
  intros T HT0 E k c l p g l' g' HG HT HA HN HC. unfold call_process in HC. rewrite HG in HC. cbn [bind] in HC.
  apply bind_ok in HC. destruct HC as [[[p' l1] g1] [HI HC]]. injection HC; intros; subst l' g'.
  destruct (pl_get_inv l k p HG) as [Hk HP].
  destruct (C41_pair_or_nothing E c p l g p' l1 g1 HT HA HI) as [(HA1 & -> & _)|(HA' & (d & Hd) & po & el & HL & Q1 & Q2 & _)].
  - split; [unfold pl_n, pl_set; cbn; rewrite length_upd; reflexivity|]. intros q Hq Hqa. exfalso. unfold pl_set in Hq. cbn [pl_items] in Hq.
    rewrite nth_error_upd_same in Hq by (apply nth_error_Some; congruence). injection Hq; intros; subst. congruence.
  - assert (HF : forall (m : event T) x, pl_n m = pl_max m -> pl_add m x = mkPL (pl_name m) (pl_max m) (pl_items m) (pl_lost m ++ [x])).
    { intros m x Hm. unfold pl_add. rewrite Hm, Z.ltb_irrefl. reflexivity. }
    rewrite (HF l po HN) in HL. rewrite HF in HL by exact HN. cbn [pl_name pl_max pl_items pl_lost] in HL.
    rewrite HL. split; [unfold pl_n, pl_set; cbn; rewrite length_upd; reflexivity|]. intros q _ _. exists po, el.
    unfold pl_set. cbn. rewrite <- app_assoc. auto.
Qed.
Print Assumptions C44_pair_lost.

(** a list of capacity 2 (capacity 1) whose only entry is the converting photon *)
Example C44_case : exists l' g',
  @call_process _ (Num_F64 ex_libm) ex_engine64 0 (BreitWheeler ex_bw64) (pl_add (pl_new "0"%string 2) ex_photon6) tt = Ok (l', g') /\
  pl_n l' = 2%Z /\ length (pl_lost l') = 1%nat /\ map p_name (pl_items l') = ["Photon"; "Positron"]%string.
Proof. eexists _, _. split; [vm_compute; reflexivity|]. vm_compute. auto. Qed.
Example C44_case_full : exists l' g',
  @call_process _ (Num_F64 ex_libm) ex_engine64 0 (BreitWheeler ex_bw64) (pl_add (pl_new "0"%string 1) ex_photon6) tt = Ok (l', g') /\
  pl_n l' = 1%Z /\ length (pl_lost l') = 2%nat /\ map p_alive (pl_items l') = [false].
Proof. eexists _, _. split; [vm_compute; reflexivity|]. vm_compute. auto. Qed.

(** ** C45 *)
(** any arithmetic, any processes: the particle loop never runs on; and a completed loop visited every particle
    of the final list exactly once, in order *)
Theorem C45_pass_ends : forall {T} `{Num T} (E : Engine T) (w : world T) (l : event T) g,
  (pl_n l <= pl_max l)%Z -> pass E w l g <> Fuel.
Proof. intros. apply pass_not_fuel; auto. Qed.
Print Assumptions C45_pass_ends.

Theorem C45_each_once : forall {T} `{Num T} (E : Engine T) (w : world T) (l : event T) g l' g',
  (pl_n l <= pl_max l)%Z ->
  (pass E w l g = Ok (l', g') <-> visits E w 0 (pl_n l') l g l' g').
Proof.
  intros T H E w l g l' g' HW. split; intros HX.
  - apply pass_from_visits in HX; [auto|apply pl_n_nonneg].
  - unfold pass. eapply visits_pass; [exact HX|reflexivity|].
    destruct (visits_mono E w _ _ _ _ _ _ HX) as (_ & (HM & _) & HW'). specialize (HW' HW). unfold wf in HW'. lia.
Qed.
Print Assumptions C45_each_once.

Theorem C45_at_most_capacity : forall {T} `{Num T} (E : Engine T) (w : world T) (l : event T) g l' g',
  (pl_n l <= pl_max l)%Z -> pass E w l g = Ok (l', g') ->
  (pl_n l <= pl_n l' <= pl_max l)%Z.
Proof.
  intros T H E w l g l' g' HW HX. apply pass_from_visits in HX; [|apply pl_n_nonneg].
  destruct (visits_mono E w _ _ _ _ _ _ HX) as (_ & HE & HW'). specialize (HW' HW). unfold wf in HW'.
  destruct HE as (E1 & _ & o & nw & lo & E2 & E3 & _). rewrite E1 in HW'. split; [|auto].
  unfold pl_n. rewrite E2, app_length, (Forall2_length _ _ _ E3). lia.
Qed.
Print Assumptions C45_at_most_capacity.

(** one particle at the start of the pass, three visited *)
Example C45_case : exists l' g', @pass _ (Num_F64 ex_libm) ex_engine64 ex_world64 ex_event64 tt = Ok (l', g') /\
  pl_n ex_event64 = 1%Z /\ pl_n l' = 3%Z /\ (pl_n ex_event64 <= pl_max ex_event64)%Z /\
  map p_time (pl_items l') = [f_lit 1 0; f_lit 2 0; f_lit 2 0].
Proof. eexists _, _. split; [vm_compute; reflexivity|]. vm_compute. repeat split; discriminate. Qed.

(** ** C46 *)
(** exact reals, positive step: there is exactly one number of steps, and a completed run made exactly that many *)
Theorem C46_number_of_steps : forall (E : Engine R) (w : world R) S htimes fill tEnd l g (h : S), 0 < w_dt w ->
  exists N, (tEnd <= INR N * w_dt w /\ forall m, (m < N)%nat -> INR m * w_dt w < tEnd) /\
    (forall fuel, (N <= fuel)%nat -> run_event E w htimes fill fuel tEnd l g h = run_event E w htimes fill N tEnd l g h) /\
    (forall fuel s', run_event E w htimes fill fuel tEnd l g h = Ok s' ->
       passes E w N l g = Ok (st_ev _ s', st_rng _ s') /\ st_time _ s' = INR N * w_dt w).
Proof.
  intros E w S htimes fill tEnd l g h Hd. destruct (step_count_exists (w_dt w) tEnd Hd) as [N HN]. exists N.
  pose proof (proj1 (step_count_R _ _ _ _) HN) as [H1 H2]. split; [split; [lra|intros m Hm; specialize (H2 m Hm); lra]|].
  split.
  - intros fuel HF. unfold run_event.
    rewrite (loop_fuel E w htimes fill tEnd N (mkSt n0 l g 0 h) 0 0%nat n0_R ltac:(lia) (fun m Hm => proj1 HN m (proj2 Hm)) (proj2 HN) fuel ltac:(lia)).
    rewrite Nat.sub_0_r. reflexivity.
  - intros fuel s' HX. destruct (run_decompose E w htimes fill fuel tEnd l g h s' HX) as (M & ns & sn & HM & _ & HP & _ & _ & _ & _ & _ & HT).
    rewrite n0_R in HM. assert (M = N) by (eapply step_count_unique; eauto). subst M. split; [auto|]. rewrite HT, clock_R, n0_R. lra.
Qed.
Print Assumptions C46_number_of_steps.

(** no step at all if the end is not positive *)
Theorem C46_no_step : forall (E : Engine R) (w : world R) S htimes fill tEnd l g (h : S) fuel, tEnd <= 0 ->
  run_event E w htimes fill fuel tEnd l g h = fill_rest E fill (length htimes) (mkSt 0 l g 0 h).
Proof.
  intros E w S htimes fill tEnd l g h fuel HE. unfold run_event.
  assert (HL : time_loop E w htimes fill fuel tEnd (mkSt n0 l g 0 h) = Ok (mkSt n0 l g 0 h)).
  { assert (HB : nltb (T := R) n0 tEnd = false) by (rewrite n0_R; apply Rltb_false; lra).
    destruct fuel; cbn [time_loop st_time]; rewrite HB; reflexivity. }
  rewrite HL. cbn [bind st_hc]. rewrite Nat.sub_0_r, n0_R. reflexivity.
Qed.
Print Assumptions C46_no_step.

(** zero or negative step and positive end: no run ever completes; if no step fails it runs for ever *)
Theorem C46_endless : forall (E : Engine R) (w : world R) S htimes fill tEnd l g (h : S), w_dt w <= 0 -> 0 < tEnd ->
  (forall fuel s', run_event E w htimes fill fuel tEnd l g h <> Ok s') /\
  ((forall pr, In pr (w_procs w) -> process_ok pr) -> (pl_n l <= pl_max l)%Z -> (forall i t ps x, exists x', fill i t ps x = Ok x') ->
   forall fuel, run_event E w htimes fill fuel tEnd l g h = Fuel \/ run_event E w htimes fill fuel tEnd l g h = Exit (-1)).
Proof.
  intros E w S htimes fill tEnd l g h Hd HE.
  assert (HB : forall m, (0 <= m)%nat -> nltb (clock (T := R) 0 (w_dt w) m) tEnd = true).
  { intros m _. rewrite clock_R. apply Rltb_true. pose proof (pos_INR m). nra. }
  assert (HL : forall fuel s', time_loop E w htimes fill fuel tEnd (mkSt n0 l g 0 h) <> Ok s').
  { intros fuel s'. apply (loop_endless E w htimes fill tEnd _ 0 0%nat); auto. rewrite n0_R. reflexivity. }
  split.
  - intros fuel s' HX. unfold run_event in HX. apply bind_ok in HX. destruct HX as [s [HX _]]. apply (HL fuel s HX).
  - intros HO HW HF fuel. unfold run_event.
    destruct (loop_safe E w htimes fill tEnd fuel HO HF (mkSt n0 l g 0 h) HW) as [(s & HX & _)|[->| ->]]; cbn; auto.
    exfalso. apply (HL fuel s HX).
Qed.
Print Assumptions C46_endless.

(** in binary64 the accumulated clock can need one step more: 0.1 added ten times stays below 1 *)
Example C46_rounding : @step_count _ (Num_F64 ex_libm) (f_lit 0 0) (f_lit 1 (-1)) (f_lit 1 0) 11.
Proof.
  split; [|vm_compute; reflexivity]. intros m Hm. do 11 (destruct m as [|m]; [vm_compute; reflexivity|]). lia.
Qed.
Example C46_case : let w := mkWorld (T := R) lorentz_force ex_field (1/4) [] in
  0 < w_dt w /\ step_count (T := R) 0 (w_dt w) 1 4.
Proof.
  cbv zeta. split; [cbn; lra|]. apply step_count_R. cbn [w_dt]. split; [simpl; lra|].
  intros m Hm. do 4 (destruct m as [|m]; [simpl; lra|]). lia.
Qed.

(** ** C47 *)
(** a live particle of generation [g] is exactly [g] steps ahead of the simulation clock, after any number of steps *)
Theorem C47_clock_by_generation : forall (E : Engine R) (w : world R) n l g l' g',
  (forall p, In p (pl_items l) -> p_alive p = true -> p_time p = 0) ->
  passes E w n l g = Ok (l', g') ->
  exists gens, length gens = length (pl_items l') /\ lineage (length (pl_items l)) gens /\
    forall i p gi, nth_error (pl_items l') i = Some p -> nth_error gens i = Some gi -> p_alive p = true ->
      p_time p = INR n * w_dt w + INR gi * w_dt w.
Proof.
  intros E w n l g l' g' H0 HX.
  destruct (ahead_passes E w (length (pl_items l)) 0 n l g l' g' (repeat O (length (pl_items l))) HX) as (more & [A1 A2] & G).
  - split; [apply repeat_length|]. intros i p gi Hp Hg Ha. apply nth_error_repeat in Hg. subst gi. cbn [Nat.ltb Nat.leb].
    rewrite (H0 p) by (auto; eapply nth_error_In; eauto). cbn. lra.
  - apply lineage_start.
  - rewrite repeat_length. auto.
  - exists (repeat O (length (pl_items l)) ++ more). split; [auto|]. split; [auto|]. intros i p gi Hp Hg Ha.
    rewrite (A2 i p gi Hp Hg Ha). cbn [Nat.ltb Nat.leb]. lra.
Qed.
Print Assumptions C47_clock_by_generation.

(** hence nobody alive lags behind the simulation clock, primaries agree with it, and every live secondary is ahead *)
Theorem C47_never_behind : forall (E : Engine R) (w : world R) S htimes fill fuel tEnd l g (h : S) s',
  0 < w_dt w -> (forall p, In p (pl_items l) -> p_alive p = true -> p_time p = 0) ->
  run_event E w htimes fill fuel tEnd l g h = Ok s' ->
  forall i p, nth_error (pl_items (st_ev _ s')) i = Some p -> p_alive p = true ->
    ((i < length (pl_items l))%nat -> p_time p = st_time _ s') /\
    ((length (pl_items l) <= i)%nat -> st_time _ s' + w_dt w <= p_time p).
Proof.
  intros E w S htimes fill fuel tEnd l g h s' Hd H0 HX i p Hp Ha.
  destruct (run_decompose E w htimes fill fuel tEnd l g h s' HX) as (N & ns & sn & _ & _ & HP & _ & _ & _ & _ & _ & HT).
  destruct (C47_clock_by_generation E w N l g _ _ H0 HP) as (gens & G1 & G2 & G3).
  rewrite HT, clock_R, n0_R. destruct (nth_error gens i) as [gi|] eqn:EG.
  - rewrite (G3 i p gi Hp EG Ha). destruct (G2 i gi EG) as [L1 L2]. split; intros HI.
    + rewrite (L1 HI). cbn. lra.
    + destruct (L2 HI) as (j & gj & _ & _ & ->). rewrite S_INR. pose proof (pos_INR gj). nra.
  - apply nth_error_None in EG. assert (i < length (pl_items (st_ev _ s')))%nat by (apply nth_error_Some; congruence). lia.
Qed.
Print Assumptions C47_never_behind.

(** the newborn's first clock reading is its parent's, in any arithmetic (the parent was pushed before, the child is pushed after) *)
Theorem C47_born_at_parents_clock : forall {T} `{Num T} (E : Engine T) k pr (l : event T) g l' g' i q,
  call_process E k pr l g = Ok (l', g') -> nth_error (pl_items l') i = Some q -> (length (pl_items l) <= i)%nat ->
  exists p, pl_get l k = Ok p /\ p_alive p = true /\ p_time q = p_time p /\ p_pos q = p_pos p.
Proof.
  intros T H E k pr l g l' g' i q HX Hq Hi. pose proof HX as HX0. unfold call_process in HX0. apply bind_ok in HX0. destruct HX0 as [p0 [HG _]].
  apply call_process_change in HX.
  destruct HX as (Hk & p & p' & st & lo & (C1 & C2 & _) & [HB _] & _ & _ & _ & HAl & l1 & HI & HL1).
  exists p. destruct (pl_get_inv _ _ _ HG) as [_ HG']. assert (p0 = p) by congruence. subst p0. split; [auto|].
  rewrite C2, nth_error_app2 in Hq by (rewrite length_upd; auto). rewrite length_upd in Hq.
  destruct (HB q) as (_ & P1 & P2 & _); [apply in_or_app; left; eapply nth_error_In; eauto|]. split; [|auto].
  destruct (p_alive p) eqn:EA; [auto|exfalso]. destruct (interact_dead_inv E pr p l g p' l1 g' HI EA) as (-> & -> & _).
  rewrite HL1 in C2. cbn [pl_set pl_items] in C2. apply (f_equal (@length _)) in C2. rewrite app_length, !length_upd in C2.
  destruct st; [destruct (i - length (pl_items l))%nat; discriminate|cbn in C2; lia].
Qed.
Print Assumptions C47_born_at_parents_clock.

(** after three steps of 1 the primary would read 3; the pair made in the first step reads 4 *)
Example C47_case : exists s', ex_run = Ok s' /\ st_time _ s' = f_lit 3 0 /\
  map (fun p => (p_alive p, p_time p)) (pl_items (st_ev _ s')) = [(false, f_lit 1 0); (true, f_lit 4 0); (true, f_lit 4 0)].
Proof. eexists. split; [vm_compute; reflexivity|]. vm_compute. auto. Qed.

(** ** C48 *)
Theorem C48_identity : forall {T} `{Num T} (E : Engine T) (w : world T) S htimes fill fuel tEnd l g (h : S) s',
  run_event E w htimes fill fuel tEnd l g h = Ok s' ->
  (length (pl_items l) <= length (pl_items (st_ev _ s')))%nat /\ pl_name (st_ev _ s') = pl_name l /\
  forall i p, nth_error (pl_items l) i = Some p ->
  exists p', nth_error (pl_items (st_ev _ s')) i = Some p' /\
    p_type p' = p_type p /\ p_name p' = p_name p /\ p_mass p' = p_mass p /\ p_charge p' = p_charge p /\
    p_weight p' = p_weight p /\ p_tracking p' = p_tracking p /\ (p_alive p = false -> p' = p).
Proof.
  intros T H E w S htimes fill fuel tEnd l g h s' HX. destruct (run_extends E w htimes fill fuel tEnd l g h s' HX) as (_ & HN & o & nw & lo & E1 & E2 & _).
  split; [rewrite E1, app_length, (Forall2_length _ _ _ E2); lia|]. split; [auto|].
  intros i p Hp. rewrite E1. clear - E2 Hp. revert i Hp. induction E2 as [|x y a b [(I1&I2&I3&I4&I5&I6) I7] HF IH]; intros [|i] Hp; try discriminate.
  - injection Hp; intros <-. exists y. cbn. auto 12.
  - apply IH. exact Hp.
Qed.
Print Assumptions C48_identity.

(** the same between any two moments of a run *)
Theorem C48_identity_between_steps : forall {T} `{Num T} (E : Engine T) (w : world T) n m l g l1 g1 l2 g2,
  passes E w n l g = Ok (l1, g1) -> passes E w (n + m) l g = Ok (l2, g2) ->
  forall i p, nth_error (pl_items l1) i = Some p ->
  exists p', nth_error (pl_items l2) i = Some p' /\
    p_type p' = p_type p /\ p_name p' = p_name p /\ p_mass p' = p_mass p /\ p_charge p' = p_charge p /\
    p_weight p' = p_weight p /\ p_tracking p' = p_tracking p /\ (p_alive p = false -> p' = p).
Proof.
  intros T H E w n m l g l1 g1 l2 g2 H1 H2.
  assert (HE : extends l1 l2).
  { revert l2 g2 H2. induction m as [|m IH]; intros l2 g2 H2.
    - rewrite Nat.add_0_r, H1 in H2. injection H2; intros; subst. apply extends_refl.
    - rewrite Nat.add_succ_r in H2. cbn in H2. apply bind_ok in H2. destruct H2 as [[l3 g3] [H3 H4]]. apply IH in H3.
      eapply extends_trans; [exact H3|]. eapply pass_extends. exact H4. }
  destruct HE as (_ & _ & o & nw & lo & E1 & E2 & _).
  intros i p Hp. rewrite E1. clear - E2 Hp. revert i Hp. induction E2 as [|x y a b [(I1&I2&I3&I4&I5&I6) I7] HF IH]; intros [|i] Hp; try discriminate.
  - injection Hp; intros <-. exists y. cbn. auto 12.
  - apply IH. exact Hp.
Qed.
Print Assumptions C48_identity_between_steps.

Example C48_case : exists l1 g1 l2 g2, @passes _ (Num_F64 ex_libm) ex_engine64 ex_world64 1 ex_event64 tt = Ok (l1, g1) /\
  @passes _ (Num_F64 ex_libm) ex_engine64 ex_world64 (1 + 1) ex_event64 tt = Ok (l2, g2) /\
  map p_alive (pl_items l1) = [false; true; true] /\ map p_name (pl_items l2) = ["Photon"; "Positron"; "Electron"]%string.
Proof. eexists _, _, _, _. split; [vm_compute; reflexivity|]. split; [vm_compute; reflexivity|]. vm_compute. auto. Qed.

(** ** C54 *)
(** any arithmetic, any histogram implementation: there are steps [ns], fixed by [schedule] (each histogram in turn at the
    first step after the previous one at which its time has come), such that the histogram calls of the event are exactly:
    number 0, 1, 2, ... once each, on the event as it was before those steps, and on the final event for the rest *)
Theorem C54_each_histogram_once : forall {T} `{Num T} (E : Engine T) (w : world T) S htimes fill fuel tEnd l g (h : S) s',
  run_event E w htimes fill fuel tEnd l g h = Ok s' ->
  exists N ns snaps, step_count n0 (w_dt w) tEnd N /\ schedule n0 (w_dt w) N 0 htimes ns /\
    length snaps = length htimes /\
    Forall2 (fun n sn => exists ln gn, passes E w n l g = Ok (ln, gn) /\ sn = (clock n0 (w_dt w) n, pl_items ln))
      (ns ++ repeat N (length htimes - length ns)) snaps /\
    fills fill 0 snaps h = Ok (st_hist _ s').
Proof.
  intros T H E w S htimes fill fuel tEnd l g h s' HX.
  destruct (run_decompose E w htimes fill fuel tEnd l g h s' HX) as (N & ns & sn & HN & _ & _ & HS & HL & HF & HH & _).
  exists N, ns, sn. split; [auto|]. split; [auto|]. split; [|auto].
  rewrite (Forall2_length _ _ _ HF), app_length, repeat_length. lia.
Qed.
Print Assumptions C54_each_histogram_once.

(** what a schedule says: strictly increasing steps before the end, never before the histogram's own time, and the first
    histogram that is left over was not due at any later step *)
Lemma schedule_meaning : forall {T} `{Num T} (t0 dt : T) N htimes ns, schedule t0 dt N 0 htimes ns ->
  (forall i n, nth_error ns i = Some n -> (n < N)%nat /\
     exists ht, nth_error htimes i = Some ht /\ nleb ht (clock t0 dt n) = true) /\
  (forall i j n m, (i < j)%nat -> nth_error ns i = Some n -> nth_error ns j = Some m -> (n < m)%nat) /\
  (forall ht, nth_error htimes (length ns) = Some ht ->
     forall n, (match length ns with O => 0 | S k => nth k ns 0 + 1 end <= n < N)%nat -> nleb ht (clock t0 dt n) = false).
Proof.
  intros T H t0 dt N htimes ns HS0.
  assert (HG : forall a, schedule t0 dt N a htimes ns -> (forall i n, nth_error ns i = Some n -> (a <= n < N)%nat /\
     exists ht, nth_error htimes i = Some ht /\ nleb ht (clock t0 dt n) = true) /\
    (forall i j n m, (i < j)%nat -> nth_error ns i = Some n -> nth_error ns j = Some m -> (n < m)%nat) /\
    (forall ht, nth_error htimes (length ns) = Some ht ->
     forall n, (match length ns with O => a | S k => nth k ns 0 + 1 end <= n < N)%nat -> nleb ht (clock t0 dt n) = false)).
  { clear HS0. intros a HS. induction HS as [a|a ht rest HB|a ht rest n ns H1 H2 H3 H4 (I1 & I2 & I3)].
    - split; [intros [|i] n HX; discriminate|]. split; [intros [|i] j n m _ HX; discriminate|]. intros ht HX. discriminate.
    - split; [intros [|i] n HX; discriminate|]. split; [intros [|i] j n m _ HX; discriminate|].
      intros ht' HX n Hn. cbn in HX, Hn. injection HX; intros <-. apply HB. lia.
    - split; [|split].
      + intros [|i] m HX; cbn in HX.
        * injection HX; intros <-. split; [lia|]. exists ht. auto.
        * destruct (I1 i m HX) as [J1 J2]. split; [lia|]. exact J2.
      + intros [|i] [|j] m k Hij Hm Hk; try lia; cbn in Hm, Hk.
        * injection Hm; intros <-. destruct (I1 j k Hk) as [J1 _]. lia.
        * apply (I2 i j); auto; lia.
      + intros ht' HX m Hm. cbn [length] in HX, Hm. apply (I3 ht'); [exact HX|].
        destruct ns as [|n' ns']; cbn [length nth] in Hm |- *; [lia|]. exact Hm. }
  destruct (HG 0%nat HS0) as (G1 & G2 & G3). split; [intros i n HX; destruct (G1 i n HX); split; [lia|auto]|]. auto.
Qed.

(** and it is determined by the times: the steps are the least possible *)
Lemma schedule_unique : forall {T} `{Num T} (t0 dt : T) N a htimes ns ns',
  schedule t0 dt N a htimes ns -> schedule t0 dt N a htimes ns' -> ns = ns'.
Proof.
  intros T H t0 dt N a htimes ns ns' HS. revert ns'. induction HS as [a|a ht rest HB|a ht rest n ns H1 H3 H2 H4 IH]; intros ns' HS'.
  - inversion HS'; auto.
  - inversion HS' as [| |? ? ? m ? K1 K3 K2 K4]; subst; auto. exfalso. rewrite HB in K3 by lia. discriminate.
  - inversion HS' as [|? ? ? KB|? ? ? m ms K1 K3 K2 K4]; subst.
    + exfalso. rewrite KB in H3 by lia. discriminate.
    + assert (m = n). { destruct (Nat.lt_trichotomy m n) as [HL|[HL|HL]]; auto.
        - rewrite H2 in K3 by lia. discriminate.
        - rewrite K2 in H3 by lia. discriminate. }
      subst m. f_equal. apply IH; auto.
Qed.

(** the calls of an event in terms of the times alone: [ns] are the steps before which histograms 0, 1, ... are filled.  They are
    strictly increasing, none is before the time of its histogram, and the first histogram left for the end was not due at any step
    after the last of [ns]; and every such list of calls of this event has the same steps *)
Theorem C54_schedule_meaning : forall {T} `{Num T} (E : Engine T) (w : world T) S htimes fill fuel tEnd l g (h : S) s',
  run_event E w htimes fill fuel tEnd l g h = Ok s' ->
  exists N ns snaps, step_count n0 (w_dt w) tEnd N /\
    (forall i n, nth_error ns i = Some n -> (n < N)%nat /\
       exists ht, nth_error htimes i = Some ht /\ nleb ht (clock n0 (w_dt w) n) = true) /\
    (forall i j n m, (i < j)%nat -> nth_error ns i = Some n -> nth_error ns j = Some m -> (n < m)%nat) /\
    (forall ht, nth_error htimes (length ns) = Some ht ->
       forall n, (match length ns with O => 0 | S k => nth k ns 0 + 1 end <= n < N)%nat -> nleb ht (clock n0 (w_dt w) n) = false) /\
    (forall ns', schedule n0 (w_dt w) N 0 htimes ns' -> ns' = ns) /\
    Forall2 (fun n sn => exists ln gn, passes E w n l g = Ok (ln, gn) /\ sn = (clock n0 (w_dt w) n, pl_items ln))
      (ns ++ repeat N (length htimes - length ns)) snaps /\
    fills fill 0 snaps h = Ok (st_hist _ s').
Proof.
  intros T H E w S htimes fill fuel tEnd l g h s' HX.
  destruct (C54_each_histogram_once E w S htimes fill fuel tEnd l g h s' HX) as (N & ns & sn & HN & HS & _ & HF & HH).
  destruct (schedule_meaning _ _ _ _ _ HS) as (M1 & M2 & M3).
  exists N, ns, sn. split; [auto|]. split; [auto|]. split; [auto|]. split; [auto|]. split; [|auto].
  intros ns' HS'. eapply schedule_unique; eauto.
Qed.
Print Assumptions C54_schedule_meaning.

(** histogram times 2, 1, 0 and steps at 0, 1, 2: number 0 is filled before step 2; numbers 1 and 2, overdue, only at the end *)
Example C54_case : exists s', ex_run = Ok s' /\ st_hist _ s' = [(0%nat, f_lit 2 0, 3%nat); (1%nat, f_lit 3 0, 3%nat); (2%nat, f_lit 3 0, 3%nat)].
Proof. eexists. split; [vm_compute; reflexivity|]. vm_compute. auto. Qed.

(** ** C78 *)
(** exact reals, tables of consistent shape, histograms that do not fail: given enough fuel a run completes or ends with the
    reported exit -1; never an out-of-range access *)
Theorem C78_run_memory_safe : forall (E : Engine R) (w : world R) S htimes fill tEnd l g (h : S), 0 < w_dt w ->
  (forall pr, In pr (w_procs w) -> process_ok pr) -> (pl_n l <= pl_max l)%Z ->
  (forall i t ps x, exists x', fill i t ps x = Ok x') ->
  exists N, forall fuel, (N <= fuel)%nat ->
    (exists s', run_event E w htimes fill fuel tEnd l g h = Ok s' /\ (pl_n (st_ev _ s') <= pl_max l)%Z) \/
    run_event E w htimes fill fuel tEnd l g h = Exit (-1).
Proof.
  intros E w S htimes fill tEnd l g h Hd HO HW HF. destruct (step_count_exists (w_dt w) tEnd Hd) as [N HN]. exists N. intros fuel HL.
  unfold run_event.
  assert (HE : nltb (T := R) (clock n0 (w_dt w) N) tEnd = false) by (rewrite n0_R; apply HN).
  destruct (loop_safe E w htimes fill tEnd fuel HO HF (mkSt n0 l g 0 h) HW) as [(s & HX & HS)|[->|HX]]; [|right; reflexivity|].
  - left. rewrite HX. cbn [bind]. destruct (fill_rest_safe E fill (length htimes - st_hc _ s) HF s) as [s2 H2]. exists s2. split; [exact H2|].
    destruct (fill_rest_ev E fill _ _ _ H2) as (-> & _).
    assert (HR : run_event E w htimes fill fuel tEnd l g h = Ok s2) by (unfold run_event; rewrite HX; exact H2).
    destruct (run_extends E w htimes fill fuel tEnd l g h s2 HR) as (HM & _).
    destruct (fill_rest_ev E fill _ _ _ H2) as (HEv & _). unfold wf in HS. rewrite HEv in HM. rewrite <- HM. exact HS.
  - exfalso. destruct (loop_not_fuel E w htimes fill tEnd N (mkSt n0 l g 0 h) n0 0%nat eq_refl ltac:(lia) HO HF HW HE fuel ltac:(lia)) as [[s2 H2]|H2]; congruence.
Qed.
Print Assumptions C78_run_memory_safe.

(** ** A run over the exact reals: one electron, quantum emission, one step; it completes *)
Definition ex_world (frac : R) : world R := mkWorld lorentz_force no_field 1 [Stochastic (ex_em frac)].
Definition ex_event : event R := pl_add ex_list ex_lepton.
Definition ex_fill (i : nat) (t : R) (ps : list (particle R)) (h : list nat) := Ok (h ++ [length ps]).
Example ex_run_R : exists s', run_event ex_engine (ex_world 1) [0] ex_fill 1 1 ex_event tt [] = Ok s'.
Proof.
  destruct ex_ok as (O1 & _ & O3 & _).
  set (p1 := push_particle (lorentz_force (T := R)) no_field 1 ex_lepton).
  assert (M : p_mom p1 = p_mom ex_lepton /\ p_mass p1 = 1 /\ p_type p1 = PLepton).
  { unfold p1, push_particle. cbn [ex_lepton p_alive p_mass]. fold ex_lepton. rewrite n0_R.
    assert (HB : neqb (T := R) 1 0 = false) by (apply Reqb_false; lra). rewrite HB.
    rewrite step_no_force by apply lorentz_force_zero. cbn. auto. }
  destruct M as (M1 & M2 & M3).
  assert (MV : moving_lepton p1) by (split; [auto|]; rewrite M1, M2; split; [lra|apply ex_moving]).
  assert (ME : eta_of ex_field p1 = 1).
  { rewrite <- ex_eta. unfold eta_of, ex_field, static_field. rewrite M1, M2. reflexivity. }
  assert (HI : exists q l' g', interact ex_engine (Stochastic (ex_em 1)) p1 (pl_set ex_event 0 p1) tt = Ok (q, l', g')).
  { destruct (interact_safe ex_engine (Stochastic (ex_em 1)) p1 (pl_set ex_event 0 p1) tt O1) as [HX|HX]; [auto|exfalso].
    cbn [interact] in HX. apply stochastic_exit in HX; [|exact O1]. rewrite calculate_eta_R in HX by auto.
    cbn [ex_em em_field em_tab] in HX. rewrite ME in HX. apply chi_exit_iff in HX; [|exact O1|exact O3|cbn; lia].
    rewrite ln_1 in HX. cbn in HX. unfold Rdiv in HX. rewrite Rmult_0_l in HX. lra. }
  destruct HI as (q & l' & g' & HI).
  assert (l' = pl_set ex_event 0 p1) by (eapply C39_default_fraction_no_photon; [| |exact HI]; [intros g; cbn; lra|cbn; lra]). subst l'.
  assert (HV : visit ex_engine (ex_world 1) 0 ex_event tt = Ok (pl_set (pl_set ex_event 0 p1) 0 q, g')).
  { unfold visit. change (pl_get ex_event 0) with (Ok ex_lepton). cbn [bind ex_world w_force w_field w_dt w_procs]. fold p1.
    cbn [call_processes]. unfold call_process at 1. change (pl_get (pl_set ex_event 0 p1) 0) with (Ok p1). cbn [bind]. rewrite HI. reflexivity. }
  assert (HP : pass ex_engine (ex_world 1) ex_event tt = Ok (pl_set (pl_set ex_event 0 p1) 0 q, g')).
  { unfold pass. change (Z.to_nat (pl_max ex_event)) with 10%nat. cbn [pass_from]. change (0 <? pl_n ex_event)%Z with true. cbv iota.
    rewrite HV. cbn [bind fst snd]. reflexivity. }
  unfold run_event. cbn [time_loop]. change (st_time ex_engine (mkSt (S := list nat) n0 ex_event (tt : est ex_engine) 0 [])) with (n0 (T := R)).
  rewrite n0_R. assert (H01 : nltb (T := R) 0 1 = true) by (apply Rltb_true; lra). rewrite H01.
  unfold time_step. assert (HC : exists h', hist_check ex_engine [0] ex_fill (mkSt 0 ex_event (tt : est ex_engine) 0 []) = Ok (mkSt 0 ex_event (tt : est ex_engine) 1 h')).
  { unfold hist_check. cbn [st_hc nth_error]. cbn [st_time]. assert (H00 : nleb (T := R) 0 0 = true) by (apply Rleb_true; lra). rewrite H00.
    eexists. reflexivity. }
  destruct HC as [h' HC]. rewrite HC. cbn [bind st_ev st_rng]. rewrite HP. cbn [bind fst snd st_time st_hc st_hist w_dt ex_world time_loop].
  assert (H11 : nltb (T := R) (nadd 0 1) 1 = false) by (apply Rltb_false; cbn; lra). rewrite H11. cbn. eexists. reflexivity.
Qed.
(** its hypotheses for C39, C46, C47, C78 *)
Example ex_run_R_hyps : (forall pr, In pr (w_procs (ex_world 1)) -> quantum_process pr /\ process_ok pr) /\
  (forall p, In p (pl_items ex_event) -> p_type p = PLepton /\ p_time p = 0) /\ (pl_n ex_event <= pl_max ex_event)%Z /\ 0 < w_dt (ex_world 1) /\
  (forall i t ps x, exists x', ex_fill i t ps x = Ok x').
Proof.
  split; [intros pr [<-|[]]; split; [cbn; lra|apply ex_ok]|]. split; [intros p [<-|[]]; cbn; auto|].
  split; [cbn; lia|]. split; [cbn; lra|]. intros. eexists. reflexivity.
Qed.
