(** * Properties C49-C53, C79, C80: histograms *)
From Coq Require Import String ZArith Reals Lra Psatz List Bool Lia Permutation.
From Coq Require Import Floats.SpecFloat.
From Verif Require Import Num RNum Outcome OutcomeFacts Vec SpecVec VecFacts RotationFacts VecExtra Numerics SpecTable NumericsFacts MCTools Particle ParticleList Fields Pusher Process Sim SimFacts SimTime SimClock
  Histogram HistRace HistFacts.
Import ListNotations.
Local Open Scope R_scope.

(** ** C49 *)
(** adding one particle *)
Theorem C49_one_particle : forall (h : hist R) (p : particle R), hwf h -> increasing (hi_centres h) ->
  exists h', app_particle h p = Ok h' /\ same_axes h h' /\ hwf h' /\
    (inside (hi_centres h) (get_energy p) = false -> hi_values h' = hi_values h) /\
    (inside (hi_centres h) (get_energy p) = true ->
       exists i, nearest (hi_centres h) (get_energy p) i /\
         at_ (hi_values h') i = at_ (hi_values h) i + 1 /\ (forall j, j <> i -> at_ (hi_values h') j = at_ (hi_values h) j) /\
         length (hi_values h') = length (hi_values h)).
Proof.
  intros h p HW HI. rewrite app_energy by (destruct HW; lia).
  destruct (add_value_R h (get_energy p) HW HI) as (h' & HE & W & A & N1 & N2). exists h'.
  split; [auto|]. split; [auto|]. split; [auto|]. split; [auto|]. intros HX. destruct (N2 HX) as (i & HN & HV). exists i.
  split; [auto|]. rewrite HV. split; [apply at_upd_same; destruct HN as (B & _); destruct HW as (_ & C & D); lia|].
  split; [intros j Hj; apply at_upd_other; auto|]. apply length_upd.
Qed.
Print Assumptions C49_one_particle.

(** the entry counter counts every particle, in range or not (unsigned 32 bit) *)
Theorem C49_entries : forall {T} `{Num T} (h h' : hist T) (p : particle T), app_particle h p = Ok h' ->
  hi_entries h' = ((hi_entries h + 1) mod 2 ^ 32)%Z.
Proof.
  intros T N h h' p HA. unfold app_particle in HA. destruct (hi_n h =? 0)%Z; [discriminate|].
  unfold type_is, literal in HA. rewrite orb_true_r in HA. unfold add_value in HA.
  apply bind_ok in HA. destruct HA as [c [_ HA]]. apply bind_ok in HA. destruct HA as [hit [_ HA]]. destruct hit.
  - apply bind_ok in HA. destruct HA as [i [_ HA]]. apply bind_ok in HA. destruct HA as [x [_ HA]]. injection HA; intros <-. reflexivity.
  - injection HA; intros <-. reflexivity.
Qed.
Print Assumptions C49_entries.

(** Without bins: the first particle to be counted ends the program, and so does filling from a list; if no particle has the wanted name
    nothing happens. *)
Theorem C49_without_bins : forall {T} `{Num T} (h : hist T), hi_n h = 0%Z ->
  (forall p, app_particle h p = Exit 1) /\ (forall ps, fill_list h ps = Exit 1) /\
  (forall ps, app_named h ps = if existsb (fun p => String.eqb (hi_particle h) (p_name p)) ps then Exit 1 else Ok h).
Proof.
  intros T N h HN. unfold app_particle, fill_list. rewrite HN. split; [reflexivity|]. split; [reflexivity|].
  induction ps as [|p ps IH]; [reflexivity|]. cbn [app_named existsb]. unfold app_particle at 1. rewrite HN.
  destruct (String.eqb (hi_particle h) (p_name p)); [reflexivity|]. exact IH.
Qed.
Print Assumptions C49_without_bins.
(** any sequence of additions to any histogram: each particle strictly in range is counted in the bin of its nearest centre,
    nobody else is counted; hence the sum of the bins grows by the number of particles in range *)
Theorem C49_counting : forall (h : hist R) (ps : list (particle R)), hwf h -> increasing (hi_centres h) ->
  let es := filter (inside (hi_centres h)) (map get_energy ps) in
  exists h' idx, add_values h (map get_energy ps) = Ok h' /\
    Forall2 (nearest (hi_centres h)) es idx /\
    (forall i, at_ (hi_values h') i = at_ (hi_values h) i + INR (count idx i)) /\
    rsum (hi_values h') = rsum (hi_values h) + INR (length es).
Proof.
  intros h ps HW HI. cbv zeta. destruct (add_values_R (map get_energy ps) h HW HI) as (h' & idx & HE & W & A & F & L & V).
  exists h', idx. split; [auto|]. split; [auto|]. split; [auto|].
  rewrite <- (SimFacts.Forall2_length _ _ _ F). apply rsum_counts; auto.
  intros i Hi. destruct HW as (_ & B & C). revert Hi. clear - F B C. induction F as [|v k vs idx [HN _] F IH]; intros [].
  - subst. lia.
  - auto.
Qed.
Print Assumptions C49_counting.

(** the additions of a run (QEDCASC.cpp 217-224) are those of the particles carrying the histogram's particle name *)
Theorem C49_run_adds_named : forall (h : hist R) (ps : list (particle R)), hwf h ->
  app_named h ps = add_values h (map get_energy (filter (fun p => String.eqb (hi_particle h) (p_name p)) ps)).
Proof. intros h ps HW. apply app_named_eq. exact HW. Qed.
Print Assumptions C49_run_adds_named.

(** together with C54: after a run each configured histogram holds the counts of exactly one moment of the event *)
Lemma fills_each : forall (snaps : list (R * list (particle R))) i0 hs hs', fills hist_fill i0 snaps hs = Ok hs' ->
  length hs' = length hs /\
  (forall k sn, nth_error snaps k = Some sn -> exists h h', nth_error hs (i0 + k) = Some h /\ nth_error hs' (i0 + k) = Some h' /\ app_named h (snd sn) = Ok h') /\
  (forall j, (j < i0 \/ i0 + length snaps <= j)%nat -> nth_error hs' j = nth_error hs j).
Proof.
  induction snaps as [|[t ps] snaps IH]; intros i0 hs hs' HX; cbn [fills] in HX.
  - injection HX; intros <-. split; [auto|]. split; [intros [|k] sn HK; discriminate|]. auto.
  - apply bind_ok in HX. destruct HX as [hs1 [H1 HX]]. unfold hist_fill in H1. destruct (nth_error hs i0) as [h|] eqn:EH; [|discriminate].
    apply bind_ok in H1. destruct H1 as [h1 [HA H1]]. injection H1; intros <-.
    assert (HI : (i0 < length hs)%nat) by (apply nth_error_Some; congruence).
    rewrite Nat.add_1_r in HX. destruct (IH (S i0) _ _ HX) as (L & K & O). rewrite length_upd in L. split; [auto|]. split.
    + intros [|k] sn HK; cbn in HK.
      * injection HK; intros <-. exists h, h1. rewrite Nat.add_0_r. split; [auto|]. split; [|auto].
        rewrite O by lia. apply nth_error_upd_same; auto.
      * destruct (K k sn HK) as (a & b & Ha & Hb & Hc). rewrite nth_error_upd_other in Ha by lia. exists a, b.
        rewrite Nat.add_succ_r. auto.
    + intros j Hj. cbn [length] in Hj. rewrite O by lia. apply nth_error_upd_other. lia.
Qed.
Theorem C49_run_histograms : forall (E : Engine R) (w : world R) htimes fuel tEnd l g hs s',
  length htimes = length hs ->
  run_event E w htimes hist_fill fuel tEnd l g hs = Ok s' ->
  length (st_hist _ s') = length hs /\
  forall k h, nth_error hs k = Some h -> exists n ln gn h', passes E w n l g = Ok (ln, gn) /\
    nth_error (st_hist _ s') k = Some h' /\ app_named h (pl_items ln) = Ok h'.
Proof.
  intros E w htimes fuel tEnd l g hs s' HL HX.
  destruct (run_decompose E w htimes hist_fill fuel tEnd l g hs s' HX) as (N & ns & sn & _ & _ & _ & _ & HN & HF & HH & _).
  destruct (fills_each _ _ _ _ HH) as (L & K & _). split; [auto|]. intros k h Hk.
  assert (HSL : length sn = length htimes) by (rewrite (SimFacts.Forall2_length _ _ _ HF), app_length, repeat_length; lia).
  destruct (nth_error sn k) as [x|] eqn:EX.
  - destruct (K k x EX) as (a & b & Ha & Hb & Hc). cbn [Nat.add] in Ha, Hb. assert (a = h) by congruence. subst a.
    assert (HQ : exists n, snapshot E w l g n0 n x).
    { revert EX. generalize k. clear - HF. induction HF as [|n y ns' ss HS HF IH]; intros [|k] EX; try discriminate; cbn in EX.
      - injection EX; intros <-. eauto.
      - eauto. }
    destruct HQ as (n & ln & gn & HP & ->). exists n, ln, gn, b. auto.
  - apply nth_error_None in EX. assert (k < length hs)%nat by (apply nth_error_Some; congruence). lia.
Qed.
Print Assumptions C49_run_histograms.

(** the configured axis is the equidistant one from the lower to the upper limit, so the hypotheses above hold *)
Theorem C49_axis : forall garbage nm pa ty (t mn mx : R) n, (2 <= n < 2 ^ 31)%Z -> mn < mx ->
  let h := hist_new garbage nm pa ty t mn mx n in
  hwf h /\ increasing (hi_centres h) /\ hi_values h = repeat 0 (Z.to_nat n) /\
  (forall i, (i < Z.to_nat n)%nat -> at_ (hi_centres h) i = mn + INR i * ((mx - mn) / (IZR n - 1))) /\
  forall v, inside (hi_centres h) v = true <-> mn < v < mx.
Proof.
  intros garbage nm pa ty t mn mx n HN HM. cbv zeta. unfold hist_new.
  destruct (initialise_axis (mkH "" "" "" t 0 garbage [] []) nm pa ty t mn mx n HN HM) as (W & I & A0 & A1 & L & C & V).
  split; [auto|]. split; [auto|]. split; [auto|]. split; [auto|]. intros v. unfold inside. rewrite L, A0, A1.
  destruct (Rlt_dec mn v); [|split; [discriminate|lra]]. destruct (Rlt_dec v mx); [tauto|split; [discriminate|lra]].
Qed.
Print Assumptions C49_axis.

(** bins at 0, 1, 2, 3; a photon of energy 3/2 is counted in bin 2 (tie), one of energy 3 nowhere *)
Definition ex_h : hist R := hist_new 0 "h" "Photon" "energy" 0 0 3 4.
Definition ph (e : R) : particle R := mkP PPhoton "Photon" 0 0 1 0 0 false true (v3 0 0 0) (v3 e 0 0) [] [] [] [].
Lemma ph_energy e : 0 <= e -> get_energy (ph e) = e.
Proof.
  intros He. unfold get_energy. cbn [ph p_type p_mom]. rewrite mag_R. apply rlen_of_len2; [lra|]; runf; ring.
Qed.
Lemma ex_h_axis : hwf ex_h /\ increasing (hi_centres ex_h) /\ forall v, inside (hi_centres ex_h) v = true <-> 0 < v < 3.
Proof.
  destruct (C49_axis 0 "h" "Photon" "energy" 0 0 3 4 ltac:(lia) ltac:(lra)) as (A & B & _ & _ & C). auto.
Qed.
Example C49_without_bins_case : let h := hist_new 0 "h" "Photon" "Energy" 0 0 1 0 : hist R in
  hi_n h = 0%Z /\ app_named h [ph 1; ph 2] = Exit 1.
Proof. split; [reflexivity|]. reflexivity. Qed.
Example C49_case : exists h', app_particle ex_h (ph (3/2)) = Ok h' /\ at_ (hi_values h') 2 = 1 /\ inside (hi_centres ex_h) (get_energy (ph 3)) = false.
Proof.
  destruct (C49_axis 0 "h" "Photon" "energy" 0 0 3 4 ltac:(lia) ltac:(lra)) as (A & B & V & C & D).
  destruct (C49_one_particle ex_h (ph (3/2)) A B) as (h' & HE & _ & _ & _ & HY).
  rewrite ph_energy in HY by lra. exists h'. split; [auto|]. split.
  - destruct HY as (i & (Hi & HN & HT) & H1 & _); [apply D; lra|].
    assert (HL : length (hi_centres ex_h) = 4%nat) by (destruct A as (_ & A & _); change (hi_n (hist_new 0 "h" "Photon" "energy" 0 0 3 4)) with 4%Z in A; unfold ex_h; lia).
    rewrite HL in *. change (Z.to_nat 4) with 4%nat in C.
    pose proof (C 0%nat ltac:(lia)) as C0. pose proof (C 1%nat ltac:(lia)) as C1. pose proof (C 2%nat ltac:(lia)) as C2. pose proof (C 3%nat ltac:(lia)) as C3.
    fold ex_h in C0, C1, C2, C3. simpl INR in C0, C1, C2, C3.
    assert (E2 : at_ (hi_centres ex_h) 2 = 2) by lra. assert (E1 : at_ (hi_centres ex_h) 1 = 1) by lra.
    assert (E0 : at_ (hi_centres ex_h) 0 = 0) by lra. assert (E3 : at_ (hi_centres ex_h) 3 = 3) by lra.
    assert (i = 2%nat).
    { specialize (HN 2%nat ltac:(lia)) as HN2. specialize (HT 2%nat ltac:(lia)) as HT2. rewrite E2 in HN2, HT2.
      replace (Rabs (3/2 - 2)) with (1/2) in HN2, HT2 by (rewrite Rabs_left; lra).
      destruct i as [|[|[|[|i]]]]; [exfalso|exfalso|reflexivity|exfalso|lia].
      - rewrite E0 in HN2. rewrite Rabs_right in HN2; lra.
      - rewrite E1 in HT2. rewrite Rabs_right in HT2 by lra. specialize (HT2 ltac:(lra)). lia.
      - rewrite E3 in HN2. rewrite Rabs_left in HN2; lra. }
    subst i. rewrite H1. unfold ex_h. rewrite V. change (at_ (repeat 0 (Z.to_nat 4)) 2) with 0. lra.
  - rewrite ph_energy by lra. destruct (inside (hi_centres ex_h) 3) eqn:EI; [|auto]. apply D in EI. lra.
Qed.

(** ** C50 *)
Theorem C50_type_ignored : forall {T} `{Num T} (h : hist T) (ty : string) (p : particle T),
  let h2 := mkH (hi_name h) (hi_particle h) ty (hi_time h) (hi_n h) (hi_entries h) (hi_centres h) (hi_values h) in
  rmap (fun k => (hi_entries k, hi_values k)) (app_particle h2 p) = rmap (fun k => (hi_entries k, hi_values k)) (app_particle h p).
Proof.
  intros T H h ty p. cbv zeta. destruct (Z.eq_dec (hi_n h) 0) as [E|E].
  - unfold app_particle. cbn [hi_n]. rewrite E. reflexivity.
  - rewrite !app_energy by auto. unfold add_value. cbn [hi_n hi_centres hi_values hi_entries hi_name hi_particle hi_type hi_time].
    destruct (get _ 0); cbn [bind rmap]; auto. destruct (if nltb a (get_energy p) then _ else _) as [[|]| | | |]; cbn [bind rmap]; auto.
    destruct (array_index _ _ _); cbn [bind rmap]; auto. destruct (get _ _); reflexivity.
Qed.
Print Assumptions C50_type_ignored.

(** only the energy of the particle matters: not its weight, position, species or life *)
Theorem C50_energy_only : forall {T} `{Num T} (h : hist T) (p q : particle T),
  get_energy p = get_energy q -> app_particle h p = app_particle h q.
Proof.
  intros T H h p q HE. destruct (Z.eq_dec (hi_n h) 0) as [E|E].
  - unfold app_particle. rewrite E. reflexivity.
  - rewrite !app_energy by auto. rewrite HE. reflexivity.
Qed.
Print Assumptions C50_energy_only.

(** a histogram of "x" counts the energy *)
Definition ex_hx : hist R := hist_new 0 "h" "Photon" "x" 0 0 3 4.
Example C50_case : app_particle ex_hx (ph 2) = add_value ex_hx 2 /\ vx (p_pos (ph 2)) = 0.
Proof. split; [rewrite app_energy by (cbn; lia); rewrite ph_energy by lra; reflexivity|reflexivity]. Qed.

(** ** C51 *)
Lemma one_bin_centre L h0 nm pa ty t mn mx :
  hi_centres (@initialise _ (Num_F64 L) h0 nm pa ty t mn mx 1) = [S754_nan].
Proof.
  assert (HZ : f64_sub (f64_lit 1 0) (f64_lit 1 0) = S754_zero false) by (vm_compute; reflexivity).
  assert (HM : forall d, f64_mul (S754_zero false) (f64_div d (S754_zero false)) = S754_nan) by (intros [[]|[]| |[] m e]; reflexivity).
  change (hi_centres (@initialise _ (Num_F64 L) h0 nm pa ty t mn mx 1))
    with [f64_add mn (f64_mul (S754_zero false) (f64_div (f64_sub mx mn) (f64_sub (f64_lit 1 0) (f64_lit 1 0))))].
  rewrite HZ, HM. destruct mn as [[]|[]| |[] m e]; reflexivity.
Qed.
Theorem C51_one_bin_empty : forall (L : Libm) garbage nm pa ty t mn mx (ps : list (particle spec_float)),
  let h := @hist_new _ (Num_F64 L) garbage nm pa ty t mn mx 1 in
  hi_centres h = [S754_nan] /\
  exists h', @app_named _ (Num_F64 L) h ps = Ok h' /\ hi_values h' = [S754_zero false].
Proof.
  intros L garbage nm pa ty t mn mx ps. cbv zeta. unfold hist_new. split; [apply one_bin_centre|].
  set (h := initialise _ _ _ _ _ _ _ _).
  assert (G : forall k : hist spec_float, hi_n k = 1%Z -> hi_centres k = [S754_nan] -> hi_values k = [S754_zero false] ->
     exists h', @app_named _ (Num_F64 L) k ps = Ok h' /\ hi_values h' = [S754_zero false]).
  { induction ps as [|p ps IH]; intros k K1 K2 K3; cbn [app_named]; [eauto|].
    destruct (String.eqb (hi_particle k) (p_name p)); cbn [bind]; [|apply IH; auto].
    rewrite (@app_energy _ (Num_F64 L)) by lia. unfold add_value. rewrite K2. cbn [get length Z.of_nat Z.to_nat nth_error bind orb Z.ltb Z.leb Z.compare Pos.compare].
    change (get [S754_nan] 0) with (Ok S754_nan). cbn [bind nltb Num_F64].
    change (SFltb S754_nan (@get_energy _ (Num_F64 L) p)) with false. cbv iota. cbn [bind]. apply IH; auto. }
  apply G; [reflexivity|apply one_bin_centre|reflexivity].
Qed.
Print Assumptions C51_one_bin_empty.

Example C51_case : exists ps : list (particle spec_float), ps <> [] /\
  filter (fun p => String.eqb "Photon" (p_name p)) ps = ps.
Proof.
  exists [mkP PPhoton "Photon" (S754_zero false) (S754_zero false) (S754_zero false) (S754_zero false) (S754_zero false) false true
    (mkV (S754_zero false) (S754_zero false) (S754_zero false)) (mkV (S754_zero false) (S754_zero false) (S754_zero false)) [] [] [] []].
  split; [discriminate|reflexivity].
Qed.

(** ** C52 *)
Definition live (hp : heap R) (a : nat) (k : hist R) : Prop := nth_error hp a = Some (Some k) /\ hwf k.
(** what [a] contributes to bin [i] of a histogram binned like [h] *)
Definition share (h : hist R) (hp : heap R) (i a : nat) : R :=
  match nth_error hp a with
  | Some (Some k) => if same_binning_b h k then at_ (hi_values k) i else 0
  | _ => 0
  end.

Theorem C52_merge_one : forall (hp : heap R) this arg h k, live hp this h -> live hp arg k -> this <> arg ->
  exists hp' h', merge hp this arg = Ok hp' /\ live hp' this h' /\ same_axes h h' /\
    nth_error hp' arg = Some None /\
    (same_binning h k -> forall i, at_ (hi_values h') i = at_ (hi_values h) i + at_ (hi_values k) i) /\
    (~ same_binning h k -> h' = h) /\
    (forall a, a <> this -> a <> arg -> nth_error hp' a = nth_error hp a).
Proof.
  intros hp this arg h k (HT & WT) (HA & WA) HN. unfold merge, deref. rewrite HT. cbn [bind]. rewrite HA. cbn [bind].
  rewrite (compatible_R h k WT WA). cbn [bind].
  assert (LT : (this < length hp)%nat) by (apply nth_error_Some; congruence).
  assert (LA : (arg < length hp)%nat) by (apply nth_error_Some; congruence).
  destruct (same_binning_b h k) eqn:EB.
  - eexists _, (absorb h k). split; [reflexivity|].
    split; [split; [rewrite nth_error_upd_other by auto; apply nth_error_upd_same; auto|apply absorb_wf; auto]|].
    split; [repeat split|]. split; [apply nth_error_upd_same; rewrite length_upd; auto|].
    apply same_binning_iff in EB. split; [|split; [contradiction|]].
    + intros _ i. unfold absorb; cbn [hi_values]. apply at_add_lists. destruct WT as (_ & A1 & A2), WA as (_ & B1 & B2), EB as (E & _). lia.
    + intros a H1 H2. rewrite !nth_error_upd_other by auto. reflexivity.
  - eexists _, h. split; [reflexivity|]. split; [split; [rewrite nth_error_upd_other by auto; auto|auto]|].
    split; [apply same_axes_refl|]. split; [apply nth_error_upd_same; auto|].
    split; [intros HS; apply same_binning_iff in HS; congruence|]. split; [auto|]. intros a _ H2. apply nth_error_upd_other. auto.
Qed.
Print Assumptions C52_merge_one.

(** the entry counter of the sum is the sum of the counters (unsigned 32 bit) *)
Theorem C52_entries : forall (hp : heap R) this arg h k, live hp this h -> live hp arg k -> this <> arg -> same_binning h k ->
  exists hp' h', merge hp this arg = Ok hp' /\ nth_error hp' this = Some (Some h') /\
    hi_entries h' = ((hi_entries h + hi_entries k) mod 2 ^ 32)%Z.
Proof.
  intros hp this arg h k (HT & WT) (HA & WA) HN HB. unfold merge, deref. rewrite HT. cbn [bind]. rewrite HA. cbn [bind].
  rewrite (compatible_R h k WT WA). cbn [bind]. apply same_binning_iff in HB. rewrite HB.
  assert (LT : (this < length hp)%nat) by (apply nth_error_Some; congruence).
  eexists _, (absorb h k). split; [reflexivity|]. split; [rewrite nth_error_upd_other by auto; apply nth_error_upd_same; auto|].
  reflexivity.
Qed.
Print Assumptions C52_entries.

Lemma same_axes_binning h h' k : same_axes h h' -> same_binning_b h' k = same_binning_b h k.
Proof. intros (_ & _ & _ & _ & A & B). unfold same_binning_b. rewrite A, B. reflexivity. Qed.

(** merging a collection: the sum of all contributions with the same binning, whatever the order; all arguments are deleted *)
Theorem C52_merge_many : forall args (hp : heap R) this h, live hp this h ->
  NoDup args -> ~ In this args -> (forall a, In a args -> exists k, live hp a k) ->
  exists hp' h', merges hp this args = Ok hp' /\ live hp' this h' /\ same_axes h h' /\
    (forall i, at_ (hi_values h') i = at_ (hi_values h) i + rsum (map (share h hp i) args)) /\
    (forall a, In a args -> nth_error hp' a = Some None).
Proof.
  induction args as [|a args IH]; intros hp this h HL HD HI HA; cbn [merges].
  - exists hp, h. split; [auto|]. split; [auto|]. split; [apply same_axes_refl|]. split; [intros i; simpl; lra|]. intros a [].
  - inversion HD as [|x y HD1 HD2]; subst. destruct (HA a (or_introl eq_refl)) as [k HK].
    assert (HN : this <> a) by (intros ->; apply HI; left; auto).
    destruct (C52_merge_one hp this a h k HL HK HN) as (hp1 & h1 & HM & L1 & A1 & D1 & S1 & N1 & O1). rewrite HM. cbn [bind].
    destruct (IH hp1 this h1 L1 HD2) as (hp2 & h2 & HM2 & L2 & A2 & V2 & D2).
    { intros HX. apply HI. right; auto. }
    { intros b Hb. destruct (HA b (or_intror Hb)) as [kb [K1 K2]]. exists kb. split; [|auto]. rewrite O1; auto.
      - intros ->. apply HI. right; auto.
      - intros ->. contradiction. }
    exists hp2, h2. split; [auto|]. split; [auto|]. split; [eapply same_axes_trans; eauto|]. split.
    + intros i. rewrite V2. cbn [map rsum fold_right].
      assert (HS : map (share h1 hp1 i) args = map (share h hp i) args).
      { apply map_ext_in. intros b Hb. unfold share. rewrite O1.
        - destruct (nth_error hp b) as [[kb|]|]; auto. rewrite (same_axes_binning h h1 kb A1). reflexivity.
        - intros ->. apply HI. right; auto.
        - intros ->. contradiction. }
      rewrite HS. assert (H1 : at_ (hi_values h1) i = at_ (hi_values h) i + share h hp i a).
      { unfold share. destruct HK as [-> _]. destruct (same_binning_b h k) eqn:EB.
        - apply S1. apply same_binning_iff. auto.
        - rewrite N1; [lra|]. intros HS2. apply same_binning_iff in HS2. congruence. }
      rewrite H1. fold (rsum (map (share h hp i) args)). lra.
    + intros b [<-|Hb]; [|auto]. clear - D1 HM2 HN HD1. revert hp1 D1 HM2. induction args as [|c args IH]; intros hp1 D1 HM2; cbn [merges] in HM2.
      * injection HM2; intros <-. auto.
      * apply bind_ok in HM2. destruct HM2 as [hp3 [HM3 HM2]]. apply (IH (fun HX => HD1 (or_intror HX)) hp3); auto.
        unfold merge in HM3. apply bind_ok in HM3. destruct HM3 as [x [_ HM3]]. apply bind_ok in HM3. destruct HM3 as [y [_ HM3]].
        apply bind_ok in HM3. destruct HM3 as [ok [_ HM3]]. injection HM3; intros <-.
        rewrite nth_error_upd_other by (intros ->; apply HD1; left; auto).
        destruct ok; [rewrite nth_error_upd_other by auto|]; auto.
Qed.
Print Assumptions C52_merge_many.

Lemma rsum_perm a b : Permutation a b -> rsum a = rsum b.
Proof. induction 1; simpl; lra. Qed.
Theorem C52_any_order : forall args args' (hp : heap R) this h, Permutation args args' -> live hp this h ->
  NoDup args -> ~ In this args -> (forall a, In a args -> exists k, live hp a k) ->
  exists hp1 h1 hp2 h2, merges hp this args = Ok hp1 /\ merges hp this args' = Ok hp2 /\
    nth_error hp1 this = Some (Some h1) /\ nth_error hp2 this = Some (Some h2) /\ hi_values h1 = hi_values h2.
Proof.
  intros args args' hp this h HP HL HD HI HA.
  destruct (C52_merge_many args hp this h HL HD HI HA) as (hp1 & h1 & M1 & (L1 & W1) & A1 & V1 & _).
  destruct (C52_merge_many args' hp this h HL) as (hp2 & h2 & M2 & (L2 & W2) & A2 & V2 & _).
  { eapply Permutation_NoDup; eauto. }
  { intros HX. apply HI. eapply Permutation_in; [apply Permutation_sym; eauto|auto]. }
  { intros a Ha. apply HA. eapply Permutation_in; [apply Permutation_sym; eauto|auto]. }
  exists hp1, h1, hp2, h2. split; [auto|]. split; [auto|]. split; [auto|]. split; [auto|]. apply list_eq_at.
  - destruct W1 as (_ & B1 & B2), W2 as (_ & C1 & C2), A1 as (_&_&_&_&D1&_), A2 as (_&_&_&_&D2&_). lia.
  - intros i. rewrite V1, V2. f_equal. apply rsum_perm. apply Permutation_map. auto.
Qed.
Print Assumptions C52_any_order.

(** a merged histogram, or one merged with itself, may not be used again *)
Theorem C52_argument_gone : forall {T} `{Num T} (hp hp' : heap T) this arg other, merge hp this arg = Ok hp' ->
  merge hp' arg other = UB UseAfterFree /\
  (forall k, nth_error hp' other = Some (Some k) -> merge hp' other arg = UB UseAfterFree).
Proof.
  intros T H hp hp' this arg other HX.
  assert (HD : nth_error hp' arg = Some None).
  { unfold merge in HX. apply bind_ok in HX. destruct HX as [x [_ HX]]. apply bind_ok in HX. destruct HX as [y [HY HX]].
    apply bind_ok in HX. destruct HX as [ok [_ HX]]. injection HX; intros <-. apply nth_error_upd_same.
    assert (HL : (arg < length hp)%nat) by (apply nth_error_Some; unfold deref in HY; destruct (nth_error hp arg); congruence).
    destruct ok; rewrite ?length_upd; auto. }
  unfold merge, deref. rewrite HD. split; [reflexivity|]. intros k ->. reflexivity.
Qed.
Print Assumptions C52_argument_gone.
Theorem C52_self_merge : forall (hp : heap R) this h, live hp this h ->
  exists hp', merge hp this this = Ok hp' /\ nth_error hp' this = Some None /\
    forall arg, merge hp' this arg = UB UseAfterFree.
Proof.
  intros hp this h (HT & WT). unfold merge at 1. unfold deref at 1 2. rewrite HT. cbn [bind]. rewrite (compatible_R h h WT WT). cbn [bind].
  assert (LT : (this < length hp)%nat) by (apply nth_error_Some; congruence).
  eexists. split; [reflexivity|].
  assert (HD : nth_error (upd (if same_binning_b h h then upd hp this (Some (absorb h h)) else hp) this None) this = Some None).
  { apply nth_error_upd_same. destruct (same_binning_b h h); rewrite ?length_upd; auto. }
  split; [exact HD|]. intros arg. unfold merge, deref. rewrite HD. reflexivity.
Qed.
Print Assumptions C52_self_merge.

Example C52_case : live [Some ex_h; Some ex_hx; Some (hist_new 0 "h" "Photon" "x" 0 0 2 4)] 0 ex_h /\
  same_binning ex_h ex_hx /\ ~ same_binning ex_h (hist_new 0 "h" "Photon" "x" 0 0 2 4).
Proof.
  split; [split; [reflexivity|apply ex_h_axis]|]. split; [repeat split|]. intros (_ & _ & HX).
  destruct (C49_axis 0 "h" "Photon" "energy" 0 0 3 4 ltac:(lia) ltac:(lra)) as (_ & _ & _ & C & _).
  destruct (C49_axis 0 "h" "Photon" "x" 0 0 2 4 ltac:(lia) ltac:(lra)) as (_ & _ & _ & D & _).
  pose proof (C 3%nat ltac:(lia)) as C3. pose proof (D 3%nat ltac:(lia)) as D3.
  assert (HY : at_ (hi_centres (hist_new 0 "h" "Photon" "energy" 0 0 3 4)) 3 = at_ (hi_centres (hist_new 0 "h" "Photon" "x" 0 0 2 4)) 3) by exact HX.
  rewrite C3, D3 in HY. simpl in HY.
  replace ((3 - 0) / (4 - 1)) with 1 in HY by field. replace ((2 - 0) / (4 - 1)) with (2/3) in HY by field. lra.
Qed.

(** ** C53 *)
Lemma at_map_div (l : list R) s i : at_ (map (fun v => v / s) l) i = at_ l i / s.
Proof.
  unfold at_. destruct (Nat.lt_ge_cases i (length l)).
  - rewrite (nth_indep _ 0 (0 / s)) by (rewrite map_length; auto). apply (map_nth (fun v => v / s)).
  - rewrite !nth_overflow by (rewrite ?map_length; auto). unfold Rdiv. lra.
Qed.
Lemma rsum_map_div s l : rsum (map (fun v => v / s) l) = rsum l / s.
Proof. induction l as [|x l IH]; simpl; [unfold Rdiv; lra|]. change (x / s + rsum (map (fun v => v / s) l) = (x + rsum l) / s). rewrite IH. unfold Rdiv. lra. Qed.

(** Fill on any histogram with a positive total: old contents plus counts, divided by the new total *)
Lemma fill_R (h : hist R) (ps : list (particle R)) : hwf h -> increasing (hi_centres h) ->
  (0 <= hi_entries h)%Z -> (hi_entries h + Z.of_nat (length ps) < 2 ^ 32)%Z ->
  let es := filter (inside (hi_centres h)) (map get_energy ps) in es <> [] ->
  exists h' idx, fill_list h ps = Ok h' /\ hwf h' /\ same_axes h h' /\ hi_entries h' = (hi_entries h + Z.of_nat (length ps))%Z /\
    Forall2 (nearest (hi_centres h)) es idx /\
    (forall i, at_ (hi_values h') i = (at_ (hi_values h) i + INR (count idx i)) / (rsum (hi_values h) + INR (length es))) /\
    rsum (hi_values h') = (rsum (hi_values h) + INR (length es)) / (rsum (hi_values h) + INR (length es)).
Proof.
  intros HW HI HE HL es HN.
  destruct (C49_counting h ps HW HI) as (h1 & idx & H1 & F & V & S). fold es in F, S.
  destruct (add_values_ok (map get_energy ps) h HW) as (h2 & H2 & W2 & A2 & E2). assert (h2 = h1) by congruence. subst h2.
  assert (HP : (0 < length ps)%nat) by (destruct ps; [exfalso; apply HN; reflexivity|cbn; lia]).
  assert (HEN : hi_entries h1 = (hi_entries h + Z.of_nat (length ps))%Z).
  { rewrite E2, map_length. destruct (Nat.eqb_spec (length ps) 0); [lia|]. rewrite u32_id; lia. }
  assert (HNo : normalise h1 = set_counts h1 (hi_entries h1) (map (fun v => v / rsum (hi_values h1)) (hi_values h1))).
  { unfold normalise. destruct (Z.ltb_spec 0 (hi_entries h1)); [|lia].
    assert (HSum : fold_left nadd (hi_values h1) n0 = rsum (hi_values h1)).
    { rewrite n0_R. change (nadd (T := R)) with Rplus. rewrite fold_left_rsum. lra. }
    rewrite HSum. reflexivity. }
  exists (normalise h1), idx. rewrite fill_energy by (destruct HW; lia). rewrite H1. split; [reflexivity|]. rewrite HNo.
  split; [apply set_counts_wf; [auto|apply map_length]|]. split; [eapply same_axes_trans; [exact A2|apply set_counts_axes]|].
  split; [exact HEN|]. split; [auto|]. cbn [set_counts hi_values].
  split; [intros i; rewrite at_map_div, V, S; reflexivity|]. rewrite rsum_map_div, S. reflexivity.
Qed.

(** bins of an empty histogram after Fill: the fraction of the in-range particles nearest to each centre *)
Theorem C53_fill_normalises : forall (h : hist R) (ps : list (particle R)), hwf h -> increasing (hi_centres h) ->
  hi_entries h = 0%Z -> hi_values h = repeat 0 (length (hi_values h)) -> (Z.of_nat (length ps) < 2 ^ 32)%Z ->
  let es := filter (inside (hi_centres h)) (map get_energy ps) in
  es <> [] ->
  exists h' idx, fill_list h ps = Ok h' /\ Forall2 (nearest (hi_centres h)) es idx /\
    (forall i, at_ (hi_values h') i = INR (count idx i) / INR (length es)) /\
    (forall i, 0 <= at_ (hi_values h') i) /\ rsum (hi_values h') = 1.
Proof.
  intros h ps HW HI HE HV HL es HN.
  assert (HZ : rsum (hi_values h) = 0) by (rewrite HV; apply rsum_repeat0).
  assert (HES : 0 < INR (length es)) by (apply lt_0_INR; destruct es; [contradiction|cbn; lia]).
  destruct (fill_R h ps HW HI) as (h' & idx & H1 & _ & _ & _ & F & V & S); [lia|lia|exact HN|]. fold es in F, V, S.
  rewrite HZ, Rplus_0_l in S.
  assert (HV1 : forall i, at_ (hi_values h') i = INR (count idx i) / INR (length es)).
  { intros i. rewrite V, HZ, Rplus_0_l, HV. f_equal. unfold at_. rewrite nth_repeat. lra. }
  exists h', idx. split; [auto|]. split; [auto|]. split; [auto|]. split.
  - intros i. rewrite HV1. apply Rmult_le_pos; [apply pos_INR|]. left. apply Rinv_0_lt_compat. auto.
  - rewrite S. field. lra.
Qed.
Print Assumptions C53_fill_normalises.

(** filling in two portions: the first portion counts as a single particle; the result is the fraction of both
    portions together only if the first had one particle in range or the two portions have the same shape *)
Theorem C53_two_portions : forall (h : hist R) (ps qs : list (particle R)), hwf h -> increasing (hi_centres h) ->
  hi_entries h = 0%Z -> hi_values h = repeat 0 (length (hi_values h)) -> (Z.of_nat (length ps + length qs) < 2 ^ 32)%Z ->
  let es := filter (inside (hi_centres h)) (map get_energy ps) in
  let fs := filter (inside (hi_centres h)) (map get_energy qs) in
  es <> [] -> fs <> [] ->
  exists h1 h2 h3 ie jf, fill_list h ps = Ok h1 /\ fill_list h1 qs = Ok h2 /\ fill_list h (ps ++ qs) = Ok h3 /\
    Forall2 (nearest (hi_centres h)) es ie /\ Forall2 (nearest (hi_centres h)) fs jf /\
    forall i,
      at_ (hi_values h2) i = (INR (count ie i) / INR (length es) + INR (count jf i)) / (1 + INR (length fs)) /\
      at_ (hi_values h3) i = INR (count ie i + count jf i) / INR (length es + length fs) /\
      (at_ (hi_values h2) i = at_ (hi_values h3) i <->
         length es = 1%nat \/ INR (count ie i) / INR (length es) = INR (count jf i) / INR (length fs)).
Proof.
  intros h ps qs HW HI HE HV HL es fs HNe HNf.
  assert (HPE : 0 < INR (length es)) by (apply lt_0_INR; destruct es; [contradiction|cbn; lia]).
  assert (HPF : 0 < INR (length fs)) by (apply lt_0_INR; destruct fs; [contradiction|cbn; lia]).
  destruct (C53_fill_normalises h ps HW HI HE HV ltac:(lia) HNe) as (h1 & ie & H1 & F1 & V1 & _ & S1). fold es in F1, V1.
  assert (HX : exists h1', fill_list h ps = Ok h1' /\ hwf h1' /\ same_axes h h1' /\ hi_entries h1' = Z.of_nat (length ps)).
  { destruct (fill_R h ps HW HI ltac:(lia) ltac:(lia) HNe) as (k & idx & K1 & K2 & K3 & K4 & _). exists k. rewrite HE in K4. auto. }
  destruct HX as (h1' & H1' & W1 & A1 & E1). assert (h1' = h1) by congruence. subst h1'.
  assert (AC : hi_centres h1 = hi_centres h) by apply A1.
  destruct (fill_R h1 qs W1) as (h2 & jf & H2 & _ & _ & _ & F2 & V2 & _); [rewrite AC; auto|lia|lia|rewrite AC; exact HNf|].
  rewrite AC in F2, V2. fold fs in F2, V2.
  destruct (C53_fill_normalises h (ps ++ qs) HW HI HE HV) as (h3 & kk & H3 & F3 & V3 & _ & _).
  { rewrite app_length. lia. }
  { rewrite map_app, filter_app. fold es fs. destruct es; [contradiction|discriminate]. }
  rewrite map_app, filter_app in F3, V3. fold es fs in F3, V3.
  assert (HU : forall sp vs a b, Forall2 (nearest sp) vs a -> Forall2 (nearest sp) vs b -> a = b).
  { intros sp vs a b Ha. revert b. induction Ha as [|v x vs' a' Hx Ha IH]; intros b Hb; inversion Hb; subst; auto.
    f_equal; [eapply nearest_unique; eauto|auto]. }
  assert (kk = ie ++ jf) by (eapply HU; [exact F3|apply Forall2_app; auto]). subst kk.
  exists h1, h2, h3, ie, jf. split; [auto|]. split; [auto|]. split; [auto|]. split; [auto|]. split; [auto|]. intros i.
  assert (Q2 : at_ (hi_values h2) i = (INR (count ie i) / INR (length es) + INR (count jf i)) / (1 + INR (length fs))) by (rewrite V2, V1, S1; reflexivity).
  assert (Q3 : at_ (hi_values h3) i = INR (count ie i + count jf i) / INR (length es + length fs)).
  { rewrite V3. unfold count. rewrite count_occ_app, app_length. reflexivity. }
  split; [auto|]. split; [auto|]. rewrite Q2, Q3, !plus_INR.
  set (a := INR (count ie i)). set (b := INR (count jf i)). set (n := INR (length es)) in *. set (m := INR (length fs)) in *.
  assert (HN1 : length es = 1%nat <-> n = 1).
  { unfold n. split; [intros ->; reflexivity|]. intros Hn. apply INR_eq. rewrite Hn. reflexivity. }
  rewrite HN1. split.
  - intros HQ. assert (HQ2 : (1 - n) * (a * m - b * n) = 0).
    { assert (L1 : (a / n + b) / (1 + m) * ((1 + m) * (n + m) * n) = (a + b * n) * (n + m)) by (field; lra).
      assert (L2 : (a + b) / (n + m) * ((1 + m) * (n + m) * n) = (a + b) * (1 + m) * n) by (field; lra).
      rewrite HQ in L1. nra. }
    apply Rmult_integral in HQ2. destruct HQ2 as [HQ2|HQ2]; [left; lra|right].
    apply (Rmult_eq_reg_r (n * m)); [|nra]. replace (a / n * (n * m)) with (a * m) by (field; lra).
    replace (b / m * (n * m)) with (b * n) by (field; lra). lra.
  - intros [Hn|HQ].
    + rewrite Hn. field. lra.
    + assert (Ha : a = b * n / m). { replace a with (a / n * n) by (field; lra). rewrite HQ. field. lra. }
      rewrite Ha. field. repeat split; lra.
Qed.
Print Assumptions C53_two_portions.

Example C53_case : hwf ex_h /\ increasing (hi_centres ex_h) /\ hi_entries ex_h = 0%Z /\ hi_values ex_h = repeat 0 (length (hi_values ex_h)) /\
  filter (inside (hi_centres ex_h)) (map get_energy [ph 1; ph 1; ph 5]) = [1; 1] /\
  filter (inside (hi_centres ex_h)) (map get_energy [ph 2]) = [2].
Proof.
  destruct ex_h_axis as (A & B & C). split; [auto|]. split; [auto|]. split; [reflexivity|].
  split; [unfold ex_h, hist_new, initialise; cbn [hi_values]; rewrite n0_R, repeat_length; reflexivity|].
  cbn [map]. rewrite !ph_energy by lra. cbn [filter].
  assert (I1 : inside (hi_centres ex_h) 1 = true) by (apply C; lra). assert (I2 : inside (hi_centres ex_h) 2 = true) by (apply C; lra).
  assert (I5 : inside (hi_centres ex_h) 5 = false) by (destruct (inside (hi_centres ex_h) 5) eqn:EI; [apply C in EI; lra|auto]).
  rewrite I1, I2, I5. auto.
Qed.

(** ** C79 *)
(** binary64: Fill on an empty histogram with particles, none of them in range, turns every bin into NaN *)
Lemma zeros_sum n : fold_left f64_add (repeat (S754_zero false) n) (S754_zero false) = S754_zero false.
Proof. induction n as [|n IH]; [reflexivity|]. cbn [repeat fold_left]. exact IH. Qed.
Theorem C79_nothing_in_range : forall (L : Libm) (h : hist spec_float) ps,
  hwf h -> hi_entries h = 0%Z -> hi_values h = repeat (S754_zero false) (length (hi_values h)) ->
  ps <> [] -> (Z.of_nat (length ps) < 2 ^ 32)%Z ->
  (forall p, In p ps -> SFltb (nth 0 (hi_centres h) (S754_zero false)) (@get_energy _ (Num_F64 L) p) = false \/
     SFltb (@get_energy _ (Num_F64 L) p) (nth (length (hi_centres h) - 1) (hi_centres h) (S754_zero false)) = false) ->
  exists h', @fill_list _ (Num_F64 L) h ps = Ok h' /\ hi_values h' = repeat S754_nan (length (hi_values h)).
Proof.
  intros L h ps HW HE HV HP HL HR.
  assert (HA : forall vs k, hwf k -> hi_centres k = hi_centres h -> (forall v, In v vs -> SFltb (nth 0 (hi_centres h) (S754_zero false)) v = false \/
     SFltb v (nth (length (hi_centres h) - 1) (hi_centres h) (S754_zero false)) = false) ->
     exists k', @add_values _ (Num_F64 L) k vs = Ok k' /\ hi_values k' = hi_values k).
  { induction vs as [|v vs IH]; intros k WK CK HB; cbn [add_values]; [eauto|].
    destruct (@add_value_eq _ (Num_F64 L) k v WK) as (i & _ & _ & HX).
    assert (HF : (@nltb _ (Num_F64 L) (@lo _ (Num_F64 L) k) v && @nltb _ (Num_F64 L) v (@hi _ (Num_F64 L) k))%bool = false).
    { unfold lo, hi. rewrite CK. cbn [nltb Num_F64]. change (@n0 _ (Num_F64 L)) with (S754_zero false).
      destruct (HB v (or_introl eq_refl)) as [-> | ->]; [reflexivity|apply andb_false_r]. }
    rewrite HF in HX. rewrite HX. cbn [bind].
    destruct (IH (set_counts k (u32 (hi_entries k + 1)) (hi_values k))) as (k' & K1 & K2).
    - apply set_counts_wf; auto.
    - exact CK.
    - intros x Hx. apply HB. right; auto.
    - exists k'. auto. }
  destruct (HA (map (@get_energy _ (Num_F64 L)) ps) h HW eq_refl) as (h1 & H1 & V1).
  { intros v Hv. apply in_map_iff in Hv. destruct Hv as (p & <- & Hp). auto. }
  destruct (@add_values_ok _ (Num_F64 L) (map (@get_energy _ (Num_F64 L)) ps) h HW) as (h2 & H2 & _ & _ & E2).
  assert (h2 = h1) by congruence. subst h2.
  assert (HEN : (0 < hi_entries h1)%Z).
  { rewrite E2, HE, map_length. destruct ps as [|p ps]; [contradiction|]. destruct (Nat.eqb_spec (length (p :: ps)) 0) as [X|X]; [discriminate|].
    rewrite u32_id; cbn [length] in *; lia. }
  rewrite (@fill_energy _ (Num_F64 L)) by (destruct HW; lia). rewrite H1. cbn [rmap bind]. eexists. split; [reflexivity|].
  unfold normalise. destruct (Z.ltb_spec 0 (hi_entries h1)); [|lia]. cbn [hi_values]. rewrite V1, HV, !repeat_length.
  cbn [nadd ndiv Num_F64]. change (@n0 _ (Num_F64 L)) with (S754_zero false). rewrite zeros_sum.
  generalize (length (hi_values h)). intros n. induction n as [|n IH]; [reflexivity|]. cbn [repeat map]. rewrite IH. reflexivity.
Qed.
Print Assumptions C79_nothing_in_range.

(** the constructor leaves the entry counter uninitialised: an empty Fill either keeps the zero bins or makes them NaN,
    depending on the garbage *)
Theorem C79_garbage_counter : forall (L : Libm) garbage nm pa ty t mn mx n, (1 <= n < 2 ^ 31)%Z ->
  let h := @hist_new _ (Num_F64 L) garbage nm pa ty t mn mx n in
  exists h', @fill_list _ (Num_F64 L) h [] = Ok h' /\
    (garbage = 0%Z -> hi_values h' = repeat (S754_zero false) (Z.to_nat n)) /\
    ((0 < garbage)%Z -> hi_values h' = repeat S754_nan (Z.to_nat n)).
Proof.
  intros L garbage nm pa ty t mn mx n HN. cbv zeta. rewrite (@fill_energy _ (Num_F64 L)) by (cbn; lia). cbn [map add_values rmap bind].
  eexists. split; [reflexivity|]. unfold normalise, hist_new, initialise. cbn [hi_entries hi_values]. split.
  - intros ->. reflexivity.
  - intros HG. destruct (Z.ltb_spec 0 garbage); [|lia]. cbn [hi_values nadd ndiv Num_F64]. change (@n0 _ (Num_F64 L)) with (S754_zero false).
    rewrite zeros_sum. generalize (Z.to_nat n). intros m. induction m as [|m IH]; [reflexivity|]. cbn [repeat map]. rewrite IH. reflexivity.
Qed.
Print Assumptions C79_garbage_counter.

Definition ex_libm0 : Libm := Build_Libm (fun x => x) (fun x => x) (fun x => x) (fun _ _ => S754_zero false) (fun x => x) (fun x => x) (fun x => x).
Example C79_case : let z := S754_zero false in
  let h := @initialise _ (Num_F64 ex_libm0) (hist_default z) "h" "Photon" "energy" z (f64_lit 1 0) (f64_lit 3 0) 3 in
  let p := mkP PPhoton "Photon" z z z z z false true (mkV z z z) (mkV (f64_lit 5 0) z z) [] [] [] [] in
  exists h', @fill_list _ (Num_F64 ex_libm0) h [p] = Ok h' /\ hi_values h' = [S754_nan; S754_nan; S754_nan] /\ hwf h.
Proof.
  eexists. split; [vm_compute; reflexivity|]. split; [reflexivity|]. apply initialise_wf. lia.
Qed.

(** ** C80: several threads *)
Definition work_on (b : nat) (work : list (list nat)) : nat := count_occ Nat.eq_dec (concat work) b.
Definition pending (b : nat) (s : hstate) : nat := work_on b (map ht_todo (hs_threads s)).

Lemma count_upd b (ws : list (list nat)) t w w' : nth_error ws t = Some w ->
  (work_on b (upd ws t w') + count_occ Nat.eq_dec w b = work_on b ws + count_occ Nat.eq_dec w' b)%nat.
Proof.
  unfold work_on. revert t. induction ws as [|x ws IH]; intros [|t] HX; try discriminate; cbn in HX.
  - injection HX; intros <-. cbn [upd concat]. rewrite !count_occ_app. lia.
  - cbn [upd concat]. rewrite !count_occ_app. specialize (IH t HX). lia.
Qed.
Lemma map_upd {A B} (f : A -> B) l i x : map f (upd l i x) = upd (map f l) i (f x).
Proof. revert i. induction l as [|y l IH]; intros [|i]; cbn; f_equal; auto. Qed.

(** invariant: with [total] increments of bin [b] in all, the bin and every loaded value are at most start + those done *)
Definition hinv (b c0 total : nat) (s : hstate) : Prop :=
  (pending b s <= total)%nat /\
  (nth b (hs_bins s) 0 + pending b s <= c0 + total)%nat /\ (c0 <= nth b (hs_bins s) 0)%nat /\
  (pending b s < total -> c0 + 1 <= nth b (hs_bins s) 0)%nat /\
  forall th v rest, In th (hs_threads s) -> ht_loaded th = Some v -> ht_todo th = b :: rest ->
    (v + pending b s <= c0 + total)%nat /\ (c0 <= v)%nat.

Lemma hstep_inv b c0 total t s s' : (b < length (hs_bins s))%nat -> hinv b c0 total s -> hstep t s = Some s' ->
  hinv b c0 total s' /\ length (hs_bins s') = length (hs_bins s).
Proof.
  intros HB (I0 & I1 & I2 & I3 & I4) HX. unfold hstep in HX. destruct (nth_error (hs_threads s) t) as [th|] eqn:ET; [|discriminate].
  assert (HIn : In th (hs_threads s)) by (eapply nth_error_In; eauto).
  assert (HIU : forall x q, In q (upd (hs_threads s) t x) -> q = x \/ In q (hs_threads s)).
  { clear. intros x q Hq. destruct (nth_error (hs_threads s) t) as [y|] eqn:EY.
    - destruct (SimFacts.upd_split _ _ _ x EY) as (l1 & l2 & E1 & _ & E2). rewrite E2 in Hq. rewrite E1.
      apply in_app_or in Hq. destruct Hq as [Hq|[Hq|Hq]]; [right; apply in_or_app; auto|auto|right; apply in_or_app; right; right; auto].
    - right. replace (upd (hs_threads s) t x) with (hs_threads s) in Hq; auto. apply nth_error_None in EY. revert EY. clear.
      revert t. induction (hs_threads s) as [|y l IH]; intros [|t] HX; cbn in *; auto; [lia|]. f_equal. apply IH. lia. }
  destruct (ht_todo th) as [|c rest] eqn:EW; [discriminate|].
  assert (HT : nth_error (map ht_todo (hs_threads s)) t = Some (c :: rest)) by (rewrite nth_error_map, ET; cbn; congruence).
  destruct (ht_loaded th) as [v|] eqn:EL; injection HX; intros <-.
  - (* store *)
    assert (HP : (pending b (mkHS (upd (hs_bins s) c (v + 1)) (upd (hs_threads s) t (mkHT None rest))) + (if Nat.eq_dec c b then 1 else 0) = pending b s)%nat).
    { unfold pending. cbn [hs_threads]. rewrite map_upd. cbn [ht_todo]. pose proof (count_upd b _ _ _ rest HT) as HC. cbn [count_occ] in HC.
      destruct (Nat.eq_dec c b); lia. }
    split; [|cbn; apply length_upd]. destruct (Nat.eq_dec c b) as [->|NE].
    + destruct (I4 th v rest HIn EL EW) as [J1 J2]. unfold hinv. cbn [hs_bins]. rewrite nth_upd_same by auto.
      split; [lia|]. split; [lia|]. split; [lia|]. split; [lia|].
      intros q u r Hq Hl Hr. cbn [hs_threads] in Hq. destruct (HIU _ _ Hq) as [-> |Hq2]; [discriminate|].
      destruct (I4 q u r Hq2 Hl Hr). lia.
    + unfold hinv. cbn [hs_bins]. rewrite nth_upd_other by auto.
      split; [lia|]. split; [lia|]. split; [lia|]. split; [intros; apply I3; lia|].
      intros q u r Hq Hl Hr. cbn [hs_threads] in Hq. destruct (HIU _ _ Hq) as [-> |Hq2]; [discriminate|].
      destruct (I4 q u r Hq2 Hl Hr). lia.
  - (* load *)
    assert (HP : pending b (mkHS (hs_bins s) (upd (hs_threads s) t (mkHT (Some (nth c (hs_bins s) 0%nat)) (c :: rest)))) = pending b s).
    { unfold pending. cbn [hs_threads]. rewrite map_upd. cbn [ht_todo]. pose proof (count_upd b _ _ _ (c :: rest) HT) as HC. lia. }
    split; [|reflexivity]. unfold hinv. rewrite HP. cbn [hs_bins]. split; [auto|]. split; [auto|]. split; [auto|]. split; [auto|].
    intros q u r Hq Hl Hr. cbn [hs_threads] in Hq. destruct (HIU _ _ Hq) as [-> |Hq2]; [|eauto].
    cbn in Hl, Hr. injection Hl; intros <-. injection Hr; intros; subst. lia.
Qed.
Lemma hrun_inv b c0 total sched : forall s s', (b < length (hs_bins s))%nat -> hinv b c0 total s -> hrun sched s = Some s' -> hinv b c0 total s'.
Proof.
  induction sched as [|t sched IH]; intros s s' HB HI HX; cbn in HX; [congruence|].
  destruct (hstep t s) as [s1|] eqn:ES; [|discriminate]. destruct (hstep_inv b c0 total t s s1 HB HI ES) as [I1 L1].
  apply (IH s1); auto. lia.
Qed.

(** every interleaving: at most the true count, at least one if there was anything to count *)
Theorem C80_bounds : forall bins work sched s' b, (b < length bins)%nat ->
  hrun sched (hstart bins work) = Some s' -> finished s' ->
  (nth b (hs_bins s') 0 <= nth b bins 0 + work_on b work)%nat /\
  (0 < work_on b work -> nth b bins 0 + 1 <= nth b (hs_bins s') 0)%nat /\
  (work_on b work = 0 -> nth b (hs_bins s') 0 = nth b bins 0)%nat.
Proof.
  intros bins work sched s' b HB HX HF.
  assert (HW : pending b (hstart bins work) = work_on b work).
  { unfold pending, hstart. cbn [hs_threads]. rewrite map_map. cbn [ht_todo]. rewrite map_id. reflexivity. }
  assert (HI : hinv b (nth b bins 0%nat) (work_on b work) (hstart bins work)).
  { unfold hinv. rewrite HW. cbn [hstart hs_bins hs_threads]. split; [auto|]. split; [lia|]. split; [lia|]. split; [lia|].
    intros th v rest Hth Hl. apply in_map_iff in Hth. destruct Hth as (w & <- & _). discriminate. }
  assert (HP : pending b s' = 0%nat).
  { unfold pending, work_on. assert (HC : concat (map ht_todo (hs_threads s')) = []).
    { unfold finished in HF. induction (hs_threads s') as [|th l IH]; [reflexivity|]. cbn [map concat]. rewrite HF by (left; auto).
      apply IH. intros q Hq. apply HF. right; auto. }
    rewrite HC. reflexivity. }
  destruct (hrun_inv b _ _ sched (hstart bins work) s' HB HI HX) as (_ & I1 & I2 & I3 & _). rewrite HP in I1, I3. split; [lia|]. split; [exact I3|]. lia.
Qed.
Print Assumptions C80_bounds.

(** undisturbed increments (load directly followed by store) lose nothing *)
Theorem C80_serial_exact : forall order bins work s' b, (b < length bins)%nat ->
  hrun (flat_map (fun t => [t; t]) order) (hstart bins work) = Some s' -> finished s' ->
  nth b (hs_bins s') 0%nat = (nth b bins 0 + work_on b work)%nat.
Proof.
  intros order bins work s' b HB HX HF.
  assert (G : forall s, (b < length (hs_bins s))%nat -> (forall th, In th (hs_threads s) -> ht_loaded th = None) ->
    hrun (flat_map (fun t => [t; t]) order) s = Some s' -> (nth b (hs_bins s') 0 + pending b s' = nth b (hs_bins s) 0 + pending b s)%nat).
  { clear HX HF HB. induction order as [|t order IH]; intros s HB HN HX; cbn [flat_map app hrun] in HX; [injection HX; intros <-; auto|].
    unfold hstep at 1 in HX. destruct (nth_error (hs_threads s) t) as [th|] eqn:ET; [|discriminate].
    destruct (ht_todo th) as [|c rest] eqn:EW; [discriminate|]. rewrite (HN th) in HX by (eapply nth_error_In; eauto).
    unfold hstep at 1 in HX. cbn [hs_threads hs_bins] in HX.
    assert (HL : (t < length (hs_threads s))%nat) by (apply nth_error_Some; congruence).
    rewrite nth_error_upd_same in HX by auto. cbn [ht_todo ht_loaded] in HX.
    set (s1 := mkHS _ _) in HX. rewrite (IH s1); [|cbn; rewrite length_upd; auto| |exact HX].
    - assert (HT : nth_error (map ht_todo (hs_threads s)) t = Some (c :: rest)) by (rewrite nth_error_map, ET; cbn; congruence).
      assert (UU : forall (l : list hthread) i x y, upd (upd l i x) i y = upd l i y) by (clear; induction l as [|z l IH]; intros [|i] x y; cbn; f_equal; auto).
      assert (HP : (pending b s1 + (if Nat.eq_dec c b then 1 else 0) = pending b s)%nat).
      { unfold pending, s1. cbn [hs_threads]. rewrite UU, map_upd. cbn [ht_todo]. pose proof (count_upd b _ _ _ rest HT) as HC. cbn [count_occ] in HC.
        destruct (Nat.eq_dec c b); lia. }
      unfold s1 at 1. cbn [hs_bins]. destruct (Nat.eq_dec c b) as [->|NE]; [rewrite nth_upd_same by auto; lia|rewrite nth_upd_other by auto; lia].
    - intros q Hq. unfold s1 in Hq. cbn [hs_threads] in Hq.
      assert (UU : forall (l : list hthread) i x y, upd (upd l i x) i y = upd l i y) by (clear; induction l as [|z l IH]; intros [|i] x y; cbn; f_equal; auto).
      rewrite UU in Hq. destruct (SimFacts.upd_split _ _ _ (mkHT None rest) ET) as (l1 & l2 & E1 & _ & E2). rewrite E2 in Hq.
      apply in_app_or in Hq. destruct Hq as [Hq|[<-|Hq]]; [|reflexivity|]; apply HN; rewrite E1; apply in_or_app; [auto|right; right; auto]. }
  specialize (G (hstart bins work) HB).
  assert (HP : pending b s' = 0%nat).
  { unfold pending, work_on. assert (HC : concat (map ht_todo (hs_threads s')) = []).
    { unfold finished in HF. induction (hs_threads s') as [|th l IH]; [reflexivity|]. cbn [map concat]. rewrite HF by (left; auto).
      apply IH. intros q Hq. apply HF. right; auto. }
    rewrite HC. reflexivity. }
  assert (HW : pending b (hstart bins work) = work_on b work).
  { unfold pending, hstart. cbn [hs_threads]. rewrite map_map. cbn [ht_todo]. rewrite map_id. reflexivity. }
  assert (HG : (nth b (hs_bins s') 0 + pending b s' = nth b (hs_bins (hstart bins work)) 0 + pending b (hstart bins work))%nat).
  { apply G; [|exact HX]. intros th Hth. apply in_map_iff in Hth. destruct Hth as (w & <- & _). reflexivity. }
  rewrite HP, HW in HG. cbn [hstart hs_bins] in HG. lia.
Qed.
Print Assumptions C80_serial_exact.

(** two threads with [m] particles each of the same bin: in lock step half of the counts are lost *)
Theorem C80_half_lost : forall m, exists s',
  hrun (concat (repeat [0; 1; 0; 1]%nat m)) (hstart [0%nat] [repeat 0%nat m; repeat 0%nat m]) = Some s' /\ finished s' /\
  hs_bins s' = [m] /\ work_on 0 [repeat 0%nat m; repeat 0%nat m] = (m + m)%nat.
Proof.
  intros m.
  assert (G : forall k c, hrun (concat (repeat [0; 1; 0; 1]%nat k)) (mkHS [c] [mkHT None (repeat 0%nat k); mkHT None (repeat 0%nat k)]) = Some (mkHS [(c + k)%nat] [mkHT None []; mkHT None []])).
  { induction k as [|k IH]; intros c; [cbn; rewrite Nat.add_0_r; reflexivity|]. cbn [repeat concat app hrun hstep hs_threads nth_error ht_todo ht_loaded upd hs_bins nth].
    rewrite IH. f_equal. f_equal. f_equal. lia. }
  exists (mkHS [(0 + m)%nat] [mkHT None []; mkHT None []]). split; [apply G|]. split; [intros th [<-|[<-|[]]]; reflexivity|]. split; [reflexivity|].
  unfold work_on. cbn [concat]. rewrite app_nil_r, count_occ_app, count_occ_repeat_eq by auto. reflexivity.
Qed.
Print Assumptions C80_half_lost.

Example C80_case : exists s', hrun (flat_map (fun t => [t; t]) [0; 1]%nat) (hstart [0%nat] [[0]; [0]]%nat) = Some s' /\ finished s' /\ hs_bins s' = [2%nat].
Proof. eexists. split; [reflexivity|]. split; [intros th [<-|[<-|[]]]; reflexivity|reflexivity]. Qed.
