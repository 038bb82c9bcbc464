(** * The Geant4 generator as a hand-over of finished events *)
From Coq Require Import String ZArith List Bool Lia.
From Verif Require Import Num Outcome OutcomeFacts Vec Units MCTools Particle ParticleList Source Fields Pusher Process Sim SimFacts SimTime
  ProgramFacts Geant.
Import ListNotations.
Local Open Scope list_scope.

Section Spec.
Context {T : Type} `{Num T}.
Variable E : Engine T.
Variable fuel : nat.
Variable w : world T.
Variable tEnd : T.

(** The final lists of [n] events simulated one after the other: each generated, then advanced by all the steps that
    begin before [tEnd]. *)
Inductive finals : nat -> source T -> est E -> list (event T) -> est E -> Prop :=
| fi_nil : forall src g, finals 0 src g [] g
| fi_cons : forall n src g l src1 g1 N l2 g2 fs g3,
    generate_list E src g = Ok (l, src1, g1) ->
    step_count n0 (w_dt w) tEnd N -> (N <= fuel)%nat -> passes E w N l g1 = Ok (l2, g2) ->
    finals n src1 g2 fs g3 ->
    finals (S n) src g (l2 :: fs) g3.

Definition particles_of (fs : list (event T)) : list (particle T) := flat_map (fun l => rev (pl_items l)) fs.
End Spec.

Section Facts.
Context {T : Type} `{Num T}.
Variable E : Engine T.
Variable fuel : nat.
Variable w : world T.
Variable tEnd : T.

Lemma passes_front n : forall l g, passes E w (S n) l g = let* r := pass E w l g in passes E w n (fst r) (snd r).
Proof.
  induction n as [|n IH]; intros l g.
  - cbn [passes bind fst snd]. destruct (pass E w l g) as [[a b]| | | |]; reflexivity.
  - change (passes E w (S (S n)) l g) with (let* r := passes E w (S n) l g in pass E w (fst r) (snd r)).
    rewrite IH. destruct (pass E w l g) as [[a b]| | | |]; reflexivity.
Qed.

Lemma g4_loop_complete N : forall f t0 a l g l' g' hc, (N - a <= f)%nat -> (a <= N)%nat ->
  (forall m, (a <= m < N)%nat -> nltb (clock t0 (w_dt w) m) tEnd = true) -> nltb (clock t0 (w_dt w) N) tEnd = false ->
  passes E w (N - a) l g = Ok (l', g') ->
  exists s, time_loop E w [] (fun _ _ _ (h : unit) => Ok h) f tEnd (mkSt (clock t0 (w_dt w) a) l g hc tt) = Ok s /\ st_ev E s = l' /\ st_rng E s = g'.
Proof.
  intros f t0 a. remember (N - a)%nat as d eqn:ED. revert f a ED. induction d as [|d IH]; intros f a ED l g l' g' hc HF HL HB HE HP.
  - assert (a = N) by lia. subst a. cbn in HP. injection HP; intros <- <-. eexists. split; [destruct f; cbn; rewrite HE; reflexivity|auto].
  - destruct f as [|f]; [lia|]. rewrite passes_front in HP. apply bind_ok in HP. destruct HP as [[l1 g1] [P1 P2]]. cbn [fst snd] in P2.
    cbn [time_loop st_time]. rewrite HB by lia. unfold time_step, hist_check. cbn [st_hc]. replace (nth_error (@nil T) hc) with (@None T) by (destruct hc; reflexivity).
    cbn [bind st_ev st_rng]. rewrite P1. cbn [bind fst snd st_time st_hc st_hist].
    change (nadd (clock t0 (w_dt w) a) (w_dt w)) with (clock t0 (w_dt w) (S a)).
    apply IH; auto; try lia. intros m Hm. apply HB. lia.
Qed.

Lemma g4_loop_iff l g l' g' : g4_time_loop E fuel w tEnd l g = Ok (l', g') <->
  exists N, step_count n0 (w_dt w) tEnd N /\ (N <= fuel)%nat /\ passes E w N l g = Ok (l', g').
Proof.
  unfold g4_time_loop. split.
  - intros X. apply bind_ok in X. destruct X as [s [X Y]]. injection Y; intros <- <-.
    assert (R : run_event E w [] (fun _ _ _ (h : unit) => Ok h) fuel tEnd l g tt = Ok s) by (unfold run_event; rewrite X; reflexivity).
    apply run_decompose in R. destruct R as (N & _ & _ & A & B & C & _). eauto.
  - intros (N & [A1 A2] & B & C). destruct (g4_loop_complete N fuel n0 0 l g l' g' 0) as (s & S1 & <- & <-); auto; try lia.
    + intros m Hm. apply A1. lia.
    + replace (N - 0)%nat with N by lia. exact C.
    + cbn [clock] in S1. rewrite S1. reflexivity.
Qed.

Lemma passes_wf N : forall l g l' g', passes E w N l g = Ok (l', g') -> (wf l -> wf l') /\ extends l l' /\ pl_max l' = pl_max l.
Proof.
  induction N as [|N IH]; intros l g l' g' HP.
  - cbn in HP. injection HP; intros <- <-. split; [auto|]. split; [apply extends_refl|reflexivity].
  - cbn [passes] in HP. apply bind_ok in HP. destruct HP as [[l1 g1] [P1 P2]]. cbn [fst snd] in P2. destruct (IH _ _ _ _ P1) as (A & B & C).
    assert (W12 : wf l1 -> wf l').
    { intros W1. apply (lift_pass E w (fun a b => wf (fst a) -> wf (fst b)) (fun a Ha => Ha) (fun a b c X Y Ha => Y (X Ha))) in P2; [exact P2| | |exact W1].
      - intros k l0 g0 p HQ. cbn [fst]. destruct (push_change w k l0 p HQ) as (_ & _ & _ & _ & _ & Z). exact Z.
      - intros k pr l0 g0 l2 g2 _ HQ. cbn [fst]. destruct (call_process_n E k pr l0 g0 l2 g2 HQ) as [Z _]. exact Z. }
    split; [auto|]. apply pass_extends in P2. split; [eapply extends_trans; eauto|]. rewrite <- C. destruct P2 as (P2 & _). exact P2.
Qed.

(** state of the generator: [n] events still to be simulated, [rest] still to be handed over from the current one *)
Definition holds (s : gen E) (n : nat) (rest : list (particle T)) : Prop :=
  (0 <= s_nPart (ge_source E s) < 2 ^ 32)%Z /\ (Z.of_nat n <= s_nPart (ge_source E s))%Z /\
  ge_current E s = (s_nPart (ge_source E s) - Z.of_nat n)%Z /\
  ge_secondary E s = (Z.of_nat (length rest) - 1)%Z /\ (Z.of_nat (length rest) <= default_max)%Z /\
  (rest <> [] -> exists l post, ge_event E s = Some l /\ pl_items l = rest ++ post /\ wf l).

Lemma holds_new src g : (0 <= s_nPart src < 2 ^ 32)%Z -> holds (new_gen E src g) (Z.to_nat (s_nPart src)) [].
Proof. intros HN. unfold holds, new_gen. cbn. rewrite Z2Nat.id by lia. repeat (split; [unfold default_max; lia|]). intros X. contradiction. Qed.

Lemma s32_m1 : s32 (-1) = (-1)%Z. Proof. reflexivity. Qed.

(** hand-over of one particle *)
Lemma give s n r p : holds s n (r ++ [p]) -> exists s', generate_primaries E fuel w tEnd s = Ok (s', Some (shoot p)) /\ holds s' n r /\
  ge_source E s' = ge_source E s /\ ge_rng E s' = ge_rng E s.
Proof.
  intros (HN & HL & HC & HS & HD & HE). destruct HE as (l & post & EL & IL & W); [destruct r; discriminate|].
  rewrite app_length, Nat2Z.inj_add in HS, HD. cbn [length] in HS, HD. change (Z.of_nat 1) with 1%Z in *. unfold default_max in HD.
  unfold generate_primaries. destruct (Z.eqb_spec (ge_secondary E s) (-1)) as [Q|_]; [lia|]. rewrite andb_false_r. cbn [bind].
  rewrite EL, HS. rewrite u32_id by lia. replace (Z.of_nat (length r) + 1 - 1)%Z with (Z.of_nat (length r)) by lia.
  assert (PG : pl_get l (Z.of_nat (length r)) = Ok p).
  { unfold pl_get. unfold wf, pl_n in W. rewrite IL, !app_length in W. cbn [length] in W.
    destruct (Z.ltb_spec (Z.of_nat (length r)) 0); [lia|]. destruct (Z.leb_spec (pl_max l) (Z.of_nat (length r))); [lia|]. cbn [orb].
    rewrite Nat2Z.id, IL, <- app_assoc, nth_error_app2, Nat.sub_diag by lia. reflexivity. }
  rewrite PG. cbn [bind]. eexists. split; [reflexivity|]. split; [|split; reflexivity]. unfold holds. cbn [ge_source ge_current ge_secondary ge_event].
  repeat split; try lia.
  - destruct r as [|r0 r]; [reflexivity|]. apply s32_id. cbn [length] in *. lia.
  - unfold default_max. lia.
  - intros _. exists l, (p :: post). split; [reflexivity|]. split; [|exact W]. rewrite IL, <- app_assoc. reflexivity.
Qed.

(** nothing left *)
Lemma stop s : holds s 0 [] -> generate_primaries E fuel w tEnd s = Ok (s, None).
Proof.
  intros (HN & HL & HC & HS & _). unfold generate_primaries. rewrite HC, HS. cbn [length]. rewrite Z.sub_0_r, Z.eqb_refl. reflexivity.
Qed.

(** the next event *)
Lemma next_iff s n s1 : holds s (S n) [] -> simulate_event E fuel w tEnd s = Ok s1 <->
  exists l src1 g1 N l2, generate_list E (ge_source E s) (ge_rng E s) = Ok (l, src1, g1) /\
    step_count n0 (w_dt w) tEnd N /\ (N <= fuel)%nat /\ passes E w N l g1 = Ok (l2, ge_rng E s1) /\
    ge_source E s1 = src1 /\ ge_event E s1 = Some l2 /\ ge_current E s1 = (ge_current E s + 1)%Z /\ ge_secondary E s1 = (pl_n l2 - 1)%Z.
Proof.
  intros (HN & HL & HC & HS & _).
  assert (CUR : u32 (ge_current E s + 1) = (ge_current E s + 1)%Z) by (apply u32_id; lia).
  assert (SEC : forall l src1 g1 N l2 g2, generate_list E (ge_source E s) (ge_rng E s) = Ok (l, src1, g1) ->
    passes E w N l g1 = Ok (l2, g2) -> s32 (u32 (pl_n l2 - 1)) = (pl_n l2 - 1)%Z).
  { intros l src1 g1 N l2 g2 G P. apply generate_single in G. destruct G as (p & IL & _ & MX & W & _).
    destruct (passes_wf _ _ _ _ _ P) as (A & B & C). specialize (A W). unfold wf in A. rewrite C, MX in A. unfold default_max in A.
    assert (1 <= pl_n l2)%Z. { destruct B as (_ & _ & i0 & i1 & lo & IE & IF & _). unfold pl_n. rewrite IE, app_length.
      pose proof (Forall2_length _ _ _ IF) as LL. rewrite IL in LL. cbn in LL. lia. }
    rewrite u32_id by lia. apply s32_id. lia. }
  unfold simulate_event. split.
  - intros X. apply bind_ok in X. destruct X as [[[l src1] g1] [G X]]. apply bind_ok in X. destruct X as [[l2 g2] [L X]].
    apply g4_loop_iff in L. destruct L as (N & L1 & L2 & L3). injection X; intros <-. cbn [fst snd ge_rng ge_source ge_event ge_current ge_secondary].
    exists l, src1, g1, N, l2. rewrite CUR, (SEC _ _ _ _ _ _ G L3). auto 10.
  - intros (l & src1 & g1 & N & l2 & G & L1 & L2 & L3 & A & B & C & D). rewrite G. cbn [bind].
    assert (L : g4_time_loop E fuel w tEnd l g1 = Ok (l2, ge_rng E s1)) by (apply g4_loop_iff; eauto). rewrite L. cbn [bind fst snd].
    rewrite CUR, (SEC _ _ _ _ _ _ G L3). destruct s1. cbn in *. subst. reflexivity.
Qed.

Lemma next_holds s n s1 : holds s (S n) [] -> simulate_event E fuel w tEnd s = Ok s1 ->
  exists l src1 g1 N l2 r p, generate_list E (ge_source E s) (ge_rng E s) = Ok (l, src1, g1) /\
    step_count n0 (w_dt w) tEnd N /\ (N <= fuel)%nat /\ passes E w N l g1 = Ok (l2, ge_rng E s1) /\
    ge_source E s1 = src1 /\ ge_event E s1 = Some l2 /\ pl_items l2 = r ++ [p] /\ holds s1 n (r ++ [p]).
Proof.
  intros HH X. assert (HO := HH). destruct HH as (HN & HL & HC & HS & _). apply (next_iff _ _ _ HO) in X.
  destruct X as (l & src1 & g1 & N & l2 & G & L1 & L2 & L3 & A & B & C & D). assert (G' := G). apply generate_single in G'.
  destruct G' as (p0 & IL & _ & MX & W & NP). destruct (passes_wf _ _ _ _ _ L3) as (WW & X & CC). specialize (WW W).
  assert (NE : pl_items l2 <> []). { destruct X as (_ & _ & i0 & i1 & lo & IE & IF & _). rewrite IE. pose proof (Forall2_length _ _ _ IF) as LL.
    rewrite IL in LL. destruct i0; [discriminate LL|discriminate]. }
  destruct (exists_last NE) as (r & p & IR). exists l, src1, g1, N, l2, r, p. split; [exact G|]. split; [exact L1|]. split; [exact L2|]. split; [exact L3|].
  split; [exact A|]. split; [exact B|]. split; [exact IR|]. unfold holds. unfold pl_n in *. rewrite A, NP, B, C, D, <- IR. unfold wf, pl_n in WW. rewrite CC, MX in WW.
  repeat split; try lia. intros _. exists l2, []. rewrite app_nil_r. auto. split; [reflexivity|]. split; [reflexivity|]. unfold wf, pl_n. rewrite CC, MX. exact WW.
Qed.

Lemma primaries_simulate s n s1 k : holds s (S n) [] -> simulate_event E fuel w tEnd s = Ok s1 ->
  primaries E fuel w tEnd (S k) s = primaries E fuel w tEnd (S k) s1.
Proof.
  intros HH X. destruct (next_holds _ _ _ HH X) as (l & src1 & g1 & N & l2 & r & p & _ & _ & _ & _ & _ & _ & IR & HH1).
  cbn [primaries]. f_equal. destruct HH as (HN & HL & HC & HS & _). destruct HH1 as (HN1 & HL1 & HC1 & HS1 & _).
  rewrite app_length in HS1. cbn [length] in HS, HS1. unfold generate_primaries. rewrite HC, HS.
  destruct (Z.eqb_spec (s_nPart (ge_source E s) - Z.of_nat (S n)) (s_nPart (ge_source E s))) as [Q|_]; [lia|]. cbn [andb].
  change ((Z.of_nat 0 - 1) =? -1)%Z with true. cbn match. rewrite X. cbn [bind].
  destruct (Z.eqb_spec (ge_secondary E s1) (-1)) as [Q|_]; [lia|]. rewrite andb_false_r. reflexivity.
Qed.

(** all the calls: what they return, given the events *)
Lemma handover k : forall s n rest fs g', holds s n rest -> finals E fuel w tEnd n (ge_source E s) (ge_rng E s) fs g' ->
  exists s', primaries E fuel w tEnd k s = Ok (s', firstn k (map (fun p => Some (shoot p)) (rev rest ++ particles_of fs) ++ repeat None k)).
Proof.
  assert (ONE : forall k, (forall s n rest fs g', holds s n rest -> finals E fuel w tEnd n (ge_source E s) (ge_rng E s) fs g' ->
      exists s', primaries E fuel w tEnd k s = Ok (s', firstn k (map (fun p => Some (shoot p)) (rev rest ++ particles_of fs) ++ repeat None k))) ->
    forall s n r p fs g', holds s n (r ++ [p]) -> finals E fuel w tEnd n (ge_source E s) (ge_rng E s) fs g' ->
      exists s', primaries E fuel w tEnd (S k) s = Ok (s', firstn (S k) (map (fun p => Some (shoot p)) (rev (r ++ [p]) ++ particles_of fs) ++ repeat None (S k)))).
  { intros j IH s n r p fs g' HH F. destruct (give _ _ _ _ HH) as (s1 & G & H1 & SE & RE). rewrite <- SE, <- RE in F.
    destruct (IH _ _ _ _ _ H1 F) as (s2 & P). exists s2. cbn [primaries]. rewrite G. cbn [bind fst snd]. rewrite P. cbn [bind fst snd].
    rewrite rev_app_distr. cbn [rev app map firstn]. do 3 f_equal. 
    set (L := map _ _). replace (firstn j (L ++ repeat None (S j))) with (firstn j (L ++ repeat None j)); [reflexivity|].
    rewrite !firstn_app. f_equal.
    assert (forall a b m, (m <= a)%nat -> (m <= b)%nat -> firstn m (repeat (@None (shot T)) a) = firstn m (repeat None b)) as EQ.
    { induction a as [|a IHa]; intros [|b] [|m] HA HB; cbn; try lia; auto. f_equal. apply IHa; lia. }
    apply EQ; lia. }
  induction k as [|k IH]; intros s n rest fs g' HH F; [eexists; reflexivity|].
  destruct rest as [|r0 rest].
  - inversion F as [? ? E1 E2 E3 E4 E5|n' ? ? l src1 g1 N l2 g2 fs' ? G L1 L2 L3 F' E1 E2 E3 E4 E5]; subst.
    + exists s. cbn [primaries]. rewrite (stop _ HH). cbn [bind fst snd].
      destruct (IH _ _ _ _ _ HH F) as (s2 & P). cbn [rev app particles_of flat_map map] in *. 
      assert (ST : forall k, primaries E fuel w tEnd k s = Ok (s, repeat None k)).
      { intros j. induction j as [|j IJ]; [reflexivity|]. cbn [primaries]. rewrite (stop _ HH). cbn [bind fst snd]. rewrite IJ. reflexivity. }
      rewrite ST. cbn [bind fst snd repeat firstn]. do 3 f_equal. symmetry. rewrite <- (repeat_length (@None (shot T)) k) at 1. apply firstn_all.
    + assert (X : exists s1, simulate_event E fuel w tEnd s = Ok s1 /\ ge_source E s1 = src1 /\ ge_rng E s1 = g2 /\ ge_event E s1 = Some l2).
      { exists (mkGen E src1 (Some l2) (ge_current E s + 1) (pl_n l2 - 1) g2). split; [|cbn; auto]. apply (next_iff _ _ _ HH).
        cbn. exists l, src1, g1, N, l2. auto 10. }
      destruct X as (s1 & X & A1 & A2 & A3). rewrite (primaries_simulate _ _ _ k HH X).
      destruct (next_holds _ _ _ HH X) as (l0 & src0 & g0 & N0 & l3 & r & p & G0 & _ & _ & P0 & _ & EV & IR & HH1).
      assert (l3 = l2) by congruence.
      subst l3. rewrite <- A1, <- A2 in F'. destruct (ONE k IH _ _ _ _ _ _ HH1 F') as (s2 & P). exists s2. rewrite P. rewrite <- IR.
      cbn [rev app particles_of flat_map]. reflexivity.
  - assert (NE : r0 :: rest <> []) by discriminate. destruct (exists_last NE) as (r & p & IR). rewrite IR in *. eapply ONE; eauto.
Qed.

(** conversely: calls that return have handed over the first particles of events that were simulated *)
Lemma handed k : forall s n rest s' out, holds s n rest -> primaries E fuel w tEnd k s = Ok (s', out) ->
  exists m fs g', (m <= n)%nat /\ finals E fuel w tEnd m (ge_source E s) (ge_rng E s) fs g' /\
    ((m < n)%nat -> (k <= length (rev rest ++ particles_of fs))%nat) /\
    out = firstn k (map (fun p => Some (shoot p)) (rev rest ++ particles_of fs) ++ repeat None k).
Proof.
  assert (STOP : forall k s s' out, holds s 0 [] -> primaries E fuel w tEnd k s = Ok (s', out) -> out = repeat None k).
  { intros j. induction j as [|j IJ]; intros s s' out HH X; [injection X; intros <- <-; reflexivity|]. cbn [primaries] in X. rewrite (stop _ HH) in X.
    cbn [bind fst snd] in X. apply bind_ok in X. destruct X as [[s2 o2] [X Y]]. injection Y; intros <- <-. cbn [snd repeat]. f_equal. eapply IJ; eauto. }
  assert (EQ : forall a b m, (m <= a)%nat -> (m <= b)%nat -> firstn m (repeat (@None (shot T)) a) = firstn m (repeat None b)).
  { induction a as [|a IHa]; intros [|b] [|m] HA HB; cbn; try lia; auto. f_equal. apply IHa; lia. }
  induction k as [|k IH]; intros s n rest s' out HH X.
  - injection X; intros <- <-. exists 0%nat, [], (ge_rng E s). split; [lia|]. split; [constructor|]. split; [intros _; lia|]. reflexivity.
  - assert (ONE : forall s n r p s' out, holds s n (r ++ [p]) -> primaries E fuel w tEnd (S k) s = Ok (s', out) ->
      exists m fs g', (m <= n)%nat /\ finals E fuel w tEnd m (ge_source E s) (ge_rng E s) fs g' /\
        ((m < n)%nat -> (S k <= length (rev (r ++ [p]) ++ particles_of fs))%nat) /\
        out = firstn (S k) (map (fun p => Some (shoot p)) (rev (r ++ [p]) ++ particles_of fs) ++ repeat None (S k))).
    { clear s n rest s' out HH X. intros s n r p s' out HH X. destruct (give _ _ _ _ HH) as (s1 & G & H1 & SE & RE). cbn [primaries] in X. rewrite G in X.
      cbn [bind fst snd] in X. apply bind_ok in X. destruct X as [[s2 o2] [X Y]]. injection Y; intros <- <-. cbn [snd].
      destruct (IH _ _ _ _ _ H1 X) as (m & fs & g' & M1 & M2 & M3 & M4). exists m, fs, g'. rewrite <- SE, <- RE. split; [exact M1|]. split; [exact M2|].
      rewrite rev_app_distr. cbn [rev app map firstn length]. split; [intros Q; specialize (M3 Q); lia|]. f_equal. rewrite M4, !firstn_app. f_equal. apply EQ; lia. }
    destruct rest as [|r0 rest].
    + destruct n as [|n].
      * exists 0%nat, [], (ge_rng E s). split; [lia|]. split; [constructor|]. split; [lia|]. rewrite (STOP _ _ _ _ HH X).
        cbn [rev app particles_of flat_map map]. symmetry. rewrite <- (repeat_length (@None (shot T)) (S k)) at 1. apply firstn_all.
      * assert (Y : exists s1, simulate_event E fuel w tEnd s = Ok s1).
        { cbn [primaries] in X. apply bind_ok in X. destruct X as [[s2 o2] [X _]]. unfold generate_primaries in X. destruct HH as (HN & HL & HC & HS & _). cbn [length] in HS.
          rewrite HS, HC in X. destruct (Z.eqb_spec (s_nPart (ge_source E s) - Z.of_nat (S n)) (s_nPart (ge_source E s))) as [Q|_]; [lia|]. cbn [andb] in X.
          change ((Z.of_nat 0 - 1) =? -1)%Z with true in X. cbn match in X. apply bind_ok in X. destruct X as [s1 [X _]]. eauto. }
        destruct Y as [s1 Y]. rewrite (primaries_simulate _ _ _ k HH Y) in X.
        destruct (next_holds _ _ _ HH Y) as (l & src1 & g1 & N & l2 & r & p & G & L1 & L2 & L3 & A & EV & IR & HH1).
        destruct (ONE _ _ _ _ _ _ HH1 X) as (m & fs & g' & M1 & M2 & M3 & M4). exists (S m), (l2 :: fs), g'. split; [lia|].
        split; [econstructor; eauto; rewrite <- A; exact M2|]. cbn [rev app particles_of flat_map]. rewrite IR. split; [intros Q; apply M3; lia|]. exact M4.
    + assert (NE : r0 :: rest <> []) by discriminate. destruct (exists_last NE) as (r & p & IR). rewrite IR in *. eapply ONE; eauto.
Qed.
End Facts.
