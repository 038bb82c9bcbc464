(** * The threaded program and serial runs with the same random numbers *)
From Coq Require Import String ZArith List Bool Lia Permutation.
From Verif Require Import Num Outcome OutcomeFacts Vec Units Numerics MCTools Particle ParticleList Source SourceFacts Fields Pusher Process Sim Histogram Hdf5
  Output Text Ini IniReader Program Threads ThreadFacts ThreadSerial ThreadReplay.
From Verif Require FileParser.
Import ListNotations.
Local Open Scope string_scope.
Local Open Scope list_scope.

Lemma Forall2_len {A B} (P : A -> B -> Prop) l l' : Forall2 P l l' -> length l = length l'.
Proof. intros F. induction F; cbn; congruence. Qed.

Section Regions.
Context {T : Type} `{Num T}.
Variable E : Engine T.
Variables dom domn : T -> bool.
Variable garbage : T.
Variable code : objinfo.
Variable fuel : nat.
Hypothesis DOM : forall g, dom (fst (e_canon E g)) = true.
Notation RE := (replay dom domn).

Lemma drawn_dom g us g' : drawn E g us g' -> Forall (fun u => dom u = true) us.
Proof. intros D. induction D as [g|g u g1 us g' X D IH]; constructor; [|exact IH]. specialize (DOM g). rewrite X in DOM. exact DOM. Qed.
Lemma drawn_app g us g1 : drawn E g us g1 -> forall vs g2, drawn E g1 vs g2 -> drawn E g (us ++ vs) g2.
Proof. intros D. induction D as [g|g u g1 us g' X D IH]; intros vs g2 D2; cbn; [exact D2|]. econstructor; eauto. Qed.

Section One.
Variable w : world T.
Variable pl : @plan T.
Variable tEnd : T.
Variables output tracking : bool.

Definition part (src : source T) (i : nat) (x : Z * trace) : Prop :=
  tr (cbind (sampled src (fst x)) (rest_of w pl fuel tEnd output tracking (Z.of_nat i))) tt (snd x) /\ tr_t (snd x) = [] /\
  map key (tr_s (snd x)) = keys_of output tracking (Z.of_nat i).
Definition whole (x : Z * trace) : trace (T := T) := tapp (mkTr [] [fst x] [] []) (snd x).
Lemma splits src js trs : Forall2 (fun i t => tr (iteration w pl fuel tEnd output tracking src (Z.of_nat i)) tt t) js trs ->
  exists xs, trs = map whole xs /\ Forall2 (part src) js xs.
Proof.
  intros F. induction F as [|i t js trs X F (xs & -> & F2)]; [exists []; split; [reflexivity|constructor]|].
  destruct (iteration_tr _ _ _ _ _ _ _ _ _ X) as (c & t1 & A & B & C & D). exists ((c, t1) :: xs). split; [cbn; now rewrite B|]. constructor; [|exact F2]. split; auto.
Qed.
Lemma retrace src src' n : forall k xs, Forall2 (part src) (seq k n) xs ->
  (forall t x, nth_error xs t = Some x -> sampled src' (Z.of_nat (k + t)) = sampled src (fst x)) ->
  exists trs, Forall2 (fun i t => tr (iteration w pl fuel tEnd output tracking src' (Z.of_nat i)) tt t) (seq k n) trs /\
    map tr_d trs = map tr_d (map whole xs) /\ map tr_c trs = map tr_c (map whole xs) /\ map tr_s trs = map tr_s (map whole xs) /\
    concat (map tr_t trs) = map Z.of_nat (seq k n).
Proof.
  induction n as [|n IH]; intros k xs F S1; cbn [seq] in F.
  - inversion F; subst. exists []. cbn. repeat (split; [constructor|]). constructor.
  - destruct xs as [|x xs]; [inversion F|]. apply Forall2_head in F as [(A & B & C) F].
    destruct (IH (S k) xs F) as (trs & D1 & D2 & D3 & D4 & D5). { intros t y N. replace (S k + t)%nat with (k + S t)%nat by lia. apply S1. exact N. }
    exists (tapp (mkTr [] [Z.of_nat k] [] []) (snd x) :: trs). split; [constructor; [|exact D1]|].
    { rewrite iteration_takes. constructor. specialize (S1 0%nat x eq_refl). rewrite Nat.add_0_r in S1. rewrite S1. exact A. }
    cbn [map concat seq]. rewrite D2, D3, D4, D5. unfold whole. cbn [tapp tr_d tr_t tr_c tr_s app]. rewrite B. auto.
Qed.
Lemma part_takes src js xs : Forall2 (part src) js xs -> concat (map tr_t (map whole xs)) = map fst xs.
Proof. intros F. induction F as [|i x js xs (_ & A & _) F IH]; cbn; [reflexivity|]. rewrite A, IH. reflexivity. Qed.
Lemma part_keys src js xs : Forall2 (part src) js xs -> map key (concat (map tr_s (map whole xs))) = flat_map (fun i => keys_of output tracking (Z.of_nat i)) js.
Proof. intros F. induction F as [|i x js xs (_ & _ & A) F IH]; cbn; [reflexivity|]. rewrite map_app, A, IH. reflexivity. Qed.
Lemma keys_in a i j : In (a, i) (keys_of output tracking j) -> i = j.
Proof. unfold keys_of. intros I. apply in_app_or in I as [I|I]; [destruct output|destruct tracking]; cbn in I; intuition congruence. Qed.
Lemma keys_nodup n : forall k, NoDup (flat_map (fun i => keys_of output tracking (Z.of_nat i)) (seq k n)).
Proof.
  induction n as [|n IH]; intros k; cbn [seq flat_map]; [constructor|].
  assert (N : forall a, ~ In (a, Z.of_nat k) (flat_map (fun i => keys_of output tracking (Z.of_nat i)) (seq (S k) n))).
  { intros a I. apply in_flat_map in I as (i & I & J). apply in_seq in I. apply keys_in in J. lia. }
  unfold keys_of at 1. destruct output, tracking; cbn [app]; repeat (constructor; [intros I; repeat (destruct I as [I|I]; [discriminate I|]); exact (N _ I)|]); apply IH.
Qed.
Lemma keys_good (l : list (save T)) js : tracking = false -> map key l = flat_map (fun i => keys_of output tracking (Z.of_nat i)) js -> Forall no_track l.
Proof.
  intros -> Q. apply Forall_forall. intros c I. apply (in_map key) in I. rewrite Q in I. apply in_flat_map in I as (i & _ & I). unfold keys_of in I.
  rewrite app_nil_r in I. destruct output; cbn in I; [|contradiction]. destruct c as [l0 j|l0 j|l0 j]; cbn; auto. destruct I as [I|[I|[]]]; discriminate.
Qed.

(** The parallel loop over the events of a source. *)
Lemma region_any src hs o g s' : fresh src -> plan_of hs = pl ->
  par E garbage (map (fun j => iteration w pl fuel tEnd output tracking src (Z.of_nat j)) (seq 0 (Z.to_nat (s_nPart src)))) (mkSh E g src hs o) (Ok s') ->
  exists sg us us', arranges sg src /\ drawn E g us (sh_rng E s') /\ Permutation us us' /\
    forall ns rest, exists o', source_events RE garbage fuel w tEnd output tracking (Z.to_nat (s_nPart src)) 0 (shuffle sg src) (mkProg RE o hs (ns, us' ++ rest))
      = Ok (mkProg RE o' (sh_hists E s') (ns, rest)) /\ alike (sh_om E s') o' /\ (tracking = false -> o' = sh_om E s').
Proof.
  intros FR PL P. set (n := Z.to_nat (s_nPart src)) in *. pose proof FR as (B & C0 & _).
  apply par_explains with (s' := s') in P; [|reflexivity]. destruct P as (trs & us & cs & hl & ss & F & D1 & D2 & D3 & D4 & D5 & D6 & D7 & D8). cbn [sh_rng sh_src sh_hists sh_om] in *.
  assert (F' : Forall2 (fun i t => tr (iteration w pl fuel tEnd output tracking src (Z.of_nat i)) tt t) (seq 0 n) trs).
  { clear - F. revert trs F. induction (seq 0 n) as [|i l IH]; intros trs F; inversion F; subst; constructor; auto. }
  clear F. destruct (splits _ _ _ F') as (xs & -> & X). clear F'. pose proof (part_takes _ _ _ X) as PT. rewrite PT in D4.
  assert (LX : length xs = n) by (rewrite <- (Forall2_len _ _ _ X), seq_length; reflexivity).
  assert (LC : length cs = n) by (rewrite (Permutation_length D4), map_length; exact LX).
  assert (W0 : src = with_count src (Z.of_nat 0)) by (rewrite <- (with_count_same src) at 1; rewrite C0; reflexivity).
  rewrite W0 in D3. destruct (dealt_seq src n 0 (sh_src E s') ltac:(unfold n; lia) ltac:(lia) cs LC D3) as [CS _]. subst cs.
  set (sg := map Z.to_nat (map fst xs)).
  assert (AR : Permutation (seq 0 n) sg).
  { unfold sg. rewrite <- (Permutation_map Z.to_nat D4), map_map. rewrite map_ext_in with (g := fun i => i); [now rewrite map_id|]. intros; apply Nat2Z.id. }
  destruct (retrace src (shuffle sg src) n 0 xs X) as (trs & R1 & R2 & R3 & R4 & R5).
  { intros t x N. cbn [Nat.add]. assert (I : In (fst x) (map Z.of_nat (seq 0 n))) by (apply (Permutation_in _ (Permutation_sym D4)), in_map, nth_error_In with (1 := N)).
    apply in_map_iff in I as (i & I & J). apply in_seq in J. rewrite (sampled_shuffle sg src t i FR); [now rewrite I| |unfold n in J; lia].
    unfold sg. rewrite map_map. rewrite (map_nth_error _ _ _ N). rewrite <- I, Nat2Z.id. reflexivity. }
  assert (LT : length trs = n) by (rewrite <- (Forall2_len _ _ _ R1), seq_length; reflexivity).
  exists sg, us, (concat (map tr_d trs)). split; [exact AR|]. split; [exact D1|]. split; [rewrite R2; exact D2|]. intros ns rest.
  set (s0 := mkSh RE (ns, concat (map tr_d trs) ++ rest) (shuffle sg src) hs o).
  pose proof (part_keys _ _ _ X) as PK.
  destruct (stores_perm garbage ss (concat (map tr_s (map whole xs))) D8) with (o := o) (o1 := sh_om E s') as (o' & O1 & O2);
    [eapply Permutation_NoDup; [apply Permutation_map, Permutation_sym; exact D8|]; rewrite PK; apply keys_nodup|exact D7|].
  exists o'. split; [|split; [exact O2|]].
  2:{ intros TF. pose proof (keys_good _ _ TF PK) as G. pose proof (fold_no_track _ _ G _ _ O1) as K1.
      pose proof (fold_no_track _ _ (Permutation_Forall (Permutation_sym D8) G) _ _ D7) as K2. destruct (alike_inv _ _ O2) as [K3 _]. rewrite K3, K1, <- K2. destruct (sh_om E s'); reflexivity. }
  pose proof (replay_events dom domn garbage w pl fuel tEnd output tracking (shuffle sg src) trs 0 0 s0 ns rest
    (with_count (shuffle sg src) (Z.of_nat (0 + n))) (sh_hists E s') o') as Q.
  rewrite LT in Q. unfold s0 in Q. unfold prog_of in Q. cbn [sh_rng sh_src sh_hists sh_om] in Q. apply Q; auto.
  - rewrite R2. eapply Permutation_Forall; [exact D2|]. eapply drawn_dom. exact D1.
  - rewrite <- (with_count_same (shuffle sg src)) at 1. cbn [shuffle s_count]. now rewrite C0.
  - rewrite R5. assert (W1 : shuffle sg src = with_count (shuffle sg src) (Z.of_nat 0)) by (rewrite <- (with_count_same (shuffle sg src)) at 1; cbn [shuffle s_count]; rewrite C0; reflexivity).
    rewrite W1 at 1. apply deal_seq; cbn [shuffle s_nPart]; unfold n; lia.
  - rewrite R3. eapply foldm_perm_all; [|exact D6|exact D5]. intros a b s s1 s2. apply count_swap.
  - rewrite R4. exact O1.
Qed.
End One.
Lemma region w pl tEnd output src hs o g s' : fresh src -> plan_of hs = pl ->
  par E garbage (map (fun j => iteration w pl fuel tEnd output false src (Z.of_nat j)) (seq 0 (Z.to_nat (s_nPart src)))) (mkSh E g src hs o) (Ok s') ->
  exists sg us us', arranges sg src /\ drawn E g us (sh_rng E s') /\ Permutation us us' /\
    forall ns rest, source_events RE garbage fuel w tEnd output false (Z.to_nat (s_nPart src)) 0 (shuffle sg src) (mkProg RE o hs (ns, us' ++ rest))
      = Ok (mkProg RE (sh_om E s') (sh_hists E s') (ns, rest)).
Proof.
  intros FR PL P. destruct (region_any _ _ _ _ _ _ _ _ _ _ FR PL P) as (sg & us & us' & A & B & C & D). exists sg, us, us'. split; [exact A|]. split; [exact B|]. split; [exact C|].
  intros ns rest. destruct (D ns rest) as (o' & X & _ & Y). rewrite X, (Y eq_refl). reflexivity.
Qed.

(** ** The sources *)
Definition shuffles (sgs : list (list nat)) (ss : list (bool * source T)) : list (bool * source T) :=
  map (fun x => (fst (snd x), shuffle (fst x) (snd (snd x)))) (combine sgs ss).

Lemma threaded_sources w tEnd ss : Forall (fun x => fresh (snd x)) ss -> forall s s', threaded_loop E garbage code fuel w tEnd false ss s (Ok s') ->
  exists sgs us us', Forall2 (fun sg x => arranges sg (snd x)) sgs ss /\ drawn E (pg_rng E s) us (pg_rng E s') /\ Permutation us us' /\
    forall ns rest, source_loop RE code garbage fuel w tEnd false (shuffles sgs ss) (mkProg RE (pg_om E s) (pg_hists E s) (ns, us' ++ rest))
      = Ok (mkProg RE (pg_om E s') (pg_hists E s') (ns, rest)).
Proof.
  induction ss as [|[output src] ss IH]; intros FR s s' L; cbn [threaded_loop] in L.
  - injection L as <-. exists [], [], []. split; [constructor|]. split; [constructor|]. split; [constructor|]. intros ns rest. reflexivity.
  - apply Forall_cons_iff in FR as [FR1 FR2]. cbn [snd] in FR1. destruct L as (y & P & L). cbv zeta in L. destruct y as [s1| | | |]; try discriminate L. cbn [bind] in L.
    destruct (output_events code garbage (sh_om E s1) output false) as [o1| | | |] eqn:OE; try discriminate L. cbn [bind] in L.
    destruct (region w (plan_of (pg_hists E s)) tEnd output src (pg_hists E s) _ (pg_rng E s) s1 FR1 eq_refl P) as (sg & us & us' & A1 & A2 & A3 & A4).
    destruct (IH FR2 _ _ L) as (sgs & vs & vs' & B1 & B2 & B3 & B4). cbn [pg_rng pg_om pg_hists] in *.
    exists (sg :: sgs), (us ++ vs), (us' ++ vs'). split; [constructor; assumption|]. split; [eapply drawn_app; eassumption|]. split; [apply Permutation_app; assumption|].
    intros ns rest. unfold shuffles. cbn [combine map fst snd source_loop]. rewrite <- app_assoc. cbn [pg_rng pg_om pg_hists shuffle s_nPart].
    rewrite A4. cbn [bind pg_om pg_hists pg_rng]. rewrite OE. cbn [bind]. apply B4.
Qed.

(** ** Setting up the sources *)
(** From [g] to [g'] the generator delivers the lists [ns] of normal deviates and the uniform numbers [us]. *)
Inductive delivered : est E -> list (list T) -> list T -> est E -> Prop :=
| dl_none g : delivered g [] [] g
| dl_uniform g u g1 ns us g' : e_canon E g = (u, g1) -> delivered g1 ns us g' -> delivered g ns (u :: us) g'
| dl_normals n g l g1 ns us g' : e_normals E n g = (l, g1) -> delivered g1 ns us g' -> delivered g (l :: ns) us g'.
Lemma delivered_app g ns us g1 : delivered g ns us g1 -> forall ms vs g2, delivered g1 ms vs g2 -> delivered g (ns ++ ms) (us ++ vs) g2.
Proof. intros D. induction D; intros ms vs g2 D2; cbn [app]; [exact D2|econstructor; eauto|econstructor; eauto]. Qed.
Lemma drawn_delivered g us g' : drawn E g us g' -> delivered g [] us g'.
Proof. intros D. induction D; econstructor; eauto. Qed.

Definition scaled (low high u : T) : T := (u * (high - low) + low)%num.
Lemma uniform_drawn low high n : forall g, exists us g', sample_uniform E low high n g = (map (scaled low high) us, g') /\ length us = n /\ drawn E g us g'.
Proof.
  induction n as [|n IH]; intros g; cbn [sample_uniform]; [exists [], g; repeat split; constructor|].
  unfold rand_double. destruct (e_canon E g) as [u g1] eqn:X. destruct (IH g1) as (us & g' & A & B & C). rewrite A. exists (u :: us), g'. split; [reflexivity|].
  split; [cbn; congruence|]. econstructor; eassumption.
Qed.
Lemma uniform_replay low high us : Forall (fun u => dom u = true) us -> forall n ns r, n = length us ->
  sample_uniform RE low high n (ns, us ++ r) = (map (scaled low high) us, (ns, r)).
Proof.
  intros D. induction D as [|u us X D IH]; intros n ns r ->; [reflexivity|]. cbn [length sample_uniform app]. unfold rand_double. cbn [replay e_canon snd fst]. rewrite X.
  rewrite (IH _ ns r eq_refl). reflexivity.
Qed.
Lemma norm_replay mean sig l ns us n : Forall (fun z => domn z = true) l -> n = length l -> sample_norm RE mean sig n (l :: ns, us) = (map (fun z => z * sig + mean)%num l, (ns, us)).
Proof.
  intros D ->. unfold sample_norm. cbn [replay e_normals fst snd]. rewrite Nat.eqb_refl. cbn [andb]. replace (forallb domn l) with true; [reflexivity|].
  symmetry. apply forallb_forall. apply Forall_forall. exact D.
Qed.
End Regions.

Section Setup.
Context {T : Type} `{Num T}.
Variable E : Engine T.
Variables dom domn : T -> bool.
Hypothesis DOM : forall g, dom (fst (e_canon E g)) = true.
Hypothesis DOMN : forall n g z, In z (fst (e_normals E n g)) -> domn z = true.
Hypothesis DL : delivers E.
Notation RE := (replay dom domn).

Lemma pick_length sg (l : list T) : length (pick sg l) = length sg.
Proof. apply map_length. Qed.
Lemma norm_delivered mean sig n g : exists l g', sample_norm E mean sig n g = (map (fun z => z * sig + mean)%num l, g') /\ length l = n /\ e_normals E n g = (l, g').
Proof. unfold sample_norm. pose proof (DL n g) as L. destruct (e_normals E n g) as [l g'] eqn:X. exists l, g'. auto. Qed.
Lemma normals_dom n g l g' sg : e_normals E n g = (l, g') -> Permutation (seq 0 (length l)) sg -> Forall (fun z => domn z = true) (pick sg l).
Proof. intros X P. eapply Permutation_Forall; [apply pick_perm; exact P|]. apply Forall_forall. pose proof (DOMN n g) as D. rewrite X in D. exact D. Qed.

Lemma source_replay tracking q g s g1 : (0 <= FileParser.p_number q)%Z -> make_source E tracking q g = (s, g1) ->
  exists ns us, delivered E g ns us g1 /\ forall sg, arranges sg s -> exists ns' us', Forall2 (@Permutation T) ns ns' /\ Permutation us us' /\
    forall nr ur, make_source RE tracking q (ns' ++ nr, us' ++ ur) = (shuffle sg s, (nr, ur)).
Proof.
  intros B. unfold make_source, new_source. cbv zeta. set (n := Z.to_nat (FileParser.p_number q)).
  destruct (norm_delivered n0 (FileParser.p_radius q) n g) as (xs & g2 & A1 & L1 & E1). rewrite A1.
  destruct (norm_delivered n0 (FileParser.p_radius q) n g2) as (ys & g3 & A2 & L2 & E2). rewrite A2.
  destruct (norm_delivered n0 (FileParser.p_duration q) n g3) as (zs & g4 & A3 & L3 & E3). rewrite A3.
  destruct (norm_delivered n0 (FileParser.p_divergence q) n g4) as (ths & g5 & A4 & L4 & E4). rewrite A4.
  destruct (uniform_drawn E n0 (n2 * c_pi)%num n g5) as (phs & g6 & A5 & L5 & E5). rewrite A5.
  pose proof (drawn_dom E dom DOM _ _ _ E5) as DP.
  assert (PD : forall sg (l : list T), Permutation (seq 0 n) sg -> length l = n -> length (pick sg l) = n).
  { intros sg l P L. rewrite pick_length, <- (Permutation_length P), seq_length. reflexivity. }
  destruct (String.eqb (FileParser.p_distro q) "gaussian" || String.eqb (FileParser.p_distro q) "Gaussian")%bool.
  - destruct (norm_delivered (FileParser.p_energy1 q) (FileParser.p_energy2 q) n g6) as (es & g7 & A6 & L6 & E6). rewrite A6. intros Q. injection Q as <- <-.
    exists ([xs; ys; zs; ths] ++ [es]), (phs ++ []). split.
    { do 4 (eapply dl_normals; [eassumption|]). eapply (delivered_app E _ [] phs g6 (drawn_delivered E _ _ _ E5)). eapply dl_normals; [exact E6|]. constructor. }
    intros sg AR. unfold arranges in AR. cbn [s_nPart] in AR. fold n in AR.
    exists [pick sg xs; pick sg ys; pick sg zs; pick sg ths; pick sg es], (pick sg phs).
    split; [cbn [app]; do 5 (constructor; [apply pick_perm; congruence|]); constructor|]. split; [rewrite app_nil_r; apply pick_perm; congruence|].
    intros nr ur. cbn [app]. rewrite !norm_replay by (first [rewrite PD; auto; fail|eapply normals_dom; [eassumption|congruence]]). rewrite uniform_replay; [|eapply Permutation_Forall; [apply pick_perm|exact DP]; congruence|rewrite PD; auto].
    rewrite norm_replay by (first [rewrite PD; auto; fail|eapply normals_dom; [eassumption|congruence]]). unfold shuffle. cbn [s_type s_nPart s_count s_track s_dir s_pos s_xs s_ys s_zs s_thetas s_phis s_energies s_rot].
    rewrite !pick_map by congruence. reflexivity.
  - destruct (uniform_drawn E (FileParser.p_energy1 q) (FileParser.p_energy2 q) n g6) as (es & g7 & A6 & L6 & E6). rewrite A6. intros Q. injection Q as <- <-.
    pose proof (drawn_dom E dom DOM _ _ _ E6) as DE.
    exists [xs; ys; zs; ths], (phs ++ es). split.
    { do 4 (eapply dl_normals; [eassumption|]). apply drawn_delivered. eapply drawn_app; eassumption. }
    intros sg AR. unfold arranges in AR. cbn [s_nPart] in AR. fold n in AR.
    exists [pick sg xs; pick sg ys; pick sg zs; pick sg ths], (pick sg phs ++ pick sg es).
    split; [do 4 (constructor; [apply pick_perm; congruence|]); constructor|]. split; [apply Permutation_app; apply pick_perm; congruence|].
    intros nr ur. cbn [app]. rewrite !norm_replay by (first [rewrite PD; auto; fail|eapply normals_dom; [eassumption|congruence]]). rewrite <- app_assoc.
    rewrite uniform_replay; [|eapply Permutation_Forall; [apply pick_perm|exact DP]; congruence|rewrite PD; auto].
    rewrite uniform_replay; [|eapply Permutation_Forall; [apply pick_perm|exact DE]; congruence|rewrite PD; auto].
    unfold shuffle. cbn [s_type s_nPart s_count s_track s_dir s_pos s_xs s_ys s_zs s_thetas s_phis s_energies s_rot].
    rewrite !pick_map by congruence. reflexivity.
Qed.
Lemma sources_replay tracking qs : Forall (fun q => (0 <= FileParser.p_number q < 2 ^ 32)%Z) qs -> forall g ss g1, make_sources E tracking qs g = (ss, g1) ->
  Forall (fun x => fresh (snd x)) ss /\
  exists ns us, delivered E g ns us g1 /\ forall sgs, Forall2 (fun sg x => arranges sg (snd x)) sgs ss -> exists ns' us', Forall2 (@Permutation T) ns ns' /\ Permutation us us' /\
    forall nr ur, make_sources RE tracking qs (ns' ++ nr, us' ++ ur) = (shuffles sgs ss, (nr, ur)).
Proof.
  intros HN. induction HN as [|q qs B HN IH]; intros g ss g1 MS; cbn [make_sources] in MS.
  - injection MS as <- <-. split; [constructor|]. exists [], []. split; [constructor|]. intros sgs F. inversion F; subst. exists [], []. split; [constructor|]. split; [constructor|]. reflexivity.
  - destruct (make_source E tracking q g) as [s g2] eqn:M1. destruct (make_sources E tracking qs g2) as [ss1 g3] eqn:M2. injection MS as <- <-.
    destruct (IH _ _ _ M2) as (F1 & ms & vs & D2 & R2). split.
    { constructor; [|exact F1]. cbn [snd]. unfold make_source in M1. pose proof (new_source_wf E (FileParser.p_type q) (FileParser.p_distro q) (FileParser.p_number q) (FileParser.p_energy1 q) (FileParser.p_energy2 q)
        (FileParser.p_radius q) (FileParser.p_duration q) (FileParser.p_divergence q) (FileParser.p_position q) (FileParser.p_direction q) tracking g DL B) as W.
      rewrite M1 in W. cbv zeta in W. cbn [fst] in W. destruct W as (W1 & W2 & _). unfold wf_source in W1. unfold fresh. tauto. }
    destruct (source_replay tracking q g s g2 ltac:(lia) M1) as (ns & us & D1 & R1).
    exists (ns ++ ms), (us ++ vs). split; [eapply delivered_app; eassumption|]. intros sgs F. destruct sgs as [|sg sgs]; [inversion F|]. apply Forall2_head in F as [A F]. cbn [snd] in A.
    destruct (R1 sg A) as (ns' & us' & P1 & P2 & P3). destruct (R2 sgs F) as (ms' & vs' & Q1 & Q2 & Q3).
    exists (ns' ++ ms'), (us' ++ vs'). split; [apply Forall2_app; assumption|]. split; [apply Permutation_app; assumption|].
    intros nr ur. rewrite <- !app_assoc. cbn [make_sources]. rewrite P3, Q3. reflexivity.
Qed.
End Setup.
