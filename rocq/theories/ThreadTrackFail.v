(** * Threads, tracks and failures (lemmas for C141) *)
From Coq Require Import String ZArith List Bool Lia Permutation.
From Verif Require Import Num Outcome OutcomeFacts Vec Units Numerics MCTools Particle ParticleList Source SourceFacts Fields Pusher Process Sim Histogram Hdf5
  Output OutFacts OutFile Program ProgramSafe PropsTables PropsOut Threads ThreadFacts ThreadSerial ThreadReplay ThreadProgram ThreadSafe ThreadFail ThreadTracks.
Import ListNotations.
Local Open Scope string_scope.
Local Open Scope list_scope.

(** outcomes that are related, or the same failure *)
Definition lock {A B} (R : A -> B -> Prop) (x : res A) (y : res B) : Prop :=
  match x, y with Ok a, Ok b => R a b | Exit c, Exit d => c = d | Throw, Throw => True | UB a, UB b => a = b | Fuel, Fuel => True | _, _ => False end.
Lemma lock_bind {A B C D} (R : A -> B -> Prop) (Q : C -> D -> Prop) x y f g : lock R x y -> (forall a b, R a b -> lock Q (f a) (g b)) -> lock Q (bind x f) (bind y g).
Proof. intros L F. destruct x, y; cbn in *; try contradiction; auto. Qed.
Lemma lock_quiet {A B} (R : A -> B -> Prop) x y : lock R x y -> quietly x = quietly y.
Proof. destruct x, y; cbn; try contradiction; intros; subst; reflexivity. Qed.
Lemma lock_refl {A} (x : res A) : lock eq x x.
Proof. destruct x; cbn; auto. Qed.

Section Lock.
Context {T : Type} `{NT : Num T}.
Variable code : objinfo.
Variable garbage : T.

Definition rel (n : nat) (o o' : om T) : Prop := om_twin n o o' /\ Permutation (om_tracks o) (om_tracks o').
Lemma rel_refl n o : rel n o o.
Proof. split; [|apply Permutation_refl]. exists (om_file o), (om_tracks o). split; [destruct o; reflexivity|]. split; [reflexivity|apply twin_refl]. Qed.
Lemma rel_up n m o o' : (n <= m)%nat -> rel n o o' -> rel m o o'.
Proof.
  intros L ((f' & ts' & Q & G & W) & P). split; [|exact P]. exists f', ts'. split; [exact Q|]. split; [exact G|].
  unfold tree_twin in *. clear - L W. induction W as [|a b t t' X W IH]; constructor; [|exact IH]. destruct X as [X1 [X2|((k & x & X2 & X3) & X4)]]; split; auto. right. split; [|exact X4]. exists k, x. split; [lia|exact X3].
Qed.
Lemma alike_rel n a b c : alike a b -> rel n b c -> rel n a c.
Proof.
  intros AL ((f' & ts' & Q & G & W) & P). apply alike_inv in AL as [E1 P1]. split; [|eapply Permutation_trans; eassumption].
  exists f', ts'. rewrite E1 in Q, G, W. split; [rewrite Q; destruct a; reflexivity|]. split; [exact G|exact W].
Qed.
Lemma create_lock n (t t' : tree T) p a b : tree_twin n t t' -> entry_twin n (p, a) (p, b) -> lock (tree_twin n) (create t p a) (create t' p b).
Proof.
  intros W X. unfold create. rewrite (twin_exists _ _ _ p W), (twin_group _ _ _ (removelast p) W). destruct (exists_ t p); cbn; [exact I|]. destruct (is_group t (removelast p)); cbn; [|exact I].
  constructor; assumption.
Qed.
Lemma group_lock n s s' name : rel n s s' -> lock (rel n) (o_group code s name) (o_group code s' name).
Proof.
  intros ((f' & ts' & -> & G & W) & P). unfold o_group, add_group. cbn [om_file with_tracks with_file]. rewrite G, (twin_exists _ _ _ _ W).
  destruct (match f_group (om_file s) with GNull => Ok GNull | GLive => Ok GFreed | GFreed => UB DoubleFree end) as [g| | | |]; cbn; auto.
  destruct (Bool.eqb _ false).
  - pose proof (create_lock n _ _ (path name) Grp Grp W (conj eq_refl (or_introl eq_refl))) as L.
    destruct (create (f_tree (om_file s)) (path name) Grp) as [t| | | |]; destruct (create (f_tree f') (path name) Grp) as [t'| | | |]; cbn in *; try contradiction; auto.
    split; [|exact P]. exists (mkFile t' GLive), ts'. split; [destruct s; reflexivity|]. split; [reflexivity|exact L].
  - cbn. split; [|exact P]. exists (mkFile (f_tree f') g), ts'. split; [destruct s; reflexivity|]. split; [reflexivity|exact W].
Qed.
Lemma array_lock n s s' name buf dims buf' dims' : rel n s s' ->
  (track_path n (path name) /\ (zprod dims <= Z.of_nat (length buf))%Z /\ (zprod dims' <= Z.of_nat (length buf'))%Z) \/ (buf' = buf /\ dims' = dims) ->
  lock (rel n) (o_array s buf dims name) (o_array s' buf' dims' name).
Proof.
  intros ((f' & ts' & -> & G & W) & P) H. unfold o_array, add_array. cbn [om_file with_tracks with_file].
  assert (EN : entry_twin n (path name, Dat dims (firstn (Z.to_nat (zprod dims)) buf)) (path name, Dat dims' (firstn (Z.to_nat (zprod dims')) buf'))).
  { split; [reflexivity|]. cbn [fst snd]. destruct H as [(TP & _)|[-> ->]]; [right|left; reflexivity]. split; [exact TP|]. split; eexists _, _; reflexivity. }
  assert (Q : (Z.of_nat (length buf') <? zprod dims')%Z = (Z.of_nat (length buf) <? zprod dims)%Z).
  { destruct H as [(_ & H1 & H2)|[-> ->]]; [|reflexivity]. rewrite (proj2 (Z.ltb_ge _ _) H1), (proj2 (Z.ltb_ge _ _) H2). reflexivity. }
  pose proof (create_lock n _ _ _ _ _ W EN) as L. rewrite Q.
  destruct (create (f_tree (om_file s)) _ _) as [t| | | |]; destruct (create (f_tree f') _ _) as [t'| | | |]; cbn in *; try contradiction; auto.
  destruct (Z.of_nat (length buf) <? zprod dims)%Z; cbn; [reflexivity|]. split; [|exact P]. exists (mkFile t' (f_group f')), ts'. split; [destruct s; reflexivity|]. split; [exact G|exact L].
Qed.
Lemma arrays_lock n g s s' pos mom np nm ti ga pos' mom' np' nm' ti' ga' : (forall x, In x track_sets -> track_path n (path (g ++ "/" ++ x)%string)) ->
  Z.of_nat (length pos) = (np * 3)%Z -> Z.of_nat (length mom) = (nm * 3)%Z -> Z.of_nat (length pos') = (np' * 3)%Z -> Z.of_nat (length mom') = (nm' * 3)%Z ->
  rel n s s' -> lock (rel n) (out_arrays s g pos mom np nm ti ga) (out_arrays s' g pos' mom' np' nm' ti' ga').
Proof.
  intros PS L1 L2 L3 L4 W. unfold out_arrays.
  assert (D : forall (b : list T) k, Z.of_nat (length b) = (k * 3)%Z -> (zprod [k; 3] <= Z.of_nat (length b))%Z) by (intros b k Q; cbn [zprod]; lia).
  assert (ML : forall vs : list T, (zprod [len vs] <= Z.of_nat (length vs))%Z) by (intros vs; unfold len; cbn [zprod]; lia).
  pose proof (PS "Position" ltac:(cbn; auto 6)) as P1. pose proof (PS "Momentum" ltac:(cbn; auto 6)) as P2. pose proof (PS "Time" ltac:(cbn; auto 6)) as P3. pose proof (PS "Gamma" ltac:(cbn; auto 6)) as P4.
  change ("/" ++ "Position")%string with "/Position" in P1. change ("/" ++ "Momentum")%string with "/Momentum" in P2. change ("/" ++ "Time")%string with "/Time" in P3. change ("/" ++ "Gamma")%string with "/Gamma" in P4. clear PS.
  eapply lock_bind; [apply array_lock; [exact W|left; split; [exact P1|split; apply D; assumption]]|]. intros c1 d1 W1.
  eapply lock_bind; [apply array_lock; [exact W1|left; split; [exact P2|split; apply D; assumption]]|]. intros c2 d2 W2.
  eapply lock_bind; [apply array_lock; [exact W2|left; split; [exact P3|split; apply ML]]|]. intros c3 d3 W3.
  apply array_lock; [exact W3|left; split; [exact P4|split; apply ML]].
Qed.
Lemma tracks_lock n ts : forall i ts' s s', length ts' = length ts -> (i + length ts <= n)%nat -> rel n s s' -> lock (rel n) (output_tracks_from code s i ts) (output_tracks_from code s' i ts').
Proof.
  induction ts as [|k ts IH]; intros i ts' s s' L LN W; destruct ts' as [|k' ts']; try discriminate L; cbn [output_tracks_from]; cbv zeta; [exact W|].
  assert (PS : forall x, In x track_sets -> track_path n (path (("Particles/ParticleTrack/Event" ++ to_string i) ++ "/" ++ x)%string)).
  { intros x I. exists i, x. cbn [length] in LN. split; [lia|]. split; [exact I|]. apply path_set. exact I. }
  revert PS. generalize ("Particles/ParticleTrack/Event" ++ to_string i)%string. intros g PS.
  eapply lock_bind; [apply group_lock; exact W|]. intros a a' W1.
  eapply lock_bind; [apply arrays_lock; [exact PS|apply flat_scaled_length..|exact W1]|]. intros b b' W2.
  apply IH; [injection L; auto|cbn [length] in LN; lia|exact W2].
Qed.
Lemma species_lock n s s' (tb : table T) buf name : rel n s s' -> lock (rel n) (out_species s tb buf name) (out_species s' tb buf name).
Proof. intros W. unfold out_species. destruct (0 <? _)%Z; [|exact W]. apply array_lock; [exact W|right; split; reflexivity]. Qed.
Lemma rel_tables n s s' : rel n s s' -> om_prim s' = om_prim s /\ om_el s' = om_el s /\ om_po s' = om_po s /\ om_ph s' = om_ph s /\ om_source s' = om_source s /\ om_list s' = om_list s.
Proof. intros ((f' & ts' & -> & _) & _). auto 8. Qed.
Lemma rel_source n s s' : rel n s s' -> rel n (with_source s) (with_source s').
Proof. intros ((f' & ts' & -> & G & W) & P). split; [|exact P]. exists f', ts'. auto. Qed.
Lemma rel_list n s s' : rel n s s' -> rel n (with_list s) (with_list s').
Proof. intros ((f' & ts' & -> & G & W) & P). split; [|exact P]. exists f', ts'. auto. Qed.
Lemma rel_init n s s' k : rel n s s' -> rel n (init_source s k) (init_source s' k).
Proof. intros ((f' & ts' & -> & G & W) & P). split; [|exact P]. exists f', ts'. auto. Qed.
Lemma source_lock n s s' : rel n s s' -> lock (rel n) (output_source code garbage s) (output_source code garbage s').
Proof.
  intros W. unfold output_source. destruct (rel_tables _ _ _ W) as (_ & _ & _ & _ & Q & _). rewrite Q.
  eapply lock_bind with (R := rel n). { destruct (om_source s); [exact W|]. eapply lock_bind; [apply group_lock; exact W|]. intros a b W1. apply rel_source. exact W1. }
  clear s s' W Q. intros s s' W. destruct (rel_tables _ _ _ W) as (Q & _). rewrite Q. eapply lock_bind; [apply lock_refl|]. intros pb ? <-.
  eapply lock_bind; [apply array_lock; [exact W|right; split; reflexivity]|]. clear s s' W Q. intros s s' W. destruct (rel_tables _ _ _ W) as (_ & -> & -> & -> & _).
  eapply lock_bind; [apply lock_refl|]. intros eb ? <-. eapply lock_bind; [apply lock_refl|]. intros pb2 ? <-. eapply lock_bind; [apply lock_refl|]. intros gb ? <-.
  eapply lock_bind; [apply species_lock; exact W|]. clear s s' W. intros s s' W. destruct (rel_tables _ _ _ W) as (_ & _ & -> & _).
  eapply lock_bind; [apply species_lock; exact W|]. clear s s' W. intros s s' W. destruct (rel_tables _ _ _ W) as (_ & _ & _ & -> & _). apply species_lock. exact W.
Qed.
Lemma out_events_lock n s s' output tracking : (length (om_tracks s) <= n)%nat -> rel n s s' -> lock (rel n) (output_events code garbage s output tracking) (output_events code garbage s' output tracking).
Proof.
  intros LN W. unfold output_events.
  assert (L1 : lock (fun a b => rel n a b /\ om_tracks a = om_tracks s) (if output then output_source code garbage s else Ok s) (if output then output_source code garbage s' else Ok s')).
  { destruct output; [|split; auto]. pose proof (source_lock n s s' W) as L. destruct (output_source code garbage s) as [a| | | |] eqn:X; destruct (output_source code garbage s') as [b| | | |]; cbn in *; try contradiction; auto.
    split; [exact L|]. exact (proj1 (output_source_tracks _ _ _ _ X)). }
  eapply lock_bind; [exact L1|]. intros a b [W1 T1]. destruct tracking; [|exact W1]. unfold output_track. destruct (rel_tables _ _ _ W1) as (_ & _ & _ & _ & _ & Q). rewrite Q.
  assert (L2 : lock (fun c d => rel n c d /\ om_tracks c = om_tracks a) (if om_list a then Ok a else let* s := o_group code a "Particles/ParticleTrack" in Ok (with_list s))
    (if om_list a then Ok b else let* s := o_group code b "Particles/ParticleTrack" in Ok (with_list s))).
  { destruct (om_list a); [split; auto|]. pose proof (group_lock n a b "Particles/ParticleTrack" W1) as L.
    destruct (o_group code a "Particles/ParticleTrack") as [c| | | |] eqn:X; destruct (o_group code b "Particles/ParticleTrack") as [d| | | |]; cbn in L |- *; try contradiction; auto.
    split; [apply rel_list; exact L|]. exact (proj1 (o_group_rest _ _ _ _ X)). }
  eapply lock_bind; [exact L2|]. intros c d [W2 T2]. apply tracks_lock; [symmetry; apply Permutation_length; exact (proj2 W2)|rewrite T2, T1; exact LN|exact W2].
Qed.
Lemma hists_lock n hs : forall s s', rel n s s' -> lock (rel n) (write_histograms code s hs) (write_histograms code s' hs).
Proof.
  induction hs as [|h hs IH]; intros s s' W; cbn [write_histograms]; [exact W|]. eapply lock_bind; [|intros a b W1; apply IH; exact W1]. unfold out_hist. cbv zeta.
  eapply lock_bind; [apply group_lock; exact W|]. intros a b W1. eapply lock_bind; [apply array_lock; [exact W1|right; split; reflexivity]|]. intros c d W2. apply array_lock; [exact W2|right; split; reflexivity].
Qed.

(** ** Events from two such output managers *)
Variable E : Engine T.
Variable fuel : nat.
Definition rel_prog (n : nat) (p q : prog E) : Prop := rel n (pg_om E p) (pg_om E q) /\ pg_hists E q = pg_hists E p /\ pg_rng E q = pg_rng E p.
Lemma primary_lock n s s' l j : rel n s s' -> lock (rel n) (store_primary s l j) (store_primary s' l j).
Proof.
  intros ((f' & ts' & -> & G & W) & P). unfold store_primary. eapply lock_bind; [apply lock_refl|]. intros a ? <-. cbn [om_prim with_tracks with_file]. eapply lock_bind; [apply lock_refl|]. intros b ? <-.
  split; [|exact P]. exists f', ts'. auto.
Qed.
Lemma final_lock n s s' l j : rel n s s' -> lock (rel n) (store_final garbage s l j) (store_final garbage s' l j).
Proof.
  intros ((f' & ts' & -> & G & W) & P). unfold store_final. cbn [om_el om_po om_ph with_tracks with_file]. eapply lock_bind; [apply lock_refl|]. intros a ? <-. eapply lock_bind; [apply lock_refl|]. intros b ? <-.
  eapply lock_bind; [apply lock_refl|]. intros c ? <-. split; [|exact P]. exists f', ts'. auto.
Qed.
Lemma track_lock n s s' l j : rel n s s' -> rel n (store_track s l j) (store_track s' l j).
Proof.
  intros ((f' & ts' & -> & G & W) & P). unfold store_track. split; [|cbn [om_tracks with_tracks] in *; apply Permutation_app; [exact P|apply Permutation_refl]].
  eexists f', _. split; [destruct s; reflexivity|]. split; [exact G|exact W].
Qed.
Lemma one_lock n w tEnd output tracking j src p q : rel_prog n p q ->
  lock (fun a b => fst b = fst a /\ rel_prog n (snd a) (snd b)) (one_event E garbage fuel w tEnd output tracking j src p) (one_event E garbage fuel w tEnd output tracking j src q).
Proof.
  intros (W & HQ & GQ). unfold one_event. rewrite HQ, GQ. eapply lock_bind; [apply lock_refl|]. intros [[l src1] g1] ? <-.
  eapply lock_bind with (R := rel n). { unfold when. destruct output; [apply primary_lock; exact W|exact W]. } intros o1 o1' W1.
  eapply lock_bind; [apply lock_refl|]. intros st ? <-. cbv zeta.
  eapply lock_bind with (R := rel n). { unfold when. destruct output; [apply final_lock; exact W1|exact W1]. } intros o2 o2' W2.
  eapply lock_bind with (R := rel n). { unfold when. destruct tracking; [apply track_lock; exact W2|exact W2]. } intros o3 o3' W3.
  split; [reflexivity|]. split; [exact W3|]. split; reflexivity.
Qed.
Lemma events_lock w tEnd output tracking n k : forall j src p q, rel_prog n p q ->
  lock (rel_prog n) (source_events E garbage fuel w tEnd output tracking k j src p) (source_events E garbage fuel w tEnd output tracking k j src q).
Proof.
  induction k as [|k IH]; intros j src p q W; cbn [source_events]; [exact W|]. eapply lock_bind; [apply one_lock; exact W|]. intros a b [Q W1]. rewrite Q. apply IH. exact W1.
Qed.
End Lock.

Section Fails.
Context {T : Type} `{NT : Num T}.
Variable garbage : T.
Variables dom domn : T -> bool.
Variable E : Engine T.
Hypothesis DOM : forall g, dom (fst (e_canon E g)) = true.
Variable code : objinfo.
Variable fuel : nat.
Variable w : world T.
Variable tEnd : T.
Notation RE := (replay dom domn).

Lemma tracked_fails tracking m ss : Forall (fun x => fresh (snd x)) ss -> forall s, hoks m (pg_hists E s) -> forall x, threaded_loop E garbage code fuel w tEnd tracking ss s x -> (forall s', x <> Ok s') ->
  exists sgs us', Forall2 (fun sg x => arranges sg (snd x)) sgs ss /\
    forall n o rest, rel n (pg_om E s) o -> quietly (source_loop RE code garbage fuel w tEnd tracking (shuffles sgs ss) (mkProg RE o (pg_hists E s) ([], us' ++ rest))) = quietly x.
Proof.
  induction ss as [|[output src] ss IH]; intros FR s HH x L NK; cbn [threaded_loop] in L; [exfalso; exact (NK s L)|].
  apply Forall_cons_iff in FR as [FR1 FR2]. cbn [snd] in FR1. cbv zeta in L. destruct L as (y & P & L).
  set (ini := fun o : om T => if output then init_source o (s_nPart src) else o). change (if output then init_source (pg_om E s) (s_nPart src) else pg_om E s) with (ini (pg_om E s)) in P. set (o0 := ini (pg_om E s)) in *.
  assert (W0 : forall n o, rel n (pg_om E s) o -> rel n o0 (ini o)) by (intros n o W; unfold o0, ini; destruct output; [apply rel_init; exact W|exact W]).
  assert (SH : output = true -> shape o0 = repeat (Z.to_nat (s_nPart src)) 7) by (intros HO; unfold o0, ini; rewrite HO; apply init_shape; destruct FR1; lia).
  assert (SL : forall sg sgs p, source_loop RE code garbage fuel w tEnd tracking (shuffles (sg :: sgs) ((output, src) :: ss)) p =
     let* s1 := source_events RE garbage fuel w tEnd output tracking (Z.to_nat (s_nPart src)) 0 (shuffle sg src) (mkProg RE (ini (pg_om RE p)) (pg_hists RE p) (pg_rng RE p)) in
     let* o1 := output_events code garbage (pg_om RE s1) output tracking in source_loop RE code garbage fuel w tEnd tracking (shuffles sgs ss) (mkProg RE o1 (pg_hists RE s1) (pg_rng RE s1))) by reflexivity.
  assert (RP : forall n o g, rel n (pg_om E s) o -> rel_prog RE n (mkProg RE o0 (pg_hists E s) g) (mkProg RE (ini o) (pg_hists E s) g)) by (intros n o g W; split; [apply W0; exact W|split; reflexivity]).
  assert (D : (exists s1, y = Ok s1) \/ forall s1, y <> Ok s1) by (destruct y; [left; eauto|right; discriminate..]).
  destruct D as [(s1 & ->)|NY].
  - destruct (region_any E dom domn garbage fuel DOM w (plan_of (pg_hists E s)) tEnd output tracking src (pg_hists E s) _ (pg_rng E s) s1 FR1 eq_refl P) as (sg & us & us' & A1 & _ & _ & A4).
    destruct (region_outcome E dom domn DOM garbage fuel w tEnd output tracking src _ _ _ _ FR1 (proj1 HH) P) as [(s2 & Q & LK)|(N1 & _)]; [injection Q as <-|exfalso; exact (N1 _ eq_refl)].
    assert (A5 : forall n o rest, rel n (pg_om E s) o -> exists o2, lock (rel (max n (length (om_tracks (sh_om E s1))))) (output_events code garbage (sh_om E s1) output tracking) (output_events code garbage o2 output tracking) /\
      source_events RE garbage fuel w tEnd output tracking (Z.to_nat (s_nPart src)) 0 (shuffle sg src) (mkProg RE (ini o) (pg_hists E s) ([], us' ++ rest)) = Ok (mkProg RE o2 (sh_hists E s1) ([], rest))).
    { intros n o rest W. destruct (A4 [] rest) as (o1s & X & AL & _).
      pose proof (events_lock garbage RE fuel w tEnd output tracking n (Z.to_nat (s_nPart src)) 0 (shuffle sg src) _ _ (RP n o ([], us' ++ rest) W)) as LL. rewrite X in LL.
      destruct (source_events RE garbage fuel w tEnd output tracking _ _ _ (mkProg RE (ini o) _ _)) as [[o2 h2 g2]| | | |]; cbn in LL; try contradiction. destruct LL as (R1 & R2 & R3). cbn [pg_om pg_hists pg_rng] in *. subst h2 g2.
      exists o2. split; [|reflexivity]. apply out_events_lock; [apply Nat.le_max_r|]. eapply rel_up; [apply Nat.le_max_l|eapply alike_rel; eassumption]. }
    clear A4. cbn [bind] in L.
    assert (D : (exists o1, output_events code garbage (sh_om E s1) output tracking = Ok o1) \/ forall o1, output_events code garbage (sh_om E s1) output tracking <> Ok o1) by (destruct (output_events _ _ _ _ _); [left; eauto|right; discriminate..]).
    destruct D as [(o1 & OE)|NO].
    + rewrite OE in L. cbn [bind] in L.
      destruct (IH FR2 (mkProg E o1 (sh_hists E s1) (sh_rng E s1)) (like_hoks _ _ _ HH LK) x L NK) as (sgs & vs & B1 & B2). cbn [pg_om pg_hists] in B2.
      exists (sg :: sgs), (us' ++ vs). split; [constructor; assumption|]. intros n o rest W. rewrite SL. cbn [pg_om pg_hists pg_rng]. rewrite <- app_assoc.
      destruct (A5 n o (vs ++ rest) W) as (o2 & OL & ->). cbn [bind pg_om pg_hists pg_rng]. rewrite OE in OL.
      destruct (output_events code garbage o2 output tracking) as [o3| | | |]; cbn in OL; try contradiction. cbn [bind]. eapply B2. exact OL.
    + destruct (arranged ss) as (sgs & B1). exists (sg :: sgs), us'. split; [constructor; assumption|]. intros n o rest W. rewrite SL. cbn [pg_om pg_hists pg_rng].
      destruct (A5 n o rest W) as (o2 & OL & ->). cbn [bind pg_om pg_hists pg_rng]. apply lock_quiet in OL.
      rewrite quietly_bind by (apply (quietly_fails _ _ (eq_sym OL) NO)). rewrite <- OL.
      destruct (output_events code garbage (sh_om E s1) output tracking) as [o1| | | |]; cbn [bind] in L; [exfalso; exact (NO _ eq_refl)|subst x; reflexivity..].
  - destruct (region_fails garbage dom domn E DOM fuel w tEnd output tracking src _ _ _ y FR1 (proj1 HH) SH P NY) as (sg & us' & A1 & A2). destruct (arranged ss) as (sgs & B1). exists (sg :: sgs), us'. split; [constructor; assumption|].
    intros n o rest W. rewrite SL. cbn [pg_om pg_hists pg_rng]. pose proof (lock_quiet _ _ _ (events_lock garbage RE fuel w tEnd output tracking n (Z.to_nat (s_nPart src)) 0 (shuffle sg src) _ _ (RP n o ([], us' ++ rest) W))) as LL.
    specialize (A2 rest). rewrite LL in A2. rewrite quietly_bind by (apply (quietly_fails _ y A2 NY)). rewrite A2.
    destruct y; cbn [bind] in L; [exfalso; exact (NY _ eq_refl)|subst x; reflexivity..].
Qed.
End Fails.
