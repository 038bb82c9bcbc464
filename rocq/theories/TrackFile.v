(** * Two output files that differ in the recorded tracks only *)
From Coq Require Import String ZArith List Bool Lia.
From Verif Require Import Num Outcome OutcomeFacts Vec Units MCTools Particle ParticleList Source Fields Process Sim Histogram Hdf5 Output OutFacts OutFile
  Program TrackFacts.
From Verif Require FileParser.
Import ListNotations.
Local Open Scope string_scope.
Local Open Scope list_scope.

(** Everything but what lies below Particles/ParticleTrack. *)
Definition outside (q : list string) : Prop := forall r, q <> "Particles" :: "ParticleTrack" :: r.

Lemma outside_removelast q : outside q -> outside (removelast q).
Proof.
  intros HO r HQ. destruct q as [|a q]; [discriminate|]. rewrite (app_removelast_last a (l := a :: q)) in HO by discriminate. rewrite HQ in HO.
  apply (HO (r ++ [last (a :: q) a])). reflexivity.
Qed.
Lemma outside_head a q : a <> "Particles" -> outside (a :: q).
Proof. intros HA r HQ. congruence. Qed.
Lemma outside_second a q : a <> "ParticleTrack" -> outside ("Particles" :: a :: q).
Proof. intros HA r HQ. congruence. Qed.

Section File.
Context {T : Type} `{Num T}.
Variable code : objinfo.
Variable garbage : T.

(** [o] has recorded tracks, [o'] has not. *)
Definition alike (o o' : om T) : Prop :=
  om_units o' = om_units o /\ om_source o' = om_source o /\
  om_prim o' = om_prim o /\ om_el o' = om_el o /\ om_po o' = om_po o /\ om_ph o' = om_ph o /\
  (forall q, outside q -> lookup (f_tree (om_file o')) q = lookup (f_tree (om_file o)) q) /\
  (forall q, ~ outside q -> lookup (f_tree (om_file o')) q = None) /\
  f_group (om_file o) <> GNull /\ (f_group (om_file o) = GLive -> f_group (om_file o') = GLive).

Lemma alike_exists o o' p : alike o o' -> outside p -> exists_ (f_tree (om_file o')) p = exists_ (f_tree (om_file o)) p.
Proof. intros (_ & _ & _ & _ & _ & _ & HL & _) HO. unfold exists_. destruct p; [reflexivity|]. now rewrite HL. Qed.
Lemma alike_is_group o o' p : alike o o' -> outside p -> is_group (f_tree (om_file o')) p = is_group (f_tree (om_file o)) p.
Proof. intros (_ & _ & _ & _ & _ & _ & HL & _) HO. unfold is_group. destruct p; [reflexivity|]. now rewrite HL. Qed.
Lemma alike_create o o' p n t : alike o o' -> outside p -> create (f_tree (om_file o)) p n = Ok t ->
  create (f_tree (om_file o')) p n = Ok ((p, n) :: f_tree (om_file o')) /\ t = (p, n) :: f_tree (om_file o).
Proof.
  intros HA HO HC. unfold create in *. rewrite (alike_exists _ _ _ HA HO), (alike_is_group _ _ _ HA (outside_removelast _ HO)).
  destruct (exists_ _ _); [discriminate|]. destruct (is_group _ _); [|discriminate]. injection HC; intros <-. auto.
Qed.
Lemma alike_add o o' p n g g' : alike o o' -> outside p -> g <> GNull -> (g = GLive -> g' = GLive) ->
  alike (with_file o (mkFile ((p, n) :: f_tree (om_file o)) g)) (with_file o' (mkFile ((p, n) :: f_tree (om_file o')) g')).
Proof.
  intros (A1 & A2 & A3 & A4 & A5 & A6 & A7 & A8 & A9 & A10) HO G1 G2. repeat (split; [assumption|]).
  cbn [with_file om_file f_tree f_group]. split; [|split; [|split; assumption]].
  - intros q HQ. rewrite !lookup_cons. destruct (list_eq_dec _ _ _); auto.
  - intros q HQ. rewrite lookup_cons. destruct (list_eq_dec _ _ _) as [->|]; [contradiction|auto].
Qed.
Lemma alike_grp o o' g g' : alike o o' -> g <> GNull -> (g = GLive -> g' = GLive) ->
  alike (with_file o (mkFile (f_tree (om_file o)) g)) (with_file o' (mkFile (f_tree (om_file o')) g')).
Proof. intros (A1 & A2 & A3 & A4 & A5 & A6 & A7 & A8 & A9 & A10) G1 G2. repeat (split; [assumption|]). auto. Qed.

(** a call that both managers get *)
Definition both (f f' : om T -> res (om T)) : Prop := forall o o' o1, alike o o' -> f o = Ok o1 -> exists o1', f' o' = Ok o1' /\ alike o1 o1'.

Lemma both_group name : outside (path name) -> both (fun o => o_group code o name) (fun o => o_group code o name).
Proof.
  intros HO o o' o1 HA X. unfold o_group, add_group in *. rewrite (alike_exists _ _ _ HA HO). apply bind_ok in X. destruct X as [fi [X Y]]. injection Y; intros <-.
  apply bind_ok in X. destruct X as [g [G X]]. pose proof HA as (_ & _ & _ & _ & _ & _ & _ & _ & G1 & G2).
  destruct (f_group (om_file o)); [contradiction| |discriminate]. rewrite (G2 eq_refl). injection G; intros <-. cbn [bind] in *.
  destruct (Bool.eqb _ false).
  - apply bind_ok in X. destruct X as [t [X Y']]. injection Y'; intros <-. destruct (alike_create _ _ _ _ _ HA HO X) as [C ->]. rewrite C. cbn [bind].
    eexists. split; [reflexivity|]. apply alike_add; auto; discriminate.
  - injection X; intros <-. eexists. split; [reflexivity|]. apply alike_grp; auto; discriminate.
Qed.
Lemma both_array buf dims name : outside (path name) -> both (fun o => o_array o buf dims name) (fun o => o_array o buf dims name).
Proof.
  intros HO o o' o1 HA X. unfold o_array, add_array in *. apply bind_ok in X. destruct X as [fi [X Y]]. injection Y; intros <-.
  apply bind_ok in X. destruct X as [t [X Y']]. destruct (alike_create _ _ _ _ _ HA HO X) as [C ->]. rewrite C. cbn [bind].
  destruct (Z.of_nat (length buf) <? zprod dims)%Z; [discriminate|]. injection Y'; intros <-. cbn [bind]. eexists. split; [reflexivity|].
  pose proof HA as (_ & _ & _ & _ & _ & _ & _ & _ & G1 & G2). apply alike_add; auto.
Qed.

(** a call that only the first manager gets *)
Definition first_only (f : om T -> res (om T)) : Prop := forall o o' o1, alike o o' -> f o = Ok o1 -> alike o1 o'.

Lemma alike_left o o' t g : alike o o' -> (forall q, outside q -> lookup t q = lookup (f_tree (om_file o)) q) -> g <> GNull ->
  (g = GLive -> f_group (om_file o) <> GFreed) -> alike (with_file o (mkFile t g)) o'.
Proof.
  intros (A1 & A2 & A3 & A4 & A5 & A6 & A7 & A8 & A9 & A10) HT G1 G2. repeat (split; [assumption|]). cbn [with_file om_file f_tree f_group].
  split; [|split; [|split]]; auto.
  - intros q HQ. rewrite HT; auto.
  - intros HG. apply A10. specialize (G2 HG). destruct (f_group (om_file o)); congruence.
Qed.
Lemma first_group name : ~ outside (path name) -> first_only (fun o => o_group code o name).
Proof.
  intros HO o o' o1 HA X. unfold o_group, add_group in *. apply bind_ok in X. destruct X as [fi [X Y]]. injection Y; intros <-.
  apply bind_ok in X. destruct X as [g [G X]]. pose proof HA as (_ & _ & _ & _ & _ & _ & _ & _ & G1 & G2).
  destruct (f_group (om_file o)) eqn:EG; [contradiction| |discriminate]. injection G; intros <-.
  destruct (Bool.eqb _ false).
  - apply bind_ok in X. destruct X as [t [X Y']]. injection Y'; intros <-. apply create_ok in X. destruct X as (_ & _ & ->). apply alike_left; auto; try discriminate.
    + intros q HQ. rewrite lookup_cons. destruct (list_eq_dec _ _ _) as [->|]; [contradiction|reflexivity].
    + intros _. congruence.
  - injection X; intros <-. apply alike_left; auto; discriminate.
Qed.
Lemma first_array buf dims name : ~ outside (path name) -> first_only (fun o => o_array o buf dims name).
Proof.
  intros HO o o' o1 HA X. unfold o_array, add_array in *. apply bind_ok in X. destruct X as [fi [X Y]]. injection Y; intros <-.
  apply bind_ok in X. destruct X as [t [X Y']]. destruct (Z.of_nat (length buf) <? zprod dims)%Z; [discriminate|]. injection Y'; intros <-.
  apply create_ok in X. destruct X as (_ & _ & ->). pose proof HA as (_ & _ & _ & _ & _ & _ & _ & _ & G1 & G2). apply alike_left; auto.
  - intros q HQ. rewrite lookup_cons. destruct (list_eq_dec _ _ _) as [->|]; [contradiction|reflexivity].
  - intros EG. rewrite EG. discriminate.
Qed.

Lemma alike_with_source o o' : alike o o' -> alike (with_source o) (with_source o').
Proof. intros (A1 & A2 & A3 & A4 & A5 & A6 & A7 & A8 & A9 & A10). repeat (split; [assumption|]). auto. split; [reflexivity|]. repeat (split; [assumption|]). assumption. Qed.
Lemma alike_with_list o o' : alike o o' -> alike (with_list o) o'.
Proof. exact (fun x => x). Qed.
Lemma alike_tracks o o' ts : alike o o' -> alike (with_tracks o ts) o'.
Proof. exact (fun x => x). Qed.

Lemma out_species_both tb buf name : both (fun o => out_species o tb buf name) (fun o => out_species o tb buf name).
Proof.
  intros o o' o1 HA X. unfold out_species in *. destruct (0 <? total (tb_count tb))%Z.
  - apply (both_array _ _ _) with (o := o); auto. change ("Particles/ParticleSource/" ++ name)%string with ("Particles/ParticleSource" ++ "/" ++ name)%string.
    rewrite path_app. apply outside_second. discriminate.
  - injection X; intros <-. eauto.
Qed.
Lemma output_source_both : both (output_source code garbage) (output_source code garbage).
Proof.
  intros o o' o1 HA X. unfold output_source in *. apply bind_ok in X. destruct X as [s1 [S1 X]].
  assert (S1' : exists s1', (if om_source o' then Ok o' else let* s := o_group code o' "Particles/ParticleSource" in Ok (with_source s)) = Ok s1' /\ alike s1 s1').
  { pose proof HA as (_ & HS & _). rewrite HS. destruct (om_source o); [injection S1; intros <-; eauto|].
    apply bind_ok in S1. destruct S1 as [a [A S1]]. injection S1; intros <-.
    destruct (both_group "Particles/ParticleSource" (outside_second "ParticleSource" [] ltac:(discriminate)) _ _ _ HA A) as (a' & -> & HB). cbn [bind].
    eexists. split; [reflexivity|]. apply alike_with_source, HB. }
  destruct S1' as (s1' & -> & HA1). cbn [bind]. pose proof HA1 as (_ & _ & EP & _). rewrite EP.
  apply bind_ok in X. destruct X as [pb [PB X]]. rewrite PB. cbn [bind].
  apply bind_ok in X. destruct X as [s2 [S2 X]].
  destruct (both_array pb [len (om_prim s1); 8%Z] "Particles/ParticleSource/Primary" (outside_second "ParticleSource" ["Primary"] ltac:(discriminate)) _ _ _ HA1 S2) as (s2' & -> & HA2).
  cbn [bind]. pose proof HA2 as (_ & _ & _ & E1 & E2 & E3 & _). rewrite E1, E2, E3.
  apply bind_ok in X. destruct X as [eb [EB X]]. rewrite EB. cbn [bind].
  apply bind_ok in X. destruct X as [qb [QB X]]. rewrite QB. cbn [bind].
  apply bind_ok in X. destruct X as [gb [GB X]]. rewrite GB. cbn [bind].
  apply bind_ok in X. destruct X as [s3 [S3 X]]. destruct (out_species_both _ _ _ _ _ _ HA2 S3) as (s3' & -> & HA3). cbn [bind].
  pose proof HA3 as (_ & _ & _ & E1' & E2' & E3' & _). rewrite E2'.
  apply bind_ok in X. destruct X as [s4 [S4 X]]. destruct (out_species_both _ _ _ _ _ _ HA3 S4) as (s4' & -> & HA4). cbn [bind].
  pose proof HA4 as (_ & _ & _ & _ & _ & E3'' & _). rewrite E3''. exact (out_species_both _ _ _ _ _ _ HA4 X).
Qed.

Lemma not_outside r : ~ outside ("Particles" :: "ParticleTrack" :: r).
Proof. intros HO. exact (HO r eq_refl). Qed.
Lemma out_arrays_first g r pos mom a b time gamma : path g = "Particles" :: "ParticleTrack" :: r ->
  first_only (fun o => out_arrays o g pos mom a b time gamma).
Proof.
  intros PG o o' o1 HA S2.
  assert (PA : forall x, ~ outside (path (g ++ "/" ++ x))) by (intros x; rewrite path_app, PG; apply not_outside).
  unfold out_arrays in S2. apply bind_ok in S2. destruct S2 as [s2 [A S2]]. pose proof (first_array _ _ _ (PA "Position") _ o' _ HA A) as B2.
  apply bind_ok in S2. destruct S2 as [s3 [B S2]]. pose proof (first_array _ _ _ (PA "Momentum") _ o' _ B2 B) as B3.
  apply bind_ok in S2. destruct S2 as [s4 [C S2]]. pose proof (first_array _ _ _ (PA "Time") _ o' _ B3 C) as B4.
  exact (first_array _ _ _ (PA "Gamma") _ o' _ B4 S2).
Qed.
Lemma tracks_from_first ts : forall i, first_only (fun o => output_tracks_from code o i ts).
Proof.
  induction ts as [|k ts IH]; intros i o o' o1 HA X; cbn [output_tracks_from] in X; [injection X; intros <-; exact HA|].
  cbv zeta in X. pose proof (path_ev i) as PG. unfold tpath in PG. set (g := ("Particles/ParticleTrack/Event" ++ to_string i)%string) in *. clearbody g.
  apply bind_ok in X. destruct X as [s1 [S1 X]]. apply bind_ok in X. destruct X as [s2 [S2 X]].
  assert (B1 : alike s1 o') by (apply (first_group g) with (o := o); auto; rewrite PG; apply not_outside).
  apply (IH (S i) s2 o' o1); [|exact X]. exact (out_arrays_first g _ _ _ _ _ _ _ PG s1 o' s2 B1 S2).
Qed.
Lemma output_track_first : first_only (output_track code).
Proof.
  intros o o' o1 HA X. unfold output_track in X. apply bind_ok in X. destruct X as [s1 [S1 X]].
  refine (tracks_from_first _ 0 _ o' _ _ X). destruct (om_list o); [injection S1; intros <-; exact HA|].
  apply bind_ok in S1. destruct S1 as [a [A S1]]. injection S1; intros <-. apply alike_with_list.
  apply (first_group "Particles/ParticleTrack") with (o := o); auto. apply not_outside.
Qed.
Lemma output_events_both b : both (fun o => output_events code garbage o b true) (fun o => output_events code garbage o b false).
Proof.
  intros o o' o1 HA X. unfold output_events in *. apply bind_ok in X. destruct X as [s1 [S1 X]].
  assert (S1' : exists s1', (if b then output_source code garbage o' else Ok o') = Ok s1' /\ alike s1 s1').
  { destruct b; [exact (output_source_both _ _ _ HA S1)|]. injection S1; intros <-. eauto. }
  destruct S1' as (s1' & -> & HA1). cbn [bind]. eexists. split; [reflexivity|]. exact (output_track_first _ _ _ HA1 X).
Qed.
Lemma out_hist_both h : both (fun o => out_hist code o h) (fun o => out_hist code o h).
Proof.
  intros o o' o1 HA X. unfold out_hist in *. cbv zeta in *.
  change ("Histograms/" ++ hi_name h)%string with ("Histograms" ++ "/" ++ hi_name h)%string in *. set (g := ("Histograms" ++ "/" ++ hi_name h)%string) in *.
  assert (PG : outside (path g)) by (unfold g; rewrite path_app; apply outside_head; discriminate).
  assert (PA : forall x, outside (path (g ++ "/" ++ x))) by (intros x; unfold g; rewrite !path_app; apply outside_head; discriminate).
  apply bind_ok in X. destruct X as [a [A X]]. destruct (both_group _ PG _ _ _ HA A) as (a' & -> & HA1). cbn [bind].
  apply bind_ok in X. destruct X as [b [B X]]. destruct (both_array _ _ _ (PA "BinCentres") _ _ _ HA1 B) as (b' & HB & HA2). cbn in HB |- *. rewrite HB. cbn [bind].
  exact (both_array _ _ _ (PA "BinValues") _ _ _ HA2 X).
Qed.
Lemma write_histograms_both hs : both (fun o => write_histograms code o hs) (fun o => write_histograms code o hs).
Proof.
  induction hs as [|h hs IH]; intros o o' o1 HA X; cbn [write_histograms] in *; [injection X; intros <-; eauto|].
  apply bind_ok in X. destruct X as [s1 [S1 X]]. destruct (out_hist_both h _ _ _ HA S1) as (s1' & -> & HA1). cbn [bind]. exact (IH _ _ _ HA1 X).
Qed.

(** storing *)
Lemma row_erase id p : row id (erase p) = row id p.
Proof. reflexivity. Qed.
Lemma count_erase name : forall (ps : list (particle T)) c, count_named name (map erase ps) c = count_named name ps c.
Proof. induction ps as [|p ps IH]; intros c; cbn [count_named map]; [reflexivity|]. apply IH. Qed.
Lemma store_rows_erase name id : forall ps buf c, store_rows name id (map (@erase T) ps) buf c = store_rows name id ps buf c.
Proof.
  induction ps as [|p ps IH]; intros buf c; cbn [store_rows map]; [reflexivity|]. change (p_name (erase p)) with (p_name p). rewrite row_erase.
  destruct (String.eqb _ _); [apply bind_ext; intros b|]; apply IH.
Qed.
Lemma store_species_erase name id ps tb : store_species garbage name id (map erase ps) tb = store_species garbage name id ps tb.
Proof. unfold store_species. rewrite count_erase. apply bind_ext. intros _. apply bind_ext. intros _. now rewrite store_rows_erase. Qed.
Lemma store_primary_both l l' j : erase_list l' = erase_list l -> both (fun o => store_primary o l j) (fun o => store_primary o l' j).
Proof.
  intros HE o o' o1 HA X. unfold store_primary in *. apply bind_ok in X. destruct X as [p [P X]].
  pose proof (erase_get l 0) as G. pose proof (erase_get l' 0) as G'. rewrite HE, G, P in G'. destruct (pl_get l' 0) as [p'| | | |]; try discriminate.
  assert (ER : erase p = erase p') by (cbn [rmap bind] in G'; congruence). cbn [bind]. pose proof HA as (A1 & A2 & A3 & A4 & A5 & A6 & A7 & A8 & A9 & A10). rewrite A3.
  apply bind_ok in X. destruct X as [z [Z X]]. rewrite Z. cbn [bind]. injection X; intros <-. eexists. split; [reflexivity|].
  rewrite <- (row_erase j p), <- (row_erase j p'), ER.
  repeat (split; [assumption|]). split; [reflexivity|]. repeat (split; [assumption|]). assumption.
Qed.
Lemma store_final_both l l' j : erase_list l' = erase_list l -> both (fun o => store_final garbage o l j) (fun o => store_final garbage o l' j).
Proof.
  intros HE o o' o1 HA X. unfold store_final in *. pose proof HA as (A1 & A2 & A3 & A4 & A5 & A6 & A7 & A8 & A9 & A10). rewrite A4, A5, A6.
  assert (EI : map erase (pl_items l') = map erase (pl_items l)) by (injection HE; auto).
  rewrite <- !(store_species_erase _ _ (pl_items l')), EI, !store_species_erase.
  apply bind_ok in X. destruct X as [e [X1 X]]. rewrite X1. apply bind_ok in X. destruct X as [p [X2 X]]. cbn [bind]. rewrite X2.
  apply bind_ok in X. destruct X as [h [X3 X]]. cbn [bind]. rewrite X3. cbn [bind]. injection X; intros <-. eexists. split; [reflexivity|].
  repeat (split; [assumption|]). do 3 (split; [reflexivity|]). repeat (split; [assumption|]). assumption.
Qed.
Lemma alike_init o o' n : alike o o' -> alike (init_source o n) (init_source o' n).
Proof.
  intros (A1 & A2 & A3 & A4 & A5 & A6 & A7 & A8 & A9 & A10). do 2 (split; [assumption|]). do 4 (split; [reflexivity|]). repeat (split; [assumption|]). assumption.
Qed.

(** ** Runs *)
Variable E : Engine T.
Variable fuel : nat.
Definition alike_prog (s s' : prog E) : Prop := alike (pg_om E s) (pg_om E s') /\ pg_hists E s' = pg_hists E s /\ pg_rng E s' = pg_rng E s.

Lemma rmap_ok {A B} (f : A -> B) (x x' : res A) a : rmap f x' = rmap f x -> x = Ok a -> exists a', x' = Ok a' /\ f a' = f a.
Proof. intros HE ->. destruct x' as [a'| | | |]; try discriminate. injection HE. eauto. Qed.

Lemma one_event_both w w' tEnd output j src src' s s' src1 s1 :
  erase_world w' = erase_world w -> erase_source src' = erase_source src -> alike_prog s s' ->
  one_event E garbage fuel w tEnd output true j src s = Ok (src1, s1) ->
  exists src1' s1', one_event E garbage fuel w' tEnd output false j src' s' = Ok (src1', s1') /\ erase_source src1' = erase_source src1 /\ alike_prog s1 s1'.
Proof.
  intros HW HS (HA & HH & HR) X. unfold one_event in *. rewrite HR. apply bind_ok in X. destruct X as [[[l sr1] g1] [G X]].
  destruct (rmap_ok (eraseG E) (generate_list E src (pg_rng E s)) (generate_list E src' (pg_rng E s)) (l, sr1, g1)) as ([[l' sr1'] g1'] & G' & EG);
    [rewrite !erase_generate, HS; reflexivity|exact G|]. rewrite G'. cbn [bind]. unfold eraseG in EG.
  assert (EL : erase_list l' = erase_list l) by congruence. assert (ES : erase_source sr1' = erase_source sr1) by congruence.
  assert (ER : g1' = g1) by congruence. subst g1'. clear EG.
  apply bind_ok in X. destruct X as [o1 [O1 X]].
  assert (O1' : exists o1', when output (pg_om E s') (fun o => store_primary o l' j) = Ok o1' /\ alike o1 o1').
  { unfold when in *. destruct output; [exact (store_primary_both _ _ _ EL _ _ _ HA O1)|]. injection O1; intros <-. eauto. }
  destruct O1' as (o1' & -> & HA1). cbn [bind]. rewrite HH. apply bind_ok in X. destruct X as [st [ST X]].
  assert (HE : rmap (erase_state E) (run_event E w' (map hi_time (pg_hists E s)) hist_fill fuel tEnd l' g1 (pg_hists E s)) =
    rmap (erase_state E) (run_event E w (map hi_time (pg_hists E s)) hist_fill fuel tEnd l g1 (pg_hists E s)))
    by (rewrite !(erase_run E _ _ _ erase_hist_fill), HW, EL; reflexivity).
  destruct (rmap_ok _ _ _ st HE ST) as (st' & ST' & EST). rewrite ST'. cbn [bind].
  assert (EF : erase_list (st_ev E st') = erase_list (st_ev E st)) by (apply (f_equal (st_ev E)) in EST; exact EST).
  assert (ERG : st_rng E st' = st_rng E st) by (apply (f_equal (st_rng E)) in EST; exact EST).
  assert (EH : st_hist E st' = st_hist E st) by (apply (f_equal (st_hist E)) in EST; exact EST).
  apply bind_ok in X. destruct X as [o2 [O2 X]].
  assert (O2' : exists o2', when output o1' (fun o => store_final garbage o (st_ev E st') j) = Ok o2' /\ alike o2 o2').
  { unfold when in *. destruct output; [exact (store_final_both _ _ _ EF _ _ _ HA1 O2)|]. injection O2; intros <-. eauto. }
  destruct O2' as (o2' & -> & HA2). cbn [when bind] in X |- *. injection X; intros <- <-. eexists _, _. split; [reflexivity|]. split; [exact ES|].
  split; [apply alike_tracks, HA2|]. auto.
Qed.
Lemma source_events_both w w' tEnd output n : erase_world w' = erase_world w -> forall j src src' s s' s1,
  erase_source src' = erase_source src -> alike_prog s s' ->
  source_events E garbage fuel w tEnd output true n j src s = Ok s1 ->
  exists s1', source_events E garbage fuel w' tEnd output false n j src' s' = Ok s1' /\ alike_prog s1 s1'.
Proof.
  intros HW. induction n as [|n IH]; intros j src src' s s' s1 HS HP X; cbn [source_events] in *; [injection X; intros <-; eauto|].
  apply bind_ok in X. destruct X as [[src2 s2] [X1 X]]. destruct (one_event_both _ _ _ _ _ _ _ _ _ _ _ HW HS HP X1) as (src2' & s2' & -> & HS2 & HP2). cbn [bind fst snd] in *.
  exact (IH _ _ _ _ _ _ HS2 HP2 X).
Qed.
Lemma source_loop_both w w' tEnd : erase_world w' = erase_world w -> forall ss ss' s s' s1,
  map (fun x => (fst x, erase_source (snd x))) ss' = map (fun x => (fst x, erase_source (snd x))) ss -> alike_prog s s' ->
  source_loop E code garbage fuel w tEnd true ss s = Ok s1 ->
  exists s1', source_loop E code garbage fuel w' tEnd false ss' s' = Ok s1' /\ alike_prog s1 s1'.
Proof.
  intros HW. induction ss as [|[out src] ss IH]; intros ss' s s' s1 HS HP X; destruct ss' as [|[out' src'] ss']; try discriminate HS; cbn [source_loop] in *.
  { injection X; intros <-. eauto. }
  cbn [map fst snd] in HS. assert (HO : out' = out) by congruence. assert (HE : erase_source src' = erase_source src) by congruence.
  assert (HT : map (fun x => (fst x, erase_source (snd x))) ss' = map (fun x => (fst x, erase_source (snd x))) ss) by congruence. subst out'. clear HS.
  assert (HN : s_nPart src' = s_nPart src) by (apply (f_equal (@s_nPart T)) in HE; exact HE). rewrite HN.
  pose proof HP as (HA & HH & HR). apply bind_ok in X. destruct X as [s2 [X1 X]].
  destruct (source_events_both w w' tEnd out (Z.to_nat (s_nPart src)) HW 0%Z src src'
    (mkProg E (if out then init_source (pg_om E s) (s_nPart src) else pg_om E s) (pg_hists E s) (pg_rng E s))
    (mkProg E (if out then init_source (pg_om E s') (s_nPart src) else pg_om E s') (pg_hists E s') (pg_rng E s')) s2 HE) with (2 := X1) as (s2' & -> & HP2).
  { split; [|split; auto]. cbn [pg_om]. destruct out; [apply alike_init|]; exact HA. }
  cbn [bind]. destruct HP2 as (HA2 & HH2 & HR2). apply bind_ok in X. destruct X as [o1 [X2 X]].
  destruct (output_events_both out _ _ _ HA2 X2) as (o1' & -> & HA3). cbn [bind]. eapply IH; [exact HT| |exact X]. split; [exact HA3|]. auto.
Qed.

Variable load_em : res (em_tables T).
Variable load_bw : res (bw_tables T).
Variable counters : nat -> Z.

(** the same parameters with the given tracking flag *)
Definition set_tracking (b : bool) (pa : FileParser.parameters T) : FileParser.parameters T :=
  let ge := FileParser.in_general pa in
  FileParser.mkParams (FileParser.mkGeneral (FileParser.g_units ge) (FileParser.g_timeStep ge) (FileParser.g_timeEnd ge) (FileParser.g_fileName ge) b)
    (FileParser.in_field pa) (FileParser.in_physics pa) (FileParser.in_particles pa) (FileParser.in_histograms pa).

Lemma set_up_world_both pa b b' : rmap erase_world (set_up_world load_em load_bw (set_tracking b' pa)) = rmap erase_world (set_up_world load_em load_bw (set_tracking b pa)).
Proof.
  unfold set_up_world, set_tracking. cbn [FileParser.in_general FileParser.g_timeStep FileParser.in_field FileParser.in_physics FileParser.g_tracking].
  rewrite !rmap_bind. apply bind_ext. intros f. unfold choose_physics. cbv zeta.
  destruct (_ || _)%bool; [destruct load_em; cbn; try reflexivity; destruct (choose_pairs load_bw _ _ _); reflexivity|].
  destruct (_ || _)%bool; [destruct load_em; cbn; try reflexivity; destruct (choose_pairs load_bw _ _ _); reflexivity|].
  destruct (_ || _)%bool; [destruct load_em; cbn; try reflexivity; destruct (choose_pairs load_bw _ _ _); reflexivity|]. reflexivity.
Qed.
Lemma make_sources_both b b' qs : forall g,
  map (fun x => (fst x, erase_source (snd x))) (fst (make_sources E b' qs g)) = map (fun x => (fst x, erase_source (snd x))) (fst (make_sources E b qs g)) /\
  snd (make_sources E b' qs g) = snd (make_sources E b qs g).
Proof.
  induction qs as [|q qs IH]; intros g; cbn [make_sources]; [auto|]. unfold make_source.
  pose proof (erase_new_source E (FileParser.p_type q) (FileParser.p_distro q) (FileParser.p_number q) (FileParser.p_energy1 q) (FileParser.p_energy2 q)
    (FileParser.p_radius q) (FileParser.p_duration q) (FileParser.p_divergence q) (FileParser.p_position q) (FileParser.p_direction q) b' g) as N'.
  rewrite (erase_new_source E (FileParser.p_type q) (FileParser.p_distro q) (FileParser.p_number q) (FileParser.p_energy1 q) (FileParser.p_energy2 q)
    (FileParser.p_radius q) (FileParser.p_duration q) (FileParser.p_divergence q) (FileParser.p_position q) (FileParser.p_direction q) b g) in N'.
  destruct (new_source E _ _ _ _ _ _ _ _ _ _ b' g) as [s' g'] eqn:Q1. destruct (new_source E _ _ _ _ _ _ _ _ _ _ b g) as [s g1] eqn:Q2.
  rewrite ?Q1, ?Q2 in N'. cbn [fst snd] in N'. assert (ES : erase_source s' = erase_source s) by congruence. assert (EG : g' = g1) by congruence. subst g'.
  destruct (IH g1) as [I1 I2]. destruct (make_sources E b' qs g1) as [ss' g2']. destruct (make_sources E b qs g1) as [ss g2]. cbn [fst snd map] in *.
  split; [|exact I2]. f_equal; [f_equal; exact ES|exact I1].
Qed.

Lemma simulation_both pa g f : objinfo_inverted code ->
  simulation E load_em load_bw counters code garbage fuel (set_tracking true pa) g = Ok f ->
  exists f', simulation E load_em load_bw counters code garbage fuel (set_tracking false pa) g = Ok f' /\
    (forall q, outside q -> lookup (f_tree f') q = lookup (f_tree f) q) /\ (forall q, ~ outside q -> lookup (f_tree f') q = None).
Proof.
  intros HI X. unfold simulation in *. apply bind_ok in X. destruct X as [w [W X]].
  destruct (rmap_ok erase_world _ _ w (set_up_world_both pa true false) W) as (w' & -> & EW). cbn [bind].
  change (FileParser.in_particles (set_tracking true pa)) with (FileParser.in_particles pa) in X.
  change (FileParser.in_histograms (set_tracking true pa)) with (FileParser.in_histograms pa) in X.
  change (FileParser.g_tracking (FileParser.in_general (set_tracking true pa))) with true in X.
  change (FileParser.g_timeEnd (FileParser.in_general (set_tracking true pa))) with (FileParser.g_timeEnd (FileParser.in_general pa)) in X.
  change (FileParser.in_particles (set_tracking false pa)) with (FileParser.in_particles pa).
  change (FileParser.in_histograms (set_tracking false pa)) with (FileParser.in_histograms pa).
  change (FileParser.g_tracking (FileParser.in_general (set_tracking false pa))) with false.
  change (FileParser.g_timeEnd (FileParser.in_general (set_tracking false pa))) with (FileParser.g_timeEnd (FileParser.in_general pa)).
  destruct (make_sources_both true false (FileParser.in_particles pa) g) as [M1 M2].
  destruct (make_sources E true (FileParser.in_particles pa) g) as [ss g1]. destruct (make_sources E false (FileParser.in_particles pa) g) as [ss' g1'].
  cbn [fst snd] in M1, M2. subst g1'. rewrite (om_new_inv code None HI) in *. cbn [bind] in *. apply bind_ok in X. destruct X as [s [S X]].
  set (o0 := mkOM _ _ _ _ _ _ _ _ _ _) in *.
  assert (A0 : alike o0 o0).
  { do 6 (split; [reflexivity|]). split; [reflexivity|]. split; [|split; [discriminate|reflexivity]]. intros q HQ. cbn [o0 om_file f_tree].
    destruct (lookup _ q) as [n|] eqn:EL; [|reflexivity]. exfalso. apply HQ. clear -EL. unfold fresh_tree in EL. rewrite !lookup_cons in EL.
    repeat (destruct (list_eq_dec _ _ _) as [->|] in EL; [intros r; discriminate|]). discriminate. }
  set (p0 := mkProg E o0 _ g1) in *. assert (AP : alike_prog p0 p0) by (split; [exact A0|auto]).
  destruct (source_loop_both _ _ _ EW ss ss' p0 p0 s M1 AP S) as (s' & -> & HA & HH & _).
  cbn [bind]. rewrite HH. apply bind_ok in X. destruct X as [o1 [X Y]]. injection Y; intros <-.
  destruct (write_histograms_both _ _ _ _ HA X) as (o1' & -> & (_ & _ & _ & _ & _ & _ & L1 & L2 & _)). cbn [bind]. eauto.
Qed.
End File.
