(** * Threads and tracks (lemmas for C141) *)
From Coq Require Import String ZArith List Bool Lia Permutation FinFun.
From Verif Require Import Num Outcome OutcomeFacts Vec Units Numerics MCTools Particle ParticleList Source SourceFacts Fields Pusher Process Sim Histogram Hdf5
  Output OutFacts OutFile Program PropsTables PropsOut Threads ThreadFacts ThreadSerial ThreadReplay ThreadProgram.
Import ListNotations.
Local Open Scope string_scope.
Local Open Scope list_scope.

Section Twin.
Context {T : Type} `{NT : Num T}.
Variable code : objinfo.
Variable garbage : T.

Definition track_sets : list string := ["Position"; "Momentum"; "Time"; "Gamma"].
(** trees that differ only in the contents of the data sets of the first [n] tracks *)
Definition track_path (n : nat) (p : list string) : Prop := exists m x, (m < n)%nat /\ In x track_sets /\ p = tpath m ++ [x].
Definition entry_twin (n : nat) (a b : list string * node T) : Prop :=
  fst a = fst b /\ (snd a = snd b \/ track_path n (fst a) /\ (exists d v, snd a = Dat d v) /\ (exists d v, snd b = Dat d v)).
Definition tree_twin (n : nat) (t t' : tree T) : Prop := Forall2 (entry_twin n) t t'.
Lemma twin_refl n t : tree_twin n t t.
Proof. induction t as [|a t IH]; constructor; auto. split; auto. Qed.
Lemma twin_lookup n t t' : tree_twin n t t' -> forall p, (~ track_path n p -> lookup t p = lookup t' p) /\
  (match lookup t p, lookup t' p with Some (Dat _ _), Some (Dat _ _) => True | Some Grp, Some Grp => True | None, None => True | _, _ => False end).
Proof.
  intros W. induction W as [|[q a] [q' b] t t' [Q X] W IH]; intros p; cbn [lookup]; [auto|]. cbn [fst snd] in *. subst q'.
  destruct (list_eq_dec string_dec p q) as [->|NE]; [|apply IH]. destruct X as [->|(TP & (d & v & ->) & (d' & v' & ->))].
  - split; [reflexivity|]. destruct b; exact I.
  - split; [intros NT'; contradiction|exact I].
Qed.
Lemma twin_exists n t t' p : tree_twin n t t' -> exists_ t' p = exists_ t p.
Proof. intros W. unfold exists_. destruct p; [reflexivity|]. pose proof (proj2 (twin_lookup _ _ _ W (s :: p))) as X. destruct (lookup t (s :: p)) as [[]|]; destruct (lookup t' (s :: p)) as [[]|]; try contradiction; reflexivity. Qed.
Lemma twin_group n t t' p : tree_twin n t t' -> is_group t' p = is_group t p.
Proof. intros W. unfold is_group. destruct p; [reflexivity|]. pose proof (proj2 (twin_lookup _ _ _ W (s :: p))) as X. destruct (lookup t (s :: p)) as [[]|]; destruct (lookup t' (s :: p)) as [[]|]; try contradiction; reflexivity. Qed.
Lemma twin_create n t t' p a b : tree_twin n t t' -> entry_twin n (p, a) (p, b) -> forall t1, create t p a = Ok t1 -> exists t1', create t' p b = Ok t1' /\ tree_twin n t1 t1'.
Proof.
  intros W X t1. unfold create. rewrite (twin_exists _ _ _ p W), (twin_group _ _ _ (removelast p) W). destruct (exists_ t p); [discriminate|]. destruct (is_group t (removelast p)); [|discriminate].
  intros [= <-]. eexists. split; [reflexivity|]. constructor; assumption.
Qed.

(** output managers that differ only in such trees and in the tracks *)
Definition om_twin (n : nat) (s s' : om T) : Prop := exists f' ts', s' = with_tracks (with_file s f') ts' /\ f_group f' = f_group (om_file s) /\ tree_twin n (f_tree (om_file s)) (f_tree f').
Lemma om_twin_file n s s' : om_twin n s s' -> f_group (om_file s') = f_group (om_file s) /\ tree_twin n (f_tree (om_file s)) (f_tree (om_file s')) /\ om_units s' = om_units s /\ om_list s' = om_list s.
Proof. intros (f' & ts' & -> & G & W). auto. Qed.
Lemma group_twin n s s' name s1 : om_twin n s s' -> o_group code s name = Ok s1 -> exists s1', o_group code s' name = Ok s1' /\ om_twin n s1 s1'.
Proof.
  intros (f' & ts' & -> & G & W). unfold o_group, add_group. cbn [om_file with_tracks with_file]. rewrite G, (twin_exists _ _ _ _ W). intros X. apply bind_ok in X as (f & X & Q). injection Q as <-.
  apply bind_ok in X as (g & X1 & X). rewrite X1. cbn [bind]. destruct (Bool.eqb _ false).
  - apply bind_ok in X as (t & X & Q). injection Q as <-. destruct (twin_create n _ _ _ Grp Grp W (conj eq_refl (or_introl eq_refl)) _ X) as (t' & X' & W'). rewrite X'. cbn [bind].
    eexists. split; [reflexivity|]. exists (mkFile t' GLive), ts'. split; [destruct s; reflexivity|]. split; [reflexivity|exact W'].
  - injection X as <-. cbn [bind]. eexists. split; [reflexivity|]. exists (mkFile (f_tree f') g), ts'. split; [destruct s; reflexivity|]. split; [reflexivity|exact W].
Qed.
Lemma array_twin n s s' name buf dims buf' dims' s1 : om_twin n s s' -> track_path n (path name) \/ (buf' = buf /\ dims' = dims) -> (zprod dims' <= Z.of_nat (length buf') \/ buf' = buf /\ dims' = dims)%Z ->
  o_array s buf dims name = Ok s1 -> exists s1', o_array s' buf' dims' name = Ok s1' /\ om_twin n s1 s1'.
Proof.
  intros (f' & ts' & -> & G & W) TP LE. unfold o_array, add_array. cbn [om_file with_tracks with_file]. intros X. apply bind_ok in X as (f & X & Q). injection Q as <-.
  apply bind_ok in X as (t & X & Q). destruct (Z.of_nat (length buf) <? zprod dims)%Z eqn:LB; [discriminate|]. injection Q as <-.
  assert (EN : entry_twin n (path name, Dat dims (firstn (Z.to_nat (zprod dims)) buf)) (path name, Dat dims' (firstn (Z.to_nat (zprod dims')) buf'))).
  { split; [reflexivity|]. cbn [fst snd]. destruct TP as [TP|[-> ->]]; [right|left; reflexivity]. split; [exact TP|]. split; eexists _, _; reflexivity. }
  destruct (twin_create n _ _ _ _ _ W EN _ X) as (t' & X' & W'). rewrite X'. cbn [bind].
  replace (Z.of_nat (length buf') <? zprod dims')%Z with false. 2:{ symmetry. destruct LE as [LE|[-> ->]]; [apply Z.ltb_ge; exact LE|exact LB]. }
  cbn [bind]. eexists. split; [reflexivity|]. exists (mkFile t' (f_group f')), ts'. split; [destruct s; reflexivity|]. split; [exact G|exact W'].
Qed.
Lemma path_set i x : In x track_sets -> path (("Particles/ParticleTrack/Event" ++ to_string i) ++ "/" ++ x)%string = tpath i ++ [x].
Proof. intros I. rewrite path_app, path_ev. f_equal. destruct I as [<-|[<-|[<-|[<-|[]]]]]; reflexivity. Qed.
Lemma arrays_twin n g s s' pos mom np nm ti ga pos' mom' np' nm' ti' ga' s1 : (forall x, In x track_sets -> track_path n (path (g ++ "/" ++ x)%string)) ->
  Z.of_nat (length pos') = (np' * 3)%Z -> Z.of_nat (length mom') = (nm' * 3)%Z ->
  om_twin n s s' -> out_arrays s g pos mom np nm ti ga = Ok s1 -> exists s1', out_arrays s' g pos' mom' np' nm' ti' ga' = Ok s1' /\ om_twin n s1 s1'.
Proof.
  intros PS L1 L2 W X. unfold out_arrays in *.
  assert (D1 : (zprod [np'; 3] <= Z.of_nat (length pos'))%Z) by (cbn [zprod]; lia). assert (D2 : (zprod [nm'; 3] <= Z.of_nat (length mom'))%Z) by (cbn [zprod]; lia).
  assert (ML : forall vs : list T, (zprod [len vs] <= Z.of_nat (length vs))%Z) by (intros vs; unfold len; cbn [zprod]; lia).
  pose proof (PS "Position" ltac:(cbn; auto 6)) as P1. pose proof (PS "Momentum" ltac:(cbn; auto 6)) as P2. pose proof (PS "Time" ltac:(cbn; auto 6)) as P3. pose proof (PS "Gamma" ltac:(cbn; auto 6)) as P4.
  change ("/" ++ "Position")%string with "/Position" in P1. change ("/" ++ "Momentum")%string with "/Momentum" in P2. change ("/" ++ "Time")%string with "/Time" in P3. change ("/" ++ "Gamma")%string with "/Gamma" in P4. clear PS.
  apply bind_ok in X as (c1 & A1 & X). apply bind_ok in X as (c2 & A2 & X). apply bind_ok in X as (c3 & A3 & X).
  destruct (array_twin n s s' _ _ _ pos' [np'; 3%Z] c1 W (or_introl P1) (or_introl D1) A1) as (d1 & B1 & W1). rewrite B1. cbn [bind].
  destruct (array_twin n c1 d1 _ _ _ mom' [nm'; 3%Z] c2 W1 (or_introl P2) (or_introl D2) A2) as (d2 & B2 & W2). rewrite B2. cbn [bind].
  destruct (array_twin n c2 d2 _ _ _ ti' [len ti'] c3 W2 (or_introl P3) (or_introl (ML _)) A3) as (d3 & B3 & W3). rewrite B3. cbn [bind].
  exact (array_twin n c3 d3 _ _ _ ga' [len ga'] s1 W3 (or_introl P4) (or_introl (ML _)) X).
Qed.
Lemma tracks_twin n ts : forall i ts' s s' s1, length ts' = length ts -> (i + length ts <= n)%nat -> om_twin n s s' -> output_tracks_from code s i ts = Ok s1 ->
  exists s1', output_tracks_from code s' i ts' = Ok s1' /\ om_twin n s1 s1'.
Proof.
  induction ts as [|k ts IH]; intros i ts' s s' s1 L LN W X; destruct ts' as [|k' ts']; try discriminate L; cbn [output_tracks_from] in *; cbv zeta in *.
  - injection X as <-. exists s'. auto.
  - assert (PS : forall x, In x track_sets -> track_path n (path (("Particles/ParticleTrack/Event" ++ to_string i) ++ "/" ++ x)%string)).
    { intros x I. exists i, x. cbn [length] in LN. split; [lia|]. split; [exact I|]. apply path_set. exact I. }
    revert X PS. generalize ("Particles/ParticleTrack/Event" ++ to_string i)%string. intros g X PS.
    apply bind_ok in X as (a & X1 & X). destruct (group_twin _ _ _ _ _ W X1) as (a' & Y1 & W1). rewrite Y1. cbn [bind].
    apply bind_ok in X as (b & X2 & X).
    destruct (arrays_twin n g a a' _ _ _ _ _ _ _ _ _ _ (map (fun x => nmul x (scale_time a')) (tk_time k')) (map (fun x => nmul x (scale_time a')) (tk_gamma k')) b PS
      (flat_scaled_length (scale_length a') (tk_pos k')) (flat_scaled_length (scale_momentum a') (tk_mom k')) W1 X2) as (b' & Y2 & W2). rewrite Y2. cbn [bind].
    apply (IH (S i) ts' b b' s1); [injection L; auto|cbn [length] in LN; lia|exact W2|exact X].
Qed.
Lemma hists_twin n hs : forall s s' s1, om_twin n s s' -> write_histograms code s hs = Ok s1 -> exists s1', write_histograms code s' hs = Ok s1' /\ om_twin n s1 s1'.
Proof.
  induction hs as [|h hs IH]; intros s s' s1 W X; cbn [write_histograms] in *; [injection X as <-; exists s'; auto|].
  apply bind_ok in X as (a & X1 & X). unfold out_hist in *. cbv zeta in *. apply bind_ok in X1 as (c1 & A1 & X1). destruct (group_twin _ _ _ _ _ W A1) as (d1 & B1 & W1). rewrite B1. cbn [bind].
  apply bind_ok in X1 as (c2 & A2 & X1). destruct (array_twin n c1 d1 _ _ _ _ _ c2 W1 (or_intror (conj eq_refl eq_refl)) (or_intror (conj eq_refl eq_refl)) A2) as (d2 & B2 & W2). rewrite B2. cbn [bind].
  destruct (array_twin n c2 d2 _ _ _ _ _ a W2 (or_intror (conj eq_refl eq_refl)) (or_intror (conj eq_refl eq_refl)) X1) as (d3 & B3 & W3). rewrite B3. cbn [bind]. eapply IH; eassumption.
Qed.

(** what is in the file after the tracks were written *)
Definition tracks_in (s : om T) (ts : list (track T)) : Prop := forall m k x nd, nth_error ts m = Some k -> In (x, nd) (track_nodes s k) -> lookup (f_tree (om_file s)) (tpath m ++ [x]) = Some nd.
Lemma arrays_written i g (s s1 : om T) pos mom np nm ti ga : (forall x, In x track_sets -> path (g ++ "/" ++ x)%string = tpath i ++ [x]) ->
  Z.of_nat (length pos) = (np * 3)%Z -> Z.of_nat (length mom) = (nm * 3)%Z -> out_arrays s g pos mom np nm ti ga = Ok s1 ->
  forall x nd, In (x, nd) [("Position", Dat [np; 3%Z] pos); ("Momentum", Dat [nm; 3%Z] mom); ("Time", Dat [len ti] ti); ("Gamma", Dat [len ga] ga)] -> lookup (f_tree (om_file s1)) (tpath i ++ [x]) = Some nd.
Proof.
  intros PS L1 L2 X x nd I. unfold out_arrays in X.
  assert (D1 : firstn (Z.to_nat (zprod [np; 3%Z])) pos = pos) by (apply firstn_all2; cbn [zprod]; lia). assert (D2 : firstn (Z.to_nat (zprod [nm; 3%Z])) mom = mom) by (apply firstn_all2; cbn [zprod]; lia).
  assert (FM : forall vs : list T, firstn (Z.to_nat (zprod [len vs])) vs = vs) by (intros vs; apply firstn_all2; unfold len; cbn [zprod]; lia).
  pose proof (PS "Position" ltac:(cbn; auto 6)) as P1. pose proof (PS "Momentum" ltac:(cbn; auto 6)) as P2. pose proof (PS "Time" ltac:(cbn; auto 6)) as P3. pose proof (PS "Gamma" ltac:(cbn; auto 6)) as P4.
  change ("/" ++ "Position")%string with "/Position" in P1. change ("/" ++ "Momentum")%string with "/Momentum" in P2. change ("/" ++ "Time")%string with "/Time" in P3. change ("/" ++ "Gamma")%string with "/Gamma" in P4. clear PS.
  apply bind_ok in X as (c1 & A1 & X). apply bind_ok in X as (c2 & A2 & X). apply bind_ok in X as (c3 & A3 & A4).
  apply o_array_grows in A1 as [A1 B1], A2 as [A2 B2], A3 as [A3 B3], A4 as [A4 B4]. rewrite P1, D1 in B1. rewrite P2, D2 in B2. rewrite P3, FM in B3. rewrite P4, FM in B4.
  destruct I as [I|[I|[I|[I|[]]]]]; injection I as <- <-; [apply A4, A3, A2; exact B1|apply A4, A3; exact B2|apply A4; exact B3|exact B4].
Qed.
Lemma tracks_written ts : forall i (s s1 : om T), output_tracks_from code s i ts = Ok s1 -> ogrows s s1 /\
  forall m k x nd, nth_error ts m = Some k -> In (x, nd) (track_nodes s k) -> lookup (f_tree (om_file s1)) (tpath (i + m) ++ [x]) = Some nd.
Proof.
  induction ts as [|k ts IH]; intros i s s1 X; cbn [output_tracks_from] in X; cbv zeta in X; [injection X as <-; split; [apply ogrows_refl|]; intros [|m]; discriminate|].
  assert (PS : forall x, In x track_sets -> path (("Particles/ParticleTrack/Event" ++ to_string i) ++ "/" ++ x)%string = tpath i ++ [x]) by (intros x I; apply path_set; exact I).
  revert X PS. generalize ("Particles/ParticleTrack/Event" ++ to_string i)%string. intros g X PS.
  apply bind_ok in X as (a & X1 & X). apply bind_ok in X as (b & X2 & X). apply o_group_grows in X1. destruct (IH _ _ _ X) as [G3 L3].
  pose proof (out_arrays_grows _ _ _ _ _ _ _ _ _ X2) as G2. assert (G02 : ogrows s b) by (eapply ogrows_trans; eassumption). split; [eapply ogrows_trans; eassumption|].
  intros [|m] k0 x nd N I; cbn [nth_error] in N.
  - injection N as <-. rewrite Nat.add_0_r. apply G3. apply (arrays_written i g a b _ _ _ _ _ _ PS (flat_scaled_length _ _) (flat_scaled_length _ _) X2).
    unfold track_nodes, len in I. unfold len. rewrite !map_length. destruct (scale_same s a) as (-> & -> & ->); [exact (proj2 X1)|]. exact I.
  - replace (i + S m)%nat with (S i + m)%nat by lia. apply (L3 m k0 x nd N). unfold track_nodes in *. destruct (scale_same s b) as (-> & -> & ->); [exact (proj2 G02)|]. exact I.
Qed.

(** ** The tracks of a source *)
Lemma from_keeps ts : forall i (b s1 : om T), output_tracks_from code b i ts = Ok s1 -> om_tracks s1 = om_tracks b.
Proof.
  induction ts as [|k ts IH]; intros i b s1 X; cbn [output_tracks_from] in X; cbv zeta in X; [injection X as <-; reflexivity|].
  revert X. generalize ("Particles/ParticleTrack/Event" ++ to_string i)%string. intros g X.
  apply bind_ok in X as (c & A & X). apply bind_ok in X as (d & B & X). rewrite (IH _ _ _ X). apply o_group_rest in A as [A _]. unfold out_arrays in B. apply bind_ok in B as (e1 & B1 & B). apply bind_ok in B as (e2 & B2 & B). apply bind_ok in B as (e3 & B3 & B).
  apply o_array_rest in B1 as [B1 _], B2 as [B2 _], B3 as [B3 _], B as [B _]. congruence.
Qed.
Lemma events_tracked output (o o' o1 : om T) : alike o o' -> output_events code garbage o output true = Ok o1 ->
  om_tracks o1 = om_tracks o /\ tracks_in o1 (om_tracks o) /\
  exists o1', output_events code garbage o' output true = Ok o1' /\ om_twin (length (om_tracks o)) o1 o1' /\ tracks_in o1' (om_tracks o').
Proof.
  intros AL X. apply alike_inv in AL as [QO PT]. set (ts' := om_tracks o') in *. unfold output_events in *. apply bind_ok in X as (a & X1 & X).
  assert (S1 : om_tracks a = om_tracks o /\ om_units a = om_units o /\ (if output then output_source code garbage o' else Ok o') = Ok (with_tracks a ts')).
  { destruct output; [|injection X1 as <-; rewrite QO; auto]. split; [exact (proj1 (output_source_tracks _ _ _ _ X1))|]. split; [exact (proj2 (proj1 (output_source_grows _ _ _ _ X1)))|].
    rewrite QO. clear - NT X1. unfold output_source in *. apply bind_ok in X1 as (b & A & X1). cbn [om_source with_tracks].
    assert (A' : (if om_source o then Ok (with_tracks o ts') else let* s := o_group code (with_tracks o ts') "Particles/ParticleSource" in Ok (with_source s)) = Ok (with_tracks b ts')).
    { destruct (om_source o); [congruence|]. rewrite group_tracks. apply bind_ok in A as (c & A & Q). injection Q as <-. rewrite A. reflexivity. }
    rewrite A'. cbn [bind om_prim om_el om_po om_ph with_tracks]. apply bind_ok in X1 as (pb & -> & X1). cbn [bind]. rewrite array_tracks. apply bind_ok in X1 as (c & A1 & X1). unfold len in *. rewrite A1. cbn [bind].
    cbn [om_el om_po om_ph with_tracks]. apply bind_ok in X1 as (eb & E1 & X1). rewrite E1. cbn [bind]. apply bind_ok in X1 as (pb2 & E2 & X1). rewrite E2. cbn [bind]. apply bind_ok in X1 as (gb & E3 & X1). rewrite E3. cbn [bind].
    assert (OS : forall (x : om T) tb buf name, out_species (with_tracks x ts') tb buf name = let* y := out_species x tb buf name in Ok (with_tracks y ts')).
    { intros x tb buf name. unfold out_species. destruct (0 <? _)%Z; [apply array_tracks|reflexivity]. }
    rewrite OS. apply bind_ok in X1 as (d & F1 & X1). rewrite F1. cbn [bind om_po om_ph with_tracks]. rewrite OS. apply bind_ok in X1 as (e & F2 & X1). rewrite F2. cbn [bind om_ph with_tracks]. rewrite OS, X1. reflexivity. }
  destruct S1 as (T1 & U1 & S1). rewrite S1. cbn [bind]. clear S1. unfold output_track in *. apply bind_ok in X as (b & X2 & X3). cbn [om_list with_tracks].
  assert (S2 : om_tracks b = om_tracks a /\ om_units b = om_units a /\ (if om_list a then Ok (with_tracks a ts') else let* s := o_group code (with_tracks a ts') "Particles/ParticleTrack" in Ok (with_list s)) = Ok (with_tracks b ts')).
  { destruct (om_list a); [injection X2 as <-; auto|]. rewrite group_tracks. apply bind_ok in X2 as (c & A & Q). injection Q as <-. pose proof (o_group_rest _ _ _ _ A) as [R1 _]. apply o_group_grows in A as G. rewrite A. cbn. split; [exact R1|]. split; [exact (proj2 G)|reflexivity]. }
  destruct S2 as (T2 & U2 & S2). rewrite S2. cbn [bind om_tracks with_tracks]. clear S2 X2.
  destruct (tracks_written _ _ _ _ X3) as [G3 L3].
  assert (W : om_twin (length (om_tracks o)) b (with_tracks b ts')) by (exists (om_file b), ts'; split; [destruct b; reflexivity|]; split; [reflexivity|apply twin_refl]).
  pose proof (from_keeps _ _ _ _ X3) as K3. rewrite (eq_trans T2 T1) in X3, L3. destruct (tracks_twin _ _ 0 ts' _ _ _ (eq_sym (Permutation_length PT)) (Nat.le_refl _) W X3) as (o1' & X4 & W4).
  split; [rewrite K3; exact (eq_trans T2 T1)|].
  split. { intros m k x nd N I. apply (L3 m k x nd N). unfold track_nodes in *. destruct (scale_same b o1) as (<- & <- & <-); [exact (proj2 G3)|]. exact I. }
  exists o1'. split; [exact X4|]. split; [exact W4|]. destruct (tracks_written _ _ _ _ X4) as [G4 L4].
  intros m k x nd N I. apply (L4 m k x nd N). unfold track_nodes in *. destruct (scale_same (with_tracks b ts') o1') as (<- & <- & <-); [exact (proj2 G4)|]. exact I.
Qed.

(** the first track cannot be written twice *)
Lemma events_first output (o o1 : om T) k ts : output_events code garbage o output true = Ok o1 -> om_tracks o = k :: ts -> lookup (f_tree (om_file o)) (tpath 0 ++ ["Position"]) = None.
Proof.
  intros X Q. unfold output_events in X. apply bind_ok in X as (a & X1 & X).
  assert (S1 : om_tracks a = om_tracks o /\ ogrows o a).
  { destruct output; [|injection X1 as <-; split; [reflexivity|apply ogrows_refl]]. split; [exact (proj1 (output_source_tracks _ _ _ _ X1))|exact (proj1 (output_source_grows _ _ _ _ X1))]. }
  unfold output_track in X. apply bind_ok in X as (b & X2 & X).
  assert (S2 : om_tracks b = om_tracks a /\ ogrows a b).
  { destruct (om_list a); [injection X2 as <-; split; [reflexivity|apply ogrows_refl]|]. apply bind_ok in X2 as (c & A & J). injection J as <-. split; [exact (proj1 (o_group_rest _ _ _ _ A))|exact (o_group_grows _ _ _ _ A)]. }
  destruct S1 as [T1 G1], S2 as [T2 G2]. rewrite T2, T1, Q in X. cbn [output_tracks_from] in X. cbv zeta in X.
  pose proof (path_set 0 "Position" (or_introl eq_refl)) as PS. revert X PS. generalize ("Particles/ParticleTrack/Event" ++ to_string 0)%string. intros g X PS.
  apply bind_ok in X as (c & A & X). apply bind_ok in X as (d & B & X). clear X. unfold out_arrays in B. apply bind_ok in B as (e & B & _).
  unfold o_array, add_array in B. apply bind_ok in B as (f & B & _). apply bind_ok in B as (t & B & _). unfold create in B.
  change ("/" ++ "Position")%string with "/Position" in PS. rewrite PS in B. destruct (lookup (f_tree (om_file o)) (tpath 0 ++ ["Position"])) as [nd|] eqn:L; [|reflexivity]. exfalso.
  assert (L1 : lookup (f_tree (om_file c)) (tpath 0 ++ ["Position"]) = Some nd). { apply o_group_grows in A. apply A. apply G2. apply G1. exact L. }
  unfold exists_ in B. cbn [tpath app] in B, L1. rewrite L1 in B. discriminate B.
Qed.
Lemma fold_store_keeps l : forall (o o1 : om T), foldm (store garbage) l o = Ok o1 -> om_file o1 = om_file o /\ exists es, om_tracks o1 = om_tracks o ++ es.
Proof.
  induction l as [|c l IH]; intros o o1 X; cbn [foldm] in X; [injection X as <-; split; [reflexivity|exists []; symmetry; apply app_nil_r]|].
  apply bind_ok in X as (o2 & A & X). destruct (IH _ _ X) as [F [es TS]]. destruct (store_tracks garbage c o [] o2 A) as (es0 & T0 & _).
  split; [|exists (es0 ++ es); rewrite TS, T0; symmetry; apply app_assoc]. rewrite F. clear - A. destruct c as [l0 j|l0 j|l0 j]; cbn [store] in A.
  - unfold store_primary in A. apply bind_ok in A as (p & _ & A). apply bind_ok in A as (x & _ & A). injection A as <-. reflexivity.
  - unfold store_final in A. apply bind_ok in A as (e & _ & A). apply bind_ok in A as (po & _ & A). apply bind_ok in A as (ph & _ & A). injection A as <-. reflexivity.
  - injection A as <-. reflexivity.
Qed.
Lemma hists_grow hs : forall s s1 : om T, write_histograms code s hs = Ok s1 -> ogrows s s1 /\ om_tracks s1 = om_tracks s.
Proof.
  induction hs as [|h hs IH]; intros s s1 X; cbn [write_histograms] in X; [injection X as <-; split; [apply ogrows_refl|reflexivity]|].
  apply bind_ok in X as (a & X1 & X). destruct (IH _ _ X) as [G Q]. unfold out_hist in X1. cbv zeta in X1. apply bind_ok in X1 as (c1 & A1 & X1). apply bind_ok in X1 as (c2 & A2 & X1).
  pose proof (o_group_rest _ _ _ _ A1) as [R1 _]. pose proof (o_array_rest _ _ _ _ _ A2) as [R2 _]. pose proof (o_array_rest _ _ _ _ _ X1) as [R3 _].
  apply o_group_grows in A1. apply o_array_grows in A2 as [A2 _], X1 as [X1 _]. split; [|congruence].
  eapply ogrows_trans; [exact A1|]. eapply ogrows_trans; [exact A2|]. eapply ogrows_trans; [exact X1|exact G].
Qed.
Lemma tracks_stay ts (s s1 : om T) : ogrows s s1 -> tracks_in s ts -> tracks_in s1 ts.
Proof. intros G H m k x nd N I. apply G. apply (H m k x nd N). unfold track_nodes in *. destruct (scale_same s s1) as (<- & <- & <-); [exact (proj2 G)|]. exact I. Qed.
End Twin.

(** ** All sources *)
Section Sources.
Context {T : Type} `{NT : Num T}.
Variable E : Engine T.
Variables dom domn : T -> bool.
Hypothesis DOM : forall g, dom (fst (e_canon E g)) = true.
Variable garbage : T.
Variable code : objinfo.
Variable fuel : nat.
Notation RE := (replay dom domn).

Definition same_but_numbers (o o' : om T) : Prop :=
  Permutation (om_tracks o) (om_tracks o') /\ om_twin (length (om_tracks o)) o o' /\ tracks_in o (om_tracks o) /\ tracks_in o' (om_tracks o').
Lemma same_refl (o : om T) : om_tracks o = [] -> same_but_numbers o o.
Proof.
  intros T0. split; [apply Permutation_refl|]. rewrite T0. split; [|split; intros [|m]; discriminate].
  exists (om_file o), []. split; [rewrite <- T0; destruct o; reflexivity|]. split; [reflexivity|apply twin_refl].
Qed.
Lemma tracked_sources w tEnd ss : Forall (fun x => fresh (snd x)) ss -> forall s s', om_tracks (pg_om E s) = [] -> threaded_loop E garbage code fuel w tEnd true ss s (Ok s') ->
  exists sgs us us', Forall2 (fun sg x => arranges sg (snd x)) sgs ss /\ drawn E (pg_rng E s) us (pg_rng E s') /\ Permutation us us' /\
    forall ns rest, exists o', source_loop RE code garbage fuel w tEnd true (shuffles sgs ss) (mkProg RE (pg_om E s) (pg_hists E s) (ns, us' ++ rest))
      = Ok (mkProg RE o' (pg_hists E s') (ns, rest)) /\ same_but_numbers (pg_om E s') o'.
Proof.
  induction ss as [|[output src] ss IH]; intros FR s s' T0 L; cbn [threaded_loop] in L.
  - injection L as <-. exists [], [], []. split; [constructor|]. split; [constructor|]. split; [constructor|]. intros ns rest. eexists. split; [reflexivity|].
    apply same_refl. exact T0.
  - apply Forall_cons_iff in FR as [FR1 FR2]. cbn [snd] in FR1. destruct L as (y & P & L). cbv zeta in L. destruct y as [s1| | | |]; try discriminate L. cbn [bind] in L.
    destruct (output_events code garbage (sh_om E s1) output true) as [o1| | | |] eqn:OE; try discriminate L. cbn [bind] in L.
    destruct (region_any E dom domn garbage fuel DOM w (plan_of (pg_hists E s)) tEnd output true src (pg_hists E s) _ (pg_rng E s) s1 FR1 eq_refl P) as (sg & us & us' & A1 & A2 & A3 & A4).
    destruct (events_tracked code garbage output (sh_om E s1) (sh_om E s1) o1 (alike_refl _) OE) as (K1 & K2 & _).
    destruct (om_tracks (sh_om E s1)) as [|k ts] eqn:TS.
    + destruct (IH FR2 (mkProg E o1 (sh_hists E s1) (sh_rng E s1)) _ K1 L) as (sgs & vs & vs' & B1 & B2 & B3 & B4). cbn [pg_rng pg_om pg_hists] in *.
      exists (sg :: sgs), (us ++ vs), (us' ++ vs'). split; [constructor; assumption|]. split; [eapply drawn_app; eassumption|]. split; [apply Permutation_app; assumption|].
      intros ns rest. destruct (A4 ns (vs' ++ rest)) as (o' & A5 & AL & _). destruct (B4 ns rest) as (o2 & B5 & B6). exists o2. split; [|exact B6].
      apply alike_inv in AL as [Q PT]. rewrite TS in PT. apply Permutation_nil in PT. rewrite PT in Q.
      assert (Q' : o' = sh_om E s1) by (rewrite Q, <- TS; destruct (sh_om E s1); reflexivity). subst o'.
      unfold shuffles. cbn [combine map fst snd source_loop]. rewrite <- app_assoc. cbn [pg_rng pg_om pg_hists shuffle s_nPart].
      rewrite A5. cbn [bind pg_om pg_hists pg_rng]. 
      rewrite Q', OE. cbn [bind]. exact B5.
    + destruct ss as [|[output2 src2] ss].
      * cbn [threaded_loop] in L. injection L as ->. cbn [pg_rng pg_om pg_hists] in *. exists [sg], us, us'. split; [constructor; [exact A1|constructor]|]. split; [exact A2|]. split; [exact A3|].
        intros ns rest. destruct (A4 ns rest) as (o' & A5 & AL & _). destruct (events_tracked code garbage output _ _ o1 AL OE) as (J1 & J2 & o2 & J3 & J4 & J5).
        pose proof (proj1 (events_tracked code garbage output _ _ o2 (alike_refl _) J3)) as J6.
        exists o2. split.
        { unfold shuffles. cbn [combine map fst snd source_loop]. cbn [pg_rng pg_om pg_hists shuffle s_nPart]. rewrite A5. cbn [bind pg_om pg_hists pg_rng]. rewrite J3. reflexivity. }
        split; [rewrite J1, J6; exact (proj2 AL)|]. rewrite J1. split; [exact J4|]. split; [exact J2|]. rewrite J6. exact J5.
      * exfalso. cbn [threaded_loop] in L. destruct L as (y & P2 & L). cbv zeta in L. destruct y as [s2| | | |]; try discriminate L. cbn [bind] in L.
        destruct (output_events code garbage (sh_om E s2) output2 true) as [o2| | | |] eqn:OE2; try discriminate L.
        apply par_explains with (s' := s2) in P2; [|reflexivity]. destruct P2 as (trs & us0 & cs & hl & st & _ & _ & _ & _ & _ & _ & _ & D7 & _). cbn [sh_om pg_om] in D7.
        destruct (fold_store_keeps garbage _ _ _ D7) as [FF [es TT]].
        assert (F1 : om_file (sh_om E s2) = om_file o1) by (rewrite FF; destruct output2; reflexivity).
        assert (T1 : exists ts2, om_tracks (sh_om E s2) = k :: ts2) by (rewrite TT; replace (om_tracks (if output2 then init_source o1 (s_nPart src2) else o1)) with (om_tracks o1) by (destruct output2; reflexivity); rewrite K1; eexists; reflexivity).
        destruct T1 as [ts2 T1]. pose proof (events_first code garbage _ _ _ _ _ OE2 T1) as NO. rewrite F1 in NO.
        rewrite (K2 0%nat k "Position" _ eq_refl (or_introl eq_refl)) in NO. discriminate NO.
Qed.
End Sources.
