(** * How many particles of each species an event can hold (for C142) *)
From Coq Require Import String ZArith List Bool Lia Permutation.
From Verif Require Import Num Outcome OutcomeFacts Vec MCTools Particle ParticleList ParticleFacts Source SourceFacts Fields Pusher PusherFacts Process ProcessFacts Sim SimFacts.
Import ListNotations.
Local Open Scope string_scope.
Local Open Scope list_scope.

Notation cnt x l := (count_occ string_dec l x) (only parsing).

Section Ledger.
Context {T : Type} `{NT : Num T}.
Variable E : Engine T.
Hypothesis Hneg : neqb (nlit (-1) 0 : T) (nlit (-1) 0) = true.
Hypothesis Hpos : neqb (n1 : T) (nlit (-1) 0) = false.

(** names of the particles in the list, and of all that were ever made *)
Definition names (l : event T) : list string := map p_name (pl_items l).
Definition ever (l : event T) : list string := map p_name (pl_items l ++ pl_lost l).
(** as many electrons as positrons are made *)
Definition even (l l' : event T) : Prop :=
  (cnt "Electron" (ever l') + cnt "Positron" (ever l) = cnt "Electron" (ever l) + cnt "Positron" (ever l'))%nat.
(** particles are lost only by a full list *)
Definition roomy (l : event T) : Prop := pl_lost l = [] \/ (pl_max l <= pl_n l)%Z.
(** photons that were turned into a pair *)
Definition spent (p : particle T) : bool := match p_type p with PPhoton => negb (p_alive p) | _ => false end.
Definition used (l : event T) : nat := length (filter spent (pl_items l)).
Definition paid (a b : nat) (l : event T) : Prop :=
  (forall p, In p (pl_items l) -> p_type p = PPhoton -> p_name p = "Photon") /\
  (cnt "Positron" (names l) <= used l + a)%nat /\ (cnt "Electron" (names l) <= used l + b)%nat.

Lemma news_names p p' news : births p p' news ->
  news = [] \/ (exists ph, news = [ph] /\ p_name ph = "Photon" /\ p_alive ph = true /\ p_type ph = PPhoton /\ p_alive p' = p_alive p) \/
  (exists po el, news = [po; el] /\ p_name po = "Positron" /\ p_name el = "Electron" /\ p_type po = PLepton /\ p_type el = PLepton /\ p_type p = PPhoton /\ p_alive p' = false).
Proof.
  intros [HB [[-> _]|[(ph & -> & (P1 & P2 & _) & A1 & A2)|(po & el & -> & (P1 & P2 & _) & (Q1 & Q2 & _) & _ & _ & HT & HA)]]].
  - auto.
  - right. left. exists ph. destruct (HB ph (or_introl eq_refl)) as [BA _]. rewrite A1, A2. auto 10.
  - right. right. exists po, el. unfold lepton_name in P2, Q2. rewrite Hpos in P2. rewrite Hneg in Q2. auto 10.
Qed.
Lemma change_ever x k l p p' st lo l' : change k l p p' st lo l' -> p_name p' = p_name p -> cnt x (ever l') = (cnt x (ever l) + cnt x (map p_name (st ++ lo)))%nat.
Proof.
  intros (C1 & C2 & C3 & _) HN. unfold ever. rewrite C2, C3. destruct (upd_split (pl_items l) k p p' C1) as (l1 & l2 & H1 & _ & H2). rewrite H2, H1.
  rewrite !map_app. cbn [map]. rewrite HN. rewrite !count_occ_app. cbn [count_occ]. destruct (string_dec _ _); lia.
Qed.
Lemma change_names x k l p p' st lo l' : change k l p p' st lo l' -> p_name p' = p_name p -> cnt x (names l') = (cnt x (names l) + cnt x (map p_name st))%nat.
Proof.
  intros (C1 & C2 & C3 & _) HN. unfold names. rewrite C2. destruct (upd_split (pl_items l) k p p' C1) as (l1 & l2 & H1 & _ & H2). rewrite H2, H1.
  rewrite !map_app. cbn [map]. rewrite HN. rewrite !count_occ_app. cbn [count_occ]. destruct (string_dec _ _); lia.
Qed.
Definition bit (b : bool) : nat := if b then 1%nat else 0%nat.
Lemma change_used k l p p' st lo l' : change k l p p' st lo l' -> (used l' + bit (spent p) = used l + bit (spent p') + length (filter spent st))%nat.
Proof.
  intros (C1 & C2 & C3 & _). unfold used. rewrite C2. destruct (upd_split (pl_items l) k p p' C1) as (l1 & l2 & H1 & _ & H2). rewrite H2, H1.
  rewrite !filter_app, !app_length. cbn [filter]. destruct (spent p), (spent p'); cbn [bit length]; lia.
Qed.
Lemma change_in k (l : event T) p p' st lo l' q : change k l p p' st lo l' -> In q (pl_items l') -> In q (pl_items l) \/ q = p' \/ In q st.
Proof.
  intros (C1 & C2 & C3 & _) HI. rewrite C2 in HI. destruct (upd_split (pl_items l) k p p' C1) as (l1 & l2 & H1 & _ & H2). rewrite H2 in HI. rewrite H1.
  rewrite !in_app_iff in *. cbn [In] in *. intuition auto.
Qed.
Lemma change_at k (l : event T) p p' st lo l' : change k l p p' st lo l' -> In p (pl_items l).
Proof. intros (C1 & _). eapply nth_error_In; eauto. Qed.

(** one call of a process *)
Lemma proc_even k pr l g l' g' : call_process E k pr l g = Ok (l', g') -> even l l'.
Proof.
  intros HX. apply call_process_change in HX. destruct HX as (_ & p & p' & st & lo & HC & HB & HI & _).
  assert (HN : p_name p' = p_name p) by (apply HI). unfold even. rewrite (change_ever "Electron" _ _ _ _ _ _ _ HC HN), (change_ever "Positron" _ _ _ _ _ _ _ HC HN).
  destruct (news_names _ _ _ HB) as [->|[(ph & -> & N1 & _)|(po & el & -> & N1 & N2 & _)]]; cbn [map]; rewrite ?N1, ?N2; cbn; lia.
Qed.
Lemma add_all_roomy news : forall l : event T, roomy l -> roomy (add_all news l).
Proof.
  induction news as [|a t IH]; intros l R; [exact R|]. change (add_all (a :: t) l) with (add_all t (pl_add l a)). apply IH.
  unfold roomy, pl_add in *. destruct (Z.ltb_spec (pl_n l) (pl_max l)); cbn [pl_lost pl_max]; unfold pl_n in *; cbn [pl_items] in *; [destruct R; [auto|lia]|right; lia].
Qed.
Lemma set_roomy (l : event T) k p : roomy l -> roomy (pl_set l k p).
Proof. unfold roomy, pl_set, pl_n. cbn [pl_lost pl_max pl_items]. now rewrite length_upd. Qed.
Lemma proc_roomy k pr l g l' g' : call_process E k pr l g = Ok (l', g') -> roomy l -> roomy l'.
Proof.
  intros HX R. apply call_process_change in HX. destruct HX as (_ & p & p' & st & lo & _ & _ & _ & _ & _ & _ & l1 & HI & ->).
  apply interact_shape in HI. destruct HI as (_ & _ & _ & _ & news & -> & _). apply set_roomy. apply add_all_roomy. exact R.
Qed.
Lemma proc_paid a b k pr l g l' g' : call_process E k pr l g = Ok (l', g') -> paid a b l -> paid a b l'.
Proof.
  intros HX (PT & PP & PE). apply call_process_change in HX. destruct HX as (_ & p & p' & st & lo & HC & HB & HI & _ & _ & _ & l1 & HX & HL).
  assert (HN : p_name p' = p_name p) by (apply HI). assert (HT : p_type p' = p_type p) by (apply HI).
  assert (PT' : forall q, In q (pl_items l') -> p_type q = PPhoton -> p_name q = "Photon").
  { intros q Hq Hty. destruct (change_in _ _ _ _ _ _ _ _ HC Hq) as [HQ|[->|HQ]]; [auto| |].
    - rewrite HN. apply PT; [eapply change_at; exact HC|congruence].
    - assert (HQ' : In q (st ++ lo)) by (apply in_or_app; auto).
      destruct (news_names _ _ _ HB) as [EQ|[(ph & EQ & N1 & _)|(po & el & EQ & N1 & N2 & T1 & T2 & _)]]; rewrite EQ in HQ'; [destruct HQ'| |].
      + destruct HQ' as [<-|[]]; auto.
      + destruct HQ' as [<-|[<-|[]]]; congruence. }
  split; [exact PT'|]. rewrite (change_names "Electron" _ _ _ _ _ _ _ HC HN), (change_names "Positron" _ _ _ _ _ _ _ HC HN). pose proof (change_used _ _ _ _ _ _ _ HC) as US.
  destruct HB as [BA HB'].
  destruct (news_names _ _ _ (conj BA HB')) as [EQ|[(ph & EQ & N1 & A1 & T1 & A2)|(po & el & EQ & N1 & N2 & T1 & T2 & HT0 & HA)]].
  - apply app_eq_nil in EQ. destruct EQ as [-> ->]. assert (SP : spent p' = spent p).
    { unfold spent. rewrite HT. destruct HB' as [[_ AL]|[(ph & X & _)|(po & el & X & _)]]; try discriminate. now rewrite AL. }
    rewrite SP in US. cbn in US |- *. lia.
  - assert (SP : spent p' = spent p) by (unfold spent; rewrite HT, A2; reflexivity). rewrite SP in US.
    assert (SS : length (filter spent st) = 0%nat /\ cnt "Positron" (map p_name st) = 0%nat /\ cnt "Electron" (map p_name st) = 0%nat).
    { destruct st as [|s1 st]; [auto|]. cbn in EQ. injection EQ; intros EQ' ->. apply app_eq_nil in EQ'. destruct EQ' as [-> _]. cbn [map filter count_occ].
      unfold spent. rewrite T1, A1, N1. cbn. auto. }
    destruct SS as (S1 & S2 & S3). rewrite S1 in US. rewrite S2, S3. lia.
  - destruct (p_alive p) eqn:AL.
    2:{ exfalso. destruct (interact_dead_inv E pr p l g p' l1 g' HX AL) as (_ & -> & _). destruct HC as (_ & C2 & C3 & _). subst l'. unfold pl_set in C2, C3. cbn [pl_items pl_lost] in C2, C3.
        apply (f_equal (@length _)) in C2, C3. rewrite app_length, !length_upd in C2. rewrite app_length in C3. apply (f_equal (@length _)) in EQ. rewrite app_length in EQ. cbn in EQ. lia. }
    assert (SP : spent p = false) by (unfold spent; rewrite HT0, AL; reflexivity). assert (SP' : spent p' = true) by (unfold spent; rewrite HT, HT0, HA; reflexivity).
    rewrite SP, SP' in US. cbn [bit] in US.
    assert (SS : length (filter spent st) = 0%nat /\ (cnt "Positron" (map p_name st) <= 1)%nat /\ (cnt "Electron" (map p_name st) <= 1)%nat).
    { destruct st as [|s1 st]; [cbn; auto|]. cbn in EQ. injection EQ; intros EQ' ->. destruct st as [|s2 st]; cbn in EQ'.
      - cbn [map filter count_occ]. unfold spent. rewrite T1, N1. cbn. auto.
      - injection EQ'; intros EQ2 ->. apply app_eq_nil in EQ2. destruct EQ2 as [-> _]. cbn [map filter count_occ]. unfold spent. rewrite T1, T2, N1, N2. cbn. auto. }
    destruct SS as (S1 & S2 & S3). rewrite S1 in US. lia.
Qed.
(** the pusher *)
Lemma push_all w k l (p : particle T) : pl_get l k = Ok p ->
  let l' := pl_set l k (push_particle (w_force w) (w_field w) (w_dt w) p) in
  even l l' /\ (roomy l -> roomy l') /\ forall a b, paid a b l -> paid a b l'.
Proof.
  intros HP l'. pose proof (push_change w k l p HP) as HC. fold l' in HC. set (p' := push_particle _ _ _ p) in *.
  destruct (push_keeps (w_force w) (w_field w) (w_dt w) p) as (K1 & K2 & _ & _ & _ & _ & _ & K8). fold p' in K1, K2, K8.
  split; [unfold even; rewrite (change_ever "Electron" _ _ _ _ _ _ _ HC K2), (change_ever "Positron" _ _ _ _ _ _ _ HC K2); cbn; lia|]. split; [apply set_roomy|].
  intros a b (PT & PP & PE). assert (SP : spent p' = spent p) by (unfold spent; now rewrite K1, K8). pose proof (change_used _ _ _ _ _ _ _ HC) as US. rewrite SP in US.
  split; [|rewrite (change_names "Electron" _ _ _ _ _ _ _ HC K2), (change_names "Positron" _ _ _ _ _ _ _ HC K2); cbn in US |- *; lia].
  intros q Hq Hty. destruct (change_in _ _ _ _ _ _ _ _ HC Hq) as [HQ|[->|[]]]; [auto|]. rewrite K2. apply PT; [eapply change_at; exact HC|congruence].
Qed.
Lemma run_ledger w {S} htimes fill fuel tEnd l g (h : S) s' : run_event E w htimes fill fuel tEnd l g h = Ok s' ->
  even l (st_ev _ s') /\ (roomy l -> roomy (st_ev _ s')) /\ forall a b, paid a b l -> paid a b (st_ev _ s').
Proof.
  intros HX. apply (lift_run E w (fun x y => even (fst x) (fst y) /\ (roomy (fst x) -> roomy (fst y)) /\ forall a b, paid a b (fst x) -> paid a b (fst y))) in HX; [exact HX| | | |].
  - intros s. unfold even. auto.
  - intros x y z (A1 & A2 & A3) (B1 & B2 & B3). unfold even in *. split; [lia|]. auto.
  - intros k l0 g0 p HP. cbn [fst]. apply (push_all w k l0 p HP).
  - intros k pr l0 g0 l1 g1 _ HC. cbn [fst]. split; [eapply proc_even; eauto|]. split; [eapply proc_roomy; eauto|]. intros a b. eapply proc_paid; eauto.
Qed.

(** the particle the source makes *)
Lemma generate_named src g l src1 g1 ty nm m c : species (s_type src) ty nm m c -> generate_list E src g = Ok (l, src1, g1) ->
  exists p, pl_items l = [p] /\ pl_lost l = [] /\ p_name p = nm /\ p_type p = ty /\ p_alive p = true /\ s_type src1 = s_type src.
Proof.
  intros HS X. unfold generate_list in X. destruct (_ =? _)%Z; [discriminate|].
  do 6 (apply bind_ok in X; destruct X as [? [_ X]]).
  apply bind_ok in X. destruct X as [[p g'] [Q X]]. inversion X; subst. clear X. exists p.
  assert (HN : p_name p = nm /\ p_type p = ty /\ p_alive p = true); [|destruct HN as (N1 & N2 & N3); auto 10].
  unfold make_primary in Q. inversion HS as [EQ|EQ|EQ|EQ|EQ|EQ]; rewrite <- EQ in Q; cbn in Q;
    unfold new_photon_energy, new_lepton_energy, new_particle in Q; destruct (draw_depth E _) as [dp gg]; injection Q; intros _ <-; cbn [p_name p_type p_alive];
    unfold lepton_name; rewrite ?Hneg, ?Hpos; auto.
Qed.
End Ledger.
