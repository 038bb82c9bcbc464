(** * The event loop: structural proofs valid in any arithmetic *)
From Coq Require Import String ZArith List Bool Lia Permutation.
From Verif Require Import Num Outcome OutcomeFacts Vec Numerics MCTools Particle ParticleList Fields Pusher PusherFacts Process ProcessFacts ProcessSafe Sim.
Import ListNotations.

(** ** No loop inside an interaction runs out of its bound *)
Section NoFuel.
Context {T : Type} `{Num T}.
Variable E : Engine T.
Lemma bind_not_fuel {A B} (x : res A) (f : A -> res B) : x <> Fuel -> (forall a, f a <> Fuel) -> bind x f <> Fuel.
Proof. destruct x; cbn; intros; try discriminate; auto. Qed.
Lemma get_not_fuel {A} (l : list A) i : get l i <> Fuel.
Proof. unfold get. destruct (_ || _)%bool; [discriminate|]. destruct (nth_error _ _); discriminate. Qed.
Lemma first_above_not_fuel n sp (q : T) : forall i, first_above n sp q i <> Fuel.
Proof. induction n; intros i; cbn; [discriminate|]. apply bind_not_fuel; [apply get_not_fuel|]. intros a. destruct (nltb _ _); [discriminate|auto]. Qed.
Lemma last_below_not_fuel n sp (q : T) : forall i low, last_below n sp q i low <> Fuel.
Proof. induction n; intros i low; cbn; [discriminate|]. apply bind_not_fuel; [apply get_not_fuel|]. intros a. destruct (nltb _ _); [auto|discriminate]. Qed.
Lemma interpolate1d_not_fuel sp sd n (q : T) : interpolate1d sp sd n q <> Fuel.
Proof.
  unfold interpolate1d. cbv zeta. repeat first [apply bind_not_fuel; [first [apply get_not_fuel | apply first_above_not_fuel]|intros ?] | discriminate
    | match goal with |- context [if ?b then _ else _] => destruct b end].
Qed.
Lemma closest_points_not_fuel sp n (q : T) : closest_points sp n q <> Fuel.
Proof.
  unfold closest_points. repeat first [apply bind_not_fuel; [first [apply get_not_fuel | apply last_below_not_fuel]|intros ?] | discriminate
    | match goal with |- context [if ?b then _ else _] => destruct b end].
Qed.
Lemma calculate_chi_not_fuel tab (eta : T) g : calculate_chi E tab eta g <> Fuel.
Proof.
  unfold calculate_chi. destruct (rand_double E n0 n1 g). cbv zeta.
  repeat first [apply bind_not_fuel; [first [apply get_not_fuel | apply closest_points_not_fuel | apply interpolate1d_not_fuel]|intros ?] | discriminate].
Qed.
Lemma calculate_split_not_fuel tab (eta : T) g : calculate_split E tab eta g <> Fuel.
Proof.
  unfold calculate_split. destruct (rand_double E n0 n1 g). cbv zeta.
  repeat first [apply bind_not_fuel; [first [apply get_not_fuel | apply closest_points_not_fuel | apply interpolate1d_not_fuel]|intros ?] | discriminate].
Qed.
Lemma interact_not_fuel pr p l g : interact E pr p l g <> Fuel.
Proof.
  destruct pr; cbn; unfold stochastic_interact, continuous_interact, breit_wheeler_interact; cbv zeta;
  repeat first [discriminate
    | apply interpolate1d_not_fuel | apply calculate_chi_not_fuel | apply calculate_split_not_fuel | apply get_not_fuel
    | apply bind_not_fuel; [|intros ?]
    | match goal with |- context [match ?b with _ => _ end] => destruct b end].
Qed.
End NoFuel.

Section SimFacts.
Context {T : Type} `{Num T}.
Variable E : Engine T.

(** a list within its capacity *)
Definition wf (l : event T) : Prop := (pl_n l <= pl_max l)%Z.

Lemma pl_n_nonneg (l : event T) : (0 <= pl_n l)%Z.
Proof. unfold pl_n. lia. Qed.

Lemma pl_get_inv (l : event T) k p : pl_get l k = Ok p ->
  (0 <= k < pl_n l)%Z /\ nth_error (pl_items l) (Z.to_nat k) = Some p.
Proof.
  unfold pl_get, pl_n. destruct (_ || _)%bool eqn:EB; [discriminate|]. apply orb_false_iff in EB. destruct EB as [E1 E2].
  apply Z.ltb_ge in E1. destruct (nth_error _ _) eqn:EN; [|discriminate]. intros HX. injection HX; intros <-.
  split; [|reflexivity]. assert (Z.to_nat k < length (pl_items l))%nat by (apply nth_error_Some; congruence). lia.
Qed.

Lemma pl_get_ok (l : event T) k : wf l -> (0 <= k < pl_n l)%Z -> exists p, pl_get l k = Ok p.
Proof.
  unfold wf, pl_get, pl_n. intros HW Hk. destruct (_ || _)%bool eqn:EB.
  - apply orb_true_iff in EB. destruct EB as [EB|EB]; [apply Z.ltb_lt in EB|apply Z.leb_le in EB]; lia.
  - destruct (nth_error _ _) eqn:EN; [eauto|]. apply nth_error_None in EN. lia.
Qed.

Lemma upd_app {A} (l m : list A) i a : (i < length l)%nat -> upd (l ++ m) i a = upd l i a ++ m.
Proof. revert i. induction l; intros i Hi; [cbn in Hi; lia|]. destruct i; cbn; [auto|]. f_equal. apply IHl. cbn in Hi. lia. Qed.
Lemma upd_split {A} (l : list A) i a b : nth_error l i = Some a ->
  exists l1 l2, l = l1 ++ a :: l2 /\ length l1 = i /\ upd l i b = l1 ++ b :: l2.
Proof.
  revert i. induction l as [|x l IH]; intros [|i] HN; try discriminate.
  - injection HN; intros ->. exists [], l. auto.
  - destruct (IH i HN) as (l1 & l2 & -> & HL & HU). exists (x :: l1), l2. cbn. rewrite HU. auto.
Qed.

(** one elementary change of the list: particle [k] goes from [p] to [p'], [st] is appended, [lo] is lost *)
Definition change (k : nat) (l : event T) (p p' : particle T) (st lo : list (particle T)) (l' : event T) : Prop :=
  nth_error (pl_items l) k = Some p /\
  pl_items l' = upd (pl_items l) k p' ++ st /\ pl_lost l' = pl_lost l ++ lo /\
  pl_max l' = pl_max l /\ pl_name l' = pl_name l /\ (wf l -> wf l').

Lemma pl_add_wf (l : event T) a : wf l -> wf (pl_add l a).
Proof.
  unfold wf, pl_add. intros HW. destruct (Z.ltb _ _) eqn:EL; [|exact HW]. apply Z.ltb_lt in EL. unfold pl_n in *. cbn.
  rewrite app_length. cbn. lia.
Qed.
Lemma add_all_wf news (l : event T) : wf l -> wf (add_all news l).
Proof. revert l. induction news; intros l HW; [exact HW|]. apply (IHnews (pl_add l a)). apply pl_add_wf; auto. Qed.

Lemma call_process_change k pr l g l' g' : call_process E k pr l g = Ok (l', g') ->
  (0 <= k < pl_n l)%Z /\
  exists p p' st lo, change (Z.to_nat k) l p p' st lo l' /\ births p p' (st ++ lo) /\
    same_identity p p' /\ p_time p' = p_time p /\ p_pos p' = p_pos p /\ (p_alive p = true \/ p' = p) /\
    exists l1, interact E pr p l g = Ok (p', l1, g') /\ l' = pl_set l1 k p'.
Proof.
  unfold call_process. intros HX. apply bind_ok in HX. destruct HX as [p [HP HX]]. apply pl_get_inv in HP. destruct HP as [Hk HP].
  split; [exact Hk|]. apply bind_ok in HX. destruct HX as [[[p' l1] g1] [HI HX]]. injection HX; intros; subst.
  destruct (interact_shape E pr p l g p' l1 g' HI) as (S1 & S2 & S3 & S4 & news & HL & HB).
  destruct (add_all_items news l) as (st & lo & HN & I1 & I2). destruct (add_all_cap news l) as [C1 C2].
  exists p, p', st, lo. rewrite <- HN. split; [|split; [exact HB|split; [exact S1|split; [exact S2|split; [exact S3|split; [exact S4|eauto]]]]]].
  subst l1. split; [exact HP|]. unfold pl_set. cbn [pl_items pl_lost pl_max pl_name]. rewrite I1, I2.
  split; [apply upd_app, nth_error_Some; congruence|]. split; [auto|]. split; [auto|]. split; [auto|].
  intros HW. pose proof (add_all_wf news l HW) as HW'. unfold wf, pl_n in *. cbn [pl_items pl_max]. rewrite length_upd. rewrite <- I1. exact HW'.
Qed.

Variable w : world T.

Lemma push_change k l p : pl_get l k = Ok p ->
  change (Z.to_nat k) l p (push_particle (w_force w) (w_field w) (w_dt w) p) [] []
    (pl_set l k (push_particle (w_force w) (w_field w) (w_dt w) p)).
Proof.
  intros HP. apply pl_get_inv in HP. destruct HP as [Hk HP]. split; [exact HP|]. unfold pl_set. cbn. rewrite !app_nil_r.
  split; [auto|]. split; [auto|]. split; [auto|]. split; [auto|]. unfold wf, pl_n. cbn. rewrite length_upd. auto.
Qed.

(** ** Induction over a run *)
(** a reflexive, transitive relation on (list, engine state) that holds for pushes and process calls holds for runs *)
Section Lift.
Variable P : event T * est E -> event T * est E -> Prop.
Hypothesis P_refl : forall s, P s s.
Hypothesis P_trans : forall a b c, P a b -> P b c -> P a c.
Hypothesis P_push : forall k l g p, pl_get l k = Ok p ->
  P (l, g) (pl_set l k (push_particle (w_force w) (w_field w) (w_dt w) p), g).
Hypothesis P_proc : forall k pr l g l' g', In pr (w_procs w) -> call_process E k pr l g = Ok (l', g') -> P (l, g) (l', g').

Lemma lift_procs k prs : (forall pr, In pr prs -> In pr (w_procs w)) ->
  forall l g l' g', call_processes E k prs l g = Ok (l', g') -> P (l, g) (l', g').
Proof.
  induction prs as [|pr t IH]; intros HI l g l' g' HX; cbn in HX; [injection HX; intros; subst; apply P_refl|].
  apply bind_ok in HX. destruct HX as [[l1 g1] [H1 HX]]. eapply P_trans.
  - eapply P_proc; [apply HI; left; reflexivity|exact H1].
  - apply IH; [intros; apply HI; right; auto|exact HX].
Qed.
Lemma lift_visit k l g l' g' : visit E w k l g = Ok (l', g') -> P (l, g) (l', g').
Proof.
  unfold visit. intros HX. apply bind_ok in HX. destruct HX as [p [HP HX]]. eapply P_trans; [apply P_push; exact HP|].
  eapply lift_procs; [|exact HX]. auto.
Qed.
Lemma lift_pass_from fuel : forall k l g l' g', pass_from E w fuel k l g = Ok (l', g') -> P (l, g) (l', g').
Proof.
  induction fuel as [|f IH]; intros k l g l' g' HX; cbn in HX; destruct (Z.ltb k (pl_n l)); try discriminate;
    try (injection HX; intros; subst; apply P_refl).
  apply bind_ok in HX. destruct HX as [[l1 g1] [H1 HX]]. eapply P_trans; [eapply lift_visit; exact H1|]. eapply IH; exact HX.
Qed.
Lemma lift_pass l g l' g' : pass E w l g = Ok (l', g') -> P (l, g) (l', g').
Proof. apply lift_pass_from. Qed.

Context {S : Type}.
Variable htimes : list T.
Variable fill : nat -> T -> list (particle T) -> S -> res S.
Definition PS (s s' : state E S) : Prop := P (st_ev _ s, st_rng _ s) (st_ev _ s', st_rng _ s').

Lemma hist_check_ev (s s' : state E S) : hist_check E htimes fill s = Ok s' ->
  st_ev _ s' = st_ev _ s /\ st_rng _ s' = st_rng _ s /\ st_time _ s' = st_time _ s.
Proof.
  unfold hist_check. destruct (nth_error _ _); [|intros HX; injection HX; intros; subst; auto].
  destruct (nleb _ _); [|intros HX; injection HX; intros; subst; auto].
  intros HX. apply bind_ok in HX. destruct HX as [h [_ HX]]. injection HX; intros; subst; auto.
Qed.
Lemma lift_step (s s' : state E S) : time_step E w htimes fill s = Ok s' -> PS s s'.
Proof.
  unfold time_step. intros HX. apply bind_ok in HX. destruct HX as [s1 [H1 HX]]. apply hist_check_ev in H1.
  destruct H1 as (H1 & H2 & _). apply bind_ok in HX. destruct HX as [[l g] [H3 HX]]. injection HX; intros; subst.
  unfold PS. cbn. rewrite <- H1, <- H2. apply lift_pass. exact H3.
Qed.
Lemma lift_loop fuel tEnd : forall s s' : state E S, time_loop E w htimes fill fuel tEnd s = Ok s' -> PS s s'.
Proof.
  induction fuel as [|f IH]; intros s s' HX; cbn in HX; destruct (nltb _ _); try discriminate;
    try (injection HX; intros; subst; apply P_refl).
  apply bind_ok in HX. destruct HX as [s1 [H1 HX]]. eapply P_trans; [apply lift_step; exact H1|apply IH; exact HX].
Qed.
Lemma fill_rest_ev n : forall s s' : state E S, fill_rest E fill n s = Ok s' ->
  st_ev _ s' = st_ev _ s /\ st_rng _ s' = st_rng _ s /\ st_time _ s' = st_time _ s.
Proof.
  induction n as [|n IH]; intros s s' HX; cbn in HX; [injection HX; intros; subst; auto|].
  apply bind_ok in HX. destruct HX as [h [_ HX]]. apply IH in HX. exact HX.
Qed.
Lemma lift_run fuel tEnd l g h s' : run_event E w htimes fill fuel tEnd l g h = Ok s' ->
  P (l, g) (st_ev _ s', st_rng _ s').
Proof.
  unfold run_event. intros HX. apply bind_ok in HX. destruct HX as [s [H1 HX]]. apply fill_rest_ev in HX.
  destruct HX as (-> & -> & _). apply (lift_loop _ _ _ _ H1).
Qed.
End Lift.

(** ** What stays the same (C48) *)
Definition evolved (p p' : particle T) : Prop := same_identity p p' /\ (p_alive p = false -> p' = p).
Definition extends (l l' : event T) : Prop :=
  pl_max l' = pl_max l /\ pl_name l' = pl_name l /\
  exists olds news lost, pl_items l' = olds ++ news /\ Forall2 evolved (pl_items l) olds /\ pl_lost l' = pl_lost l ++ lost.

Lemma evolved_refl p : evolved p p.
Proof. split; [apply same_identity_refl|auto]. Qed.
Lemma evolved_trans p q r : evolved p q -> evolved q r -> evolved p r.
Proof.
  intros [A1 A2] [B1 B2]. split; [eapply same_identity_trans; eauto|]. intros Hd. rewrite <- (A2 Hd). apply B2. rewrite (A2 Hd). auto.
Qed.
Lemma Forall2_refl' {A} (Q : A -> A -> Prop) : (forall x, Q x x) -> forall l, Forall2 Q l l.
Proof. intros HQ l. induction l; auto. Qed.
Lemma Forall2_trans' {A} (Q : A -> A -> Prop) : (forall x y z, Q x y -> Q y z -> Q x z) ->
  forall l m n, Forall2 Q l m -> Forall2 Q m n -> Forall2 Q l n.
Proof.
  intros HQ l m n H1. revert n. induction H1; intros n H2; [exact H2|]. inversion H2; subst. constructor; eauto.
Qed.
Lemma Forall2_length {A B} (Q : A -> B -> Prop) l m : Forall2 Q l m -> length m = length l.
Proof. induction 1; cbn; auto. Qed.
Lemma extends_refl l : extends l l.
Proof.
  split; [auto|]. split; [auto|]. exists (pl_items l), [], []. rewrite !app_nil_r.
  split; [auto|]. split; [apply Forall2_refl', evolved_refl|auto].
Qed.
Lemma extends_trans l m n : extends l m -> extends m n -> extends l n.
Proof.
  intros (A1 & A2 & o1 & n1' & lo1 & A3 & A4 & A5) (B1 & B2 & o2 & n2' & lo2 & B3 & B4 & B5).
  split; [congruence|]. split; [congruence|]. rewrite A3 in B4. apply Forall2_app_inv_l in B4.
  destruct B4 as (oa & ob & B6 & B7 & ->). exists oa, (ob ++ n2'), (lo1 ++ lo2).
  split; [rewrite B3, app_assoc; auto|]. split; [|rewrite B5, A5, app_assoc; auto].
  eapply Forall2_trans'; [apply evolved_trans|exact A4|exact B6].
Qed.
Lemma change_extends k l p p' st lo l' : change k l p p' st lo l' -> evolved p p' -> extends l l'.
Proof.
  intros (C1 & C2 & C3 & C4 & C5 & _) HE. split; [auto|]. split; [auto|].
  exists (upd (pl_items l) k p'), st, lo. split; [auto|]. split; [|auto].
  destruct (upd_split (pl_items l) k p p' C1) as (l1 & l2 & H1 & _ & H2). rewrite H2, H1.
  apply Forall2_app; [apply Forall2_refl', evolved_refl|]. constructor; [exact HE|apply Forall2_refl', evolved_refl].
Qed.
Lemma push_evolved F fld (dt : T) p : evolved p (push_particle F fld dt p).
Proof.
  split; [|apply push_dead]. destruct (push_keeps F fld dt p) as (P1&P2&P3&P4&P5&P6&P7&P8). unfold same_identity. auto 10.
Qed.
Lemma proc_extends k pr l g l' g' : call_process E k pr l g = Ok (l', g') -> extends l l'.
Proof.
  intros HX. apply call_process_change in HX. destruct HX as (_ & p & p' & st & lo & HC & _ & HI & _ & _ & HA & _).
  eapply change_extends; [exact HC|]. split; [auto|]. intros Hd. destruct HA; [congruence|auto].
Qed.
Definition ext2 (a b : event T * est E) : Prop := extends (fst a) (fst b).
Lemma pass_extends l g l' g' : pass E w l g = Ok (l', g') -> extends l l'.
Proof.
  apply (lift_pass ext2).
  - intros s. apply extends_refl.
  - intros a b c. apply extends_trans.
  - intros. eapply change_extends; [apply push_change; eauto|apply push_evolved].
  - intros. eapply proc_extends; eauto.
Qed.
Lemma run_extends {S} htimes fill fuel tEnd l g h (s' : state E S) :
  run_event E w htimes fill fuel tEnd l g h = Ok s' -> extends l (st_ev _ s').
Proof.
  intros HX. apply (lift_run ext2) in HX; [exact HX| | | |].
  - intros s. apply extends_refl.
  - intros a b c. apply extends_trans.
  - intros. eapply change_extends; [apply push_change; eauto|apply push_evolved].
  - intros. eapply proc_extends; eauto.
Qed.

(** ** Charges (C43) *)
Definition charges (l : event T) : list T := map p_charge (pl_items l ++ pl_lost l).
Definition charge_rel (l l' : event T) : Prop :=
  exists a b, Permutation (charges l') (charges l ++ repeat n0 a ++ repeat n1 b ++ repeat (nlit (-1) 0) b).
Lemma charge_rel_refl l : charge_rel l l.
Proof. exists O, O. cbn. rewrite app_nil_r. apply Permutation_refl. Qed.
Lemma charge_rel_trans l m n : charge_rel l m -> charge_rel m n -> charge_rel l n.
Proof.
  intros (a & b & H1) (a' & b' & H2). exists (a' + a)%nat, (b' + b)%nat. rewrite H2, H1, !repeat_app, <- !app_assoc.
  apply Permutation_app_head. 
  generalize (repeat (@n0 T _) a) (repeat (@n0 T _) a') (repeat (@n1 T _) b) (repeat (@n1 T _) b') (repeat (nlit (T := T) (-1) 0) b) (repeat (nlit (T := T) (-1) 0) b').
  intros A A' B B' C C'. 
  pose proof (Permutation_app_swap_app (A ++ B ++ C) A' (B' ++ C')) as Q1. rewrite <- !app_assoc in Q1. rewrite Q1.
  apply Permutation_app_head, Permutation_app_head.
  pose proof (Permutation_app_swap_app (B ++ C) B' C') as Q2. rewrite <- !app_assoc in Q2. rewrite Q2.
  apply Permutation_app_head, Permutation_app_head, Permutation_app_comm.
Qed.
Lemma change_charges k l p p' st lo l' : change k l p p' st lo l' -> p_charge p' = p_charge p ->
  Permutation (charges l') (charges l ++ map p_charge (st ++ lo)).
Proof.
  intros (C1 & C2 & C3 & _) HQ. unfold charges. rewrite C2, C3.
  destruct (upd_split (pl_items l) k p p' C1) as (l1 & l2 & H1 & _ & H2). rewrite H2, H1.
  rewrite !map_app. cbn [map]. rewrite HQ. rewrite <- !app_assoc. apply Permutation_app_head. cbn [app]. apply perm_skip.
  apply Permutation_app_head. rewrite Permutation_app_swap_app. apply Permutation_refl.
Qed.
Lemma births_charges p p' news : births p p' news ->
  exists a b, Permutation (map p_charge news) (repeat n0 a ++ repeat n1 b ++ repeat (nlit (-1) 0) b).
Proof.
  intros [_ [[-> _]|[(ph & -> & (_ & _ & _ & HQ) & _)|(po & el & -> & (_ & _ & _ & Q1) & (_ & _ & _ & Q2) & _)]]].
  - exists O, O. apply Permutation_refl.
  - exists 1%nat, O. cbn. rewrite HQ. apply Permutation_refl.
  - exists O, 1%nat. cbn. rewrite Q1, Q2. apply Permutation_refl.
Qed.
Lemma proc_charges k pr l g l' g' : call_process E k pr l g = Ok (l', g') -> charge_rel l l'.
Proof.
  intros HX. apply call_process_change in HX. destruct HX as (_ & p & p' & st & lo & HC & HB & HI & _).
  destruct (births_charges _ _ _ HB) as (a & b & HP). exists a, b. rewrite (change_charges _ _ _ _ _ _ _ HC); [|apply HI].
  apply Permutation_app_head. exact HP.
Qed.
Lemma push_charges k l p : pl_get l k = Ok p ->
  charge_rel l (pl_set l k (push_particle (w_force w) (w_field w) (w_dt w) p)).
Proof.
  intros HP. exists O, O. cbn. rewrite (change_charges _ _ _ _ _ _ _ (push_change k l p HP)).
  - apply Permutation_refl.
  - apply (push_keeps (w_force w) (w_field w) (w_dt w) p).
Qed.
Lemma run_charges {S} htimes fill fuel tEnd l g h (s' : state E S) :
  run_event E w htimes fill fuel tEnd l g h = Ok s' -> charge_rel l (st_ev _ s').
Proof.
  intros HX. apply (lift_run (fun a b => charge_rel (fst a) (fst b))) in HX; [exact HX| | | |].
  - intros s. apply charge_rel_refl.
  - intros a b c. apply charge_rel_trans.
  - intros. apply push_charges. auto.
  - intros. eapply proc_charges; eauto.
Qed.

(** ** The particle loop (C45) *)
Lemma visit_facts k l g l' g' : visit E w k l g = Ok (l', g') ->
  extends l l' /\ (wf l -> wf l') /\ (pl_n l <= pl_n l')%Z.
Proof.
  intros HX.
  assert (HE : extends l l').
  { apply (lift_visit ext2) in HX; [exact HX| | | |].
    - intros s. apply extends_refl.
    - intros a b c. apply extends_trans.
    - intros. eapply change_extends; [apply push_change; eauto|apply push_evolved].
    - intros. eapply proc_extends; eauto. }
  split; [auto|]. split.
  - revert HX. apply (lift_visit (fun a b => wf (fst a) -> wf (fst b))); [auto|auto| |].
    + intros k0 l0 g0 p0 HP. apply (push_change k0 l0 p0 HP).
    + intros k0 pr l0 g0 l1 g1 _ HP. apply call_process_change in HP. destruct HP as (_ & p & p' & st & lo & HC & _). apply HC.
  - destruct HE as (_ & _ & o & nw & _ & HI & HF & _). unfold pl_n. rewrite HI, app_length, (Forall2_length _ _ _ HF). lia.
Qed.

(** visiting the places [i], [i+1], ..., [j-1] in this order, once each *)
Inductive visits : Z -> Z -> event T -> est E -> event T -> est E -> Prop :=
| visits_nil i l g : visits i i l g l g
| visits_cons i j l g l1 g1 l2 g2 : visit E w i l g = Ok (l1, g1) -> visits (i + 1) j l1 g1 l2 g2 -> visits i j l g l2 g2.

Lemma pass_from_visits fuel : forall k l g l' g', (k <= pl_n l)%Z -> pass_from E w fuel k l g = Ok (l', g') ->
  visits k (pl_n l') l g l' g'.
Proof.
  induction fuel as [|f IH]; intros k l g l' g' Hk HX; cbn in HX; destruct (Z.ltb k (pl_n l)) eqn:EK; try discriminate.
  - injection HX; intros; subst. apply Z.ltb_ge in EK. replace k with (pl_n l') by lia. constructor.
  - apply bind_ok in HX. destruct HX as [[l1 g1] [H1 HX]]. apply Z.ltb_lt in EK.
    econstructor; [exact H1|]. cbn [fst snd] in HX. apply IH; [|exact HX]. apply visit_facts in H1. lia.
  - injection HX; intros; subst. apply Z.ltb_ge in EK. replace k with (pl_n l') by lia. constructor.
Qed.
Lemma visits_mono i j l g l' g' : visits i j l g l' g' -> (i <= j)%Z /\ extends l l' /\ (wf l -> wf l').
Proof.
  induction 1 as [|i j l g l1 g1 l2 g2 H1 H2 IH]; [split; [lia|]; split; [apply extends_refl|auto]|].
  destruct IH as (I1 & I2 & I3). apply visit_facts in H1. destruct H1 as (J1 & J2 & _). split; [lia|].
  split; [eapply extends_trans; eauto|auto].
Qed.
Lemma visits_count i j l g l' g' : visits i j l g l' g' -> i = j \/ (i < pl_n l)%Z.
Proof.
  intros HV. inversion HV; subst; [auto|]. right. unfold visit in H0. apply bind_ok in H0. destruct H0 as [p [HP _]].
  apply pl_get_inv in HP. lia.
Qed.

(** the loop result is determined by the visits: whatever the fuel, as soon as it is enough *)
Lemma visits_pass i j l g l' g' : visits i j l g l' g' -> j = pl_n l' ->
  forall fuel, (Z.to_nat (j - i) <= fuel)%nat -> pass_from E w fuel i l g = Ok (l', g').
Proof.
  induction 1 as [i l g|i j l g l1 g1 l2 g2 H1 H2 IH]; intros Hj fuel HF.
  - destruct fuel; cbn; rewrite Hj; rewrite Z.ltb_irrefl; reflexivity.
  - pose proof (visits_mono _ _ _ _ _ _ H2) as [M1 _]. destruct fuel as [|f]; [lia|]. cbn.
    assert (HK : (i <? pl_n l)%Z = true).
    { apply Z.ltb_lt. pose proof (visits_count i j l g l2 g2 (visits_cons _ _ _ _ _ _ _ _ H1 H2)). lia. }
    rewrite HK, H1. cbn. apply IH; auto. lia.
Qed.

(** never out of fuel with the capacity as fuel *)
Lemma pass_from_fuel fuel : forall k l g, wf l -> (0 <= k)%Z -> (pl_max l - k <= Z.of_nat fuel)%Z ->
  pass_from E w fuel k l g <> Fuel \/ exists k' l' g', visit E w k' l' g' = Fuel.
Proof.
  induction fuel as [|f IH]; intros k l g HW Hk HF; cbn; destruct (Z.ltb k (pl_n l)) eqn:EK; try (left; discriminate).
  - apply Z.ltb_lt in EK. unfold wf in HW. lia.
  - destruct (visit E w k l g) as [[l1 g1]| | | |] eqn:EV; cbn; try (left; discriminate); [|right; eauto].
    pose proof (visit_facts _ _ _ _ _ EV) as (X1 & X2 & _). apply IH; auto; [lia|].
    destruct X1 as (X1 & _). rewrite X1. lia.
Qed.

Lemma call_processes_not_fuel k prs : forall l g, call_processes E k prs l g <> Fuel.
Proof.
  induction prs as [|pr t IH]; intros l g; cbn; [discriminate|]. apply bind_not_fuel; [|intros; apply IH].
  unfold call_process. apply bind_not_fuel; [unfold pl_get; destruct (_ || _)%bool; [|destruct (nth_error _ _)]; discriminate|].
  intros p. apply bind_not_fuel; [apply interact_not_fuel|]. intros [[p' l'] g']. discriminate.
Qed.
Lemma pass_not_fuel l g : wf l -> pass E w l g <> Fuel.
Proof.
  intros HW. destruct (pass_from_fuel (Z.to_nat (pl_max l)) 0%Z l g HW) as [HX|(k & l' & g' & HX)]; [lia|lia|exact HX|].
  exfalso. revert HX. unfold visit. apply bind_not_fuel; [unfold pl_get; destruct (_ || _)%bool; [|destruct (nth_error _ _)]; discriminate|].
  intros p. apply call_processes_not_fuel.
Qed.

(** ** Safety of a pass: no undefined behaviour, and the loop ends *)
Lemma call_process_safe k pr l g : process_ok pr -> wf l -> (0 <= k < pl_n l)%Z ->
  (exists l' g', call_process E k pr l g = Ok (l', g')) \/ call_process E k pr l g = Exit (-1).
Proof.
  intros HO HW Hk. unfold call_process. destruct (pl_get_ok l k HW Hk) as [p ->]. cbn.
  destruct (interact_safe E pr p l g HO) as [(p' & l' & g' & ->)| ->]; cbn; eauto.
Qed.
Lemma call_process_n k pr l g l' g' : call_process E k pr l g = Ok (l', g') -> (wf l -> wf l') /\ (pl_n l <= pl_n l')%Z.
Proof.
  intros HX. apply call_process_change in HX. destruct HX as (_ & p & p' & st & lo & (C1 & C2 & _ & _ & _ & C3) & _).
  split; [auto|]. unfold pl_n. rewrite C2, app_length, length_upd. lia.
Qed.
Lemma call_processes_safe k prs : (forall pr, In pr prs -> process_ok pr) -> forall l g, wf l -> (0 <= k < pl_n l)%Z ->
  (exists l' g', call_processes E k prs l g = Ok (l', g')) \/ call_processes E k prs l g = Exit (-1).
Proof.
  induction prs as [|pr t IH]; intros HO l g HW Hk; cbn; [eauto|].
  destruct (call_process_safe k pr l g (HO pr (or_introl eq_refl)) HW Hk) as [(l1 & g1 & HX)| ->]; [|right; reflexivity].
  rewrite HX. cbn. pose proof (call_process_n _ _ _ _ _ _ HX) as [N1 N2]. apply IH; auto; [|lia]. intros; apply HO; right; auto.
Qed.
Lemma visit_safe k l g : (forall pr, In pr (w_procs w) -> process_ok pr) -> wf l -> (0 <= k < pl_n l)%Z ->
  (exists l' g', visit E w k l g = Ok (l', g')) \/ visit E w k l g = Exit (-1).
Proof.
  intros HO HW Hk. unfold visit. destruct (pl_get_ok l k HW Hk) as [p HP]. rewrite HP. cbn.
  pose proof (push_change k l p HP) as HC. apply call_processes_safe; auto; [apply HC; auto|].
  unfold pl_n, pl_set. cbn. rewrite length_upd. exact Hk.
Qed.
Lemma pass_from_safe fuel : (forall pr, In pr (w_procs w) -> process_ok pr) -> forall k l g, wf l -> (0 <= k)%Z ->
  (pl_max l - k <= Z.of_nat fuel)%Z ->
  (exists l' g', pass_from E w fuel k l g = Ok (l', g')) \/ pass_from E w fuel k l g = Exit (-1).
Proof.
  intros HO. induction fuel as [|f IH]; intros k l g HW Hk HF; cbn; destruct (Z.ltb k (pl_n l)) eqn:EK; eauto.
  - apply Z.ltb_lt in EK. unfold wf in HW. lia.
  - apply Z.ltb_lt in EK. destruct (visit_safe k l g HO HW) as [(l1 & g1 & HX)| ->]; [lia| |right; reflexivity].
    rewrite HX. cbn. pose proof (visit_facts _ _ _ _ _ HX) as (X1 & X2 & _). apply IH; auto; [lia|].
    destruct X1 as (X1 & _). rewrite X1. lia.
Qed.
Lemma pass_safe l g : (forall pr, In pr (w_procs w) -> process_ok pr) -> wf l ->
  (exists l' g', pass E w l g = Ok (l', g') /\ wf l') \/ pass E w l g = Exit (-1).
Proof.
  intros HO HW. unfold pass. assert (HP : (0 <= pl_max l)%Z) by (pose proof (pl_n_nonneg l); unfold wf in HW; lia).
  destruct (pass_from_safe (Z.to_nat (pl_max l)) HO 0%Z l g HW) as [(l' & g' & HX)|HX]; [lia|lia| |auto].
  left. exists l', g'. split; [auto|]. apply pass_from_visits in HX; [|apply pl_n_nonneg]. apply visits_mono in HX. tauto.
Qed.

End SimFacts.
