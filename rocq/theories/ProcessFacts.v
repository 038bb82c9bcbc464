(** * Processes: structural proofs valid in any arithmetic *)
From Coq Require Import String ZArith List Bool Lia.
From Verif Require Import Num Outcome OutcomeFacts Vec Units Numerics MCTools Particle ParticleList Fields Process.
Import ListNotations.

Section Shape.
Context {T : Type} `{Num T}.
Variable E : Engine T.

(** what never changes about a particle *)
Definition same_identity (p p' : particle T) : Prop :=
  p_type p' = p_type p /\ p_name p' = p_name p /\ p_mass p' = p_mass p /\ p_charge p' = p_charge p /\
  p_weight p' = p_weight p /\ p_tracking p' = p_tracking p.

Lemma same_identity_refl p : same_identity p p.
Proof. repeat split. Qed.
Lemma same_identity_trans p q r : same_identity p q -> same_identity q r -> same_identity p r.
Proof. unfold same_identity. intuition congruence. Qed.

(** a new-born particle: alive, at the place and time of its parent, no history *)
Definition born_at (par q : particle T) : Prop :=
  p_alive q = true /\ p_pos q = p_pos par /\ p_time q = p_time par /\
  p_posHist q = [] /\ p_momHist q = [] /\ p_timeHist q = [] /\ p_gammaHist q = [].
Definition new_photon_like (q : particle T) : Prop :=
  p_type q = PPhoton /\ p_name q = "Photon"%string /\ p_mass q = n0 /\ p_charge q = n0.
Definition new_lepton_like (charge : T) (q : particle T) : Prop :=
  p_type q = PLepton /\ p_name q = lepton_name charge /\ p_mass q = n1 /\ p_charge q = charge.

(** the particles one call may create *)
Definition births (par par' : particle T) (news : list (particle T)) : Prop :=
  (forall q, In q news -> born_at par q) /\
  ((news = [] /\ p_alive par' = p_alive par) \/
   (exists ph, news = [ph] /\ new_photon_like ph /\ p_alive par' = true /\ p_alive par = true) \/
   (exists pos el, news = [pos; el] /\ new_lepton_like n1 pos /\ new_lepton_like (nlit (-1) 0) el /\
       p_weight pos = p_weight par /\ p_weight el = p_weight par /\
       p_type par = PPhoton /\ p_alive par' = false)).

Definition add_all (news : list (particle T)) (l : event T) : event T := fold_left pl_add news l.

Lemma update_track_id p x m : same_identity p (update_track p x m) /\ p_time (update_track p x m) = p_time p /\
  p_alive (update_track p x m) = p_alive p /\ p_pos (update_track p x m) = x /\ p_mom (update_track p x m) = m /\
  p_depth (update_track p x m) = p_depth p.
Proof. unfold update_track, same_identity. destruct (p_tracking p) eqn:Ht; cbn; auto 12. Qed.

Definition shape (p : particle T) (l : event T) (p' : particle T) (l' : event T) : Prop :=
  same_identity p p' /\ p_time p' = p_time p /\ p_pos p' = p_pos p /\
  (p_alive p = true \/ p' = p) /\
  exists news, l' = add_all news l /\ births p p' news.

Lemma shape_refl p l : shape p l p l.
Proof.
  split; [apply same_identity_refl|]. split; [auto|]. split; [auto|]. split; [auto|].
  exists []. split; [reflexivity|]. split; [intros q []|]. auto.
Qed.

Lemma photon_born en x d w t tr g : let ph := fst (new_photon_energy E en x d w t tr g) in
  new_photon_like ph /\ p_alive ph = true /\ p_pos ph = x /\ p_time ph = t /\ p_weight ph = w /\
  p_posHist ph = [] /\ p_momHist ph = [] /\ p_timeHist ph = [] /\ p_gammaHist ph = [] /\
  p_mom ph = smul en (vnorm d).
Proof. unfold new_photon_energy, new_particle. destruct (draw_depth E g). cbn. unfold new_photon_like; cbn. auto 20. Qed.

Lemma lepton_born m q x pm w t tr g : let p := fst (new_lepton E m q x pm w t tr g) in
  p_type p = PLepton /\ p_name p = lepton_name q /\ p_mass p = m /\ p_charge p = q /\
  p_alive p = true /\ p_pos p = x /\ p_time p = t /\ p_weight p = w /\ p_mom p = pm /\
  p_posHist p = [] /\ p_momHist p = [] /\ p_timeHist p = [] /\ p_gammaHist p = [].
Proof. unfold new_lepton, new_particle. destruct (draw_depth E g). cbn. auto 20. Qed.

Lemma guard_alive b (p : particle T) : (b || negb (p_alive p))%bool = false -> p_alive p = true.
Proof. destruct b, (p_alive p); cbn; intros; try discriminate; auto. Qed.

Lemma stochastic_shape c p l g p' l' g' : stochastic_interact E c p l g = Ok (p', l', g') -> shape p l p' l'.
Proof.
  unfold stochastic_interact. destruct (_ || _)%bool eqn:EG; [intros HX; injection HX; intros; subst; apply shape_refl|].
  apply guard_alive in EG. cbv zeta. intros HX. apply bind_ok in HX. destruct HX as [logh [_ HX]].
  set (p1 := update_depth p _) in *.
  assert (S1 : same_identity p p1 /\ p_time p1 = p_time p /\ p_pos p1 = p_pos p /\ p_alive p1 = p_alive p)
    by (repeat split).
  destruct (nltb (p_depth p1) n0).
  - apply bind_ok in HX. destruct HX as [[chi g1] [_ HX]]. cbn [fst snd] in HX.
    set (gE := ndiv _ _) in *. set (p2 := update_track p1 _ _) in *.
    destruct (if nltb (em_eMin c) gE then _ else _) as [keep g2].
    destruct (update_track_id p1 (p_pos p1) (vsub (p_mom p1) (smul gE (get_direction p1)))) as (U1 & U2 & U3 & U4 & _).
    fold p2 in U1, U2, U3, U4. destruct S1 as (S1 & S2 & S3 & S4).
    destruct keep.
    + pose proof (photon_born gE (p_pos p2) (get_direction p2) (ndiv (p_weight p2) (em_frac c)) (p_time p2) (em_track c) g2) as PB.
      destruct (new_photon_energy E gE (p_pos p2) (get_direction p2) (ndiv (p_weight p2) (em_frac c)) (p_time p2) (em_track c) g2) as [ph g3]. cbn [fst] in PB.
      unfold init_depth in HX. destruct (draw_depth E g3) as [d g4]. injection HX; intros; subst.
      split; [eapply same_identity_trans; [exact S1|]; eapply same_identity_trans; [exact U1|]; repeat split|].
      cbn [set_depth p_time p_pos p_alive]. rewrite U2, U4, S2, S3.
      split; [auto|]. split; [auto|]. split; [auto|].
      exists [ph]. split; [reflexivity|]. destruct PB as (P1 & P2 & P3 & P4 & P5 & P6 & P7 & P8 & P9 & _).
      split.
      * intros q [<-|[]]. repeat split; auto; congruence.
      * right; left. exists ph. split; [auto|]. split; [auto|]. cbn [set_depth p_alive]. rewrite U3, S4. split; auto.
    + unfold init_depth in HX. destruct (draw_depth E g2) as [d g4]. injection HX; intros; subst.
      split; [eapply same_identity_trans; [exact S1|]; eapply same_identity_trans; [exact U1|]; repeat split|].
      cbn [set_depth p_time p_pos p_alive]. rewrite U2, U4, S2, S3.
      split; [auto|]. split; [auto|]. split; [auto|].
      exists []. split; [reflexivity|]. split; [intros q []|auto].
  - injection HX; intros; subst. destruct S1 as (S1 & S2 & S3 & S4).
    split; [exact S1|]. split; [auto|]. split; [auto|]. split; [auto|].
    exists []. split; [reflexivity|]. split; [intros q []|auto].
Qed.

(** Continuous emission never touches the emitter *)
Lemma continuous_frame c cl p l g p' l' g' : continuous_interact E c cl p l g = Ok (p', l', g') ->
  p' = p /\ (l' = l \/ exists ph, l' = pl_add l ph /\ new_photon_like ph /\ born_at p ph).
Proof.
  unfold continuous_interact. destruct (_ || _)%bool eqn:EG; [intros HX; injection HX; intros; subst; auto|].
  destruct (rand_double E n0 n1 g) as [r g1]. destruct (nltb (em_frac c) r); [intros HX; injection HX; intros; subst; auto|].
  cbv zeta. intros HX. apply bind_ok in HX. destruct HX as [[[logh chi] g2] [_ HX]].
  destruct (nltb _ _).
  - match goal with HX : context [new_photon_energy E ?a ?b ?c ?d ?e ?f ?g] |- _ =>
      pose proof (photon_born a b c d e f g) as PB; destruct (new_photon_energy E a b c d e f g) as [ph g3] end.
    cbn [fst] in PB. injection HX; intros; subst. split; [auto|]. right. exists ph.
    destruct PB as (P1 & P2 & P3 & P4 & P5 & P6 & P7 & P8 & P9 & _). split; [auto|]. split; [auto|]. repeat split; auto.
  - injection HX; intros; subst. auto.
Qed.

Lemma continuous_alive c cl p l g p' l' g' ph : continuous_interact E c cl p l g = Ok (p', l', g') ->
  l' = pl_add l ph -> p_alive p = true \/ l' = l.
Proof.
  unfold continuous_interact. destruct (_ || _)%bool eqn:EG; [intros HX; injection HX; intros; subst; auto|].
  apply guard_alive in EG. auto.
Qed.

Lemma continuous_shape c cl p l g p' l' g' : continuous_interact E c cl p l g = Ok (p', l', g') -> shape p l p' l'.
Proof.
  intros HX. destruct (continuous_frame _ _ _ _ _ _ _ _ HX) as [-> [->|[ph (-> & P1 & P2)]]]; [apply shape_refl|].
  assert (HA : p_alive p = true \/ pl_add l ph = l) by (eapply continuous_alive; eauto).
  destruct HA as [HA|HA]; [|rewrite HA; apply shape_refl].
  split; [apply same_identity_refl|]. split; [auto|]. split; [auto|]. split; [auto|].
  exists [ph]. split; [reflexivity|]. split; [intros q [<-|[]]; auto|]. right; left. exists ph. auto.
Qed.

Lemma breit_wheeler_shape c p l g p' l' g' : breit_wheeler_interact E c p l g = Ok (p', l', g') -> shape p l p' l'.
Proof.
  unfold breit_wheeler_interact.
  destruct (p_type p) eqn:ET; cbn [orb]; [|intros HX; injection HX; intros; subst; apply shape_refl].
  destruct (negb (p_alive p)) eqn:EA; [intros HX; injection HX; intros; subst; apply shape_refl|].
  apply negb_false_iff in EA. cbv zeta. intros HX. apply bind_ok in HX. destruct HX as [logt [_ HX]].
  set (p1 := update_depth p _) in *.
  assert (S1 : same_identity p p1 /\ p_time p1 = p_time p /\ p_pos p1 = p_pos p /\ p_alive p1 = p_alive p)
    by (repeat split). destruct S1 as (S1 & S2 & S3 & S4).
  destruct (nltb (p_depth p1) n0).
  - apply bind_ok in HX. destruct HX as [[sp g1] [_ HX]]. cbn [fst snd] in HX.
    match goal with HX : context [new_lepton E n1 n1 ?b ?c ?d ?e ?f ?g] |- _ =>
      pose proof (lepton_born n1 n1 b c d e f g) as PB; destruct (new_lepton E n1 n1 b c d e f g) as [po g2] end.
    match goal with HX : context [new_lepton E n1 (nlit (-1) 0) ?b ?c ?d ?e ?f ?g] |- _ =>
      pose proof (lepton_born n1 (nlit (-1) 0) b c d e f g) as EB; destruct (new_lepton E n1 (nlit (-1) 0) b c d e f g) as [el g3] end.
    cbn [fst] in PB, EB. injection HX; intros; subst.
    split; [repeat split|]. split; [auto|]. split; [auto|]. split; [auto|].
    exists [po; el]. split; [reflexivity|].
    destruct PB as (P1&P2&P3&P4&P5&P6&P7&P8&P9&P10&P11&P12&P13).
    destruct EB as (Q1&Q2&Q3&Q4&Q5&Q6&Q7&Q8&Q9&Q10&Q11&Q12&Q13).
    split.
    + intros q [<-|[<-|[]]]; repeat split; auto; congruence.
    + right; right. exists po, el. split; [auto|]. split; [repeat split; auto|]. split; [repeat split; auto|].
      split; [auto|]. split; [auto|]. split; [auto|]. reflexivity.
  - injection HX; intros; subst. split; [exact S1|]. split; [auto|]. split; [auto|]. split; [auto|].
    exists []. split; [reflexivity|]. split; [intros q []|auto].
Qed.

Lemma interact_shape pr p l g p' l' g' : interact E pr p l g = Ok (p', l', g') -> shape p l p' l'.
Proof. destruct pr; cbn; [apply stochastic_shape | apply continuous_shape | apply breit_wheeler_shape]. Qed.

(** dead particles are ignored by every process: nothing happens, no random number is drawn *)
Lemma interact_dead pr p l g : p_alive p = false -> interact E pr p l g = Ok (p, l, g).
Proof.
  intros Ha. destruct pr; cbn; unfold stochastic_interact, continuous_interact, breit_wheeler_interact;
  rewrite Ha; cbn [negb]; rewrite orb_true_r; reflexivity.
Qed.

Lemma interact_dead_inv pr p l g p' l' g' : interact E pr p l g = Ok (p', l', g') -> p_alive p = false ->
  p' = p /\ l' = l /\ g' = g.
Proof. intros HX Ha. rewrite interact_dead in HX by auto. injection HX; auto. Qed.

(** adding *)
Lemma add_all_cap news (l : event T) : pl_max (add_all news l) = pl_max l /\ pl_name (add_all news l) = pl_name l.
Proof.
  revert l. induction news as [|a t IH]; intros l; [auto|]. destruct (IH (pl_add l a)) as [I1 I2].
  change (add_all (a :: t) l) with (add_all t (pl_add l a)). rewrite I1, I2.
  unfold pl_add. destruct (Z.ltb _ _); auto.
Qed.
Lemma add_all_items news (l : event T) : exists stored lost, news = stored ++ lost /\
  pl_items (add_all news l) = pl_items l ++ stored /\ pl_lost (add_all news l) = pl_lost l ++ lost.
Proof.
  revert l. induction news as [|a t IH]; intros l; [exists [], []; rewrite !app_nil_r; auto|].
  cbn. destruct (Z.ltb (pl_n l) (pl_max l)) eqn:EC.
  - destruct (IH (pl_add l a)) as (s & lo & -> & I1 & I2). exists (a :: s), lo. split; [reflexivity|].
    unfold add_all in I1, I2. rewrite I1, I2. unfold pl_add. rewrite EC. cbn. rewrite <- app_assoc. auto.
  - assert (HL : forall t (l : event T), Z.ltb (pl_n l) (pl_max l) = false ->
      pl_items (add_all t l) = pl_items l /\ pl_lost (add_all t l) = pl_lost l ++ t).
    { clear. induction t as [|a t IH]; intros l HL; [rewrite app_nil_r; auto|]. cbn.
      assert (HA : pl_add l a = mkPL (pl_name l) (pl_max l) (pl_items l) (pl_lost l ++ [a])) by (unfold pl_add; rewrite HL; auto).
      destruct (IH (pl_add l a)) as [I1 I2]; [rewrite HA; exact HL|]. unfold add_all in *. rewrite I1, I2, HA. cbn.
      rewrite <- app_assoc. auto. }
    exists [], (a :: t). split; [reflexivity|]. rewrite app_nil_r. apply (HL (a :: t) l EC).
Qed.
End Shape.

(** the pair, in any arithmetic *)
Section Pair.
Context {T : Type} `{Num T}.
Variable E : Engine T.
Lemma breit_wheeler_pair c (p : particle T) l g p' l' g' :
  breit_wheeler_interact E c p l g = Ok (p', l', g') -> p_alive p = true -> p_alive p' = false ->
  p_type p = PPhoton /\
  exists s g1 po el, calculate_split E (bw_tab c) (photon_chi (bw_field c) p) g = Ok (s, g1) /\
    l' = pl_add (pl_add l po) el /\ p_name po = lepton_name n1 /\ p_name el = lepton_name (nlit (-1) 0) /\
    let eP := nmul s (get_energy p) in let eE := nmul (nsub n1 s) (get_energy p) in
    p_mom po = smul (nsqrt (nsub (nmul eP eP) n1)) (get_direction p) /\
    p_mom el = smul (nsqrt (nsub (nmul eE eE) n1)) (get_direction p).
Proof.
  unfold breit_wheeler_interact. intros HX Ha Hd.
  destruct (p_type p) eqn:ET; cbn [orb] in HX; [|injection HX; intros; subst; congruence].
  rewrite Ha in HX. cbn [negb orb] in HX. cbv zeta in HX. split; [reflexivity|].
  apply bind_ok in HX. destruct HX as [y [_ HX]].
  set (p1 := update_depth p _) in *.
  destruct (nltb (p_depth p1) n0).
  - apply bind_ok in HX. destruct HX as [[s g1] [HS HX]]. cbn [fst snd] in HX.
    assert (HE1 : get_energy p1 = get_energy p) by reflexivity. rewrite HE1 in HX.
    assert (HD1 : get_direction p1 = get_direction p) by reflexivity. rewrite HD1 in HX.
    match type of HX with context [new_lepton E n1 n1 ?b ?c ?d ?e ?f ?g] =>
      pose proof (lepton_born E n1 n1 b c d e f g) as PB; destruct (new_lepton E n1 n1 b c d e f g) as [po g2] end.
    match type of HX with context [new_lepton E n1 (nlit (-1) 0) ?b ?c ?d ?e ?f ?g] =>
      pose proof (lepton_born E n1 (nlit (-1) 0) b c d e f g) as EB; destruct (new_lepton E n1 (nlit (-1) 0) b c d e f g) as [el g3] end.
    cbn [fst] in PB, EB. injection HX; intros; subst p' l' g'. exists s, g1, po, el.
    destruct PB as (P1&P2&P3&P4&P5&P6&P7&P8&P9&_). destruct EB as (Q1&Q2&Q3&Q4&Q5&Q6&Q7&Q8&Q9&_). auto 10.
  - injection HX; intros; subst. change (p_alive p1) with (p_alive p) in Hd. congruence.
Qed.
End Pair.
