(** * Source: proofs *)
From Coq Require Import String ZArith Reals Lra Lia List Bool.
From Verif Require Import Num RNum Outcome OutcomeFacts Vec SpecVec VecFacts RotationFacts VecExtra
  MCTools Units Particle ParticleList ParticleFacts Source.
Import ListNotations.

(** The engine delivers as many normals as asked for. *)
Definition delivers {T} (E : Engine T) : Prop := forall n g, length (fst (e_normals E n g)) = n.

(** The three species names (both spellings) and what they mean. *)
Inductive species : string -> ptype -> string -> Z -> Z -> Prop :=
| sp_ph1 : species "Photon" PPhoton "Photon" 0 0
| sp_ph2 : species "photon" PPhoton "Photon" 0 0
| sp_el1 : species "Electron" PLepton "Electron" 1 (-1)
| sp_el2 : species "electron" PLepton "Electron" 1 (-1)
| sp_po1 : species "Positron" PLepton "Positron" 1 1
| sp_po2 : species "positron" PLepton "Positron" 1 1.

Section S.
Context {T : Type} {NT : Num T}.
Variable E : Engine T.

Lemma len_norm m s n g : delivers E -> length (fst (sample_norm E m s n g)) = n.
Proof.
  intros D. unfold sample_norm. specialize (D n g). destruct (e_normals E n g). cbn in *. rewrite map_length. auto.
Qed.
Lemma len_unif a b n g : length (fst (sample_uniform E a b n g)) = n.
Proof.
  revert g; induction n; intros; cbn; auto. destruct (rand_double E a b g) as [u g1].
  specialize (IHn g1). destruct (sample_uniform E a b n g1). cbn in *. auto.
Qed.

(** A well-formed source: all six tables have [nPart] entries. *)
Definition wf_source (s : source T) : Prop :=
  let n := Z.to_nat (s_nPart s) in
  (0 <= s_nPart s < 2 ^ 32)%Z /\
  length (s_xs s) = n /\ length (s_ys s) = n /\ length (s_zs s) = n /\
  length (s_thetas s) = n /\ length (s_phis s) = n /\ length (s_energies s) = n.

Lemma new_source_wf ty di n e1 e2 dp dt dd x d tr g :
  delivers E -> (0 <= n < 2 ^ 32)%Z ->
  let s := fst (new_source E ty di n e1 e2 dp dt dd x d tr g) in
  wf_source s /\ s_count s = 0%Z /\ s_nPart s = n /\ s_type s = ty /\ s_track s = tr /\ s_pos s = x /\
  s_rot s = rotate_to_axis (vnorm d) (mkV n0 n0 n1).
Proof.
  intros D Hn. unfold new_source.
  pose proof (len_norm n0 dp (Z.to_nat n) g D).
  destruct (sample_norm E n0 dp (Z.to_nat n) g) as [xs g1].
  pose proof (len_norm n0 dp (Z.to_nat n) g1 D).
  destruct (sample_norm E n0 dp (Z.to_nat n) g1) as [ys g2].
  pose proof (len_norm n0 dt (Z.to_nat n) g2 D).
  destruct (sample_norm E n0 dt (Z.to_nat n) g2) as [zs g3].
  pose proof (len_norm n0 dd (Z.to_nat n) g3 D).
  destruct (sample_norm E n0 dd (Z.to_nat n) g3) as [ths g4].
  pose proof (len_unif n0 (nmul n2 c_pi) (Z.to_nat n) g4).
  destruct (sample_uniform E n0 (nmul n2 c_pi) (Z.to_nat n) g4) as [phs g5].
  assert (length (fst (if (String.eqb di "gaussian" || String.eqb di "Gaussian")%bool
    then sample_norm E e1 e2 (Z.to_nat n) g5 else sample_uniform E e1 e2 (Z.to_nat n) g5)) = Z.to_nat n)
    by (destruct (_ || _)%bool; [apply len_norm; auto | apply len_unif]).
  destruct (if (String.eqb di "gaussian" || String.eqb di "Gaussian")%bool
    then sample_norm E e1 e2 (Z.to_nat n) g5 else sample_uniform E e1 e2 (Z.to_nat n) g5) as [ens g6].
  cbn in *. unfold wf_source. cbn. repeat split; auto; lia.
Qed.

(** the [i]-th sample as a primary: place and direction *)
Definition sample_pos (s : source T) (i : nat) : vec T :=
  vadd (mvec (s_rot s) (mkV (nth i (s_xs s) n0) (nth i (s_ys s) n0) (nth i (s_zs s) n0))) (s_pos s).
Definition sample_dir (s : source T) (i : nat) : vec T :=
  let th := nth i (s_thetas s) n0 in let ph := nth i (s_phis s) n0 in
  mvec (s_rot s) (mkV (nmul (nsin th) (ncos ph)) (nmul (nsin th) (nsin ph)) (ncos th)).

(** [l] is the event built from sample [i] of [s]. *)
Definition event_of_sample (s : source T) (i : nat) (ty : ptype) (nm : string) (m q : Z) (l : plist (particle T)) : Prop :=
  pl_name l = to_string (Z.of_nat i) /\
  exists p, pl_items l = [p] /\ p_type p = ty /\ p_name p = nm /\ p_mass p = nZ m /\ p_charge p = nZ q /\
    p_pos p = sample_pos s i /\
    p_mom p = smul (nth i (s_energies s) n0) (vnorm (sample_dir s i)) /\
    p_weight p = n1 /\ p_time p = n0 /\ p_alive p = true /\ p_tracking p = s_track s.

Lemma generate_list_spec s g ty nm m q (Hneg : neqb (nlit (-1) 0) (nlit (-1) 0) = true :> bool)
    (Hpos : neqb (n1 : T) (nlit (-1) 0) = false) :
  species (s_type s) ty nm m q -> wf_source s -> (0 <= s_count s < s_nPart s)%Z ->
  exists l g', generate_list E s g = Ok (l, with_count s (s_count s + 1), g') /\
    event_of_sample s (Z.to_nat (s_count s)) ty nm m q l.
Proof.
  intros Hsp (Hn & L1 & L2 & L3 & L4 & L5 & L6) Hc.
  unfold generate_list. destruct (Z.eqb_spec (s_count s) (s_nPart s)); [lia|].
  rewrite !(get_Z _ _ n0) by lia. cbn [bind].
  rewrite u32_id by lia.
  set (i := Z.to_nat (s_count s)).
  assert (Hi : Z.of_nat i = s_count s) by (unfold i; lia).
  fold (sample_pos s i). fold (sample_dir s i).
  unfold make_primary, is_name. 
  inversion Hsp; subst; cbn [String.eqb Ascii.eqb Bool.eqb orb bind].
  all: match goal with
    | |- context [new_photon_energy E ?en ?x ?d ?w ?t ?tr ?gg] =>
        unfold new_photon_energy;
        pose proof (new_particle_fields E PPhoton "Photon" n0 n0 x (smul en (vnorm d)) w t tr gg) as F;
        destruct (new_particle E PPhoton "Photon" n0 n0 x (smul en (vnorm d)) w t tr gg) as [p g'] eqn:EP
    | |- context [new_lepton_energy E ?mm ?qq ?en ?x ?d ?w ?t ?tr ?gg] =>
        unfold new_lepton_energy;
        pose proof (new_particle_fields E PLepton (lepton_name qq) mm qq x (smul en (vnorm d)) w t tr gg) as F;
        destruct (new_particle E PLepton (lepton_name qq) mm qq x (smul en (vnorm d)) w t tr gg) as [p g'] eqn:EP
    end; cbn [fst snd] in F.
  all: destruct F as (F1 & F2 & F3 & F4 & F5 & F6 & F7 & F8 & F9 & F10 & _).
  all: eexists; exists g'; split; [reflexivity|].
  all: split; [cbn; rewrite Hi; reflexivity|]; exists p; cbn -[sample_pos sample_dir].
  all: repeat (split; [auto; fail|]).
  all: try (rewrite F2; unfold lepton_name; rewrite ?Hneg, ?Hpos).
  all: repeat (split; [auto; fail|]); auto.
Qed.

Lemma with_count_same (s : source T) : with_count s (s_count s) = s.
Proof. destruct s; reflexivity. Qed.

Lemma generate_many_spec k : forall s g ty nm m q (Hneg : neqb (nlit (-1) 0) (nlit (-1) 0) = true :> bool)
    (Hpos : neqb (n1 : T) (nlit (-1) 0) = false),
  species (s_type s) ty nm m q -> wf_source s -> (0 <= s_count s)%Z -> (s_count s + Z.of_nat k <= s_nPart s)%Z ->
  exists ls g', generate_many E k s g = Ok (ls, with_count s (s_count s + Z.of_nat k), g') /\
    length ls = k /\
    forall j l, nth_error ls j = Some l -> event_of_sample s (Z.to_nat (s_count s) + j) ty nm m q l.
Proof.
  induction k as [|k IH]; intros s g ty nm m q Hneg Hpos Hsp Hwf Hc Hk.
  - exists [], g. cbn. rewrite Z.add_0_r, with_count_same. split; [auto|]. split; [auto|].
    intros [|j] l C; discriminate.
  - cbn [generate_many].
    destruct (generate_list_spec s g ty nm m q Hneg Hpos Hsp Hwf) as (l & g1 & HG & Hev); [lia|].
    rewrite HG. cbn [bind].
    destruct (IH (with_count s (s_count s + 1)) g1 ty nm m q Hneg Hpos) as (ls & g2 & HM & Hl & Hj); auto.
    { cbn; lia. } { cbn; lia. }
    rewrite HM. cbn [bind]. exists (l :: ls), g2.
    split; [do 3 f_equal; unfold with_count; cbn; f_equal; lia|].
    split; [cbn; auto|].
    intros [|j] l' Hn; cbn in Hn.
    + injection Hn as <-. rewrite Nat.add_0_r. exact Hev.
    + specialize (Hj j l' Hn). cbn in Hj.
      replace (Z.to_nat (s_count s) + S j)%nat with (Z.to_nat (s_count s + 1) + j)%nat by lia. exact Hj.
Qed.

Lemma generate_depleted (s : source T) g : s_count s = s_nPart s -> generate_list E s g = Exit 1.
Proof. intros Hc. unfold generate_list. rewrite Hc, Z.eqb_refl. reflexivity. Qed.

Lemma generate_unknown (s : source T) g : wf_source s -> (0 <= s_count s < s_nPart s)%Z ->
  (forall ty nm m q, ~ species (s_type s) ty nm m q) -> generate_list E s g = Exit (-1).
Proof.
  intros (Hn & L1 & L2 & L3 & L4 & L5 & L6) Hc Hno.
  unfold generate_list. destruct (Z.eqb_spec (s_count s) (s_nPart s)); [lia|].
  rewrite !(get_Z _ _ n0) by lia. cbn [bind].
  unfold make_primary, is_name.
  destruct (String.eqb_spec (s_type s) "Photon") as [e|]; [exfalso; rewrite e in Hno; eapply Hno; constructor|].
  destruct (String.eqb_spec (s_type s) "photon") as [e|]; [exfalso; rewrite e in Hno; eapply Hno; constructor|].
  destruct (String.eqb_spec (s_type s) "Electron") as [e|]; [exfalso; rewrite e in Hno; eapply Hno; constructor|].
  destruct (String.eqb_spec (s_type s) "electron") as [e|]; [exfalso; rewrite e in Hno; eapply Hno; constructor|].
  destruct (String.eqb_spec (s_type s) "Positron") as [e|]; [exfalso; rewrite e in Hno; eapply Hno; constructor|].
  destruct (String.eqb_spec (s_type s) "positron") as [e|]; [exfalso; rewrite e in Hno; eapply Hno; constructor|].
  reflexivity.
Qed.
End S.

(** ** C23: the direction (exact reals) *)
Local Open Scope R_scope.

Lemma neqb_neg_R : neqb (nlit (-1) 0 : R) (nlit (-1) 0) = true.
Proof. cbn. apply Reqb_true. reflexivity. Qed.
Lemma neqb_pos_R : neqb (n1 : R) (nlit (-1) 0) = false.
Proof. rnum. apply Reqb_false. lra. Qed.

Lemma theta_zero (E : Engine R) n g t : In t (fst (sample_norm E n0 0 n g)) -> t = 0.
Proof.
  unfold sample_norm. destruct (e_normals E n g) as [l g']. cbn. rewrite in_map_iff.
  intros (z & <- & _). rnum. ring.
Qed.

Lemma new_source_thetas (E : Engine R) ty di n e1 e2 dp dt x d tr g t :
  In t (s_thetas (fst (new_source E ty di n e1 e2 dp dt 0 x d tr g))) -> t = 0.
Proof.
  unfold new_source.
  destruct (sample_norm E n0 dp (Z.to_nat n) g) as [xs g1].
  destruct (sample_norm E n0 dp (Z.to_nat n) g1) as [ys g2].
  destruct (sample_norm E n0 dt (Z.to_nat n) g2) as [zs g3].
  pose proof (theta_zero E (Z.to_nat n) g3 t) as HT.
  destruct (sample_norm E n0 0 (Z.to_nat n) g3) as [ths g4].
  destruct (sample_uniform E n0 (nmul n2 c_pi) (Z.to_nat n) g4) as [phs g5].
  destruct (if (_ || _)%bool then _ else _) as [ens g6]. cbn in *. auto.
Qed.

Lemma runit_runit d : d <> rzero -> runit (runit d) = runit d.
Proof. intros. apply runit_of_unit. apply rlen2_unit; auto. Qed.
Lemma runit_nz d : d <> rzero -> runit d <> rzero.
Proof. intros Hd C. pose proof (rlen2_unit d Hd). rewrite C in H. unfold rlen2, rdot, rzero, v3 in H. cbn in H. lra. Qed.
Lemma ez_nz : ez <> rzero.
Proof. apply v3_neq. right; right. lra. Qed.

(** (-dx,-dy,dz) for the unit vector of [d] *)
Definition mirrored (d : V3) : V3 := v3 (- vx (runit d)) (- vy (runit d)) (vz (runit d)).

Lemma source_direction (E : Engine R) ty di n e1 e2 dp dt x d tr g i :
  delivers E -> (0 <= n < 2 ^ 32)%Z -> (i < Z.to_nat n)%nat ->
  d <> rzero -> / 10000000000 < rlen2 (rplus (runit d) ez) ->
  let s := fst (new_source E ty di n e1 e2 dp dt 0 x d tr g) in
  sample_dir s i = mirrored d.
Proof.
  intros HD Hn Hi Hd Hna s.
  destruct (new_source_wf E ty di n e1 e2 dp dt 0 x d tr g HD Hn) as ((_ & _ & _ & _ & L4 & _) & _ & HN & _ & _ & _ & HR).
  fold s in L4, HR, HN. unfold sample_dir.
  assert (HT : nth i (s_thetas s) n0 = 0).
  { apply (new_source_thetas E ty di n e1 e2 dp dt x d tr g). fold s. apply nth_In. rewrite L4, HN. auto. }
  rewrite HT, HR, mvec_R, vnorm_R. rnum.
  set (ph := nth i (s_phis s) 0).
  replace (mkV (sin 0 * cos ph) (sin 0 * sin ph) (cos 0)) with (runit ez).
  2:{ rewrite runit_ez, sin_0, cos_0. unfold ez, v3. f_equal; ring. }
  change (mkV 0 0 1) with ez.
  rewrite rotate_maps_axis; [| apply runit_nz; auto | exact ez_nz | ].
  2:{ unfold near_anti. rewrite runit_runit, runit_ez by auto. lra. }
  rewrite runit_runit, runit_ez by auto. unfold mirrored.
  pose proof (rlen2_unit d Hd). destruct (runit d) as [a b c]. runf. apply vec_eq; cbn; ring.
Qed.

Lemma mirrored_is_requested d : d <> rzero ->
  (mirrored d = runit d <-> vx d = 0 /\ vy d = 0).
Proof.
  intros Hd. pose proof (rlen_pos d Hd). unfold mirrored, runit, rscale, v3. cbn [vx vy vz].
  assert (0 < / rlen d) by (apply Rinv_0_lt_compat; auto).
  split.
  - intros HE. injection HE as H1 H2.
    assert (/ rlen d * vx d = 0) by lra. assert (/ rlen d * vy d = 0) by lra.
    split; [apply Rmult_integral in H3; lra | apply Rmult_integral in H4; lra].
  - intros [-> ->]. try unfold v3; f_equal; ring.
Qed.

Lemma mirrored_transverse d : vz d = 0 -> mirrored d = rscale (-1) (runit d).
Proof.
  intros Hz. unfold mirrored, runit, rscale, v3. cbn [vx vy vz]. rewrite Hz. try unfold v3; f_equal; ring.
Qed.
