(** * Properties C14, C16-C19, C21: particles and event lists *)
From Coq Require Import String ZArith Reals Lra Lia List Bool Permutation.
From Verif Require Import Num RNum Outcome Vec SpecVec VecFacts VecExtra MCTools Particle ParticleList ParticleFacts.
Import ListNotations.
Local Open Scope R_scope.

(** C14: every constructor and every re-initialisation. *)
Theorem C14_depth_nonneg : forall (E : Engine R) (g : est E),
  0 <= fst (e_canon E g) < 1 ->
  (forall ty nm m q x mom w t tr, 0 <= p_depth (fst (new_particle E ty nm m q x mom w t tr g))) /\
  (forall p, 0 <= p_depth (fst (init_depth E p g))).
Proof.
  intros E g Hu. split; intros.
  - destruct (new_particle_fields E ty nm m q x mom w t tr g) as (_ & _ & _ & _ & _ & _ & _ & _ & _ & _ & _ & _ & _ & _ & Hd & _).
    rewrite Hd, draw_depth_R. apply depth_nonneg; auto.
  - unfold init_depth. rewrite draw_depth_R. cbn. apply depth_nonneg; auto.
Qed.
Print Assumptions C14_depth_nonneg.

(** inverse-transform law: depth > t exactly for draws above 1 - exp(-t); so depths grow with the draw *)
Theorem C14_depth_exponential_law : forall (E : Engine R) (g : est E) (p : particle R) (t : R),
  0 <= fst (e_canon E g) < 1 ->
  (t < p_depth (fst (init_depth E p g)) <-> 1 - exp (- t) < fst (e_canon E g)).
Proof.
  intros. unfold init_depth. rewrite draw_depth_R. cbn. apply depth_exponential; auto.
Qed.
Print Assumptions C14_depth_exponential_law.

Theorem C14_depth_increasing : forall (E : Engine R) (g g' : est E) (p : particle R),
  0 <= fst (e_canon E g) < fst (e_canon E g') -> fst (e_canon E g') < 1 ->
  p_depth (fst (init_depth E p g)) < p_depth (fst (init_depth E p g')).
Proof.
  intros. unfold init_depth. rewrite !draw_depth_R. cbn.
  assert (ln (1 - fst (e_canon E g')) < ln (1 - fst (e_canon E g))) by (apply ln_increasing; lra). lra.
Qed.
Print Assumptions C14_depth_increasing.

(** C16 *)
Theorem C16_lepton_kinematics : forall (p : particle R) (m : R),
  0 < m -> p_type p = PLepton /\ p_mass p = m ->
  1 <= get_gamma p /\
  get_energy p * get_energy p = m * m + rlen2 (p_mom p) /\ 0 < get_energy p /\
  0 <= get_beta p < 1 /\ get_beta p * get_energy p = rlen (p_mom p).
Proof. exact lepton_kinematics. Qed.
Print Assumptions C16_lepton_kinematics.

(** C17 *)
Theorem C17_photon_getters : forall p : particle R, p_type p = PPhoton ->
  get_energy p = rlen (p_mom p) /\ get_gamma p = rlen (p_mom p) /\ get_beta p = 1.
Proof. exact photon_getters. Qed.
Print Assumptions C17_photon_getters.

Theorem C17_photon_from_energy : forall (E : Engine R) (en : R) (x d : V3) (w t : R) (tr : bool) (g : est E),
  0 < en -> d <> rzero ->
  let p := fst (new_photon_energy E en x d w t tr g) in
  get_energy p = en /\ get_gamma p = en /\ get_beta p = 1 /\ p_mass p = 0 /\ p_charge p = 0 /\
  p_type p = PPhoton /\ p_name p = "Photon"%string /\ get_direction p = runit d /\ p_mom p = rscale en (runit d).
Proof. exact photon_from_energy. Qed.
Print Assumptions C17_photon_from_energy.

(** C18 *)
Theorem C18_lepton_from_energy : forall (E : Engine R) (m q en : R) (x d : V3) (w t : R) (tr : bool) (g : est E),
  0 < m -> d <> rzero ->
  let p := fst (new_lepton_energy E m q en x d w t tr g) in
  p_mom p = rscale en (runit d) /\ rlen (p_mom p) = Rabs en /\
  get_energy p = sqrt (m * m + en * en) /\ get_energy p <> en.
Proof. exact lepton_from_energy. Qed.
Print Assumptions C18_lepton_from_energy.

Example C18_case : forall (E : Engine R) (g : est E),
  let p := fst (new_lepton_energy E 3 (-1) 4 rzero ez 1 0 false g) in
  p_mom p = v3 0 0 4 /\ get_energy p = 5 /\ p_name p = "Electron"%string.
Proof.
  intros E g p.
  destruct (lepton_from_energy E 3 (-1) 4 rzero ez 1 0 false g) as (H1 & _ & H3 & _);
    [lra | apply v3_neq; right; right; lra |]. fold p in H1, H3.
  split; [rewrite H1; unfold runit, rlen; replace (rlen2 ez) with 1 by (runf; ring); rewrite sqrt_1; runf; apply vec_eq; cbn; field|].
  split; [rewrite H3; replace (3 * 3 + 4 * 4) with (5 * 5) by ring; apply sqrt_square; lra|].
  unfold p, new_lepton_energy.
  destruct (new_particle_fields E PLepton (lepton_name (-1)) 3 (-1) rzero (smul 4 (vnorm ez)) 1 0 false g) as (_ & Hn & _).
  rewrite Hn, lepton_name_spec. destruct (Req_EM_T (-1) (-1)); [reflexivity|lra].
Qed.

(** C19: any arithmetic. *)
Theorem C19_track_consistent : forall (T : Type) (N : Num T) (E : Engine T) (os : list (pop T))
    (p : particle T) (g : est E),
  fresh_hist p ->
  let p' := fst (prun E os (p, g)) in
  let n := length (updates os) in
  let k := if p_tracking p then n else 0%nat in
  length (p_posHist p') = k /\ length (p_momHist p') = k /\
  length (p_timeHist p') = k /\ length (p_gammaHist p') = k /\
  (p_tracking p = true -> (0 < n)%nat ->
     last (p_posHist p') vzero = p_pos p' /\ last (p_momHist p') vzero = p_mom p') /\
  p_gammaHist p' = map (gamma_of (p_type p) (p_mass p)) (p_momHist p').
Proof. intros T N. exact (@track_consistent T N). Qed.
Print Assumptions C19_track_consistent.

(** the histories are the updates themselves, in order *)
Theorem C19_history_is_the_updates : forall (T : Type) (N : Num T) (E : Engine T) (os : list (pop T))
    (p : particle T) (g : est E),
  fresh_hist p -> p_tracking p = true ->
  let p' := fst (prun E os (p, g)) in
  p_posHist p' = map fst (updates os) /\ p_momHist p' = map snd (updates os).
Proof.
  intros T N E os p g (F1 & F2 & _) Ht p'.
  destruct (track_history E os (p, g)) as (_ & _ & _ & _ & I5 & _). cbn [fst] in I5.
  destruct (I5 Ht) as (A & B & _). unfold p'. rewrite A, B, F1, F2. auto.
Qed.
Print Assumptions C19_history_is_the_updates.

Example C19_case : forall (E : Engine R) (g : est E),
  let p := fst (new_photon_energy E 2 rzero ez 1 0 true g) in
  fresh_hist p /\ p_tracking p = true /\
  updates [OTrack rzero ez; OTime 1; OKill; OTrack ez ez] = [(rzero, ez); (ez, ez)].
Proof.
  intros. unfold p, new_photon_energy, fresh_hist.
  destruct (new_particle_fields E PPhoton "Photon" n0 n0 rzero (smul 2 (vnorm ez)) 1 0 true g)
    as (_ & _ & _ & _ & _ & _ & _ & _ & Ht & _ & H1 & H2 & H3 & H4 & _). auto.
Qed.

(** C21 *)
Theorem C21_list_is_bounded_sequence : forall (A : Type) (name : string) (m : Z) (xs : list A),
  (0 <= m)%Z ->
  let l := fold_left pl_add xs (pl_new name m) in
  pl_items l = firstn (Z.to_nat m) xs /\
  pl_lost l = skipn (Z.to_nat m) xs /\
  pl_n l = Z.min (Z.of_nat (length xs)) m /\
  (forall i, (0 <= i < pl_n l)%Z -> exists a, nth_error xs (Z.to_nat i) = Some a /\ pl_get l i = Ok a) /\
  (forall i, (pl_n l <= i < m)%Z -> pl_get l i = UB NullDeref) /\
  (forall i, (i < 0 \/ m <= i)%Z -> pl_get l i = UB OutOfBounds).
Proof. intros A. exact (@list_spec A). Qed.
Print Assumptions C21_list_is_bounded_sequence.

(** destruction: distinct live objects ps added; the held ones are freed exactly once (the rest of the
    heap is untouched), the rejected ones stay allocated *)
Theorem C21_list_destruction : forall (name : string) (m : Z) (ps : list nat) (h : heap),
  (0 <= m)%Z -> NoDup ps -> incl ps h ->
  exists h', pl_delete (fold_left pl_add ps (pl_new name m)) h = Ok h' /\
    Permutation h (firstn (Z.to_nat m) ps ++ h') /\
    incl (skipn (Z.to_nat m) ps) h'.
Proof. exact list_destroy. Qed.
Print Assumptions C21_list_destruction.

(** adding the same object twice makes the destruction a double free *)
Theorem C21_duplicate_is_double_free : forall (name : string) (m : Z) (ps : list nat) (h : heap),
  (Z.of_nat (length ps) <= m)%Z -> ~ NoDup ps -> NoDup h ->
  pl_delete (fold_left pl_add ps (pl_new name m)) h = UB DoubleFree.
Proof.
  intros name m ps h Hm Hd Hh. unfold pl_delete.
  destruct (list_spec name m ps ltac:(lia)) as (H1 & _). rewrite H1.
  rewrite firstn_all2 by lia. apply free_all_dup; auto.
Qed.
Print Assumptions C21_duplicate_is_double_free.

Example C21_case :
  pl_delete (fold_left pl_add [10; 11; 12]%nat (pl_new "0" 2)) [12; 11; 10; 5]%nat = Ok [12; 5]%nat.
Proof. reflexivity. Qed.
