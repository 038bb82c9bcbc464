(** * Particles and lists: proofs *)
From Coq Require Import String ZArith Reals Lra Lia List Bool Permutation.
From Verif Require Import Num RNum Outcome OutcomeFacts Vec SpecVec VecFacts MCTools Particle ParticleList.
Import ListNotations.
Local Open Scope R_scope.

(** ** C14: optical depths *)
Lemma depth_R u : depth_of_draw u = - ln (1 - u).
Proof. unfold depth_of_draw. rnum. ring. Qed.

Lemma rand01 (E : Engine R) g : rand_double E n0 n1 g = e_canon E g.
Proof.
  unfold rand_double. destruct (e_canon E g) as [u g']. rnum. f_equal. ring.
Qed.

Lemma draw_depth_R (E : Engine R) g :
  draw_depth E g = (- ln (1 - fst (e_canon E g)), snd (e_canon E g)).
Proof. unfold draw_depth. rewrite rand01. destruct (e_canon E g). rewrite depth_R. reflexivity. Qed.

Lemma depth_nonneg u : 0 <= u < 1 -> 0 <= - ln (1 - u).
Proof.
  intros. assert (ln (1 - u) <= 0); [|lra]. rewrite <- ln_1.
  destruct (Req_dec u 0); [subst; right; f_equal; ring|]. left. apply ln_increasing; lra.
Qed.

Lemma depth_exponential u t : 0 <= u < 1 -> (t < - ln (1 - u) <-> 1 - exp (- t) < u).
Proof.
  intros. split; intros Ht.
  - assert (ln (1 - u) < - t) by lra. apply exp_increasing in H0. rewrite exp_ln in H0 by lra. lra.
  - assert (1 - u < exp (- t)) by lra. apply ln_increasing in H0; [|lra]. rewrite ln_exp in H0. lra.
Qed.

(** ** Lepton kinematics *)
Definition is_lepton (p : particle R) (m : R) : Prop := p_type p = PLepton /\ p_mass p = m.

Lemma gamma_lepton p m : is_lepton p m -> get_gamma p = sqrt (1 + rlen2 (p_mom p) / (m * m)).
Proof. intros [H1 H2]. unfold get_gamma, lepton_gamma. rewrite H1, H2, mag2_R. rnum. reflexivity. Qed.

Lemma gamma_arg m v : 0 < m -> 1 <= 1 + rlen2 v / (m * m).
Proof.
  intros. pose proof (rlen2_nonneg v). assert (0 <= rlen2 v / (m * m)); [|lra].
  apply Rdiv_le_0_compat || (unfold Rdiv; apply Rmult_le_pos; [auto|]; left; apply Rinv_0_lt_compat; nra).
Qed.

Lemma gamma_ge1 p m : 0 < m -> is_lepton p m -> 1 <= get_gamma p.
Proof.
  intros. rewrite (gamma_lepton p m) by auto. rewrite <- sqrt_1 at 1.
  apply sqrt_le_1_alt. apply gamma_arg; auto.
Qed.

Lemma gamma_sq p m : 0 < m -> is_lepton p m ->
  get_gamma p * get_gamma p = 1 + rlen2 (p_mom p) / (m * m).
Proof.
  intros. rewrite (gamma_lepton p m) by auto. apply sqrt_sqrt.
  pose proof (gamma_arg m (p_mom p) H). lra.
Qed.

Lemma lepton_kinematics (p : particle R) (m : R) : 0 < m -> is_lepton p m ->
  1 <= get_gamma p /\
  get_energy p * get_energy p = m * m + rlen2 (p_mom p) /\ 0 < get_energy p /\
  0 <= get_beta p < 1 /\ get_beta p * get_energy p = rlen (p_mom p).
Proof.
  intros Hm Hl. pose proof (gamma_ge1 p m Hm Hl) as G1. pose proof (gamma_sq p m Hm Hl) as G2.
  destruct Hl as [Ht Hma].
  assert (HE : get_energy p = m * get_gamma p) by (unfold get_energy; rewrite Ht, Hma; reflexivity).
  assert (HB : get_beta p = sqrt (1 - 1 / (get_gamma p * get_gamma p)))
    by (unfold get_beta; rewrite Ht; rnum; reflexivity).
  set (g := get_gamma p) in *. clearbody g.
  assert (Harg : 1 - 1 / (g * g) = rlen2 (p_mom p) / (m * m) / (g * g)) by
    (replace (rlen2 (p_mom p) / (m * m)) with (g * g - 1) by lra; field; lra).
  pose proof (rlen2_nonneg (p_mom p)) as Hp.
  assert (A0 : 0 <= rlen2 (p_mom p) / (m * m)) by
    (unfold Rdiv; apply Rmult_le_pos; [auto|]; left; apply Rinv_0_lt_compat; nra).
  assert (A1 : 0 <= 1 - 1 / (g * g)).
  { rewrite Harg. unfold Rdiv at 1. apply Rmult_le_pos; [auto|]. left; apply Rinv_0_lt_compat; nra. }
  assert (A2 : 1 - 1 / (g * g) < 1).
  { assert (0 < 1 / (g * g)); [|lra]. apply Rdiv_lt_0_compat; nra. }
  split; [exact G1|]. split; [rewrite HE; replace (m * g * (m * g)) with (m * m * (g * g)) by ring;
    rewrite G2; field; lra|].
  split; [rewrite HE; nra|].
  split; [rewrite HB; split; [apply sqrt_pos|]; apply Rlt_le_trans with (sqrt 1); [apply sqrt_lt_1_alt; lra | rewrite sqrt_1; lra]|].
  rewrite HB, HE. symmetry. apply rlen_of_len2; [apply Rmult_le_pos; [apply sqrt_pos|nra]|].
  replace (sqrt (1 - 1 / (g * g)) * (m * g) * (sqrt (1 - 1 / (g * g)) * (m * g)))
    with (sqrt (1 - 1 / (g * g)) * sqrt (1 - 1 / (g * g)) * (m * m) * (g * g)) by ring.
  rewrite sqrt_sqrt by auto. rewrite Harg. field. split; nra.
Qed.

(** ** Constructors *)
Lemma new_particle_fields {T} `{Num T} (E : Engine T) ty nm m q x pm w t tr g :
  let p := fst (new_particle E ty nm m q x pm w t tr g) in
  p_type p = ty /\ p_name p = nm /\ p_mass p = m /\ p_charge p = q /\ p_pos p = x /\ p_mom p = pm /\
  p_weight p = w /\ p_time p = t /\ p_tracking p = tr /\ p_alive p = true /\
  p_posHist p = [] /\ p_momHist p = [] /\ p_timeHist p = [] /\ p_gammaHist p = [] /\
  p_depth p = fst (draw_depth E g) /\
  snd (new_particle E ty nm m q x pm w t tr g) = snd (draw_depth E g).
Proof. unfold new_particle. destruct (draw_depth E g). cbn. repeat split. Qed.

Lemma photon_from_energy (E : Engine R) (en : R) (x d : V3) w t tr g :
  0 < en -> d <> rzero ->
  let p := fst (new_photon_energy E en x d w t tr g) in
  get_energy p = en /\ get_gamma p = en /\ get_beta p = 1 /\ p_mass p = 0 /\ p_charge p = 0 /\
  p_type p = PPhoton /\ p_name p = "Photon"%string /\ get_direction p = runit d /\ p_mom p = rscale en (runit d).
Proof.
  intros He Hd p. unfold new_photon_energy in p.
  pose proof (new_particle_fields E PPhoton "Photon" n0 n0 x (smul en (vnorm d)) w t tr g) as F.
  cbv zeta in F. fold p in F. destruct F as (F1 & F2 & F3 & F4 & F5 & F6 & _).
  rewrite vnorm_R, smul_R in F6.
  assert (L : rlen (p_mom p) = en).
  { rewrite F6, rlen_scale, (rlen_unit d Hd), Rabs_pos_eq; lra. }
  unfold get_energy, get_gamma, get_beta, get_direction. rewrite F1, F3, F4, mag_R, L. rnum.
  repeat split; auto. rewrite vnorm_R, F6. unfold runit at 1. rewrite <- F6 at 1. rewrite L, rscale_scale.
  rewrite Rinv_l by lra. apply rscale_1.
Qed.

Lemma photon_getters (p : particle R) : p_type p = PPhoton ->
  get_energy p = rlen (p_mom p) /\ get_gamma p = rlen (p_mom p) /\ get_beta p = 1.
Proof. intros Ht. unfold get_energy, get_gamma, get_beta. rewrite Ht. rnum. repeat split. Qed.

Lemma lepton_name_spec (q : R) :
  lepton_name q = (if Req_EM_T q (-1) then "Electron" else "Positron")%string.
Proof.
  unfold lepton_name. rnum. rlit. unfold Reqb. destruct (Req_EM_T q (-1)); reflexivity.
Qed.

Lemma lepton_from_energy (E : Engine R) (m q en : R) (x d : V3) w t tr g :
  0 < m -> d <> rzero ->
  let p := fst (new_lepton_energy E m q en x d w t tr g) in
  p_mom p = rscale en (runit d) /\ rlen (p_mom p) = Rabs en /\
  get_energy p = sqrt (m * m + en * en) /\ get_energy p <> en.
Proof.
  intros Hm Hd p. unfold new_lepton_energy in p.
  pose proof (new_particle_fields E PLepton (lepton_name q) m q x (smul en (vnorm d)) w t tr g) as F.
  cbv zeta in F. fold p in F. destruct F as (F1 & F2 & F3 & F4 & F5 & F6 & _).
  rewrite vnorm_R, smul_R in F6.
  assert (L : rlen (p_mom p) = Rabs en) by (rewrite F6, rlen_scale, (rlen_unit d Hd); ring).
  assert (L2 : rlen2 (p_mom p) = en * en).
  { rewrite F6, rlen2_scale, (rlen2_unit d Hd). ring. }
  destruct (lepton_kinematics p m Hm (conj F1 F3)) as (_ & K & K0 & _).
  rewrite L2 in K.
  assert (EN : get_energy p = sqrt (m * m + en * en)).
  { rewrite <- K. symmetry. apply sqrt_square. lra. }
  repeat split; auto.
  intros C. rewrite C in K. nra.
Qed.

(** ** C19: operations on a particle and the track history *)
Inductive pop {T : Type} :=
| OTrack (pos mom : vec T)
| OTime (dt : T)
| ODepth (d : T)
| OKill
| OInit.
Arguments pop : clear implicits.

Section Hist.
Context {T : Type} `{Num T}.
Variable E : Engine T.

Definition pstep (o : pop T) (s : particle T * est E) : particle T * est E :=
  match o with
  | OTrack x p => (update_track (fst s) x p, snd s)
  | OTime dt => (update_time (fst s) dt, snd s)
  | ODepth d => (update_depth (fst s) d, snd s)
  | OKill => (kill (fst s), snd s)
  | OInit => init_depth E (fst s) (snd s)
  end.
Definition prun (os : list (pop T)) (s : particle T * est E) : particle T * est E :=
  fold_left (fun s o => pstep o s) os s.

(** number of track updates, positions and momenta given to them *)
Fixpoint updates (os : list (pop T)) : list (vec T * vec T) :=
  match os with
  | [] => []
  | OTrack x p :: t => (x, p) :: updates t
  | _ :: t => updates t
  end.

(** gamma of a particle of this class and mass with the given momentum *)
Definition gamma_of (ty : ptype) (m : T) (p : vec T) : T :=
  match ty with PLepton => lepton_gamma m p | PPhoton => mag p end.

Lemma pstep_static o s : let p := fst s in let p' := fst (pstep o s) in
  p_type p' = p_type p /\ p_name p' = p_name p /\ p_mass p' = p_mass p /\ p_charge p' = p_charge p /\
  p_weight p' = p_weight p /\ p_tracking p' = p_tracking p.
Proof.
  destruct s as [p g]. cbn zeta. destruct o; cbn [pstep fst snd]; unfold update_track.
  1: destruct (p_tracking p) eqn:Et; cbn; repeat split; auto.
  all: try (cbn; repeat split; auto; fail).
  unfold init_depth. destruct (draw_depth E g). cbn. repeat split; auto.
Qed.

Lemma pstep_hist o s : let p := fst s in let p' := fst (pstep o s) in
  match o with
  | OTrack x m =>
      p_pos p' = x /\ p_mom p' = m /\
      (p_tracking p = true ->
        p_posHist p' = p_posHist p ++ [x] /\ p_momHist p' = p_momHist p ++ [m] /\
        p_timeHist p' = p_timeHist p ++ [p_time p] /\
        p_gammaHist p' = p_gammaHist p ++ [gamma_of (p_type p) (p_mass p) m]) /\
      (p_tracking p = false ->
        p_posHist p' = p_posHist p /\ p_momHist p' = p_momHist p /\
        p_timeHist p' = p_timeHist p /\ p_gammaHist p' = p_gammaHist p)
  | _ => p_pos p' = p_pos p /\ p_mom p' = p_mom p /\
         p_posHist p' = p_posHist p /\ p_momHist p' = p_momHist p /\
         p_timeHist p' = p_timeHist p /\ p_gammaHist p' = p_gammaHist p
  end.
Proof.
  destruct s as [p g]. cbn zeta. destruct o; cbn [pstep fst snd]; unfold update_track.
  1:{ destruct (p_tracking p) eqn:Et; cbn; repeat split; auto; try discriminate. }
  all: try (cbn; repeat split; auto; fail).
  unfold init_depth. destruct (draw_depth E g). cbn. repeat split; auto.
Qed.

Lemma track_history os : forall s,
  let p := fst s in let p' := fst (prun os s) in
  p_type p' = p_type p /\ p_mass p' = p_mass p /\ p_tracking p' = p_tracking p /\
  (p_tracking p = false ->
     p_posHist p' = p_posHist p /\ p_momHist p' = p_momHist p /\
     p_timeHist p' = p_timeHist p /\ p_gammaHist p' = p_gammaHist p) /\
  (p_tracking p = true ->
     p_posHist p' = p_posHist p ++ map fst (updates os) /\
     p_momHist p' = p_momHist p ++ map snd (updates os) /\
     (exists ts, p_timeHist p' = p_timeHist p ++ ts /\ length ts = length (updates os)) /\
     p_gammaHist p' = p_gammaHist p ++ map (fun u => gamma_of (p_type p) (p_mass p) (snd u)) (updates os)) /\
  p_pos p' = last (map fst (updates os)) (p_pos p) /\
  p_mom p' = last (map snd (updates os)) (p_mom p).
Proof.
  induction os as [|o os IH]; intros s; cbn zeta.
  - cbn. repeat split; auto; rewrite ?app_nil_r; auto. exists []. rewrite app_nil_r. auto.
  - specialize (IH (pstep o s)). cbn zeta in IH.
    change (prun (o :: os) s) with (prun os (pstep o s)).
    pose proof (pstep_static o s) as (S1 & S2 & S3 & S4 & S5 & S6).
    pose proof (pstep_hist o s) as Hh. cbn zeta in Hh.
    rewrite S1, S3, S6 in IH.
    destruct IH as (I1 & I2 & I3 & I4 & I5 & I6 & I7).
    split; [exact I1|]. split; [exact I2|]. split; [exact I3|].
    destruct o as [x m| | | | ]; cbn [updates map fst snd length].
    + destruct Hh as (P1 & P2 & P3 & P4).
      split; [intros Ht; destruct (I4 Ht) as (A & B & C & D); destruct (P4 Ht) as (A' & B' & C' & D');
              repeat split; congruence|].
      split.
      * intros Ht. destruct (I5 Ht) as (A & B & (ts & C & C1) & D).
        destruct (P3 Ht) as (A' & B' & C' & D').
        rewrite A, B, C, D, A', B', C', D', <- !app_assoc. cbn [app].
        repeat split. exists (p_time (fst s) :: ts). cbn. auto.
      * rewrite I6, I7, P1, P2. split.
        -- destruct (map fst (updates os)); auto. cbn. clear. revert v. induction l; intros; auto. apply IHl.
        -- destruct (map snd (updates os)); auto. cbn. clear. revert v. induction l; intros; auto. apply IHl.
    + destruct Hh as (P1 & P2 & P3 & P4 & P5 & P6). rewrite ?P1, ?P2, ?P3, ?P4, ?P5, ?P6 in *. tauto.
    + destruct Hh as (P1 & P2 & P3 & P4 & P5 & P6). rewrite ?P1, ?P2, ?P3, ?P4, ?P5, ?P6 in *. tauto.
    + destruct Hh as (P1 & P2 & P3 & P4 & P5 & P6). rewrite ?P1, ?P2, ?P3, ?P4, ?P5, ?P6 in *. tauto.
    + destruct Hh as (P1 & P2 & P3 & P4 & P5 & P6). rewrite ?P1, ?P2, ?P3, ?P4, ?P5, ?P6 in *. tauto.
Qed.

(** The form used in the property: a particle fresh from its constructor. *)
Definition fresh_hist (p : particle T) : Prop :=
  p_posHist p = [] /\ p_momHist p = [] /\ p_timeHist p = [] /\ p_gammaHist p = [].

Lemma track_consistent os (p : particle T) (g : est E) :
  fresh_hist p ->
  let p' := fst (prun os (p, g)) in
  let n := length (updates os) in
  let k := if p_tracking p then n else 0%nat in
  length (p_posHist p') = k /\ length (p_momHist p') = k /\
  length (p_timeHist p') = k /\ length (p_gammaHist p') = k /\
  (p_tracking p = true -> (0 < n)%nat ->
     last (p_posHist p') vzero = p_pos p' /\ last (p_momHist p') vzero = p_mom p') /\
  p_gammaHist p' = map (gamma_of (p_type p) (p_mass p)) (p_momHist p').
Proof.
  intros (F1 & F2 & F3 & F4) p' n k.
  pose proof (track_history os (p, g)) as Hh. cbn zeta in Hh. cbn [fst] in Hh. fold p' in Hh.
  destruct Hh as (_ & _ & _ & I4 & I5 & I6 & I7).
  unfold k. destruct (p_tracking p) eqn:Et.
  - destruct (I5 eq_refl) as (A & B & (ts & C & C1) & D). rewrite F1, F2, F3, F4 in *. cbn [app] in *.
    rewrite A, B, C, D, !map_length. split; [auto|]. split; [auto|]. split; [auto|]. split; [auto|].
    split; [intros _ Hn; split|].
    + rewrite I6. unfold n in Hn.
      destruct (updates os); cbn [length map] in *; [lia|]. clear.
      generalize (fst p0). intros v; clear. generalize (p_pos p) as d2; generalize (vzero : vec T) as d1.
      revert v. induction l; intros; auto. cbn [map]. 
      change (last (v :: fst a :: map fst l) d1) with (last (fst a :: map fst l) d1).
      change (last (v :: fst a :: map fst l) d2) with (last (fst a :: map fst l) d2). apply IHl.
    + rewrite I7. unfold n in *.
      destruct (updates os); cbn [length map] in *; [lia|].
      generalize (snd p0). intros v; clear. generalize (p_mom p) as d2; generalize (vzero : vec T) as d1.
      revert v. induction l; intros; auto. cbn [map]. 
      change (last (v :: snd a :: map snd l) d1) with (last (snd a :: map snd l) d1).
      change (last (v :: snd a :: map snd l) d2) with (last (snd a :: map snd l) d2). apply IHl.
    + rewrite map_map. reflexivity.
  - destruct (I4 eq_refl) as (A & B & C & D). rewrite A, B, C, D, F1, F2, F3, F4.
    cbn. repeat split; auto; try discriminate.
Qed.
End Hist.

(** ** C21: the list *)
Section PL.
Context {A : Type}.
Lemma pl_add_cases (l : plist A) x :
  (pl_n l < pl_max l /\ pl_add l x = mkPL (pl_name l) (pl_max l) (pl_items l ++ [x]) (pl_lost l))%Z \/
  (pl_max l <= pl_n l /\ pl_add l x = mkPL (pl_name l) (pl_max l) (pl_items l) (pl_lost l ++ [x]))%Z.
Proof.
  unfold pl_add. destruct (pl_n l <? pl_max l)%Z eqn:El; [left|right]; split; auto.
  apply Z.ltb_lt; auto. apply Z.ltb_ge; auto.
Qed.

Lemma add_many (xs : list A) : forall (l : plist A),
  let l' := fold_left pl_add xs l in
  let room := Z.to_nat (pl_max l - pl_n l) in
  pl_max l' = pl_max l /\ pl_name l' = pl_name l /\
  pl_items l' = pl_items l ++ firstn room xs /\ pl_lost l' = pl_lost l ++ skipn room xs.
Proof.
  induction xs as [|x xs IH]; intros l; cbn zeta.
  - cbn. rewrite firstn_nil, skipn_nil, !app_nil_r. auto.
  - cbn [fold_left]. specialize (IH (pl_add l x)). cbn zeta in IH.
    destruct (pl_add_cases l x) as [[Hc Ha]|[Hc Ha]]; rewrite Ha in IH |- *;
      unfold pl_n in IH; cbn [pl_max pl_name pl_items pl_lost] in IH; destruct IH as (I1 & I2 & I3 & I4);
      rewrite I1, I2, I3, I4; split; auto; split; auto.
    + rewrite app_length. cbn [length].
      replace (Z.to_nat (pl_max l - pl_n l)) with (S (Z.to_nat (pl_max l - Z.of_nat (length (pl_items l) + 1)))).
      2:{ unfold pl_n in *. lia. }
      cbn [firstn skipn]. rewrite <- app_assoc. auto.
    + replace (Z.to_nat (pl_max l - Z.of_nat (length (pl_items l)))) with 0%nat by (unfold pl_n in *; lia).
      replace (Z.to_nat (pl_max l - pl_n l)) with 0%nat by (unfold pl_n in *; lia).
      cbn [firstn skipn]. rewrite <- app_assoc. auto.
Qed.

Lemma list_spec (name : string) (m : Z) (xs : list A) :
  (0 <= m)%Z ->
  let l := fold_left pl_add xs (pl_new name m) in
  pl_items l = firstn (Z.to_nat m) xs /\
  pl_lost l = skipn (Z.to_nat m) xs /\
  pl_n l = Z.min (Z.of_nat (length xs)) m /\
  (forall i, (0 <= i < pl_n l)%Z -> exists a, nth_error xs (Z.to_nat i) = Some a /\ pl_get l i = Ok a) /\
  (forall i, (pl_n l <= i < m)%Z -> pl_get l i = UB NullDeref) /\
  (forall i, (i < 0 \/ m <= i)%Z -> pl_get l i = UB OutOfBounds).
Proof.
  intros Hm l. pose proof (add_many xs (pl_new name m)) as Hl. cbn zeta in Hl. fold l in Hl.
  unfold pl_n in Hl. cbn in Hl. rewrite Z.sub_0_r in Hl. destruct Hl as (H1 & H2 & H3 & H4).
  assert (Hn : pl_n l = Z.min (Z.of_nat (length xs)) m).
  { unfold pl_n. rewrite H3, firstn_length. lia. }
  split; [auto|]. split; [auto|]. split; [auto|].
  unfold pl_get. rewrite H1, H3. split; [|split].
  - intros i Hi. destruct (i <? 0)%Z eqn:E1; [apply Z.ltb_lt in E1; lia|].
    destruct (m <=? i)%Z eqn:E2; [apply Z.leb_le in E2; lia|]. cbn.
    assert (Hlt : (Z.to_nat i < Z.to_nat m)%nat) by lia.
    assert (Hx : nth_error (firstn (Z.to_nat m) xs) (Z.to_nat i) = nth_error xs (Z.to_nat i)).
    { clear -Hlt. revert Hlt. generalize (Z.to_nat i) as a, (Z.to_nat m) as b. intros a b.
      revert a xs; induction b; intros [|a] [|x xs] Hlt; try lia; auto. cbn. apply IHb. lia. }
    rewrite Hx. destruct (nth_error xs (Z.to_nat i)) eqn:E3; [eauto|].
    apply nth_error_None in E3. lia.
  - intros i Hi. destruct (i <? 0)%Z eqn:E1; [apply Z.ltb_lt in E1; unfold pl_n in Hi; lia|].
    destruct (m <=? i)%Z eqn:E2; [apply Z.leb_le in E2; lia|]. cbn.
    replace (nth_error (firstn (Z.to_nat m) xs) (Z.to_nat i)) with (@None A); auto.
    symmetry. apply nth_error_None. rewrite firstn_length. lia.
  - intros i Hi. destruct (i <? 0)%Z eqn:E1; [auto|].
    destruct (m <=? i)%Z eqn:E2; [auto|]. apply Z.ltb_ge in E1. apply Z.leb_gt in E2. lia.
Qed.
End PL.

Lemma remove1_in p h : In p h -> exists h', remove1 p h = Some h' /\ Permutation h (p :: h').
Proof.
  induction h as [|q h IH]; intros Hi; [destruct Hi|]. cbn.
  destruct (Nat.eqb_spec p q).
  - subst. exists h. auto.
  - destruct Hi as [->|Hi]; [congruence|]. destruct (IH Hi) as (h' & -> & Hp).
    exists (q :: h'). split; auto. rewrite perm_swap. constructor. auto.
Qed.
Lemma remove1_notin p h : ~ In p h -> remove1 p h = None.
Proof.
  induction h as [|q h IH]; intros Hi; auto. cbn.
  destruct (Nat.eqb_spec p q); [subst; exfalso; apply Hi; left; auto|].
  rewrite IH; auto. intros C. apply Hi; right; auto.
Qed.

Lemma free_all_perm ps : forall h, NoDup ps -> incl ps h ->
  exists h', free_all ps h = Ok h' /\ Permutation h (ps ++ h').
Proof.
  induction ps as [|p ps IH]; intros h Hn Hi.
  - exists h. auto.
  - inversion Hn; subst. destruct (remove1_in p h) as (h1 & R1 & P1); [apply Hi; left; auto|].
    destruct (IH h1) as (h2 & R2 & P2); auto.
    { intros q Hq. assert (In q h) by (apply Hi; right; auto).
      apply (Permutation_in _ P1) in H. destruct H; auto. subst; tauto. }
    exists h2. cbn. unfold free. rewrite R1. cbn. split; auto.
    rewrite P1. cbn. constructor. auto.
Qed.

Lemma free_all_dup ps : forall h, ~ NoDup ps -> NoDup h -> free_all ps h = UB DoubleFree.
Proof.
  induction ps as [|p ps IH]; intros h Hn Hh; [exfalso; apply Hn; constructor|].
  cbn. unfold free. destruct (in_dec Nat.eq_dec p h) as [Hi|Hi].
  2:{ rewrite remove1_notin by auto. reflexivity. }
  destruct (remove1_in p h Hi) as (h1 & R1 & P1). rewrite R1. cbn.
  assert (Hh1 : NoDup (p :: h1)) by (eapply Permutation_NoDup; eauto). inversion Hh1; subst.
  destruct (in_dec Nat.eq_dec p ps) as [Hp|Hp].
  - clear IH Hn R1 P1 Hh Hi. clear Hh1. revert h1 H1 H2. induction ps as [|q ps IHp]; intros h1 Hp1 Hd1; [destruct Hp|].
    cbn. unfold free. destruct (in_dec Nat.eq_dec q h1) as [Hq|Hq].
    2:{ rewrite remove1_notin by auto. reflexivity. }
    destruct Hp as [->|Hp]; [tauto|].
    destruct (remove1_in q h1 Hq) as (h2 & R2 & P2). rewrite R2. cbn.
    assert (Hq2 : NoDup (q :: h2)) by (eapply Permutation_NoDup; eauto). inversion Hq2; subst.
    apply IHp; auto. intros C. apply Hp1. apply (Permutation_in _ (Permutation_sym P2)). right; auto.
  - apply IH; auto. intros C. apply Hn. constructor; auto.
Qed.

Lemma list_destroy (name : string) (m : Z) (ps : list nat) (h : heap) :
  (0 <= m)%Z -> NoDup ps -> incl ps h ->
  exists h', pl_delete (fold_left pl_add ps (pl_new name m)) h = Ok h' /\
    Permutation h (firstn (Z.to_nat m) ps ++ h') /\
    incl (skipn (Z.to_nat m) ps) h'.
Proof.
  intros Hm Hn Hi. destruct (list_spec name m ps Hm) as (H1 & _). unfold pl_delete. rewrite H1.
  assert (Hn' : NoDup (firstn (Z.to_nat m) ps ++ skipn (Z.to_nat m) ps)) by (rewrite firstn_skipn; auto).
  destruct (free_all_perm (firstn (Z.to_nat m) ps) h) as (h' & R & P).
  - clear -Hn'. induction (firstn (Z.to_nat m) ps); [constructor|]. cbn in Hn'. inversion Hn'; subst.
    constructor; auto. intros C; apply H1; apply in_or_app; auto.
  - intros p Hp. apply Hi. rewrite <- (firstn_skipn (Z.to_nat m)). apply in_or_app; auto.
  - exists h'. repeat split; auto.
    intros p Hp. assert (In p h) by (apply Hi; rewrite <- (firstn_skipn (Z.to_nat m)); apply in_or_app; auto).
    apply (Permutation_in _ P) in H. apply in_app_or in H. destruct H; auto. exfalso.
    clear -Hn' Hp H. induction (firstn (Z.to_nat m) ps); [destruct H|]. cbn in Hn'. inversion Hn'; subst.
    destruct H; [subst; apply H2; apply in_or_app; auto|]. auto.
Qed.
