(** * One iteration after the other: the computations of Threads.v do what the functions of Sim.v and Program.v do *)
From Coq Require Import String ZArith List Bool Lia Permutation.
From Verif Require Import Num Outcome OutcomeFacts Vec Units Numerics MCTools Particle ParticleList Source Fields Pusher Process Sim Histogram Hdf5 Output
  Text Ini IniReader Program Threads.
Import ListNotations.
Local Open Scope string_scope.
Local Open Scope list_scope.

Section Facts.
Context {T : Type} `{Num T}.
Variable E : Engine T.
Variable garbage : T.

Notation act := (act E garbage).

(** A computation alone. *)
Fixpoint crun {A} (c : co T A) (s : shared E) : res (A * shared E) :=
  match c with
  | Now r => let* a := r in Ok (a, s)
  | Draw k => let '(u, g) := e_canon E (sh_rng E s) in crun (k u) (mkSh E g (sh_src E s) (sh_hists E s) (sh_om E s))
  | Take k => let* r := take (sh_src E s) in crun (k (fst r)) (mkSh E (sh_rng E s) (snd r) (sh_hists E s) (sh_om E s))
  | Count i p k => let* hs := count i p (sh_hists E s) in crun k (mkSh E (sh_rng E s) (sh_src E s) hs (sh_om E s))
  | Store c k => let* o := store garbage c (sh_om E s) in crun k (mkSh E (sh_rng E s) (sh_src E s) (sh_hists E s) o)
  end.

Lemma crun_bind {A B} (c : co T A) (f : A -> co T B) : forall s, crun (cbind c f) s = let* r := crun c s in crun (f (fst r)) (snd r).
Proof using Type.
  induction c as [r|k IH|k IH|i p k IH|c k IH]; intros s; cbn [cbind crun].
  - destruct r; reflexivity.
  - destruct (e_canon E _) as [u g]. apply IH.
  - destruct (take _) as [r| | | |]; cbn [bind]; try reflexivity. apply IH.
  - destruct (count _ _ _) as [r| | | |]; cbn [bind]; try reflexivity. apply IH.
  - destruct (store _ _ _) as [r| | | |]; cbn [bind]; try reflexivity. apply IH.
Qed.

Definition set_rng (s : shared E) (g : est E) : shared E := mkSh E g (sh_src E s) (sh_hists E s) (sh_om E s).
Definition set_hists (s : shared E) (hs : list (hist T)) : shared E := mkSh E (sh_rng E s) (sh_src E s) hs (sh_om E s).
(** lists without their names *)
Definition anon (l : event T) : event T := mkPL "" (pl_max l) (pl_items l) (pl_lost l).
Lemma anon_add l a : pl_add (anon l) a = anon (pl_add l a).
Proof. unfold pl_add, anon, pl_n. cbn. destruct (_ <? _)%Z; reflexivity. Qed.
Lemma anon_set l k a : pl_set (anon l) k a = anon (pl_set l k a).
Proof. reflexivity. Qed.
Lemma anon_get l k : pl_get (anon l) k = pl_get l k.
Proof. reflexivity. Qed.

(** The drawing functions. *)
Lemma run_rand low high s : crun (co_rand low high) s = (let '(x, g) := rand_double E low high (sh_rng E s) in Ok (x, set_rng s g)).
Proof. unfold co_rand, rand_double. cbn [crun]. destruct (e_canon E _). reflexivity. Qed.
Lemma run_depth s : crun co_depth s = (let '(x, g) := draw_depth E (sh_rng E s) in Ok (x, set_rng s g)).
Proof. unfold co_depth, draw_depth. rewrite crun_bind, run_rand. destruct (rand_double _ _ _ _). reflexivity. Qed.
Lemma run_init_depth p s : crun (co_init_depth p) s = (let '(x, g) := init_depth E p (sh_rng E s) in Ok (x, set_rng s g)).
Proof. unfold co_init_depth, init_depth. rewrite crun_bind, run_depth. destruct (draw_depth _ _). reflexivity. Qed.
Lemma run_new ty name mass charge pos mom weight time tracking s :
  crun (co_new ty name mass charge pos mom weight time tracking) s
  = (let '(x, g) := new_particle E ty name mass charge pos mom weight time tracking (sh_rng E s) in Ok (x, set_rng s g)).
Proof. unfold co_new, new_particle. rewrite crun_bind, run_depth. destruct (draw_depth _ _). reflexivity. Qed.
Lemma run_lepton mass charge pos mom weight time tracking s :
  crun (co_lepton mass charge pos mom weight time tracking) s
  = (let '(x, g) := new_lepton E mass charge pos mom weight time tracking (sh_rng E s) in Ok (x, set_rng s g)).
Proof. apply run_new. Qed.
Lemma run_lepton_energy mass charge en pos dir weight time tracking s :
  crun (co_lepton_energy mass charge en pos dir weight time tracking) s
  = (let '(x, g) := new_lepton_energy E mass charge en pos dir weight time tracking (sh_rng E s) in Ok (x, set_rng s g)).
Proof. apply run_new. Qed.
Lemma run_photon_energy en pos dir weight time tracking s :
  crun (co_photon_energy en pos dir weight time tracking) s
  = (let '(x, g) := new_photon_energy E en pos dir weight time tracking (sh_rng E s) in Ok (x, set_rng s g)).
Proof. apply run_new. Qed.


Lemma run_chi tab eta s : crun (co_chi tab eta) s = (let* r := calculate_chi E tab eta (sh_rng E s) in Ok (fst r, set_rng s (snd r))).
Proof.
  unfold co_chi, calculate_chi. rewrite crun_bind, run_rand. destruct (rand_double _ _ _ _) as [u g]. cbn [bind fst snd crun].
  destruct (closest_points _ _ _) as [lf| | | |]; cbn [bind]; try reflexivity.
  destruct (get (ph_data tab) (fst lf)); cbn [bind]; try reflexivity. destruct (get (ph_chi tab) (fst lf)); cbn [bind]; try reflexivity.
  destruct (interpolate1d _ _ _ _); cbn [bind]; try reflexivity.
  destruct (get (ph_data tab) (fst lf + 1)); cbn [bind]; try reflexivity. destruct (get (ph_chi tab) (fst lf + 1)); cbn [bind]; try reflexivity.
  destruct (interpolate1d _ _ _ _); reflexivity.
Qed.
Lemma run_split tab chi s : crun (co_split tab chi) s = (let* r := calculate_split E tab chi (sh_rng E s) in Ok (fst r, set_rng s (snd r))).
Proof.
  unfold co_split, calculate_split. rewrite crun_bind, run_rand. destruct (rand_double _ _ _ _) as [u g]. cbn [bind fst snd crun].
  destruct (closest_points _ _ _) as [lf| | | |]; cbn [bind]; try reflexivity.
  destruct (get (s_data tab) (fst lf)); cbn [bind]; try reflexivity. destruct (interpolate1d _ _ _ _); cbn [bind]; try reflexivity.
  destruct (get (s_data tab) (fst lf + 1)); cbn [bind]; try reflexivity. destruct (interpolate1d _ _ _ _); reflexivity.
Qed.

(** The processes. *)
Definition back (s : shared E) (r : res (particle T * event T * est E)) : res (particle T * event T * shared E) :=
  let* x := r in let '(p, l, g) := x in Ok (p, anon l, set_rng s g).

Lemma set_rng_id s : set_rng s (sh_rng E s) = s.
Proof. destruct s. reflexivity. Qed.
Lemma set_rng_rng s g : sh_rng E (set_rng s g) = g.
Proof. reflexivity. Qed.
Lemma set_set s g g' : set_rng (set_rng s g) g' = set_rng s g'.
Proof. reflexivity. Qed.

Lemma run_stochastic c p l s : crun (co_stochastic c p (anon l)) s = back s (stochastic_interact E c p l (sh_rng E s)).
Proof.
  unfold co_stochastic, stochastic_interact, back. destruct (_ || _)%bool; [cbn; now rewrite set_rng_id|].
  rewrite crun_bind. cbn [crun]. set (lh := if nltb _ _ then _ else _). destruct lh as [logh| | | |]; cbn [bind fst snd]; try reflexivity.
  destruct (nltb _ n0); [|cbn; now rewrite set_rng_id].
  rewrite crun_bind, run_chi. destruct (calculate_chi _ _ _ _) as [[chi g1]| | | |]; cbn [bind fst snd]; try reflexivity.
  set (ge := ndiv _ _). set (p2 := update_track _ _ _). rewrite crun_bind.
  assert (K : crun (if nltb (em_eMin c) ge then cbind (co_rand n0 n1) (fun r => ret (nltb (em_frac c) r)) else ret false) (set_rng s g1)
    = (let '(keep, g2) := (if nltb (em_eMin c) ge then let '(r, g2) := rand_double E n0 n1 g1 in (nltb (em_frac c) r, g2) else (false, g1)) in Ok (keep, set_rng s g2))).
  { destruct (nltb (em_eMin c) ge); [|reflexivity]. rewrite crun_bind, run_rand, set_rng_rng. destruct (rand_double _ _ _ _). reflexivity. }
  rewrite K. clear K. destruct (if nltb (em_eMin c) ge then let '(r, g2) := rand_double E n0 n1 g1 in (nltb (em_frac c) r, g2) else (false, g1)) as [keep g2]. cbn [bind fst snd]. rewrite crun_bind.
  assert (Q : crun (if keep then cbind (co_photon_energy ge (p_pos p2) (get_direction p2) (ndiv (p_weight p2) (em_frac c)) (p_time p2) (em_track c))
      (fun ph => ret (pl_add (anon l) ph)) else ret (anon l)) (set_rng s g2)
    = (let '(l3, g3) := (if keep then let '(ph, g3) := new_photon_energy E ge (p_pos p2) (get_direction p2) (ndiv (p_weight p2) (em_frac c)) (p_time p2) (em_track c) g2 in
         (pl_add l ph, g3) else (l, g2)) in Ok (anon l3, set_rng s g3))).
  { destruct keep; [|reflexivity]. rewrite crun_bind, run_photon_energy, set_rng_rng. destruct (new_photon_energy _ _ _ _ _ _ _). cbn. now rewrite anon_add. }
  rewrite Q. clear Q. match goal with |- context [if keep then ?a else (l, g2)] => destruct (if keep then a else (l, g2)) as [l3 g3] end. cbn [bind fst snd]. rewrite crun_bind, run_init_depth, set_rng_rng.
  destruct (init_depth _ _ _). reflexivity.
Qed.

Lemma run_continuous c cl p l s : crun (co_continuous c cl p (anon l)) s = back s (continuous_interact E c cl p l (sh_rng E s)).
Proof.
  unfold co_continuous, continuous_interact, back. destruct (_ || _)%bool; [cbn; now rewrite set_rng_id|].
  rewrite crun_bind, run_rand. destruct (rand_double _ _ _ _) as [r g1]. cbn [bind fst snd]. destruct (nltb (em_frac c) r); [reflexivity|].
  rewrite crun_bind. set (eta := calculate_eta _ _).
  match goal with |- bind (crun ?a _) _ = bind (bind ?b _) _ =>
    assert (K : crun a (set_rng s g1) = let* x := b in let '(lh, chi, g2) := x in Ok ((lh, chi), set_rng s g2)) end.
  { destruct (_ || _)%bool.
    - rewrite crun_bind. cbn [crun]. destruct (get _ _); cbn [bind fst snd]; try reflexivity. rewrite crun_bind, run_chi, set_rng_rng.
      destruct (calculate_chi _ _ _ _); reflexivity.
    - rewrite crun_bind. cbn [crun]. destruct (interpolate1d _ _ _ _); cbn [bind fst snd]; try reflexivity. rewrite crun_bind, run_chi, set_rng_rng.
      destruct (calculate_chi _ _ _ _); reflexivity. }
  rewrite K. clear K. match goal with |- bind (bind ?b _) _ = _ => destruct b as [[[lh chi] g2]| | | |] end; cbn [bind fst snd]; try reflexivity.
  destruct (nltb (em_eMin c) _); [|reflexivity]. rewrite crun_bind, run_photon_energy, set_rng_rng. destruct (new_photon_energy _ _ _ _ _ _ _ _).
  cbn. now rewrite anon_add.
Qed.

Lemma run_breit_wheeler c p l s : crun (co_breit_wheeler c p (anon l)) s = back s (breit_wheeler_interact E c p l (sh_rng E s)).
Proof.
  unfold co_breit_wheeler, breit_wheeler_interact, back. destruct (_ || _)%bool; [cbn; now rewrite set_rng_id|].
  rewrite crun_bind. cbn [crun]. destruct (interpolate1d _ _ _ _) as [lt| | | |]; cbn [bind fst snd]; try reflexivity.
  destruct (nltb _ _); [|cbn; now rewrite set_rng_id].
  rewrite crun_bind, run_split. destruct (calculate_split _ _ _ _) as [[sp g1]| | | |]; cbn [bind fst snd]; try reflexivity.
  rewrite crun_bind, run_lepton, set_rng_rng. destruct (new_lepton _ _ _ _ _ _ _ _ _) as [po g2]. cbn [bind fst snd].
  rewrite crun_bind, run_lepton. cbn [sh_rng set_rng]. destruct (new_lepton _ _ _ _ _ _ _ _ _) as [el g3]. cbn. now rewrite !anon_add.
Qed.

Lemma run_interact pr p l s : crun (co_interact pr p (anon l)) s = back s (interact E pr p l (sh_rng E s)).
Proof. destruct pr; [apply run_stochastic|apply run_continuous|apply run_breit_wheeler]. Qed.

Definition back1 (s : shared E) (r : res (event T * est E)) : res (event T * shared E) :=
  let* x := r in Ok (anon (fst x), set_rng s (snd x)).

Lemma run_call k pr l s : crun (co_call k pr (anon l)) s = back1 s (call_process E k pr l (sh_rng E s)).
Proof.
  unfold co_call, call_process, back1. rewrite crun_bind. cbn [crun]. rewrite anon_get. destruct (pl_get l k) as [p| | | |]; cbn [bind fst snd]; try reflexivity.
  rewrite crun_bind, run_interact. unfold back. destruct (interact _ _ _ _ _) as [[[p' l'] g']| | | |]; cbn [bind fst snd]; reflexivity.
Qed.
Lemma run_calls k prs : forall l s, crun (co_calls k prs (anon l)) s = back1 s (call_processes E k prs l (sh_rng E s)).
Proof.
  induction prs as [|pr t IH]; intros l s; cbn [co_calls call_processes].
  - cbn. now rewrite set_rng_id.
  - rewrite crun_bind, run_call. unfold back1. destruct (call_process _ _ _ _ _) as [[l' g']| | | |]; cbn [bind fst snd]; try reflexivity.
    rewrite IH. reflexivity.
Qed.
Lemma run_visit w k l s : crun (co_visit w k (anon l)) s = back1 s (visit E w k l (sh_rng E s)).
Proof.
  unfold co_visit, visit. rewrite crun_bind. cbn [crun]. rewrite anon_get. destruct (pl_get l k) as [p| | | |]; cbn [bind fst snd]; try reflexivity.
  rewrite anon_set. apply run_calls.
Qed.
Lemma run_pass_from w fuel : forall k l s, crun (co_pass_from w fuel k (anon l)) s = back1 s (pass_from E w fuel k l (sh_rng E s)).
Proof.
  induction fuel as [|f IH]; intros k l s; cbn [co_pass_from pass_from]; change (pl_n (anon l)) with (pl_n l); destruct (_ <? _)%Z;
    try reflexivity; try (cbn; now rewrite set_rng_id).
  rewrite crun_bind, run_visit. unfold back1. destruct (visit _ _ _ _ _) as [[l' g']| | | |]; cbn [bind fst snd]; try reflexivity.
  rewrite IH. reflexivity.
Qed.
Lemma run_pass w l s : crun (co_pass w (anon l)) s = back1 s (pass E w l (sh_rng E s)).
Proof. apply run_pass_from. Qed.

(** The histograms. *)
Lemma app_particle_static h p h' : app_particle h p = Ok h' -> hi_particle h' = hi_particle h /\ hi_time h' = hi_time h /\ hi_name h' = hi_name h /\ hi_type h' = hi_type h
  /\ hi_n h' = hi_n h /\ hi_centres h' = hi_centres h.
Proof.
  unfold app_particle. destruct (_ =? 0)%Z; [discriminate|].
  assert (A : forall v, add_value h v = Ok h' -> hi_particle h' = hi_particle h /\ hi_time h' = hi_time h /\ hi_name h' = hi_name h /\ hi_type h' = hi_type h
    /\ hi_n h' = hi_n h /\ hi_centres h' = hi_centres h).
  { intros v. unfold add_value. intros A. apply bind_ok in A as (c0 & _ & A). apply bind_ok in A as (hit & _ & A). destruct hit.
    - apply bind_ok in A as (i & _ & A). apply bind_ok in A as (x & _ & A). injection A as <-. cbn. auto 10.
    - injection A as <-. cbn. auto 10. }
  destruct (type_is _ _ _); [apply A|]. destruct (type_is _ _ _); [apply A|]. destruct (type_is _ _ _); [apply A|]. destruct (type_is _ _ _); [apply A|].
  destruct (type_is _ _ _); [apply A|]. destruct (type_is _ _ _); [apply A|]. destruct (type_is _ _ _); [apply A|]. discriminate.
Qed.

Lemma upd_upd {A} (l : list A) i a b : upd (upd l i a) i b = upd l i b.
Proof. revert i; induction l as [|x l IH]; intros [|i]; cbn; f_equal; auto. Qed.
Lemma upd_same {A} (l : list A) i a : nth_error l i = Some a -> upd l i a = l.
Proof. revert i; induction l as [|x l IH]; intros [|i]; cbn; try discriminate; intros Q; [now injection Q as ->|f_equal; auto]. Qed.
Lemma nth_error_len {A} (l : list A) i a : nth_error l i = Some a -> (i < length l)%nat.
Proof. intros Q. apply nth_error_Some. congruence. Qed.

Lemma run_fill i ps : forall hs h s, nth_error hs i = Some h ->
  crun (co_fill i (hi_particle h) ps) (set_hists s hs) = let* h' := app_named h ps in Ok (tt, set_hists s (upd hs i h')).
Proof.
  induction ps as [|p ps IH]; intros hs h s N; cbn [co_fill app_named].
  - cbn. now rewrite (upd_same _ _ _ N).
  - destruct (String.eqb _ _).
    + cbn [crun set_hists sh_hists]. unfold count at 1. rewrite N. destruct (app_particle h p) as [h1| | | |] eqn:A; cbn [bind]; try reflexivity.
      change (mkSh E _ _ _ _) with (set_hists s (upd hs i h1)). destruct (app_particle_static _ _ _ A) as (S1 & _). rewrite <- S1.
      rewrite IH by (apply nth_error_upd_same; exact (nth_error_len _ _ _ N)).
      destruct (app_named h1 ps); cbn [bind]; try reflexivity. now rewrite upd_upd.
    + cbn [bind]. apply IH, N.
Qed.
Lemma app_named_static ps : forall h h', app_named h ps = Ok h' -> hi_particle h' = hi_particle h /\ hi_time h' = hi_time h.
Proof.
  induction ps as [|p ps IH]; intros h h'; cbn [app_named]; [intros Q; injection Q as <-; auto|].
  intros Q. apply bind_ok in Q as (h1 & Q1 & Q). destruct (IH _ _ Q) as [-> ->]. destruct (String.eqb _ _); [|injection Q1 as <-; auto].
  destruct (app_particle_static _ _ _ Q1) as (-> & -> & _). auto.
Qed.
Lemma map_upd {A B} (f : A -> B) l i a : (forall b, nth_error l i = Some b -> f a = f b) -> map f (upd l i a) = map f l.
Proof. revert i; induction l as [|x l IH]; intros [|i] N; cbn in *; try reflexivity; f_equal; auto. Qed.
Lemma plan_fill i t ps hs hs' : hist_fill i t ps hs = Ok hs' -> plan_of hs' = plan_of hs.
Proof.
  unfold hist_fill, plan_of. destruct (nth_error hs i) as [h|] eqn:N; [|discriminate]. intros Q. apply bind_ok in Q as (h' & Q1 & Q). injection Q as <-.
  apply map_upd. intros b Nb. rewrite N in Nb. injection Nb as <-. destruct (app_named_static _ _ _ Q1) as [-> ->]. reflexivity.
Qed.

(** The time loop: a state of Sim.v and the corresponding local state. *)
Definition loc (st : state E (list (hist T))) : local := mkLoc (st_time E st) (anon (st_ev E st)) (st_hc E st).
Definition glo (s : shared E) (st : state E (list (hist T))) : shared E := mkSh E (st_rng E st) (sh_src E s) (st_hist E st) (sh_om E s).
Definition back2 (s : shared E) (r : res (state E (list (hist T)))) : res (local * shared E) := let* x := r in Ok (loc x, glo s x).

Lemma nth_plan (hs : list (hist T)) i : nth_error (plan_of hs) i = option_map (fun h => (hi_time h, hi_particle h)) (nth_error hs i).
Proof. unfold plan_of. apply nth_error_map. Qed.
Lemma times_plan (hs : list (hist T)) : map hi_time hs = map fst (plan_of hs).
Proof. unfold plan_of. rewrite map_map. reflexivity. Qed.

Notation check hts := (hist_check E hts hist_fill).
Notation step w hts := (time_step E w hts hist_fill).
Notation loop w hts := (time_loop E w hts hist_fill).

Lemma run_hist_check pl st s : plan_of (st_hist E st) = pl ->
  crun (co_hist_check pl (loc st)) (glo s st) = back2 s (check (map fst pl) st).
Proof.
  intros P. unfold co_hist_check, hist_check, back2. cbn [lo_hc loc]. subst pl. rewrite <- times_plan. rewrite nth_plan, nth_error_map.
  destruct (nth_error (st_hist E st) (st_hc E st)) as [h|] eqn:N; cbn [option_map].
  - cbn [lo_time loc]. destruct (nleb _ _); [|reflexivity]. rewrite crun_bind. cbn [lo_ev loc]. change (pl_items (anon (st_ev E st))) with (pl_items (st_ev E st)).
    replace (glo s st) with (set_hists (glo s st) (st_hist E st)) by reflexivity. rewrite (run_fill _ _ _ _ _ N).
    unfold hist_fill. rewrite N. destruct (app_named _ _); reflexivity.
  - reflexivity.
Qed.
Lemma check_plan hts st st' : check hts st = Ok st' -> plan_of (st_hist E st') = plan_of (st_hist E st).
Proof.
  unfold hist_check. destruct (nth_error _ _); [|intros Q; injection Q as <-; reflexivity]. destruct (nleb _ _); [|intros Q; injection Q as <-; reflexivity].
  intros Q. apply bind_ok in Q as (h & Q1 & Q). injection Q as <-. cbn. exact (plan_fill _ _ _ _ _ Q1).
Qed.
Lemma run_time_step w pl st s : plan_of (st_hist E st) = pl ->
  crun (co_time_step w pl (loc st)) (glo s st) = back2 s (step w (map fst pl) st).
Proof.
  intros P. unfold co_time_step, time_step. rewrite crun_bind, (run_hist_check _ _ _ P). unfold back2.
  destruct (hist_check _ _ _ _) as [st1| | | |]; cbn [bind fst snd]; try reflexivity.
  rewrite crun_bind. cbn [lo_ev loc]. rewrite run_pass. unfold back1. cbn [sh_rng glo]. destruct (pass _ _ _ _); cbn [bind fst snd]; reflexivity.
Qed.
Lemma step_plan w hts st st' : step w hts st = Ok st' -> plan_of (st_hist E st') = plan_of (st_hist E st).
Proof.
  unfold time_step. intros Q. apply bind_ok in Q as (s1 & Q1 & Q). apply bind_ok in Q as (r & _ & Q). injection Q as <-. cbn. exact (check_plan _ _ _ Q1).
Qed.
Lemma run_time_loop w pl tEnd fuel : forall st s, plan_of (st_hist E st) = pl ->
  crun (co_time_loop w pl fuel tEnd (loc st)) (glo s st) = back2 s (loop w (map fst pl) fuel tEnd st).
Proof.
  induction fuel as [|f IH]; intros st s P; cbn [co_time_loop time_loop lo_time loc]; destruct (nltb _ _); try reflexivity.
  rewrite crun_bind, (run_time_step _ _ _ _ P). unfold back2. destruct (time_step _ _ _ _ _) as [st1| | | |] eqn:Q; cbn [bind fst snd]; try reflexivity.
  apply IH. rewrite <- P. exact (step_plan _ _ _ _ Q).
Qed.
Lemma loop_plan w hts tEnd fuel : forall st st', loop w hts fuel tEnd st = Ok st' -> plan_of (st_hist E st') = plan_of (st_hist E st).
Proof.
  induction fuel as [|f IH]; intros st st'; cbn [time_loop]; destruct (nltb _ _); try discriminate; try (intros Q; injection Q as <-; reflexivity).
  intros Q. apply bind_ok in Q as (s1 & Q1 & Q). rewrite (IH _ _ Q). exact (step_plan _ _ _ _ Q1).
Qed.

Lemma skipn_cons {A} (l : list A) i a : nth_error l i = Some a -> skipn i l = a :: skipn (S i) l.
Proof. revert i; induction l as [|x l IH]; intros [|i]; cbn; try discriminate; intros Q; [now injection Q as ->|exact (IH _ Q)]. Qed.
Lemma run_fill_rest n : forall st s, (st_hc E st + n = length (st_hist E st))%nat ->
  crun (co_fill_rest (st_hc E st) (skipn (st_hc E st) (plan_of (st_hist E st))) (pl_items (st_ev E st))) (glo s st)
  = let* x := fill_rest E hist_fill n st in Ok (tt, mkSh E (st_rng E st) (sh_src E s) (st_hist E x) (sh_om E s)).
Proof.
  induction n as [|n IH]; intros st s L; cbn [fill_rest].
  - rewrite skipn_all2 by (unfold plan_of; rewrite map_length; lia). reflexivity.
  - destruct (nth_error (st_hist E st) (st_hc E st)) as [h|] eqn:N; [|apply nth_error_None in N; lia].
    rewrite (skipn_cons (plan_of (st_hist E st)) _ (hi_time h, hi_particle h)) by (rewrite nth_plan, N; reflexivity).
    cbn [co_fill_rest]. rewrite crun_bind. replace (glo s st) with (set_hists (glo s st) (st_hist E st)) by reflexivity. rewrite (run_fill _ _ _ _ _ N).
    unfold hist_fill at 1. rewrite N. destruct (app_named _ _) as [h'| | | |] eqn:A; cbn [bind fst snd]; try reflexivity.
    set (st1 := mkSt (st_time E st) (st_ev E st) (st_rng E st) (st_hc E st + 1) (upd (st_hist E st) (st_hc E st) h')).
    assert (P : plan_of (st_hist E st) = plan_of (st_hist E st1)).
    { symmetry. apply (plan_fill (st_hc E st) n0 (pl_items (st_ev E st))). unfold hist_fill. rewrite N, A. reflexivity. }
    rewrite P. assert (Q := IH st1 s). cbn [st_hc st1] in Q. rewrite Nat.add_1_r in Q. cbn [st_hist st1] in Q. rewrite length_upd in Q. apply Q. lia.
Qed.
Lemma fill_rest_keeps n : forall st st', fill_rest E hist_fill n st = Ok st' -> st_ev E st' = st_ev E st /\ st_rng E st' = st_rng E st /\ plan_of (st_hist E st') = plan_of (st_hist E st).
Proof.
  induction n as [|n IH]; intros st st'; cbn [fill_rest]; [intros Q; injection Q as <-; auto|].
  intros Q. apply bind_ok in Q as (h & Q1 & Q). destruct (IH _ _ Q) as (-> & -> & ->). cbn. split; [reflexivity|]. split; [reflexivity|]. exact (plan_fill _ _ _ _ _ Q1).
Qed.

Lemma check_hc hts st st' : check hts st = Ok st' -> (st_hc E st <= length hts)%nat -> (st_hc E st' <= length hts)%nat.
Proof.
  unfold hist_check. destruct (nth_error hts (st_hc E st)) eqn:N; [|intros Q; injection Q as <-; auto]. destruct (nleb _ _); [|intros Q; injection Q as <-; auto].
  intros Q _. apply bind_ok in Q as (h & Q1 & Q). injection Q as <-. cbn. apply nth_error_len in N. lia.
Qed.
Lemma loop_hc w hts tEnd fuel : forall st st', loop w hts fuel tEnd st = Ok st' -> (st_hc E st <= length hts)%nat -> (st_hc E st' <= length hts)%nat.
Proof.
  induction fuel as [|f IH]; intros st st'; cbn [time_loop]; destruct (nltb _ _); try discriminate; try (intros Q; injection Q as <-; auto).
  intros Q L. apply bind_ok in Q as (s1 & Q1 & Q). refine (IH _ _ Q _). unfold time_step in Q1. apply bind_ok in Q1 as (s2 & Q2 & Q1). apply bind_ok in Q1 as (r & _ & Q1).
  injection Q1 as <-. cbn. exact (check_hc _ _ _ Q2 L).
Qed.

Lemma run_event_co w pl fuel tEnd l s : plan_of (sh_hists E s) = pl ->
  crun (co_event w pl fuel tEnd (anon l)) s
  = let* st := run_event E w (map hi_time (sh_hists E s)) hist_fill fuel tEnd l (sh_rng E s) (sh_hists E s) in Ok (anon (st_ev E st), glo s st).
Proof.
  intros P. unfold co_event, run_event. set (st0 := mkSt n0 l (sh_rng E s) 0 (sh_hists E s)).
  rewrite crun_bind. change (mkLoc n0 (anon l) 0) with (loc st0). replace s with (glo s st0) at 1 by (destruct s; reflexivity).
  rewrite (run_time_loop w pl tEnd fuel st0 s P). rewrite times_plan, P. unfold back2. destruct (time_loop _ _ _ _ _ _ _) as [st| | | |] eqn:Q; cbn [bind fst snd]; try reflexivity.
  assert (P1 : plan_of (st_hist E st) = pl) by (rewrite <- P; exact (loop_plan _ _ _ _ _ _ Q)).
  assert (L : (st_hc E st <= length (map fst pl))%nat) by (apply (loop_hc _ _ _ _ _ _ Q); cbn; lia).
  assert (LP : length (map fst pl) = length (st_hist E st)) by (rewrite <- P1; unfold plan_of; now rewrite !map_length).
  rewrite crun_bind. cbn [lo_hc lo_ev loc]. rewrite <- P1 at 1. change (pl_items (anon (st_ev E st))) with (pl_items (st_ev E st)).
  rewrite (run_fill_rest (length (map fst pl) - st_hc E st)) by lia.
  destruct (fill_rest _ _ _ _) as [x| | | |] eqn:F; cbn [bind fst snd]; try reflexivity.
  destruct (fill_rest_keeps _ _ _ F) as (F1 & F2 & _). unfold glo. rewrite F1, F2. reflexivity.
Qed.

(** A whole iteration. *)
Lemma run_primary type en pos dir track s : crun (co_primary type en pos dir track) s
  = let* r := make_primary E type en pos dir track (sh_rng E s) in Ok (fst r, set_rng s (snd r)).
Proof.
  unfold co_primary, make_primary. destruct (is_name _ _ _); [rewrite run_photon_energy; destruct (new_photon_energy _ _ _ _ _ _ _); reflexivity|].
  destruct (is_name _ _ _); [rewrite run_lepton_energy; destruct (new_lepton_energy _ _ _ _ _ _ _ _); reflexivity|].
  destruct (is_name _ _ _); [rewrite run_lepton_energy; destruct (new_lepton_energy _ _ _ _ _ _ _ _); reflexivity|]. reflexivity.
Qed.
Definition set_src (s : shared E) (src : source T) : shared E := mkSh E (sh_rng E s) src (sh_hists E s) (sh_om E s).
Lemma run_generate src c s : sh_src E s = with_count src c ->
  crun (co_generate src) s = let* r := generate_list E (sh_src E s) (sh_rng E s) in let '(l, src', g) := r in Ok (anon l, set_src (set_rng s g) src').
Proof.
  intros S1. unfold co_generate, generate_list. cbn [crun]. unfold take. rewrite S1. cbn [s_count s_nPart with_count s_xs s_ys s_zs s_rot s_pos s_thetas s_phis s_energies s_type s_track].
  destruct (_ =? _)%Z; [reflexivity|]. cbn [bind fst snd]. rewrite crun_bind. cbn [crun].
  destruct (get (s_xs src) c); cbn [bind fst snd]; try reflexivity. rewrite crun_bind. cbn [crun].
  destruct (get (s_ys src) c); cbn [bind fst snd]; try reflexivity. rewrite crun_bind. cbn [crun].
  destruct (get (s_zs src) c); cbn [bind fst snd]; try reflexivity. rewrite crun_bind. cbn [crun].
  destruct (get (s_thetas src) c); cbn [bind fst snd]; try reflexivity. rewrite crun_bind. cbn [crun].
  destruct (get (s_phis src) c); cbn [bind fst snd]; try reflexivity. rewrite crun_bind. cbn [crun].
  destruct (get (s_energies src) c); cbn [bind fst snd]; try reflexivity. rewrite crun_bind, run_primary.
  destruct (make_primary _ _ _ _ _ _ _) as [[p g]| | | |]; cbn [bind fst snd]; reflexivity.
Qed.

Definition prog_of (s : shared E) : prog E := mkProg E (sh_om E s) (sh_hists E s) (sh_rng E s).
Lemma run_iteration w pl fuel tEnd output tracking src c j s : sh_src E s = with_count src c -> plan_of (sh_hists E s) = pl ->
  crun (iteration w pl fuel tEnd output tracking src j) s
  = let* r := one_event E garbage fuel w tEnd output tracking j (sh_src E s) (prog_of s) in
    Ok (tt, mkSh E (pg_rng E (snd r)) (fst r) (pg_hists E (snd r)) (pg_om E (snd r))).
Proof.
  intros S1 P. unfold iteration, one_event. rewrite crun_bind, (run_generate _ _ _ S1). cbn [pg_rng prog_of].
  destruct (generate_list _ _ _) as [[[l src1] g1]| | | |]; cbn [bind fst snd]; try reflexivity.
  rewrite crun_bind. unfold when. cbn [pg_om prog_of pg_hists].
  assert (K1 : forall (b : bool) c o s1, (forall q, c q = store garbage o q) ->
    crun (if b then Store o (ret tt) else ret tt) s1 = let* q := (if b then c (sh_om E s1) else Ok (sh_om E s1)) in Ok (tt, mkSh E (sh_rng E s1) (sh_src E s1) (sh_hists E s1) q)).
  { intros [|] f o s1 F; [|destruct s1; reflexivity]. cbn [crun]. rewrite F. destruct (store garbage o (sh_om E s1)); reflexivity. }
  rewrite (K1 output (fun q => store_primary q l j)) by reflexivity. cbn [sh_om set_src set_rng].
  destruct (if output then _ else _) as [o1| | | |]; cbn [bind fst snd]; try reflexivity.
  rewrite crun_bind, run_event_co by exact P. cbn [sh_hists sh_rng].
  destruct (run_event _ _ _ _ _ _ _ _ _) as [st| | | |]; cbn [bind fst snd]; try reflexivity.
  rewrite crun_bind, (K1 output (fun q => store_final garbage q (st_ev E st) j)) by reflexivity. cbn [sh_om glo].
  destruct (if output then _ else _) as [o2| | | |]; cbn [bind fst snd]; try reflexivity.
  rewrite (K1 tracking (fun q => Ok (store_track q (st_ev E st) j))) by reflexivity. cbn [sh_om glo].
  destruct (if tracking then _ else _) as [o3| | | |]; cbn [bind fst snd]; reflexivity.
Qed.

End Facts.
