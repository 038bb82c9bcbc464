(** * Recording of tracks commutes with everything else *)
From Coq Require Import String ZArith List Bool Lia.
From Verif Require Import Num Outcome OutcomeFacts Vec Units MCTools Particle ParticleList Source Fields Pusher Process Sim Histogram.
Import ListNotations.

Section Erase.
Context {T : Type} `{Num T}.
Variable E : Engine T.

(** the particle without its record *)
Definition erase (p : particle T) : particle T :=
  mkP (p_type p) (p_name p) (p_mass p) (p_charge p) (p_weight p) (p_time p) (p_depth p) false (p_alive p) (p_pos p) (p_mom p) [] [] [] [].
Definition erase_list (l : plist (particle T)) : plist (particle T) :=
  mkPL (pl_name l) (pl_max l) (map erase (pl_items l)) (map erase (pl_lost l)).
Definition erase_proc (pr : process T) : process T :=
  match pr with
  | Stochastic c => Stochastic (mkEm (em_field c) (em_dt c) (em_frac c) (em_eMin c) false (em_tab c))
  | Continuous c cl => Continuous (mkEm (em_field c) (em_dt c) (em_frac c) (em_eMin c) false (em_tab c)) cl
  | BreitWheeler c => BreitWheeler (mkBw (bw_field c) (bw_dt c) false (bw_tab c))
  end.
Definition erase_world (w : world T) : world T := mkWorld (w_force w) (w_field w) (w_dt w) (map erase_proc (w_procs w)).
Definition erase_source (s : source T) : source T :=
  mkSrc (s_type s) (s_nPart s) (s_count s) false (s_dir s) (s_pos s) (s_xs s) (s_ys s) (s_zs s) (s_thetas s) (s_phis s) (s_energies s) (s_rot s).

Lemma rmap_bind {A B C} (f : B -> C) (x : res A) (k : A -> res B) : rmap f (bind x k) = bind x (fun a => rmap f (k a)).
Proof. destruct x; reflexivity. Qed.
Lemma bind_rmap {A B C} (f : A -> B) (x : res A) (k : B -> res C) : bind (rmap f x) k = bind x (fun a => k (f a)).
Proof. destruct x; reflexivity. Qed.
Lemma bind_ext {A B} (x : res A) (k k' : A -> res B) : (forall a, k a = k' a) -> bind x k = bind x k'.
Proof. intros HE. destruct x; cbn; auto. Qed.

Lemma erase_update_track p x m : erase (update_track p x m) = update_track (erase p) x m.
Proof. unfold update_track. destruct p as [a b c d e f g [|] i j k l1 l2 l3 l4]; reflexivity. Qed.
Lemma erase_update_time p t : erase (update_time p t) = update_time (erase p) t.
Proof. reflexivity. Qed.
Lemma erase_set_depth p d : erase (set_depth p d) = set_depth (erase p) d.
Proof. reflexivity. Qed.
Lemma erase_kill p : erase (kill p) = kill (erase p).
Proof. reflexivity. Qed.
Lemma erase_init_depth p g : init_depth E (erase p) g = (erase (fst (init_depth E p g)), snd (init_depth E p g)).
Proof. unfold init_depth. destruct (draw_depth E g). reflexivity. Qed.
Lemma erase_new ty nm ms q x m wt t tr g :
  new_particle E ty nm ms q x m wt t false g = (erase (fst (new_particle E ty nm ms q x m wt t tr g)), snd (new_particle E ty nm ms q x m wt t tr g)).
Proof. unfold new_particle. destruct (draw_depth E g). reflexivity. Qed.
Lemma erase_push F fld dt p : erase (push_particle F fld dt p) = push_particle F fld dt (erase p).
Proof.
  unfold push_particle. cbn [p_alive p_mass erase]. destruct (p_alive p); [|reflexivity]. destruct (neqb (p_mass p) n0).
  - rewrite erase_update_time, erase_update_track. reflexivity.
  - change (rk4_step F fld dt (erase p)) with (rk4_step F fld dt p). destruct (rk4_step F fld dt p) as [x m]. rewrite erase_update_time, erase_update_track. reflexivity.
Qed.
Lemma erase_n l : pl_n (erase_list l) = pl_n l.
Proof. unfold pl_n, erase_list. cbn. now rewrite map_length. Qed.
Lemma erase_add l p : erase_list (pl_add l p) = pl_add (erase_list l) (erase p).
Proof.
  unfold pl_add. rewrite erase_n. change (pl_max (erase_list l)) with (pl_max l).
  destruct (pl_n l <? pl_max l)%Z; unfold erase_list; cbn [pl_name pl_max pl_items pl_lost]; rewrite map_app; reflexivity.
Qed.
Lemma erase_get l i : pl_get (erase_list l) i = rmap erase (pl_get l i).
Proof.
  unfold pl_get. change (pl_max (erase_list l)) with (pl_max l). destruct ((i <? 0) || (pl_max l <=? i))%Z%bool; [reflexivity|].
  cbn [erase_list pl_items]. rewrite nth_error_map. destruct (nth_error (pl_items l) (Z.to_nat i)); reflexivity.
Qed.
Lemma map_upd {A B} (f : A -> B) : forall l i a, map f (upd l i a) = upd (map f l) i (f a).
Proof. induction l as [|x l IH]; intros [|i] a; cbn; f_equal; auto. Qed.
Lemma erase_set l i p : erase_list (pl_set l i p) = pl_set (erase_list l) i (erase p).
Proof. unfold pl_set, erase_list. cbn [pl_name pl_max pl_items pl_lost]. now rewrite map_upd. Qed.

Definition erase3 (r : particle T * event T * est E) : particle T * event T * est E :=
  let '(p, l, g) := r in (erase p, erase_list l, g).

Lemma erase_stochastic c p l g :
  rmap erase3 (stochastic_interact E c p l g) =
  stochastic_interact E (mkEm (em_field c) (em_dt c) (em_frac c) (em_eMin c) false (em_tab c)) (erase p) (erase_list l) g.
Proof.
  unfold stochastic_interact. cbn [em_field em_dt em_frac em_eMin em_track em_tab].
  change (p_mass (erase p)) with (p_mass p). change (p_alive (erase p)) with (p_alive p).
  destruct (neqb (p_mass p) n0 || negb (p_alive p))%bool; [reflexivity|]. cbv zeta.
  change (calculate_eta (em_field c) (erase p)) with (calculate_eta (em_field c) p).
  rewrite rmap_bind. apply bind_ext. intros logh.
  change (get_gamma (erase p)) with (get_gamma p).
  set (d := emission_depth (em_dt c) (calculate_eta (em_field c) p) logh (get_gamma p)).
  change (update_depth (erase p) d) with (erase (update_depth p d)). set (p1 := update_depth p d).
  change (p_depth (erase p1)) with (p_depth p1). destruct (nltb (p_depth p1) n0); [|reflexivity].
  rewrite rmap_bind. apply bind_ext. intros [chi g1]. cbn [fst snd].
  change (get_gamma (erase p1)) with (get_gamma p1). change (get_direction (erase p1)) with (get_direction p1).
  change (p_pos (erase p1)) with (p_pos p1). change (p_mom (erase p1)) with (p_mom p1).
  set (ge := ndiv _ _). rewrite <- erase_update_track. set (p2 := update_track p1 (p_pos p1) _).
  set (kp := if nltb (em_eMin c) ge then _ else _). destruct kp as [keep g2].
  change (p_pos (erase p2)) with (p_pos p2). change (get_direction (erase p2)) with (get_direction p2).
  change (p_weight (erase p2)) with (p_weight p2). change (p_time (erase p2)) with (p_time p2).
  unfold new_photon_energy. destruct keep.
  - rewrite (erase_new _ _ _ _ _ _ _ _ (em_track c)). destruct (new_particle E _ _ _ _ _ _ _ _ _ _) as [ph g3]. cbn [fst snd].
    rewrite erase_init_depth. destruct (init_depth E p2 g3) as [p4 g4]. cbn [fst snd rmap bind erase3]. rewrite erase_add. reflexivity.
  - rewrite erase_init_depth. destruct (init_depth E p2 g2) as [p4 g4]. reflexivity.
Qed.

Lemma erase_continuous c cl p l g :
  rmap erase3 (continuous_interact E c cl p l g) =
  continuous_interact E (mkEm (em_field c) (em_dt c) (em_frac c) (em_eMin c) false (em_tab c)) cl (erase p) (erase_list l) g.
Proof.
  unfold continuous_interact. cbn [em_field em_dt em_frac em_eMin em_track em_tab].
  change (p_mass (erase p)) with (p_mass p). change (p_alive (erase p)) with (p_alive p).
  destruct (neqb (p_mass p) n0 || negb (p_alive p))%bool; [reflexivity|].
  destruct (rand_double E n0 n1 g) as [r g1]. destruct (nltb (em_frac c) r); [reflexivity|]. cbv zeta.
  change (calculate_eta (em_field c) (erase p)) with (calculate_eta (em_field c) p).
  rewrite rmap_bind. apply bind_ext. intros [[logh chi] g2].
  change (get_gamma (erase p)) with (get_gamma p). change (p_weight (erase p)) with (p_weight p).
  change (p_pos (erase p)) with (p_pos p). change (get_direction (erase p)) with (get_direction p). change (p_time (erase p)) with (p_time p).
  destruct (nltb (em_eMin c) _); [|reflexivity]. unfold new_photon_energy. rewrite (erase_new _ _ _ _ _ _ _ _ (em_track c)).
  destruct (new_particle E _ _ _ _ _ _ _ _ _ _) as [ph g3]. cbn [fst snd rmap bind erase3]. rewrite erase_add. reflexivity.
Qed.

Lemma erase_breit_wheeler c p l g :
  rmap erase3 (breit_wheeler_interact E c p l g) =
  breit_wheeler_interact E (mkBw (bw_field c) (bw_dt c) false (bw_tab c)) (erase p) (erase_list l) g.
Proof.
  unfold breit_wheeler_interact. cbn [bw_field bw_dt bw_track bw_tab].
  change (p_type (erase p)) with (p_type p). change (p_alive (erase p)) with (p_alive p).
  destruct (match p_type p with PPhoton => false | _ => true end || negb (p_alive p))%bool; [reflexivity|]. cbv zeta.
  change (photon_chi (bw_field c) (erase p)) with (photon_chi (bw_field c) p).
  rewrite rmap_bind. apply bind_ext. intros logt.
  change (get_energy (erase p)) with (get_energy p). set (d := ndiv _ _).
  change (update_depth (erase p) d) with (erase (update_depth p d)). set (p1 := update_depth p d).
  change (p_depth (erase p1)) with (p_depth p1). destruct (nltb (p_depth p1) n0); [|reflexivity].
  rewrite rmap_bind. apply bind_ext. intros [s g1]. cbn [fst snd].
  change (get_energy (erase p1)) with (get_energy p1). change (get_direction (erase p1)) with (get_direction p1).
  change (p_pos (erase p1)) with (p_pos p1). change (p_weight (erase p1)) with (p_weight p1). change (p_time (erase p1)) with (p_time p1).
  unfold new_lepton. rewrite (erase_new _ _ _ _ _ _ _ _ (bw_track c) g1). destruct (new_particle E _ _ _ _ _ _ _ _ (bw_track c) g1) as [po g2]. cbn [fst snd].
  rewrite (erase_new _ _ _ _ _ _ _ _ (bw_track c) g2). destruct (new_particle E _ _ _ _ _ _ _ _ (bw_track c) g2) as [el g3]. cbn [fst snd rmap bind erase3].
  rewrite !erase_add. reflexivity.
Qed.

Lemma erase_interact pr p l g : rmap erase3 (interact E pr p l g) = interact E (erase_proc pr) (erase p) (erase_list l) g.
Proof. destruct pr; cbn [interact erase_proc]; [apply erase_stochastic|apply erase_continuous|apply erase_breit_wheeler]. Qed.

Definition erase2 (r : event T * est E) : event T * est E := (erase_list (fst r), snd r).

Lemma erase_call k pr l g : rmap erase2 (call_process E k pr l g) = call_process E k (erase_proc pr) (erase_list l) g.
Proof.
  unfold call_process. rewrite erase_get, rmap_bind, bind_rmap. apply bind_ext. intros p.
  rewrite <- erase_interact, rmap_bind, bind_rmap. apply bind_ext. intros [[p' l'] g']. cbn [rmap bind erase2 erase3 fst snd].
  unfold erase2. cbn [fst snd]. rewrite erase_set. reflexivity.
Qed.
Lemma erase_calls k : forall prs l g, rmap erase2 (call_processes E k prs l g) = call_processes E k (map erase_proc prs) (erase_list l) g.
Proof.
  induction prs as [|pr prs IH]; intros l g; cbn [call_processes map]; [reflexivity|].
  rewrite <- erase_call, rmap_bind, bind_rmap. apply bind_ext. intros [l' g']. apply IH.
Qed.
Variable w : world T.
Lemma erase_visit k l g : rmap erase2 (visit E w k l g) = visit E (erase_world w) k (erase_list l) g.
Proof.
  unfold visit. rewrite erase_get, rmap_bind, bind_rmap. apply bind_ext. intros p. cbn [erase_world w_force w_field w_dt w_procs].
  rewrite <- erase_push, <- erase_set. apply erase_calls.
Qed.
Lemma erase_pass_from : forall fuel k l g, rmap erase2 (pass_from E w fuel k l g) = pass_from E (erase_world w) fuel k (erase_list l) g.
Proof.
  induction fuel as [|f IH]; intros k l g; cbn [pass_from]; rewrite erase_n; destruct (k <? pl_n l)%Z; try reflexivity.
  rewrite <- erase_visit, rmap_bind, bind_rmap. apply bind_ext. intros [l' g']. apply IH.
Qed.
Lemma erase_pass l g : rmap erase2 (pass E w l g) = pass E (erase_world w) (erase_list l) g.
Proof. apply erase_pass_from. Qed.

Context {S : Type}.
Variable htimes : list T.
Variable fill : nat -> T -> list (particle T) -> S -> res S.
Hypothesis fill_erase : forall i t ps h, fill i t (map erase ps) h = fill i t ps h.

Definition erase_state (s : state E S) : state E S := mkSt (st_time E s) (erase_list (st_ev E s)) (st_rng E s) (st_hc E s) (st_hist E s).

Lemma erase_hist_check s : rmap erase_state (hist_check E htimes fill s) = hist_check E htimes fill (erase_state s).
Proof.
  unfold hist_check. cbn [erase_state st_hc st_time st_ev st_hist st_rng erase_list pl_items]. destruct (nth_error htimes (st_hc E s)) as [ht|]; [|reflexivity].
  destruct (nleb ht (st_time E s)); [|reflexivity]. rewrite fill_erase, rmap_bind. apply bind_ext. intros h. reflexivity.
Qed.
Lemma erase_time_step s : rmap erase_state (time_step E w htimes fill s) = time_step E (erase_world w) htimes fill (erase_state s).
Proof.
  unfold time_step. rewrite <- erase_hist_check, rmap_bind, bind_rmap. apply bind_ext. intros s1.
  cbn [erase_state st_hc st_time st_ev st_hist st_rng]. rewrite <- erase_pass, rmap_bind, bind_rmap. apply bind_ext. intros [l g]. reflexivity.
Qed.
Lemma erase_time_loop tEnd : forall fuel s, rmap erase_state (time_loop E w htimes fill fuel tEnd s) = time_loop E (erase_world w) htimes fill fuel tEnd (erase_state s).
Proof.
  induction fuel as [|f IH]; intros s; cbn [time_loop]; change (st_time E (erase_state s)) with (st_time E s); destruct (nltb (st_time E s) tEnd); try reflexivity.
  rewrite <- erase_time_step, rmap_bind, bind_rmap. apply bind_ext. exact IH.
Qed.
Lemma erase_fill_rest : forall n s, rmap erase_state (fill_rest E fill n s) = fill_rest E fill n (erase_state s).
Proof.
  induction n as [|n IH]; intros s; cbn [fill_rest]; [reflexivity|]. cbn [erase_state st_hc st_time st_ev st_hist st_rng erase_list pl_items].
  rewrite fill_erase, rmap_bind. apply bind_ext. intros h. apply IH.
Qed.
Lemma erase_run fuel tEnd l g h : rmap erase_state (run_event E w htimes fill fuel tEnd l g h) = run_event E (erase_world w) htimes fill fuel tEnd (erase_list l) g h.
Proof.
  unfold run_event. rewrite rmap_bind. change (mkSt n0 (erase_list l) g 0 h) with (erase_state (mkSt n0 l g 0 h)). rewrite <- erase_time_loop, bind_rmap.
  apply bind_ext. intros s. apply erase_fill_rest.
Qed.
End Erase.

Section Source.
Context {T : Type} `{Num T}.
Variable E : Engine T.

Lemma erase_app_named : forall ps (h : hist T), app_named h (map erase ps) = app_named h ps.
Proof. induction ps as [|p ps IH]; intros h; cbn [app_named map]; [reflexivity|]. change (p_name (erase p)) with (p_name p). apply bind_ext. intros h'. apply IH. Qed.
Lemma erase_hist_fill i t ps (hs : list (hist T)) : hist_fill i t (map erase ps) hs = hist_fill i t ps hs.
Proof. unfold hist_fill. destruct (nth_error hs i); [|reflexivity]. rewrite erase_app_named. reflexivity. Qed.

Lemma erase_new_source ty di n e1 e2 a b c x d tr g :
  new_source E ty di n e1 e2 a b c x d false g =
  (erase_source (fst (new_source E ty di n e1 e2 a b c x d tr g)), snd (new_source E ty di n e1 e2 a b c x d tr g)).
Proof.
  unfold new_source. repeat match goal with |- context [let '(_, _) := ?e in _] => destruct e end. reflexivity.
Qed.
Definition eraseG (r : plist (particle T) * source T * est E) : plist (particle T) * source T * est E :=
  let '(l, s, g) := r in (erase_list l, erase_source s, g).
Lemma erase_make_primary ty e x d tr g :
  make_primary E ty e x d false g = rmap (fun r => (erase (fst r), snd r)) (make_primary E ty e x d tr g).
Proof.
  unfold make_primary, new_photon_energy, new_lepton_energy. destruct (is_name _ _ _); [cbn [rmap bind]; f_equal; apply erase_new|].
  destruct (is_name _ _ _); [cbn [rmap bind]; f_equal; apply erase_new|]. destruct (is_name _ _ _); [cbn [rmap bind]; f_equal; apply erase_new|]. reflexivity.
Qed.
Lemma erase_generate s g : rmap eraseG (generate_list E s g) = generate_list E (erase_source s) g.
Proof.
  unfold generate_list. change (s_count (erase_source s)) with (s_count s). change (s_nPart (erase_source s)) with (s_nPart s).
  destruct (s_count s =? s_nPart s)%Z; [reflexivity|]. cbv zeta. cbn [erase_source s_xs s_ys s_zs s_rot s_pos s_thetas s_phis s_energies s_type s_track].
  do 6 (rewrite rmap_bind; apply bind_ext; intros ?). rewrite (erase_make_primary _ _ _ _ (s_track s)), bind_rmap, rmap_bind. apply bind_ext. intros [p g'].
  cbn [fst snd rmap bind eraseG]. rewrite erase_add. reflexivity.
Qed.
End Source.
