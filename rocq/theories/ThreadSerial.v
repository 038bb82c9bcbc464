(** * Interleaved iterations can be put one after the other *)
From Coq Require Import String ZArith List Bool Lia Permutation.
From Verif Require Import Num Outcome OutcomeFacts Vec Units Numerics MCTools Particle ParticleList Source SourceFacts Fields Pusher Process Sim Histogram Hdf5
  Output Text Ini IniReader Program Threads ThreadFacts.
Import ListNotations.
Local Open Scope string_scope.
Local Open Scope list_scope.

(** ** Lists *)
Fixpoint foldm {A B} (f : A -> B -> res B) (l : list A) (b : B) : res B :=
  match l with [] => Ok b | a :: r => let* b' := f a b in foldm f r b' end.
Lemma foldm_app {A B} (f : A -> B -> res B) l1 l2 : forall b, foldm f (l1 ++ l2) b = let* b' := foldm f l1 b in foldm f l2 b'.
Proof. induction l1 as [|a l1 IH]; intros b; cbn; [reflexivity|]. destruct (f a b); cbn; auto. Qed.

(** Folding in another order, if neighbours may be exchanged. *)
Lemma foldm_perm {A B K} (f : A -> B -> res B) (key : A -> K) (good : A -> Prop) :
  (forall a b s s1 s2, good a -> good b -> key a <> key b -> f a s = Ok s1 -> f b s1 = Ok s2 -> exists s3, f b s = Ok s3 /\ f a s3 = Ok s2) ->
  forall l l', Permutation l l' -> NoDup (map key l) -> Forall good l -> forall s s', foldm f l s = Ok s' -> foldm f l' s = Ok s'.
Proof.
  intros SW l l' P. induction P as [|x l l' P IH|x y l|l l1 l2 P1 IH1 P2 IH2]; intros N G s s' F.
  - exact F.
  - cbn in *. apply bind_ok in F as (s1 & F1 & F). rewrite F1. cbn. inversion N; inversion G; subst. eauto.
  - cbn in *. apply bind_ok in F as (s1 & F1 & F). apply bind_ok in F as (s2 & F2 & F). inversion N as [|? ? N1 N2]; inversion G as [|? ? G1 G2]; inversion G2; subst.
    destruct (SW y x s s1 s2) as (s3 & A1 & A2); auto. { intros Q. apply N1. rewrite Q. left. reflexivity. }
    rewrite A1. cbn. rewrite A2. cbn. exact F.
  - apply IH2; [exact (Permutation_NoDup (Permutation_map key P1) N)|exact (Permutation_Forall P1 G)|auto].
Qed.
Lemma foldm_perm_all {A B} (f : A -> B -> res B) :
  (forall a b s s1 s2, f a s = Ok s1 -> f b s1 = Ok s2 -> exists s3, f b s = Ok s3 /\ f a s3 = Ok s2) ->
  forall l l', Permutation l l' -> forall s s', foldm f l s = Ok s' -> foldm f l' s = Ok s'.
Proof.
  intros SW l l' P. induction P as [|x l l' P IH|x y l|l l1 l2 P1 IH1 P2 IH2]; intros s s' F.
  - exact F.
  - cbn in *. apply bind_ok in F as (s1 & F1 & F). rewrite F1. cbn. eauto.
  - cbn in *. apply bind_ok in F as (s1 & F1 & F). apply bind_ok in F as (s2 & F2 & F).
    destruct (SW y x s s1 s2) as (s3 & A1 & A2); auto. rewrite A1. cbn. rewrite A2. exact F.
  - eauto.
Qed.

Lemma concat_upd {A B} (f : A -> list B) l : forall t a b e, nth_error l t = Some a -> f b = e ++ f a ->
  Permutation (concat (map f (upd l t b))) (e ++ concat (map f l)).
Proof.
  induction l as [|x l IH]; intros [|t] a b e N F; cbn in *; try discriminate.
  - injection N as ->. rewrite F, app_assoc. reflexivity.
  - rewrite (IH t a b e N F), !app_assoc. apply Permutation_app_tail, Permutation_app_comm.
Qed.
Lemma upd_comm {A} (l : list A) : forall i j a b, i <> j -> upd (upd l i a) j b = upd (upd l j b) i a.
Proof. induction l as [|x l IH]; intros [|i] [|j] a b N; cbn; try reflexivity; [congruence|]. f_equal. apply IH. congruence. Qed.
Lemma get_upd {A} (l : list A) i j a : j <> Z.of_nat i -> get (upd l i a) j = get l j.
Proof.
  intros N. unfold get. rewrite length_upd. destruct (_ || _)%bool eqn:Q; [reflexivity|]. apply orb_false_iff in Q as [Q _]. apply Z.ltb_ge in Q.
  rewrite nth_error_upd_other by lia. reflexivity.
Qed.
Lemma get_ok {A} (l : list A) i a : get l i = Ok a -> (0 <= i < Z.of_nat (length l))%Z /\ nth_error l (Z.to_nat i) = Some a.
Proof.
  unfold get. destruct (_ || _)%bool eqn:Q; [discriminate|]. apply orb_false_iff in Q as [Q1 Q2]. apply Z.ltb_ge in Q1. apply Z.leb_gt in Q2.
  destruct (nth_error _ _); [|discriminate]. intros Z; injection Z as ->. split; [lia|reflexivity].
Qed.
Lemma get_in {A} (l : list A) i a : (0 <= i)%Z -> nth_error l (Z.to_nat i) = Some a -> get l i = Ok a.
Proof.
  intros I N. unfold get. rewrite N. pose proof (nth_error_len _ _ _ N). destruct (_ || _)%bool eqn:Q; [|reflexivity].
  apply orb_true_iff in Q as [Q|Q]; [apply Z.ltb_lt in Q|apply Z.leb_le in Q]; lia.
Qed.

Section Serial.
Context {T : Type} `{Num T}.

(** ** Traces *)
Record trace := mkTr { tr_d : list T; tr_t : list Z; tr_c : list (nat * particle T); tr_s : list (save T) }.
Definition no_trace : trace := mkTr [] [] [] [].
Definition tapp (a b : trace) : trace := mkTr (tr_d a ++ tr_d b) (tr_t a ++ tr_t b) (tr_c a ++ tr_c b) (tr_s a ++ tr_s b).

(** [c] returns [a] after these accesses. *)
Inductive tr {A} : co T A -> A -> trace -> Prop :=
| tr_now a : tr (Now (Ok a)) a no_trace
| tr_draw k u a t : tr (k u) a t -> tr (Draw k) a (tapp (mkTr [u] [] [] []) t)
| tr_take k c a t : tr (k c) a t -> tr (Take k) a (tapp (mkTr [] [c] [] []) t)
| tr_count i p k a t : tr k a t -> tr (Count i p k) a (tapp (mkTr [] [] [(i, p)] []) t)
| tr_store c k a t : tr k a t -> tr (Store c k) a (tapp (mkTr [] [] [] [c]) t).

Lemma tapp_none t : tapp no_trace t = t.
Proof. destruct t. reflexivity. Qed.
Lemma tapp_assoc a b c : tapp a (tapp b c) = tapp (tapp a b) c.
Proof. unfold tapp. cbn. now rewrite !app_assoc. Qed.
Lemma tr_now_inv {A} (r : res A) a t : tr (Now r) a t -> r = Ok a /\ t = no_trace.
Proof. intros X. inversion X; subst; auto. Qed.
Lemma tr_draw_inv {A} (k : T -> co T A) a t : tr (Draw k) a t -> exists u t', tr (k u) a t' /\ t = tapp (mkTr [u] [] [] []) t'.
Proof. intros X. inversion X; subst; eauto. Qed.
Lemma tr_take_inv {A} (k : Z -> co T A) a t : tr (Take k) a t -> exists c t', tr (k c) a t' /\ t = tapp (mkTr [] [c] [] []) t'.
Proof. intros X. inversion X; subst; eauto. Qed.
Lemma tr_count_inv {A} i p (k : co T A) a t : tr (Count i p k) a t -> exists t', tr k a t' /\ t = tapp (mkTr [] [] [(i, p)] []) t'.
Proof. intros X. inversion X; subst; eauto. Qed.
Lemma tr_store_inv {A} c (k : co T A) a t : tr (Store c k) a t -> exists t', tr k a t' /\ t = tapp (mkTr [] [] [] [c]) t'.
Proof. intros X. inversion X; subst; eauto. Qed.
Lemma tr_bind {A B} (c : co T A) (f : A -> co T B) : forall b t, tr (cbind c f) b t -> exists a t1 t2, tr c a t1 /\ tr (f a) b t2 /\ t = tapp t1 t2.
Proof.
  induction c as [r|k IH|k IH|i p k IH|c k IH]; intros b t; cbn [cbind].
  - destruct r as [a| | | |]; intros Q; [|inversion Q..]. exists a, no_trace, t. split; [constructor|]. split; [exact Q|]. now rewrite tapp_none.
  - intros Q. apply tr_draw_inv in Q as (u & t' & X & ->). destruct (IH _ _ _ X) as (a & t1 & t2 & I1 & I2 & ->). exists a, (tapp (mkTr [u] [] [] []) t1), t2.
    split; [now constructor|]. split; [exact I2|]. apply tapp_assoc.
  - intros Q. apply tr_take_inv in Q as (u & t' & X & ->). destruct (IH _ _ _ X) as (a & t1 & t2 & I1 & I2 & ->). exists a, (tapp (mkTr [] [u] [] []) t1), t2.
    split; [now constructor|]. split; [exact I2|]. apply tapp_assoc.
  - intros Q. apply tr_count_inv in Q as (t' & X & ->). destruct (IH _ _ X) as (a & t1 & t2 & I1 & I2 & ->). exists a, (tapp (mkTr [] [] [(i, p)] []) t1), t2.
    split; [now constructor|]. split; [exact I2|]. apply tapp_assoc.
  - intros Q. apply tr_store_inv in Q as (t' & X & ->). destruct (IH _ _ X) as (a & t1 & t2 & I1 & I2 & ->). exists a, (tapp (mkTr [] [] [] [c]) t1), t2.
    split; [now constructor|]. split; [exact I2|]. apply tapp_assoc.
Qed.

(** Computations that neither take samples nor store. *)
Inductive quiet {A} : co T A -> Prop :=
| q_now r : quiet (Now r)
| q_draw k : (forall u, quiet (k u)) -> quiet (Draw k)
| q_count i p k : quiet k -> quiet (Count i p k).
Lemma quiet_bind {A B} (c : co T A) (f : A -> co T B) : quiet c -> (forall a, quiet (f a)) -> quiet (cbind c f).
Proof. intros Q F. induction Q as [r|k Q0 IH|i p k Q0 IH]; cbn [cbind]; [destruct r; try apply F; constructor|constructor; exact IH|constructor; exact IH]. Qed.
Lemma quiet_tr {A} (c : co T A) a t : quiet c -> tr c a t -> tr_t t = [] /\ tr_s t = [].
Proof. intros Q X. induction X; inversion Q; subst; cbn; auto. Qed.

Lemma q_rand a b : quiet (co_rand (T := T) a b).
Proof. constructor. constructor. Qed.
Lemma q_depth : quiet (co_depth (T := T)).
Proof. apply quiet_bind; [apply q_rand|constructor]. Qed.
Lemma q_new ty name mass charge pos mom weight time tracking : quiet (co_new (T := T) ty name mass charge pos mom weight time tracking).
Proof. apply quiet_bind; [apply q_depth|constructor]. Qed.
Lemma q_chi tab eta : quiet (co_chi (T := T) tab eta).
Proof. apply quiet_bind; [apply q_rand|constructor]. Qed.
Lemma q_split tab eta : quiet (co_split (T := T) tab eta).
Proof. apply quiet_bind; [apply q_rand|constructor]. Qed.
Ltac q := repeat first
  [ apply q_rand | apply q_depth | apply q_new | apply q_chi | apply q_split | apply q_now | apply quiet_bind; [|intros]
  | match goal with |- quiet (if ?b then _ else _) => destruct b end ].
Lemma q_interact pr p l : quiet (co_interact (T := T) pr p l).
Proof.
  destruct pr; cbn [co_interact]; unfold co_stochastic, co_continuous, co_breit_wheeler, co_init_depth, co_photon_energy, co_lepton, ret; cbv zeta; q.
Qed.
Lemma q_calls k prs : forall l, quiet (co_calls (T := T) k prs l).
Proof. induction prs as [|pr t IH]; intros l; cbn [co_calls]; [constructor|]. apply quiet_bind; [|intros; apply IH]. unfold co_call, ret. q. apply q_interact. Qed.
Lemma q_pass_from w fuel : forall k l, quiet (co_pass_from (T := T) w fuel k l).
Proof.
  induction fuel as [|f IH]; intros k l; cbn [co_pass_from]; destruct (_ <? _)%Z; try constructor. apply quiet_bind; [|intros; apply IH].
  unfold co_visit. apply quiet_bind; [constructor|intros; apply q_calls].
Qed.
Lemma q_fill i name ps : quiet (co_fill (T := T) i name ps).
Proof. induction ps as [|p ps IH]; cbn [co_fill]; [constructor|]. destruct (String.eqb _ _); [constructor|]; exact IH. Qed.
Lemma q_time_loop w pl tEnd fuel : forall s, quiet (co_time_loop (T := T) w pl fuel tEnd s).
Proof.
  induction fuel as [|f IH]; intros s; cbn [co_time_loop]; destruct (nltb _ _); try constructor. apply quiet_bind; [|intros; apply IH].
  unfold co_time_step, co_hist_check. apply quiet_bind; [|intros; apply quiet_bind; [apply q_pass_from|constructor]].
  destruct (nth_error _ _) as [[ht name]|]; [|constructor]. destruct (nleb _ _); [|constructor]. apply quiet_bind; [apply q_fill|constructor].
Qed.
Lemma q_fill_rest pl : forall i ps, quiet (co_fill_rest (T := T) i pl ps).
Proof. induction pl as [|[t name] pl IH]; intros i ps; cbn [co_fill_rest]; [constructor|]. apply quiet_bind; [apply q_fill|intros; apply IH]. Qed.
Lemma q_event w pl fuel tEnd l : quiet (co_event (T := T) w pl fuel tEnd l).
Proof. apply quiet_bind; [apply q_time_loop|intros]. apply quiet_bind; [apply q_fill_rest|constructor]. Qed.
Lemma q_primary type en pos dir track : quiet (co_primary (T := T) type en pos dir track).
Proof. unfold co_primary, co_photon_energy, co_lepton_energy. repeat (destruct (is_name _ _ _); [apply q_new|]). constructor. Qed.

(** An iteration: what comes after it has got its sample. *)
Definition sampled (src : source T) (c : Z) : co T (event T) :=
  match co_generate src with Take k => k c | x => x end.
Definition rest_of (w : world T) (pl : plan) (fuel : nat) (tEnd : T) (output tracking : bool) (j : Z) (l : event T) : co T unit :=
  cbind (if output then Store (SPrimary l j) (ret tt) else ret tt) (fun _ =>
  cbind (co_event w pl fuel tEnd l) (fun fin =>
  cbind (if output then Store (SFinal fin j) (ret tt) else ret tt) (fun _ =>
  if tracking then Store (STrack fin j) (ret tt) else ret tt))).
Lemma iteration_takes w pl fuel tEnd output tracking src j :
  iteration w pl fuel tEnd output tracking src j = Take (fun c => cbind (sampled src c) (rest_of w pl fuel tEnd output tracking j)).
Proof. reflexivity. Qed.
Lemma q_sampled src c : quiet (sampled src c).
Proof. unfold sampled, co_generate. do 6 (apply quiet_bind; [constructor|intros]). apply quiet_bind; [apply q_primary|constructor]. Qed.

Definition key (c : save T) : nat * Z := match c with SPrimary _ j => (0%nat, j) | SFinal _ j => (1%nat, j) | STrack _ j => (2%nat, j) end.
Definition keys_of (output tracking : bool) (j : Z) : list (nat * Z) := (if output then [(0%nat, j); (1%nat, j)] else []) ++ (if tracking then [(2%nat, j)] else []).
Lemma iteration_tr w pl fuel tEnd output tracking src j t : tr (iteration w pl fuel tEnd output tracking src j) tt t ->
  exists c t1, tr (cbind (sampled src c) (rest_of w pl fuel tEnd output tracking j)) tt t1 /\ t = tapp (mkTr [] [c] [] []) t1 /\ tr_t t1 = [] /\
    map key (tr_s t1) = keys_of output tracking j.
Proof.
  rewrite iteration_takes. intros X. apply tr_take_inv in X as (c & t0 & X & ->). exists c, t0. split; [assumption|]. split; [reflexivity|].
  apply tr_bind in X as (l & u1 & u2 & X1 & X2 & ->). destruct (quiet_tr _ _ _ (q_sampled src c) X1) as [Q1 Q2].
  unfold rest_of in X2. apply tr_bind in X2 as (b & v1 & v2 & X2 & X3 & ->). apply tr_bind in X3 as (fin & v3 & v4 & X3 & X4 & ->).
  destruct (quiet_tr _ _ _ (q_event _ _ _ _ _) X3) as [Q3 Q4]. apply tr_bind in X4 as (b' & v5 & v6 & X4 & X5 & ->).
  cbn [tapp tr_t tr_s no_trace]. rewrite Q1, Q2, Q3, Q4.
  assert (Q5 : tr_t v6 = [] /\ map key (tr_s v6) = if tracking then [(2%nat, j)] else []).
  { destruct tracking; [apply tr_store_inv in X5 as (a1 & X5 & ->)|]; apply tr_now_inv in X5 as [_ ->]; split; reflexivity. }
  destruct Q5 as [Q5 Q6]. unfold keys_of. rewrite <- Q6, Q5.
  destruct output.
  - apply tr_store_inv in X2 as (a1 & X2 & ->). apply tr_now_inv in X2 as [_ ->]. apply tr_store_inv in X4 as (a2 & X4 & ->). apply tr_now_inv in X4 as [_ ->]. split; reflexivity.
  - apply tr_now_inv in X2 as [_ ->]. apply tr_now_inv in X4 as [_ ->]. split; reflexivity.
Qed.

(** ** From an interleaving to the traces of its iterations *)
Variable E : Engine T.
Variable garbage : T.

Inductive drawn : est E -> list T -> est E -> Prop :=
| drawn_none g : drawn g [] g
| drawn_more g u g1 us g' : e_canon E g = (u, g1) -> drawn g1 us g' -> drawn g (u :: us) g'.
Inductive dealt : source T -> list Z -> source T -> Prop :=
| dealt_none s : dealt s [] s
| dealt_more s c s1 cs s' : take s = Ok (c, s1) -> dealt s1 cs s' -> dealt s (c :: cs) s'.
Definition count1 (x : nat * particle T) (hs : list (hist T)) : res (list (hist T)) := count (fst x) (snd x) hs.

Definition explains (ts : list (co T unit)) (s s' : shared E) : Prop :=
  exists trs us cs hs ss, Forall2 (fun c t => tr c tt t) ts trs /\
    drawn (sh_rng E s) us (sh_rng E s') /\ Permutation us (concat (map tr_d trs)) /\
    dealt (sh_src E s) cs (sh_src E s') /\ Permutation cs (concat (map tr_t trs)) /\
    foldm count1 hs (sh_hists E s) = Ok (sh_hists E s') /\ Permutation hs (concat (map tr_c trs)) /\
    foldm (store garbage) ss (sh_om E s) = Ok (sh_om E s') /\ Permutation ss (concat (map tr_s trs)).

Lemma Forall2_nth {A B} (P : A -> B -> Prop) l l' : Forall2 P l l' -> forall i a, nth_error l i = Some a -> exists b, nth_error l' i = Some b /\ P a b.
Proof. intros F. induction F as [|a b l l' X F IH]; intros [|i] z N; cbn in *; try discriminate; [injection N as <-; eauto|eauto]. Qed.
Lemma Forall2_upd_l {A B} (P : A -> B -> Prop) l : forall l' i a a' b', nth_error l i = Some a -> Forall2 P (upd l i a') l' -> P a b' -> Forall2 P l (upd l' i b').
Proof.
  induction l as [|x l IH]; intros l' [|i] a a' b' N F X; cbn in *; try discriminate; inversion F; subst; cbn.
  - injection N as ->. constructor; assumption.
  - constructor; [assumption|]. exact (IH _ _ _ _ _ N H4 X).
Qed.

Lemma par_explains ts s x : par E garbage ts s x -> forall s', x = Ok s' -> explains ts s s'.
Proof.
  intros P. induction P as [ts s F|ts s t c c' s1 x N A P IH|ts s x c I F Q]; intros s' X.
  - injection X as <-. exists (repeat no_trace (length ts)), [], [], [], []. split.
    { induction ts as [|c ts IH]; cbn; constructor; [rewrite (F c (or_introl eq_refl)); constructor|]. apply IH. intros d D. apply F. now right. }
    assert (C : forall B (f : trace -> list B), f no_trace = [] -> concat (map f (repeat no_trace (length ts))) = []).
    { intros B f Q. induction (length ts) as [|k IHk]; cbn; [reflexivity|]. now rewrite Q, IHk. }
    rewrite !C by reflexivity. repeat (split; [first [reflexivity|constructor]|]). constructor.
  - destruct (IH _ X) as (trs & us & cs & hs & ss & F & D1 & D2 & D3 & D4 & D5 & D6 & D7 & D8). clear IH X.
    destruct (Forall2_nth _ _ _ F t c') as (b & B1 & B2). { apply nth_error_upd_same. exact (nth_error_len _ _ _ N). }
    assert (U : forall e, tr c tt (tapp e b) -> Forall2 (fun c t => tr c tt t) ts (upd trs t (tapp e b))).
    { intros e X. exact (Forall2_upd_l _ _ _ _ _ _ _ N F X). }
    assert (V : forall B (f : trace -> list B) e, f (tapp e b) = f e ++ f b ->
       Permutation (concat (map f (upd trs t (tapp e b)))) (f e ++ concat (map f trs))).
    { intros B f e Q. exact (concat_upd f trs t b _ _ B1 Q). }
    destruct c as [r|k|k|i p k|c k]; cbn [act] in A.
    + destruct r; try discriminate. injection A as <- <-. exists (upd trs t (tapp no_trace b)), us, cs, hs, ss. split; [apply U; inversion B2; subst; rewrite tapp_none; constructor|].
      rewrite !V by reflexivity. cbn [no_trace tr_d tr_t tr_c tr_s app]. auto 10.
    + destruct (e_canon E (sh_rng E s)) as [u g] eqn:EC. injection A as <- <-. cbn [sh_rng sh_src sh_hists sh_om] in *.
      exists (upd trs t (tapp (mkTr [u] [] [] []) b)), (u :: us), cs, hs, ss. split; [apply U; constructor; exact B2|].
      rewrite !V by reflexivity. cbn [tr_d tr_t tr_c tr_s app]. split; [econstructor; eassumption|]. split; [now constructor|]. auto 10.
    + apply bind_ok in A as ([c s2] & A1 & A). injection A as <- <-. cbn [sh_rng sh_src sh_hists sh_om fst snd] in *.
      exists (upd trs t (tapp (mkTr [] [c] [] []) b)), us, (c :: cs), hs, ss. split; [apply U; constructor; exact B2|].
      rewrite !V by reflexivity. cbn [tr_d tr_t tr_c tr_s app]. split; [assumption|]. split; [assumption|]. split; [econstructor; eassumption|]. split; [now constructor|]. auto 10.
    + apply bind_ok in A as (hs1 & A1 & A). injection A as <- <-. cbn [sh_rng sh_src sh_hists sh_om fst snd] in *.
      exists (upd trs t (tapp (mkTr [] [] [(i, p)] []) b)), us, cs, ((i, p) :: hs), ss. split; [apply U; constructor; exact B2|].
      rewrite !V by reflexivity. cbn [tr_d tr_t tr_c tr_s app foldm]. unfold count1 at 1. cbn [fst snd]. rewrite A1. cbn [bind]. auto 12 using perm_skip.
    + apply bind_ok in A as (o1 & A1 & A). injection A as <- <-. cbn [sh_rng sh_src sh_hists sh_om fst snd] in *.
      exists (upd trs t (tapp (mkTr [] [] [] [c]) b)), us, cs, hs, (c :: ss). split; [apply U; constructor; exact B2|].
      rewrite !V by reflexivity. cbn [tr_d tr_t tr_c tr_s app foldm]. rewrite A1. cbn [bind]. auto 12 using perm_skip.
  - exfalso. subst. unfold rmap in X. destruct (Threads.act E garbage c s) eqn:A; try discriminate. exact (F _ eq_refl).
Qed.

(** ** Exchanging accesses *)
Lemma add_value_swap h v v' h1 h2 : add_value h v = Ok h1 -> add_value h1 v' = Ok h2 -> exists h3, add_value h v' = Ok h3 /\ add_value h3 v = Ok h2.
Proof.
  unfold add_value. intros A B. apply bind_ok in A as (c0 & A0 & A). apply bind_ok in A as (hit & A1 & A).
  assert (C : hi_centres h1 = hi_centres h /\ hi_n h1 = hi_n h /\ hi_entries h1 = u32 (hi_entries h + 1)).
  { destruct hit; [apply bind_ok in A as (i & _ & A); apply bind_ok in A as (x & _ & A)|]; injection A as <-; cbn; auto. }
  destruct C as (C1 & C2 & C3). rewrite C1, C2 in B. rewrite A0 in *. cbn [bind] in *. apply bind_ok in B as (hit' & B1 & B). rewrite B1. cbn [bind].
  destruct hit, hit'.
  - apply bind_ok in A as (i & A2 & A). apply bind_ok in A as (x & A3 & A). injection A as A. subst h1. cbn [hi_values hi_name hi_particle hi_type hi_time hi_n hi_entries hi_centres] in *.
    apply bind_ok in B as (i' & B2 & B). apply bind_ok in B as (x' & B3 & B). injection B as <-. rewrite B2. cbn [bind].
    destruct (Z.eq_dec (u32 i') (u32 i)) as [Q|Q].
    + rewrite Q in *. rewrite A3. cbn [bind]. eexists. split; [reflexivity|]. cbn [hi_values hi_name hi_particle hi_type hi_time hi_n hi_entries hi_centres].
      rewrite A0. cbn [bind]. rewrite A1. cbn [bind]. rewrite A2. cbn [bind]. apply get_ok in A3 as [A3 _].
      destruct (get_ok _ _ _ B3) as [B4 B5]. rewrite nth_error_upd_same in B5 by lia. injection B5 as <-.
      rewrite (get_in (upd (hi_values h) (Z.to_nat (u32 i)) (nadd x n1)) (u32 i) (nadd x n1)) by (try apply nth_error_upd_same; lia). cbn [bind]. rewrite !upd_upd. reflexivity.
    + assert (R0 : (0 <= u32 i)%Z) by (unfold u32; apply Z.mod_pos_bound; reflexivity). assert (R1 : (0 <= u32 i')%Z) by (unfold u32; apply Z.mod_pos_bound; reflexivity).
      rewrite get_upd in B3 by lia. rewrite B3. cbn [bind]. eexists. split; [reflexivity|]. cbn [hi_values hi_name hi_particle hi_type hi_time hi_n hi_entries hi_centres].
      rewrite A0. cbn [bind]. rewrite A1. cbn [bind]. rewrite A2. cbn [bind]. rewrite get_upd by lia. rewrite A3. cbn [bind]. rewrite upd_comm by lia. reflexivity.
  - apply bind_ok in A as (i & A2 & A). apply bind_ok in A as (x & A3 & A). injection A as A. subst h1. injection B as <-. eexists. split; [reflexivity|].
    cbn [hi_values hi_name hi_particle hi_type hi_time hi_n hi_entries hi_centres]. rewrite A0. cbn [bind]. rewrite A1. cbn [bind]. rewrite A2. cbn [bind]. rewrite A3. reflexivity.
  - injection A as A. subst h1. apply bind_ok in B as (i & B2 & B). apply bind_ok in B as (x & B3 & B). injection B as <-. rewrite B2. cbn [bind]. cbn [hi_values] in B3. rewrite B3. cbn [bind]. eexists. split; [reflexivity|].
    cbn [hi_values hi_name hi_particle hi_type hi_time hi_n hi_entries hi_centres]. rewrite A0. cbn [bind]. rewrite A1. reflexivity.
  - injection A as A. subst h1. injection B as <-. eexists. split; [reflexivity|].
    cbn [hi_values hi_name hi_particle hi_type hi_time hi_n hi_entries hi_centres]. rewrite A0. cbn [bind]. rewrite A1. reflexivity.
Qed.
Lemma app_particle_swap h p q h1 h2 : app_particle h p = Ok h1 -> app_particle h1 q = Ok h2 -> exists h3, app_particle h q = Ok h3 /\ app_particle h3 p = Ok h2.
Proof.
  intros A B. destruct (app_particle_static _ _ _ A) as (_ & _ & _ & S4 & S5 & _). unfold app_particle in *. rewrite S5 in B. destruct (hi_n h =? 0)%Z eqn:Z; [discriminate|].
  assert (X : forall g k : hist T, add_value g (get_energy q) = Ok k -> hi_type k = hi_type g /\ hi_n k = hi_n g).
  { intros g k Y. unfold add_value in Y. apply bind_ok in Y as (? & _ & Y). apply bind_ok in Y as ([|] & _ & Y);
      [apply bind_ok in Y as (? & _ & Y); apply bind_ok in Y as (? & _ & Y)|]; injection Y as <-; auto. }
  unfold type_is, literal in *. rewrite !orb_true_r in *. destruct (add_value_swap _ _ _ _ _ A B) as (h3 & C & D). exists h3. split; [exact C|].
  destruct (X _ _ C) as [_ ->]. rewrite Z, !orb_true_r. exact D.
Qed.
Lemma count_swap a b (s s1 s2 : list (hist T)) : count1 a s = Ok s1 -> count1 b s1 = Ok s2 -> exists s3, count1 b s = Ok s3 /\ count1 a s3 = Ok s2.
Proof.
  destruct a as [i p], b as [j q]. unfold count1, count. cbn [fst snd]. destruct (nth_error s i) as [h|] eqn:N; [|discriminate].
  intros A B. apply bind_ok in A as (h1 & A1 & A). injection A as <-. pose proof (nth_error_len _ _ _ N).
  destruct (Nat.eq_dec i j) as [<-|D].
  - rewrite nth_error_upd_same in B by assumption. apply bind_ok in B as (h2 & B1 & B). injection B as <-. rewrite N.
    destruct (app_particle_swap _ _ _ _ _ A1 B1) as (h3 & C1 & C2). rewrite C1. cbn [bind]. eexists. split; [reflexivity|].
    rewrite nth_error_upd_same by assumption. rewrite C2. cbn [bind]. now rewrite !upd_upd.
  - rewrite nth_error_upd_other in B by assumption. destruct (nth_error s j) as [h'|] eqn:N'; [|discriminate]. apply bind_ok in B as (h2 & B1 & B). injection B as <-.
    rewrite B1. cbn [bind]. eexists. split; [reflexivity|]. rewrite nth_error_upd_other by congruence. rewrite N, A1. cbn [bind]. now rewrite upd_comm by congruence.
Qed.

Lemma species_swap name a ps b qs (t t1 t2 : table T) : a <> b -> store_species garbage name a ps t = Ok t1 -> store_species garbage name b qs t1 = Ok t2 ->
  exists t3, store_species garbage name b qs t = Ok t3 /\ store_species garbage name a ps t3 = Ok t2.
Proof.
  intros D A B. unfold store_species in *. apply bind_ok in A as (x1 & A1 & A). apply bind_ok in A as (x2 & A2 & A). apply bind_ok in A as (r & A3 & A). injection A as <-.
  cbn [tb_count tb_rows] in B. destruct (get_ok _ _ _ A1) as [P1 _]. destruct (get_ok _ _ _ A2) as [P2 _].
  apply bind_ok in B as (y1 & B1 & B). apply bind_ok in B as (y2 & B2 & B). apply bind_ok in B as (r' & B3 & B). injection B as <-.
  rewrite get_upd in B1 by lia. rewrite get_upd in B2 by lia. destruct (get_ok _ _ _ B1) as [P3 _]. rewrite B1. cbn [bind]. rewrite B2. cbn [bind]. rewrite B3. cbn [bind]. eexists. split; [reflexivity|].
  cbn [tb_count tb_rows]. rewrite !get_upd by lia. rewrite A1. cbn [bind]. rewrite A2. cbn [bind]. rewrite A3. cbn [bind]. rewrite (upd_comm (tb_rows t)), (upd_comm (tb_count t)) by lia. reflexivity.
Qed.
(** The same but for the order of the tracks. *)
Definition alike (o o' : om T) : Prop := with_tracks o [] = with_tracks o' [] /\ Permutation (om_tracks o) (om_tracks o').
Lemma alike_refl o : alike o o.
Proof. split; reflexivity. Qed.
Lemma alike_trans a b c : alike a b -> alike b c -> alike a c.
Proof. intros [A1 A2] [B1 B2]. split; [congruence|]. now transitivity (om_tracks b). Qed.
Lemma alike_inv (o o' : om T) : alike o o' -> o' = with_tracks o (om_tracks o') /\ Permutation (om_tracks o) (om_tracks o').
Proof. intros [A B]. split; [|exact B]. destruct o, o'. unfold with_tracks in *. cbn in *. congruence. Qed.
Lemma store_tracks c (o : om T) ts : forall o1, store garbage c o = Ok o1 -> exists es, om_tracks o1 = om_tracks o ++ es /\ store garbage c (with_tracks o ts) = Ok (with_tracks o1 (ts ++ es)).
Proof.
  destruct c as [l j|l j|l j]; cbn [store]; intros o1 A.
  - unfold store_primary in *. apply bind_ok in A as (p & A1 & A). apply bind_ok in A as (x & A2 & A). injection A as <-. exists []. rewrite !app_nil_r. split; [reflexivity|].
    rewrite A1. cbn [bind om_prim with_tracks]. rewrite A2. reflexivity.
  - unfold store_final in *. apply bind_ok in A as (e & A1 & A). apply bind_ok in A as (po & A2 & A). apply bind_ok in A as (ph & A3 & A). injection A as <-. exists []. rewrite !app_nil_r.
    split; [reflexivity|]. cbn [om_el om_po om_ph with_tracks]. rewrite A1. cbn [bind]. rewrite A2. cbn [bind]. rewrite A3. reflexivity.
  - injection A as <-. exists (map (track_of j) (pl_items l)). split; reflexivity.
Qed.
Lemma store_alike c (o o' : om T) o1 : alike o o' -> store garbage c o = Ok o1 -> exists o1', store garbage c o' = Ok o1' /\ alike o1 o1'.
Proof.
  intros A X. apply alike_inv in A as [A B]. destruct (store_tracks c o (om_tracks o') o1 X) as (es & Y & Z). rewrite <- A in Z. eexists. split; [exact Z|]. split; [reflexivity|].
  cbn [om_tracks with_tracks]. rewrite Y. now apply Permutation_app_tail.
Qed.
Definition no_track (c : save T) : Prop := match c with STrack _ _ => False | _ => True end.
Lemma store_swap (a b : save T) s s1 s2 : no_track a -> no_track b -> key a <> key b -> store garbage a s = Ok s1 -> store garbage b s1 = Ok s2 ->
  exists s3, store garbage b s = Ok s3 /\ store garbage a s3 = Ok s2.
Proof.
  intros NA NB K A B. destruct a as [l i|l i|l i], b as [l' j|l' j|l' j]; try contradiction; cbn [store key] in *.
  - assert (D : i <> j) by congruence. unfold store_primary in *. apply bind_ok in A as (p & A1 & A). apply bind_ok in A as (x & A2 & A). injection A as <-. cbn [om_prim with_prim] in B.
    apply bind_ok in B as (q & B1 & B). apply bind_ok in B as (y & B2 & B). injection B as <-. destruct (get_ok _ _ _ A2) as [P _]. rewrite get_upd in B2 by lia. destruct (get_ok _ _ _ B2) as [P' _].
    rewrite B1. cbn [bind]. rewrite B2. cbn [bind]. eexists. split; [reflexivity|]. cbn [om_prim with_prim]. rewrite get_upd by lia. rewrite A1. cbn [bind]. rewrite A2. cbn [bind].
    unfold with_prim. cbn. rewrite upd_comm by lia. reflexivity.
  - unfold store_primary, store_final in *. apply bind_ok in A as (p & A1 & A). apply bind_ok in A as (x & A2 & A). injection A as <-. cbn [om_el om_po om_ph with_prim] in B.
    apply bind_ok in B as (e & B1 & B). apply bind_ok in B as (po & B2 & B). apply bind_ok in B as (ph & B3 & B). injection B as <-.
    rewrite B1. cbn [bind]. rewrite B2. cbn [bind]. rewrite B3. cbn [bind]. eexists. split; [reflexivity|]. cbn [om_prim with_tables]. rewrite A1. cbn [bind]. rewrite A2. reflexivity.
  - unfold store_primary, store_final in *. apply bind_ok in A as (e & A1 & A). apply bind_ok in A as (po & A2 & A). apply bind_ok in A as (ph & A3 & A). injection A as <-.
    cbn [om_prim with_tables] in B. apply bind_ok in B as (q & B1 & B). apply bind_ok in B as (y & B2 & B). injection B as <-. rewrite B1. cbn [bind]. rewrite B2. cbn [bind].
    eexists. split; [reflexivity|]. cbn [om_el om_po om_ph with_prim]. rewrite A1. cbn [bind]. rewrite A2. cbn [bind]. rewrite A3. reflexivity.
  - assert (D : i <> j) by congruence. unfold store_final in *. apply bind_ok in A as (e & A1 & A). apply bind_ok in A as (po & A2 & A). apply bind_ok in A as (ph & A3 & A). injection A as <-.
    cbn [om_el om_po om_ph with_tables] in B. apply bind_ok in B as (e' & B1 & B). apply bind_ok in B as (po' & B2 & B). apply bind_ok in B as (ph' & B3 & B). injection B as <-.
    destruct (species_swap _ _ _ _ _ _ _ _ D A1 B1) as (x & X1 & X2). destruct (species_swap _ _ _ _ _ _ _ _ D A2 B2) as (y & Y1 & Y2). destruct (species_swap _ _ _ _ _ _ _ _ D A3 B3) as (z & Z1 & Z2).
    rewrite X1. cbn [bind]. rewrite Y1. cbn [bind]. rewrite Z1. cbn [bind]. eexists. split; [reflexivity|]. cbn [om_el om_po om_ph with_tables]. rewrite X2. cbn [bind]. rewrite Y2. cbn [bind]. rewrite Z2. reflexivity.
Qed.
Lemma store_swap_any (a b : save T) s s1 s2 : key a <> key b -> store garbage a s = Ok s1 -> store garbage b s1 = Ok s2 ->
  exists s3 s4, store garbage b s = Ok s3 /\ store garbage a s3 = Ok s4 /\ alike s2 s4.
Proof.
  intros K A B.
  assert (N : no_track a /\ no_track b \/ (exists l j, a = STrack l j) \/ exists l j, b = STrack l j) by (destruct a, b; cbn [no_track]; eauto 6).
  destruct N as [[NA NB]|[(l & j & ->)|(l & j & ->)]].
  - destruct (store_swap a b s s1 s2 NA NB K A B) as (s3 & X & Y). exists s3, s2. split; [exact X|]. split; [exact Y|apply alike_refl].
  - cbn [store] in A. injection A as <-. unfold store_track in B. destruct (store_tracks b _ (om_tracks s) s2 B) as (es & X & Y). cbn [om_tracks with_tracks] in X.
    assert (Q : with_tracks (with_tracks s (om_tracks s ++ map (track_of j) (pl_items l))) (om_tracks s) = s) by (destruct s; reflexivity). rewrite Q in Y.
    eexists _, _. split; [exact Y|]. split; [reflexivity|]. unfold store_track. split; [reflexivity|]. cbn [om_tracks with_tracks]. rewrite X, <- !app_assoc. apply Permutation_app_head, Permutation_app_comm.
  - cbn [store] in B. injection B as <-. destruct (store_tracks a s (om_tracks s ++ map (track_of j) (pl_items l)) s1 A) as (es & X & Y).
    eexists _, _. split; [reflexivity|]. split; [exact Y|]. unfold store_track. split; [reflexivity|]. cbn [om_tracks with_tracks]. rewrite X, <- !app_assoc. apply Permutation_app_head, Permutation_app_comm.
Qed.
Lemma fold_alike l : forall (o o' : om T) o1, alike o o' -> foldm (store garbage) l o = Ok o1 -> exists o1', foldm (store garbage) l o' = Ok o1' /\ alike o1 o1'.
Proof.
  induction l as [|c l IH]; intros o o' o1 A F; cbn in *; [injection F as <-; eauto|]. apply bind_ok in F as (o2 & F1 & F).
  destruct (store_alike _ _ _ _ A F1) as (o2' & X & B). rewrite X. cbn [bind]. eauto.
Qed.
Lemma stores_perm l l' : Permutation l l' -> NoDup (map key l) -> forall o o1 : om T, foldm (store garbage) l o = Ok o1 -> exists o2, foldm (store garbage) l' o = Ok o2 /\ alike o1 o2.
Proof.
  intros P. induction P as [|x l l' P IH|x y l|l l1 l2 P1 IH1 P2 IH2]; intros N o o1 F.
  - eauto using alike_refl.
  - cbn in *. apply bind_ok in F as (s1 & F1 & F). rewrite F1. cbn. inversion N; subst. eauto.
  - cbn in *. apply bind_ok in F as (s1 & F1 & F). apply bind_ok in F as (s2 & F2 & F). inversion N as [|? ? N1 N2]; subst.
    destruct (store_swap_any y x o s1 s2) as (s3 & s4 & A1 & A2 & A3); auto. { intros Q. apply N1. rewrite Q. left. reflexivity. }
    rewrite A1. cbn. rewrite A2. cbn. exact (fold_alike _ _ _ _ A3 F).
  - destruct (IH1 N _ _ F) as (o2 & A & B). destruct (IH2 (Permutation_NoDup (Permutation_map key P1) N) _ _ A) as (o3 & C & D). exists o3. split; [exact C|]. exact (alike_trans _ _ _ B D).
Qed.
Lemma fold_no_track l : Forall no_track l -> forall o o1 : om T, foldm (store garbage) l o = Ok o1 -> om_tracks o1 = om_tracks o.
Proof.
  intros N. induction N as [|c l Nc N IH]; intros o o1 F; cbn in F; [injection F as <-; reflexivity|]. apply bind_ok in F as (o2 & F1 & F). rewrite (IH _ _ F).
  destruct c as [q j|q j|q j]; cbn [store no_track] in *; [| |contradiction].
  - unfold store_primary in F1. apply bind_ok in F1 as (? & _ & F1). apply bind_ok in F1 as (? & _ & F1). injection F1 as <-. reflexivity.
  - unfold store_final in F1. apply bind_ok in F1 as (? & _ & F1). apply bind_ok in F1 as (? & _ & F1). apply bind_ok in F1 as (? & _ & F1). injection F1 as <-. reflexivity.
Qed.

End Serial.
