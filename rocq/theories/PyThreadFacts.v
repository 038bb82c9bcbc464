(** * beamOn on several threads: proofs *)
From Coq Require Import String ZArith List Bool Lia Permutation.
From Verif Require Import Num Outcome OutcomeFacts Vec Units Numerics MCTools Particle ParticleList Source SourceFacts Fields Pusher Process Sim Histogram
  RunManager RunFacts Threads ThreadFacts ThreadSerial ThreadReplay PyThreads.
Import ListNotations.
Local Open Scope list_scope.

Section Walk.
Context {T : Type} `{NT : Num T}.
Notation trace := (trace (T := T)).

(** ** Computations in the middle: [c] becomes [d] by these accesses *)
Inductive walk {A} : co T A -> trace -> co T A -> Prop :=
| wk_here c : walk c no_trace c
| wk_draw k u t d : walk (k u) t d -> walk (Draw k) (tapp (mkTr [u] [] [] []) t) d
| wk_take k c t d : walk (k c) t d -> walk (Take k) (tapp (mkTr [] [c] [] []) t) d
| wk_count i p k t d : walk k t d -> walk (Count i p k) (tapp (mkTr [] [] [(i, p)] []) t) d
| wk_store c k t d : walk k t d -> walk (Store c k) (tapp (mkTr [] [] [] [c]) t) d.

Lemma walk_trans {A} (a b c : co T A) t t' : walk a t b -> walk b t' c -> walk a (tapp t t') c.
Proof. intros W. induction W; intros W'; [now rewrite tapp_none|rewrite <- tapp_assoc; constructor; auto..]. Qed.
Lemma tapp_no t : tapp t no_trace = t :> trace.
Proof. destruct t. unfold tapp, no_trace. cbn. now rewrite !app_nil_r. Qed.
Lemma walk_tr {A} (c : co T A) t d a : walk c t d -> d = Now (Ok a) -> tr c a t.
Proof. intros W. induction W; intros Q; [subst; constructor|constructor; auto..]. Qed.
Lemma walk_now {A} (r : res A) t d : walk (Now r) t d -> t = no_trace /\ d = Now r.
Proof. intros W. inversion W; subst. auto. Qed.
Lemma walk_bind {A B} (c : co T A) (f : A -> co T B) : forall t d, walk (cbind c f) t d ->
  (exists c1, walk c t c1 /\ d = cbind c1 f) \/ (exists a t1 t2, tr c a t1 /\ walk (f a) t2 d /\ t = tapp t1 t2).
Proof.
  induction c as [r|k IH|k IH|i p k IH|c k IH]; intros t d W.
  - destruct r as [a| | | |]; [right; exists a, no_trace, t; split; [constructor|split; [exact W|now rewrite tapp_none]]|..]; cbn [cbind] in W; apply walk_now in W as [-> ->]; left; eexists; (split; [constructor|reflexivity]).
  - cbn [cbind] in W. inversion W as [|k0 u t' d0 W'| | |]; subst; [left; exists (Draw k); split; [constructor|reflexivity]|].
    destruct (IH _ _ _ W') as [(c1 & X & ->)|(a & t1 & t2 & X1 & X2 & ->)]; [left; exists c1; split; [constructor; exact X|reflexivity]|].
    right. exists a, (tapp (mkTr [u] [] [] []) t1), t2. split; [constructor; exact X1|]. split; [exact X2|apply tapp_assoc].
  - cbn [cbind] in W. inversion W as [| |k0 u t' d0 W'| |]; subst; [left; exists (Take k); split; [constructor|reflexivity]|].
    destruct (IH _ _ _ W') as [(c1 & X & ->)|(a & t1 & t2 & X1 & X2 & ->)]; [left; exists c1; split; [constructor; exact X|reflexivity]|].
    right. exists a, (tapp (mkTr [] [u] [] []) t1), t2. split; [constructor; exact X1|]. split; [exact X2|apply tapp_assoc].
  - cbn [cbind] in W. inversion W as [| | |i0 p0 k0 t' d0 W'|]; subst; [left; exists (Count i p k); split; [constructor|reflexivity]|].
    destruct (IH _ _ W') as [(c1 & X & ->)|(a & t1 & t2 & X1 & X2 & ->)]; [left; exists c1; split; [constructor; exact X|reflexivity]|].
    right. exists a, (tapp (mkTr [] [] [(i, p)] []) t1), t2. split; [constructor; exact X1|]. split; [exact X2|apply tapp_assoc].
  - cbn [cbind] in W. inversion W as [| | | |c0 k0 t' d0 W']; subst; [left; exists (Store c k); split; [constructor|reflexivity]|].
    destruct (IH _ _ W') as [(c1 & X & ->)|(a & t1 & t2 & X1 & X2 & ->)]; [left; exists c1; split; [constructor; exact X|reflexivity]|].
    right. exists a, (tapp (mkTr [] [] [] [c]) t1), t2. split; [constructor; exact X1|]. split; [exact X2|apply tapp_assoc].
Qed.

(** ** Computations that only draw *)
Inductive still {A} : co T A -> Prop :=
| st_now r : still (Now r)
| st_draw k : (forall u, still (k u)) -> still (Draw k).
Lemma still_bind {A B} (c : co T A) (f : A -> co T B) : still c -> (forall a, still (f a)) -> still (cbind c f).
Proof. intros Q F. induction Q as [r|k Q0 IH]; cbn [cbind]; [destruct r; try apply F; constructor|constructor; exact IH]. Qed.
Lemma still_walk {A} (c : co T A) t d : still c -> walk c t d -> tr_t t = [] /\ tr_c t = [] /\ tr_s t = [] /\ still d.
Proof. intros Q W. induction W as [c|k u t d W IH|k c t d W IH|i p k t d W IH|c k t d W IH]; inversion Q; subst; cbn; auto. Qed.
Lemma still_tr {A} (c : co T A) a t : still c -> tr c a t -> tr_t t = [] /\ tr_c t = [] /\ tr_s t = [].
Proof. intros Q X. induction X; inversion Q; subst; cbn; auto. Qed.
Lemma s_rand a b : still (co_rand (T := T) a b).
Proof. constructor. constructor. Qed.
Lemma s_depth : still (co_depth (T := T)).
Proof. apply still_bind; [apply s_rand|constructor]. Qed.
Lemma s_new ty name mass charge pos mom weight time tracking : still (co_new (T := T) ty name mass charge pos mom weight time tracking).
Proof. apply still_bind; [apply s_depth|constructor]. Qed.
Lemma s_chi' tab eta : still (co_chi (T := T) tab eta).
Proof. apply still_bind; [apply s_rand|constructor]. Qed.
Lemma s_split tab eta : still (co_split (T := T) tab eta).
Proof. apply still_bind; [apply s_rand|constructor]. Qed.
Ltac st := repeat first
  [ apply s_rand | apply s_depth | apply s_new | apply s_chi' | apply s_split | apply st_now | apply still_bind; [|intros]
  | match goal with |- still (if ?b then _ else _) => destruct b end ].
Lemma s_interact pr p l : still (co_interact (T := T) pr p l).
Proof. destruct pr; cbn [co_interact]; unfold co_stochastic, co_continuous, co_breit_wheeler, co_init_depth, co_photon_energy, co_lepton, ret; cbv zeta; st. Qed.
Lemma s_calls k prs : forall l, still (co_calls (T := T) k prs l).
Proof. induction prs as [|pr t IH]; intros l; cbn [co_calls]; [constructor|]. apply still_bind; [|intros; apply IH]. unfold co_call, ret. st. apply s_interact. Qed.
Lemma s_pass_from w fuel : forall k l, still (co_pass_from (T := T) w fuel k l).
Proof.
  induction fuel as [|f IH]; intros k l; cbn [co_pass_from]; destruct (_ <? _)%Z; try constructor. apply still_bind; [|intros; apply IH].
  unfold co_visit. apply still_bind; [constructor|intros; apply s_calls].
Qed.
Lemma s_time_loop w tEnd fuel : forall s, still (co_time_loop (T := T) w [] fuel tEnd s).
Proof.
  induction fuel as [|f IH]; intros s; cbn [co_time_loop]; destruct (nltb _ _); try constructor. apply still_bind; [|intros; apply IH].
  unfold co_time_step, co_hist_check. apply still_bind; [|intros; apply still_bind; [apply s_pass_from|constructor]].
  destruct (nth_error [] _) as [[ht name]|] eqn:Q; [destruct (lo_hc s); discriminate Q|constructor].
Qed.
Lemma s_primary type en pos dir track : still (co_primary (T := T) type en pos dir track).
Proof. unfold co_primary, co_photon_energy, co_lepton_energy. repeat (destruct (is_name _ _ _); [apply s_new|]). constructor. Qed.
Lemma s_sampled src c : still (sampled (T := T) src c).
Proof. unfold sampled, co_generate. do 6 (apply still_bind; [constructor|intros]). apply still_bind; [apply s_primary|constructor]. Qed.

(** ** The steps of one thread *)
Definition index (c : save T) : nat := match c with SPrimary _ j | SFinal _ j | STrack _ j => Z.to_nat j end.
Inductive mine (tid : nat) {A} : co T A -> Prop :=
| mi_now r : mine tid (Now r)
| mi_draw k : (forall u, mine tid (k u)) -> mine tid (Draw k)
| mi_take k : (forall u, mine tid (k u)) -> mine tid (Take k)
| mi_store c k : index c = tid -> mine tid k -> mine tid (Store c k).
Lemma mine_bind tid {A B} (c : co T A) (f : A -> co T B) : mine tid c -> (forall a, mine tid (f a)) -> mine tid (cbind c f).
Proof. intros Q F. induction Q as [r|k Q0 IH|k Q0 IH|c k Q0 Q1 IH]; cbn [cbind]; [destruct r; try apply F; constructor|constructor; auto..]. Qed.
Lemma still_mine tid {A} (c : co T A) : still c -> mine tid c.
Proof. intros Q. induction Q; constructor; auto. Qed.

Variable fuel : nat.
Variable w : world T.
Variable tEnd : T.
Variable src : source T.
Notation thread := (py_thread fuel w tEnd src).
(** what comes after the sample of an iteration is known *)
Definition after (tid k : nat) (l : event T) : co T unit :=
  Store (SPrimary l (Z.of_nat tid)) (cbind (co_time_loop w [] fuel tEnd (mkLoc n0 l 0)) (fun s => Store (SFinal (lo_ev s) (Z.of_nat tid)) (thread tid k))).
Lemma thread_takes tid k : thread tid (S k) = Take (fun c => cbind (sampled src c) (after tid k)).
Proof. reflexivity. Qed.
Lemma thread_mine tid k : mine tid (thread tid k).
Proof.
  induction k as [|k IH]; [constructor|]. rewrite thread_takes. constructor. intros c. apply mine_bind; [apply still_mine, s_sampled|]. intros l. unfold after.
  constructor; [cbn [index]; lia|]. apply mine_bind; [apply still_mine, s_time_loop|]. intros s. constructor; [cbn [index]; lia|exact IH].
Qed.

(** an event: sample, particles at the start and at the end, random numbers *)
Record pyev := mkEv { ev_c : Z; ev_l : event T; ev_f : event T; ev_d : list T }.
Definition event_tr (e : pyev) : Prop := exists t1 t2 s, tr (sampled src (ev_c e)) (ev_l e) t1 /\ tr (co_time_loop w [] fuel tEnd (mkLoc n0 (ev_l e) 0)) s t2 /\
  ev_f e = lo_ev s /\ ev_d e = tr_d t1 ++ tr_d t2.
Definition ev_saves (tid : nat) (e : pyev) : list (save T) := [SPrimary (ev_l e) (Z.of_nat tid); SFinal (ev_f e) (Z.of_nat tid)].

Lemma thread_tr tid k : forall t, tr (thread tid k) tt t -> exists evs, length evs = k /\ Forall event_tr evs /\
  tr_t t = map ev_c evs /\ tr_d t = concat (map ev_d evs) /\ tr_s t = flat_map (ev_saves tid) evs.
Proof.
  induction k as [|k IH]; intros t X.
  - apply tr_now_inv in X as [_ ->]. exists []. repeat split; constructor.
  - rewrite thread_takes in X. apply tr_take_inv in X as (c & t0 & X & ->). apply tr_bind in X as (l & t1 & t2 & X1 & X & ->).
    unfold after in X. apply tr_store_inv in X as (t3 & X & ->). apply tr_bind in X as (s & t4 & t5 & X2 & X & ->). apply tr_store_inv in X as (t6 & X & ->).
    destruct (IH _ X) as (evs & L & F & A1 & A2 & A3). exists (mkEv c l (lo_ev s) (tr_d t1 ++ tr_d t4) :: evs).
    destruct (still_tr _ _ _ (s_sampled src c) X1) as (B1 & _ & B3). destruct (still_tr _ _ _ (s_time_loop _ _ _ _) X2) as (B4 & _ & B6).
    split; [cbn; lia|]. split; [constructor; [exists t1, t4, s; cbn; auto|exact F]|].
    cbn [tapp tr_t tr_d tr_s map concat flat_map ev_saves ev_c ev_d ev_l ev_f app]. rewrite B1, B3, B4, B6, A1, A2, A3. cbn [app]. rewrite app_assoc. auto.
Qed.

Lemma thread_takes_le tid k : forall t d, walk (thread tid k) t d -> (length (tr_t t) <= k)%nat /\ (forall f, d = Take f -> (length (tr_t t) < k)%nat).
Proof.
  induction k as [|k IH]; intros t d W.
  - apply walk_now in W as [-> ->]. cbn. split; [lia|discriminate].
  - rewrite thread_takes in W. inversion W as [| |f c t' d0 W'| |]; subst; [cbn; split; intros; lia|]. cbn [tapp tr_t app length].
    apply walk_bind in W' as [(c1 & W1 & ->)|(l & t1 & t2 & X1 & W1 & ->)].
    { destruct (still_walk _ _ _ (s_sampled src c) W1) as (-> & _ & _ & S1). cbn. split; [lia|]. intros f Q. destruct S1 as [r|]; [destruct r as [l| | | |]; discriminate Q|discriminate Q]. }
    destruct (still_tr _ _ _ (s_sampled src c) X1) as (B1 & _). cbn [tapp tr_t]. rewrite B1. cbn [app].
    unfold after in W1. inversion W1 as [| | | |x y t3 d0 W2]; subst; [cbn; split; [lia|discriminate]|]. cbn [tapp tr_t app].
    apply walk_bind in W2 as [(c1 & W3 & ->)|(s & t4 & t5 & X2 & W3 & ->)].
    { destruct (still_walk _ _ _ (s_time_loop _ _ _ _) W3) as (-> & _ & _ & S1). cbn. split; [lia|]. intros f Q. destruct S1 as [r|]; [destruct r as [l1| | | |]; discriminate Q|discriminate Q]. }
    destruct (still_tr _ _ _ (s_time_loop _ _ _ _) X2) as (B4 & _). cbn [tapp tr_t]. rewrite B4. cbn [app].
    inversion W3 as [| | | |x y t6 d0 W4]; subst; [cbn; split; [lia|discriminate]|]. cbn [tapp tr_t app]. destruct (IH _ _ W4) as [I1 I2]. split; [lia|]. intros f Q. specialize (I2 f Q). lia.
Qed.

(** a thread that fails: one of its events fails *)
Definition fails {A B} (r : res A) (r' : res B) : Prop := match r, r' with Exit a, Exit b => a = b | Throw, Throw | Fuel, Fuel => True | UB a, UB b => a = b | _, _ => False end.
Definition event_fails {B} (c : Z) (ds : list T) (r : res B) : Prop :=
  (exists t1 r1, walk (sampled src c) t1 (Now r1) /\ fails r1 r /\ ds = tr_d t1) \/
  (exists l t1 t2 r2, tr (sampled src c) l t1 /\ walk (co_time_loop w [] fuel tEnd (mkLoc n0 l 0)) t2 (Now r2) /\ fails r2 r /\ ds = tr_d t1 ++ tr_d t2).
Lemma cbind_bad {A B} (c : co T A) (f : A -> co T B) r : cbind c f = Now r -> (forall b, r <> Ok b) -> (exists r1, c = Now r1 /\ fails r1 r) \/ (exists a, c = Now (Ok a) /\ f a = Now r).
Proof.
  destruct c as [r1|k|k|i p k|x k]; cbn [cbind]; try discriminate. intros Q NR. destruct r1 as [a| | | |]; [right; eauto|left; injection Q as <-; eexists; split; [reflexivity|]; cbn; auto..].
Qed.
Lemma thread_fails tid k r : (forall b, r <> Ok b) -> forall t, walk (thread tid k) t (Now r) -> exists c ds, In c (tr_t t) /\ incl ds (tr_d t) /\ event_fails c ds r.
Proof.
  intros NR. induction k as [|k IH]; intros t W.
  - apply walk_now in W as [_ Q]. injection Q as ->. exfalso. exact (NR _ eq_refl).
  - rewrite thread_takes in W. inversion W as [| |f c t' d0 W'| |]; subst. cbn [tapp tr_t tr_d app].
    apply walk_bind in W' as [(c1 & W1 & Q)|(l & t1 & t2 & X1 & W1 & ->)].
    { symmetry in Q. destruct (cbind_bad _ _ _ Q NR) as [(r1 & -> & F)|(a & -> & Q')]; [|discriminate Q']. exists c, (tr_d t'). split; [left; reflexivity|]. split; [apply incl_refl|]. left. exists t', r1. auto. }
    unfold after in W1. inversion W1 as [| | | |x y t3 d0 W2]; subst. cbn [tapp tr_t tr_d app].
    apply walk_bind in W2 as [(c1 & W3 & Q)|(s & t4 & t5 & X2 & W3 & ->)].
    { symmetry in Q. destruct (cbind_bad _ _ _ Q NR) as [(r1 & -> & F)|(a & -> & Q')]; [|discriminate Q']. exists c, (tr_d t1 ++ tr_d t3). split; [left; reflexivity|]. split; [apply incl_refl|].
      right. exists l, t1, t3, r1. auto. }
    inversion W3 as [| | | |x y t6 d0 W4]; subst. cbn [tapp tr_t tr_d app]. destruct (IH _ W4) as (c' & ds & I1 & I2 & I3). exists c', ds.
    split; [right; apply in_or_app; right; apply in_or_app; right; exact I1|]. split; [|exact I3]. apply incl_appr, incl_appr. exact I2.
Qed.
End Walk.

(** ** Interleavings *)
Lemma concat_grow {A B} (f : A -> list B) l : forall t a b e, nth_error l t = Some a -> f b = f a ++ e ->
  Permutation (concat (map f (upd l t b))) (concat (map f l) ++ e).
Proof.
  induction l as [|x l IH]; intros [|t] a b e N F; cbn in *; try discriminate.
  - injection N as ->. rewrite F, <- !app_assoc. apply Permutation_app_head, Permutation_app_comm.
  - rewrite <- app_assoc. apply Permutation_app_head. exact (IH t a b e N F).
Qed.
Lemma concat_same {A B} (f : A -> list B) l : forall t a b, nth_error l t = Some a -> f b = f a -> concat (map f (upd l t b)) = concat (map f l).
Proof. induction l as [|x l IH]; intros [|t] a b N F; cbn in *; try discriminate; [injection N as ->; now rewrite F|]. f_equal. exact (IH t a b N F). Qed.
Lemma Forall2_upd_r {A B} (P : A -> B -> Prop) l l' : Forall2 P l l' -> forall i a b, nth_error l i = Some a -> P a b -> Forall2 P l (upd l' i b).
Proof.
  intros F. induction F as [|x y l l' X F IH]; intros [|i] a b N Q; cbn in *; try discriminate; [injection N as ->; constructor; assumption|]. constructor; [assumption|]. exact (IH i a b N Q).
Qed.
Lemma Forall2_nth_r {A B} (P : A -> B -> Prop) l l' : Forall2 P l l' -> forall i b, nth_error l' i = Some b -> exists a, nth_error l i = Some a /\ P a b.
Proof. intros F. induction F as [|a b l l' X F IH]; intros [|i] z N; cbn in *; try discriminate; [injection N as <-; eauto|eauto]. Qed.

Lemma Forall2_len {A B} (P : A -> B -> Prop) l l' : Forall2 P l l' -> length l = length l'.
Proof. intros F. induction F; cbn; congruence. Qed.

Section Reach.
Context {T : Type} `{NT : Num T}.
Variable E : Engine T.
Notation trace := (trace (T := T)).

Definition save_pushes (c : save T) : list (push (T := T)) :=
  match c with SPrimary l _ => input_pushes (pl_items l) | SFinal l _ => final_pushes (pl_items l) | STrack _ _ => [] end.
Definition saved (tb : table) (t : trace) : list T := values_of tb (flat_map save_pushes (tr_s t)).

Lemma py_store_ok n c (t : tables T) : RunFacts.shape n t -> (index c < n)%nat -> exists t', py_store c t = Ok t' /\ RunFacts.shape n t' /\
  forall tb tid, buffer tb t' tid = buffer tb t tid ++ if (tid =? index c)%nat then values_of tb (save_pushes c) else [].
Proof.
  intros SH LT. destruct c as [l j|l j|l j]; cbn [py_store index save_pushes] in *; [apply do_pushes_ok; assumption..|].
  exists t. split; [reflexivity|]. split; [exact SH|]. intros tb tid. destruct (_ =? _)%nat; cbn; now rewrite app_nil_r.
Qed.

Lemma drawn_snoc g us g1 : drawn E g us g1 -> forall u g2, e_canon E g1 = (u, g2) -> drawn E g (us ++ [u]) g2.
Proof. intros D. induction D; intros v g2 Q; cbn; econstructor; try eassumption; [constructor|auto]. Qed.
Lemma dealt_snoc s cs s1 : dealt (T := T) s cs s1 -> forall c s2, take s1 = Ok (c, s2) -> dealt s (cs ++ [c]) s2.
Proof. intros D. induction D; intros v g2 Q; cbn; econstructor; try eassumption; [constructor|auto]. Qed.

(** the computations [ts0] have become [ts], the state [s0] the state [s] *)
Definition reach (n : nat) (ts0 : list (co T unit)) (s0 : pyshared E) (ts : list (co T unit)) (s : pyshared E) : Prop :=
  exists ps us cs, Forall2 (fun c0 p => walk c0 (fst p) (snd p)) ts0 ps /\ ts = map snd ps /\
    drawn E (py_rng E s0) us (py_rng E s) /\ Permutation us (concat (map (fun p => tr_d (fst p)) ps)) /\
    dealt (py_src E s0) cs (py_src E s) /\ Permutation cs (concat (map (fun p => tr_t (fst p)) ps)) /\
    RunFacts.shape n (py_tabs E s) /\
    (forall t p, nth_error ps t = Some p -> forall tb, buffer tb (py_tabs E s) t = buffer tb (py_tabs E s0) t ++ saved tb (fst p)) /\
    (forall t c, nth_error ts t = Some c -> mine t c).

Lemma reach_start n ts s : RunFacts.shape n (py_tabs E s) -> (forall t c, nth_error ts t = Some c -> mine t c) -> reach n ts s ts s.
Proof.
  intros SH MI. exists (map (fun c => (no_trace, c)) ts), [], [].
  assert (NC : forall B (f : trace -> list B), f no_trace = [] -> concat (map (fun p : trace * co T unit => f (fst p)) (map (fun c => (no_trace, c)) ts)) = []).
  { intros B f Q. clear MI. induction ts as [|c ts IH]; cbn; [reflexivity|]. rewrite Q, IH. reflexivity. }
  split; [clear MI NC; induction ts; cbn; constructor; [constructor|assumption]|]. split; [rewrite map_map; cbn; symmetry; apply map_id|].
  rewrite (NC _ tr_d), (NC _ tr_t) by reflexivity. do 2 (split; [constructor|]). do 2 (split; [constructor|]). split; [exact SH|]. split; [|exact MI].
  intros t p N tb. rewrite nth_error_map in N. destruct (nth_error ts t); [|discriminate]. injection N as <-. cbn. now rewrite app_nil_r.
Qed.

Lemma reach_step n ts0 s0 ts s t c c' s' : length ts0 = n -> reach n ts0 s0 ts s -> nth_error ts t = Some c -> py_act E c s = Ok (c', s') -> reach n ts0 s0 (upd ts t c') s'.
Proof.
  intros LN (ps & us & cs & F & Q & D1 & D2 & D3 & D4 & SH & BU & MI) N A. subst ts.
  pose proof N as N0. rewrite nth_error_map in N0. destruct (nth_error ps t) as [[tr0 c0]|] eqn:NP; [|discriminate]. cbn in N0. injection N0 as ->.
  destruct (Forall2_nth_r _ _ _ F t _ NP) as (b & NB & WB). cbn [fst snd] in WB.
  pose proof (MI t c N) as MC. assert (LT : (t < n)%nat) by (rewrite <- LN; exact (nth_error_len _ _ _ NB)).
  assert (MU : mine t c' -> forall t' d, nth_error (upd (map snd ps) t c') t' = Some d -> mine t' d).
  { intros MC' t' d ND. destruct (Nat.eq_dec t' t) as [->|NE]; [rewrite nth_error_upd_same in ND by exact (nth_error_len _ _ _ N); injection ND as <-; exact MC'|].
    rewrite nth_error_upd_other in ND by congruence. exact (MI _ _ ND). }
  assert (UP : forall e, upd (map snd ps) t c' = map snd (upd ps t (tapp tr0 e, c'))).
  { intros e. clear. revert t. induction ps as [|p ps IH]; intros [|t]; cbn; try reflexivity. f_equal. apply IH. }
  assert (FW : forall e, walk c e c' -> Forall2 (fun c0 p => walk c0 (fst p) (snd p)) ts0 (upd ps t (tapp tr0 e, c'))).
  { intros e W. eapply Forall2_upd_r; [exact F|exact NB|]. cbn [fst snd]. exact (walk_trans _ _ _ _ _ WB W). }
  assert (BE : forall e, tr_s e = [] -> py_tabs E s' = py_tabs E s -> forall t' p, nth_error (upd ps t (tapp tr0 e, c')) t' = Some p ->
    forall tb, buffer tb (py_tabs E s') t' = buffer tb (py_tabs E s0) t' ++ saved tb (fst p)).
  { intros e Q TQ t' p NQ tb. rewrite TQ. destruct (Nat.eq_dec t' t) as [->|NE].
    - rewrite nth_error_upd_same in NQ by exact (nth_error_len _ _ _ NP). injection NQ as <-. rewrite (BU t _ NP). unfold saved. cbn [fst tapp tr_s]. rewrite Q, app_nil_r. reflexivity.
    - rewrite nth_error_upd_other in NQ by congruence. exact (BU _ _ NQ tb). }
  destruct MC as [r|k MK|k MK|x k IX MK]; cbn [py_act] in A.
  - apply bind_ok in A as (a & -> & A). injection A as <- <-. exists ps, us, cs. rewrite upd_same by exact N. auto 12.
  - destruct (e_canon E (py_rng E s)) as [u g] eqn:EC. injection A as <- <-. exists (upd ps t (tapp tr0 (mkTr [u] [] [] []), k u)), (us ++ [u]), cs.
    split; [apply FW; rewrite <- (tapp_no (mkTr [u] [] [] [])); constructor; constructor|]. split; [apply UP|]. cbn [py_rng py_src py_tabs].
    split; [exact (drawn_snoc _ _ _ D1 _ _ EC)|]. split; [rewrite D2; symmetry; apply (concat_grow (fun p => tr_d (fst p)) ps t _ _ [u] NP); reflexivity|].
    split; [exact D3|]. split; [rewrite (concat_same (fun p => tr_t (fst p)) ps t _ _ NP); [exact D4|cbn; now rewrite app_nil_r]|]. split; [exact SH|].
    split; [apply (BE (mkTr [u] [] [] [])); reflexivity|]. apply MU, MK.
  - apply bind_ok in A as ([v s1] & TK & A). injection A as <- <-. exists (upd ps t (tapp tr0 (mkTr [] [v] [] []), k v)), us, (cs ++ [v]). cbn [fst snd] in *.
    split; [apply FW; rewrite <- (tapp_no (mkTr [] [v] [] [])); constructor; constructor|]. split; [apply UP|]. cbn [py_rng py_src py_tabs].
    split; [exact D1|]. split; [rewrite (concat_same (fun p => tr_d (fst p)) ps t _ _ NP); [exact D2|cbn; now rewrite app_nil_r]|].
    split; [exact (dealt_snoc _ _ _ D3 _ _ TK)|]. split; [rewrite D4; symmetry; apply (concat_grow (fun p => tr_t (fst p)) ps t _ _ [v] NP); reflexivity|]. split; [exact SH|].
    split; [apply (BE (mkTr [] [v] [] [])); reflexivity|]. apply MU, MK.
  - apply bind_ok in A as (t1 & ST & A). injection A as <- <-. exists (upd ps t (tapp tr0 (mkTr [] [] [] [x]), k)), us, cs. cbn [py_rng py_src py_tabs] in *.
    destruct (py_store_ok n x (py_tabs E s) SH ltac:(lia)) as (t2 & Q & SH2 & B2). rewrite ST in Q. injection Q as <-.
    split; [apply FW; rewrite <- (tapp_no (mkTr [] [] [] [x])); constructor; constructor|]. split; [apply UP|].
    split; [exact D1|]. split; [rewrite (concat_same (fun p => tr_d (fst p)) ps t _ _ NP); [exact D2|cbn; now rewrite app_nil_r]|].
    split; [exact D3|]. split; [rewrite (concat_same (fun p => tr_t (fst p)) ps t _ _ NP); [exact D4|cbn; now rewrite app_nil_r]|]. split; [exact SH2|].
    split; [|apply MU, MK]. intros t' p NQ tb. rewrite B2, IX. destruct (Nat.eqb_spec t' t) as [->|NE].
    + rewrite nth_error_upd_same in NQ by exact (nth_error_len _ _ _ NP). injection NQ as <-. rewrite (BU t _ NP). unfold saved. cbn [fst tapp tr_s].
      rewrite flat_map_app, values_app. cbn [flat_map]. rewrite app_nil_r, app_assoc. reflexivity.
    + rewrite app_nil_r. rewrite nth_error_upd_other in NQ by congruence. exact (BU _ _ NQ tb).
Qed.

Lemma par_reach n ts0 s0 : length ts0 = n -> forall ts s x, py_par E ts s x -> reach n ts0 s0 ts s ->
  exists ts' s', reach n ts0 s0 ts' s' /\ ((x = Ok s' /\ forall c, In c ts' -> c = Now (Ok tt)) \/
    exists t c, nth_error ts' t = Some c /\ (forall y, py_act E c s' <> Ok y) /\ x = rmap snd (py_act E c s')).
Proof.
  intros LN ts s x P. induction P as [ts s F|ts s t c c' s' x N A P IH|ts s x c I F Q]; intros RC.
  - exists ts, s. split; [exact RC|]. left. auto.
  - apply IH. eapply reach_step; eassumption.
  - exists ts, s. split; [exact RC|]. right. apply In_nth_error in I as (t & N). exists t, c. auto.
Qed.
End Reach.

Section Outcome.
Context {T : Type} `{NT : Num T}.
Variable E : Engine T.
Variable fuel : nat.
Variable w : world T.
Variable tEnd : T.
Variable src : source T.
Notation trace := (trace (T := T)).
Notation thread := (py_thread fuel w tEnd src).
Notation event_tr := (event_tr fuel w tEnd src).
Definition ev_pushes (e : pyev (T := T)) : list (push (T := T)) := input_pushes (pl_items (ev_l e)) ++ final_pushes (pl_items (ev_f e)).
Notation walks := (Forall2 (fun c0 (p : trace * co T unit) => walk c0 (fst p) (snd p))).
Definition numbered (o : nat) (ks : list nat) : list (co T unit) := map (fun x => thread (fst x) (snd x)) (combine (seq o (length ks)) ks).

Lemma saves_pushes tid evs : flat_map save_pushes (flat_map (ev_saves tid) evs) = flat_map ev_pushes evs.
Proof. induction evs as [|e evs IH]; cbn; [reflexivity|]. rewrite IH. unfold ev_pushes. now rewrite app_assoc. Qed.
Lemma threads_done ks : forall o ps, walks (numbered o ks) ps -> (forall p, In p ps -> snd p = Now (Ok tt)) -> exists evss, Forall2 (fun k evs => length evs = k) ks evss /\
  Forall event_tr (concat evss) /\ concat (map (fun p => tr_d (fst p)) ps) = concat (map ev_d (concat evss)) /\ concat (map (fun p => tr_t (fst p)) ps) = map ev_c (concat evss) /\
  Forall2 (fun p evs => forall tb, saved tb (fst p) = values_of tb (flat_map ev_pushes evs)) ps evss.
Proof.
  induction ks as [|k ks IH]; intros o ps F D.
  - inversion F; subst. exists []. repeat split; constructor.
  - unfold numbered in F. cbn [length seq combine map fst snd] in F. inversion F as [|a p l ps' W F' Q1 Q2]; subst.
    destruct (IH (S o) ps' F' (fun q I => D q (or_intror I))) as (evss & A1 & A2 & A3 & A4 & A5).
    rewrite (D p (or_introl eq_refl)) in W. destruct (thread_tr fuel w tEnd src o k _ (walk_tr _ _ _ _ W eq_refl)) as (evs & B1 & B2 & B3 & B4 & B5).
    exists (evs :: evss). cbn [concat map]. split; [constructor; assumption|]. split; [apply Forall_app; auto|]. rewrite !map_app, concat_app, A3, A4, B3, B4. do 2 (split; [reflexivity|]).
    constructor; [|exact A5]. intros tb. unfold saved. rewrite B5, saves_pushes. reflexivity.
Qed.
Lemma threads_takes ks : forall o ps, walks (numbered o ks) ps -> (length (concat (map (fun p => tr_t (fst p)) ps)) <= list_sum ks)%nat /\
  (forall t p f, nth_error ps t = Some (p, Take f) -> (length (concat (map (fun p => tr_t (fst p)) ps)) < list_sum ks)%nat).
Proof.
  induction ks as [|k ks IH]; intros o ps F.
  - inversion F; subst. split; [cbn; lia|]. intros [|t] p f N; discriminate N.
  - unfold numbered in F. cbn [length seq combine map fst snd] in F. inversion F as [|a q l ps' W F' Q1 Q2]; subst. destruct (IH (S o) ps' F') as [I1 I2].
    destruct (thread_takes_le fuel w tEnd src o k _ _ W) as [J1 J2]. cbn [map concat]. rewrite app_length. change (list_sum (k :: ks)) with (k + list_sum ks)%nat. split; [lia|].
    intros [|t] p f N; cbn in N; [injection N as ->; specialize (J2 f eq_refl); cbn [fst] in *; lia|]. specialize (I2 t p f N). lia.
Qed.
Lemma numbered_mine ks o : forall t c, nth_error (numbered o ks) t = Some c -> mine (o + t) c.
Proof.
  revert o. induction ks as [|k ks IH]; intros o [|t] c N; try discriminate N.
  - injection N as <-. rewrite Nat.add_0_r. apply thread_mine.
  - replace (o + S t)%nat with (S o + t)%nat by lia. exact (IH (S o) t c N).
Qed.
Lemma numbered_nth ks : forall o t c, nth_error (numbered o ks) t = Some c -> exists k, c = thread (o + t) k.
Proof.
  induction ks as [|k ks IH]; intros o [|t] c N; try discriminate N.
  - injection N as <-. exists k. now rewrite Nat.add_0_r.
  - replace (o + S t)%nat with (S o + t)%nat by lia. exact (IH (S o) t c N).
Qed.
Lemma numbered_length ks o : length (numbered o ks) = length ks.
Proof. unfold numbered. rewrite map_length, combine_length, seq_length. lia. Qed.

Lemma values_concat tb evss : concat (map (fun evs => values_of tb (flat_map ev_pushes evs)) evss) = values_of tb (flat_map ev_pushes (concat evss)).
Proof. induction evss as [|evs evss IH]; cbn [concat map]; [reflexivity|]. now rewrite IH, flat_map_app, values_app. Qed.
Lemma Forall2_nth_both {A B} (P : A -> B -> Prop) l l' : Forall2 P l l' -> forall i a b, nth_error l i = Some a -> nth_error l' i = Some b -> P a b.
Proof. intros F. induction F as [|a b l l' X F IH]; intros [|i] x y N M; cbn in *; try discriminate; [injection N as <-; injection M as <-; exact X|eauto]. Qed.

(** A run of the threads: either it completes, and the events of the threads, one thread after the other, explain it; or one event fails. *)
Lemma threads_outcome ks g y : fresh src -> list_sum ks = Z.to_nat (s_nPart src) -> py_par E (numbered 0 ks) (mkPy E g src (empty_tables (length ks))) y ->
  (exists s' evs us, y = Ok s' /\ length evs = Z.to_nat (s_nPart src) /\ Forall event_tr evs /\ drawn E g us (py_rng E s') /\ Permutation us (concat (map ev_d evs)) /\
     Permutation (map Z.of_nat (seq 0 (Z.to_nat (s_nPart src)))) (map ev_c evs) /\
     forall tb, concat (of_table tb (py_tabs E s')) = values_of tb (flat_map ev_pushes evs)) \/
  ((forall s', y <> Ok s') /\ exists c ds us g', (0 <= c < s_nPart src)%Z /\ drawn E g us g' /\ incl ds us /\ event_fails fuel w tEnd src c ds y).
Proof.
  intros FR KS P. pose proof FR as (B & C0 & _). set (n := Z.to_nat (s_nPart src)) in *. set (m := length ks) in *.
  assert (RS : reach E m (numbered 0 ks) (mkPy E g src (empty_tables m)) (numbered 0 ks) (mkPy E g src (empty_tables m))).
  { apply reach_start; [apply empty_shape|]. intros t c N. exact (numbered_mine ks 0 t c N). }
  destruct (par_reach E m _ _ (numbered_length ks 0) _ _ _ P RS) as (ts' & s' & (ps & us & cs & F & Q & D1 & D2 & D3 & D4 & SH & BU & MI) & O). cbn [py_rng py_src py_tabs] in *.
  pose proof (threads_takes ks 0 ps F) as [TL TS]. rewrite <- (Permutation_length D4), KS in TL.
  assert (SS : cs = map Z.of_nat (seq 0 (length cs)) /\ py_src E s' = with_count src (Z.of_nat (0 + length cs))).
  { apply (dealt_seq src (length cs) 0 (py_src E s')); [unfold n in *; lia|lia|reflexivity|]. change (Z.of_nat 0) with 0%Z. rewrite <- C0, with_count_same. exact D3. }
  destruct SS as [SC SQ].
  destruct O as [[-> DN]|(t & c & N & NA & ->)].
  - left. subst ts'. destruct (threads_done ks 0 ps F) as (evss & A1 & A2 & A3 & A4 & A5). { intros p I. apply DN. apply in_map. exact I. }
    exists s', (concat evss), us. split; [reflexivity|].
    assert (LE : length (concat evss) = n).
    { rewrite <- KS. clear - A1. induction A1 as [|k evs ks evss L F IH]; [reflexivity|]. cbn [concat]. rewrite app_length, IH, L. reflexivity. }
    split; [exact LE|]. split; [exact A2|]. split; [exact D1|]. split; [now rewrite <- A3|].
    split; [rewrite <- A4, <- D4, SC; rewrite (Permutation_length D4), A4, map_length, LE; reflexivity|].
    intros tb. rewrite <- values_concat. f_equal. apply nth_ext with (d := []) (d' := []).
    + rewrite map_length, (SH tb). unfold m. exact (Forall2_len _ _ _ A1).
    + intros i LI. rewrite (SH tb) in LI. change (nth i (of_table tb (py_tabs E s')) []) with (buffer tb (py_tabs E s') i).
      assert (LP : length ps = m) by (rewrite <- (Forall2_len _ _ _ F), numbered_length; reflexivity).
      destruct (nth_error ps i) as [p|] eqn:NP; [|apply nth_error_None in NP; lia]. rewrite (BU i p NP tb), empty_buffer. cbn [app].
      destruct (Forall2_nth _ _ _ A5 i p NP) as (evs & NE & QE). rewrite QE.
      assert (L1 : (i < length evss)%nat) by exact (nth_error_len _ _ _ NE).
      rewrite (nth_indep _ [] (values_of tb (flat_map ev_pushes []))) by (rewrite map_length; exact L1). rewrite (map_nth (fun e => values_of tb (flat_map ev_pushes e))). now rewrite (nth_error_nth _ _ _ NE).
  - right. split. { intros z Q'. destruct (py_act E c s') as [v| | | |] eqn:X; try discriminate Q'. exact (NA v eq_refl). }
    pose proof (MI t c N) as MC. subst ts'. rewrite nth_error_map in N. destruct (nth_error ps t) as [[tr0 c1]|] eqn:NP; [|discriminate]. cbn in N. injection N as ->.
    destruct (Forall2_nth_r _ _ _ F t _ NP) as (b & NB & WB). cbn [fst snd] in WB. destruct (numbered_nth _ _ _ _ NB) as (k & ->). cbn [Nat.add] in *.
    destruct MC as [r|f MK|f MK|x f IX MK].
    + assert (NR : forall a, r <> Ok a). { intros a ->. apply (NA (Now (Ok a), s')). reflexivity. }
      destruct (thread_fails fuel w tEnd src t k r NR _ WB) as (c & ds & I1 & I2 & I3). exists c, ds, us, (py_rng E s').
      assert (IC : forall B0 (f : trace -> list B0) v, In v (f tr0) -> In v (concat (map (fun p => f (fst p)) ps))).
      { intros B0 f v IV. apply in_concat. exists (f tr0). split; [|exact IV]. apply in_map_iff. exists (tr0, Now r). split; [reflexivity|]. exact (nth_error_In _ _ NP). }
      split. { apply (IC _ tr_t) in I1. apply (Permutation_in _ (Permutation_sym D4)) in I1. rewrite SC in I1. apply in_map_iff in I1 as (i & <- & I1). apply in_seq in I1. unfold n in *. lia. }
      split; [exact D1|]. split. { intros v IV. apply (Permutation_in _ (Permutation_sym D2)). apply (IC _ tr_d). auto. }
      assert (FE : forall A (r1 : res A), fails r1 r -> fails r1 (rmap snd (py_act E (Now r) s'))). { intros A r1. cbn [py_act]. destruct r1, r; cbn; auto. }
      destruct I3 as [(t1 & r1 & X1 & X2 & X3)|(l & t1 & t2 & r2 & X0 & X1 & X2 & X3)]; [left; exists t1, r1; auto|right; exists l, t1, t2, r2; auto].
    + exfalso. cbn [py_act] in NA. destruct (e_canon E (py_rng E s')). exact (NA _ eq_refl).
    + exfalso. pose proof (TS t tr0 f NP) as LT. rewrite <- (Permutation_length D4), KS in LT. cbn [py_act] in NA. unfold take in NA. rewrite SQ in NA. cbv zeta in NA. cbn [s_count s_nPart with_count] in NA.
      destruct (_ =? _)%Z eqn:Z1; [apply Z.eqb_eq in Z1; unfold n in *; lia|]. exact (NA _ eq_refl).
    + exfalso. assert (LT : (t < m)%nat) by (unfold m; rewrite <- (numbered_length ks 0); exact (nth_error_len _ _ _ NB)).
      destruct (py_store_ok m x (py_tabs E s') SH ltac:(lia)) as (t1 & Q1 & _). cbn [py_act] in NA. rewrite Q1 in NA. exact (NA _ eq_refl).
Qed.
End Outcome.
