(** * Interleaved iterations: no undefined behaviour (lemmas for C139) *)
From Coq Require Import String ZArith List Bool Lia Permutation.
From Verif Require Import Num Outcome OutcomeFacts Vec Units Numerics MCTools Particle ParticleList Source SourceFacts Fields Pusher Process ProcessSafe Sim Histogram HistFacts Hdf5
  Output OutFacts OutFile Text Ini IniReader Program ProgramFacts ProgramSafe PropsClose Threads ThreadFacts ThreadSerial ThreadReplay ThreadProgram.
From Verif Require FileParser.
Import ListNotations.
Local Open Scope string_scope.
Local Open Scope list_scope.

Section Safe.
Context {T : Type} `{NT : Num T}.

(** ** Histograms and tables of the same shape *)
Definition axes (h : hist T) : Z * string := (hi_n h, hi_name h).
Definition like (hs0 hs : list (hist T)) : Prop := Forall hok hs /\ map axes hs = map axes hs0.
Definition quietly {A} (r : res A) : res unit := rmap (fun _ => tt) r.

Lemma app_particle_like h p : hok h -> (hi_n h = 0%Z /\ exists e, forall q : particle T, app_particle h q = Exit e) \/
  (hi_n h <> 0%Z /\ exists h', app_particle h p = Ok h' /\ hok h' /\ axes h' = axes h).
Proof.
  intros HW. destruct (Z.eq_dec (hi_n h) 0) as [Z0|NZ].
  - left. split; [exact Z0|]. unfold app_particle. rewrite Z0. cbn. eauto.
  - right. split; [exact NZ|]. pose proof HW as (A & B & C). assert (W : hwf h) by (split; [lia|auto]).
    destruct (add_value_ok h (get_energy p) W) as (h1 & X & ((W1 & W2) & W3) & _). rewrite <- (app_energy h p NZ) in X. exists h1.
    destruct (app_particle_static _ _ _ X) as (_ & _ & S3 & _ & S5 & _). split; [exact X|]. split; [split; [lia|exact W3]|]. unfold axes. congruence.
Qed.
Lemma map_upd {A B} (f : A -> B) l : forall i a, map f (upd l i a) = upd (map f l) i (f a).
Proof. induction l as [|x l IH]; intros [|i] a; cbn; congruence. Qed.
Lemma count_like hs0 hs hs' i (p : particle T) : like hs0 hs -> like hs0 hs' ->
  quietly (count i p hs) = quietly (count i p hs') /\ (forall h1, count i p hs = Ok h1 -> like hs0 h1).
Proof.
  intros [F1 M1] [F2 M2]. unfold count.
  assert (L : length hs = length hs') by (rewrite <- (map_length axes hs), <- (map_length axes hs'); congruence).
  destruct (nth_error hs i) as [h|] eqn:N1.
  - destruct (nth_error hs' i) as [h'|] eqn:N2; [|apply nth_error_None in N2; apply nth_error_len in N1; lia].
    assert (Q : axes h = axes h').
    { apply (map_nth_error axes) in N1, N2. rewrite M1 in N1. rewrite M2 in N2. congruence. }
    rewrite Forall_forall in F1, F2. pose proof (F1 h (nth_error_In _ _ N1)) as K1. pose proof (F2 h' (nth_error_In _ _ N2)) as K2.
    unfold axes in Q. injection Q as Q1 Q2.
    destruct (app_particle_like h p K1) as [(Z1 & e1 & X1)|(Z1 & h1 & X1 & A1 & B1)]; destruct (app_particle_like h' p K2) as [(Z2 & e2 & X2)|(Z2 & h2 & X2 & A2 & B2)]; try congruence.
    + assert (e1 = e2) as -> by (specialize (X1 p); specialize (X2 p); unfold app_particle in X1, X2; rewrite Z1 in X1; rewrite Z2 in X2; cbn in X1, X2; congruence).
      rewrite X1, X2. split; [reflexivity|discriminate].
    + rewrite X1, X2. cbn [bind]. split; [reflexivity|]. intros hh Y. injection Y as <-. split; [apply Forall_upd; [apply Forall_forall; exact F1|exact A1]|].
      rewrite map_upd, B1, <- M1. apply upd_same. apply map_nth_error. exact N1.
  - destruct (nth_error hs' i) as [h'|] eqn:N2; [apply nth_error_None in N1; apply nth_error_len in N2; lia|]. split; [reflexivity|discriminate].
Qed.

Definition shape (o : om T) : list nat :=
  [length (om_prim o); length (tb_rows (om_el o)); length (tb_count (om_el o)); length (tb_rows (om_po o)); length (tb_count (om_po o)); length (tb_rows (om_ph o)); length (tb_count (om_ph o))].
Variable garbage : T.
Lemma get_shape {A} (l l' : list A) i : length l = length l' -> quietly (get l i) = quietly (get l' i).
Proof.
  intros L. unfold get. rewrite L. destruct (_ || _)%bool eqn:Q; [reflexivity|]. apply orb_false_iff in Q as [Q1 Q2]. apply Z.ltb_ge in Q1. apply Z.leb_gt in Q2.
  destruct (nth_error l _) eqn:N1; [|apply nth_error_None in N1; lia]. destruct (nth_error l' _) eqn:N2; [|apply nth_error_None in N2; lia]. reflexivity.
Qed.
Lemma bind_quietly {A B C} (x : res A) (y : res A) (f : A -> res B) (g : A -> res C) : quietly x = quietly y -> (forall a b, x = Ok a -> y = Ok b -> quietly (f a) = quietly (g b)) ->
  quietly (bind x f) = quietly (bind y g).
Proof. destruct x, y; cbn; intros Q F; try discriminate; try congruence. apply F; reflexivity. Qed.
Definition tshape (t : table T) : nat * nat := (length (tb_rows t), length (tb_count t)).
Lemma species_shape name id ps (t t' : table T) : tshape t = tshape t' ->
  quietly (store_species garbage name id ps t) = quietly (store_species garbage name id ps t') /\ (forall t1, store_species garbage name id ps t = Ok t1 -> tshape t1 = tshape t).
Proof.
  intros Q. injection Q as Q1 Q2. split.
  - unfold store_species. apply bind_quietly; [apply get_shape; exact Q2|]. intros _ _ _ _. apply bind_quietly; [apply get_shape; exact Q1|]. intros _ _ _ _.
    apply bind_quietly; [reflexivity|]. reflexivity.
  - intros t1 X. unfold store_species in X. apply bind_ok in X as (? & _ & X). apply bind_ok in X as (? & _ & X). apply bind_ok in X as (? & _ & X). injection X as <-.
    unfold tshape. cbn [tb_rows tb_count]. now rewrite !length_upd.
Qed.
Lemma shape_tables (o o' : om T) : shape o = shape o' <-> length (om_prim o) = length (om_prim o') /\ tshape (om_el o) = tshape (om_el o') /\ tshape (om_po o) = tshape (om_po o') /\ tshape (om_ph o) = tshape (om_ph o').
Proof. unfold shape, tshape. split; [intros Q; injection Q; intros; repeat split; congruence|intros (A & B & C & D); congruence]. Qed.
Lemma store_shape c (o o' : om T) : shape o = shape o' -> quietly (store garbage c o) = quietly (store garbage c o') /\ (forall o1, store garbage c o = Ok o1 -> shape o1 = shape o).
Proof.
  intros Q. apply shape_tables in Q as (Q0 & Q1 & Q2 & Q3). destruct c as [l j|l j|l j]; cbn [store].
  - unfold store_primary. split.
    + apply bind_quietly; [reflexivity|]. intros a b A B. apply bind_quietly; [apply get_shape; exact Q0|]. reflexivity.
    + intros o1 X. apply bind_ok in X as (? & _ & X). apply bind_ok in X as (? & _ & X). injection X as <-. unfold shape. cbn [om_prim with_prim om_el om_po om_ph]. now rewrite length_upd.
  - unfold store_final. destruct (species_shape "Electron" j (pl_items l) _ _ Q1) as [A1 B1]. destruct (species_shape "Positron" j (pl_items l) _ _ Q2) as [A2 B2].
    destruct (species_shape "Photon" j (pl_items l) _ _ Q3) as [A3 B3]. split.
    + do 3 (apply bind_quietly; [assumption|intros ? ? _ _]). reflexivity.
    + intros o1 X. apply bind_ok in X as (e & X1 & X). apply bind_ok in X as (p & X2 & X). apply bind_ok in X as (h & X3 & X). injection X as <-.
      apply shape_tables. cbn [om_prim with_tables om_el om_po om_ph]. auto.
  - split; [reflexivity|]. intros o1 X. injection X as <-. reflexivity.
Qed.

(** ** Computations that take no sample *)
Inductive takeless {A} : co T A -> Prop :=
| tl_now r : takeless (Now r)
| tl_draw k : (forall u, takeless (k u)) -> takeless (Draw k)
| tl_count i p k : takeless k -> takeless (Count i p k)
| tl_store c k : takeless k -> takeless (Store c k).
Lemma takeless_bind {A B} (c : co T A) (f : A -> co T B) : takeless c -> (forall a, takeless (f a)) -> takeless (cbind c f).
Proof. intros Q F. induction Q as [r|k Q0 IH|i p k Q0 IH|c k Q0 IH]; cbn [cbind]; [destruct r; try apply F; constructor|constructor; exact IH..]. Qed.
Lemma quiet_takeless {A} (c : co T A) : quiet c -> takeless c.
Proof. intros Q. induction Q; constructor; auto. Qed.
Lemma rest_takeless w pl fuel tEnd output tracking j l : takeless (rest_of w pl fuel tEnd output tracking j l).
Proof.
  unfold rest_of. apply takeless_bind; [destruct output; repeat constructor|intros _]. apply takeless_bind; [apply quiet_takeless, q_event|intros fin].
  apply takeless_bind; [destruct output; repeat constructor|intros _]. destruct tracking; repeat constructor.
Qed.

(** ** Every iteration of an interleaving could be run alone *)
Variable E : Engine T.
Variables dom domn : T -> bool.
Hypothesis DOM : forall g, dom (fst (e_canon E g)) = true.
Notation RE := (replay dom domn).

Section Region.
Variable hs0 : list (hist T).
Variable o0 : om T.
Variable src : source T.
Variable its : list (co T unit).
Hypothesis B32 : (0 <= s_nPart src < 2 ^ 32)%Z.
Hypothesis LI : Z.of_nat (length its) = s_nPart src.
(** each iteration takes a sample first, and no other *)
Hypothesis TK : forall t it, nth_error its t = Some it -> exists k, it = Take k /\ forall c, takeless (k c).
Definition running (it c : co T unit) : Prop := takeless c /\ exists c0 us sr hs o, (0 <= c0 < s_nPart src)%Z /\ like hs0 hs /\ shape o = shape o0 /\
  forall rest, crun RE garbage it (mkSh RE ([], us ++ rest) (with_count src c0) hs0 o0) = crun RE garbage c (mkSh RE ([], rest) sr hs o).
(** which iterations have taken their sample *)
Definition phase (b : bool) (it c : co T unit) : Prop := if b then running it c else c = it.
Definition inv (ts : list (co T unit)) (s : shared E) : Prop := exists bs,
  length ts = length its /\ length bs = length its /\
  (forall t it c b, nth_error its t = Some it -> nth_error ts t = Some c -> nth_error bs t = Some b -> phase b it c) /\
  like hs0 (sh_hists E s) /\ shape (sh_om E s) = shape o0 /\ sh_src E s = with_count src (Z.of_nat (count_occ bool_dec bs true)).
Hypothesis HS0 : Forall hok hs0.

Lemma step_running it c s c' s' : takeless c -> running it c -> like hs0 (sh_hists E s) -> shape (sh_om E s) = shape o0 -> act E garbage c s = Ok (c', s') ->
  running it c' /\ like hs0 (sh_hists E s') /\ shape (sh_om E s') = shape o0 /\ sh_src E s' = sh_src E s.
Proof.
  intros TL (_ & c0 & us & sr & hs & o & B & LK & SH & R) LS SS A. destruct c as [r|k|k|i p k|x k]; cbn [act] in A.
  - destruct r; try discriminate. injection A as <- <-. split; [|auto]. split; [constructor|]. exists c0, us, sr, hs, o. auto.
  - pose proof (DOM (sh_rng E s)) as DU. destruct (e_canon E (sh_rng E s)) as [u g]. cbn [fst] in DU. injection A as <- <-. inversion TL; subst. split; [|auto]. split; [auto|]. exists c0, (us ++ [u]), sr, hs, o.
    split; [exact B|]. split; [exact LK|]. split; [exact SH|]. intros rest. rewrite <- app_assoc. cbn [app]. rewrite R. cbn [crun replay e_canon sh_rng snd fst]. rewrite DU. reflexivity.
  - inversion TL.
  - apply bind_ok in A as (h1 & A1 & A). injection A as <- <-. inversion TL; subst. cbn [sh_hists sh_om sh_src].
    destruct (count_like hs0 (sh_hists E s) hs i p LS LK) as [Q1 Q2]. rewrite A1 in Q1. cbn in Q1. destruct (count i p hs) as [h2| | | |] eqn:X; try discriminate Q1.
    split; [|auto]. split; [assumption|]. exists c0, us, sr, h2, o. split; [exact B|]. split; [apply (count_like hs0 hs hs i p LK LK); exact X|]. split; [exact SH|].
    intros rest. rewrite R. cbn [crun sh_hists]. rewrite X. reflexivity.
  - apply bind_ok in A as (o1 & A1 & A). injection A as <- <-. inversion TL; subst. cbn [sh_hists sh_om sh_src].
    destruct (store_shape x (sh_om E s) o ltac:(congruence)) as [Q1 Q2]. rewrite A1 in Q1. cbn in Q1. destruct (store garbage x o) as [o2| | | |] eqn:X; try discriminate Q1.
    split; [|split; [exact LS|split; [rewrite (Q2 _ A1); exact SS|reflexivity]]]. split; [assumption|]. exists c0, us, sr, hs, o2. split; [exact B|]. split; [exact LK|].
    split; [destruct (store_shape x o o eq_refl) as [_ Q3]; rewrite (Q3 _ X); exact SH|]. intros rest. rewrite R. cbn [crun sh_om]. rewrite X. reflexivity.
Qed.
Lemma count_true_le bs : (count_occ bool_dec bs true <= length bs)%nat.
Proof. apply count_occ_bound. Qed.
Lemma count_true_lt bs : forall t, nth_error bs t = Some false -> (count_occ bool_dec bs true < length bs)%nat.
Proof.
  induction bs as [|b bs IH]; intros [|t] N; cbn in *; try discriminate; [injection N as ->; cbn; pose proof (count_true_le bs); lia|].
  specialize (IH t N). destruct (bool_dec b true); lia.
Qed.
Lemma count_true_upd bs : forall t, nth_error bs t = Some false -> count_occ bool_dec (upd bs t true) true = S (count_occ bool_dec bs true).
Proof.
  induction bs as [|b bs IH]; intros [|t] N; cbn in *; try discriminate; [injection N as ->; reflexivity|]. rewrite (IH t N). destruct (bool_dec b true); reflexivity.
Qed.
Lemma step_inv ts s t c c' s' : inv ts s -> nth_error ts t = Some c -> act E garbage c s = Ok (c', s') -> inv (upd ts t c') s'.
Proof.
  intros (bs & L & LB & PH & LK & SH & SR) N A. destruct (nth_error its t) as [it|] eqn:NI; [|apply nth_error_None in NI; apply nth_error_len in N; lia].
  destruct (nth_error bs t) as [b|] eqn:NB; [|apply nth_error_None in NB; apply nth_error_len in N; lia].
  assert (K : exists b', (b' = b \/ b = false) /\ phase b' it c' /\ like hs0 (sh_hists E s') /\ shape (sh_om E s') = shape o0 /\
     sh_src E s' = with_count src (Z.of_nat (count_occ bool_dec (upd bs t b') true))).
  { pose proof (PH t it c b NI N NB) as Q. destruct b; cbn [phase] in Q.
    - destruct (step_running it c s c' s' (proj1 Q) Q LK SH A) as (R1 & R2 & R3 & R4). exists true. split; [left; reflexivity|]. split; [exact R1|]. split; [exact R2|]. split; [exact R3|].
      rewrite (upd_same _ _ _ NB), R4. exact SR.
    - subst c. destruct (TK t it NI) as (k & -> & TL). cbn [act] in A. apply bind_ok in A as ([d s1] & A1 & A). injection A as <- <-. cbn [sh_hists sh_om sh_src fst snd].
      pose proof (count_true_lt bs t NB) as LT. unfold take in A1. cbv zeta in A1. rewrite SR in A1. set (n := Z.of_nat (count_occ bool_dec bs true)) in *. cbn [s_count s_nPart with_count] in A1.
      destruct (n =? s_nPart src)%Z eqn:Q; [discriminate|]. injection A1 as <- <-. exists true. split; [right; reflexivity|]. split; [|split; [exact LK|split; [exact SH|]]].
      + split; [apply TL|]. exists n, [], (with_count src (u32 (n + 1))), hs0, o0. split; [unfold n in *; lia|]. split; [split; [exact HS0|reflexivity]|]. split; [reflexivity|].
        intros rest. cbn [crun app sh_src]. unfold take. cbv zeta. cbn [s_count s_nPart with_count]. rewrite Q. reflexivity.
      + rewrite (count_true_upd bs t NB). rewrite with_count_twice. f_equal. rewrite u32_id; unfold n; lia. }
  destruct K as (b' & KB & K1 & K2 & K3 & K4). exists (upd bs t b'). split; [rewrite length_upd; exact L|]. split; [rewrite length_upd; exact LB|]. split; [|split; [exact K2|split; [exact K3|exact K4]]].
  intros j jt d e NJ ND NE. destruct (Nat.eq_dec t j) as [<-|D].
  - rewrite nth_error_upd_same in ND by exact (nth_error_len _ _ _ N). rewrite nth_error_upd_same in NE by exact (nth_error_len _ _ _ NB). injection ND as <-. injection NE as <-.
    rewrite NI in NJ. injection NJ as <-. exact K1.
  - rewrite nth_error_upd_other in ND by exact D. rewrite nth_error_upd_other in NE by exact D. eapply PH; eassumption.
Qed.
(** an iteration that fails fails alone *)
Lemma fail_alone ts s c : inv ts s -> In c ts -> (forall y, act E garbage c s <> Ok y) -> exists t it c0 us, nth_error its t = Some it /\ (0 <= c0 < s_nPart src)%Z /\
  forall rest, quietly (crun RE garbage it (mkSh RE ([], us ++ rest) (with_count src c0) hs0 o0)) = quietly (act E garbage c s).
Proof.
  intros (bs & L & LB & PH & LK & SH & SR) I A. apply In_nth_error in I as (t & N). destruct (nth_error its t) as [it|] eqn:NI; [|apply nth_error_None in NI; apply nth_error_len in N; lia].
  destruct (nth_error bs t) as [b|] eqn:NB; [|apply nth_error_None in NB; apply nth_error_len in N; lia].
  pose proof (PH t it c b NI N NB) as Q. destruct b; cbn [phase] in Q.
  - destruct Q as (TL & c0 & us & sr & hs & o & B & LH & SO & R). exists t, it, c0, us. split; [exact NI|]. split; [exact B|]. intros rest. rewrite R. clear R. destruct c as [r|k|k|i p k|x k]; cbn [act crun] in *.
    + destruct r; try reflexivity.
    + exfalso. destruct (e_canon E _). exact (A _ eq_refl).
    + inversion TL.
    + destruct (count_like hs0 (sh_hists E s) hs i p LK LH) as [Q1 _]. cbn [sh_hists]. destruct (count i p (sh_hists E s)); [exfalso; exact (A _ eq_refl)|..]; cbn in Q1;
        (destruct (count i p hs) eqn:X; try discriminate Q1; unfold quietly in *; cbn in *; congruence).
    + destruct (store_shape x (sh_om E s) o ltac:(congruence)) as [Q1 _]. cbn [sh_om]. destruct (store garbage x (sh_om E s)); [exfalso; exact (A _ eq_refl)|..]; cbn in Q1;
        (destruct (store garbage x o) eqn:X; try discriminate Q1; unfold quietly in *; cbn in *; congruence).
  - exfalso. subst c. destruct (TK t it NI) as (k & -> & _). pose proof (count_true_lt bs t NB) as LT. cbn [act] in A. unfold take in A. cbv zeta in A. rewrite SR in A. cbn [s_count s_nPart with_count] in A.
    destruct (_ =? _)%Z eqn:Q; [apply Z.eqb_eq in Q; lia|]. exact (A _ eq_refl).
Qed.
Lemma par_outcome ts s x : par E garbage ts s x -> inv ts s -> (exists s', x = Ok s' /\ like hs0 (sh_hists E s')) \/
  ((forall s', x <> Ok s') /\ exists t it c0 us, nth_error its t = Some it /\ (0 <= c0 < s_nPart src)%Z /\
     forall rest, quietly (crun RE garbage it (mkSh RE ([], us ++ rest) (with_count src c0) hs0 o0)) = quietly x).
Proof.
  intros P. induction P as [ts s F|ts s t c c' s1 x N A P IH|ts s x c I F Q]; intros V.
  - left. exists s. split; [reflexivity|]. destruct V as (bs & _ & _ & _ & LK & _). exact LK.
  - apply IH. eapply step_inv; eassumption.
  - right. split; [intros s' X; subst x; destruct (act E garbage c s) as [y| | | |] eqn:A; try discriminate X; exact (F y eq_refl)|].
    destruct (fail_alone ts s c V I F) as (t & it & c0 & us & A1 & A2 & A3). exists t, it, c0, us. split; [exact A1|]. split; [exact A2|]. intros rest. rewrite A3. subst x.
    destruct (act E garbage c s); reflexivity.
Qed.
End Region.
End Safe.

(** ** The parallel loops of the main program *)
Section Loops.
Context {T : Type} `{NT : Num T}.
Variable E : Engine T.
Variables dom domn : T -> bool.
Hypothesis DOM : forall g, dom (fst (e_canon E g)) = true.
Variable code : objinfo.
Variable garbage : T.
Variable fuel : nat.
Variable w : world T.
Hypothesis PO : forall pr, In pr (w_procs w) -> process_ok pr.
Variable tEnd : T.
Notation RE := (replay dom domn).

Lemma J_stores cs : forall o o', J code o -> foldm (store garbage) cs o = Ok o' -> J code o'.
Proof.
  induction cs as [|c cs IH]; intros o o' HJ X; cbn [foldm] in X; [injection X as <-; exact HJ|]. apply bind_ok in X as (o1 & X1 & X). apply (IH o1 o'); [|exact X].
  destruct c as [l j|l j|l j].
  - apply (J_exec code garbage (w_field w) o (OPrimary l j) o1); [exact I|exact HJ|exact X1].
  - apply (J_exec code garbage (w_field w) o (OFinal l j) o1); [exact I|exact HJ|exact X1].
  - apply (J_exec code garbage (w_field w) o (OTrack l j) o1); [exact I|exact HJ|exact X1].
Qed.
Lemma alike_rows (o o' : om T) : alike o o' -> same_rows o' o.
Proof. intros A. apply alike_inv in A as [-> _]. unfold same_rows. cbn [om_prim om_el om_po om_ph with_tracks]. auto. Qed.

(** The parallel loop over the events of a source ends, or fails as one of its iterations fails alone. *)
Lemma region_outcome output tracking src hs o g y : fresh src -> Forall hok hs ->
  par E garbage (map (fun j => iteration w (plan_of hs) fuel tEnd output tracking src (Z.of_nat j)) (seq 0 (Z.to_nat (s_nPart src)))) (mkSh E g src hs o) y ->
  (exists s', y = Ok s' /\ like hs (sh_hists E s')) \/
  ((forall s', y <> Ok s') /\ exists t c us, (t < Z.to_nat (s_nPart src))%nat /\ (0 <= c < s_nPart src)%Z /\
     forall rest, quietly (crun RE garbage (iteration w (plan_of hs) fuel tEnd output tracking src (Z.of_nat t)) (mkSh RE ([], us ++ rest) (with_count src c) hs o)) = quietly y).
Proof.
  intros (B & C0 & _) HH P. set (n := Z.to_nat (s_nPart src)) in *.
  set (its := map (fun j => iteration w (plan_of hs) fuel tEnd output tracking src (Z.of_nat j)) (seq 0 n)) in *.
  assert (NI : forall t it, nth_error its t = Some it -> (t < n)%nat /\ it = iteration w (plan_of hs) fuel tEnd output tracking src (Z.of_nat t)).
  { intros t it N. unfold its in N. pose proof (nth_error_len _ _ _ N) as L. rewrite map_length, seq_length in L. split; [exact L|].
    assert (Q : nth_error (seq 0 n) t = Some t) by (rewrite (nth_error_nth' (seq 0 n) 0%nat) by (rewrite seq_length; exact L); now rewrite seq_nth by exact L).
    rewrite (map_nth_error _ _ _ Q) in N. congruence. }
  assert (V : inv garbage E dom domn hs o src its its (mkSh E g src hs o)).
  { exists (repeat false (length its)). split; [reflexivity|]. split; [apply repeat_length|].
    split; [intros t it c b N1 N2 N3; apply nth_error_In, repeat_spec in N3; subst b; cbn [phase]; congruence|].
    cbn [sh_hists sh_om sh_src]. split; [split; [exact HH|reflexivity]|]. split; [reflexivity|].
    assert (Q : count_occ bool_dec (repeat false (length its)) true = 0%nat) by (clear; induction (length its); cbn; auto).
    rewrite Q. rewrite <- (with_count_same src) at 1. now rewrite C0. }
  assert (LI : Z.of_nat (length its) = s_nPart src) by (unfold its; rewrite map_length, seq_length; lia).
  destruct (par_outcome garbage E dom domn DOM hs o src its B LI) with (ts := its) (s := mkSh E g src hs o) (x := y) as [(s' & -> & LK)|(NK & t & it & c & us & N & BC & R)].
  - intros t it N. destruct (NI t it N) as [_ ->]. rewrite iteration_takes. eexists. split; [reflexivity|]. intros c. apply takeless_bind; [apply quiet_takeless, q_sampled|intros; apply rest_takeless].
  - exact HH.
  - exact P.
  - exact V.
  - left. eauto.
  - right. split; [exact NK|]. destruct (NI t it N) as [LT ->]. exists t, c, us. auto.
Qed.

(** the serial runs of a source with rearranged samples *)
Definition few_shuffled (os : bool * source T) : Prop := fst os = true -> forall sg, arranges sg (snd os) -> few RE fuel w tEnd (true, shuffle sg (snd os)).

Lemma region_sat output tracking m src (s : prog E) : fresh src -> few_shuffled (output, src) -> J code (pg_om E s) -> hoks m (pg_hists E s) -> forall y,
  par E garbage (map (fun j => iteration w (plan_of (pg_hists E s)) fuel tEnd output tracking src (Z.of_nat j)) (seq 0 (Z.to_nat (s_nPart src))))
    (mkSh E (pg_rng E s) src (pg_hists E s) (if output then init_source (pg_om E s) (s_nPart src) else pg_om E s)) y ->
  sat y (fun s1 => J code (sh_om E s1) /\ like (pg_hists E s) (sh_hists E s1) /\
    (output = true -> exists n first fin, stored n first fin (sh_om E s1) /\ forall name, In name three -> (Z.of_nat (length (all_rows name n fin)) < 2 ^ 29)%Z)).
Proof.
  intros FR FW HJ HH y P. set (n := Z.to_nat (s_nPart src)) in *. set (o0 := if output then init_source (pg_om E s) (s_nPart src) else pg_om E s) in *. set (hs := pg_hists E s) in *.
  pose proof FR as (B & C0 & LS). assert (NN : s_nPart src = Z.of_nat n) by (unfold n; lia).
  assert (O0 : omok code output n o0).
  { unfold o0. split.
    - destruct output; [|exact HJ]. apply (J_exec code garbage (w_field w) (pg_om E s) (OInit (s_nPart src)) _ I HJ). reflexivity.
    - intros ->. rewrite NN. eexists _, _. apply init_slots. }
  pose proof (region_outcome output tracking src hs o0 (pg_rng E s) y FR (proj1 HH) P) as PS'. fold n in PS'.
  assert (PS : (forall wh, y <> UB wh) /\ (forall s', y = Ok s' -> like hs (sh_hists E s'))).
  { destruct PS' as [(s' & -> & LK)|(NK & t & c & us & LT & BC & R)].
    - split; [discriminate|]. intros s2 X. injection X as <-. exact LK.
    - split; [|intros s' X; exfalso; exact (NK s' X)]. intros wh ->. specialize (R []).
      rewrite (run_iteration RE garbage w (plan_of hs) fuel tEnd output tracking src c (Z.of_nat t)) in R by reflexivity.
      assert (SC : srcok (with_count src c)) by (split; [split; [exact B|exact LS]|cbn [s_count s_nPart with_count]; lia]).
      pose proof (one_event_sat RE code garbage fuel w PO tEnd output tracking n m t (with_count src c) (prog_of RE (mkSh RE ([], us ++ []) (with_count src c) hs o0)) SC LT O0 HH) as OE.
      cbn [sh_src] in R. destruct (one_event _ _ _ _ _ _ _ _ _ _); try discriminate R. exact OE. }
  destruct PS as [PS1 PS2]. destruct y as [s1| | |wh|]; try exact I; [|exfalso; exact (PS1 wh eq_refl)]. cbn [sat].
  destruct (par_explains E garbage _ _ _ P s1 eq_refl) as (trs & us & cs & hl & ss & _ & _ & _ & _ & _ & _ & _ & D7 & _). cbn [sh_om] in D7.
  split; [exact (J_stores _ _ _ (proj1 O0) D7)|]. split; [apply PS2; reflexivity|]. intros ->.
  destruct (region_any E dom domn garbage fuel DOM w (plan_of hs) tEnd true tracking src hs o0 (pg_rng E s) s1 FR eq_refl P) as (sg & vs & vs' & AR & _ & _ & RX).
  destruct (RX [] []) as (o' & X & AL & _). fold n in X. specialize (FW eq_refl sg AR). unfold few in FW. cbn [fst snd shuffle s_nPart] in FW. fold n in FW.
  change 0%Z with (Z.of_nat 0) in X. apply (source_events_iff RE code garbage (w_field w)) in X. cbn [pg_om pg_hists pg_rng] in X. destruct X as (evs & EV & RUN).
  destruct (events_sound _ _ _ _ _ _ _ _ _ _ _ EV) as [LE SND].
  set (dp := Particle.mkP PPhoton "" n0 n0 n0 n0 n0 false false (mkV n0 n0 n0) (mkV n0 n0 n0) [] [] [] [] : particle T). set (first := fun j => match pl_items (first_of evs j) with p :: _ => p | [] => dp end).
  assert (SJ : forall j, (j < n)%nat -> sound (first_of evs j, last_of evs j)).
  { intros j Hj. unfold first_of, last_of. rewrite <- surjective_pairing. rewrite Forall_forall in SND. apply SND. apply nth_In. lia. }
  assert (F1 : forall j, (j < n)%nat -> pl_get (first_of evs j) 0 = Ok (first j)).
  { intros j Hj. destruct (SJ j Hj) as ((p & A & A') & _). cbn [fst] in A, A'. unfold first. rewrite A. exact A'. }
  assert (F2 : forall j, (j < n)%nat -> (pl_n (last_of evs j) < 2 ^ 29)%Z).
  { intros j Hj. destruct (SJ j Hj) as (_ & _ & A). cbn [snd] in A. unfold default_max in A. lia. }
  pose proof (calls_of_event_calls tracking evs) as [EC1 EC2]. rewrite LE in EC1, EC2.
  assert (SL : slots n (fun _ => None) (fun _ => None) o0) by (unfold o0; rewrite NN; apply init_slots).
  destruct (OutFile.run_calls code garbage (w_field w) n (first_of evs) (last_of evs) first _ F1 F2 EC2 _ _ o0 SL ltac:(discriminate) ltac:(discriminate))
    as (o2 & P' & F' & RUN' & SL' & _ & _ & _ & _ & A5 & A6 & _).
  rewrite RUN in RUN'. injection RUN' as <-. exists n, first, (last_of evs). split.
  - apply (rows_stored _ _ _ o' _ (alike_rows _ _ AL)). apply (slots_stored n P' F'); [exact SL'| |]; intros j Hj; [apply A5|apply A6]; auto; apply EC1; exact Hj.
  - intros name HN. rewrite <- LE, count_rows. exact (FW eq_refl _ _ _ _ _ EV name HN).
Qed.

Lemma like_trans (a b c : list (hist T)) : like a b -> like b c -> like a c.
Proof. intros [_ A] [B C]. split; [exact B|congruence]. Qed.
Lemma like_hoks m (a b : list (hist T)) : hoks m a -> like a b -> hoks m b.
Proof. intros [_ A] [B C]. split; [exact B|]. rewrite <- A, <- (map_length axes a), <- C. apply eq_sym, map_length. Qed.

Lemma threaded_loop_sat tracking m : forall ss (s : prog E), Forall (fun os => fresh (snd os) /\ few_shuffled os) ss -> J code (pg_om E s) -> hoks m (pg_hists E s) -> forall x,
  threaded_loop E garbage code fuel w tEnd tracking ss s x -> sat x (fun s' => J code (pg_om E s') /\ like (pg_hists E s) (pg_hists E s')).
Proof.
  induction ss as [|[output src] ss IH]; intros s HF HJ HH x L; cbn [threaded_loop] in L.
  - subst x. cbn [sat]. split; [exact HJ|]. split; [apply HH|reflexivity].
  - apply Forall_cons_iff in HF as [[FR FW] HF]. cbn [snd] in FR. cbv zeta in L. destruct L as (y & P & L).
    pose proof (region_sat output tracking m src s FR FW HJ HH y P) as RS.
    set (z := let* s1 := y in let* o1 := output_events code garbage (sh_om E s1) output tracking in Ok (mkProg E o1 (sh_hists E s1) (sh_rng E s1))) in L.
    assert (ZS : sat z (fun s1 => J code (pg_om E s1) /\ like (pg_hists E s) (pg_hists E s1))).
    { unfold z. apply sat_bind with (1 := RS). intros s1 _ (J1 & L1 & ST). apply sat_bind with (1 := output_events_sat code garbage (w_field w) (sh_om E s1) output tracking J1 ST).
      intros o1 _ J2. cbn [sat pg_om pg_hists]. auto. }
    destruct z as [s1| | | |]; try (subst x; exact I); [|contradiction ZS]. destruct ZS as [J1 L1].
    eapply sat_weak; [apply (IH s1 HF J1 (like_hoks _ _ _ HH L1) x L)|]. cbn beta. intros s' _ [A A']. split; [exact A|]. exact (like_trans _ _ _ L1 A').
Qed.
End Loops.
