(** * Failures of interleaved iterations are failures of serial runs (lemmas for C139) *)
From Coq Require Import String ZArith List Bool Lia Permutation.
From Verif Require Import Num Outcome OutcomeFacts Vec Units Numerics MCTools Particle ParticleList Source SourceFacts Fields Pusher Process Sim Histogram Hdf5
  Output OutFacts Text Ini IniReader Program ProgramSafe Threads ThreadFacts ThreadSerial ThreadReplay ThreadProgram ThreadSafe.
From Verif Require FileParser.
Import ListNotations.
Local Open Scope string_scope.
Local Open Scope list_scope.

Section Fail.
Context {T : Type} `{NT : Num T}.
Variable garbage : T.
Variables dom domn : T -> bool.
Notation RE := (replay dom domn).

(** ** The number of an iteration does not matter *)
Section Renumber.
Variable output : bool.
Variable n : nat.
Definition rows_like (o o' : om T) : Prop := shape o = shape o' /\ (output = true -> shape o = repeat n 7).
Inductive ren {A} : co T A -> co T A -> Prop :=
| ren_now r : ren (Now r) (Now r)
| ren_draw k k' : (forall u, ren (k u) (k' u)) -> ren (Draw k) (Draw k')
| ren_count i p k k' : ren k k' -> ren (Count i p k) (Count i p k')
| ren_store c c' k k' : (forall o o', rows_like o o' -> quietly (store garbage c o) = quietly (store garbage c' o') /\
    (forall o1 o2, store garbage c o = Ok o1 -> store garbage c' o' = Ok o2 -> rows_like o1 o2)) -> ren k k' -> ren (Store c k) (Store c' k').
Lemma ren_bind {A B} (c c' : co T A) (f f' : A -> co T B) : ren c c' -> (forall a, ren (f a) (f' a)) -> ren (cbind c f) (cbind c' f').
Proof. intros Q F. induction Q as [r|k k' Q IH|i p k k' Q IH|x x' k k' S Q IH]; cbn [cbind]; [destruct r; try apply F; constructor|constructor; auto|constructor; auto|constructor; auto]. Qed.
Lemma quiet_ren {A} (c : co T A) : quiet c -> ren c c.
Proof. intros Q. induction Q; constructor; auto. Qed.
Lemma crun_ren {A} (c c' : co T A) : ren c c' -> forall g sr sr' hs o o', rows_like o o' ->
  quietly (crun RE garbage c (mkSh RE g sr hs o)) = quietly (crun RE garbage c' (mkSh RE g sr' hs o')).
Proof.
  intros Q. induction Q as [r|k k' Q IH|i p k k' Q IH|x x' k k' S Q IH]; intros g sr sr' hs o o' RL; cbn [crun sh_rng sh_src sh_hists sh_om].
  - destruct r; reflexivity.
  - destruct (e_canon RE g) as [u g1]. apply IH. exact RL.
  - destruct (count i p hs) as [h1| | | |]; cbn [bind]; try reflexivity. apply IH. exact RL.
  - destruct (S o o' RL) as [S1 S2]. destruct (store garbage x o) as [o1| | | |]; destruct (store garbage x' o') as [o2| | | |]; try discriminate S1; unfold quietly in *; cbn in S1 |- *; try congruence.
    apply IH. apply S2; reflexivity.
Qed.

Lemma get_valid {A} (l : list A) j : (0 <= j < Z.of_nat (length l))%Z -> quietly (get l j) = Ok tt.
Proof.
  intros B. unfold get. destruct (_ || _)%bool eqn:Q; [apply orb_true_iff in Q as [Q|Q]; [apply Z.ltb_lt in Q|apply Z.leb_le in Q]; lia|].
  destruct (nth_error l _) eqn:N; [reflexivity|]. apply nth_error_None in N. lia.
Qed.
Lemma bind_q {A B C D} (x : res A) (y : res C) (f : A -> res B) (g : C -> res D) : quietly x = quietly y -> (forall a b, x = Ok a -> y = Ok b -> quietly (f a) = quietly (g b)) ->
  quietly (bind x f) = quietly (bind y g).
Proof. destruct x, y; cbn; intros Q F; try discriminate; try congruence. apply F; reflexivity. Qed.
Lemma put_ren (b b' : list T) i v v' : length b = length b' -> quietly (put b i v) = quietly (put b' i v') /\
  forall b1 b2, put b i v = Ok b1 -> put b' i v' = Ok b2 -> length b1 = length b2.
Proof.
  intros L. unfold put. rewrite L. destruct (_ || _)%bool; (split; [reflexivity|]); intros b1 b2 X Y; [discriminate|]. injection X as <-. injection Y as <-. now rewrite !length_upd.
Qed.
Lemma put_row_ren vs : forall vs' (b b' : list T) i, length vs = length vs' -> length b = length b' -> quietly (put_row b i vs) = quietly (put_row b' i vs') /\
  forall b1 b2, put_row b i vs = Ok b1 -> put_row b' i vs' = Ok b2 -> length b1 = length b2.
Proof.
  induction vs as [|v vs IH]; intros [|v' vs'] b b' i LV L; try discriminate LV; cbn [put_row].
  - split; [reflexivity|]. intros b1 b2 X Y. injection X as <-. injection Y as <-. exact L.
  - injection LV as LV. destruct (put_ren b b' (u32 i) v v' L) as [Q1 Q2]. split.
    + apply bind_q; [exact Q1|]. intros x y X Y. apply (IH vs' x y (i + 1)%Z LV). exact (Q2 x y X Y).
    + intros b1 b2 X Y. apply bind_ok in X as (x & X1 & X). apply bind_ok in Y as (y & Y1 & Y). exact (proj2 (IH vs' x y (i + 1)%Z LV (Q2 x y X1 Y1)) _ _ X Y).
Qed.
Lemma store_rows_ren name j j' ps : forall (b b' : list T) c, length b = length b' -> quietly (store_rows name j ps b c) = quietly (store_rows name j' ps b' c).
Proof.
  induction ps as [|p ps IH]; intros b b' c L; cbn [store_rows]; [reflexivity|]. destruct (String.eqb _ _); [|apply IH; exact L].
  destruct (put_row_ren (row j p) (row j' p) b b' (u32 (c * 8)) eq_refl L) as [Q1 Q2]. apply bind_q; [exact Q1|]. intros x y X Y. apply IH. exact (Q2 _ _ X Y).
Qed.
Lemma species_ren name j j' ps (t t' : table T) : tshape t = (n, n) -> tshape t' = (n, n) -> (0 <= j < Z.of_nat n)%Z -> (0 <= j' < Z.of_nat n)%Z ->
  quietly (store_species garbage name j ps t) = quietly (store_species garbage name j' ps t').
Proof.
  unfold tshape. intros Q Q' B B'. injection Q as Q1 Q2. injection Q' as Q3 Q4. unfold store_species.
  apply bind_q; [rewrite !get_valid by lia; reflexivity|]. intros _ _ _ _. apply bind_q; [rewrite !get_valid by lia; reflexivity|]. intros _ _ _ _. apply bind_q; [|reflexivity].
  apply store_rows_ren. reflexivity.
Qed.
Lemma sizes (o : om T) : shape o = repeat n 7 -> length (om_prim o) = n /\ tshape (om_el o) = (n, n) /\ tshape (om_po o) = (n, n) /\ tshape (om_ph o) = (n, n).
Proof. unfold shape, tshape. cbn [repeat]. intros Q. injection Q as -> -> -> -> -> -> ->. auto. Qed.
Lemma rows_after c c' (o o' : om T) : rows_like o o' -> forall o1 o2, store garbage c o = Ok o1 -> store garbage c' o' = Ok o2 -> rows_like o1 o2.
Proof.
  intros [A B] o1 o2 X Y. destruct (store_shape garbage c o o eq_refl) as [_ S1]. destruct (store_shape garbage c' o' o' eq_refl) as [_ S2]. specialize (S1 _ X). specialize (S2 _ Y). split; [congruence|].
  intros HO. rewrite S1. auto.
Qed.
Lemma store_ren (l : event T) j j' : output = true -> (0 <= j < Z.of_nat n)%Z -> (0 <= j' < Z.of_nat n)%Z -> forall o o', rows_like o o' ->
  quietly (store garbage (SPrimary l j) o) = quietly (store garbage (SPrimary l j') o') /\ quietly (store garbage (SFinal l j) o) = quietly (store garbage (SFinal l j') o').
Proof.
  intros HO B B' o o' [A S]. specialize (S HO). pose proof S as S'. rewrite A in S'. destruct (sizes o S) as (A1 & A2 & A3 & A4). destruct (sizes o' S') as (B1 & B2 & B3 & B4). cbn [store]. split.
  - unfold store_primary. apply bind_q; [reflexivity|]. intros ? ? _ _. apply bind_q; [rewrite !get_valid by lia; reflexivity|]. reflexivity.
  - unfold store_final. do 3 (apply bind_q; [apply species_ren; assumption|intros ? ? _ _]). reflexivity.
Qed.
Lemma rest_ren w pl fuel tEnd tracking l j j' : (0 <= j < Z.of_nat n)%Z -> (0 <= j' < Z.of_nat n)%Z -> ren (rest_of w pl fuel tEnd output tracking j l) (rest_of w pl fuel tEnd output tracking j' l).
Proof.
  intros B B'. unfold rest_of.
  assert (P : forall l0, ren (if output then Store (SPrimary l0 j) (ret tt) else ret tt) (if output then Store (SPrimary l0 j') (ret tt) else ret tt)).
  { intros l0. destruct output eqn:HO; [|constructor]. constructor; [|constructor]. intros o o' RL. split; [apply (store_ren l0 j j' HO B B'); exact RL|apply rows_after; exact RL]. }
  assert (F : forall l0, ren (if output then Store (SFinal l0 j) (ret tt) else ret tt) (if output then Store (SFinal l0 j') (ret tt) else ret tt)).
  { intros l0. destruct output eqn:HO; [|constructor]. constructor; [|constructor]. intros o o' RL. split; [apply (store_ren l0 j j' HO B B'); exact RL|apply rows_after; exact RL]. }
  apply ren_bind; [apply P|intros _]. apply ren_bind; [apply quiet_ren, q_event|intros fin]. apply ren_bind; [apply F|intros _].
  destruct tracking; [|constructor]. constructor; [|constructor]. intros o o' RL. split; [reflexivity|apply rows_after; exact RL].
Qed.
Lemma iteration_ren w pl fuel tEnd tracking src src' c c' j j' g hs o : (0 <= c < s_nPart src)%Z -> (0 <= c' < s_nPart src')%Z -> sampled src c = sampled src' c' ->
  (0 <= j < Z.of_nat n)%Z -> (0 <= j' < Z.of_nat n)%Z -> (output = true -> shape o = repeat n 7) ->
  quietly (crun RE garbage (iteration w pl fuel tEnd output tracking src j) (mkSh RE g (with_count src c) hs o))
  = quietly (crun RE garbage (iteration w pl fuel tEnd output tracking src' j') (mkSh RE g (with_count src' c') hs o)).
Proof.
  intros B B' SQ BJ BJ' SO. rewrite !iteration_takes. cbn [crun sh_src]. unfold take. cbv zeta. cbn [s_count s_nPart with_count].
  destruct (c =? s_nPart src)%Z eqn:Q; [apply Z.eqb_eq in Q; lia|]. destruct (c' =? s_nPart src')%Z eqn:Q'; [apply Z.eqb_eq in Q'; lia|]. cbn [bind fst snd sh_rng sh_hists sh_om]. rewrite SQ.
  apply crun_ren; [|split; [reflexivity|exact SO]]. apply ren_bind; [apply quiet_ren, q_sampled|]. intros l. apply rest_ren; assumption.
Qed.
End Renumber.

(** ** Serial runs that fail in the same way *)
Variable E : Engine T.
Hypothesis DOM : forall g, dom (fst (e_canon E g)) = true.
Variable code : objinfo.
Variable fuel : nat.
Variable w : world T.
Variable tEnd : T.

Lemma init_shape (o : om T) k : (0 <= k)%Z -> shape (init_source o k) = repeat (Z.to_nat k) 7.
Proof. intros B. unfold shape, init_source. cbn [om_prim om_el om_po om_ph with_tables with_prim tb_rows tb_count]. rewrite !repeat_length. reflexivity. Qed.
Lemma quietly_bind {A B} (x : res A) (f : A -> res B) : (forall a, x <> Ok a) -> quietly (bind x f) = quietly x.
Proof. destruct x; intros N; try reflexivity. exfalso. exact (N _ eq_refl). Qed.
Lemma quietly_fails {A B} (x : res A) (y : res B) : quietly x = quietly y -> (forall b, y <> Ok b) -> forall a, x <> Ok a.
Proof. intros Q N a ->. destruct y; try discriminate Q. exact (N _ eq_refl). Qed.
Lemma sample_first n c : (c < n)%nat -> exists sg, Permutation (seq 0 n) (c :: sg).
Proof. intros L. assert (I : In c (seq 0 n)) by (apply in_seq; lia). apply in_split in I as (a & b & ->). exists (a ++ b). apply Permutation_sym, Permutation_middle. Qed.
Lemma region_fails output tracking src hs o g y : fresh src -> Forall hok hs -> (output = true -> shape o = repeat (Z.to_nat (s_nPart src)) 7) ->
  par E garbage (map (fun j => iteration w (plan_of hs) fuel tEnd output tracking src (Z.of_nat j)) (seq 0 (Z.to_nat (s_nPart src)))) (mkSh E g src hs o) y -> (forall s', y <> Ok s') ->
  exists sg us', arranges sg src /\ forall rest,
    quietly (source_events RE garbage fuel w tEnd output tracking (Z.to_nat (s_nPart src)) 0 (shuffle sg src) (mkProg RE o hs ([], us' ++ rest))) = quietly y.
Proof.
  intros FR HH SH P NK. destruct (region_outcome E dom domn DOM garbage fuel w tEnd output tracking src hs o g y FR HH P) as [(s' & -> & _)|(_ & t & c & us & LT & BC & R)]; [exfalso; exact (NK s' eq_refl)|].
  pose proof FR as (B & C0 & _). set (n := Z.to_nat (s_nPart src)) in *.
  destruct (sample_first n (Z.to_nat c) ltac:(unfold n; lia)) as (sg & AR). exists (Z.to_nat c :: sg), us. split; [exact AR|]. intros rest. specialize (R rest).
  rewrite (iteration_ren output n w (plan_of hs) fuel tEnd tracking src (shuffle (Z.to_nat c :: sg) src) c 0 (Z.of_nat t) 0) in R;
    [|lia|cbn [shuffle s_nPart]; lia| |lia|lia|exact SH].
  2:{ symmetry. change 0%Z with (Z.of_nat 0). rewrite (sampled_shuffle (Z.to_nat c :: sg) src 0 (Z.to_nat c) FR eq_refl); [|unfold n in *; lia]. f_equal. lia. }
  assert (W : with_count (shuffle (Z.to_nat c :: sg) src) 0 = shuffle (Z.to_nat c :: sg) src) by (rewrite <- (with_count_same (shuffle (Z.to_nat c :: sg) src)) at 2; cbn [shuffle s_count]; now rewrite C0).
  rewrite W in R. rewrite (run_iteration RE garbage w (plan_of hs) fuel tEnd output tracking (shuffle (Z.to_nat c :: sg) src) 0 0) in R; [|cbn [sh_src]; symmetry; exact W|reflexivity].
  cbn [sh_src] in R. unfold prog_of in R. cbn [sh_om sh_hists sh_rng] in R.
  destruct n as [|n']; [lia|]. cbn [source_events]. rewrite <- R.
  destruct (one_event RE garbage fuel w tEnd output tracking 0 (shuffle (Z.to_nat c :: sg) src) (mkProg RE o hs ([], us ++ rest))) as [r| | | |]; try reflexivity.
  exfalso. cbn in R. destruct y; try discriminate R. exact (NK _ eq_refl).
Qed.

Lemma arranged (ss : list (bool * source T)) : exists sgs, Forall2 (fun sg x => arranges sg (snd x)) sgs ss.
Proof. induction ss as [|x ss (sgs & F)]; [exists []; constructor|]. exists (seq 0 (Z.to_nat (s_nPart (snd x))) :: sgs). constructor; [apply Permutation_refl|exact F]. Qed.
Lemma threaded_fails m ss : Forall (fun x => fresh (snd x)) ss -> forall s, hoks m (pg_hists E s) -> forall x, threaded_loop E garbage code fuel w tEnd false ss s x -> (forall s', x <> Ok s') ->
  exists sgs us', Forall2 (fun sg x => arranges sg (snd x)) sgs ss /\
    forall rest, quietly (source_loop RE code garbage fuel w tEnd false (shuffles sgs ss) (mkProg RE (pg_om E s) (pg_hists E s) ([], us' ++ rest))) = quietly x.
Proof.
  induction ss as [|[output src] ss IH]; intros FR s HH x L NK; cbn [threaded_loop] in L; [exfalso; exact (NK s L)|].
  apply Forall_cons_iff in FR as [FR1 FR2]. cbn [snd] in FR1. cbv zeta in L. destruct L as (y & P & L).
  set (o0 := if output then init_source (pg_om E s) (s_nPart src) else pg_om E s) in *.
  assert (SH : output = true -> shape o0 = repeat (Z.to_nat (s_nPart src)) 7) by (intros HO; unfold o0; rewrite HO; apply init_shape; destruct FR1; lia).
  assert (SL : forall sg sgs p, source_loop RE code garbage fuel w tEnd false (shuffles (sg :: sgs) ((output, src) :: ss)) p =
     let* s1 := source_events RE garbage fuel w tEnd output false (Z.to_nat (s_nPart src)) 0 (shuffle sg src) (mkProg RE (if output then init_source (pg_om RE p) (s_nPart src) else pg_om RE p) (pg_hists RE p) (pg_rng RE p)) in
     let* o1 := output_events code garbage (pg_om RE s1) output false in source_loop RE code garbage fuel w tEnd false (shuffles sgs ss) (mkProg RE o1 (pg_hists RE s1) (pg_rng RE s1))) by reflexivity.
  assert (D : (exists s1, y = Ok s1) \/ forall s1, y <> Ok s1) by (destruct y; [left; eauto|right; discriminate..]).
  destruct D as [(s1 & ->)|NY].
  - destruct (region E dom domn garbage fuel DOM w (plan_of (pg_hists E s)) tEnd output src (pg_hists E s) _ (pg_rng E s) s1 FR1 eq_refl P) as (sg & us & us' & A1 & _ & _ & A4).
    destruct (region_outcome E dom domn DOM garbage fuel w tEnd output false src _ _ _ _ FR1 (proj1 HH) P) as [(s2 & Q & LK)|(N1 & _)]; [injection Q as <-|exfalso; exact (N1 _ eq_refl)].
    cbn [bind] in L. destruct (output_events code garbage (sh_om E s1) output false) as [o1| | | |] eqn:OE; cbn [bind] in L.
    + destruct (IH FR2 _ (like_hoks _ _ _ HH LK : hoks m (pg_hists E (mkProg E o1 (sh_hists E s1) (sh_rng E s1)))) x L NK) as (sgs & vs & B1 & B2). cbn [pg_om pg_hists] in B2.
      exists (sg :: sgs), (us' ++ vs). split; [constructor; assumption|]. intros rest. rewrite SL. cbn [pg_om pg_hists pg_rng]. fold o0. rewrite <- app_assoc, A4. cbn [bind pg_om pg_hists pg_rng]. rewrite OE. apply B2.
    + destruct (arranged ss) as (sgs & B1). exists (sg :: sgs), us'. split; [constructor; assumption|]. intros rest. rewrite SL. cbn [pg_om pg_hists pg_rng]. fold o0. rewrite A4. cbn [bind pg_om]. rewrite OE. subst x. reflexivity.
    + destruct (arranged ss) as (sgs & B1). exists (sg :: sgs), us'. split; [constructor; assumption|]. intros rest. rewrite SL. cbn [pg_om pg_hists pg_rng]. fold o0. rewrite A4. cbn [bind pg_om]. rewrite OE. subst x. reflexivity.
    + destruct (arranged ss) as (sgs & B1). exists (sg :: sgs), us'. split; [constructor; assumption|]. intros rest. rewrite SL. cbn [pg_om pg_hists pg_rng]. fold o0. rewrite A4. cbn [bind pg_om]. rewrite OE. subst x. reflexivity.
    + destruct (arranged ss) as (sgs & B1). exists (sg :: sgs), us'. split; [constructor; assumption|]. intros rest. rewrite SL. cbn [pg_om pg_hists pg_rng]. fold o0. rewrite A4. cbn [bind pg_om]. rewrite OE. subst x. reflexivity.
  - destruct (region_fails output false src _ _ _ y FR1 (proj1 HH) SH P NY) as (sg & us' & A1 & A2). destruct (arranged ss) as (sgs & B1). exists (sg :: sgs), us'. split; [constructor; assumption|].
    intros rest. rewrite SL. cbn [pg_om pg_hists pg_rng]. fold o0. rewrite quietly_bind by (apply (quietly_fails _ y (A2 rest) NY)). rewrite A2.
    destruct y; cbn [bind] in L; [exfalso; exact (NY _ eq_refl)|subst x; reflexivity..].
Qed.
End Fail.
