(** * Serial runs with given random numbers *)
From Coq Require Import String ZArith List Bool Lia Permutation.
From Verif Require Import Num Outcome OutcomeFacts Vec Units Numerics MCTools Particle ParticleList Source SourceFacts Fields Pusher Process Sim Histogram Hdf5
  Output Text Ini IniReader Program Threads ThreadFacts ThreadSerial.
From Verif Require FileParser.
Import ListNotations.
Local Open Scope string_scope.
Local Open Scope list_scope.

Section Replay.
Context {T : Type} `{Num T}.
Variables dom domn : T -> bool.

(** The generator that delivers the given lists of normal deviates, all in [domn], and the given uniform numbers, all in [dom]; outside of what
    is given, zeros. *)
Definition replay : Engine T := mkEngine T (list (list T) * list T)
  (fun g => match snd g with [] => (n0, g) | u :: r => (if dom u then u else n0, (fst g, r)) end)
  (fun n g => match fst g with [] => (repeat n0 n, g) | l :: r => (if (Nat.eqb (length l) n && forallb domn l)%bool then l else repeat n0 n, (r, snd g)) end).
Lemma replay_delivers : delivers replay.
Proof.
  intros n [[|l r] us]; cbn; [apply repeat_length|]. destruct (Nat.eqb (length l) n) eqn:Q; [|apply repeat_length]. cbn [andb]. destruct (forallb domn l); [now apply Nat.eqb_eq|apply repeat_length].
Qed.
Lemma replay_normals : domn n0 = true -> forall n g z, In z (fst (e_normals replay n g)) -> domn z = true.
Proof.
  intros D n [[|l r] us] z; cbn; [intros I; apply repeat_spec in I; now subst|]. destruct (_ && _)%bool eqn:Q; cbn [fst]; [|intros I; apply repeat_spec in I; now subst].
  apply andb_true_iff in Q as [_ Q]. rewrite forallb_forall in Q. apply Q.
Qed.
Lemma replay_domain : dom n0 = true -> forall g, dom (fst (e_canon replay g)) = true.
Proof. intros D [ns [|u us]]; cbn; [exact D|]. destruct (dom u) eqn:Q; [exact Q|exact D]. Qed.

Variable garbage : T.

(** ** One iteration *)
Lemma dealt_nil_inv (s s' : source T) : dealt s [] s' -> s' = s.
Proof. intros D. inversion D. reflexivity. Qed.
Lemma dealt_cons_inv (s : source T) c cs s' : dealt s (c :: cs) s' -> exists s1, take s = Ok (c, s1) /\ dealt s1 cs s'.
Proof. intros D. inversion D; subst. eauto. Qed.
Lemma replay_tr {A} (c : co T A) a t : tr c a t -> Forall (fun u => dom u = true) (tr_d t) -> forall (s : shared replay) ns rest src' hs' o',
  sh_rng replay s = (ns, tr_d t ++ rest) -> dealt (sh_src replay s) (tr_t t) src' -> foldm count1 (tr_c t) (sh_hists replay s) = Ok hs' ->
  foldm (store garbage) (tr_s t) (sh_om replay s) = Ok o' -> crun replay garbage c s = Ok (a, mkSh replay (ns, rest) src' hs' o').
Proof.
  intros X. induction X as [a|k u a t X IH|k c a t X IH|i p k a t X IH|c k a t X IH]; intros DD [g sr hs o] ns rest src' hs' o' R D C S;
    cbn [sh_rng sh_src sh_hists sh_om tapp tr_d tr_t tr_c tr_s no_trace app] in *.
  - apply dealt_nil_inv in D. subst src'. cbn in C, S, R. injection C as <-. injection S as <-. subst g. cbn. reflexivity.
  - subst g. apply Forall_cons_iff in DD as [DD1 DD2]. cbn [crun replay e_canon sh_rng snd fst]. rewrite DD1. eapply IH; cbn [sh_rng sh_src sh_hists sh_om]; eauto.
  - apply dealt_cons_inv in D as (s1 & D1 & D). cbn [crun sh_src]. rewrite D1. cbn [bind fst snd]. eapply IH; cbn [sh_rng sh_src sh_hists sh_om]; eauto.
  - cbn [foldm] in C. apply bind_ok in C as (h1 & C1 & C). unfold count1 in C1. cbn [fst snd] in C1. cbn [crun sh_hists]. rewrite C1. cbn [bind].
    eapply IH; cbn [sh_rng sh_src sh_hists sh_om]; eauto.
  - cbn [foldm] in S. apply bind_ok in S as (o1 & S1 & S). cbn [crun sh_om]. rewrite S1. cbn [bind].
    eapply IH; cbn [sh_rng sh_src sh_hists sh_om]; eauto.
Qed.

(** ** The iterations of a source *)
Lemma dealt_app s l1 l2 : forall s', dealt s (l1 ++ l2) s' -> exists s1, dealt s l1 s1 /\ dealt (T := T) s1 l2 s'.
Proof.
  revert s. induction l1 as [|c l1 IH]; intros s s' D; cbn in D; [exists s; split; [constructor|exact D]|].
  apply dealt_cons_inv in D as (s1 & D1 & D). destruct (IH _ _ D) as (s2 & A & B). exists s2. split; [econstructor; eassumption|exact B].
Qed.
Lemma with_count_twice (s : source T) a b : with_count (with_count s a) b = with_count s b.
Proof. reflexivity. Qed.
Lemma with_count_same (s : source T) : with_count s (s_count s) = s.
Proof. destruct s. reflexivity. Qed.
Lemma dealt_from src cs : forall c s', dealt (with_count src c) cs s' -> exists c', s' = with_count (T := T) src c'.
Proof.
  induction cs as [|x cs IH]; intros c s' D; [apply dealt_nil_inv in D; eauto|]. apply dealt_cons_inv in D as (s1 & D1 & D). unfold take in D1. cbv zeta in D1.
  destruct (_ =? _)%Z; [discriminate|]. injection D1 as _ <-. eapply IH. exact D.
Qed.
Lemma count1_plan x (hs hs' : list (hist T)) : count1 x hs = Ok hs' -> plan_of hs' = plan_of hs.
Proof.
  unfold count1, count. destruct (nth_error hs (fst x)) as [h|] eqn:N; [|discriminate]. intros Q. apply bind_ok in Q as (h' & A & Q). injection Q as <-.
  destruct (app_particle_static _ _ _ A) as (S2 & S3 & _). revert N S2 S3. generalize (fst x). clear A. unfold plan_of. induction hs as [|h0 hs IH]; intros [|i] N S2 S3; cbn in *; try discriminate.
  - injection N as ->. congruence.
  - f_equal. eauto.
Qed.
Lemma foldm_plan l : forall hs hs' : list (hist T), foldm count1 l hs = Ok hs' -> plan_of hs' = plan_of hs.
Proof.
  induction l as [|x l IH]; intros hs hs' F; cbn in F; [injection F as ->; reflexivity|]. apply bind_ok in F as (h1 & F1 & F). rewrite (IH _ _ F). eapply count1_plan. exact F1.
Qed.

Lemma Forall2_head {A B} (P : A -> B -> Prop) a b l l' : Forall2 P (a :: l) (b :: l') -> P a b /\ Forall2 P l l'.
Proof. intros F. inversion F; auto. Qed.
Lemma replay_events w pl fuel tEnd output tracking src trs : forall j c (s : shared replay) ns rest s' hs' o',
  Forall2 (fun i t => tr (iteration w pl fuel tEnd output tracking src (Z.of_nat i)) tt t) (seq j (length trs)) trs ->
  Forall (fun u => dom u = true) (concat (map tr_d trs)) ->
  sh_src replay s = with_count src c -> plan_of (sh_hists replay s) = pl -> sh_rng replay s = (ns, concat (map tr_d trs) ++ rest) ->
  dealt (sh_src replay s) (concat (map tr_t trs)) s' -> foldm count1 (concat (map tr_c trs)) (sh_hists replay s) = Ok hs' ->
  foldm (store garbage) (concat (map tr_s trs)) (sh_om replay s) = Ok o' ->
  source_events replay garbage fuel w tEnd output tracking (length trs) (Z.of_nat j) (sh_src replay s) (prog_of replay s) = Ok (mkProg replay o' hs' (ns, rest)).
Proof.
  induction trs as [|t trs IH]; intros j c s ns rest s' hs' o' F DD S1 P R D C SS; cbn [length source_events map concat seq] in *.
  - cbn in C, SS. injection C as <-. injection SS as <-. cbn in R. unfold prog_of. rewrite R. reflexivity.
  - assert (F1 := proj1 (Forall2_head _ _ _ _ _ F)). assert (F2 := proj2 (Forall2_head _ _ _ _ _ F)). apply Forall_app in DD as [DD1 DD2]. rewrite <- app_assoc in R. apply dealt_app in D as (s1 & D1 & D). rewrite foldm_app in C. rewrite foldm_app in SS.
    apply bind_ok in C as (h1 & C1 & C). apply bind_ok in SS as (o1 & S2 & SS).
    pose proof (replay_tr _ _ _ F1 DD1 s _ _ _ _ _ R D1 C1 S2) as Q. rewrite (run_iteration replay garbage w pl fuel tEnd output tracking src c (Z.of_nat j) s S1 P) in Q.
    apply bind_ok in Q as ([src1 p1] & Q1 & Q). rewrite Q1. cbn [bind fst snd] in *. injection Q as A1 A2 A3 A4. subst s1 h1 o1.
    replace (Z.of_nat j + 1)%Z with (Z.of_nat (S j)) by lia. rewrite S1 in D1. destruct (dealt_from _ _ _ _ D1) as (c' & K).
    specialize (IH (S j) c' (mkSh replay (ns, concat (map tr_d trs) ++ rest) src1 (pg_hists replay p1) (pg_om replay p1)) ns rest s' hs' o').
    cbn [sh_rng sh_src sh_hists sh_om] in IH. rewrite (foldm_plan _ _ _ C1) in IH. unfold prog_of in IH. cbn [sh_rng sh_src sh_hists sh_om] in IH.
    destruct p1 as [q1 q2 q3]. cbn [pg_rng pg_hists pg_om] in *. subst q3. apply IH; auto.
Qed.

(** ** Sources with rearranged samples *)
Definition pick (sg : list nat) (l : list T) : list T := map (fun i => nth i l n0) sg.
Definition shuffle (sg : list nat) (s : source T) : source T :=
  mkSrc (s_type s) (s_nPart s) (s_count s) (s_track s) (s_dir s) (s_pos s) (pick sg (s_xs s)) (pick sg (s_ys s)) (pick sg (s_zs s))
        (pick sg (s_thetas s)) (pick sg (s_phis s)) (pick sg (s_energies s)) (s_rot s).
(** as many samples as particles, none of them used *)
Definition fresh (s : source T) : Prop :=
  (0 <= s_nPart s < 2 ^ 32)%Z /\ s_count s = 0%Z /\ let n := Z.to_nat (s_nPart s) in
  length (s_xs s) = n /\ length (s_ys s) = n /\ length (s_zs s) = n /\ length (s_thetas s) = n /\ length (s_phis s) = n /\ length (s_energies s) = n.
Definition arranges (sg : list nat) (s : source T) : Prop := Permutation (seq 0 (Z.to_nat (s_nPart s))) sg.

Lemma pick_get sg (l : list T) t i : nth_error sg t = Some i -> (i < length l)%nat -> get (pick sg l) (Z.of_nat t) = get l (Z.of_nat i).
Proof.
  intros N L. rewrite (get_in (pick sg l) _ (nth i l n0)); [|lia|]. rewrite (get_in l _ (nth i l n0)); [reflexivity|lia|].
  - rewrite Nat2Z.id. apply nth_error_nth'. exact L.
  - rewrite Nat2Z.id. unfold pick. now rewrite (map_nth_error (fun i => nth i l n0) _ _ N).
Qed.
Lemma pick_perm sg (l : list T) : Permutation (seq 0 (length l)) sg -> Permutation l (pick sg l).
Proof.
  intros P. unfold pick. rewrite <- P. replace (map (fun i => nth i l n0) (seq 0 (length l))) with l; [reflexivity|].
  clear P sg. induction l as [|a l IH]; cbn; [reflexivity|]. f_equal. rewrite <- seq_shift, map_map. exact IH.
Qed.
Lemma pick_map sg (l : list T) f : Permutation (seq 0 (length l)) sg -> map f (pick sg l) = pick sg (map f l).
Proof.
  intros P. unfold pick. rewrite map_map. apply map_ext_in. intros i I. apply (Permutation_in _ (Permutation_sym P)) in I. apply in_seq in I.
  rewrite (nth_indep (map f l) n0 (f n0)) by (rewrite map_length; lia). symmetry. apply map_nth.
Qed.
Lemma sampled_shuffle sg src t i : fresh src -> nth_error sg t = Some i -> (i < Z.to_nat (s_nPart src))%nat ->
  sampled (shuffle sg src) (Z.of_nat t) = sampled src (Z.of_nat i).
Proof.
  intros (_ & _ & L1 & L2 & L3 & L4 & L5 & L6) N L. unfold sampled, co_generate, shuffle. cbn [s_type s_nPart s_count s_track s_dir s_pos s_xs s_ys s_zs s_thetas s_phis s_energies s_rot].
  rewrite !(pick_get sg _ t i N) by (rewrite ?L1, ?L2, ?L3, ?L4, ?L5, ?L6; exact L). reflexivity.
Qed.

Lemma dealt_seq src n : forall k s', (Z.of_nat (k + n) <= s_nPart src)%Z -> (s_nPart src < 2 ^ 32)%Z ->
  forall cs, length cs = n -> dealt (with_count (T := T) src (Z.of_nat k)) cs s' -> cs = map Z.of_nat (seq k n) /\ s' = with_count src (Z.of_nat (k + n)).
Proof.
  induction n as [|n IH]; intros k s' B1 B2 cs L D; destruct cs as [|c cs]; try discriminate.
  - apply dealt_nil_inv in D. rewrite Nat.add_0_r. auto.
  - apply dealt_cons_inv in D as (s1 & D1 & D). unfold take in D1. cbv zeta in D1. destruct (_ =? _)%Z; [discriminate|]. cbn [s_count with_count] in D1. injection D1 as <- <-.
    assert (Q : with_count (with_count src (Z.of_nat k)) (u32 (Z.of_nat k + 1)) = with_count src (Z.of_nat (S k))).
    { rewrite with_count_twice. f_equal. unfold u32. rewrite Z.mod_small; lia. }
    rewrite Q in D. destruct (IH (S k) s') with (cs := cs) as [A B]; auto; [lia|]. cbn [seq map]. rewrite A, B. split; [reflexivity|]. f_equal. lia.
Qed.
Lemma deal_seq src n : forall k, (Z.of_nat (k + n) <= s_nPart src)%Z -> (s_nPart src < 2 ^ 32)%Z ->
  dealt (with_count (T := T) src (Z.of_nat k)) (map Z.of_nat (seq k n)) (with_count src (Z.of_nat (k + n))).
Proof.
  induction n as [|n IH]; intros k B1 B2; cbn [seq map]; [rewrite Nat.add_0_r; constructor|].
  econstructor.
  - unfold take. cbv zeta. cbn [s_count s_nPart with_count]. destruct (_ =? _)%Z eqn:Q; [apply Z.eqb_eq in Q; lia|]. reflexivity.
  - rewrite with_count_twice. replace (u32 (Z.of_nat k + 1)) with (Z.of_nat (S k)) by (unfold u32; rewrite Z.mod_small; lia).
    replace (k + S n)%nat with (S k + n)%nat by lia. apply IH; auto. lia.
Qed.

End Replay.
