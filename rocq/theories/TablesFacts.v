(** * The table loader: facts *)
From Coq Require Import String ZArith List Bool Ascii Lia.
From Verif Require Import Num Outcome Text SpecNumeral NumeralFacts Process ProcessSafe SpecLoad Tables.
Import ListNotations.

Lemma white_isspace : forall c, white c -> isspace c = true.
Proof. intros c H. unfold white in H. cbn [map In] in H. repeat destruct H as [<-|H]; try reflexivity. destruct H. Qed.
Lemma white_run : forall w, Forall white w -> Forall (fun c => isspace c = true) w.
Proof. intros w F. eapply Forall_impl; [|exact F]. apply white_isspace. Qed.
Lemma delimited_ends : forall t, delimited t -> ends t.
Proof. intros t [->|(c & r & -> & H)]; [now left|right]. exists c, r. split; auto. now apply white_isspace. Qed.

Lemma written_app : forall l1 l2 t r, written t (l1 ++ l2) r -> exists u, written t l1 u /\ written u l2 r.
Proof.
  induction l1 as [|x l1 IH]; intros l2 t r W; cbn [app] in W.
  - exists t. split; [constructor|exact W].
  - inversion W as [|w s n u0 l' r' Hw P D W']; subst. destruct (IH _ _ _ W') as (u & U1 & U2). exists u. split; auto. constructor; auto.
Qed.

Lemma written_join : forall l1 l2 t u r, written t l1 u -> written u l2 r -> written t (l1 ++ l2) r.
Proof. intros l1 l2 t u r W. induction W; cbn [app]; auto. intros. constructor; auto. Qed.

(** *** one number *)
Lemma unsigned_range old s : (0 <= old < 2 ^ 32)%Z -> (0 <= snd (in_unsigned s old) < 2 ^ 32)%Z.
Proof.
  intros Ho. unfold in_unsigned. destruct s as [t|]; [|exact Ho]. destruct (skip_space t) as [|c u]; [exact Ho|].
  destruct (sign (c :: u)) as [neg v].
  assert (G : forall b v acc n, (0 <= acc)%Z -> (2 <= b)%Z -> (0 <= fst (fst (digits b acc n v)))%Z).
  { clear. intros b v. induction v as [|c v IH]; intros acc n Ha Hb; cbn [digits]; [exact Ha|].
    destruct (digit b c) as [d|] eqn:E; [|exact Ha]. apply IH; auto.
    assert (0 <= d)%Z; [|nia]. unfold digit in E. destruct (_ <? b)%Z; [|discriminate]. inversion E.
    repeat match goal with |- context [if ?x then _ else _] => destruct x eqn:? end; try lia;
    repeat match goal with H : _ && _ = true |- _ => apply andb_prop in H; destruct H end;
    rewrite ?Z.leb_le in *; lia. }
  specialize (G 10%Z v 0%Z 0%Z ltac:(lia) ltac:(lia)). destruct (digits 10 0 0 v) as [[m n] r]. cbn [fst] in G.
  destruct (n =? 0)%Z; [cbn; lia|]. destruct (Z.ltb_spec (2 ^ 32 - 1) m) as [L|L]; [cbn; lia|].
  cbn [snd]. destruct neg; [|lia]. unfold u32. apply Z.mod_pos_bound. lia.
Qed.

Section Facts.
Context {T : Type} `{Num T}.

Lemma written_double s n w t (old : T) : Forall white w -> proper n -> delimited t ->
  in_double (Some (w ++ render_sign s ++ render n ++ t)) old = (Some t, number s n).
Proof.
  intros W P D. unfold in_double. destruct (signed_head s n P) as (c & q & E & Es).
  assert (E' : render_sign s ++ render n ++ t = c :: q ++ t) by (rewrite app_assoc, E; reflexivity).
  rewrite skip_white; [|now apply white_run|left; exists c, (q ++ t); auto].
  pose proof (stream_number_white (T := T) [] s n t (Forall_nil _) P (delimited_ends _ D)) as S. cbn [app] in S.
  rewrite E' in *. rewrite S. reflexivity.
Qed.

Lemma white_double w (old : T) : Forall white w -> in_double (Some w) old = (None, old).
Proof.
  intros W. unfold in_double. replace w with (w ++ []) by apply app_nil_r.
  rewrite skip_white; [reflexivity|now apply white_run|now right].
Qed.

Lemma written_unsigned x n t r l old : count_of x n -> written t (x :: l) r ->
  exists u, in_unsigned (Some t) old = (Some u, Z.of_nat n) /\ written u l r.
Proof.
  intros (ds & -> & V & B) W. inversion W as [|w s m u l' r' Hw P D W']; subst. exists u. split; auto.
  unfold in_unsigned. cbn [render_sign app]. unfold render. cbn [ip fp ex render_frac render_exp]. rewrite !app_nil_r.
  destruct P as (Hi & _ & Hne & _). cbn [ip fp frac_digits] in Hi, Hne. unfold frac_digits in Hne. cbn in Hne.
  rewrite app_nil_r in Hne. destruct ds as [|c ds]; [congruence|].
  inversion Hi as [|? ? Hc Hd]; subst.
  destruct (head_no_sign c (or_introl Hc)) as (N1 & N2 & N3).
  rewrite skip_white; [|now apply white_run|left; exists c, (ds ++ u); auto].
  cbn [app sign]. apply Ascii.eqb_neq in N1, N2. rewrite N1, N2.
  change (c :: ds ++ u) with ((c :: ds) ++ u). rewrite digits_run; auto.
  2: { destruct D as [->|(d & q & -> & Hd')]; [apply not_starts_nil|]. intros (d' & q' & Eq & Hdig). inversion Eq; subst.
       apply is_digit_10 in Hdig. apply white_isspace in Hd'. destruct (isspace_not _ Hd') as [Z _]. congruence. }
  rewrite V. replace (0 * 10 ^ Z.of_nat (length (c :: ds)) + Z.of_nat n)%Z with (Z.of_nat n) by lia.
  cbn [length]. destruct (Z.eqb_spec (0 + Z.of_nat (S (length ds))) 0) as [Z|_]; [lia|].
  destruct (Z.ltb_spec (2 ^ 32 - 1) (Z.of_nat n)) as [L|_]; [lia|]. reflexivity.
Qed.

(** *** lists of numbers *)
Lemma written_pairs rows : forall t r a b, written t (in_turn rows) r ->
  fst (in_pairs (length rows) (Some t) a b) = map (fun x => (entry_value (fst x), entry_value (snd x)) : T * T) rows.
Proof.
  induction rows as [|[x y] rows IH]; intros t r a b W; [reflexivity|]. cbn [in_turn flat_map app] in W.
  inversion W as [|w s n u l' r' Hw P D W']; subst. inversion W' as [|w2 s2 n2 u2 l2 r2 Hw2 P2 D2 W2]; subst.
  cbn [length in_pairs]. rewrite written_double by assumption. rewrite written_double by assumption.
  specialize (IH u2 r (number s n) (number s2 n2) W2).
  destruct (in_pairs (length rows) (Some u2) (number s n) (number s2 n2)) as [l z]. cbn [fst] in *. subst. reflexivity.
Qed.

Variable junk : nat -> nat -> T.

Lemma written_array l : forall t r b i, written t l r ->
  in_array junk (length l) b i (Some t) = (map entry_value l, Some r).
Proof.
  induction l as [|[s n] l IH]; intros t r b i W; inversion W; subst; [reflexivity|].
  cbn [length in_array]. rewrite written_double by assumption. rewrite (IH _ r) by assumption. reflexivity.
Qed.

Lemma written_column l : forall t r a, written t l r -> in_column (length l) (Some t) a = map (@entry_value T _) l.
Proof.
  induction l as [|[s n] l IH]; intros t r a W; inversion W; subst; [reflexivity|].
  cbn [length in_column]. rewrite written_double by assumption. rewrite (IH _ r) by assumption. reflexivity.
Qed.

Lemma written_rows m rows : forall t r b, Forall (fun x => length x = m) rows -> written t (concat rows) r ->
  in_rows junk (length rows) m b (Some t) = map (map entry_value) rows.
Proof.
  induction rows as [|x rows IH]; intros t r b F W; [reflexivity|]. inversion F as [|? ? E F']; subst.
  cbn [concat] in W. apply written_app in W. destruct W as (u & U1 & U2).
  cbn [length in_rows]. rewrite (written_array x t u) by assumption. rewrite (IH u r) by assumption. reflexivity.
Qed.

(** *** lengths, whatever is in the stream *)
Lemma pairs_length n : forall s (a b : T), length (fst (in_pairs n s a b)) = n.
Proof.
  induction n as [|n IH]; intros s a b; [reflexivity|]. cbn [in_pairs].
  destruct (in_double s a) as [s1 a1], (in_double s1 b) as [s2 b1]. specialize (IH s2 a1 b1).
  destruct (in_pairs n s2 a1 b1) as [l z]. cbn [fst length] in *. now f_equal.
Qed.
Lemma array_length n : forall b i s, length (fst (in_array junk n b i s)) = n.
Proof.
  induction n as [|n IH]; intros b i s; [reflexivity|]. cbn [in_array].
  destruct (in_double s (junk b i)) as [s1 x]. specialize (IH b (S i) s1).
  destruct (in_array junk n b (S i) s1) as [l z]. cbn [fst length] in *. now f_equal.
Qed.
Lemma rows_length n m : forall b s, length (in_rows junk n m b s) = n /\
  Forall (fun x => length x = m) (in_rows junk n m b s).
Proof.
  induction n as [|n IH]; intros b s; [split; [reflexivity|constructor]|]. cbn [in_rows].
  pose proof (array_length m b 0 s) as A. destruct (in_array junk m b 0 s) as [r s1]. cbn [fst] in A.
  destruct (IH (S b) s1) as [I1 I2]. split; cbn [length]; [now f_equal|now constructor].
Qed.
Lemma column_length n : forall s (a : T), length (in_column n s a) = n.
Proof.
  induction n as [|n IH]; intros s a; [reflexivity|]. cbn [in_column]. destruct (in_double s a) as [s1 a1].
  cbn [length]. now f_equal.
Qed.

(** *** streams that run out *)
Lemma dead_double (old : T) : in_double None old = (None, old).
Proof. reflexivity. Qed.
Definition over (s : stream) : Prop := match s with None => True | Some t => Forall white t end.
Lemma over_double s (old : T) : over s -> in_double s old = (None, old).
Proof. destruct s as [t|]; [|reflexivity]. apply white_double. Qed.

Lemma last_cons {A} (l : list A) : forall x d, last (x :: l) d = last l x.
Proof. induction l as [|y l IH]; intros x d; [reflexivity|]. change (last (x :: y :: l) d) with (last (y :: l) d). now rewrite !IH. Qed.
Lemma over_pairs k : forall s (a b : T), over s -> fst (in_pairs k s a b) = repeat (a, b) k.
Proof.
  induction k as [|k IH]; intros s a b O; [reflexivity|]. cbn [in_pairs]. rewrite over_double by assumption.
  rewrite dead_double. specialize (IH None a b I). destruct (in_pairs k None a b) as [l z]. cbn [fst repeat] in *. now subst.
Qed.
Lemma short_pairs rows k : forall t r a b, written t (in_turn rows) r -> Forall white r ->
  fst (in_pairs (length rows + k) (Some t) a b) =
  let vs := map (fun x => (entry_value (fst x), entry_value (snd x)) : T * T) rows in vs ++ repeat (last vs (a, b)) k.
Proof.
  induction rows as [|[x y] rows IH]; intros t r a b W F; cbv zeta.
  - inversion W; subst. cbn [length plus map last app]. apply over_pairs. exact F.
  - cbn [in_turn flat_map app] in W.
    inversion W as [|w s n u l' r' Hw P D W']; subst. inversion W' as [|w2 s2 n2 u2 l2 r2 Hw2 P2 D2 W2]; subst.
    cbn [length plus in_pairs]. rewrite written_double by assumption. rewrite written_double by assumption.
    specialize (IH u2 r (number s n) (number s2 n2) W2 F). cbv zeta in IH.
    destruct (in_pairs (length rows + k) (Some u2) (number s n) (number s2 n2)) as [l z]. cbn [fst] in *. subst l.
    cbn [map app]. f_equal. f_equal. rewrite last_cons. reflexivity.
Qed.

Lemma over_array k : forall b i s, over s -> exists s', over s' /\
  in_array junk k b i s = (map (junk b) (seq i k), s').
Proof.
  induction k as [|k IH]; intros b i s O; [exists s; auto|]. cbn [in_array]. rewrite over_double by assumption.
  destruct (IH b (S i) None I) as (s' & O' & ->). exists s'. split; auto.
Qed.
Lemma short_array l k : forall t r b i, written t l r -> Forall white r -> exists s', over s' /\
  in_array junk (length l + k) b i (Some t) = (map entry_value l ++ map (junk b) (seq (i + length l) k), s').
Proof.
  induction l as [|[s n] l IH]; intros t r b i W F; inversion W; subst.
  - cbn [length plus map app]. rewrite Nat.add_0_r. apply over_array. exact F.
  - cbn [length plus in_array]. rewrite written_double by assumption.
    match goal with W' : written _ l r |- _ => destruct (IH _ r b (S i) W' F) as (s' & O & ->) end. exists s'. split; auto. cbn [map app].
    replace (i + S (length l)) with (S i + length l) by lia. reflexivity.
Qed.
Lemma over_rows n m : forall b s, over s ->
  in_rows junk n m b s = map (fun i => map (junk (b + i)) (seq 0 m)) (seq 0 n).
Proof.
  induction n as [|n IH]; intros b s O; [reflexivity|]. cbn [in_rows].
  destruct (over_array m b 0 s O) as (s' & O' & ->). rewrite IH by assumption. cbn [seq map]. f_equal.
  { now rewrite Nat.add_0_r. } rewrite <- seq_shift, map_map. apply map_ext. intros i.
  now replace (S b + i) with (b + S i) by lia.
Qed.

Lemma nth_map_seq {A} (f : nat -> A) k d : forall i j, j < k -> nth j (map f (seq i k)) d = f (i + j).
Proof.
  induction k as [|k IH]; intros i j L; [lia|]. cbn [seq map nth]. destruct j as [|j]; [now rewrite Nat.add_0_r|].
  rewrite IH by lia. f_equal. lia.
Qed.

Lemma short_rows n m : forall l t r b, written t l r -> Forall white r -> length l <= n * m ->
  forall i j d e, i < n -> j < m ->
  nth j (nth i (in_rows junk n m b (Some t)) []) d =
  if i * m + j <? length l then entry_value (nth (i * m + j) l e) else junk (b + i) j.
Proof.
  induction n as [|n IH]; intros l t r b W F L i j d e Hi Hj; [lia|]. cbn [in_rows].
  destruct (Nat.le_gt_cases m (length l)) as [A|A].
  - rewrite <- (firstn_skipn m l) in W. apply written_app in W. destruct W as (u & U1 & U2).
    assert (El : length (firstn m l) = m) by (rewrite firstn_length; lia).
    pose proof (written_array (firstn m l) t u b 0 U1) as HA. rewrite El in HA. rewrite HA. clear HA.
    destruct i as [|i].
    + cbn [nth Nat.mul plus]. destruct (Nat.ltb_spec j (length l)) as [_|B]; [|lia].
      rewrite nth_indep with (d' := entry_value e) by (rewrite map_length; lia). rewrite map_nth. f_equal.
      rewrite <- (firstn_skipn m l) at 2. now rewrite app_nth1 by lia.
    + cbn [nth]. rewrite (IH (skipn m l) u r (S b) U2 F) with (e := e); [|rewrite skipn_length; lia|lia|lia].
      rewrite skipn_length.
      replace (S i * m + j) with (m + (i * m + j)) by lia.
      replace (i * m + j <? length l - m) with (m + (i * m + j) <? length l).
      2: { destruct (Nat.ltb_spec (m + (i * m + j)) (length l)), (Nat.ltb_spec (i * m + j) (length l - m)); auto; lia. }
      destruct (Nat.ltb_spec (m + (i * m + j)) (length l)); [|f_equal; lia]. f_equal.
      rewrite <- (firstn_skipn m l) at 2. rewrite app_nth2 by lia. f_equal. lia.
  - destruct (short_array l (m - length l) t r b 0 W F) as (s' & O & HA).
    replace (length l + (m - length l)) with m in HA by lia. rewrite HA. clear HA.
    destruct i as [|i].
    + cbn [nth Nat.mul plus]. rewrite Nat.add_0_r. destruct (Nat.ltb_spec j (length l)) as [B|B].
      * rewrite app_nth1 by (rewrite map_length; lia).
        rewrite nth_indep with (d' := entry_value e) by (rewrite map_length; lia). now rewrite map_nth.
      * rewrite app_nth2 by (rewrite map_length; lia). rewrite map_length. rewrite nth_map_seq by lia. f_equal. lia.
    + cbn [nth]. rewrite over_rows by assumption.
      destruct (Nat.ltb_spec (S i * m + j) (length l)) as [B|B]; [nia|].
      rewrite nth_map_seq with (d := []) by lia. rewrite nth_map_seq by lia.
      now replace (S b + (0 + i)) with (b + S i) by lia.
Qed.
End Facts.
