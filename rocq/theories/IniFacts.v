(** * Facts about the INI parser model *)
From Coq Require Import String ZArith List Bool Ascii Lia NArith.
From Verif Require Import Num Outcome Vec Text Ini IniReader.
Import ListNotations.
Local Open Scope Z_scope.

(** ** Texts *)
Lemma teqb_eq : forall a b, teqb a b = true <-> a = b.
Proof.
  induction a as [|x a IH]; intros [|y b]; simpl; split; intros E; try congruence.
  - apply andb_prop in E. destruct E as [E1 E2]. apply Ascii.eqb_eq in E1. apply IH in E2. congruence.
  - inversion E; subst. rewrite Ascii.eqb_refl. simpl. now apply IH.
Qed.

Lemma teqb_refl : forall a, teqb a a = true.
Proof. intros. now apply teqb_eq. Qed.

Lemma teqb_neq : forall a b, a <> b -> teqb a b = false.
Proof. intros a b N. destruct (teqb a b) eqn:E; auto. apply teqb_eq in E. contradiction. Qed.

Lemma existsb_teqb : forall s l, existsb (teqb s) l = true <-> In s l.
Proof.
  intros s l. rewrite existsb_exists. split.
  - intros [x [I E]]. apply teqb_eq in E. now subst.
  - intros I. exists s. split; auto. apply teqb_refl.
Qed.

Lemma code_range : forall c, 0 <= code c < 256.
Proof.
  intros c. unfold code. pose proof (N_ascii_bounded c). lia.
Qed.

Lemma code_inj : forall c d, code c = code d -> c = d.
Proof.
  intros c d E. unfold code in E. apply N2Z.inj in E.
  rewrite <- (ascii_N_embedding c), <- (ascii_N_embedding d). now rewrite E.
Qed.

Lemma code_of : forall z, 0 <= z < 256 -> code (ascii_of_N (Z.to_N z)) = z.
Proof.
  intros z Hz. unfold code. rewrite N_ascii_embedding by lia. lia.
Qed.

Lemma code_tolower : forall c, code (tolower c) =
  if (65 <=? code c) && (code c <=? 90) then code c + 32 else code c.
Proof.
  intros c. unfold tolower. destruct ((65 <=? code c) && (code c <=? 90)) eqn:E; auto.
  apply andb_prop in E. destruct E as [E1 E2]. apply Z.leb_le in E1. apply Z.leb_le in E2.
  apply code_of. lia.
Qed.

Lemma tolower_eq_sign : forall c, tolower c = "="%char <-> c = "="%char.
Proof.
  intros c. split; intros E.
  - assert (K : code (tolower c) = 61) by (rewrite E; reflexivity).
    rewrite code_tolower in K.
    destruct ((65 <=? code c) && (code c <=? 90)) eqn:B.
    + apply andb_prop in B. destruct B as [B1 B2]. apply Z.leb_le in B1. lia.
    + apply code_inj. exact K.
  - subst. reflexivity.
Qed.

Lemma lower_app : forall a b, lower (a ++ b) = lower a ++ lower b.
Proof. intros. apply map_app. Qed.

(** Splitting at the last '=': the right parts have none. *)
Lemma app_sep_inj : forall (sep : ascii) a b c d, ~ In sep b -> ~ In sep d ->
  a ++ sep :: b = c ++ sep :: d -> a = c /\ b = d.
Proof.
  induction a as [|x a IH]; intros b [|y c] d Nb Nd E; simpl in E.
  - inversion E. auto.
  - inversion E; subst. exfalso. apply Nb. apply in_or_app. right. now left.
  - inversion E; subst. exfalso. apply Nd. apply in_or_app. right. now left.
  - inversion E; subst. edestruct IH as [A B]; [exact Nb|exact Nd|eassumption|]. subst. auto.
Qed.

Lemma in_lower_eq_sign : forall n, In "="%char (lower n) <-> In "="%char n.
Proof.
  intros n. unfold lower. rewrite in_map_iff. split.
  - intros [c [E I]]. apply (proj1 (tolower_eq_sign c)) in E. now subst.
  - intros I. exists "="%char. split; auto.
Qed.

Lemma make_key_inj : forall s n s' n', ~ In "="%char n -> ~ In "="%char n' ->
  make_key s n = make_key s' n' -> lower s = lower s' /\ lower n = lower n'.
Proof.
  intros s n s' n' N N' E. unfold make_key in E.
  rewrite !lower_app in E.
  apply (app_sep_inj "="%char (lower s) (lower n) (lower s') (lower n')).
  - now rewrite in_lower_eq_sign.
  - now rewrite in_lower_eq_sign.
  - exact E.
Qed.

Lemma make_key_case : forall s n s' n', lower s = lower s' -> lower n = lower n' ->
  make_key s n = make_key s' n'.
Proof.
  intros s n s' n' E E'. unfold make_key. rewrite !lower_app. simpl. fold (lower n). fold (lower n').
  now rewrite E, E'.
Qed.

(** ** The map of values *)
Lemma find_assign_same : forall k v l, find k (assign k v l) = Some v.
Proof.
  intros k v. induction l as [|[k' v'] l IH]; simpl.
  - now rewrite teqb_refl.
  - destruct (teqb k k') eqn:E; simpl.
    + now rewrite teqb_refl.
    + rewrite E. exact IH.
Qed.

Lemma find_assign_other : forall k k' v l, k <> k' -> find k' (assign k v l) = find k' l.
Proof.
  intros k k' v l N. induction l as [|[k1 v1] l IH]; simpl.
  - rewrite teqb_neq; auto.
  - destruct (teqb k k1) eqn:E; simpl.
    + apply teqb_eq in E. subst k1. rewrite teqb_neq; auto.
    + destruct (teqb k' k1); auto.
Qed.

(** ** Lines *)
Definition ends_nl (t : text) : Prop := exists y, t = y ++ [newline].

Lemma fgets_split : forall n t x q, fgets n t = (x, q) -> t = x ++ q.
Proof.
  induction n as [|n IH]; intros t x q E; simpl in E.
  - inversion E. reflexivity.
  - destruct t as [|c r]; [now inversion E|].
    destruct (Ascii.eqb c newline); [now inversion E|].
    destruct (fgets n r) as [x' q'] eqn:E'. inversion E; subst. simpl. f_equal. now apply IH.
Qed.

Lemma fgets_progress : forall n t x q, fgets (S n) t = (x, q) -> t <> [] -> (length q < length t)%nat.
Proof.
  intros n t x q E N. destruct t as [|c r]; [congruence|].
  pose proof (fgets_split _ _ _ _ E) as S'.
  assert (x <> []).
  { simpl in E. destruct (Ascii.eqb c newline); [inversion E; congruence|].
    destruct (fgets n r). inversion E; congruence. }
  rewrite S'. rewrite app_length. destruct x; [congruence|]. simpl. lia.
Qed.

Lemma fgets_app : forall n t X x q, fgets n t = (x, q) -> q <> [] \/ ends_nl x ->
  fgets n (t ++ X) = (x, q ++ X).
Proof.
  induction n as [|n IH]; intros t X x q E C.
  - simpl in E. inversion E; subst. reflexivity.
  - destruct t as [|c r].
    + simpl in E. inversion E; subst. destruct C as [C|[y C]]; [congruence|].
      destruct y; discriminate.
    + simpl in E |- *. destruct (Ascii.eqb c newline) eqn:B.
      * inversion E; subst. reflexivity.
      * destruct (fgets n r) as [x' q'] eqn:E'. inversion E; subst.
        rewrite (IH r X x' q E'); auto.
        destruct C as [C|[y C]]; [now left|]. right.
        destruct y as [|d y].
        { simpl in C. inversion C; subst. rewrite Ascii.eqb_refl in B. discriminate. }
        simpl in C. inversion C; subst. exists y. reflexivity.
Qed.

Lemma fgets_line : forall L n X, ~ In newline L -> (length L < n)%nat ->
  fgets n (L ++ newline :: X) = (L ++ [newline], X).
Proof.
  induction L as [|c L IH]; intros n X N Hl; destruct n as [|n]; simpl in Hl; try lia.
  - reflexivity.
  - simpl. destruct (Ascii.eqb c newline) eqn:B.
    + apply Ascii.eqb_eq in B. subst. exfalso. apply N. now left.
    + rewrite IH; [reflexivity| |lia]. intros I. apply N. now right.
Qed.

Lemma fgets_full : forall L X, ~ In newline L -> fgets (length L) (L ++ X) = (L, X).
Proof.
  induction L as [|c L IH]; intros X N; simpl; auto.
  destruct (Ascii.eqb c newline) eqn:B.
  - apply Ascii.eqb_eq in B. subst. exfalso. apply N. now left.
  - rewrite IH; auto. intros I. apply N. now right.
Qed.

Lemma buffers_fuel : forall f f' t, (length t <= f)%nat -> (length t <= f')%nat ->
  buffers f t = buffers f' t.
Proof.
  induction f as [|f IH]; intros f' t Hf Hf'.
  - destruct t; [|simpl in Hf; lia]. destruct f'; reflexivity.
  - destruct t as [|c r]; [destruct f'; reflexivity|].
    destruct f' as [|f']; [simpl in Hf'; lia|].
    cbn [buffers]. destruct (fgets line_max (c :: r)) as [x q] eqn:E. f_equal.
    assert (length q < length (c :: r))%nat.
    { eapply (fgets_progress 198); [exact E|discriminate]. }
    simpl in *. apply IH; lia.
Qed.

Lemma lines_step : forall t, t <> [] ->
  lines t = fst (fgets line_max t) :: lines (snd (fgets line_max t)).
Proof.
  intros t N. unfold lines at 1. destruct t as [|c r]; [congruence|].
  cbn [length buffers]. destruct (fgets line_max (c :: r)) as [x q] eqn:E. simpl. f_equal.
  assert (length q < length (c :: r))%nat.
  { eapply (fgets_progress 198); [exact E|discriminate]. }
  unfold lines. simpl in *. apply buffers_fuel; lia.
Qed.

Lemma lines_nil : lines [] = [].
Proof. reflexivity. Qed.

Lemma lines_line : forall L X, ~ In newline L -> (length L < 199)%nat ->
  lines (L ++ newline :: X) = (L ++ [newline]) :: lines X.
Proof.
  intros L X N Hl. rewrite lines_step.
  - unfold line_max. rewrite fgets_line; auto.
  - destruct L; discriminate.
Qed.

Lemma lines_long : forall L X, ~ In newline L -> length L = 199%nat ->
  lines (L ++ X) = L :: lines X.
Proof.
  intros L X N Hl. rewrite lines_step.
  - unfold line_max. rewrite <- Hl. rewrite fgets_full; auto.
  - destruct L; discriminate.
Qed.

Lemma lines_app : forall A X, A = [] \/ ends_nl A -> lines (A ++ X) = lines A ++ lines X.
Proof.
  intros A. remember (length A) as n eqn:Hn.
  revert A Hn. induction n as [n IH] using lt_wf_ind. intros A Hn X HA.
  destruct A as [|c r]; [reflexivity|].
  destruct HA as [HA|HA]; [discriminate|].
  destruct (fgets line_max (c :: r)) as [x q] eqn:E.
  pose proof (fgets_split _ _ _ _ E) as Sp.
  assert (Hq : (length q < length (c :: r))%nat)
    by (eapply (fgets_progress 198); [exact E|discriminate]).
  assert (C : q <> [] \/ ends_nl x).
  { destruct q as [|d q]; [|left; discriminate]. right. rewrite app_nil_r in Sp. now rewrite <- Sp. }
  rewrite (lines_step ((c :: r) ++ X)) by discriminate.
  rewrite (fgets_app _ _ _ _ _ E C). cbn [fst snd].
  rewrite (lines_step (c :: r)) by discriminate. rewrite E. cbn [fst snd].
  rewrite <- app_comm_cons. f_equal.
  eapply IH; [|reflexivity|].
  - lia.
  - destruct q as [|d q]; [now left|]. right.
    destruct HA as [y HA]. rewrite HA in Sp.
    destruct (exists_last (l := d :: q) ltac:(discriminate)) as [q' [z Ez]].
    rewrite Ez in Sp. rewrite app_assoc in Sp. apply app_inj_tail in Sp. destruct Sp as [_ Sp].
    subst z. exists q'. exact Ez.
Qed.

(** ** Recording the handler calls *)
Definition event := (text * text * text)%type.
Definition record (l : list event) (s n v : text) : list event * bool := (l ++ [(s, n, v)], true).

(** The settings of a file in order, and its parse error (0: none). *)
Definition events (t : text) : list event := fst (parse record t []).
Definition parse_error (t : text) : Z := snd (parse record t []).

Section Handler.
Context {U : Type}.
Variable h : U -> text -> text -> text -> U * bool.
Hypothesis h_true : forall u s n v, snd (h u s n v) = true.

Definition apply_event (u : U) (e : event) : U := let '(s, n, v) := e in fst (h u s n v).

Definition follows (u0 : U) (p : pstate U) (q : pstate (list event)) : Prop :=
  p_section p = p_section q /\ p_prev p = p_prev q /\ p_lineno p = p_lineno q /\
  p_error p = p_error q /\ p_user p = fold_left apply_event (p_user q) u0.

Lemma call_follows : forall u0 p q n v, follows u0 p q ->
  follows u0 (call h p n v) (call record q n v).
Proof.
  intros u0 [s pr l e u] [s' pr' l' e' us] n v (A & B & C & D & F). simpl in *. subst.
  unfold call. simpl. pose proof (h_true (fold_left apply_event us u0) s' n v) as Ht.
  destruct (h (fold_left apply_event us u0) s' n v) as [u' ok] eqn:Eh. simpl in Ht. subst ok.
  unfold follows. simpl. repeat split. rewrite fold_left_app. simpl. now rewrite Eh.
Qed.

Lemma parse_line_follows : forall u0 p q b, follows u0 p q ->
  follows u0 (parse_line h p b) (parse_line record q b).
Proof.
  intros u0 p q b F. pose proof F as F'. destruct F' as (A & B & C & D & E).
  unfold parse_line. simpl. rewrite A, B, C, D.
  destruct (classify _ _ b).
  - unfold follows. simpl. auto.
  - unfold follows. simpl. auto.
  - apply call_follows. unfold follows. simpl. auto.
  - apply call_follows. unfold follows. simpl. auto.
  - unfold follows, set_error. simpl. auto.
Qed.

Lemma fold_follows : forall bs u0 p q, follows u0 p q ->
  follows u0 (fold_left (parse_line h) bs p) (fold_left (parse_line record) bs q).
Proof.
  induction bs as [|b bs IH]; intros u0 p q F; simpl; auto.
  apply IH. now apply parse_line_follows.
Qed.

Lemma parse_events : forall t u, parse h t u = (fold_left apply_event (events t) u, parse_error t).
Proof.
  intros t u. unfold parse at 1. unfold events, parse_error, parse.
  assert (F : follows u (mkP [] [] 0 0 u) (mkP [] [] 0 0 [])) by (unfold follows; simpl; auto).
  apply (fold_follows (lines t)) in F. destruct F as (_ & _ & _ & D & E).
  cbv zeta. simpl. now rewrite D, E.
Qed.
End Handler.

(** ** Runs that differ in the line numbers only *)
Definition same_run {U} (p q : pstate U) : Prop :=
  p_section p = p_section q /\ p_prev p = p_prev q /\ p_user p = p_user q /\
  (p_error p = 0 <-> p_error q = 0) /\ 0 <= p_lineno p /\ 0 <= p_lineno q.

Section SameRun.
Context {U : Type}.
Variable h : U -> text -> text -> text -> U * bool.

Lemma call_same : forall p q n v, same_run p q -> 0 < p_lineno p -> 0 < p_lineno q ->
  same_run (call h p n v) (call h q n v).
Proof.
  intros [s pr l e u] [s' pr' l' e' u'] n v (A & B & C & D & E & F) Hp Hq. simpl in *. subst.
  unfold call. simpl. destruct (h u' s' n v) as [u2 ok].
  destruct ok; unfold same_run, set_error; simpl; repeat split; try lia; try tauto.
  - intros K. destruct (e =? 0) eqn:E1; [lia|]. apply Z.eqb_neq in E1. lia.
  - intros K. destruct (e' =? 0) eqn:E1; [lia|]. apply Z.eqb_neq in E1. lia.
Qed.

Lemma parse_line_same_class : forall p q b, same_run p q ->
  classify (p_lineno p + 1 =? 1) (match p_prev p with [] => false | _ => true end) b =
  classify (p_lineno q + 1 =? 1) (match p_prev q with [] => false | _ => true end) b ->
  same_run (parse_line h p b) (parse_line h q b).
Proof.
  intros p q b R K. pose proof R as R'. destruct R' as (A & B & C & D & E & F).
  unfold parse_line. simpl. rewrite K.
  destruct (classify (p_lineno q + 1 =? 1) _ b).
  - unfold same_run. simpl. repeat split; auto; try lia; tauto.
  - unfold same_run. simpl. repeat split; auto; try lia; tauto.
  - apply call_same; unfold same_run; simpl; repeat split; auto; try lia; tauto.
  - rewrite B. apply call_same; unfold same_run; simpl; repeat split; auto; try lia; tauto.
  - unfold same_run, set_error. simpl. repeat split; auto; try lia.
    + destruct (p_error p =? 0) eqn:E1; [lia|]. apply Z.eqb_neq in E1. lia.
    + destruct (p_error q =? 0) eqn:E1; [lia|]. apply Z.eqb_neq in E1. lia.
Qed.

Lemma parse_line_lineno : forall p b, p_lineno (parse_line h p b) = p_lineno p + 1.
Proof.
  intros p b. unfold parse_line, call. simpl.
  destruct (classify _ _ b); simpl; auto;
    match goal with |- context [h ?a ?b ?c ?d] => destruct (h a b c d) as [u2 []] end; reflexivity.
Qed.

Lemma parse_line_same : forall p q b, same_run p q -> 0 < p_lineno p -> 0 < p_lineno q ->
  same_run (parse_line h p b) (parse_line h q b).
Proof.
  intros p q b R Hp Hq. apply parse_line_same_class; auto.
  destruct R as (A & B & _). rewrite B.
  replace (p_lineno p + 1 =? 1) with false by (symmetry; apply Z.eqb_neq; lia).
  now replace (p_lineno q + 1 =? 1) with false by (symmetry; apply Z.eqb_neq; lia).
Qed.

Lemma fold_same : forall bs p q, same_run p q -> 0 < p_lineno p -> 0 < p_lineno q ->
  same_run (fold_left (parse_line h) bs p) (fold_left (parse_line h) bs q).
Proof.
  induction bs as [|b bs IH]; intros p q R Hp Hq; simpl; auto.
  apply IH.
  - now apply parse_line_same.
  - rewrite parse_line_lineno. lia.
  - rewrite parse_line_lineno. lia.
Qed.

Lemma fold_lineno : forall bs p, p_lineno (fold_left (parse_line h) bs p) = p_lineno p + Z.of_nat (length bs).
Proof.
  induction bs as [|b bs IH]; intros p; simpl; [lia|].
  rewrite IH, parse_line_lineno. lia.
Qed.
End SameRun.

(** ** Stripping *)
Lemma lskip_trim : forall t, lskip t = t \/ exists c r, t = c :: r /\ isspace c = true.
Proof.
  intros [|c r]; [now left|]. unfold lskip. simpl. destruct (isspace c) eqn:E; [|now left].
  right. eauto.
Qed.

Lemma rstrip_app_end : forall t c, isspace c = false -> rstrip (t ++ [c]) = t ++ [c].
Proof.
  intros t c Hc. induction t as [|d t IH]; simpl.
  - now rewrite Hc.
  - rewrite IH. destruct (t ++ [c]) eqn:E; [destruct t; discriminate|reflexivity].
Qed.

Lemma rstrip_spaces : forall t w, Forall (fun c => isspace c = true) w -> rstrip (t ++ w) = rstrip t.
Proof.
  intros t w Hw. induction t as [|d t IH]; simpl.
  - induction Hw as [|c w Hc Hw IH]; simpl; auto. rewrite IH. now rewrite Hc.
  - now rewrite IH.
Qed.

Lemma rstrip_all_spaces : forall w, Forall (fun c => isspace c = true) w -> rstrip w = [].
Proof. intros w Hw. apply (rstrip_spaces [] w Hw). Qed.

(** A text without blanks at the ends. *)
Definition trimmed (t : text) : Prop :=
  (forall c r, t = c :: r -> isspace c = false) /\
  (forall c r, t = r ++ [c] -> isspace c = false).

Lemma lskip_trimmed : forall t, trimmed t -> lskip t = t.
Proof.
  intros [|c r] [A _]; [reflexivity|]. unfold lskip. simpl. now rewrite (A c r eq_refl).
Qed.

Lemma rstrip_trimmed : forall t, trimmed t -> rstrip t = t.
Proof.
  intros t [_ B]. destruct t as [|c r] eqn:E; [reflexivity|].
  destruct (exists_last (l := c :: r) ltac:(discriminate)) as [q [z Ez]].
  rewrite Ez. apply rstrip_app_end. apply (B z q). now rewrite Ez.
Qed.

Lemma lskip_spaces : forall w t, Forall (fun c => isspace c = true) w -> lskip (w ++ t) = lskip t.
Proof.
  intros w t Hw. induction Hw as [|c w Hc Hw IH]; simpl; auto.
  unfold lskip in *. simpl. now rewrite Hc.
Qed.

Lemma cstr_no_nul : forall t, ~ In nul t -> cstr t = t.
Proof.
  induction t as [|c t IH]; intros N; simpl; auto.
  destruct (Ascii.eqb c nul) eqn:B.
  - apply Ascii.eqb_eq in B. subst. exfalso. apply N. now left.
  - rewrite IH; auto. intros I. apply N. now right.
Qed.

(** find_chars_or_comment stops at the first stop character when no ';' comes
    before it. *)
Lemma find_chars_stop : forall stop x c r ws,
  Forall (fun d => stop d = false /\ d <> ";"%char) x -> stop c = true ->
  find_chars_or_comment ws stop (x ++ c :: r) = (x, c :: r).
Proof.
  intros stop. induction x as [|d x IH]; intros c r ws Hx Hc; simpl.
  - now rewrite Hc.
  - inversion Hx as [|? ? [A B] Hx']; subst. rewrite A.
    replace (Ascii.eqb d ";") with false by (symmetry; now apply Ascii.eqb_neq).
    rewrite andb_false_r. simpl. now rewrite IH.
Qed.

Lemma find_chars_all : forall stop x ws,
  Forall (fun d => stop d = false /\ d <> ";"%char) x ->
  find_chars_or_comment ws stop x = (x, []).
Proof.
  intros stop. induction x as [|d x IH]; intros ws Hx; simpl; auto.
  inversion Hx as [|? ? [A B] Hx']; subst. rewrite A.
  replace (Ascii.eqb d ";") with false by (symmetry; now apply Ascii.eqb_neq).
  rewrite andb_false_r. simpl. now rewrite IH.
Qed.
