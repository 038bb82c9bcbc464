(** * Properties of the input file parser: C63 - C66, C87, C88 *)
From Coq Require Import String ZArith List Bool Ascii Lia NArith.
From Verif Require Import Num Outcome Vec Text Ini IniReader IniFacts SpecIni.
Import ListNotations.
Local Open Scope Z_scope.

(** ** The lines of a written configuration *)
Lemma space_trimmed : forall t, no_space_ends t -> trimmed t.
Proof.
  intros t [A B]. split; intros c r E.
  - specialize (A c r E). unfold space in A. now destruct (isspace c).
  - specialize (B c r E). unfold space in B. now destruct (isspace c).
Qed.

Lemma avoids_in : forall bad c t, avoids bad t -> In c bad -> ~ In c t.
Proof.
  intros bad c t A I J. unfold avoids in A. rewrite Forall_forall in A. exact (A c J I).
Qed.

Lemma not_bom : forall c t, code c <> 239 -> is_bom (c :: t) = false.
Proof.
  intros c t N. destruct t as [|d [|e t]]; simpl; auto.
  replace (code c =? 239) with false by (symmetry; now apply Z.eqb_neq). reflexivity.
Qed.

Lemma classify_section : forall s first cont, good_section s ->
  classify first cont (tx "[" ++ s ++ tx "]" ++ [newline]) = NewSection s.
Proof.
  intros s first cont [A Hl]. unfold classify.
  assert (Nn : ~ In nul (tx "[" ++ s ++ tx "]" ++ [newline])).
  { intros I. change (tx "[") with ["["%char] in I. change (tx "]") with ["]"%char] in I.
    simpl in I. destruct I as [I|I]; [discriminate|].
    apply in_app_or in I. destruct I as [I|[I|[I|[]]]]; try discriminate.
    revert I. eapply avoids_in; [exact A|simpl; auto]. }
  rewrite (cstr_no_nul _ Nn). change (tx "[") with ["["%char]. change (tx "]") with ["]"%char].
  cbn [app]. rewrite not_bom by (vm_compute; discriminate). rewrite andb_false_r.
  assert (R : rstrip ("["%char :: s ++ ["]"%char; newline]) = "["%char :: s ++ ["]"%char]).
  { change ("["%char :: s ++ ["]"%char; newline]) with (("["%char :: s) ++ ["]"%char; newline]).
    change ["]"%char; newline] with (["]"%char] ++ [newline]). rewrite app_assoc.
    rewrite (rstrip_spaces _ [newline]) by (constructor; [reflexivity|constructor]).
    rewrite rstrip_app_end by reflexivity. reflexivity. }
  rewrite R. unfold lskip. cbn [skip_space]. change (isspace "[") with false.
  cbv match. change (isspace "[") with false. rewrite andb_false_r.
  change (Ascii.eqb "[" ";") with false. change (Ascii.eqb "[" "#") with false.
  change (Ascii.eqb "[" "[") with true. cbn [orb].
  rewrite (find_chars_stop is_close s "]"%char []).
  - change (is_close "]") with true. unfold strncpy0. rewrite firstn_all2; [reflexivity|].
    unfold name_max. exact Hl.
  - unfold avoids in A. eapply Forall_impl; [|exact A]. intros c Hc. split.
    + unfold is_close. apply Ascii.eqb_neq. intros ->. apply Hc. simpl. auto.
    + intros ->. apply Hc. simpl. auto.
  - reflexivity.
Qed.

Lemma classify_setting : forall k v cont, good_key k -> good_value v ->
  classify false cont (write_setting (k, v)) = Pair k v.
Proof.
  intros k v cont (A & Tk & Nk) (B & Tv). apply space_trimmed in Tk. apply space_trimmed in Tv.
  unfold write_setting. cbn [fst snd]. change (tx " = ") with [" "; "="; " "]%char.
  unfold classify.
  assert (Nn : ~ In nul (k ++ [" "; "="; " "]%char ++ v ++ [newline])).
  { intros I. apply in_app_or in I. destruct I as [I|I].
    { revert I. eapply avoids_in; [exact A|simpl; auto]. }
    simpl in I. destruct I as [I|[I|[I|I]]]; try discriminate.
    apply in_app_or in I. destruct I as [I|[I|[]]]; try discriminate.
    revert I. eapply avoids_in; [exact B|simpl; auto]. }
  rewrite (cstr_no_nul _ Nn). cbn [andb].
  assert (R : exists w, rstrip (k ++ [" "; "="; " "]%char ++ v ++ [newline]) = (k ++ [" "%char]) ++ "="%char :: w
                        /\ rstrip (lskip w) = v /\ avoids [";"%char] w).
  { destruct v as [|c0 v0] eqn:Ev.
    - exists []. split; [|split].
      + change (k ++ [" "; "="; " "]%char ++ [] ++ [newline])
          with (k ++ [" "; "="]%char ++ [" "%char; newline]).
        rewrite app_assoc. rewrite rstrip_spaces by (repeat constructor).
        change [" "; "="]%char with ([" "]%char ++ ["="]%char). rewrite app_assoc.
        rewrite rstrip_app_end by reflexivity. now rewrite <- app_assoc.
      + reflexivity.
      + constructor.
    - exists (" "%char :: v). rewrite <- Ev in *. split; [|split].
      + replace (k ++ [" "; "="; " "]%char ++ v ++ [newline]) with
          ((k ++ [" "; "="; " "]%char ++ v) ++ [newline]) by (now rewrite <- !app_assoc).
        rewrite rstrip_spaces by (repeat constructor).
        assert (E : exists q z, v = q ++ [z]).
        { destruct (exists_last (l := v) ltac:(rewrite Ev; discriminate)) as [q [z Ez]]. eauto. }
        destruct E as [q [z Ez]].
        assert (Hz : isspace z = false) by (apply (proj2 Tv z q); exact Ez).
        rewrite Ez. rewrite !app_assoc. rewrite rstrip_app_end by exact Hz.
        rewrite <- !app_assoc. reflexivity.
      + change (" "%char :: v) with ([" "%char] ++ v). rewrite lskip_spaces by (repeat constructor).
        rewrite lskip_trimmed by exact Tv. now apply rstrip_trimmed.
      + constructor; [intros [E|[]]; discriminate|].
        unfold avoids in *. eapply Forall_impl; [|exact B]. intros c Hc [<-|[]]. apply Hc. simpl. auto. }
  destruct R as [w [R [V Sw]]]. rewrite R.
  destruct k as [|c r]; [congruence|].
  assert (Hc : isspace c = false) by (apply (proj1 Tk c r eq_refl)).
  inversion A as [|? ? Hc' Ar]; subst.
  assert (Ls : lskip (((c :: r) ++ [" "%char]) ++ "="%char :: w) = c :: (r ++ [" "%char]) ++ "="%char :: w).
  { unfold lskip. cbn [app skip_space]. now rewrite Hc. }
  rewrite Ls. cbn [app]. rewrite Hc. rewrite andb_false_r.
  replace (Ascii.eqb c ";") with false by (symmetry; apply Ascii.eqb_neq; intros ->; apply Hc'; simpl; tauto).
  replace (Ascii.eqb c "#") with false by (symmetry; apply Ascii.eqb_neq; intros ->; apply Hc'; simpl; tauto).
  replace (Ascii.eqb c "[") with false by (symmetry; apply Ascii.eqb_neq; intros ->; apply Hc'; simpl; tauto).
  cbn [orb].
  change (c :: (r ++ [" "%char]) ++ "="%char :: w) with ((c :: r ++ [" "%char]) ++ "="%char :: w).
  rewrite (find_chars_stop is_sep (c :: r ++ [" "%char]) "="%char w).
  - change (is_sep "=") with true. cbv match.
    change (c :: r ++ [" "%char]) with ((c :: r) ++ [" "%char]).
    rewrite rstrip_spaces by (repeat constructor). rewrite (rstrip_trimmed _ Tk).
    rewrite find_chars_all.
    + cbn [fst]. reflexivity.
    + eapply Forall_impl; [|exact Sw]. intros d Hd. split; [reflexivity|]. intros ->. apply Hd. now left.
  - change (c :: r ++ [" "%char]) with ((c :: r) ++ [" "%char]).
    apply Forall_app. split.
    + eapply Forall_impl; [|exact A]. intros d Hd. split.
      * unfold is_sep. apply orb_false_intro; apply Ascii.eqb_neq; intros ->; apply Hd; simpl; tauto.
      * intros ->. apply Hd. simpl. tauto.
    + repeat constructor. discriminate.
  - reflexivity.
Qed.

(** ** C63: round trip *)
Section Round.
Context {U : Type}.

Lemma fold_line : forall (h : U -> text -> text -> text -> U * bool) L X s,
  ~ In newline L -> (length L < 199)%nat ->
  fold_left (parse_line h) (lines (L ++ newline :: X)) s =
  fold_left (parse_line h) (lines X) (parse_line h s (L ++ [newline])).
Proof.
  intros h L X s N Hl. rewrite lines_line by auto. reflexivity.
Qed.
End Round.

Lemma setting_shape : forall k v X, write_setting (k, v) ++ X = (k ++ tx " = " ++ v) ++ newline :: X.
Proof. intros. unfold write_setting. cbn [fst snd]. rewrite <- !app_assoc. reflexivity. Qed.

Lemma last_cons : forall {A} (l : list A) a d, last (a :: l) d = last l a.
Proof. induction l as [|b l IH]; intros a d; [reflexivity|]. change (last (b :: l) d = last (b :: l) a).
  now rewrite !IH. Qed.

Lemma fold_settings : forall kvs sec X st,
  Forall (fun kv => good_key (fst kv) /\ good_value (snd kv) /\ fits kv) kvs ->
  p_section st = sec -> 0 < p_lineno st -> p_error st = 0 ->
  exists st', fold_left (parse_line record) (lines (flat_map write_setting kvs ++ X)) st =
              fold_left (parse_line record) (lines X) st' /\
    p_section st' = sec /\ 0 < p_lineno st' /\ p_error st' = 0 /\
    p_user st' = p_user st ++ map (fun kv => (sec, fst kv, snd kv)) kvs /\
    p_prev st' = last (map (fun kv => strncpy0 (fst kv)) kvs) (p_prev st).
Proof.
  induction kvs as [|[k v] kvs IH]; intros sec X st Hk Hs Hl He.
  - exists st. repeat split; auto. now rewrite app_nil_r.
  - inversion Hk as [|? ? (Gk & Gv & Fk) Hk']; subst. cbn [fst snd] in *.
    cbn [flat_map]. rewrite <- app_assoc. rewrite setting_shape. rewrite fold_line.
    2: { intros I. destruct Gk as (A & _). destruct Gv as (B & _).
         apply in_app_or in I. destruct I as [I|I].
         { revert I. eapply avoids_in; [exact A|simpl; auto]. }
         apply in_app_or in I. destruct I as [I|I].
         { vm_compute in I. destruct I as [I|[I|[I|[]]]]; discriminate. }
         revert I. eapply avoids_in; [exact B|simpl; auto]. }
    2: { unfold fits in Fk. cbn [fst snd] in Fk. rewrite !app_length. change (length (tx " = ")) with 3%nat. lia. }
    assert (P : parse_line record st ((k ++ tx " = " ++ v) ++ [newline]) =
                mkP (p_section st) (strncpy0 k) (p_lineno st + 1) (p_error st)
                    (p_user st ++ [(p_section st, k, v)])).
    { assert (Ew : (k ++ tx " = " ++ v) ++ [newline] = write_setting (k, v)).
      { pose proof (setting_shape k v []) as E. rewrite app_nil_r in E. now rewrite E. }
      rewrite Ew. unfold parse_line. cbn [p_lineno p_prev p_section p_error p_user].
      replace (p_lineno st + 1 =? 1) with false by (symmetry; apply Z.eqb_neq; lia).
      rewrite classify_setting by assumption. reflexivity. }
    rewrite P.
    destruct (IH (p_section st) X (mkP (p_section st) (strncpy0 k) (p_lineno st + 1) (p_error st)
                    (p_user st ++ [(p_section st, k, v)])) Hk') as [st' (F & S1 & S2 & S3 & S4 & S5)]; auto.
    { cbn [p_lineno]. lia. }
    exists st'. repeat split; auto.
    + rewrite S4. cbn [p_user map fst snd]. now rewrite <- app_assoc.
    + rewrite S5. cbn [p_prev map fst]. now rewrite last_cons.
Qed.

Lemma fold_section : forall sec kvs st X, good_config [(sec, kvs)] -> p_error st = 0 -> 0 <= p_lineno st ->
  exists st', fold_left (parse_line record) (lines (write_section (sec, kvs) ++ X)) st =
              fold_left (parse_line record) (lines X) st' /\
    p_section st' = sec /\ 0 < p_lineno st' /\ p_error st' = 0 /\
    p_user st' = p_user st ++ map (fun kv => (sec, fst kv, snd kv)) kvs /\
    p_prev st' = last (map (fun kv => strncpy0 (fst kv)) kvs) [].
Proof.
  intros sec kvs st X G He Hl.
  inversion G as [|? ? [Gs Gk] Gc]; subst. cbn [fst snd] in *.
  unfold write_section. cbn [fst snd]. rewrite <- !app_assoc.
  replace (tx "[" ++ sec ++ tx "]" ++ [newline] ++ flat_map write_setting kvs ++ X)
    with ((tx "[" ++ sec ++ tx "]") ++ newline :: (flat_map write_setting kvs ++ X))
    by (rewrite <- !app_assoc; reflexivity).
  rewrite fold_line.
  2: { intros I. apply in_app_or in I. destruct I as [I|I].
       { vm_compute in I. destruct I as [I|[]]; discriminate. }
       apply in_app_or in I. destruct I as [I|I].
       { revert I. eapply avoids_in; [exact (proj1 Gs)|simpl; auto]. }
       vm_compute in I. destruct I as [I|[]]; discriminate. }
  2: { rewrite !app_length. change (length (tx "[")) with 1%nat. change (length (tx "]")) with 1%nat.
       destruct Gs as [_ Gs]. lia. }
  assert (P : parse_line record st ((tx "[" ++ sec ++ tx "]") ++ [newline]) =
              mkP sec [] (p_lineno st + 1) (p_error st) (p_user st)).
  { rewrite <- !app_assoc. unfold parse_line. cbn [p_lineno p_prev p_section p_error p_user].
    rewrite classify_section by assumption. reflexivity. }
  rewrite P.
  destruct (fold_settings kvs sec X
              (mkP sec [] (p_lineno st + 1) (p_error st) (p_user st)) Gk)
    as [st1 (F1 & A1 & A2 & A3 & A4 & A5)]; auto.
  { cbn [p_lineno]. lia. }
  exists st1. repeat split; auto.
Qed.

Lemma fold_config : forall c st X, good_config c -> p_error st = 0 -> 0 <= p_lineno st ->
  exists st', fold_left (parse_line record) (lines (write_config c ++ X)) st =
              fold_left (parse_line record) (lines X) st' /\
    p_error st' = 0 /\ 0 <= p_lineno st' /\ p_user st' = p_user st ++ settings c.
Proof.
  induction c as [|[sec kvs] c IH]; intros st X G He Hl.
  - exists st. repeat split; auto. now rewrite app_nil_r.
  - inversion G as [|? ? Gs Gc]; subst.
    unfold write_config. cbn [flat_map]. fold (write_config c). rewrite <- app_assoc.
    destruct (fold_section sec kvs st (write_config c ++ X)) as [st1 (F1 & A1 & A2 & A3 & A4 & _)]; auto.
    { constructor; auto. }
    destruct (IH st1 X Gc A3) as [st2 (F2 & B1 & B2 & B3)]; [lia|].
    exists st2. split; [|split; [|split]]; auto.
    + now rewrite F1, F2.
    + rewrite B3, A4. unfold settings. cbn [flat_map fst snd]. now rewrite <- app_assoc.
Qed.

(** The handler of the library sees exactly the written settings, in order,
    and no error is reported. *)
Theorem C63_parse_written : forall c, good_config c ->
  events (write_config c) = settings c /\ parse_error (write_config c) = 0.
Proof.
  intros c G. unfold events, parse_error, parse.
  destruct (fold_config c (mkP [] [] 0 0 []) [] G) as [st' (F & A & _ & B)]; auto; [simpl; lia|].
  rewrite app_nil_r in F. rewrite F. simpl. split; auto.
Qed.

(** ** The stored settings *)
Lemma value_handler_true : forall u s n v, snd (value_handler u s n v) = true.
Proof. reflexivity. Qed.

(** The reader of a file. *)
Definition reader_of (t : text) : reader := fst (ini_parse value_handler (Some t) empty_reader).

Lemma reader_of_events : forall t, reader_of t = fold_left (apply_event value_handler) (events t) empty_reader.
Proof.
  intros t. unfold reader_of, ini_parse. now rewrite (parse_events value_handler value_handler_true).
Qed.

(** Every name that a file produces is free of '=' (and ':'), every value is a
    C string without blanks at the ends. *)
Lemma find_chars_prefix : forall stop t ws x q, find_chars_or_comment ws stop t = (x, q) ->
  t = x ++ q /\ Forall (fun c => stop c = false) x.
Proof.
  intros stop. induction t as [|c r IH]; intros ws x q E; simpl in E.
  - inversion E. auto.
  - destruct (stop c) eqn:Es; simpl in E.
    + inversion E. auto.
    + destruct (ws && Ascii.eqb c ";"); [inversion E; auto|].
      destruct (find_chars_or_comment (isspace c) stop r) as [x' q'] eqn:E'.
      inversion E; subst. destruct (IH _ _ _ E') as [A B]. split; [now rewrite A at 1|]. constructor; auto.
Qed.

Lemma rstrip_prefix : forall t, exists w, t = rstrip t ++ w.
Proof.
  induction t as [|c t [w IH]]; [exists []; reflexivity|]. simpl.
  destruct (rstrip t) as [|d u] eqn:E.
  - destruct (isspace c); [exists (c :: t); reflexivity|exists t; reflexivity].
  - exists w. rewrite IH at 1. reflexivity.
Qed.

Lemma lskip_suffix : forall t, exists w, t = w ++ lskip t.
Proof.
  induction t as [|c t [w IH]]; [exists []; reflexivity|]. unfold lskip in *. simpl.
  destruct (isspace c).
  - exists (c :: w). simpl. now rewrite <- IH.
  - exists []. reflexivity.
Qed.

Lemma rstrip_end : forall t c r, rstrip t = r ++ [c] -> isspace c = false.
Proof.
  induction t as [|d t IH]; intros c r E.
  - destruct r; discriminate.
  - simpl in E. destruct (rstrip t) as [|e u] eqn:Er.
    + destruct (isspace d) eqn:Ed; [destruct r; discriminate|].
      destruct r as [|x r]; [inversion E; subst; exact Ed|].
      inversion E. destruct r; discriminate.
    + destruct r as [|x r]; [inversion E|]. inversion E; subst. eapply IH. eassumption.
Qed.

Lemma lskip_start : forall t c r, lskip t = c :: r -> isspace c = false.
Proof.
  induction t as [|d t IH]; intros c r E; unfold lskip in *; simpl in E; [discriminate|].
  destruct (isspace d) eqn:Ed; [eapply IH; eassumption|]. now inversion E; subst.
Qed.

Lemma trim_lr : forall t, trimmed (lskip (rstrip t)).
Proof.
  intros t. split.
  - apply lskip_start.
  - intros c r E. destruct (lskip_suffix (rstrip t)) as [w W]. rewrite E in W.
    rewrite app_assoc in W. eapply rstrip_end. exact W.
Qed.

Lemma trim_rl : forall t, trimmed (rstrip (lskip t)).
Proof.
  intros t. split.
  - intros c r E. destruct (rstrip_prefix (lskip t)) as [w W]. rewrite E in W.
    eapply lskip_start. exact W.
  - intros c r E. eapply rstrip_end. exact E.
Qed.

Lemma Forall_sub : forall (P : ascii -> Prop) a b c, Forall P (a ++ b ++ c) -> Forall P b.
Proof. intros P a b c F. apply Forall_app in F. destruct F as [_ F]. now apply Forall_app in F. Qed.

Lemma Forall_rstrip : forall (P : ascii -> Prop) t, Forall P t -> Forall P (rstrip t).
Proof. intros P t F. destruct (rstrip_prefix t) as [w W]. rewrite W in F. now apply Forall_app in F. Qed.
Lemma Forall_lskip : forall (P : ascii -> Prop) t, Forall P t -> Forall P (lskip t).
Proof. intros P t F. destruct (lskip_suffix t) as [w W]. rewrite W in F. now apply Forall_app in F. Qed.
Lemma Forall_firstn : forall (P : ascii -> Prop) n t, Forall P t -> Forall P (firstn n t).
Proof. intros P n t F. rewrite <- (firstn_skipn n t) in F. now apply Forall_app in F. Qed.
Lemma Forall_skipn : forall (P : ascii -> Prop) n t, Forall P t -> Forall P (skipn n t).
Proof. intros P n t F. rewrite <- (firstn_skipn n t) in F. now apply Forall_app in F. Qed.

Lemma cstr_free : forall t, Forall (fun c => c <> nul) (cstr t).
Proof.
  induction t as [|c t IH]; simpl; [constructor|].
  destruct (Ascii.eqb c nul) eqn:E; [constructor|]. constructor; auto. now apply Ascii.eqb_neq.
Qed.

Definition no_sep (t : text) : Prop := Forall (fun c => is_sep c = false) t.
Definition no_nul (t : text) : Prop := Forall (fun c => c <> nul) t.

Lemma classify_out : forall first cont b,
  match classify first cont b with
  | Pair n v => no_sep n /\ trimmed v /\ no_nul v
  | Continue v => trimmed v /\ no_nul v
  | _ => True
  end.
Proof.
  intros first cont b. unfold classify.
  set (start0 := if first && is_bom (cstr b) then skipn 3 (cstr b) else cstr b).
  assert (N0 : no_nul start0).
  { unfold start0, no_nul. destruct (first && is_bom (cstr b)); [apply Forall_skipn|]; apply cstr_free. }
  assert (Ns : no_nul (lskip (rstrip start0))) by (apply Forall_lskip, Forall_rstrip; exact N0).
  pose proof (trim_lr start0) as Ts.
  destruct (lskip (rstrip start0)) as [|c r] eqn:Es; [exact I|].
  destruct (Ascii.eqb c ";" || Ascii.eqb c "#"); [exact I|].
  destruct (cont && _); [auto|].
  destruct (Ascii.eqb c "[").
  - destruct (find_chars_or_comment false is_close r) as [x [|e q]]; [exact I|].
    destruct (is_close e); exact I.
  - destruct (find_chars_or_comment false is_sep (c :: r)) as [x [|e q]] eqn:Ef; [exact I|].
    destruct (is_sep e); [|exact I].
    destruct (find_chars_prefix _ _ _ _ _ Ef) as [A B]. split; [|split].
    + apply Forall_rstrip. exact B.
    + apply trim_rl.
    + apply Forall_rstrip, Forall_lskip.
      destruct (find_chars_or_comment false no_char q) as [y z] eqn:Ey. simpl.
      destruct (find_chars_prefix _ _ _ _ _ Ey) as [Ay _].
      rewrite A in Ns. rewrite Ay in Ns. apply Forall_app in Ns. destruct Ns as [_ Ns].
      inversion Ns as [|? ? ? Ns']; subst. now apply Forall_app in Ns'.
Qed.

Definition good_event (e : event) : Prop := no_sep (snd (fst e)) /\ trimmed (snd e) /\ no_nul (snd e).

Lemma events_good : forall t, Forall good_event (events t).
Proof.
  intros t. unfold events, parse.
  assert (G : forall bs st, no_sep (p_prev st) -> Forall good_event (p_user st) ->
     Forall good_event (p_user (fold_left (parse_line record) bs st))).
  { induction bs as [|b bs IH]; intros st Hp Hu; simpl; auto.
    unfold parse_line at 2. simpl.
    pose proof (classify_out (p_lineno st + 1 =? 1) (match p_prev st with [] => false | _ => true end) b) as K.
    destruct (classify _ _ b); apply IH; simpl; auto.
    - constructor.
    - destruct K as (A & B & C). now apply Forall_firstn.
    - destruct K as (A & B & C). apply Forall_app. split; auto. repeat constructor; simpl; auto; apply B.
    - destruct K as (B & C). apply Forall_app. split; auto. repeat constructor; simpl; auto; apply B. }
  simpl. apply G; simpl; constructor.
Qed.

Lemma no_sep_eq : forall n, no_sep n -> ~ In "="%char n.
Proof. intros n F I. unfold no_sep in F. rewrite Forall_forall in F. specialize (F _ I). discriminate. Qed.

(** The value stored under a key after a list of events. *)
Definition join1 (old v : text) : text := match old with [] => v | _ => old ++ newline :: v end.

Lemma joined_fold : forall vs acc, fold_left join1 vs acc =
  match acc with [] => joined vs | _ => acc ++ flat_map (fun w => newline :: w) vs end.
Proof.
  induction vs as [|v vs IH]; intros acc; simpl.
  - destruct acc; [reflexivity|]. now rewrite app_nil_r.
  - rewrite IH. destruct acc as [|a acc]; simpl.
    + destruct v; reflexivity.
    + now rewrite <- app_assoc.
Qed.

Lemma stored_value : forall s n, ~ In "="%char n -> forall evs r vs,
  Forall (fun e => ~ In "="%char (snd (fst e))) evs ->
  select (same_setting s n) evs vs ->
  let old := find (make_key s n) (r_values r) in
  find (make_key s n) (r_values (fold_left (apply_event value_handler) evs r)) =
  match vs with
  | [] => old
  | _ => Some (fold_left join1 vs (match old with Some o => o | None => [] end))
  end.
Proof.
  intros s n Hn. induction evs as [|e evs IH]; intros r vs He Hs;
    inversion Hs as [|e0 l0 vs0 P0 S0|e0 l0 vs0 P0 S0]; subst; simpl; auto.
  - inversion He as [|? ? He1 He2]; subst.
    rewrite (IH _ vs0 He2 S0). destruct e as [[s' n'] v]. cbn [fst snd] in *.
    destruct P0 as [K1 K2]. cbn [fst snd] in *.
    assert (K : make_key s n = make_key s' n') by (symmetry; now apply make_key_case).
    cbn [apply_event value_handler fst r_values]. rewrite <- K.
    rewrite find_assign_same. unfold join1 at 3.
    destruct (find (make_key s n) (r_values r)) as [[|o os]|];
      destruct vs0; reflexivity.
  - inversion He as [|? ? He1 He2]; subst.
    rewrite (IH _ vs He2 S0). destruct e as [[s' n'] v]. cbn [fst snd] in *.
    assert (K : make_key s' n' <> make_key s n).
    { intros E. apply make_key_inj in E; auto. }
    cbn [apply_event value_handler fst r_values].
    rewrite find_assign_other by exact K. reflexivity.
Qed.

(** ** C66: a key given several times *)
Theorem C66_repeated_keys_accumulate : forall t s n vs d, ~ In "="%char n ->
  select (same_setting s n) (events t) vs ->
  get_text (reader_of t) s n d = match vs with [] => d | _ => joined vs end /\
  has_value (reader_of t) s n = match vs with [] => false | _ => true end.
Proof.
  intros t s n vs d Hn Hs. unfold get_text, has_value. rewrite reader_of_events.
  assert (He : Forall (fun e : event => ~ In "="%char (snd (fst e))) (events t)).
  { eapply Forall_impl; [|apply events_good]. intros e (A & _). now apply no_sep_eq. }
  rewrite (stored_value s n Hn (events t) empty_reader vs He Hs). simpl.
  destruct vs as [|v vs]; [auto|]. rewrite joined_fold. auto.
Qed.

(** Numbers: the first non-empty text is the one that is seen. *)
Lemma digit_newline : forall b, b <= 36 -> digit b newline = None.
Proof.
  intros b Hb. unfold digit. change (code newline) with 10. simpl.
  destruct (36 <? b) eqn:E; auto. apply Z.ltb_lt in E. lia.
Qed.

Lemma digits_newline : forall b t acc n r, b <= 36 ->
  digits b acc n (t ++ newline :: r) =
  let '(a, m, q) := digits b acc n t in (a, m, q ++ newline :: r).
Proof.
  intros b t. induction t as [|c t IH]; intros acc n r Hb; cbn [app digits].
  - now rewrite digit_newline.
  - destruct (digit b c); [apply IH; auto|reflexivity].
Qed.

Lemma sign_newline : forall t r, t <> [] ->
  sign (t ++ newline :: r) = let '(neg, u) := sign t in (neg, u ++ newline :: r).
Proof.
  intros [|c t] r N; [congruence|]. simpl.
  destruct (Ascii.eqb c "-"); auto. destruct (Ascii.eqb c "+"); auto.
Qed.

Lemma strtol_newline : forall t r, lskip t = t -> t <> [] ->
  strtol0 (t ++ newline :: r) = strtol0 t.
Proof.
  intros t r Ht N. unfold strtol0.
  assert (E1 : skip_space (t ++ newline :: r) = t ++ newline :: r).
  { destruct t as [|c t]; [congruence|]. unfold lskip in Ht. simpl in *.
    destruct (isspace c) eqn:E; auto. exfalso.
    assert (length (skip_space t) <= length t)%nat.
    { clear. induction t as [|d t IH]; simpl; auto. destruct (isspace d); simpl; lia. }
    rewrite Ht in H. simpl in H. lia. }
  rewrite E1. unfold lskip in Ht. rewrite Ht. rewrite sign_newline by exact N.
  destruct (sign t) as [neg u]. cbv zeta.
  assert (D : forall b, b <= 36 -> fst (fst (digits b 0 0 (u ++ newline :: r))) = fst (fst (digits b 0 0 u))).
  { intros b Hb. rewrite digits_newline by exact Hb. now destruct (digits b 0 0 u) as [[a m] q]. }
  destruct u as [|c u]; [reflexivity|]. cbn [app] in *.
  destruct (Ascii.eqb c "0").
  - destruct u as [|x u].
    + cbn [app] in *. destruct r as [|h q]; rewrite D by lia; reflexivity.
    + cbn [app] in *. destruct u as [|y u].
      * cbn [app] in *. destruct (Ascii.eqb x "x" || Ascii.eqb x "X").
        { rewrite digit_newline by lia. cbn [andb]. rewrite D by lia. reflexivity. }
        { cbn [andb]. rewrite D by lia. reflexivity. }
      * cbn [app] in *. destruct (_ && _).
        { change (y :: u ++ newline :: r) with ((y :: u) ++ newline :: r).
          rewrite digits_newline by lia. destruct (digits 16 0 0 (y :: u)) as [[a m] q]. reflexivity. }
        { rewrite D by lia. reflexivity. }
  - destruct (digit 10 c); [|reflexivity]. rewrite D by lia. reflexivity.
Qed.

Lemma special_newline : forall u r, special_form (u ++ newline :: r) = special_form u.
Proof.
  intros u r. unfold special_form.
  destruct u as [|a [|b [|c u]]]; cbn [app lower map].
  - destruct (map tolower r) as [|x [|y q]]; reflexivity.
  - destruct (map tolower r) as [|x q]; [reflexivity|].
    change (tolower newline) with newline.
    unfold tx. simpl. destruct (Ascii.eqb (tolower a) "i"), (Ascii.eqb (tolower a) "n"), (Ascii.eqb (tolower a) "0"); reflexivity.
  - change (tolower newline) with newline. rewrite digit_newline by lia. unfold tx. simpl.
    rewrite !andb_false_r. reflexivity.
  - f_equal. f_equal. destruct (digit 16 (tolower c)); [reflexivity|].
    destruct u as [|d u]; cbn [app map]; [|reflexivity].
    change (tolower newline) with newline. rewrite digit_newline by lia. reflexivity.
Qed.

Lemma dec_float_newline : forall u r, dec_float (u ++ newline :: r) =
  match dec_float u with Some (m, e, q) => Some (m, e, q ++ newline :: r) | None => None end.
Proof.
  intros u r. unfold dec_float. rewrite digits_newline by lia.
  destruct (digits 10 0 0 u) as [[m1 k1] r1].
  assert (E2 : frac_part m1 (r1 ++ newline :: r) =
               let '(m2, k2, r2) := frac_part m1 r1 in (m2, k2, r2 ++ newline :: r)).
  { destruct r1 as [|c q]; cbn [app frac_part]; [reflexivity|].
    destruct (Ascii.eqb c "."); [|reflexivity]. apply digits_newline. lia. }
  rewrite E2. destruct (frac_part m1 r1) as [[m2 k2] r2].
  destruct (k1 + k2 =? 0); [reflexivity|].
  destruct r2 as [|c q]; cbn [app]; [reflexivity|].
  destruct (Ascii.eqb c "e" || Ascii.eqb c "E"); [|reflexivity].
  destruct q as [|d q].
  - reflexivity.
  - change ((d :: q) ++ newline :: r) with ((d :: q) ++ newline :: r).
    rewrite sign_newline by discriminate. destruct (sign (d :: q)) as [neg q1].
    rewrite digits_newline by lia. destruct (digits 10 0 0 q1) as [[x nx] q2].
    destruct (nx =? 0); reflexivity.
Qed.

Lemma first_line_newline : forall t r, first_line (t ++ newline :: r) = first_line t.
Proof.
  induction t as [|c t IH]; intros r; simpl; [reflexivity|].
  destruct (Ascii.eqb c newline); [reflexivity|]. now rewrite IH.
Qed.

Lemma strtod_newline : forall {T} `{Num T} special t r, lskip t = t -> t <> [] ->
  strtod special (t ++ newline :: r) = strtod special t.
Proof.
  intros T HT special t r Ht N. unfold strtod.
  assert (E1 : skip_space (t ++ newline :: r) = t ++ newline :: r).
  { destruct t as [|c t]; [congruence|]. unfold lskip in Ht. simpl in *.
    destruct (isspace c) eqn:E; auto. exfalso.
    assert (length (skip_space t) <= length t)%nat.
    { clear. induction t as [|d t IH]; simpl; auto. destruct (isspace d); simpl; lia. }
    rewrite Ht in H. simpl in H. lia. }
  rewrite E1. unfold lskip in Ht. rewrite Ht. rewrite sign_newline by exact N.
  destruct (sign t) as [neg u].
  rewrite special_newline, first_line_newline, dec_float_newline.
  destruct (special_form u); [reflexivity|]. destruct (dec_float u) as [[[m e] q]|]; reflexivity.
Qed.

Lemma joined_head : forall vs, joined vs = first_nonempty vs \/
  (first_nonempty vs <> [] /\ exists r, joined vs = first_nonempty vs ++ newline :: r).
Proof.
  induction vs as [|v vs IH]; [now left|]. simpl. destruct v as [|c v]; [exact IH|].
  destruct vs as [|w vs]; simpl.
  - left. now rewrite app_nil_r.
  - right. split; [discriminate|]. eexists. reflexivity.
Qed.

Lemma first_nonempty_in : forall vs, first_nonempty vs = [] \/ In (first_nonempty vs) vs.
Proof.
  induction vs as [|v vs IH]; [now left|]. simpl. destruct v as [|c v].
  - destruct IH as [IH|IH]; auto.
  - right. now left.
Qed.

Lemma select_in : forall P l vs v, select P l vs -> In v vs -> exists e, In e l /\ snd e = v.
Proof.
  intros P l vs v S. induction S as [|e l vs Pe S IH|e l vs Pe S IH]; intros I.
  - destruct I.
  - destruct I as [<-|I]; [exists e; split; [now left|reflexivity]|].
    destruct (IH I) as [e' [A B]]. exists e'. split; [now right|exact B].
  - destruct (IH I) as [e' [A B]]. exists e'. split; [now right|exact B].
Qed.

Lemma no_nul_joined : forall vs, Forall no_nul vs -> no_nul (joined vs).
Proof.
  induction vs as [|v vs IH]; intros F; [constructor|]. inversion F; subst. simpl.
  destruct v as [|c v]; [auto|]. unfold no_nul. apply (Forall_app _ (c :: v)). split; auto.
  clear -H2. induction H2 as [|w ws Hw Hws IH]; simpl; [constructor|].
  constructor; [discriminate|]. apply Forall_app. split; auto.
Qed.

Lemma first_text_facts : forall t s n vs, select (same_setting s n) (events t) vs ->
  cstr (joined vs) = joined vs /\ cstr (first_nonempty vs) = first_nonempty vs /\
  lskip (first_nonempty vs) = first_nonempty vs.
Proof.
  intros t s n vs S. pose proof (events_good t) as G. rewrite Forall_forall in G.
  assert (F : Forall (fun v => trimmed v /\ no_nul v) vs).
  { apply Forall_forall. intros v I. destruct (select_in _ _ _ _ S I) as [e [Ie <-]].
    destruct (G e Ie) as (_ & A & B). auto. }
  assert (N1 : no_nul (joined vs)).
  { apply no_nul_joined. eapply Forall_impl; [|exact F]. intros v [_ B]. exact B. }
  assert (N2 : trimmed (first_nonempty vs) /\ no_nul (first_nonempty vs)).
  { destruct (first_nonempty_in vs) as [E|E].
    - rewrite E. split; [split; intros c r K; [discriminate|destruct r; discriminate]|constructor].
    - rewrite Forall_forall in F. now apply F. }
  destruct N2 as [Tr N2]. split; [|split].
  - apply cstr_no_nul. intros I. unfold no_nul in N1. rewrite Forall_forall in N1. now apply (N1 nul I).
  - apply cstr_no_nul. intros I. unfold no_nul in N2. rewrite Forall_forall in N2. now apply (N2 nul I).
  - now apply lskip_trimmed.
Qed.

Theorem C66_numbers_use_first : forall {T} `{Num T} special t s n vs, ~ In "="%char n ->
  select (same_setting s n) (events t) vs ->
  (forall d, get_integer (reader_of t) s n d =
     match strtol0 (first_nonempty vs) with Some z => z | None => d end) /\
  (forall d : T, get_real special (reader_of t) s n d =
     match strtod special (first_nonempty vs) with Some x => x | None => d end).
Proof.
  intros T HT special t s n vs Hn S.
  destruct (first_text_facts t s n vs S) as (A & B & C).
  assert (E : get_text (reader_of t) s n [] = joined vs).
  { rewrite (proj1 (C66_repeated_keys_accumulate t s n vs [] Hn S)). destruct vs; reflexivity. }
  unfold get_integer, get_real, c_str. rewrite E, A.
  destruct (joined_head vs) as [J|[Nf [r J]]]; rewrite J.
  - split; reflexivity.
  - rewrite strtol_newline by assumption. rewrite strtod_newline by assumption. split; reflexivity.
Qed.

(** ** C63, continued: what the program reads back *)
Lemma select_none : forall (P : event -> Prop) l, Forall (fun e => ~ P e) l -> select P l [].
Proof. intros P l F. induction F; [constructor|now apply select_no]. Qed.

Lemma select_one : forall (P : event -> Prop) l1 e l2, P e -> Forall (fun e => ~ P e) (l1 ++ l2) ->
  select P (l1 ++ e :: l2) [snd e].
Proof.
  intros P l1 e l2 Pe F. apply Forall_app in F. destruct F as [F1 F2].
  induction F1; simpl.
  - apply select_yes; auto. now apply select_none.
  - now apply select_no.
Qed.

Theorem C63_round_trip : forall c, good_config c ->
  new_reader (Present (Some (write_config c))) = Ok (reader_of (write_config c), 0) /\
  (forall l1 s k v l2 d, settings c = l1 ++ (s, k, v) :: l2 ->
     Forall (fun e => ~ same_setting s k e) (l1 ++ l2) ->
     get_text (reader_of (write_config c)) s k d = v /\
     has_value (reader_of (write_config c)) s k = true) /\
  (forall s k d, ~ In "="%char k -> Forall (fun e => ~ same_setting s k e) (settings c) ->
     get_text (reader_of (write_config c)) s k d = d /\
     has_value (reader_of (write_config c)) s k = false).
Proof.
  intros c G. destruct (C63_parse_written c G) as [Ev Er]. split; [|split].
  - unfold new_reader, reader_of, ini_parse.
    rewrite (parse_events value_handler value_handler_true). now rewrite Er.
  - intros l1 s k v l2 d Es F.
    assert (Sel : select (same_setting s k) (events (write_config c)) [v]).
    { rewrite Ev, Es. apply (select_one (same_setting s k) l1 (s, k, v) l2); auto.
      split; reflexivity. }
    assert (Hk : ~ In "="%char k).
    { assert (I : In (s, k, v) (events (write_config c))).
      { rewrite Ev, Es. apply in_or_app. right. now left. }
      pose proof (events_good (write_config c)) as Ge. rewrite Forall_forall in Ge.
      destruct (Ge _ I) as (A & _). now apply no_sep_eq. }
    destruct (C66_repeated_keys_accumulate _ s k [v] d Hk Sel) as [A B].
    rewrite A, B. split; auto. simpl. destruct v; [reflexivity|]. now rewrite app_nil_r.
  - intros s k d Hk F.
    assert (Sel : select (same_setting s k) (events (write_config c)) []).
    { rewrite Ev. now apply select_none. }
    exact (C66_repeated_keys_accumulate _ s k [] d Hk Sel).
Qed.

(** ** C64: case and collisions *)
Theorem C64_lookup_ignores_case : forall {T} `{Num T} special (r : reader) s n s' n',
  same_letters s s' -> same_letters n n' ->
  (forall d, get_text r s n d = get_text r s' n' d) /\
  (forall d, get_string r s n d = get_string r s' n' d) /\
  (forall d, get_integer r s n d = get_integer r s' n' d) /\
  (forall d, get_boolean r s n d = get_boolean r s' n' d) /\
  (forall d : T, get_real special r s n d = get_real special r s' n' d) /\
  (forall d : vec T, get_vector r s n d = get_vector r s' n' d) /\
  has_value r s n = has_value r s' n'.
Proof.
  intros T HT special r s n s' n' A B.
  assert (K : make_key s n = make_key s' n') by (now apply make_key_case).
  unfold get_string, get_integer, get_boolean, get_real, get_vector, get_text, has_value.
  rewrite K. repeat split.
Qed.

(** The spelling used in the file does not matter either. *)
Theorem C64_file_ignores_case : forall t t',
  Forall2 (fun e e' => same_letters (fst (fst e)) (fst (fst e')) /\
                       same_letters (snd (fst e)) (snd (fst e')) /\ snd e = snd e')
          (events t) (events t') ->
  r_values (reader_of t) = r_values (reader_of t').
Proof.
  intros t t' F. rewrite !reader_of_events.
  generalize (eq_refl (r_values empty_reader)). generalize empty_reader at 1 3. generalize empty_reader.
  induction F as [|[[s n] v] [[s' n'] v'] l l' (A & B & C) F IH]; intros r r' E; simpl; auto.
  apply IH. cbn [value_handler fst r_values] in *. simpl in A, B, C. subst v'.
  rewrite (make_key_case s n s' n' A B). now rewrite E.
Qed.

(** Names that come from a file contain neither '=' nor ':' ... *)
Theorem C64_names_have_no_separator : forall t s n v, In (s, n, v) (events t) ->
  ~ In "="%char n /\ ~ In ":"%char n.
Proof.
  intros t s n v I. pose proof (events_good t) as G. rewrite Forall_forall in G.
  destruct (G _ I) as (A & _). cbn [fst snd] in A. unfold no_sep in A. rewrite Forall_forall in A.
  split; intros J; specialize (A _ J); discriminate.
Qed.

(** ... so what is stored under one pair depends only on the settings of that
    pair (up to case). *)
Theorem C64_no_collision : forall t t' s n vs d, ~ In "="%char n ->
  select (same_setting s n) (events t) vs -> select (same_setting s n) (events t') vs ->
  get_text (reader_of t) s n d = get_text (reader_of t') s n d /\
  has_value (reader_of t) s n = has_value (reader_of t') s n.
Proof.
  intros t t' s n vs d Hn S S'.
  destruct (C66_repeated_keys_accumulate t s n vs d Hn S) as [A B].
  destruct (C66_repeated_keys_accumulate t' s n vs d Hn S') as [A' B'].
  rewrite A, A', B, B'. auto.
Qed.

(** ** C65: comments and blank lines *)
Lemma rstrip_keep : forall a b, rstrip b <> [] -> rstrip (a ++ b) = a ++ rstrip b.
Proof.
  intros a b N. induction a as [|c a IH]; simpl; auto. rewrite IH.
  destruct (a ++ rstrip b) eqn:E; [|reflexivity].
  apply app_eq_nil in E. destruct E as [_ E]. contradiction.
Qed.

Lemma rstrip_head : forall c q, isspace c = false -> exists q', rstrip (c :: q) = c :: q'.
Proof.
  intros c q Hc. simpl. destruct (rstrip q); [rewrite Hc|]; eexists; reflexivity.
Qed.

Lemma space_code : forall c, isspace c = true -> code c <= 32.
Proof.
  intros c E. unfold isspace in E. apply orb_prop in E. destruct E as [E|E].
  - apply andb_prop in E. destruct E as [_ E]. apply Z.leb_le in E. lia.
  - apply Z.eqb_eq in E. lia.
Qed.

Lemma space_not_nul : forall c, isspace c = true -> Ascii.eqb c nul = false.
Proof.
  intros c E. apply Ascii.eqb_neq. intros ->. discriminate.
Qed.

Lemma cstr_spaces : forall w r, Forall space w -> cstr (w ++ r) = w ++ cstr r.
Proof.
  intros w r F. induction F as [|c w Hc F IH]; simpl; auto.
  rewrite space_not_nul by exact Hc. now rewrite IH.
Qed.

Lemma bom_spaces : forall w c q, Forall space w -> code c <> 239 -> is_bom (w ++ c :: q) = false.
Proof.
  intros w c q F N. destruct F as [|d w Hd F]; simpl app.
  - now apply not_bom.
  - apply not_bom. apply space_code in Hd. lia.
Qed.

Lemma classify_comment : forall first cont b, comment_or_blank b -> classify first cont b = Nothing.
Proof.
  intros first cont b (w & r & E & F & C). unfold classify. rewrite E.
  rewrite cstr_spaces by exact F. destruct C as [->|(c & q & -> & C)].
  - cbn [cstr]. rewrite app_nil_r.
    assert (Bo : is_bom w = false).
    { destruct F as [|d w Hd F]; [reflexivity|]. apply not_bom. apply space_code in Hd. lia. }
    rewrite Bo, andb_false_r. cbv zeta. rewrite rstrip_all_spaces by exact F. reflexivity.
  - assert (Hc : isspace c = false) by (destruct C as [-> | ->]; reflexivity).
    assert (Hn : Ascii.eqb c nul = false) by (destruct C as [-> | ->]; reflexivity).
    assert (Hb : code c <> 239) by (destruct C as [-> | ->]; vm_compute; discriminate).
    cbn [cstr]. rewrite Hn. rewrite bom_spaces by assumption. rewrite andb_false_r.
    destruct (rstrip_head c (cstr q) Hc) as [q' Eq].
    assert (Es : lskip (rstrip (w ++ c :: cstr q)) = c :: q').
    { rewrite rstrip_keep by (rewrite Eq; discriminate). rewrite Eq.
      rewrite lskip_spaces by exact F. unfold lskip. simpl. now rewrite Hc. }
    cbv zeta. rewrite Es. destruct C as [-> | ->]; reflexivity.
Qed.

Lemma comment_newline : forall L, comment_or_blank L -> comment_or_blank (L ++ [newline]).
Proof.
  intros L (w & r & E & F & C). subst L. destruct C as [->|(c & q & -> & C)].
  - exists (w ++ [newline]), []. rewrite !app_nil_r. repeat split; auto.
    apply Forall_app. split; auto. repeat constructor.
  - exists w, (c :: q ++ [newline]). rewrite <- app_assoc. repeat split; auto.
    right. exists c, (q ++ [newline]). auto.
Qed.

Definition starts_with_bom (t : text) : Prop :=
  exists a b c r, t = a :: b :: c :: r /\ code a = 239 /\ code b = 187 /\ code c = 191.

Lemma is_bom_spec : forall t, is_bom t = true -> starts_with_bom t.
Proof.
  intros [|a [|b [|c r]]] E; try discriminate. simpl in E.
  apply andb_prop in E. destruct E as [E E3]. apply andb_prop in E. destruct E as [E1 E2].
  apply Z.eqb_eq in E1, E2, E3. exists a, b, c, r. auto.
Qed.

Lemma cstr_prefix : forall t, exists w, t = cstr t ++ w.
Proof.
  induction t as [|c t [w IH]]; [exists []; reflexivity|]. simpl.
  destruct (Ascii.eqb c nul); [exists (c :: t); reflexivity|].
  exists w. rewrite IH at 1. reflexivity.
Qed.

Lemma first_buffer_bom : forall B, is_bom (cstr (fst (fgets line_max B))) = true -> starts_with_bom B.
Proof.
  intros B E. destruct (fgets line_max B) as [x q] eqn:F. cbn [fst] in E.
  apply fgets_split in F. destruct (cstr_prefix x) as [w W]. rewrite W in F.
  apply is_bom_spec in E. destruct E as (a & b & c & r & E & Ha). rewrite E in F. subst B.
  exists a, b, c, (r ++ w ++ q). split; [|exact Ha]. now rewrite <- !app_assoc.
Qed.

Lemma classify_first : forall first cont b, is_bom (cstr b) = false ->
  classify first cont b = classify false cont b.
Proof. intros first cont b E. unfold classify. rewrite E. now rewrite andb_false_r. Qed.

Lemma continue_fold : forall {U} (h : U -> text -> text -> text -> U * bool) B p q,
  same_run p q -> (0 < p_lineno p /\ 0 < p_lineno q) \/ ~ starts_with_bom B ->
  same_run (fold_left (parse_line h) (lines B) p) (fold_left (parse_line h) (lines B) q).
Proof.
  intros U h B p q R C. destruct C as [[A1 A2]|C].
  - now apply fold_same.
  - destruct B as [|b B]; [exact R|]. rewrite lines_step by discriminate. cbn [fold_left].
    set (x := fst (fgets line_max (b :: B))).
    assert (Bo : is_bom (cstr x) = false).
    { destruct (is_bom (cstr x)) eqn:E; auto. exfalso. apply C. now apply first_buffer_bom. }
    pose proof R as R'. destruct R' as (E1 & E2 & E3 & E4 & E5 & E6).
    apply fold_same.
    + apply parse_line_same_class; auto.
      etransitivity; [exact (classify_first _ _ _ Bo)|].
      etransitivity; [|symmetry; exact (classify_first _ _ _ Bo)]. now rewrite E2.
    + rewrite parse_line_lineno. lia.
    + rewrite parse_line_lineno. lia.
Qed.

Lemma parse_split : forall {U} (h : U -> text -> text -> text -> U * bool) A X u, A = [] \/ ends_nl A ->
  fold_left (parse_line h) (lines (A ++ X)) (mkP [] [] 0 0 u) =
  fold_left (parse_line h) (lines X) (fold_left (parse_line h) (lines A) (mkP [] [] 0 0 u)).
Proof. intros. rewrite lines_app by assumption. apply fold_left_app. Qed.

Lemma lines_length_pos : forall A, A <> [] -> (0 < length (lines A))%nat.
Proof. intros A N. rewrite lines_step by exact N. cbn [length]. lia. Qed.

(** [h] is any handler; for the program it is the one of INIReader. *)
Theorem C65_comment_line_ignored :
  forall {U} (h : U -> text -> text -> text -> U * bool) (u : U) (A L B : text),
  A = [] \/ ends_nl A -> comment_or_blank L -> ~ In newline L -> (length L < 199)%nat ->
  (A = [] -> ~ starts_with_bom B) ->
  fst (parse h (A ++ L ++ newline :: B) u) = fst (parse h (A ++ B) u) /\
  (snd (parse h (A ++ L ++ newline :: B) u) = 0 <-> snd (parse h (A ++ B) u) = 0).
Proof.
  intros U h u A L B HA HL HN Hl HB. unfold parse. cbv zeta. cbn [fst snd].
  rewrite !parse_split by exact HA.
  set (st := fold_left (parse_line h) (lines A) (mkP [] [] 0 0 u)).
  assert (Hst : p_lineno st = Z.of_nat (length (lines A))).
  { unfold st. rewrite fold_lineno. simpl. lia. }
  rewrite fold_line by assumption.
  assert (P : parse_line h st (L ++ [newline]) =
              mkP (p_section st) (p_prev st) (p_lineno st + 1) (p_error st) (p_user st)).
  { unfold parse_line. cbn [p_lineno p_prev p_section p_error p_user].
    rewrite classify_comment by (now apply comment_newline). reflexivity. }
  rewrite P.
  assert (R : same_run (fold_left (parse_line h) (lines B)
                (mkP (p_section st) (p_prev st) (p_lineno st + 1) (p_error st) (p_user st)))
              (fold_left (parse_line h) (lines B) st)).
  { apply continue_fold.
    - unfold same_run. cbn [p_lineno p_prev p_section p_error p_user]. repeat split; auto; lia.
    - destruct A as [|a A]; [right; now apply HB|]. left. cbn [p_lineno].
      pose proof (lines_length_pos (a :: A) ltac:(discriminate)). lia. }
  destruct R as (_ & _ & E3 & E4 & _). split; auto.
Qed.

(** A comment of 199 or more characters: its tail is read as a new line. *)
Theorem C65_long_comment_tail :
  forall {U} (h : U -> text -> text -> text -> U * bool) (u : U) (A L X : text),
  A = [] \/ ends_nl A -> comment_or_blank L -> ~ In newline L -> length L = 199%nat ->
  parse h (A ++ L ++ X) u = parse h (A ++ tx ";" ++ newline :: X) u.
Proof.
  intros U h u A L X HA HL HN Hl. unfold parse. cbv zeta.
  rewrite !parse_split by exact HA.
  set (st := fold_left (parse_line h) (lines A) (mkP [] [] 0 0 u)).
  rewrite lines_long by assumption. rewrite fold_line.
  2: { intros [I|[]]; discriminate. }
  2: { simpl. lia. }
  assert (P : forall b, comment_or_blank b -> parse_line h st b =
              mkP (p_section st) (p_prev st) (p_lineno st + 1) (p_error st) (p_user st)).
  { intros b Hb. unfold parse_line. cbn [p_lineno p_prev p_section p_error p_user].
    rewrite classify_comment by exact Hb. reflexivity. }
  cbn [fold_left]. rewrite (P L HL). rewrite P; [reflexivity|].
  exists [], (tx ";" ++ [newline]). split; [reflexivity|]. split; [constructor|].
  right. exists ";"%char, [newline]. auto.
Qed.

(** ** C88: an indented setting belongs to the previous key *)
Theorem C88_indented_line_is_continuation : forall c sec kvs k v w L,
  good_config (c ++ [(sec, kvs ++ [(k, v)])]) ->
  w <> [] -> Forall space w -> ~ In newline w -> no_space_ends L -> avoids [newline; nul] L ->
  (exists x r, L = x :: r /\ x <> ";"%char /\ x <> "#"%char) ->
  (length w + length L < 199)%nat ->
  events (write_config (c ++ [(sec, kvs ++ [(k, v)])]) ++ w ++ L ++ [newline]) =
  settings (c ++ [(sec, kvs ++ [(k, v)])]) ++ [(sec, firstn 49 k, L)].
Proof.
  intros c sec kvs k v w L G Nw Fw Nlw TL AL (x & r & EL & Nx1 & Nx2) Hl.
  apply Forall_app in G. destruct G as [Gc Gs].
  unfold events, parse. cbv zeta. cbn [fst].
  unfold write_config at 1. rewrite flat_map_app. fold (write_config c).
  cbn [flat_map]. rewrite app_nil_r. rewrite <- app_assoc.
  destruct (fold_config c (mkP [] [] 0 0 []) (write_section (sec, kvs ++ [(k, v)]) ++ w ++ L ++ [newline]) Gc)
    as [st (F & A1 & A2 & A3)]; auto; [simpl; lia|].
  rewrite F.
  destruct (fold_section sec (kvs ++ [(k, v)]) st (w ++ L ++ [newline]) Gs A1 A2)
    as [st' (F' & B1 & B2 & B3 & B4 & B5)].
  rewrite F'. rewrite app_assoc. rewrite fold_line.
  2: { intros I. apply in_app_or in I. destruct I as [I|I]; [contradiction|].
       revert I. eapply avoids_in; [exact AL|simpl; auto]. }
  2: { rewrite app_length. exact Hl. }
  rewrite lines_nil. cbn [fold_left].
  assert (Pk : p_prev st' = firstn 49 k).
  { rewrite B5, map_app. cbn [map fst]. rewrite last_last. reflexivity. }
  assert (Nk : p_prev st' <> []).
  { rewrite Pk. inversion Gs as [|? ? [_ Gk] _]; subst. cbn [snd] in Gk.
    apply Forall_app in Gk. destruct Gk as [_ Gk]. inversion Gk as [|? ? (G1 & _) _]; subst.
    destruct G1 as (_ & _ & G1). cbn [fst] in G1. destruct k; [congruence|discriminate]. }
  apply space_trimmed in TL.
  assert (K : forall cont, cont = true -> classify (p_lineno st' + 1 =? 1) cont ((w ++ L) ++ [newline]) = Continue L).
  { intros cont ->. unfold classify.
    replace (p_lineno st' + 1 =? 1) with false by (symmetry; apply Z.eqb_neq; lia).
    rewrite cstr_no_nul.
    2: { intros I. apply in_app_or in I. destruct I as [I|[I|[]]]; [|discriminate].
         apply in_app_or in I. destruct I as [I|I].
         - rewrite Forall_forall in Fw. specialize (Fw _ I). discriminate.
         - revert I. eapply avoids_in; [exact AL|simpl; auto]. }
    cbn [andb]. rewrite (rstrip_spaces (w ++ L) [newline]) by (repeat constructor).
    rewrite rstrip_keep.
    2: { rewrite rstrip_trimmed by exact TL. rewrite EL. discriminate. }
    rewrite rstrip_trimmed by exact TL. rewrite lskip_spaces by exact Fw.
    rewrite lskip_trimmed by exact TL. rewrite EL.
    replace (Ascii.eqb x ";") with false by (symmetry; now apply Ascii.eqb_neq).
    replace (Ascii.eqb x "#") with false by (symmetry; now apply Ascii.eqb_neq).
    destruct w as [|d w]; [congruence|]. inversion Fw; subst. cbn [app].
    match goal with H : space d |- _ => rewrite H end. reflexivity. }
  unfold parse_line. cbn [p_lineno p_prev p_section p_error p_user].
  rewrite K by (destruct (p_prev st'); [congruence|reflexivity]).
  unfold call. cbn [p_lineno p_prev p_section p_error p_user record]. cbn [p_user].
  rewrite Pk, B1, B4, A3. unfold settings. rewrite flat_map_app. cbn [flat_map fst snd p_user app].
  rewrite app_nil_r. reflexivity.
Qed.

(** ** Concrete cases *)
Definition ends_okb (t : text) : bool :=
  match t with [] => true | c :: r => negb (isspace c) && negb (isspace (last r c)) end.
Definition avoidsb (bad : list ascii) (t : text) : bool :=
  forallb (fun c => negb (existsb (Ascii.eqb c) bad)) t.

Lemma ends_okb_ok : forall t, ends_okb t = true -> no_space_ends t.
Proof.
  intros t E. split; intros c r Et; subst; unfold space.
  - simpl in E. destruct (isspace c); [discriminate|]. discriminate.
  - destruct r as [|d r]; simpl in E.
    + destruct (isspace c); [discriminate|]. discriminate.
    + rewrite last_last in E. apply andb_prop in E. destruct E as [_ E].
      destruct (isspace c); [discriminate|]. discriminate.
Qed.

Lemma avoidsb_ok : forall bad t, avoidsb bad t = true -> avoids bad t.
Proof.
  intros bad t E. unfold avoidsb in E. rewrite forallb_forall in E. apply Forall_forall.
  intros c I J. specialize (E c I). apply negb_true_iff in E.
  assert (K : existsb (Ascii.eqb c) bad = true).
  { apply existsb_exists. exists c. split; auto. apply Ascii.eqb_refl. }
  congruence.
Qed.

Definition good_configb (c : config) : bool :=
  forallb (fun s =>
    avoidsb [newline; nul; "]"; ";"]%char (fst s) && Nat.leb (length (fst s)) 49 &&
    forallb (fun kv =>
      avoidsb [newline; nul; "="; ":"; ";"; "#"; "["]%char (fst kv) && ends_okb (fst kv) &&
      negb (teqb (fst kv) []) &&
      (avoidsb [newline; nul; ";"]%char (snd kv) && ends_okb (snd kv)) &&
      Nat.leb (length (fst kv) + length (snd kv)) 195) (snd s)) c.

Lemma good_configb_ok : forall c, good_configb c = true -> good_config c.
Proof.
  intros c E. unfold good_configb in E. rewrite forallb_forall in E. apply Forall_forall.
  intros s I. specialize (E s I). apply andb_prop in E. destruct E as [E E2].
  apply andb_prop in E. destruct E as [E E1]. split.
  - split; [now apply avoidsb_ok|now apply Nat.leb_le].
  - rewrite forallb_forall in E2. apply Forall_forall. intros kv J. specialize (E2 kv J).
    repeat (apply andb_prop in E2; destruct E2 as [E2 ?]).
    match goal with K : _ && _ = true |- _ => apply andb_prop in K; destruct K end.
    repeat split; try (now apply avoidsb_ok); try (now apply ends_okb_ok).
    + intros K. rewrite K in *. discriminate.
    + unfold fits. now apply Nat.leb_le.
Qed.

Definition sample_config : config :=
  [(tx "General", [(tx "units", tx "SI"); (tx "time_step", tx "0.01e-15"); (tx "file_name", tx "")]);
   (tx "Field", [(tx "field_type", tx "gaussian"); (tx "start", tx "[0 0 10.0e-6]")])].

Example C63_case : good_config sample_config /\
  get_text (reader_of (write_config sample_config)) (tx "Field") (tx "start") [] = tx "[0 0 10.0e-6]" /\
  get_text (reader_of (write_config sample_config)) (tx "General") (tx "start") (tx "none") = tx "none".
Proof.
  split; [|split].
  - apply good_configb_ok. vm_compute. reflexivity.
  - vm_compute. reflexivity.
  - vm_compute. reflexivity.
Qed.

(** With '=' in the name asked for, two different pairs do share an entry. *)
Example C64_collision_with_equals :
  let r := reader_of (tx "[a=b]" ++ newline :: tx "c = 1" ++ [newline]) in
  events (tx "[a=b]" ++ newline :: tx "c = 1" ++ [newline]) = [(tx "a=b", tx "c", tx "1")] /\
  get_text r (tx "a") (tx "b=c") [] = tx "1".
Proof. vm_compute. split; reflexivity. Qed.

Example C64_case :
  let r := reader_of (tx "[General]" ++ newline :: tx "Time_Step = 5" ++ [newline]) in
  get_text r (tx "general") (tx "TIME_STEP") [] = tx "5" /\
  same_letters (tx "Time_Step") (tx "TIME_STEP").
Proof. vm_compute. split; reflexivity. Qed.

(** A comment of 203 characters whose tail is a setting. *)
Definition long_comment : text := "#"%char :: repeat "-"%char 198.
Example C65_case :
  comment_or_blank long_comment /\ length long_comment = 199%nat /\ ~ In newline long_comment /\
  events (tx "[a]" ++ newline :: long_comment ++ tx "x=7" ++ [newline]) = [(tx "a", tx "x", tx "7")] /\
  events (tx "[a]" ++ newline :: tx "   # x = 7" ++ newline :: tx "y = 1" ++ [newline])
  = [(tx "a", tx "y", tx "1")].
Proof.
  split; [|split; [|split; [|split]]].
  - exists [], long_comment. split; [reflexivity|]. split; [constructor|].
    right. exists "#"%char, (repeat "-"%char 198). auto.
  - reflexivity.
  - intros [I|I]; [discriminate|]. apply repeat_spec in I. discriminate.
  - vm_compute. reflexivity.
  - vm_compute. reflexivity.
Qed.

Example C66_case :
  let t := tx "[a]" ++ newline :: tx "x = 1" ++ newline :: tx "X = 2" ++ [newline] in
  select (same_setting (tx "a") (tx "x")) (events t) [tx "1"; tx "2"] /\
  get_text (reader_of t) (tx "a") (tx "x") [] = tx "1" ++ newline :: tx "2" /\
  get_integer (reader_of t) (tx "a") (tx "x") 9 = 1.
Proof.
  cbv zeta. split; [|split].
  - assert (E : events (tx "[a]" ++ newline :: tx "x = 1" ++ newline :: tx "X = 2" ++ [newline]) =
                [(tx "a", tx "x", tx "1"); (tx "a", tx "X", tx "2")]) by (vm_compute; reflexivity).
    rewrite E.
    apply (select_yes _ (tx "a", tx "x", tx "1")); [split; reflexivity|].
    apply (select_yes _ (tx "a", tx "X", tx "2")); [split; reflexivity|constructor].
  - vm_compute. reflexivity.
  - vm_compute. reflexivity.
Qed.

Example C88_case :
  events (tx "[a]" ++ newline :: tx "x = 1" ++ newline :: tx "  y = 2" ++ [newline]) =
  [(tx "a", tx "x", tx "1"); (tx "a", tx "x", tx "y = 2")].
Proof. vm_compute. reflexivity. Qed.

Print Assumptions C63_parse_written.
Print Assumptions C63_round_trip.
Print Assumptions C64_lookup_ignores_case.
Print Assumptions C64_file_ignores_case.
Print Assumptions C64_names_have_no_separator.
Print Assumptions C64_no_collision.
Print Assumptions C65_comment_line_ignored.
Print Assumptions C65_long_comment_tail.
Print Assumptions C66_repeated_keys_accumulate.
Print Assumptions C66_numbers_use_first.
Print Assumptions C88_indented_line_is_continuation.
