(** * The INI parser on character arrays does what the one on texts does *)
From Coq Require Import String ZArith List Bool Ascii Lia.
From Verif Require Import Outcome Text Ini IniFacts IniMem.
Import ListNotations.
Local Open Scope nat_scope.
Arguments nul : simpl never.
Arguments newline : simpl never.

Lemma ld_at : forall pre c r, ld (pre ++ c :: r) (length pre) = Ok c.
Proof. intros. unfold ld. rewrite nth_error_app2 by lia. rewrite Nat.sub_diag. reflexivity. Qed.

Lemma upd_at : forall {A} (pre : list A) c r d, upd (pre ++ c :: r) (length pre) d = pre ++ d :: r.
Proof. induction pre; intros; cbn; [reflexivity|now rewrite IHpre]. Qed.

Lemma st_at : forall pre c r d, st (pre ++ c :: r) (length pre) d = Ok (pre ++ d :: r).
Proof.
  intros. unfold st. rewrite upd_at.
  replace (length pre <? length (pre ++ c :: r)) with true; [reflexivity|]. symmetry. apply Nat.ltb_lt. rewrite app_length. cbn. lia.
Qed.

Lemma ld_at' : forall b pre c r i, b = pre ++ c :: r -> i = length pre -> ld b i = Ok c.
Proof. intros; subst; apply ld_at. Qed.
Lemma st_at' : forall b pre c r d i, b = pre ++ c :: r -> i = length pre -> st b i d = Ok (pre ++ d :: r).
Proof. intros; subst; apply st_at. Qed.

Lemma c_string_ok : forall t fuel pre rest, ~ In nul t -> length t <= fuel ->
  c_string fuel (pre ++ t ++ nul :: rest) (length pre) = Ok t.
Proof.
  induction t as [|c t IH]; intros fuel pre rest N L; cbn [app].
  - destruct fuel; cbn; rewrite ld_at; cbn; reflexivity.
  - destruct fuel as [|f]; [cbn in L; lia|]. cbn -[ld]. rewrite ld_at. cbn -[ld].
    destruct (Ascii.eqb c nul) eqn:E; [apply Ascii.eqb_eq in E; subst; exfalso; apply N; now left|].
    specialize (IH f (pre ++ [c]) rest). rewrite <- app_assoc in IH. cbn in IH. rewrite app_length in IH. cbn in IH.
    rewrite Nat.add_1_r in IH. rewrite IH; [reflexivity| |cbn in L; lia]. intros I. apply N. now right.
Qed.

Lemma string_at_ok : forall pre t rest, ~ In nul t -> string_at (pre ++ t ++ nul :: rest) (length pre) = Ok t.
Proof. intros. apply c_string_ok; [assumption|]. rewrite !app_length. cbn. lia. Qed.

Lemma string_at_ok' : forall b i pre t rest, b = pre ++ t ++ nul :: rest -> i = length pre -> ~ In nul t -> string_at b i = Ok t.
Proof. intros; subst; now apply string_at_ok. Qed.

Lemma rstrip_snoc : forall t c, rstrip (t ++ [c]) = if isspace c then rstrip t else t ++ [c].
Proof.
  induction t as [|d t IH]; intros c; cbn; [destruct (isspace c); reflexivity|].
  rewrite IH. destruct (isspace c); [reflexivity|]. destruct (t ++ [c]) eqn:E; [destruct t; discriminate|reflexivity].
Qed.

Lemma rstrip_prefix : forall t, exists w, t = rstrip t ++ w.
Proof.
  induction t as [|c t [w IH]]; cbn; [now exists []|].
  destruct (rstrip t) as [|d r] eqn:E.
  - destruct (isspace c); [exists (c :: t); reflexivity|]. exists t. reflexivity.
  - exists w. rewrite IH at 1. reflexivity.
Qed.

Lemma rstrip_loop_ok : forall t pre rest, exists z,
  m_rstrip_loop (pre ++ t ++ rest) (length pre) (length t) = Ok (pre ++ rstrip t ++ repeat nul z ++ rest) /\
  length (rstrip t) + z = length t.
Proof.
  induction t as [|c t IH] using rev_ind; intros pre rest; [exists 0; split; reflexivity|].
  rewrite app_length. cbn [length]. rewrite Nat.add_1_r. cbn [m_rstrip_loop].
  rewrite rstrip_snoc.
  assert (E : pre ++ (t ++ [c]) ++ rest = (pre ++ t) ++ c :: rest) by now rewrite <- !app_assoc.
  rewrite E. rewrite (ld_at' _ (pre ++ t) c rest) by (rewrite ?app_length; reflexivity). cbn [bind].
  destruct (isspace c).
  - rewrite (st_at' _ (pre ++ t) c rest) by (rewrite ?app_length; reflexivity). cbn [bind].
    destruct (IH pre (nul :: rest)) as (z & Z1 & Z2). rewrite <- app_assoc. rewrite Z1. exists (S z). split; [|lia].
    f_equal. f_equal. f_equal. change (nul :: rest) with ([nul] ++ rest). rewrite app_assoc. f_equal.
    clear. induction z; cbn; [reflexivity|]. now rewrite IHz.
  - exists 0. split; [now rewrite <- !app_assoc|]. rewrite app_length. cbn. lia.
Qed.

Lemma repeat_cons_app : forall {A} (a : A) z r, repeat a z ++ a :: r = a :: repeat a z ++ r.
Proof. induction z; intros; cbn; [reflexivity|]. f_equal. apply IHz. Qed.

Lemma m_rstrip_ok : forall pre t rest, ~ In nul t -> exists z,
  m_rstrip (pre ++ t ++ nul :: rest) (length pre) = Ok (pre ++ rstrip t ++ nul :: repeat nul z ++ rest) /\
  length (rstrip t) + z = length t.
Proof.
  intros pre t rest N. unfold m_rstrip, strlen. rewrite string_at_ok by assumption. cbn [bind].
  destruct (rstrip_loop_ok t pre (nul :: rest)) as (z & Z1 & Z2). exists z. rewrite Z1. split; [|assumption].
  now rewrite repeat_cons_app.
Qed.

Lemma not_in_app_l : forall {A} (x : A) a b, ~ In x (a ++ b) -> ~ In x a.
Proof. intros A x a b N I. apply N. apply in_or_app. now left. Qed.
Lemma not_in_app_r : forall {A} (x : A) a b, ~ In x (a ++ b) -> ~ In x b.
Proof. intros A x a b N I. apply N. apply in_or_app. now right. Qed.

Lemma rstrip_no_nul : forall t, ~ In nul t -> ~ In nul (rstrip t).
Proof. intros t N. destruct (rstrip_prefix t) as [w E]. rewrite E in N. now apply not_in_app_l in N. Qed.

Lemma isspace_nul : isspace nul = false. Proof. reflexivity. Qed.

Lemma lskip_loop_ok : forall t fuel pre rest, ~ In nul t -> length t <= fuel -> exists w, t = w ++ lskip t /\
  m_lskip_loop fuel (pre ++ t ++ nul :: rest) (length pre) = Ok (length pre + length w) /\
  (w = [] <-> match t with c :: _ => isspace c = false | [] => True end).
Proof.
  induction t as [|c t IH]; intros fuel pre rest N L; cbn [app].
  - exists []. split; [reflexivity|]. split; [|tauto]. destruct fuel; cbn -[ld]; rewrite ld_at; cbn -[ld]; rewrite ?Ascii.eqb_refl; cbn; f_equal; lia.
  - destruct fuel as [|f]; [cbn in L; lia|]. cbn -[ld lskip]. rewrite ld_at. cbn -[ld lskip].
    assert (E : Ascii.eqb c nul = false).
    { destruct (Ascii.eqb c nul) eqn:E; [|reflexivity]. apply Ascii.eqb_eq in E. subst. exfalso. apply N. now left. }
    rewrite E. cbn -[ld lskip]. unfold lskip. cbn [skip_space]. destruct (isspace c) eqn:Sp.
    + destruct (IH f (pre ++ [c]) rest) as (w & W1 & W2 & _); [intros I; apply N; now right|cbn in L; lia|].
      exists (c :: w). split; [cbn; f_equal; exact W1|]. split; [|split; discriminate].
      rewrite <- app_assoc in W2. cbn in W2. rewrite app_length in W2. cbn in W2. rewrite Nat.add_1_r in W2.
      rewrite W2. f_equal. cbn. lia.
    + exists []. split; [reflexivity|]. split; [f_equal; cbn; lia|tauto].
Qed.

Lemma m_lskip_ok : forall pre t rest, ~ In nul t -> exists w, t = w ++ lskip t /\
  m_lskip (pre ++ t ++ nul :: rest) (length pre) = Ok (length pre + length w) /\
  (w = [] <-> match t with c :: _ => isspace c = false | [] => True end).
Proof. intros. apply lskip_loop_ok; [assumption|]. rewrite !app_length. cbn. lia. Qed.

Lemma find_loop_ok : forall cs stop t fuel ws pre rest x q,
  (forall c, c <> nul -> stop c = match cs with None => false | Some l => strchr l c end) ->
  ~ In nul t -> length t <= fuel -> find_chars_or_comment ws stop t = (x, q) ->
  t = x ++ q /\ m_find_loop fuel ws cs (pre ++ t ++ nul :: rest) (length pre) = Ok (length pre + length x).
Proof.
  intros cs stop. induction t as [|c t IH]; intros fuel ws pre rest x q HS N L F; cbn [app].
  - cbn in F. inversion F; subst. split; [reflexivity|]. destruct fuel; cbn -[ld]; rewrite ld_at; cbn -[ld]; rewrite ?Ascii.eqb_refl; cbn; f_equal; lia.
  - destruct fuel as [|f]; [cbn in L; lia|]. cbn -[ld]. rewrite ld_at. cbn -[ld].
    assert (NC : c <> nul) by (intros ->; apply N; now left).
    assert (E : Ascii.eqb c nul = false) by now apply Ascii.eqb_neq.
    cbn in F. rewrite HS in F by assumption.
    replace (match cs with None => true | Some l => negb (strchr l c) end)
      with (negb (match cs with None => false | Some l => strchr l c end)) by (destruct cs; reflexivity).
    rewrite E. unfold strchr at 2. cbn [tx list_ascii_of_string existsb]. rewrite E, !orb_false_r. cbn -[ld].
    rewrite <- negb_orb.
    destruct (match cs with None => false | Some l => strchr l c end || ws && (c =? ";")%char)%bool eqn:D; cbn -[ld].
    + inversion F; subst. split; [reflexivity|]. f_equal. cbn. lia.
    + destruct (find_chars_or_comment (isspace c) stop t) as [x' q'] eqn:F'. inversion F; subst.
      destruct (IH f (isspace c) (pre ++ [c]) rest x' q HS) as (A & B); [intros I; apply N; now right|cbn in L; lia|exact F'|].
      split; [cbn; now f_equal|]. rewrite <- app_assoc in B. cbn in B. rewrite app_length in B. cbn in B. rewrite Nat.add_1_r in B.
      rewrite B. f_equal. cbn. lia.
Qed.

Lemma m_find_ok : forall cs stop t pre rest x q,
  (forall c, c <> nul -> stop c = match cs with None => false | Some l => strchr l c end) ->
  ~ In nul t -> find_chars_or_comment false stop t = (x, q) ->
  t = x ++ q /\ m_find cs (pre ++ t ++ nul :: rest) (length pre) = Ok (length pre + length x).
Proof. intros. eapply find_loop_ok; eauto. rewrite !app_length. cbn. lia. Qed.

Lemma strncpy_ok : forall n d1 d2 pre t rest, ~ In nul t -> n <= length d2 ->
  m_strncpy n (d1 ++ d2) (length d1) (pre ++ t ++ nul :: rest) (length pre) =
  Ok (d1 ++ firstn n t ++ repeat nul (n - length t) ++ skipn n d2).
Proof.
  induction n as [|n IH]; intros d1 d2 pre t rest N L; [reflexivity|].
  destruct d2 as [|a d2]; [cbn in L; lia|]. cbn [m_strncpy].
  destruct t as [|c t].
  - cbn [app]. rewrite ld_at. cbn [bind]. rewrite st_at. cbn [bind]. rewrite Ascii.eqb_refl.
    specialize (IH (d1 ++ [nul]) d2 pre [] rest N). rewrite <- app_assoc in IH. cbn [app] in IH. rewrite app_length in IH.
    cbn [length] in IH. rewrite Nat.add_1_r in IH. rewrite IH by (cbn in L; lia). cbn. rewrite firstn_nil, Nat.sub_0_r.
    now rewrite <- app_assoc.
  - cbn [app]. rewrite ld_at. cbn [bind]. rewrite st_at. cbn [bind].
    assert (E : Ascii.eqb c nul = false).
    { destruct (Ascii.eqb c nul) eqn:E; [|reflexivity]. apply Ascii.eqb_eq in E. subst. exfalso. apply N. now left. }
    rewrite E.
    specialize (IH (d1 ++ [c]) d2 (pre ++ [c]) t rest). rewrite <- !app_assoc in IH. cbn [app] in IH. rewrite !app_length in IH.
    cbn [length] in IH. rewrite !Nat.add_1_r in IH. rewrite IH; [|intros I; apply N; now right|cbn in L; lia].
    cbn. reflexivity.
Qed.

(** A 50-character array that holds a C string at its start. *)
Definition holds (b : chars) (t : text) : Prop := length b = 50 /\ ~ In nul t /\ exists z, b = t ++ nul :: z.

Lemma strncpy0_ok : forall d pre t rest, length d = 50 -> ~ In nul t ->
  exists d', m_strncpy0 d (pre ++ t ++ nul :: rest) (length pre) 50 = Ok d' /\ holds d' (strncpy0 t).
Proof.
  intros d pre t rest L N. unfold m_strncpy0. change (50 - 1) with 49.
  pose proof (strncpy_ok 49 [] d pre t rest N ltac:(lia)) as S1. cbn [app length] in S1. rewrite S1. cbn [bind]. clear S1.
  assert (D : exists c, skipn 49 d = [c]).
  { destruct (skipn 49 d) as [|c [|e r]] eqn:E; apply (f_equal (@length _)) in E; rewrite skipn_length in E; cbn in E; try lia.
    now exists c. }
  destruct D as [c D]. rewrite D.
  assert (Len : length (firstn 49 t ++ repeat nul (49 - length t)) = 49).
  { rewrite app_length, firstn_length, repeat_length. lia. }
  rewrite app_assoc. rewrite (st_at' _ (firstn 49 t ++ repeat nul (49 - length t)) c []) by (auto; lia).
  eexists. split; [reflexivity|]. unfold holds, strncpy0, name_max. split; [rewrite app_length, Len; reflexivity|].
  split; [intros I; apply N; rewrite <- (firstn_skipn 49 t); apply in_or_app; now left|].
  rewrite <- app_assoc. change ([nul]) with (nul :: @nil ascii). rewrite repeat_cons_app. eexists. reflexivity.
Qed.

Lemma holds_string : forall b t, holds b t -> string_at b 0 = Ok t.
Proof. intros b t (L & N & z & ->). apply (string_at_ok [] t z N). Qed.

Lemma holds_first : forall b t, holds b t -> ld b 0 = Ok (match t with c :: _ => c | [] => nul end).
Proof. intros b t (L & N & z & ->). destruct t as [|c t]; [apply (ld_at [] nul)|apply (ld_at [] c)]. Qed.

Lemma holds_clear : forall b t, holds b t -> exists b', st b 0 nul = Ok b' /\ holds b' [].
Proof.
  intros b t (L & N & z & ->). destruct t as [|c t].
  - exists (nul :: z). split; [apply (st_at [] nul)|]. repeat split; [exact L|intros []|now exists z].
  - exists (nul :: t ++ nul :: z). split; [apply (st_at [] c)|]. repeat split; [exact L|intros []|now exists (t ++ nul :: z)].
Qed.

Lemma cstr_split : forall x rest, exists rest', x ++ nul :: rest = cstr x ++ nul :: rest' /\ ~ In nul (cstr x).
Proof.
  induction x as [|c x IH]; intros rest; cbn; [exists rest; split; [reflexivity|intros []]|].
  destruct (Ascii.eqb c nul) eqn:E.
  - apply Ascii.eqb_eq in E. subst. exists (x ++ nul :: rest). split; [reflexivity|intros []].
  - destruct (IH rest) as (r & R1 & R2). exists r. split; [cbn; now rewrite R1|]. intros [->|I]; [rewrite Ascii.eqb_refl in E; discriminate|auto].
Qed.

Lemma stop_close : forall c, c <> nul -> is_close c = strchr (tx "]") c.
Proof. intros c N. unfold is_close, strchr. cbn. rewrite (proj2 (Ascii.eqb_neq c nul) N). now rewrite !orb_false_r. Qed.
Lemma stop_sep : forall c, c <> nul -> is_sep c = strchr (tx "=:") c.
Proof. intros c N. unfold is_sep, strchr. cbn. rewrite (proj2 (Ascii.eqb_neq c nul) N). now rewrite !orb_false_r. Qed.

Section Turn.
Context {U : Type}.
Variable h : U -> text -> text -> text -> U * bool.

(** The state on arrays [v] and the state on texts [p]; the line does not matter between turns. *)
Definition agree (v : vars (U:=U)) (p : pstate U) : Prop :=
  length (m_line v) = 200 /\ holds (m_section v) (p_section p) /\ holds (m_prev v) (p_prev p) /\
  m_lineno v = p_lineno p /\ m_error v = p_error p /\ m_user v = p_user p.

Lemma agree_error : forall v p, agree v p -> agree (m_set_error v) (set_error p).
Proof.
  intros v p (A & B & C & D & E & F). unfold agree, m_set_error, set_error; cbn. rewrite D, E. repeat split; auto; apply B || apply C.
Qed.

Lemma call_ok : forall v p nb ni n vb vi x, agree v p -> string_at nb ni = Ok n -> string_at vb vi = Ok x ->
  exists v', m_call h v nb ni vb vi = Ok v' /\ agree v' (call h p n x).
Proof.
  intros v p nb ni n vb vi x A N X. unfold m_call, call. destruct A as (L & Se & P & Li & Er & Us).
  rewrite (holds_string _ _ Se), N, X. cbn [bind]. rewrite Us. destruct (h (p_user p) (p_section p) n x) as [u ok].
  eexists. split; [reflexivity|].
  assert (A : agree (mkVars (m_line v) (m_section v) (m_prev v) (m_lineno v) (m_error v) u)
                    (mkP (p_section p) (p_prev p) (p_lineno p) (p_error p) u)) by (repeat split; cbn; auto; apply Se || apply P).
  destruct ok; [exact A|now apply agree_error].
Qed.

Lemma agree_line : forall v p b, agree v p -> length b = 200 -> agree (set_line v b) p.
Proof. intros v p b (A & B & C & D & E & F) L. repeat split; cbn; auto; apply B || apply C. Qed.

Lemma section_ok : forall v p pre r rest, agree v p -> m_line v = pre ++ "["%char :: r ++ nul :: rest -> ~ In nul r ->
  exists v', m_section_line v (length pre) = Ok v' /\
    agree v' (let '(x, q) := find_chars_or_comment false is_close r in
              match q with
              | e :: _ => if is_close e then mkP (strncpy0 x) [] (p_lineno p) (p_error p) (p_user p) else set_error p
              | [] => set_error p
              end).
Proof.
  intros v p pre r rest A LV N. unfold m_section_line.
  destruct (find_chars_or_comment false is_close r) as [x q] eqn:F.
  destruct (m_find_ok (Some (tx "]")) is_close r (pre ++ ["["%char]) rest x q stop_close N F) as [E M].
  rewrite <- app_assoc in M. cbn [app] in M. rewrite app_length in M. cbn [length] in M. rewrite Nat.add_1_r in M.
  rewrite LV, M. cbn [bind].
  destruct q as [|e q].
  - rewrite app_nil_r in E. subst x.
    rewrite (ld_at' _ (pre ++ "["%char :: r) nul rest) by (rewrite <- ?app_assoc; rewrite ?app_length; cbn; auto; lia). cbn [bind].
    change (Ascii.eqb nul "]") with false. cbn iota. eexists. split; [reflexivity|]. now apply agree_error.
  - assert (B : pre ++ "["%char :: r ++ nul :: rest = (pre ++ "["%char :: x) ++ e :: q ++ nul :: rest)
      by (rewrite E; rewrite <- app_assoc; cbn; rewrite <- app_assoc; reflexivity).
    assert (LE : S (length pre) + length x = length (pre ++ "["%char :: x)) by (rewrite app_length; cbn; lia).
    rewrite (ld_at' _ _ _ _ _ B LE). cbn [bind]. unfold is_close. destruct (Ascii.eqb e "]") eqn:Ec.
    + rewrite (st_at' _ _ _ _ nul _ B LE). cbn [bind].
      destruct A as (L & Se & P & Li & Er & Us).
      destruct (strncpy0_ok (m_section v) (pre ++ ["["%char]) x (q ++ nul :: rest)) as (d & D1 & D2);
        [apply Se|rewrite E in N; now apply not_in_app_l in N|].
      rewrite <- app_assoc in D1. cbn [app] in D1. rewrite app_length in D1. cbn [length] in D1. rewrite Nat.add_1_r in D1.
      rewrite <- app_assoc. cbn [app]. rewrite D1. cbn [bind].
      destruct (holds_clear _ _ P) as (pb & Q1 & Q2). rewrite Q1. cbn [bind].
      eexists. split; [reflexivity|]. unfold agree; cbn. repeat split; auto; try apply D2; try apply Q2.
      rewrite <- L, LV, E. rewrite !app_length. cbn. rewrite !app_length. cbn. rewrite !app_length. cbn. lia.
    + eexists. split; [reflexivity|]. now apply agree_error.
Qed.

Ltac len := repeat (rewrite ?app_length, ?repeat_length; cbn [length]); lia.
Ltac asc := repeat (rewrite <- ?app_assoc; cbn [app]); reflexivity.

Lemma pair_ok : forall v p pre t rest, agree v p -> m_line v = pre ++ t ++ nul :: rest -> ~ In nul t ->
  exists v', m_pair_line h v (length pre) = Ok v' /\
    agree v' (let '(x, q) := find_chars_or_comment false is_sep t in
              match q with
              | e :: y => if is_sep e then
                  call h (mkP (p_section p) (strncpy0 (rstrip x)) (p_lineno p) (p_error p) (p_user p)) (rstrip x)
                    (rstrip (lskip (fst (find_chars_or_comment false no_char y))))
                  else set_error p
              | [] => set_error p
              end).
Proof.
  intros v p pre t rest A LV N. unfold m_pair_line.
  destruct (find_chars_or_comment false is_sep t) as [x q] eqn:F.
  destruct (m_find_ok (Some (tx "=:")) is_sep t pre rest x q stop_sep N F) as [E M].
  rewrite LV, M. cbn [bind].
  destruct q as [|e y].
  - rewrite app_nil_r in E. subst x.
    rewrite (ld_at' _ (pre ++ t) nul rest) by (rewrite <- ?app_assoc; rewrite ?app_length; cbn; auto; lia). cbn [bind].
    change (Ascii.eqb nul "=" || Ascii.eqb nul ":")%bool with false. cbn iota. eexists. split; [reflexivity|]. now apply agree_error.
  - assert (B : pre ++ t ++ nul :: rest = (pre ++ x) ++ e :: y ++ nul :: rest) by (rewrite E; asc).
    assert (LE : length pre + length x = length (pre ++ x)) by len.
    rewrite (ld_at' _ _ _ _ _ B LE). cbn [bind]. unfold is_sep. destruct (Ascii.eqb e "=" || Ascii.eqb e ":")%bool eqn:Ec;
      [|eexists; split; [reflexivity|]; now apply agree_error].
    rewrite (st_at' _ _ _ _ nul _ B LE). cbn [bind]. rewrite <- app_assoc.
    rewrite E in N. pose proof (not_in_app_l _ _ _ N) as NX. pose proof (not_in_app_r _ _ _ N) as NY.
    assert (NY' : ~ In nul y) by (intros I; apply NY; now right).
    destruct (m_rstrip_ok pre x (y ++ nul :: rest) NX) as (z & R1 & R2).
    rewrite R1. cbn [bind].
    set (pre2 := pre ++ rstrip x ++ nul :: repeat nul z).
    assert (P2 : pre ++ rstrip x ++ nul :: repeat nul z ++ y ++ nul :: rest = pre2 ++ y ++ nul :: rest) by (unfold pre2; asc).
    rewrite P2.
    assert (L2 : S (length pre + length x) = length pre2) by (unfold pre2; len).
    rewrite L2.
    destruct (find_chars_or_comment false no_char y) as [y1 q2] eqn:F2.
    destruct (m_find_ok None no_char y pre2 rest y1 q2 (fun c _ => eq_refl) NY' F2) as [E2 M2].
    rewrite M2. cbn [bind fst].
    pose proof NY' as NY2. rewrite E2 in NY2. pose proof (not_in_app_l _ _ _ NY2) as NY1. clear NY2.
    assert (CUT : exists c2 rest2, ld (pre2 ++ y ++ nul :: rest) (length pre2 + length y1) = Ok c2 /\
      (if Ascii.eqb c2 nul then @Ok chars (pre2 ++ y ++ nul :: rest) else st (pre2 ++ y ++ nul :: rest) (length pre2 + length y1) nul) =
      Ok (pre2 ++ y1 ++ nul :: rest2) /\ length (pre2 ++ y1 ++ nul :: rest2) = length (pre2 ++ y ++ nul :: rest)).
    { destruct q2 as [|d q2].
      - rewrite app_nil_r in E2. subst y1. exists nul, rest. split; [|rewrite Ascii.eqb_refl; split; reflexivity].
        apply (ld_at' _ (pre2 ++ y) nul rest); [asc|len].
      - assert (B2 : pre2 ++ y ++ nul :: rest = (pre2 ++ y1) ++ d :: q2 ++ nul :: rest) by (rewrite E2; asc).
        assert (LE2 : length pre2 + length y1 = length (pre2 ++ y1)) by len.
        exists d, (q2 ++ nul :: rest). split; [now apply (ld_at' _ _ _ _ _ B2)|].
        destruct (Ascii.eqb d nul) eqn:D.
        + apply Ascii.eqb_eq in D. exfalso. apply NY'. rewrite E2, D. apply in_or_app. right. now left.
        + rewrite (st_at' _ _ _ _ nul _ B2 LE2). split; [f_equal; asc|]. rewrite B2. len. }
    destruct CUT as (c2 & rest2 & C1 & C2 & C3). rewrite C1. cbn [bind]. rewrite C2. cbn [bind]. clear C1 C2.
    destruct (m_lskip_ok pre2 y1 rest2 NY1) as (w & W1 & W2 & _). rewrite W2. cbn [bind].
    pose proof NY1 as NL. rewrite W1 in NL. apply not_in_app_r in NL.
    destruct (m_rstrip_ok (pre2 ++ w) (lskip y1) rest2 NL) as (z2 & S1 & S2).
    assert (B3 : pre2 ++ y1 ++ nul :: rest2 = (pre2 ++ w) ++ lskip y1 ++ nul :: rest2) by (rewrite W1 at 1; asc).
    rewrite B3. rewrite app_length in S1. rewrite S1. cbn [bind]. clear S1.
    assert (B4 : (pre2 ++ w) ++ rstrip (lskip y1) ++ nul :: repeat nul z2 ++ rest2 =
      pre ++ rstrip x ++ nul :: (repeat nul z ++ w ++ rstrip (lskip y1) ++ nul :: repeat nul z2 ++ rest2)) by (unfold pre2; asc).
    pose proof A as (L & Se & P & Li & Er & Us).
    destruct (strncpy0_ok (m_prev v) pre (rstrip x) (repeat nul z ++ w ++ rstrip (lskip y1) ++ nul :: repeat nul z2 ++ rest2)) as (d & D1 & D2);
      [apply P|now apply rstrip_no_nul|].
    rewrite <- B4 in D1. rewrite D1. cbn [bind].
    apply (call_ok _ (mkP (p_section p) (strncpy0 (rstrip x)) (p_lineno p) (p_error p) (p_user p))).
    + unfold agree; cbn. repeat split; auto; try apply Se; try apply D2.
      assert (LL : length (lskip y1) + length w = length y1) by (rewrite W1 at 2; len).
      transitivity (length (pre2 ++ y1 ++ nul :: rest2)).
      { rewrite B3. clear -S2. len. }
      rewrite C3, <- P2, <- L, LV, E. clear -R2. len.
    + rewrite B4. apply string_at_ok. now apply rstrip_no_nul.
    + apply (string_at_ok' _ _ (pre2 ++ w) (rstrip (lskip y1)) (repeat nul z2 ++ rest2)); [reflexivity|len|now apply rstrip_no_nul].
Qed.

Lemma bom_ok : forall (v : vars (U:=U)) t rest, m_line v = t ++ nul :: rest -> ~ In nul t ->
  m_bom v = Ok (if ((m_lineno v =? 1)%Z && is_bom t)%bool then 3 else 0).
Proof.
  intros v t rest LV N. unfold m_bom. destruct (m_lineno v =? 1)%Z; [|reflexivity]. rewrite LV. cbn [andb].
  destruct t as [|a t]; [reflexivity|]. cbn [app]. change (ld (a :: t ++ nul :: rest) 0) with (Ok a). cbn [bind is_bom].
  destruct t as [|b t]; [change (ld (a :: [] ++ nul :: rest) 1) with (Ok nul); cbn [bind]; change (code nul =? 187)%Z with false; destruct (code a =? 239)%Z; reflexivity|].
  cbn [app]. change (ld (a :: b :: t ++ nul :: rest) 1) with (Ok b). cbn [bind].
  destruct t as [|c t].
  - change (ld (a :: b :: [] ++ nul :: rest) 2) with (Ok nul). cbn [bind]. change (code nul =? 191)%Z with false. destruct (code a =? 239)%Z, (code b =? 187)%Z; reflexivity.
  - cbn [app]. change (ld (a :: b :: c :: t ++ nul :: rest) 2) with (Ok c). cbn [bind].
    destruct (code a =? 239)%Z, (code b =? 187)%Z, (code c =? 191)%Z; reflexivity.
Qed.

Lemma strchr_comment : forall c, c <> nul -> strchr (tx ";#") c = (Ascii.eqb c ";" || Ascii.eqb c "#")%bool.
Proof. intros c N. unfold strchr. cbn. rewrite (proj2 (Ascii.eqb_neq c nul) N). now rewrite !orb_false_r. Qed.

Lemma turn_ok : forall v p x rest, agree v p -> m_line v = x ++ nul :: rest ->
  exists v', m_turn h v = Ok v' /\ agree v' (parse_line h p x).
Proof.
  intros v p x rest A LV.
  destruct (cstr_split x rest) as (rest' & B & N). rewrite B in LV. clear B rest.
  unfold m_turn, parse_line, classify.
  set (v1 := mkVars (m_line v) (m_section v) (m_prev v) (m_lineno v + 1) (m_error v) (m_user v)).
  set (p1 := mkP (p_section p) (p_prev p) (p_lineno p + 1) (p_error p) (p_user p)).
  assert (A1 : agree v1 p1).
  { destruct A as (L & Se & P & Li & Er & Us). unfold agree; cbn. rewrite Li. repeat split; auto; apply Se || apply P. }
  rewrite (bom_ok v1 (cstr x) rest') by assumption. cbn [bind].
  set (t := cstr x) in *. clearbody t. clear x.
  replace (m_lineno v1) with (p_lineno p1) by (symmetry; apply A1).
  change (m_line v1) with (m_line v). clearbody p1.
  set (bom := ((p_lineno p1 =? 1)%Z && is_bom t)%bool).
  set (start0 := if bom then skipn 3 t else t).
  assert (ST : exists pre, t = pre ++ start0 /\ length pre = (if bom then 3 else 0)).
  { unfold start0. destruct bom eqn:Eb; [|exists []; split; reflexivity].
    unfold bom in Eb. apply andb_prop in Eb as [_ Eb]. destruct t as [|a [|b [|c t]]]; try discriminate.
    exists [a; b; c]. split; reflexivity. }
  destruct ST as (pre & T0 & LP). rewrite <- LP.
  assert (N0 : ~ In nul start0) by (rewrite T0 in N; now apply not_in_app_r in N).
  rewrite LV. replace (t ++ nul :: rest') with (pre ++ start0 ++ nul :: rest') by (rewrite T0; asc).
  destruct (m_rstrip_ok pre start0 rest' N0) as (z & R1 & R2). rewrite R1. cbn [bind].
  assert (NR : ~ In nul (rstrip start0)) by now apply rstrip_no_nul.
  destruct (m_lskip_ok pre (rstrip start0) (repeat nul z ++ rest') NR) as (w & W1 & W2 & W3). rewrite W2. cbn [bind].
  set (start := lskip (rstrip start0)) in *.
  set (b := pre ++ rstrip start0 ++ nul :: repeat nul z ++ rest') in *.
  assert (Bb : b = (pre ++ w) ++ start ++ nul :: repeat nul z ++ rest') by (unfold b; rewrite W1 at 1; asc).
  assert (LB : length b = 200).
  { destruct A as (L & _). rewrite <- L, LV, T0. unfold b. clear -R2. len. }
  assert (A2 : agree (set_line v1 b) p1) by now apply agree_line.
  assert (NS : ~ In nul start) by (rewrite W1 in NR; now apply not_in_app_r in NR).
  assert (LS : length pre + length w = length (pre ++ w)) by len.
  rewrite LS.
  destruct start as [|c r] eqn:ES.
  - rewrite (ld_at' b (pre ++ w) nul (repeat nul z ++ rest')) by auto. cbn [bind]. change (strchr (tx ";#") nul) with true. cbn iota.
    eexists. split; [reflexivity|exact A2].
  - rewrite (ld_at' b (pre ++ w) c (r ++ nul :: repeat nul z ++ rest')) by auto. cbn [bind].
    assert (NC : c <> nul) by (intros ->; apply NS; now left).
    rewrite strchr_comment by assumption. destruct (Ascii.eqb c ";" || Ascii.eqb c "#")%bool; [eexists; split; [reflexivity|exact A2]|].
    pose proof A1 as (_ & Se & P & _). change (m_prev (set_line v1 b)) with (m_prev v1). rewrite (holds_first _ _ P). cbn [bind].
    rewrite (proj2 (Ascii.eqb_neq c nul) NC). cbn [negb andb]. rewrite andb_true_r.
    assert (IND : (0 <? length (pre ++ w)) = (bom || match start0 with d :: _ => isspace d | [] => false end)%bool).
    { assert (HD : match start0 with d :: _ => isspace d | [] => false end = match rstrip start0 with d :: _ => isspace d | [] => false end).
      { destruct (rstrip_prefix start0) as [k K]. destruct (rstrip start0) as [|d k2] eqn:E0.
        - exfalso. destruct w; discriminate.
        - rewrite K. reflexivity. }
      rewrite HD. rewrite app_length, LP. destruct bom; [reflexivity|]. cbn [Nat.add orb].
      destruct (rstrip start0) as [|d k2] eqn:E0; [exfalso; destruct w; discriminate|].
      destruct w as [|a w']; cbn.
      - symmetry. now apply W3.
      - destruct (isspace d); [reflexivity|]. exfalso. assert (X : a :: w' = []) by now apply W3. discriminate. }
    rewrite IND.
    assert (PV : negb (Ascii.eqb match p_prev p1 with [] => nul | c0 :: _ => c0 end nul) = match p_prev p1 with [] => false | _ :: _ => true end).
    { destruct P as (_ & NP & _). destruct (p_prev p1) as [|d k]; [reflexivity|].
      rewrite (proj2 (Ascii.eqb_neq d nul)); [reflexivity|]. intros ->. apply NP. now left. }
    rewrite PV.
    destruct (match p_prev p1 with [] => false | _ :: _ => true end && (bom || match start0 with d :: _ => isspace d | [] => false end))%bool.
    + apply call_ok; [exact A2|now apply holds_string|]. apply (string_at_ok' _ _ (pre ++ w) (c :: r) (repeat nul z ++ rest')); auto.
    + destruct (Ascii.eqb c "[") eqn:EB.
      * apply Ascii.eqb_eq in EB. subst c.
        destruct (section_ok (set_line v1 b) p1 (pre ++ w) r (repeat nul z ++ rest') A2) as (v' & V1 & V2);
          [exact Bb|intros I; apply NS; now right|].
        exists v'. split; [exact V1|]. destruct (find_chars_or_comment false is_close r) as [x0 [|e q]]; [exact V2|].
        destruct (is_close e); exact V2.
      * destruct (pair_ok (set_line v1 b) p1 (pre ++ w) (c :: r) (repeat nul z ++ rest') A2 Bb NS) as (v' & V1 & V2).
        exists v'. split; [exact V1|]. destruct (find_chars_or_comment false is_sep (c :: r)) as [x0 [|e q]]; [exact V2|].
        destruct (is_sep e); exact V2.
Qed.
End Turn.

Lemma fgets_length : forall n t x q, fgets n t = (x, q) -> length x <= n.
Proof.
  induction n as [|n IH]; intros t x q F; cbn in F; [inversion F; cbn; lia|].
  destruct t as [|c t]; [inversion F; cbn; lia|].
  destruct (Ascii.eqb c newline); [inversion F; cbn; lia|]. destruct (fgets n t) as [x' q'] eqn:E. inversion F; subst. cbn.
  specialize (IH _ _ _ E). lia.
Qed.

Lemma fgets_loop_ok : forall n d1 d2 f x q, fgets n f = (x, q) -> n <= length d2 ->
  fgets_loop n (d1 ++ d2) (length d1) f = Ok (d1 ++ x ++ skipn (length x) d2, length d1 + length x, q).
Proof.
  induction n as [|n IH]; intros d1 d2 f x q F L; cbn in F; [inversion F; subst; cbn; now rewrite Nat.add_0_r|].
  destruct f as [|c f]; [inversion F; subst; cbn; now rewrite Nat.add_0_r|].
  destruct d2 as [|a d2]; [cbn in L; lia|].
  cbn [fgets_loop]. rewrite st_at. cbn [bind].
  destruct (Ascii.eqb c newline); [inversion F; subst; cbn; rewrite Nat.add_1_r; reflexivity|].
  destruct (fgets n f) as [x' q'] eqn:E. inversion F; subst.
  specialize (IH (d1 ++ [c]) d2 f x' q E). rewrite <- app_assoc in IH. cbn [app] in IH. rewrite app_length in IH. cbn [length] in IH.
  rewrite Nat.add_1_r in IH. rewrite IH by (cbn in L; lia). rewrite <- app_assoc. cbn. now rewrite Nat.add_succ_r.
Qed.

Lemma after_read : forall (b : chars) x, length b = 200 -> length x <= 199 -> exists rest,
  st (x ++ skipn (length x) b) (length x) nul = Ok (x ++ nul :: rest) /\ length (x ++ nul :: rest) = 200.
Proof.
  intros b x L LX. destruct (skipn (length x) b) as [|c r] eqn:E.
  - apply (f_equal (@length _)) in E. rewrite skipn_length in E. cbn in E. lia.
  - exists r. split; [apply st_at|]. apply (f_equal (@length _)) in E. rewrite skipn_length in E. cbn in E.
    rewrite app_length. cbn. lia.
Qed.

Lemma m_fgets_ok : forall b f x q, length b = 200 -> f <> [] -> fgets 199 f = (x, q) -> exists rest,
  m_fgets b 200 f = Ok (Some (x ++ nul :: rest, q)) /\ length (x ++ nul :: rest) = 200.
Proof.
  intros b f x q L NE F. unfold m_fgets. destruct f as [|c f]; [congruence|].
  pose proof (fgets_loop_ok 199 [] b (c :: f) x q F ltac:(lia)) as G. cbn [app length] in G. change (200 - 1) with 199.
  rewrite G. cbn [bind Nat.add].
  destruct (after_read b x L (fgets_length _ _ _ _ F)) as (rest & R1 & R2). rewrite R1. cbn [bind]. now exists rest.
Qed.

Lemma string_loop_step : forall n b i m p l, string_loop (S (S n)) b i (mkCtx m p (S l)) =
  (let* c := ld m p in
   let* b' := st b i c in
   if Ascii.eqb c newline then Ok (b', S i, mkCtx m (S p) l) else string_loop (S n) b' (S i) (mkCtx m (S p) l)).
Proof. reflexivity. Qed.

Lemma string_loop_ok : forall n d1 d2 done t tail x q, fgets n t = (x, q) -> n <= length d2 ->
  string_loop (S n) (d1 ++ d2) (length d1) (mkCtx (done ++ t ++ tail) (length done) (length t)) =
  Ok (d1 ++ x ++ skipn (length x) d2, length d1 + length x,
      mkCtx (done ++ t ++ tail) (length done + length x) (length q)).
Proof.
  induction n as [|n IH]; intros d1 d2 done t tail x q F L; cbn in F; [inversion F; subst; cbn; now rewrite !Nat.add_0_r|].
  destruct t as [|c t]; [inversion F; subst; cbn; now rewrite !Nat.add_0_r|].
  destruct d2 as [|a d2]; [cbn in L; lia|].
  cbn [length app]. rewrite string_loop_step. rewrite ld_at. cbn [bind]. rewrite st_at. cbn [bind].
  destruct (Ascii.eqb c newline); [inversion F; subst; cbn; rewrite !Nat.add_1_r; reflexivity|].
  destruct (fgets n t) as [x' q'] eqn:E. inversion F; subst.
  specialize (IH (d1 ++ [c]) d2 (done ++ [c]) t tail x' q E). rewrite <- !app_assoc in IH. cbn [app] in IH. rewrite !app_length in IH. cbn [length] in IH.
  rewrite !Nat.add_1_r in IH. rewrite IH by (cbn in L; lia). rewrite <- ?app_assoc. cbn. now rewrite !Nat.add_succ_r.
Qed.

Lemma reader_string_ok : forall b done t tail x q, length b = 200 -> t <> [] -> fgets 199 t = (x, q) -> exists rest,
  ini_reader_string b 200 (mkCtx (done ++ t ++ tail) (length done) (length t)) =
    Ok (Some (x ++ nul :: rest, mkCtx ((done ++ x) ++ q ++ tail) (length (done ++ x)) (length q))) /\
  length (x ++ nul :: rest) = 200.
Proof.
  intros b done t tail x q L NE F. unfold ini_reader_string. cbn [x_left].
  replace ((length t =? 0) || (200 <? 2))%bool with false by (destruct t; [congruence|reflexivity]).
  pose proof (string_loop_ok 199 [] b done t tail x q F ltac:(lia)) as G. cbn [app length] in G.
  rewrite G. cbn [bind Nat.add].
  destruct (after_read b x L (fgets_length _ _ _ _ F)) as (rest & R1 & R2). rewrite R1. cbn [bind]. exists rest. split; [|assumption].
  rewrite (fgets_split _ _ _ _ F), <- !app_assoc, app_length. reflexivity.
Qed.

Section Loop.
Context {U Str : Type}.
Variable h : U -> text -> text -> text -> U * bool.
Variable reader : chars -> nat -> Str -> res (option (chars * Str)).
(** The stream [s] has the text [t] in front of it. *)
Variable left : Str -> text -> Prop.
Hypothesis at_end : forall b s, length b = 200 -> left s [] -> reader b 200 s = Ok None.
Hypothesis reads : forall b s t x q, length b = 200 -> t <> [] -> left s t -> fgets 199 t = (x, q) ->
  exists rest s', reader b 200 s = Ok (Some (x ++ nul :: rest, s')) /\ length (x ++ nul :: rest) = 200 /\ left s' q.

Lemma loop_ok : forall fuel t v p s, length t < fuel -> agree v p -> left s t ->
  exists v', m_loop h reader fuel v s = Ok v' /\ agree v' (fold_left (parse_line h) (lines t) p).
Proof.
  induction fuel as [|f IH]; intros t v p s L A LS; [lia|]. cbn [m_loop]. destruct t as [|c t0].
  - rewrite at_end by (auto; apply A). cbn [bind]. exists v. split; [reflexivity|exact A].
  - set (t := c :: t0) in *. destruct (fgets 199 t) as [x q] eqn:F.
    destruct (reads (m_line v) s t x q) as (rest & s' & R1 & R2 & R3); [apply A|discriminate|exact LS|exact F|].
    rewrite R1. cbn [bind].
    destruct (turn_ok h (set_line v (x ++ nul :: rest)) p x rest) as (v' & V1 & V2); [now apply agree_line|reflexivity|].
    rewrite V1. cbn [bind].
    rewrite lines_step by discriminate. unfold line_max. rewrite F. cbn [fold_left].
    apply IH; [|exact V2|exact R3]. assert (G : (length q < length t)%nat) by (apply (fgets_progress 198 t x q F); discriminate).
    change (length t < S f)%nat in L. clear -G L. cbn [snd].
    lia.
Qed.

Lemma parse_stream_ok : forall fuel garbage t s u, length garbage = 200 -> length t < fuel -> left s t ->
  m_parse_stream h reader fuel garbage s u = Ok (parse h t u).
Proof.
  intros fuel garbage t s u G L LS. unfold m_parse_stream.
  assert (A : agree (mkVars garbage (repeat nul 50) (repeat nul 50) 0 0 u) (mkP [] [] 0 0 u)).
  { assert (E : holds (repeat nul 50) []).
    { split; [reflexivity|]. split; [intros []|]. now exists (repeat nul 49). }
    repeat split; cbn; auto; apply E. }
  destruct (loop_ok fuel t _ _ s L A LS) as (v' & V1 & V2). rewrite V1. cbn [bind]. unfold parse.
  destruct V2 as (_ & _ & _ & _ & Er & Us). now rewrite Er, Us.
Qed.
End Loop.

Lemma parse_file_ok : forall {U} (h : U -> text -> text -> text -> U * bool) garbage t u, length garbage = 200 ->
  m_parse_file h garbage t u = Ok (parse h t u).
Proof.
  intros U h garbage t u G. apply (parse_stream_ok h m_fgets (fun s t => s = t)); auto.
  - intros b s _ ->. reflexivity.
  - intros b s t0 x q L NE -> F. destruct (m_fgets_ok b t0 x q L NE F) as (rest & R1 & R2). exists rest, q. auto.
Qed.

Lemma parse_string_ok : forall {U} (h : U -> text -> text -> text -> U * bool) garbage t tail u, length garbage = 200 -> ~ In nul t ->
  m_parse_string h garbage (t ++ nul :: tail) u = Ok (parse h t u).
Proof.
  intros U h garbage t tail u G N. unfold m_parse_string, strlen.
  pose proof (string_at_ok [] t tail N) as E. cbn [app length] in E. rewrite E. cbn [bind]. clear E.
  apply (parse_stream_ok h ini_reader_string
    (fun s r => exists done, s = mkCtx (done ++ r ++ nul :: tail) (length done) (length r))); auto; [| |now exists []].
  - intros b s _ (done & ->). reflexivity.
  - intros b s t0 x q L NE (done & ->) F. destruct (reader_string_ok b done t0 (nul :: tail) x q L NE F) as (rest & R1 & R2).
    exists rest. eexists. split; [exact R1|]. split; [exact R2|]. now exists (done ++ x).
Qed.
