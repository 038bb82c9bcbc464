(** * Properties of the parameter file: C69, C70, C87, C89 *)
From Coq Require Import String ZArith List Bool Ascii Lia NArith Reals Lra FinFun.
From Verif Require Import Num RNum MCFacts Outcome Vec Units Output OutFacts Text Ini IniReader IniFacts SpecIni
  SpecNumeral NumeralFacts PropsIni PropsValues FileParser.
Import ListNotations.
Local Open Scope Z_scope.

(** A call that returns or ends the program with code 1. *)
Definition ok_or_exit {A} (x : res A) : Prop := (exists a, x = Ok a) \/ x = Exit 1.

Lemma bind_ok_or_exit : forall {A B} (x : res A) (f : A -> res B),
  ok_or_exit x -> (forall a, x = Ok a -> ok_or_exit (f a)) -> ok_or_exit (let* a := x in f a).
Proof.
  intros A B x f [[a ->]| ->] H; simpl; [now apply H|now right].
Qed.

Lemma ok_is_ok_or_exit : forall {A} (a : A), ok_or_exit (Ok a).
Proof. intros. left. eauto. Qed.

Lemma tx_inj : forall a b, tx a = tx b -> a = b.
Proof.
  intros a b E. rewrite <- (string_of_list_ascii_of_string a), <- (string_of_list_ascii_of_string b).
  unfold tx in E. now rewrite E.
Qed.

Lemma tx_app : forall a b, tx (a ++ b)%string = tx a ++ tx b.
Proof. induction a as [|c a IH]; intros b; [reflexivity|]. simpl. unfold tx in *. simpl. now rewrite IH. Qed.

Lemma has_section_in : forall r name, has_section r name = true <-> In (tx name) (r_sections r).
Proof. intros. apply existsb_teqb. Qed.

Lemma section_name_inj : forall prefix i j,
  tx (prefix ++ to_string i)%string = tx (prefix ++ to_string j)%string -> i = j.
Proof.
  intros prefix i j E. rewrite !tx_app in E. apply app_inv_head in E. apply tx_inj in E.
  now apply to_string_inj.
Qed.

Section Numbered.
Context {A : Type}.
Variable r : reader.
Variable one : string -> res A.
Variable prefix : string.

Definition numbered (i : nat) : string := (prefix ++ to_string i)%string.

Lemma numbered_ok : forall fuel i l, read_numbered r one prefix fuel i = Ok l ->
  (forall j, (j < length l)%nat -> In (tx (numbered (i + j))) (r_sections r) /\
     exists a, nth_error l j = Some a /\ one (numbered (i + j)) = Ok a) /\
  ~ In (tx (numbered (i + length l))) (r_sections r).
Proof.
  induction fuel as [|f IH]; intros i l E; cbn [read_numbered] in E; [discriminate|].
  cbv zeta in E. fold (numbered i) in E.
  destruct (has_section r (numbered i)) eqn:Hs.
  - destruct (one (numbered i)) as [a| | | |] eqn:E1; try discriminate. cbn [bind] in E.
    destruct (read_numbered r one prefix f (S i)) as [l'| | | |] eqn:E2; try discriminate.
    cbn [bind] in E. inversion E; subst. destruct (IH _ _ E2) as [P Q]. split.
    + intros [|j] Hj.
      * rewrite Nat.add_0_r. split; [now apply has_section_in|]. exists a. auto.
      * cbn [length] in Hj. replace (i + S j)%nat with (S i + j)%nat by lia. apply P. lia.
    + cbn [length]. replace (i + S (length l'))%nat with (S i + length l')%nat by lia. exact Q.
  - inversion E; subst. split; [intros j Hj; simpl in Hj; lia|]. cbn [length]. rewrite Nat.add_0_r.
    intros K. apply has_section_in in K. congruence.
Qed.

Lemma numbered_fuel : forall fuel i, (forall s, ok_or_exit (one s)) ->
  ok_or_exit (read_numbered r one prefix fuel i) \/
  (read_numbered r one prefix fuel i = Fuel /\
   forall j, (j < fuel)%nat -> In (tx (numbered (i + j))) (r_sections r)).
Proof.
  intros fuel i H1. revert i. induction fuel as [|f IH]; intros i; cbn [read_numbered].
  - right. split; [reflexivity|]. intros j Hj. lia.
  - cbv zeta. fold (numbered i). destruct (has_section r (numbered i)) eqn:Hs.
    + destruct (H1 (numbered i)) as [[a ->]| ->]; [|left; now right]. cbn [bind].
      destruct (IH (S i)) as [[[l ->]| ->]|[-> P]].
      * left. left. cbn [bind]. eauto.
      * left. now right.
      * right. split; [reflexivity|]. intros [|j] Hj.
        { rewrite Nat.add_0_r. now apply has_section_in. }
        { replace (i + S j)%nat with (S i + j)%nat by lia. apply P. lia. }
    + left. left. eauto.
Qed.

Lemma numbered_total : (forall s, ok_or_exit (one s)) ->
  ok_or_exit (read_numbered r one prefix (S (length (r_sections r))) 1).
Proof.
  intros H1. destruct (numbered_fuel (S (length (r_sections r))) 1 H1) as [H|[_ P]]; auto. exfalso.
  assert (L : (length (map (fun j => tx (numbered (1 + j))) (seq 0 (S (length (r_sections r)))))
               <= length (r_sections r))%nat).
  { apply NoDup_incl_length.
    - apply Injective_map_NoDup; [|apply seq_NoDup].
      intros a b E. apply section_name_inj in E. lia.
    - intros x I. apply in_map_iff in I. destruct I as [j [<- I]]. apply in_seq in I. apply P. lia. }
  rewrite map_length, seq_length in L. lia.
Qed.
End Numbered.

Lemma sections_events : forall t s, In s (r_sections (reader_of t)) <-> exists n v, In (s, n, v) (events t).
Proof.
  intros t s. rewrite reader_of_events.
  assert (G : forall evs r, In s (r_sections (fold_left (apply_event value_handler) evs r)) <->
     In s (r_sections r) \/ exists n v, In (s, n, v) evs).
  { induction evs as [|[[s' n'] v'] evs IH]; intros r; cbn [fold_left].
    - split; [tauto|]. intros [E|(n & v & [])]. exact E.
    - rewrite IH. cbn [apply_event value_handler fst r_sections].
      destruct (existsb (teqb s') (r_sections r)) eqn:Ex.
      + apply existsb_teqb in Ex. split.
        * intros [E|(n & v & E)]; [now left|]. right. exists n, v. now right.
        * intros [E|(n & v & [E|E])]; [now left| |right; eauto]. inversion E; subst. now left.
      + rewrite in_app_iff. split.
        * intros [[E|[E|[]]]|(n & v & E)]; [now left| |]; right; [exists n', v'; left; now subst|].
          exists n, v. now right.
        * intros [E|(n & v & [E|E])]; [left; now left| |right; eauto]. inversion E; subst. left. right. now left. }
  rewrite G. simpl. split; [intros [[]|E]; exact E|auto].
Qed.

Section Total.
Context {T : Type} `{Num T}.
Variable special : text -> T.

Lemma vect_total : forall r sec n, ok_or_exit (vect (T := T) r sec n).
Proof. intros. apply C67_total. Qed.

Lemma read_particle_total : forall r u sec, ok_or_exit (read_particle special r u sec).
Proof.
  intros. unfold read_particle. apply bind_ok_or_exit; [apply vect_total|]. intros pos _.
  apply bind_ok_or_exit; [apply vect_total|]. intros dir _. apply ok_is_ok_or_exit.
Qed.

Lemma read_all_total : forall r, ok_or_exit (read_all special r).
Proof.
  intros r. unfold read_all. apply bind_ok_or_exit.
  { unfold check_vitals. repeat match goal with |- ok_or_exit (if ?b then _ else _) => destruct b end;
      try (now right). apply ok_is_ok_or_exit. }
  intros _ _. apply bind_ok_or_exit.
  { unfold read_general. apply bind_ok_or_exit; [|intros; apply ok_is_ok_or_exit].
    unfold units_system. destruct (_ || _)%bool; [apply ok_is_ok_or_exit|now right]. }
  intros ug _. apply bind_ok_or_exit.
  { unfold read_field. destruct (has_section r "Field"); [|apply ok_is_ok_or_exit]. cbv zeta.
    repeat match goal with |- ok_or_exit (if ?b then _ else _) => destruct b end; try (now right);
      repeat (apply bind_ok_or_exit; [apply vect_total|intros]); apply ok_is_ok_or_exit. }
  intros f _. apply bind_ok_or_exit.
  { apply numbered_total. intros. apply read_particle_total. }
  intros ps _. cbv zeta. apply bind_ok_or_exit.
  { apply numbered_total. intros. apply ok_is_ok_or_exit. }
  intros hs _. apply ok_is_ok_or_exit.
Qed.

(** Reading a file always ends: with parameters or with exit code 1. *)
Theorem C70_reader_total : forall p, ok_or_exit (file_parser special p).
Proof.
  intros p. unfold file_parser. apply bind_ok_or_exit.
  - destruct p; [now right|apply ok_is_ok_or_exit].
  - intros x _. apply read_all_total.
Qed.

(** ** Sections are the exact names under which settings occur *)

Lemma file_parser_file : forall t, file_parser special (Present (Some t)) = read_all special (reader_of t).
Proof. reflexivity. Qed.

(** ** C70: what must be there *)
Theorem C70_mandatory_settings : forall t,
  (~ (exists n v, In (tx "General", n, v) (events t)) \/
   Exists (fun key => Forall (fun e => ~ same_setting (tx "General") (tx key) e) (events t))
     ["time_step"; "time_end"; "units"]%string) ->
  file_parser special (Present (Some t)) = Exit 1.
Proof.
  intros t C. rewrite file_parser_file. unfold read_all.
  assert (V : check_vitals (reader_of t) = Exit 1).
  { unfold check_vitals. destruct C as [C|C].
    - destruct (has_section (reader_of t) "General") eqn:E; [|reflexivity].
      apply has_section_in in E. apply sections_events in E. contradiction.
    - assert (M : forall key, ~ In "="%char (tx key) ->
         Forall (fun e => ~ same_setting (tx "General") (tx key) e) (events t) ->
         has (reader_of t) "General" key = false).
      { intros key Hk F. unfold has.
        apply (C66_repeated_keys_accumulate t (tx "General") (tx key) [] [] Hk). now apply select_none. }
      destruct (has_section (reader_of t) "General"); [|reflexivity]. cbn [negb].
      inversion C as [? ? F|? ? C1]; subst.
      { rewrite M; auto. vm_compute. intuition discriminate. }
      destruct (has (reader_of t) "General" "time_step"); [|reflexivity]. cbn [negb].
      inversion C1 as [? ? F|? ? C2]; subst.
      { rewrite M; auto. vm_compute. intuition discriminate. }
      destruct (has (reader_of t) "General" "time_end"); [|reflexivity]. cbn [negb].
      inversion C2 as [? ? F|? ? C3]; subst.
      { rewrite M; auto. vm_compute. intuition discriminate. }
      inversion C3. }
  now rewrite V.
Qed.

(** Conversely the settings reach the simulation only if they are there, the
    units are SI and the field type, if there is a section Field, is known. *)
Theorem C70_accepted_files : forall p ps, file_parser special p = Ok ps ->
  exists t, p = Present (Some t) /\
    (exists n v, In (tx "General", n, v) (events t)) /\
    Forall (fun key => exists e, In e (events t) /\ same_setting (tx "General") (tx key) e)
      ["time_step"; "time_end"; "units"]%string /\
    (g_units (in_general ps) = "SI"%string \/ g_units (in_general ps) = "si"%string) /\
    ((exists n v, In (tx "Field", n, v) (events t)) <-> in_field ps <> NoField).
Proof.
  intros p ps E. destruct p as [|[t|]]; [discriminate| |].
  2: { exfalso. unfold file_parser, read_all in E. cbn in E. discriminate. }
  exists t. split; [reflexivity|]. rewrite file_parser_file in E. unfold read_all in E.
  assert (M : forall key, ~ In "="%char (tx key) -> has (reader_of t) "General" key = true ->
         exists e, In e (events t) /\ same_setting (tx "General") (tx key) e).
  { intros key Hk Hh.
    assert (D : forall e, {same_setting (tx "General") (tx key) e} + {~ same_setting (tx "General") (tx key) e}).
    { intros e. unfold same_setting, same_letters.
      destruct (list_eq_dec ascii_dec (map tolower (fst (fst e))) (map tolower (tx "General")));
        [|right; tauto].
      destruct (list_eq_dec ascii_dec (map tolower (snd (fst e))) (map tolower (tx key))); [left|right]; tauto. }
    destruct (Forall_Exists_dec (fun e => ~ same_setting (tx "General") (tx key) e)
                (fun e => match D e with left h => right (fun n => n h) | right h => left h end) (events t)) as [F|F].
    - exfalso. unfold has in Hh.
      rewrite (proj2 (C66_repeated_keys_accumulate t (tx "General") (tx key) [] [] Hk (select_none _ _ F))) in Hh.
      discriminate.
    - apply Exists_exists in F. destruct F as [e [I N]]. exists e. split; auto.
      destruct (D e); [assumption|contradiction]. }
  unfold check_vitals in E.
  destruct (has_section (reader_of t) "General") eqn:Hg; [|discriminate]. cbn [negb] in E.
  destruct (has (reader_of t) "General" "time_step") eqn:H1; [|discriminate]. cbn [negb] in E.
  destruct (has (reader_of t) "General" "time_end") eqn:H2; [|discriminate]. cbn [negb] in E.
  destruct (has (reader_of t) "General" "units") eqn:H3; [|discriminate]. cbn [negb bind] in E.
  split; [|split; [|split]].
  - apply has_section_in in Hg. now apply sections_events in Hg.
  - repeat constructor; apply M; auto; vm_compute; intuition discriminate.
  - unfold read_general, units_system in E. cbv zeta in E.
    destruct (String.eqb (strg (reader_of t) "General" "units" "None") "SI" ||
              String.eqb (strg (reader_of t) "General" "units" "None") "si")%bool eqn:U; [|discriminate].
    apply orb_prop in U. rewrite !String.eqb_eq in U.
    cbn [bind fst snd] in E.
    destruct (read_field special (reader_of t) si_units); try discriminate. cbn [bind] in E.
    destruct (read_numbered _ _ _ _ _); try discriminate. cbn [bind] in E.
    destruct (read_numbered _ _ _ _ _); try discriminate. cbn [bind] in E.
    inversion E; subst. cbn [in_general g_units]. exact U.
  - unfold read_general in E. cbv zeta in E.
    destruct (units_system (strg (reader_of t) "General" "units" "None")) as [u| | | |]; try discriminate.
    cbn [bind fst snd] in E.
    destruct (read_field special (reader_of t) u) as [f| | | |] eqn:Ef; try discriminate. cbn [bind] in E.
    destruct (read_numbered _ _ _ _ _); try discriminate. cbn [bind] in E.
    destruct (read_numbered _ _ _ _ _); try discriminate. cbn [bind] in E.
    inversion E; subst. cbn [in_field]. rewrite <- sections_events, <- has_section_in.
    unfold read_field in Ef. destruct (has_section (reader_of t) "Field"); [|split; [discriminate|congruence]].
    split; [intros _|reflexivity].
    cbv zeta in Ef.
    destruct (String.eqb _ "static").
    { destruct (vect (reader_of t) "Field" "e_field"); try discriminate. cbn [bind] in Ef.
      destruct (vect (reader_of t) "Field" "b_field"); try discriminate. inversion Ef. discriminate. }
    destruct (String.eqb _ "plane").
    { destruct (vect (reader_of t) "Field" "direction"); try discriminate. inversion Ef. discriminate. }
    destruct (String.eqb _ "gaussian").
    { destruct (vect (reader_of t) "Field" "start"); try discriminate. cbn [bind] in Ef.
      destruct (vect (reader_of t) "Field" "focus"); try discriminate. inversion Ef. discriminate. }
    destruct (String.eqb _ "focusing"); [|discriminate].
    destruct (vect (reader_of t) "Field" "start"); try discriminate. cbn [bind] in Ef.
    destruct (vect (reader_of t) "Field" "focus"); try discriminate. inversion Ef. discriminate.
Qed.

(** The parameters depend on the recorded settings only: the parse error
    number of the library is never looked at. *)
Theorem C70_same_settings_same_parameters : forall t t', events t = events t' ->
  file_parser special (Present (Some t)) = file_parser special (Present (Some t')).
Proof. intros t t' E. rewrite !file_parser_file. rewrite !reader_of_events. now rewrite E. Qed.

End Total.

(** ** C70, continued: a line that is no setting *)
Section Junk.
Context {U : Type}.
Variable h : U -> text -> text -> text -> U * bool.

Definition forget_error (p : pstate U) : pstate U :=
  mkP (p_section p) (p_prev p) (p_lineno p) 0 (p_user p).

Lemma parse_line_forget : forall p b,
  forget_error (parse_line h p b) = forget_error (parse_line h (forget_error p) b).
Proof.
  intros p b. unfold parse_line, forget_error. cbn [p_section p_prev p_lineno p_error p_user].
  destruct (classify _ _ b); try reflexivity.
  - unfold call. cbn [p_section p_prev p_lineno p_error p_user].
    destruct (h (p_user p) (p_section p) name value) as [u' []]; reflexivity.
  - unfold call. cbn [p_section p_prev p_lineno p_error p_user].
    destruct (h (p_user p) (p_section p) (p_prev p) value) as [u' []]; reflexivity.
Qed.

Lemma fold_forget : forall bs p,
  forget_error (fold_left (parse_line h) bs p) = forget_error (fold_left (parse_line h) bs (forget_error p)).
Proof.
  induction bs as [|b bs IH]; intros p; cbn [fold_left]; [reflexivity|].
  rewrite IH. rewrite parse_line_forget. rewrite <- IH. reflexivity.
Qed.

Definition junk_line (L : text) : Prop :=
  ~ In "="%char L /\ ~ In ":"%char L /\ ~ In newline L /\ (length L < 199)%nat /\
  exists c r, L = c :: r /\ isspace c = false /\ c <> "["%char /\ code c <> 239.

Lemma classify_junk : forall first cont L, junk_line L ->
  classify first cont (L ++ [newline]) = Bad \/ classify first cont (L ++ [newline]) = Nothing.
Proof.
  intros first cont L (N1 & N2 & N3 & Hl & c & r & -> & Hs & Nb & Nc).
  unfold classify. cbn [app cstr].
  destruct (Ascii.eqb c nul) eqn:E0.
  { right. destruct first; reflexivity. }
  rewrite not_bom by exact Nc. rewrite andb_false_r. cbv zeta.
  destruct (rstrip_head c (cstr (r ++ [newline])) Hs) as [q Eq]. rewrite Eq.
  assert (El : lskip (c :: q) = c :: q) by (unfold lskip; simpl; now rewrite Hs). rewrite El.
  cbn [orb]. rewrite Hs, andb_false_r.
  destruct (Ascii.eqb c ";" || Ascii.eqb c "#"); [now right|].
  replace (Ascii.eqb c "[") with false by (symmetry; now apply Ascii.eqb_neq).
  left. destruct (find_chars_or_comment false is_sep (c :: q)) as [x [|e v]] eqn:Ef; [reflexivity|].
  destruct (is_sep e) eqn:Ee; [|reflexivity]. exfalso.
  apply find_chars_prefix in Ef. destruct Ef as [Ef _].
  assert (I : In e (c :: r ++ [newline])).
  { destruct (rstrip_prefix (c :: cstr (r ++ [newline]))) as [w W]. rewrite Eq in W.
    destruct (cstr_prefix (r ++ [newline])) as [w' W'].
    assert (I : In e (c :: cstr (r ++ [newline]))).
    { rewrite W, Ef. apply in_or_app. left. apply in_or_app. right. now left. }
    destruct I as [I|I]; [now left|]. right. rewrite W'. apply in_or_app. now left. }
  assert (K : e = "="%char \/ e = ":"%char).
  { unfold is_sep in Ee. apply orb_prop in Ee. destruct Ee as [Ee|Ee]; apply Ascii.eqb_eq in Ee; auto. }
  assert (J : In e (c :: r)).
  { change (c :: r ++ [newline]) with ((c :: r) ++ [newline]) in I. apply in_app_or in I.
    destruct I as [I|[I|[]]]; [exact I|]. subst. destruct K; discriminate. }
  destruct K as [-> | ->]; contradiction.
Qed.

Lemma junk_user : forall (u : U) A L B, A = [] \/ ends_nl A -> junk_line L -> (A = [] -> ~ starts_with_bom B) ->
  fst (parse h (A ++ L ++ newline :: B) u) = fst (parse h (A ++ B) u).
Proof.
  intros u A L B HA HL HB. unfold parse. cbv zeta. cbn [fst].
  rewrite !parse_split by exact HA.
  set (st := fold_left (parse_line h) (lines A) (mkP [] [] 0 0 u)).
  assert (Hst : p_lineno st = Z.of_nat (length (lines A))).
  { unfold st. rewrite fold_lineno. simpl. lia. }
  pose proof HL as (_ & _ & N3 & Hl & _).
  rewrite fold_line by assumption.
  assert (P : exists e, parse_line h st (L ++ [newline]) =
              mkP (p_section st) (p_prev st) (p_lineno st + 1) e (p_user st)).
  { unfold parse_line. cbn [p_lineno p_prev p_section p_error p_user].
    destruct (classify_junk (p_lineno st + 1 =? 1) (match p_prev st with [] => false | _ => true end) L HL) as [-> | ->];
      eexists; reflexivity. }
  destruct P as [e P]. rewrite P.
  assert (F : forall q : pstate U, p_user q = p_user (forget_error q)) by reflexivity.
  rewrite F. rewrite fold_forget. rewrite (F (fold_left (parse_line h) (lines B) st)), (fold_forget _ st).
  assert (R : same_run (fold_left (parse_line h) (lines B)
                (forget_error (mkP (p_section st) (p_prev st) (p_lineno st + 1) e (p_user st))))
              (fold_left (parse_line h) (lines B) (forget_error st))).
  { apply continue_fold.
    - unfold same_run, forget_error. cbn [p_lineno p_prev p_section p_error p_user]. repeat split; auto; lia.
    - destruct A as [|a A]; [right; now apply HB|]. left. cbn [p_lineno forget_error].
      pose proof (lines_length_pos (a :: A) ltac:(discriminate)). lia. }
  destruct R as (_ & _ & E3 & _). exact E3.
Qed.
End Junk.

Theorem C70_junk_line_ignored : forall {T} `{Num T} special A L B,
  A = [] \/ ends_nl A -> junk_line L -> (A = [] -> ~ starts_with_bom B) ->
  file_parser special (Present (Some (A ++ L ++ newline :: B))) =
  file_parser special (Present (Some (A ++ B))).
Proof.
  intros T HT special A L B HA HL HB. apply C70_same_settings_same_parameters.
  unfold events. now apply junk_user.
Qed.

(** ** C69: numbered sections *)
Lemma read_all_parts : forall {T} `{Num T} special r ps, read_all special r = Ok ps ->
  exists u, units_system (strg r "General" "units" "None") = Ok u /\
    read_general special r = Ok (u, in_general ps) /\
    read_field special r u = Ok (in_field ps) /\
    read_numbered r (read_particle special r u) "Particle" (S (length (r_sections r))) 1 = Ok (in_particles ps) /\
    in_physics ps = read_physics special r u /\
    read_numbered r (read_histogram special r u) "Histogram" (S (length (r_sections r))) 1 = Ok (in_histograms ps).
Proof.
  intros T HT special r ps E. unfold read_all in E.
  destruct (check_vitals r); try discriminate. cbn [bind] in E.
  destruct (read_general special r) as [[u g]| | | |] eqn:Eg; try discriminate. cbn [bind fst snd] in E.
  destruct (read_field special r u) eqn:Ef; try discriminate. cbn [bind] in E.
  destruct (read_numbered r (read_particle special r u) _ _ _) eqn:Ep; try discriminate. cbn [bind] in E.
  destruct (read_numbered r (read_histogram special r u) _ _ _) eqn:Eh; try discriminate. cbn [bind] in E.
  inversion E; subst. exists u. cbn [in_general in_field in_particles in_physics in_histograms].
  repeat split; auto.
  unfold read_general in Eg. cbv zeta in Eg.
  destruct (units_system _) as [u'| | | |]; try discriminate. cbn [bind] in Eg. inversion Eg; subst. reflexivity.
Qed.

(** There is a setting in the section of exactly this name. *)
Definition has_settings (t : text) (name : string) : Prop := exists n v, In (tx name, n, v) (events t).

Theorem C69_numbered_sections : forall {T} `{Num T} special t ps,
  file_parser special (Present (Some t)) = Ok ps ->
  let k := length (in_particles ps) in
  let m := length (in_histograms ps) in
  (forall i, (1 <= i <= k)%nat -> has_settings t ("Particle" ++ to_string i)) /\
  ~ has_settings t ("Particle" ++ to_string (S k)) /\
  (forall i, (1 <= i <= m)%nat -> has_settings t ("Histogram" ++ to_string i)) /\
  ~ has_settings t ("Histogram" ++ to_string (S m)) /\
  (forall i, (1 <= i <= k)%nat ->
     exists p, nth_error (in_particles ps) (i - 1) = Some p /\
       let sec := tx ("Particle" ++ to_string i) in
       p_number p = get_integer (reader_of t) sec (tx "number_particles") 1 mod 2 ^ 32 /\
       get_vector (reader_of t) sec (tx "direction") vzero = Ok (p_direction p) /\
       p_type p = str (get_string (reader_of t) sec (tx "particle_type") (tx "Electron")) /\
       p_output p = get_boolean (reader_of t) sec (tx "output") false) /\
  (forall i, (1 <= i <= m)%nat ->
     exists q, nth_error (in_histograms ps) (i - 1) = Some q /\
       let sec := tx ("Histogram" ++ to_string i) in
       h_bins q = get_integer (reader_of t) sec (tx "bins") 1 mod 2 ^ 32 /\
       h_particle q = str (get_string (reader_of t) sec (tx "particle") [])).
Proof.
  intros T HT special t ps E. rewrite file_parser_file in E.
  destruct (read_all_parts _ _ _ E) as (u & _ & _ & _ & Ep & _ & Eh).
  cbv zeta. unfold has_settings.
  destruct (numbered_ok _ _ _ _ _ _ Ep) as [P1 P2]. destruct (numbered_ok _ _ _ _ _ _ Eh) as [H1 H2].
  unfold numbered in *. split; [|split; [|split; [|split; [|split]]]].
  - intros i Hi. apply sections_events. replace i with (1 + (i - 1))%nat by lia. apply P1. lia.
  - intros K. apply sections_events in K. exact (P2 K).
  - intros i Hi. apply sections_events. replace i with (1 + (i - 1))%nat by lia. apply H1. lia.
  - intros K. apply sections_events in K. exact (H2 K).
  - intros i Hi. destruct (P1 (i - 1)%nat) as [_ (p & Np & Rp)]; [lia|].
    replace (1 + (i - 1))%nat with i in Rp by lia. exists p. split; [exact Np|].
    unfold read_particle in Rp. unfold vect in Rp.
    destruct (get_vector (reader_of t) (tx ("Particle" ++ to_string i)) (tx "position") vzero) as [pos| | | |]; try discriminate.
    cbn [bind] in Rp.
    destruct (get_vector (reader_of t) (tx ("Particle" ++ to_string i)) (tx "direction") vzero) as [dir| | | |]; try discriminate.
    cbn [bind] in Rp. inversion Rp; subst. repeat split.
  - intros i Hi. destruct (H1 (i - 1)%nat) as [_ (q & Nq & Rq)]; [lia|].
    replace (1 + (i - 1))%nat with i in Rq by lia. exists q. split; [exact Nq|].
    inversion Rq; subst. repeat split.
Qed.

(** A negative number of particles wraps around. *)
Theorem C69_negative_number : forall {T} `{Num T} special t ps p i,
  file_parser special (Present (Some t)) = Ok ps -> nth_error (in_particles ps) i = Some p ->
  let n := get_integer (reader_of t) (tx ("Particle" ++ to_string (S i))) (tx "number_particles") 1 in
  - 2 ^ 32 < n < 0 -> p_number p = 2 ^ 32 - Z.abs n.
Proof.
  intros T HT special t ps p i E Np n Hn.
  destruct (C69_numbered_sections special t ps E) as (_ & _ & _ & _ & P & _).
  destruct (P (S i)) as (p' & Np' & K & _).
  { assert (i < length (in_particles ps))%nat by (apply nth_error_Some; congruence). lia. }
  replace (S i - 1)%nat with i in Np' by lia. rewrite Np in Np'. inversion Np'; subst p'.
  rewrite K. fold n. rewrite Z.abs_neq by lia.
  rewrite <- (Z.mod_add n 1 (2 ^ 32)) by lia. rewrite Z.mod_small; lia.
Qed.

(** ** C87: section names are compared with their exact spelling *)
Theorem C87_exact_section_names : forall {T} `{Num T} special t,
  (~ has_settings t "General" -> file_parser special (Present (Some t)) = Exit 1) /\
  (forall ps, file_parser special (Present (Some t)) = Ok ps ->
     (~ has_settings t "Field" -> in_field ps = NoField) /\
     (~ has_settings t "Particle1" -> in_particles ps = []) /\
     (~ has_settings t "Histogram1" -> in_histograms ps = [])).
Proof.
  intros T HT special t. split.
  - intros N. apply C70_mandatory_settings. now left.
  - intros ps E. destruct (C69_numbered_sections special t ps E) as (P & _ & H1 & _).
    split; [|split].
    + intros N. rewrite file_parser_file in E.
      destruct (read_all_parts _ _ _ E) as (u & _ & _ & Ef & _).
      unfold read_field in Ef. destruct (has_section (reader_of t) "Field") eqn:Hs.
      * apply has_section_in in Hs. apply sections_events in Hs. contradiction.
      * now inversion Ef.
    + intros N. destruct (in_particles ps) as [|p l] eqn:El; [reflexivity|]. exfalso. apply N.
      apply (P 1%nat). cbn [length]. lia.
    + intros N. destruct (in_histograms ps) as [|p l] eqn:El; [reflexivity|]. exfalso. apply N.
      apply (H1 1%nat). cbn [length]. lia.
Qed.

(** ** C89: conversion to the units of the code, exact arithmetic *)
Section UnitConversion.
Local Open Scope string_scope.
Local Open Scope R_scope.

Lemma units_pos' : forall name (u : units R), units_system name = Ok u -> pos_units u.
Proof.
  intros name u E. apply units_pos. unfold units_system in *.
  destruct (String.eqb name "SI" || String.eqb name "si")%bool; [exact E|discriminate].
Qed.

Lemma div_mul : forall x y : R, 0 < y -> ndiv x y * y = x.
Proof. intros x y H. rnum. field. lra. Qed.

Lemma vdivs_mul : forall (v : vec R) y, 0 < y -> vmuls (vdivs v y) y = v.
Proof.
  intros [a b c] y H. unfold vmuls, vdivs. cbn [vx vy vz]. rnum. f_equal; field; lra.
Qed.

Theorem C89_settings_in_SI : forall special t (ps : parameters R),
  file_parser special (Present (Some t)) = Ok ps ->
  let r := reader_of t in
  let file (sec key : string) dflt := get_real special r (tx sec) (tx key) dflt in
  let file3 (sec key : string) v := get_vector r (tx sec) (tx key) vzero = Ok v in
  exists u : units R, pos_units u /\ units_system "SI" = Ok u /\
  g_timeStep (in_general ps) * ref_time u = file "General" "time_step" n0 /\
  g_timeEnd (in_general ps) * ref_time u = file "General" "time_end" n0 /\
  y_minEnergy (in_physics ps) * ref_energy u = file "Physics" "min_energy" n0 /\
  y_fraction (in_physics ps) = file "Physics" "sample_fraction" n1 /\
  (forall i p, nth_error (in_particles ps) i = Some p ->
     let sec := ("Particle" ++ to_string (S i))%string in
     p_energy1 p * ref_energy u = file sec "energy_mean" n0 /\
     p_energy2 p * ref_energy u = file sec "energy_sig" n0 /\
     p_radius p * ref_length u = file sec "radius" n0 /\
     p_duration p * ref_time u = file sec "duration" n0 /\
     p_divergence p = file sec "divergence" n0 /\
     file3 sec "position" (vmuls (p_position p) (ref_length u)) /\
     file3 sec "direction" (p_direction p)) /\
  (forall i q, nth_error (in_histograms ps) i = Some q ->
     let sec := ("Histogram" ++ to_string (S i))%string in
     h_time q * ref_time u = file sec "time" n0 /\
     h_minBin q = file sec "min_bin" n0 /\ h_maxBin q = file sec "max_bin" n1) /\
  match in_field ps with
  | NoField => True
  | StaticField e b => file3 "Field" "e_field" (vmuls e (ref_eField u)) /\
      file3 "Field" "b_field" (vmuls b (ref_bField u))
  | PlaneField m w p d => m * ref_eField u = file "Field" "e_max" n0 /\
      w * ref_length u = file "Field" "wavelength" n1 /\ p = file "Field" "polerisation" n0 /\
      file3 "Field" "direction" d
  | GaussianField m w du wa p s f | FocusingField m w du wa p s f =>
      m * ref_eField u = file "Field" "e_max" n0 /\
      w * ref_length u = file "Field" "wavelength" n1 /\ du * ref_time u = file "Field" "duration" n1 /\
      wa * ref_length u = file "Field" "waist" n1 /\ p = file "Field" "polerisation" n0 /\
      file3 "Field" "start" (vmuls s (ref_length u)) /\ file3 "Field" "focus" (vmuls f (ref_length u))
  end.
Proof.
  intros special t ps E r file file3. rewrite file_parser_file in E. fold r in E.
  destruct (read_all_parts _ _ _ E) as (u & Eu & Eg & Ef & Ep & Ey & Eh).
  pose proof (units_pos' _ _ Eu) as Pu. pose proof Pu as (P1 & P2 & P3 & P4 & P5 & P6 & P7).
  exists u. split; [exact Pu|]. split.
  { unfold units_system in *. destruct (_ || _)%bool; [exact Eu|discriminate]. }
  unfold read_general in Eg. rewrite Eu in Eg. cbn [bind] in Eg. inversion Eg as [[Hg]]. clear Eg.
  rewrite Ey. unfold read_physics. cbn [g_timeStep g_timeEnd y_minEnergy y_fraction].
  split; [apply div_mul; exact P2|]. split; [apply div_mul; exact P2|]. split; [apply div_mul; exact P7|].
  split; [reflexivity|]. split; [|split].
  - intros i p Np. cbv zeta. destruct (numbered_ok _ _ _ _ _ _ Ep) as [Q _].
    destruct (Q i) as [_ (p' & Np' & Rp)]; [apply nth_error_Some; congruence|].
    rewrite Np in Np'. inversion Np'; subst p'. unfold numbered in Rp. cbn [plus] in Rp.
    unfold read_particle, vect in Rp. fold r in Rp. unfold file3.
    destruct (get_vector r (tx ("Particle" ++ to_string (S i))) (tx "position") vzero) as [pos| | | |]; try discriminate.
    cbn [bind] in Rp.
    destruct (get_vector r (tx ("Particle" ++ to_string (S i))) (tx "direction") vzero) as [dir| | | |]; try discriminate.
    cbn [bind] in Rp. inversion Rp; subst.
    cbn [p_energy1 p_energy2 p_radius p_duration p_divergence p_position p_direction].
    rewrite vdivs_mul by exact P3.
    repeat split; try (apply div_mul; assumption).
  - intros i q Nq. cbv zeta. destruct (numbered_ok _ _ _ _ _ _ Eh) as [Q _].
    destruct (Q i) as [_ (q' & Nq' & Rq)]; [apply nth_error_Some; congruence|].
    rewrite Nq in Nq'. inversion Nq'; subst q'. unfold numbered in Rq. cbn [plus] in Rq.
    inversion Rq; subst. cbn [h_time h_minBin h_maxBin]. repeat split. apply div_mul; assumption.
  - unfold read_field, vect in Ef. fold r in Ef.
    destruct (has_section r "Field"); [|inversion Ef; exact I]. cbv zeta in Ef. unfold file3.
    destruct (String.eqb _ "static").
    { destruct (get_vector r (tx "Field") (tx "e_field") vzero) as [e| | | |]; try discriminate. cbn [bind] in Ef.
      destruct (get_vector r (tx "Field") (tx "b_field") vzero) as [b| | | |]; try discriminate.
      cbn [bind] in Ef. inversion Ef. rewrite !vdivs_mul by assumption. auto. }
    destruct (String.eqb _ "plane").
    { destruct (get_vector r (tx "Field") (tx "direction") vzero) as [d| | | |]; try discriminate.
      cbn [bind] in Ef. inversion Ef. repeat split; apply div_mul; assumption. }
    destruct (String.eqb _ "gaussian").
    { destruct (get_vector r (tx "Field") (tx "start") vzero) as [e| | | |]; try discriminate. cbn [bind] in Ef.
      destruct (get_vector r (tx "Field") (tx "focus") vzero) as [b| | | |]; try discriminate.
      cbn [bind] in Ef. inversion Ef. rewrite !vdivs_mul by assumption. repeat split; apply div_mul; assumption. }
    destruct (String.eqb _ "focusing"); [|discriminate].
    destruct (get_vector r (tx "Field") (tx "start") vzero) as [e| | | |]; try discriminate. cbn [bind] in Ef.
    destruct (get_vector r (tx "Field") (tx "focus") vzero) as [b| | | |]; try discriminate.
    cbn [bind] in Ef. inversion Ef. rewrite !vdivs_mul by assumption. repeat split; apply div_mul; assumption.
Qed.
End UnitConversion.

(** ** Concrete cases *)
(** example/example.ini 1-60, the file shipped with the program. *)
Definition example_ini : text := tx
"[General]
units = SI
time_step = 0.01e-15
time_end = 100e-15
file_name = example.h5

[Field]
# Field can be static/plane/gaussian/focusing
field_type = gaussian
e_max = 2.00e+14
# This is time for intensity to fall by 1/e^2
duration = 10.0e-15
waist = 5.0e-6
wavelength = 0.8e-6
start = [0 0 10.0e-6]
focus = [0 0 0]

[Particle1]
# Number of particles per MPI process if using MPI
number_particles = 100
name = electron
particle_type = electron
energy_distribution = gaussian
position = [0 0 -10e-6]
direction = [0 0 1]
energy_mean = 8.176e-12
energy_sig = 8.176e-13
duration = 5.0e-15
radius = 1.0e-6
divergence = 0.0
# Outputs particle data table at the start and end
# format: id/energy/px/py/pz/x/y/z
output = true

[Physics]
radiation_model = Classical
sample_fraction = 0.1
pair_production = false

# Make sure histograms are in time order
# Histoghram bins use code natural units (energy = me c^2, momentum = me c, length = me / e Ec)
# I will change this to SI at some point
[Histogram1]
name = start
particle = Electron
type = energy
time = 0e-15
bins = 400
min_bin = 0
max_bin = 5000

[Histogram2]
name = end
particle = Electron
type = energy
time = 100e-15
bins = 400
min_bin = 0
max_bin = 5000
".


Lemma ok_case : forall {A} (x : res A) (P : A -> Prop),
  match x with Ok a => P a | _ => False end -> exists a, x = Ok a /\ P a.
Proof. intros A [a| | | |] P; try contradiction. eauto. Qed.

Section Cases.
Context {T : Type} `{Num T}.
Variable special : text -> T.
Let parse_text (t : text) := file_parser special (Present (Some t)).

Example C69_case : exists ps, parse_text example_ini = Ok ps /\
  map p_number (in_particles ps) = [100] /\ map p_type (in_particles ps) = ["electron"%string] /\
  map p_direction (in_particles ps) = [mkV (nlit 0 0) (nlit 0 0) (nlit 1 0)] /\
  map h_bins (in_histograms ps) = [400; 400] /\ map h_name (in_histograms ps) = ["start"; "end"]%string /\
  y_physics (in_physics ps) = "Classical"%string /\ y_pair (in_physics ps) = false /\
  g_fileName (in_general ps) = "example.h5"%string /\
  match in_field ps with GaussianField _ _ _ _ _ _ _ => True | _ => False end.
Proof. apply ok_case. vm_compute. auto 10. Qed.

(** Number 3 follows number 1: it is not read.  A count of -1 is 2^32 - 1. *)
Example C69_gap : exists ps, parse_text (tx
"[General]
units = SI
time_step = 1
time_end = 2
[Particle1]
number_particles = -1
[Particle3]
number_particles = 5
") = Ok ps /\ map p_number (in_particles ps) = [2 ^ 32 - 1].
Proof. apply ok_case. vm_compute. reflexivity. Qed.

Example C70_case :
  parse_text (tx
"[General]
units = SI
time_step = 1
") = Exit 1 /\
  parse_text (tx
"[General]
units = cgs
time_step = 1
time_end = 2
") = Exit 1 /\ file_parser special Missing = Exit 1 /\ junk_line (tx "no setting here") /\ junk_line (tx "]").
Proof.
  split; [vm_compute; reflexivity|]. split; [vm_compute; reflexivity|]. split; [vm_compute; reflexivity|].
  assert (D : forall c L, existsb (Ascii.eqb c) L = false -> ~ In c L).
  { intros c L E K. apply not_true_iff_false in E. apply E. apply existsb_exists. exists c.
    split; [exact K|]. apply Ascii.eqb_refl. }
  split.
  - split; [apply D; reflexivity|]. split; [apply D; reflexivity|]. split; [apply D; reflexivity|].
    split; [apply Nat.ltb_lt; reflexivity|].
    exists "n"%char, (tx "o setting here"). split; [reflexivity|]. split; [reflexivity|].
    split; [discriminate|]. vm_compute. discriminate.
  - split; [apply D; reflexivity|]. split; [apply D; reflexivity|]. split; [apply D; reflexivity|].
    split; [apply Nat.ltb_lt; reflexivity|].
    exists "]"%char, []. split; [reflexivity|]. split; [reflexivity|].
    split; [discriminate|]. vm_compute. discriminate.
Qed.

(** The lower-case section is refused although its settings can be looked up. *)
Example C87_case :
  let t := tx
"[general]
units = SI
time_step = 1
time_end = 2
" in
  parse_text t = Exit 1 /\ has_value (reader_of t) (tx "General") (tx "units") = true /\
  ~ has_settings t "General".
Proof.
  cbv zeta. split; [vm_compute; reflexivity|]. split; [vm_compute; reflexivity|].
  intros (n & v & K). vm_compute in K. intuition discriminate.
Qed.
End Cases.

Example C89_case : exists special t (ps : parameters R), file_parser special (Present (Some t)) = Ok ps /\
  in_particles ps <> [] /\ in_histograms ps <> [] /\ in_field ps <> NoField.
Proof.
  destruct (C69_case (fun _ => 0%R)) as (ps & E & P & _ & _ & Q & _ & _ & _ & _ & F).
  exists (fun _ => 0%R), example_ini, ps. split; [exact E|].
  split; [intros K; rewrite K in P; discriminate|]. split; [intros K; rewrite K in Q; discriminate|].
  intros K. now rewrite K in F.
Qed.

Print Assumptions C69_numbered_sections.
Print Assumptions C69_negative_number.
Print Assumptions C70_reader_total.
Print Assumptions C70_mandatory_settings.
Print Assumptions C70_accepted_files.
Print Assumptions C70_same_settings_same_parameters.
Print Assumptions C70_junk_line_ignored.
Print Assumptions C87_exact_section_names.
Print Assumptions C89_settings_in_SI.
