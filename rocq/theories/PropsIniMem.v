(** * Properties of the INI parser on its character arrays: C114, C115 *)
From Coq Require Import String ZArith List Bool Ascii Lia.
From Verif Require Import Outcome Text Ini IniFacts IniMem IniMemFacts SpecIni PropsIni.
Import ListNotations.
Local Open Scope Z_scope.

(** C114: whatever bytes the file holds, whatever the handler does and whatever the line array holds at the start, parsing comes to an
    end without an access outside the three arrays, and what it does is what the parser on texts does (C63-C66, C87, C88). *)
Theorem C114_within_arrays : forall {U} (h : U -> text -> text -> text -> U * bool) (garbage : chars) (file : text) (u : U),
  length garbage = 200%nat -> m_parse_file h garbage file u = Ok (ini_parse h (Some file) u).
Proof. intros U h garbage file u G. now apply parse_file_ok. Qed.
Print Assumptions C114_within_arrays.

(** In particular the settings of a written configuration reach the handler, in order, unchanged, and no error is returned. *)
Theorem C114_written : forall c (garbage : chars), length garbage = 200%nat -> good_config c ->
  m_parse_file (fun l s n v => (l ++ [(s, n, v)], true)) garbage (write_config c) [] = Ok (settings c, 0).
Proof.
  intros c garbage G Gc. rewrite parse_file_ok by assumption. destruct (C63_parse_written c Gc) as [A B].
  unfold events, parse_error in *. f_equal. rewrite <- A, <- B. apply surjective_pairing.
Qed.
Print Assumptions C114_written.

(** A line array with one character less would not do: a line of 199 characters is written past its end. *)
Theorem C114_one_less_refuted : exists (garbage : chars) (file : text), length garbage = 199%nat /\
  m_parse_file (fun (u : unit) _ _ _ => (u, true)) garbage file tt = UB OutOfBounds.
Proof. exists (repeat "?"%char 199), (repeat "a"%char 199). split; [reflexivity|]. vm_compute. reflexivity. Qed.
Print Assumptions C114_one_less_refuted.

(** The section a handler sees never has more than 49 characters, whatever the file holds. *)
Theorem C114_sections_cut : forall file s n v, In (s, n, v) (events file) -> (length s <= 49)%nat.
Proof.
  intros file s n v I.
  assert (K : forall q n0 v0, (length (p_section q) <= 49)%nat -> Forall (fun e => (length (fst (fst e)) <= 49)%nat) (p_user q) ->
      (length (p_section (call record q n0 v0)) <= 49)%nat /\
      Forall (fun e => (length (fst (fst e)) <= 49)%nat) (p_user (call record q n0 v0))).
  { intros q n0 v0 Q1 Q2. unfold call, record. cbn. split; [exact Q1|]. apply Forall_app. split; [exact Q2|]. constructor; [exact Q1|constructor]. }
  assert (NS : forall first cont b x, classify first cont b = NewSection x -> (length x <= 49)%nat).
  { intros first cont b x. unfold classify. destruct (lskip _) as [|c r]; [discriminate|].
    destruct (_ || _)%bool; [discriminate|]. destruct (_ && _)%bool; [discriminate|]. destruct (Ascii.eqb c "[").
    - destruct (find_chars_or_comment false is_close r) as [y [|e q]]; [discriminate|]. destruct (is_close e); [|discriminate].
      intros E. inversion E. unfold strncpy0, name_max. rewrite firstn_length. lia.
    - destruct (find_chars_or_comment false is_sep (c :: r)) as [y [|e q]]; [discriminate|]. destruct (is_sep e); discriminate. }
  assert (J : forall bs p, (length (p_section p) <= 49)%nat -> Forall (fun e => (length (fst (fst e)) <= 49)%nat) (p_user p) ->
    Forall (fun e => (length (fst (fst e)) <= 49)%nat) (p_user (fold_left (parse_line record) bs p))).
  { induction bs as [|b bs IH]; intros p Ls Lu; [exact Lu|]. cbn [fold_left].
    enough (E : (length (p_section (parse_line record p b)) <= 49)%nat /\
      Forall (fun e => (length (fst (fst e)) <= 49)%nat) (p_user (parse_line record p b))) by (apply IH; apply E).
    unfold parse_line. cbv zeta. destruct (classify _ _ b) eqn:C; cbn [p_section p_user set_error]; auto.
    split; [now apply NS in C|exact Lu]. }
  unfold events, parse in I. cbn [fst] in I.
  specialize (J (lines file) (mkP [] [] 0 0 []) ltac:(cbn; lia) (Forall_nil _)). rewrite Forall_forall in J. exact (J _ I).
Qed.
Print Assumptions C114_sections_cut.

(** C115: parsing a C string is parsing a file with the same characters; what follows the NUL is not read. *)
Theorem C115_string_is_file : forall {U} (h : U -> text -> text -> text -> U * bool) (garbage : chars) (t tail : text) (u : U),
  length garbage = 200%nat -> ~ In nul t ->
  m_parse_string h garbage (t ++ nul :: tail) u = m_parse_file h garbage t u /\
  m_parse_string h garbage (t ++ nul :: tail) u = Ok (ini_parse h (Some t) u).
Proof. intros U h garbage t tail u G N. rewrite parse_string_ok, parse_file_ok by assumption. split; reflexivity. Qed.
Print Assumptions C115_string_is_file.

Theorem C115_written : forall c (garbage : chars) (tail : text), length garbage = 200%nat -> good_config c ->
  m_parse_string (fun l s n v => (l ++ [(s, n, v)], true)) garbage (write_config c ++ nul :: tail) [] = Ok (settings c, 0).
Proof.
  intros c garbage tail G Gc. enough (N : ~ In nul (write_config c)).
  { destruct (C115_string_is_file (fun l s n v => (l ++ [(s, n, v)], true)) garbage (write_config c) tail [] G N) as [E _].
    rewrite E. now apply C114_written. }
  intros I. unfold write_config in I. apply in_flat_map in I as ((sec & kvs) & I1 & I2).
  unfold good_config in Gc. rewrite Forall_forall in Gc. destruct (Gc _ I1) as ((S1 & _) & K1). cbn in S1, K1.
  unfold write_section in I2. cbn [fst snd] in I2. apply in_app_or in I2 as [I2|I2]; [destruct I2 as [I2|[]]; discriminate|].
  apply in_app_or in I2 as [I2|I2]; [revert I2; eapply avoids_in; [exact S1|cbn; auto]|].
  apply in_app_or in I2 as [I2|I2]; [destruct I2 as [I2|[]]; discriminate|].
  apply in_app_or in I2 as [I2|I2]; [destruct I2 as [I2|[]]; discriminate|].
  apply in_flat_map in I2 as ((k & v) & I3 & I4). rewrite Forall_forall in K1. destruct (K1 _ I3) as ((A & _) & (B & _) & _). cbn in A, B.
  unfold write_setting in I4. cbn [fst snd] in I4. apply in_app_or in I4 as [I4|I4]; [revert I4; eapply avoids_in; [exact A|cbn; auto]|].
  apply in_app_or in I4 as [I4|I4]; [repeat (destruct I4 as [I4|I4]; [discriminate|]); destruct I4|].
  apply in_app_or in I4 as [I4|I4]; [revert I4; eapply avoids_in; [exact B|cbn; auto]|]. destruct I4 as [I4|[]]; discriminate.
Qed.
Print Assumptions C115_written.

(** Characters that are not terminated by a NUL are read past their end. *)
Theorem C115_unterminated : forall {U} (h : U -> text -> text -> text -> U * bool) (garbage : chars) (mem : text) (u : U),
  ~ In nul mem -> m_parse_string h garbage mem u = UB OutOfBounds.
Proof.
  intros U h garbage mem u N. unfold m_parse_string, strlen, string_at.
  assert (K : forall t pre fuel, (length t <= fuel)%nat -> ~ In nul t -> c_string fuel (pre ++ t) (length pre) = UB OutOfBounds).
  { induction t as [|c t IH]; intros pre fuel L Nt.
    - rewrite app_nil_r. assert (E : ld pre (length pre) = UB OutOfBounds).
      { unfold ld. replace (nth_error pre (length pre)) with (@None ascii); [reflexivity|]. symmetry. apply nth_error_None. lia. }
      destruct fuel; cbn [c_string]; rewrite E; reflexivity.
    - destruct fuel as [|f]; [cbn in L; lia|]. cbn [c_string]. rewrite ld_at. cbn [bind].
      rewrite (proj2 (Ascii.eqb_neq c nul)) by (intros ->; apply Nt; now left).
      specialize (IH (pre ++ [c]) f ltac:(cbn in L; lia) ltac:(intros I; apply Nt; now right)).
      rewrite <- app_assoc in IH. cbn [app] in IH. rewrite app_length in IH. cbn [length] in IH. rewrite Nat.add_1_r in IH.
      rewrite IH. reflexivity. }
  pose proof (K mem [] (length mem) ltac:(lia) N) as E. cbn [app length] in E. rewrite E. reflexivity.
Qed.
Print Assumptions C115_unterminated.

(** The two differ on text with a NUL in it: the file goes on after the line of the NUL, the string does not. *)
Theorem C115_nul_in_text_refuted : exists (garbage : chars) (t : text), length garbage = 200%nat /\
  m_parse_string record garbage (t ++ [nul]) [] <> m_parse_file record garbage t [].
Proof.
  exists (repeat "?"%char 200), (tx "a=1" ++ nul :: newline :: tx "b=2"). split; [reflexivity|]. vm_compute. discriminate.
Qed.
Print Assumptions C115_nul_in_text_refuted.

(** A run on arrays full of question marks: section, trailing blanks, inline comment, continuation line. *)
Example C114_case :
  m_parse_file record (repeat "?"%char 200)
    (tx "[Time]  " ++ newline :: tx "  step = 1.0 ; fs" ++ newline :: tx "end=2  " ++ newline :: tx "  3") [] =
  Ok ([(tx "Time", tx "step", tx "1.0"); (tx "Time", tx "end", tx "2"); (tx "Time", tx "end", tx "3")], 0).
Proof. vm_compute. reflexivity. Qed.

Example C115_case :
  m_parse_string record (repeat "?"%char 200) (tx "[a]" ++ newline :: tx "x : 7" ++ newline :: tx "oops" ++ nul :: tx "y = 8") [] =
  Ok ([(tx "a", tx "x", tx "7")], 3).
Proof. vm_compute. reflexivity. Qed.
