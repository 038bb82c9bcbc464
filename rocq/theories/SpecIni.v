(** * What the input file properties talk about (independent of the parser) *)
From Coq Require Import String ZArith List Bool Ascii.
From Verif Require Import Text.
Import ListNotations.

(** A configuration: sections with their settings, in order. *)
Definition config := list (text * list (text * text)).

Definition write_setting (kv : text * text) : text :=
  fst kv ++ tx " = " ++ snd kv ++ [newline].
Definition write_section (s : text * list (text * text)) : text :=
  tx "[" ++ fst s ++ tx "]" ++ [newline] ++ flat_map write_setting (snd s).
Definition write_config (c : config) : text := flat_map write_section c.

(** The settings of a configuration: section, key, value. *)
Definition settings (c : config) : list (text * text * text) :=
  flat_map (fun s => map (fun kv => (fst s, fst kv, snd kv)) (snd s)) c.

Definition space (c : ascii) : Prop := isspace c = true.
Definition no_space_ends (t : text) : Prop :=
  (forall c r, t = c :: r -> ~ space c) /\ (forall c r, t = r ++ [c] -> ~ space c).

Definition avoids (bad : list ascii) (t : text) : Prop := Forall (fun c => ~ In c bad) t.

Definition good_section (s : text) : Prop :=
  avoids [newline; nul; "]"; ";"]%char s /\ (length s <= 49)%nat.
Definition good_key (k : text) : Prop :=
  avoids [newline; nul; "="; ":"; ";"; "#"; "["]%char k /\ no_space_ends k /\ k <> [].
Definition good_value (v : text) : Prop :=
  avoids [newline; nul; ";"]%char v /\ no_space_ends v.
(** Key, " = ", value and newline fill at most 199 characters. *)
Definition fits (kv : text * text) : Prop := (length (fst kv) + length (snd kv) <= 195)%nat.

Definition good_config (c : config) : Prop :=
  Forall (fun s => good_section (fst s) /\
            Forall (fun kv => good_key (fst kv) /\ good_value (snd kv) /\ fits kv) (snd s)) c.

(** Equal up to upper and lower case. *)
Definition same_letters (a b : text) : Prop := map tolower a = map tolower b.

Definition same_setting (s n : text) (e : text * text * text) : Prop :=
  same_letters (fst (fst e)) s /\ same_letters (snd (fst e)) n.

(** Texts joined by newlines; empty ones leave no trace at the front. *)
Fixpoint joined (vs : list text) : text :=
  match vs with
  | [] => []
  | v :: r => match v with [] => joined r | _ => v ++ flat_map (fun w => newline :: w) r end
  end.

Fixpoint first_nonempty (vs : list text) : text :=
  match vs with
  | [] => []
  | v :: r => match v with [] => first_nonempty r | _ => v end
  end.

(** [select P l vs]: [vs] are the values of the settings of [l] satisfying
    [P], in order. *)
Inductive select (P : text * text * text -> Prop) : list (text * text * text) -> list text -> Prop :=
| select_nil : select P [] []
| select_yes : forall e l vs, P e -> select P l vs -> select P (e :: l) (snd e :: vs)
| select_no : forall e l vs, ~ P e -> select P l vs -> select P (e :: l) vs.

(** A blank line or a comment line: blanks, then nothing or ';' or '#'. *)
Definition comment_or_blank (L : text) : Prop :=
  exists w r, L = w ++ r /\ Forall space w /\
    (r = [] \/ exists c q, r = c :: q /\ (c = ";" \/ c = "#")%char).
