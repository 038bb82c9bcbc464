(** * Table files: specification notions (independent of the loader) *)
From Coq Require Import String ZArith List Ascii.
From Verif Require Import Num Text SpecNumeral.
Import ListNotations.

(** tab, line feed, vertical tab, form feed, carriage return, blank *)
Definition white (c : ascii) : Prop := In c (map ascii_of_nat [9; 10; 11; 12; 13; 32]%nat).
Definition delimited (t : text) : Prop := t = [] \/ exists c r, t = c :: r /\ white c.

(** A number in a file, and its value. *)
Definition entry := (sgn * numeral)%type.
Definition entry_value {T} `{Num T} (x : entry) : T := number (fst x) (snd x).
(** A plain decimal integer. *)
Definition count_of (x : entry) (n : nat) : Prop :=
  exists ds, x = (NoSign, mkNumeral ds None None) /\ value 10 ds = Z.of_nat n /\ (Z.of_nat n < 2 ^ 32)%Z.

(** [written t l r]: the text [t] consists of the numbers [l], with white space between them, and the rest [r]. *)
Inductive written : text -> list entry -> text -> Prop :=
| written_none r : written r [] r
| written_more w s n t l r : Forall white w -> proper n -> delimited t -> written t l r ->
    written (w ++ render_sign s ++ render n ++ t) ((s, n) :: l) r.

(** The numbers of a list of pairs. *)
Definition in_turn (rows : list (entry * entry)) : list entry := flat_map (fun x => [fst x; snd x]) rows.
