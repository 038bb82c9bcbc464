(** * Written numbers (independent of the readers) *)
From Coq Require Import String ZArith List Bool Ascii.
From Verif Require Import Num Text.
Import ListNotations.
Local Open Scope Z_scope.

Fixpoint index (c : ascii) (l : text) (i : Z) : option Z :=
  match l with
  | [] => None
  | d :: r => if Ascii.eqb c d then Some i else index c r (i + 1)
  end.

(** The value of a digit character (0-9, a-f, A-F). *)
Definition digit_value (c : ascii) : option Z :=
  match index c (tx "0123456789abcdef") 0 with
  | Some v => Some v
  | None => index c (tx "0123456789ABCDEF") 0
  end.

(** [c] is a digit of the base. *)
Definition is_digit (base : Z) (c : ascii) : Prop := exists v, digit_value c = Some v /\ v < base.

(** Positional value of a digit string. *)
Fixpoint value (base : Z) (ds : text) : Z :=
  match ds with
  | [] => 0
  | c :: r => (match digit_value c with Some v => v | None => 0 end) * base ^ Z.of_nat (length r) + value base r
  end.

(** A sign: none, + or -. *)
Inductive sgn := NoSign | Plus | Minus.
Definition render_sign (s : sgn) : text :=
  match s with NoSign => [] | Plus => tx "+" | Minus => tx "-" end.

(** A decimal number: digits, optional fraction, optional exponent. *)
Inductive letter := SmallE | CapitalE.
Definition render_letter (c : letter) : text := match c with SmallE => tx "e" | CapitalE => tx "E" end.
Record numeral := mkNumeral { ip : text; fp : option text; ex : option (letter * sgn * text) }.

Definition render_frac (f : option text) : text := match f with None => [] | Some ds => tx "." ++ ds end.
Definition render_exp (e : option (letter * sgn * text)) : text :=
  match e with None => [] | Some (c, s, ds) => render_letter c ++ render_sign s ++ ds end.
Definition render (n : numeral) : text := ip n ++ render_frac (fp n) ++ render_exp (ex n).

Definition frac_digits (n : numeral) : text := match fp n with None => [] | Some ds => ds end.

Definition proper (n : numeral) : Prop :=
  Forall (is_digit 10) (ip n) /\ Forall (is_digit 10) (frac_digits n) /\
  ip n ++ frac_digits n <> [] /\
  match ex n with None => True | Some (_, _, ds) => Forall (is_digit 10) ds /\ ds <> [] end.

(** Its value is [mantissa * 10 ^ exponent]. *)
Definition mantissa (n : numeral) : Z := value 10 (ip n ++ frac_digits n).
Definition exponent (n : numeral) : Z :=
  match ex n with
  | None => 0
  | Some (_, Minus, ds) => - value 10 ds
  | Some (_, _, ds) => value 10 ds
  end - Z.of_nat (length (frac_digits n)).

(** The number written as sign and numeral, in a given arithmetic. *)
Definition number {T} `{Num T} (s : sgn) (n : numeral) : T :=
  match s with
  | Minus => nneg (nlit (mantissa n) (exponent n))
  | _ => nlit (mantissa n) (exponent n)
  end.

(** Numbers with blanks before each of them and [j] blanks at the end. *)
Definition blanks (k : nat) : text := repeat " "%char k.
Definition spaced (l : list (nat * sgn * numeral)) (j : nat) : text :=
  flat_map (fun x => blanks (fst (fst x)) ++ render_sign (snd (fst x)) ++ render (snd x)) l ++ blanks j.
Definition separated (l : list (nat * sgn * numeral)) : Prop :=
  match l with
  | [] => True
  | _ :: r => Forall (fun x => (1 <= fst (fst x))%nat) r
  end.

(** A long: the value or the nearer end of its range. *)
Definition long_range (z : Z) : Z := Z.max (- 2 ^ 63) (Z.min (2 ^ 63 - 1) z).
Definition apply_sign (s : sgn) (z : Z) : Z := match s with Minus => - z | _ => z end.
