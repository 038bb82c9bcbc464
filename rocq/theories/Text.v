(** * Byte strings and the C number readers used by the input files
    (the C and C++ library, as far as Source/IO/Input uses it) *)
From Coq Require Import String ZArith List Bool Ascii NArith.
From Verif Require Import Num.
Import ListNotations.
Local Open Scope Z_scope.

(** The bytes of a file, of a line buffer or of a std::string. *)
Definition text := list ascii.
Definition tx (s : string) : text := list_ascii_of_string s.
Definition str (t : text) : string := string_of_list_ascii t.

Definition code (c : ascii) : Z := Z.of_N (N_of_ascii c).

(** Equality of std::string. *)
Fixpoint teqb (a b : text) : bool :=
  match a, b with
  | [], [] => true
  | x :: a', y :: b' => Ascii.eqb x y && teqb a' b'
  | _, _ => false
  end.

(** isspace, isdigit and tolower in the "C" locale. *)
Definition isspace (c : ascii) : bool := (9 <=? code c) && (code c <=? 13) || (code c =? 32).
Definition isdigit (c : ascii) : bool := (48 <=? code c) && (code c <=? 57).
Definition tolower (c : ascii) : ascii :=
  if (65 <=? code c) && (code c <=? 90) then ascii_of_N (Z.to_N (code c + 32)) else c.
Definition lower (t : text) : text := map tolower t.

Definition newline : ascii := ascii_of_nat 10.
Definition nul : ascii := ascii_of_nat 0.

(** The blanks skipped at the start of a number. *)
Fixpoint skip_space (t : text) : text :=
  match t with
  | c :: r => if isspace c then skip_space r else t
  | [] => []
  end.

(** An optional sign: is it a minus, and the rest. *)
Definition sign (t : text) : bool * text :=
  match t with
  | c :: r => if Ascii.eqb c "-" then (true, r) else if Ascii.eqb c "+" then (false, r) else (false, t)
  | [] => (false, [])
  end.

(** The value of a digit or letter as a digit of the given base. *)
Definition digit (base : Z) (c : ascii) : option Z :=
  let n := code c in
  let v := if (48 <=? n) && (n <=? 57) then n - 48
           else if (97 <=? n) && (n <=? 122) then n - 87
           else if (65 <=? n) && (n <=? 90) then n - 55
           else 36 in
  if v <? base then Some v else None.

(** The longest run of digits: accumulated value, number of digits, rest. *)
Fixpoint digits (base acc n : Z) (t : text) : Z * Z * text :=
  match t with
  | c :: r => match digit base c with
              | Some v => digits base (acc * base + v) (n + 1) r
              | None => (acc, n, t)
              end
  | [] => (acc, n, [])
  end.

(** strtol(value, &end, 0) of a 64-bit long: [None] when nothing is converted
    ([end == value]); out-of-range values stick at the end points. *)
Definition strtol0 (t : text) : option Z :=
  let '(neg, u) := sign (skip_space t) in
  let clamp v := Z.max (- 2 ^ 63) (Z.min (2 ^ 63 - 1) (if neg then - v else v)) in
  match u with
  | c :: r =>
    if Ascii.eqb c "0" then
      match r with
      | x :: h :: q =>
        if (Ascii.eqb x "x" || Ascii.eqb x "X") && (match digit 16 h with Some _ => true | None => false end)
        then Some (clamp (fst (fst (digits 16 0 0 (h :: q)))))
        else Some (clamp (fst (fst (digits 8 0 0 u))))
      | _ => Some (clamp (fst (fst (digits 8 0 0 u))))
      end
    else match digit 10 c with
         | Some _ => Some (clamp (fst (fst (digits 10 0 0 u))))
         | None => None
         end
  | [] => None
  end.

(** An optional point and the digits after it, continuing the mantissa [m]:
    new mantissa, number of digits, rest. *)
Definition frac_part (m : Z) (t : text) : Z * Z * text :=
  match t with
  | c :: q => if Ascii.eqb c "." then digits 10 m 0 q else (m, 0, t)
  | [] => (m, 0, t)
  end.

(** A decimal number without sign at the start of the text: mantissa [m] and
    exponent [e] with value m*10^e, and the rest; [None] when there is no
    digit. *)
Definition dec_float (t : text) : option (Z * Z * text) :=
  let '(m1, n1, r1) := digits 10 0 0 t in
  let '(m2, n2, r2) := frac_part m1 r1 in
  if n1 + n2 =? 0 then None
  else match r2 with
       | c :: q =>
         if Ascii.eqb c "e" || Ascii.eqb c "E" then
           let '(neg, q1) := sign q in
           let '(x, nx, q2) := digits 10 0 0 q1 in
           if nx =? 0 then Some (m2, - n2, r2)
           else Some (m2, (if neg then - x else x) - n2, q2)
         else Some (m2, - n2, r2)
       | [] => Some (m2, - n2, r2)
       end.

(** Does the text (after blanks and sign) start like one of the other forms
    strtod accepts: inf..., nan..., or a hexadecimal number. *)
Definition special_form (u : text) : bool :=
  match lower u with
  | a :: b :: c :: r =>
    teqb [a; b; c] (tx "inf") || teqb [a; b; c] (tx "nan")
    || teqb [a; b] (tx "0x")
       && (match digit 16 c with
           | Some _ => true
           | None => Ascii.eqb c "." && match r with d :: _ => match digit 16 d with Some _ => true | None => false end | [] => false end
           end)
  | _ => false
  end.

(** The text up to its first newline. *)
Fixpoint first_line (t : text) : text :=
  match t with
  | c :: r => if Ascii.eqb c newline then [] else c :: first_line r
  | [] => []
  end.

Section Numbers.
Context {T : Type} `{Num T}.
Local Open Scope num_scope.

(** Value of the forms listed in [special_form]; nothing is assumed about it
    except that it does not look past a newline. *)
Variable special : text -> T.

Definition signed (neg : bool) (x : T) : T := if neg then nneg x else x.

(** strtod(value, &end): [None] when nothing is converted.  Decimal numbers are
    the literals of the arithmetic (correctly rounded for doubles); the other
    forms are recognised but their value is the parameter [special]. *)
Definition strtod (t : text) : option T :=
  let v := skip_space t in
  let '(neg, u) := sign v in
  if special_form u then Some (special (first_line v))
  else match dec_float u with
       | Some (m, e, _) => Some (signed neg (nlit m e))
       | None => None
       end.

(** libstdc++ num_get::_M_extract_float: the characters a stream takes for a
    number.  [mant], [dec], [sci]: a digit, a point, an exponent letter was
    seen; [aftere]: the previous character was the exponent letter.  (The
    library drops repeated leading zeros, which does not change the value.) *)
Fixpoint extract_chars (mant dec sci aftere : bool) (t : text) : text * text :=
  match t with
  | [] => ([], [])
  | c :: r =>
    if aftere && (Ascii.eqb c "+" || Ascii.eqb c "-") then
      let '(x, q) := extract_chars mant dec sci false r in (c :: x, q)
    else if isdigit c then
      let '(x, q) := extract_chars true dec sci false r in (c :: x, q)
    else if Ascii.eqb c "." && negb dec && negb sci then
      let '(x, q) := extract_chars mant true sci false r in (c :: x, q)
    else if (Ascii.eqb c "e" || Ascii.eqb c "E") && negb sci && mant then
      let '(x, q) := extract_chars mant dec true true r in (c :: x, q)
    else ([], t)
  end.

(** [stream >> value] for a double: [None] is a failed extraction (end of the
    stream, or the characters taken are not one complete number), which ends
    the reading loop; otherwise the value and the remaining characters. *)
Definition stream_double (t : text) : option (T * text) :=
  let '(neg, u) := sign (skip_space t) in
  let '(x, rest) := extract_chars false false false false u in
  match dec_float x with
  | Some (m, e, []) => Some (signed neg (nlit m e), rest)
  | _ => None
  end.

End Numbers.
