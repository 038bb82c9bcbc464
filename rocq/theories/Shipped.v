(** * The table files that come with the program as texts, and a reader of decimal numbers for them
    (the reader is not part of the code: it says what the numbers in the files are; see [written] in SpecLoad.v) *)
From Coq Require Import String ZArith List Bool Ascii.
From Verif Require Import Num Text SpecNumeral SpecLoad ShippedData.
Import ListNotations.
Local Open Scope Z_scope.

(** Tables/*.table: the bytes of the files. *)
Definition file_of (lines : list string) : text := flat_map (fun l => tx l ++ [newline]) lines.

(** ** Decimal numbers of a text *)
Record dec := mkDec { d_neg : bool; d_plain : bool; d_man : Z; d_exp : Z }.
Definition dec_value {T} `{Num T} (d : dec) : T :=
  if d_neg d then nneg (nlit (d_man d) (d_exp d)) else nlit (d_man d) (d_exp d).

Definition dval (c : ascii) : option Z :=
  match c with
  | "0" => Some 0 | "1" => Some 1 | "2" => Some 2 | "3" => Some 3 | "4" => Some 4
  | "5" => Some 5 | "6" => Some 6 | "7" => Some 7 | "8" => Some 8 | "9" => Some 9
  | _ => None
  end%char.
Definition blank (c : ascii) : bool :=
  match c with "009" | "010" | "011" | "012" | "013" | " " => true | _ => false end%char.

(** A run of digits: value continued from [acc], number of digits continued from [n], rest. *)
Fixpoint run (acc n : Z) (t : text) : Z * Z * text :=
  match t with
  | [] => (acc, n, [])
  | c :: r => match dval c with Some v => run (acc * 10 + v) (n + 1) r | None => (acc, n, t) end
  end.
Definition sign_of (t : text) : sgn * text :=
  match t with
  | "-"%char :: r => (Minus, r)
  | "+"%char :: r => (Plus, r)
  | _ => (NoSign, t)
  end.
Definition fraction (m : Z) (t : text) : option (Z * Z) * text :=
  match t with
  | "."%char :: r => let '(m', n', r') := run m 0 r in (Some (m', n'), r')
  | _ => (None, t)
  end.
(** The exponent: [None] if there is none (also if the letter is not followed by digits), its value and the rest. *)
Definition exponent_of (t : text) : option Z * text :=
  match t with
  | "e"%char :: r | "E"%char :: r =>
      let '(s, r1) := sign_of r in
      let '(x, n, r2) := run 0 0 r1 in
      if 0 <? n then (Some (match s with Minus => - x | _ => x end), r2) else (None, t)
  | _ => (None, t)
  end.
Definition ended (t : text) : bool := match t with [] => true | c :: _ => blank c end.

Definition one_number (t : text) : option (dec * text) :=
  let '(s, t1) := sign_of t in
  let '(m1, n1, t2) := run 0 0 t1 in
  let '(f, t3) := fraction m1 t2 in
  let '(x, t4) := exponent_of t3 in
  let m := match f with Some (m2, _) => m2 | None => m1 end in
  let k := match f with Some (_, n2) => n2 | None => 0 end in
  if (0 <? n1 + k) && ended t4 then
    Some (mkDec (match s with Minus => true | _ => false end)
                (match s, f, x with NoSign, None, None => true | _, _, _ => false end)
                m ((match x with Some e => e | None => 0 end) - k), t4)
  else None.
Fixpoint skip_blanks (t : text) : text :=
  match t with c :: r => if blank c then skip_blanks r else t | [] => [] end.
(** All numbers, up to something that is not a number; at most as many as [fuel] has characters. *)
Fixpoint numbers_of (fuel t : text) : list dec * text :=
  match fuel with
  | [] => ([], t)
  | _ :: f =>
      match one_number (skip_blanks t) with
      | Some (d, r) => let '(l, z) := numbers_of f r in (d :: l, z)
      | None => ([], t)
      end
  end.
Definition decimals (t : text) : list dec := fst (numbers_of t t).

(** Tables/: the files that the processes read (PhotonEmission.cpp 58-84, NonLinearBreitWheeler.cpp 81-112); the
    other files there are not used. *)
Definition h_text := file_of hsokolov_lines.
Definition ksi_text := file_of ksi_sokolov_lines.
Definition chimin_text := file_of chimin_lines.
Definition pairs_text := file_of pairprod_lines.
Definition split_text := file_of e_split_lines.
Definition eps_text := file_of epsilon_lines.
Definition logchi_text := file_of log_chi_lines.
Definition shipped_tables : list (string * text) :=
  [("hsokolov.table", h_text); ("ksi_sokolov.table", ksi_text); ("chimin.table", chimin_text); ("pairprod.table", pairs_text);
   ("e_split.table", split_text); ("epsilon.table", eps_text); ("log_chi.table", logchi_text)]%string.

(** ** Lists of decimals *)
Fixpoint pair_up {A} (l : list A) : list (A * A) :=
  match l with x :: y :: r => (x, y) :: pair_up r | _ => [] end.
Fixpoint chunks {A} (m n : nat) (l : list A) : list (list A) :=
  match n with O => [] | S k => firstn m l :: chunks m k (skipn m l) end.
(** Comparisons. *)
Definition d_int (d : dec) : Z := if d_neg d then - d_man d else d_man d.
Definition dcmp (rel : Z -> Z -> bool) (a b : dec) : bool :=
  let e := Z.min (d_exp a) (d_exp b) in rel (d_int a * 10 ^ (d_exp a - e)) (d_int b * 10 ^ (d_exp b - e)).
Definition dle := dcmp Z.leb.
Definition dlt := dcmp Z.ltb.
Fixpoint chain (rel : dec -> dec -> bool) (l : list dec) : bool :=
  match l with
  | x :: r => match r with y :: _ => rel x y && chain rel r | [] => true end
  | [] => true
  end.
Definition dlit (m e : Z) : dec := mkDec (m <? 0) false (Z.abs m) e.
Definition dnth (l : list dec) (i : nat) : dec := nth i l (dlit 0 0).
