(** * The INI parser on its character arrays (Source/IO/Input/ini.cpp)

    The parser of Ini.v works on texts.  Here are the same functions as the C code has them: character arrays of fixed length,
    pointers into them (a pointer is the array and an index), terminating NULs, changes in place.  Reading or writing outside an
    array is undefined behaviour. *)
From Coq Require Import String ZArith List Bool Ascii.
From Verif Require Import Outcome Text.
Import ListNotations.
Local Open Scope nat_scope.

Definition chars := list ascii.

(** [*p] *)
Definition ld (b : chars) (i : nat) : res ascii :=
  match nth_error b i with Some c => Ok c | None => UB OutOfBounds end.
(** [*p = c] *)
Definition st (b : chars) (i : nat) (c : ascii) : res chars :=
  if i <? length b then Ok (upd b i c) else UB OutOfBounds.

(** strlen and the C string at an address; the fuel is the length of the array, which the loop cannot survive. *)
Fixpoint c_string (fuel : nat) (b : chars) (i : nat) : res text :=
  let* c := ld b i in
  if Ascii.eqb c nul then Ok []
  else match fuel with
       | O => Fuel
       | S f => let* r := c_string f b (S i) in Ok (c :: r)
       end.
Definition string_at (b : chars) (i : nat) : res text := c_string (length b) b i.
Definition strlen (b : chars) (i : nat) : res nat := let* t := string_at b i in Ok (length t).

(** ini.cpp 34-40; [n] is [p - s]. *)
Fixpoint m_rstrip_loop (b : chars) (s n : nat) : res chars :=
  match n with
  | O => Ok b
  | S m =>
    let* c := ld b (s + m) in
    if isspace c then let* b' := st b (s + m) nul in m_rstrip_loop b' s m
    else Ok b
  end.
Definition m_rstrip (b : chars) (s : nat) : res chars :=
  let* n := strlen b s in m_rstrip_loop b s n.

(** ini.cpp 43-48. *)
Fixpoint m_lskip_loop (fuel : nat) (b : chars) (s : nat) : res nat :=
  let* c := ld b s in
  if (negb (Ascii.eqb c nul) && isspace c)%bool then
    match fuel with O => Fuel | S f => m_lskip_loop f b (S s) end
  else Ok s.
Definition m_lskip (b : chars) (s : nat) : res nat := m_lskip_loop (length b) b s.

(** strchr on a literal: the terminating NUL is found too. *)
Definition strchr (l : text) (c : ascii) : bool := existsb (Ascii.eqb c) l || Ascii.eqb c nul.

(** ini.cpp 53-68; [None] is the null pointer. *)
Fixpoint m_find_loop (fuel : nat) (was_space : bool) (cs : option text) (b : chars) (s : nat) : res nat :=
  let* c := ld b s in
  if (negb (Ascii.eqb c nul) && match cs with None => true | Some l => negb (strchr l c) end
      && negb (was_space && strchr (tx ";") c))%bool
  then match fuel with O => Fuel | S f => m_find_loop f (isspace c) cs b (S s) end
  else Ok s.
Definition m_find (cs : option text) (b : chars) (s : nat) : res nat := m_find_loop (length b) false cs b s.

(** strncpy (called at ini.cpp 73): [n] characters are written at [i], the source up to its NUL and NULs from there on. *)
Fixpoint m_strncpy (n : nat) (d : chars) (i : nat) (b : chars) (s : nat) : res chars :=
  match n with
  | O => Ok d
  | S m =>
    let* c := ld b s in
    let* d' := st d i c in
    m_strncpy m d' (S i) b (if Ascii.eqb c nul then s else S s)
  end.
(** ini.cpp 71-76. *)
Definition m_strncpy0 (d : chars) (b : chars) (s size : nat) : res chars :=
  let* d' := m_strncpy (size - 1) d 0 b s in
  st d' (size - 1) nul.

Section Stream.
Context {U Str : Type}.
(** The handler gets C strings; [reader] is a function like fgets: [None] is the null pointer, otherwise the array it has written
    and what is left of the stream. *)
Variable handler : U -> text -> text -> text -> U * bool.
Variable reader : chars -> nat -> Str -> res (option (chars * Str)).

(** The local variables of ini_parse_stream (ini.cpp 84-102). *)
Record vars := mkVars {
  m_line : chars; m_section : chars; m_prev : chars; m_lineno : Z; m_error : Z; m_user : U }.

Definition m_set_error (v : vars) : vars :=
  mkVars (m_line v) (m_section v) (m_prev v) (m_lineno v)
         (if (m_error v =? 0)%Z then m_lineno v else m_error v) (m_user v).

(** ini.cpp 154-155 and 186-187: [name] and [value] are pointers into the given arrays. *)
Definition m_call (v : vars) (nb : chars) (name : nat) (vb : chars) (value : nat) : res vars :=
  let* s := string_at (m_section v) 0 in
  let* n := string_at nb name in
  let* x := string_at vb value in
  let '(u, ok) := handler (m_user v) s n x in
  let v' := mkVars (m_line v) (m_section v) (m_prev v) (m_lineno v) (m_error v) u in
  Ok (if ok then v' else m_set_error v').

Definition set_line (v : vars) (b : chars) : vars :=
  mkVars b (m_section v) (m_prev v) (m_lineno v) (m_error v) (m_user v).
Definition set_prev (v : vars) (b : chars) : vars :=
  mkVars (m_line v) (m_section v) b (m_lineno v) (m_error v) (m_user v).
Definition set_section (v : vars) (b : chars) : vars :=
  mkVars (m_line v) b (m_prev v) (m_lineno v) (m_error v) (m_user v).

(** ini.cpp 137-142: the three comparisons, each made only if the ones before it hold. *)
Definition m_bom (v : vars) : res nat :=
  if (m_lineno v =? 1)%Z then
    let* a := ld (m_line v) 0 in
    if (code a =? 239)%Z then
      let* b := ld (m_line v) 1 in
      if (code b =? 187)%Z then
        let* c := ld (m_line v) 2 in
        Ok (if (code c =? 191)%Z then 3 else 0)
      else Ok 0
    else Ok 0
  else Ok 0.

(** ini.cpp 156-170: a line that starts with '[' at [start]. *)
Definition m_section_line (v : vars) (start : nat) : res vars :=
  let* e := m_find (Some (tx "]")) (m_line v) (S start) in
  let* c := ld (m_line v) e in
  if Ascii.eqb c "]" then
    let* b := st (m_line v) e nul in
    let* sec := m_strncpy0 (m_section v) b (S start) 50 in
    let* prev := st (m_prev v) 0 nul in
    Ok (set_prev (set_section (set_line v b) sec) prev)
  else Ok (m_set_error v).

(** ini.cpp 171-195: a line that should be a setting. *)
Definition m_pair_line (v : vars) (start : nat) : res vars :=
  let* e := m_find (Some (tx "=:")) (m_line v) start in
  let* c := ld (m_line v) e in
  if (Ascii.eqb c "=" || Ascii.eqb c ":")%bool then
    let* b := st (m_line v) e nul in
    let* b := m_rstrip b start in
    let* e2 := m_find None b (S e) in
    let* c2 := ld b e2 in
    let* b := (if Ascii.eqb c2 nul then Ok b else st b e2 nul) in
    let* value := m_lskip b (S e) in
    let* b := m_rstrip b value in
    let* prev := m_strncpy0 (m_prev v) b start 50 in
    m_call (set_prev (set_line v b) prev) b start b value
  else Ok (m_set_error v).

(** ini.cpp 134-200: one turn of the loop, after the reader has filled the line. *)
Definition m_turn (v0 : vars) : res vars :=
  let v := mkVars (m_line v0) (m_section v0) (m_prev v0) (m_lineno v0 + 1) (m_error v0) (m_user v0) in
  let* start0 := m_bom v in
  let* b := m_rstrip (m_line v) start0 in
  let* start := m_lskip b start0 in
  let v := set_line v b in
  let* c := ld b start in
  if strchr (tx ";#") c then Ok v
  else
    let* p := ld (m_prev v) 0 in
    if (negb (Ascii.eqb p nul) && negb (Ascii.eqb c nul) && (0 <? start))%bool
    then m_call v (m_prev v) 0 b start
    else if Ascii.eqb c "[" then m_section_line v start
    else if negb (Ascii.eqb c nul) then m_pair_line v start
    else Ok v.

(** ini.cpp 116-203, with the line array of INI_MAX_LINE = 200 characters (ini.hh 99, 105: on the stack, no reallocation). *)
Fixpoint m_loop (fuel : nat) (v : vars) (s : Str) : res vars :=
  match fuel with
  | O => Fuel
  | S f =>
    let* x := reader (m_line v) 200 s in
    match x with
    | None => Ok v
    | Some (b, s') => let* v' := m_turn (set_line v b) in m_loop f v' s'
    end
  end.

(** ini.cpp 79-212; [garbage] is what the line array holds at the start; section and prev_name are 50 NULs (94-95). *)
Definition m_parse_stream (fuel : nat) (garbage : chars) (s : Str) (u : U) : res (U * Z) :=
  let* v := m_loop fuel (mkVars garbage (repeat nul 50) (repeat nul 50) 0 0 u) s in
  Ok (m_user v, m_error v).

End Stream.

(** fgets (C standard): at most [num - 1] characters, up to and including a newline, then a NUL; the null pointer, and an unchanged
    array, if the file is at its end.  The stream is what is left of the file. *)
Fixpoint fgets_loop (n : nat) (b : chars) (i : nat) (f : text) : res (chars * nat * text) :=
  match n, f with
  | S m, c :: r =>
    let* b' := st b i c in
    if Ascii.eqb c newline then Ok (b', S i, r) else fgets_loop m b' (S i) r
  | _, _ => Ok (b, i, f)
  end.
Definition m_fgets (b : chars) (num : nat) (f : text) : res (option (chars * text)) :=
  match f with
  | [] => Ok None
  | _ => let* x := fgets_loop (num - 1) b 0 f in
         let '(b', i, r) := x in
         let* b2 := st b' i nul in Ok (Some (b2, r))
  end.

(** ini.cpp 27-31: the string being read (an array of characters), the position and the number of characters left. *)
Record ctx := mkCtx { x_mem : chars; x_ptr : nat; x_left : nat }.

(** ini.cpp 245-252. *)
Fixpoint string_loop (num : nat) (b : chars) (i : nat) (x : ctx) : res (chars * nat * ctx) :=
  match num, x_left x with
  | S (S _ as n), S l =>
    let* c := ld (x_mem x) (x_ptr x) in
    let x' := mkCtx (x_mem x) (S (x_ptr x)) l in
    let* b' := st b i c in
    if Ascii.eqb c newline then Ok (b', S i, x') else string_loop n b' (S i) x'
  | _, _ => Ok (b, i, x)
  end.
(** ini.cpp 236-258. *)
Definition ini_reader_string (b : chars) (num : nat) (x : ctx) : res (option (chars * ctx)) :=
  if ((x_left x =? 0) || (num <? 2))%bool then Ok None
  else
    let* r := string_loop num b 0 x in
    let '(b', i, x') := r in
    let* b2 := st b' i nul in
    Ok (Some (b2, x')).

(** ini.cpp 215-218 on what the file holds; every turn takes at least one character, so there are at most as many turns as
    characters, and the one that finds the end. *)
Definition m_parse_file {U} (handler : U -> text -> text -> text -> U * bool) (garbage : chars) (file : text) (u : U) : res (U * Z) :=
  m_parse_stream handler m_fgets (S (length file)) garbage file u.

(** ini.cpp 261-268: [mem] is the array the argument points to the start of. *)
Definition m_parse_string {U} (handler : U -> text -> text -> text -> U * bool) (garbage : chars) (mem : chars) (u : U) : res (U * Z) :=
  let* n := strlen mem 0 in
  m_parse_stream handler ini_reader_string (S n) garbage (mkCtx mem 0 n) u.
