(** * The INI file format (Source/IO/Input/ini.cpp) *)
From Coq Require Import String ZArith List Bool Ascii.
From Verif Require Import Text.
Import ListNotations.
Local Open Scope Z_scope.

(** INI_MAX_LINE 200 (ini.hh): fgets stores at most 199 characters;
    MAX_SECTION and MAX_NAME 50 (ini.cpp 24-25): strncpy0 keeps 49. *)
Definition line_max : nat := 199.
Definition name_max : nat := 49.

(** fgets (called at ini.cpp 116): at most [n] characters, up to and including
    a newline, and what is left of the file. *)
Fixpoint fgets (n : nat) (t : text) : text * text :=
  match n, t with
  | S n', c :: r =>
    if Ascii.eqb c newline then ([c], r)
    else let '(x, q) := fgets n' r in (c :: x, q)
  | _, _ => ([], t)
  end.

(** The successive buffers of the while loop (ini.cpp 116); the loop ends when
    fgets finds the end of the file.  The fuel is the length of the file; each
    turn takes at least one character. *)
Fixpoint buffers (fuel : nat) (t : text) : list text :=
  match fuel, t with
  | S f, _ :: _ => let '(x, q) := fgets line_max t in x :: buffers f q
  | _, _ => []
  end.
Definition lines (t : text) : list text := buffers (length t) t.

(** The buffer seen as a C string: it ends at the first NUL. *)
Fixpoint cstr (t : text) : text :=
  match t with
  | c :: r => if Ascii.eqb c nul then [] else c :: cstr r
  | [] => []
  end.

(** ini.cpp 34-40. *)
Fixpoint rstrip (t : text) : text :=
  match t with
  | c :: r => match rstrip r with
              | [] => if isspace c then [] else [c]
              | r' => c :: r'
              end
  | [] => []
  end.

(** ini.cpp 43-48. *)
Definition lskip (t : text) : text := skip_space t.

(** ini.cpp 53-68: the text before the first character satisfying [stop] or
    before an inline comment (a ';' preceded by white space), and the text
    from there on.  [stop] stands for membership of the character set; the
    null pointer is the empty set. *)
Fixpoint find_chars_or_comment (was_space : bool) (stop : ascii -> bool) (t : text) : text * text :=
  match t with
  | c :: r =>
    if stop c || was_space && Ascii.eqb c ";" then ([], t)
    else let '(x, q) := find_chars_or_comment (isspace c) stop r in (c :: x, q)
  | [] => ([], [])
  end.

(** ini.cpp 71-76 with a 50-character destination. *)
Definition strncpy0 (t : text) : text := firstn name_max t.

(** ini.cpp 137-142: the byte order mark, on the first line only. *)
Definition is_bom (t : text) : bool :=
  match t with
  | a :: b :: c :: _ => (code a =? 239) && (code b =? 187) && (code c =? 191)
  | _ => false
  end.

Definition is_close (c : ascii) : bool := Ascii.eqb c "]".
Definition is_sep (c : ascii) : bool := Ascii.eqb c "=" || Ascii.eqb c ":".
Definition no_char (c : ascii) : bool := false.

(** What one line does. *)
Inductive action :=
| Nothing                                   (* comment or blank line *)
| NewSection (s : text)
| Pair (name value : text)                  (* name=value *)
| Continue (value : text)                   (* more of the previous value *)
| Bad.                                      (* no ']' or no '=' *)

(** ini.cpp 134-195 for the buffer [buf]: [first]: it is the first line;
    [cont]: prev_name is not empty.  The strings handed on are C strings. *)
Definition classify (first cont : bool) (buf : text) : action :=
  let line := cstr buf in
  let bom := first && is_bom line in
  let start0 := if bom then skipn 3 line else line in
  let start := lskip (rstrip start0) in
  match start with
  | [] => Nothing
  | c :: r =>
    let indented := bom || match start0 with d :: _ => isspace d | [] => false end in
    if Ascii.eqb c ";" || Ascii.eqb c "#" then Nothing
    else if cont && indented then Continue start
    else if Ascii.eqb c "[" then
      let '(x, q) := find_chars_or_comment false is_close r in
      match q with
      | e :: _ => if is_close e then NewSection (strncpy0 x) else Bad
      | [] => Bad
      end
    else
      let '(x, q) := find_chars_or_comment false is_sep start in
      match q with
      | e :: v =>
        if is_sep e
        then Pair (rstrip x) (rstrip (lskip (fst (find_chars_or_comment false no_char v))))
        else Bad
      | [] => Bad
      end
  end.

Section Parse.
(** The handler and its user pointer: it returns the new user state and
    whether it was successful. *)
Context {U : Type}.
Variable handler : U -> text -> text -> text -> U * bool.

(** The local variables of ini_parse_stream (ini.cpp 94-102) and the user
    state; [p_error] is the number of the first bad line, 0 if none. *)
Record pstate := mkP {
  p_section : text; p_prev : text; p_lineno : Z; p_error : Z; p_user : U }.

Definition set_error (s : pstate) : pstate :=
  mkP (p_section s) (p_prev s) (p_lineno s)
      (if p_error s =? 0 then p_lineno s else p_error s) (p_user s).

(** A handler call (ini.cpp 154-155 and 186-187). *)
Definition call (s : pstate) (name value : text) : pstate :=
  let '(u, ok) := handler (p_user s) (p_section s) name value in
  let s' := mkP (p_section s) (p_prev s) (p_lineno s) (p_error s) u in
  if ok then s' else set_error s'.

(** ini.cpp 116-203: one turn of the loop. *)
Definition parse_line (s0 : pstate) (buf : text) : pstate :=
  let s := mkP (p_section s0) (p_prev s0) (p_lineno s0 + 1) (p_error s0) (p_user s0) in
  match classify (p_lineno s =? 1) (match p_prev s with [] => false | _ => true end) buf with
  | Nothing => s
  | NewSection x => mkP x [] (p_lineno s) (p_error s) (p_user s)
  | Continue v => call s (p_prev s) v
  | Pair name v =>
    call (mkP (p_section s) (strncpy0 name) (p_lineno s) (p_error s) (p_user s)) name v
  | Bad => set_error s
  end.

(** ini.cpp 79-212 (with ini_parse_file 215-218): the user state at the end
    and the return value.  (The line number and the error are C ints; files of
    2^31 lines are not considered.) *)
Definition parse (file : text) (u : U) : U * Z :=
  let s := fold_left parse_line (lines file) (mkP [] [] 0 0 u) in
  (p_user s, p_error s).

(** ini.cpp 221-232: [None] is a file that cannot be opened. *)
Definition ini_parse (file : option text) (u : U) : U * Z :=
  match file with
  | None => (u, -1)
  | Some t => parse t u
  end.

End Parse.
Arguments pstate : clear implicits.
