(** * The settings read from an INI file (Source/IO/Input/INIReader.cpp) *)
From Coq Require Import String ZArith List Bool Ascii.
From Verif Require Import Num Outcome Vec Text Ini.
Import ListNotations.
Local Open Scope Z_scope.

(** The members _values (a std::map, as a list with at most one entry per key)
    and _sections. *)
Record reader := mkReader { r_values : list (text * text); r_sections : list text }.
Definition empty_reader : reader := mkReader [] [].

Fixpoint find (k : text) (l : list (text * text)) : option text :=
  match l with
  | (k', v) :: r => if teqb k k' then Some v else find k r
  | [] => None
  end.

(** Assigning to an existing entry or creating it. *)
Fixpoint assign (k v : text) (l : list (text * text)) : list (text * text) :=
  match l with
  | (k', v') :: r => if teqb k k' then (k, v) :: r else (k', v') :: assign k v r
  | [] => [(k, v)]
  end.

(** INIReader.cpp 130-136. *)
Definition make_key (section name : text) : text :=
  lower (section ++ "="%char :: name).

(** INIReader.cpp 143-157. *)
Definition value_handler (r : reader) (section name value : text) : reader * bool :=
  let key := make_key section name in
  let old := match find key (r_values r) with Some v => v | None => [] end in
  let new := match old with [] => value | _ => old ++ newline :: value end in
  let secs := if existsb (teqb section) (r_sections r) then r_sections r
              else r_sections r ++ [section] in
  (mkReader (assign key new (r_values r)) secs, true).

(** A path: nothing there, or a file with its contents ([None] when it cannot
    be opened for reading). *)
Inductive path := Missing | Present (contents : option text).

(** INIReader.cpp 23-34. *)
Definition new_reader (p : path) : res (reader * Z) :=
  match p with
  | Missing => Exit 1
  | Present f => Ok (ini_parse value_handler f empty_reader)
  end.

(** INIReader.cpp 41-46. *)
Definition get_text (r : reader) (section name dflt : text) : text :=
  match find (make_key section name) (r_values r) with Some v => v | None => dflt end.

(** INIReader.cpp 48-52. *)
Definition get_string (r : reader) (section name dflt : text) : text :=
  match get_text r section name [] with [] => dflt | v => v end.

(** The C string of a std::string (c_str() seen by strtol and strtod). *)
Definition c_str (t : text) : text := cstr t.

(** INIReader.cpp 54-62. *)
Definition get_integer (r : reader) (section name : text) (dflt : Z) : Z :=
  match strtol0 (c_str (get_text r section name [])) with Some n => n | None => dflt end.

(** INIReader.cpp 73-84. *)
Definition get_boolean (r : reader) (section name : text) (dflt : bool) : bool :=
  let v := lower (get_text r section name []) in
  if teqb v (tx "true") || teqb v (tx "yes") || teqb v (tx "on") || teqb v (tx "1") then true
  else if teqb v (tx "false") || teqb v (tx "no") || teqb v (tx "off") || teqb v (tx "0") then false
  else dflt.

(** INIReader.cpp 124-128. *)
Definition has_value (r : reader) (section name : text) : bool :=
  match find (make_key section name) (r_values r) with Some _ => true | None => false end.

Section Real.
Context {T : Type} `{Num T}.
Variable special : text -> T.

(** INIReader.cpp 64-71. *)
Definition get_real (r : reader) (section name : text) (dflt : T) : T :=
  match strtod special (c_str (get_text r section name [])) with Some x => x | None => dflt end.

(** INIReader.cpp 89-102: the characters that are kept.  (isdigit of a byte above
    127, formally undefined for a negative char, is taken to be false.) *)
Definition vector_char (c : ascii) : bool :=
  Ascii.eqb c "." || Ascii.eqb c "-" || Ascii.eqb c " " || Ascii.eqb c "e" || isdigit c.

(** [vector[i] = value] (ThreeVector.hh operator[]). *)
Definition vset (v : vec T) (i : nat) (x : T) : vec T :=
  match i with
  | O => mkV x (vy v) (vz v)
  | S O => mkV (vx v) x (vz v)
  | _ => mkV (vx v) (vy v) x
  end.

(** INIReader.cpp 112-120: [i] numbers have been stored in [v]; the fuel is
    one more than the number of characters left, every number takes one. *)
Fixpoint read_vector (fuel : nat) (t : text) (i : nat) (v : vec T) : res (vec T) :=
  match fuel with
  | O => Fuel
  | S f =>
    match stream_double t with
    | None => Ok v
    | Some (x, rest) =>
      if Nat.eqb i 3 then Exit 1 else read_vector f rest (S i) (vset v i x)
    end
  end.

(** INIReader.cpp 86-122 (the default is not used); the constructor of
    ThreeVector sets zeros (ThreeVector.hh 18-23). *)
Definition get_vector (r : reader) (section name : text) (dflt : vec T) : res (vec T) :=
  let t := filter vector_char (get_text r section name []) in
  read_vector (S (length t)) t 0 (vzero).

End Real.
