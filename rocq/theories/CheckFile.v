(** * The copy of the parameters in input-check.txt (Source/IO/Input/FileParser.cpp, the statements with m_checkFile) *)
From Coq Require Import String ZArith List Bool Ascii.
From Verif Require Import Num Outcome Vec Units Output Text Ini IniReader FileParser.
Import ListNotations.
Local Open Scope string_scope.
Local Open Scope list_scope.

Section CheckFile.
Context {T : Type} `{Num T}.
Variable special : text -> T.
(** What the stream writes for a double (operator<< with the default format): any function. *)
Variable show : T -> text.

(** A computation that hands text to the stream m_checkFile.  The text counts as handed over when << returns; with exit() the stream object, a member of
    an object on the heap, is not destroyed, so what is still in its buffer does not reach the disk (not modelled). *)
Definition writes (A : Type) := (text * res A)%type.
Definition wret {A} (r : res A) : writes A := ([], r).
Definition wbind {A B} (x : writes A) (f : A -> writes B) : writes B :=
  match snd x with
  | Ok a => let y := f a in (fst x ++ fst y, snd y)
  | Exit c => (fst x, Exit c)
  | Throw => (fst x, Throw)
  | UB w => (fst x, UB w)
  | Fuel => (fst x, Fuel)
  end.

Definition nl : text := [newline].
(** operator<< of a std::string, an unsigned int and a bool (without boolalpha). *)
Definition put_s (s : string) : text := tx s.
Definition put_u (z : Z) : text := tx (to_string (Z.to_nat z)).
Definition put_b (b : bool) : text := tx (if b then "1" else "0").
(** "[" x " " y " " z "]": the common part of FileParser.cpp 106-109, 123-124, 147-150, 172-175, 238-241. *)
Definition put_v (v : vec T) : text := tx "[" ++ show (vx v) ++ tx " " ++ show (vy v) ++ tx " " ++ show (vz v) ++ tx "]".

(** FileParser.cpp 74-80. *)
Definition put_general (g : general T) : text :=
  tx "General input parameters " ++ nl ++
  tx "Units       = " ++ put_s (g_units g) ++ nl ++
  tx "Time step   = " ++ show (g_timeStep g) ++ nl ++
  tx "Time end    = " ++ show (g_timeEnd g) ++ nl ++
  tx "Output file = " ++ put_s (g_fileName g) ++ nl ++
  tx "Tracking    = " ++ put_b (g_tracking g) ++ nl ++
  nl ++ nl.

(** FileParser.cpp 141-151 and 166-176: the two are alike. *)
Definition put_laser (type : string) (maxE wavelength duration waist : T) (start focus : vec T) : text :=
  tx "Field input parameters " ++ nl ++
  tx "Field type  = " ++ put_s type ++ nl ++
  tx "Max E       = " ++ show maxE ++ nl ++
  tx "Duration    = " ++ show duration ++ nl ++
  tx "Waist       = " ++ show waist ++ nl ++
  tx "Wavelength  = " ++ show wavelength ++ nl ++
  tx "Start       = " ++ put_v start ++ nl ++
  tx "Focus       = " ++ put_v focus ++ nl ++
  nl ++ nl.

(** FileParser.cpp 104-110, 120-126, 141-151, 166-176; nothing without section Field. *)
Definition put_field (f : field T) : text :=
  match f with
  | NoField => []
  | StaticField e b =>
    tx "Field input parameters " ++ nl ++
    tx "Field type = " ++ put_s "static" ++ nl ++
    tx "E strength = " ++ put_v e ++ nl ++
    tx "B strength = " ++ put_v b ++ nl ++
    nl ++ nl
  | PlaneField maxE wavelength polerisation direction =>
    tx "Field input parameters " ++ nl ++
    tx "Field type  = " ++ put_s "plane" ++ nl ++
    tx "Wavelength  = " ++ show wavelength ++ nl ++
    tx "Direction   = " ++ put_v direction ++ nl ++
    tx "Polerisation = " ++ show polerisation ++ nl ++
    nl ++ nl
  | GaussianField maxE wavelength duration waist polerisation start focus => put_laser "gaussian" maxE wavelength duration waist start focus
  | FocusingField maxE wavelength duration waist polerisation start focus => put_laser "focusing" maxE wavelength duration waist start focus
  end.

(** FileParser.cpp 192-197. *)
Definition put_physics (y : physics T) : text :=
  tx "Physics parameters " ++ nl ++
  tx "Physics module used   = " ++ put_s (y_physics y) ++ nl ++
  tx "Pair production       = " ++ put_b (y_pair y) ++ nl ++
  tx "Sample fraction       = " ++ show (y_fraction y) ++ nl ++
  tx "Minimum photon energy = " ++ show (y_minEnergy y) ++ nl ++
  nl ++ nl.

(** FileParser.cpp 228-242; [i] is the number of the section. *)
Definition put_particle (i : nat) (p : particle T) : text :=
  tx "Particle " ++ tx (to_string i) ++ nl ++
  tx "Name       = " ++ put_s (p_name p) ++ nl ++
  tx "Number     = " ++ put_u (p_number p) ++ nl ++
  tx "Type       = " ++ put_s (p_type p) ++ nl ++
  tx "Energy1    = " ++ show (p_energy1 p) ++ nl ++
  tx "Energy2    = " ++ show (p_energy2 p) ++ nl ++
  tx "Radius     = " ++ show (p_radius p) ++ nl ++
  tx "Divergence     = " ++ show (p_divergence p) ++ nl ++
  tx "Duration   = " ++ show (p_duration p) ++ nl ++
  tx "Output     = " ++ put_b (p_output p) ++ nl ++
  tx "Direction  = " ++ put_v (p_direction p) ++ nl ++
  tx "Position   = " ++ put_v (p_position p) ++ nl ++
  nl ++ nl.

(** FileParser.cpp 278-285. *)
Definition put_histogram (i : nat) (h : histogram T) : text :=
  tx "Histogram " ++ tx (to_string i) ++ nl ++
  tx "Name     = " ++ put_s (h_name h) ++ nl ++
  tx "Particle = " ++ put_s (h_particle h) ++ nl ++
  tx "Time     = " ++ show (h_time h) ++ nl ++
  tx "Bins     = " ++ put_u (h_bins h) ++ nl ++
  tx "Min Bin  = " ++ show (h_minBin h) ++ nl ++
  tx "Max Bin  = " ++ show (h_maxBin h) ++ nl ++
  nl ++ nl.

(** The member m_checkOutput, and whether the stream could be opened (FileParser.cpp 13-20: a failure is reported on cerr only; writing to a stream
    that is not open does nothing). *)
Variables check opened : bool.
Definition put (t : text) : writes unit := (if check && opened then t else [], Ok tt).

Variable r : reader.

(** FileParser.cpp 63-82, 84-180, 182-199: each function reads its values (FileParser.v) and then writes them. *)
Definition read_general_w : writes (units T * general T) :=
  wbind (wret (read_general special r)) (fun ug => wbind (put (put_general (snd ug))) (fun _ => wret (Ok ug))).
Definition read_field_w (u : units T) : writes (field T) :=
  wbind (wret (read_field special r u)) (fun f => wbind (put (put_field f)) (fun _ => wret (Ok f))).
Definition read_physics_w (u : units T) : writes (physics T) :=
  let y := read_physics special r u in wbind (put (put_physics y)) (fun _ => wret (Ok y)).

(** FileParser.cpp 201-254 and 256-292: the numbered sections, each written when it has been read. *)
Fixpoint read_numbered_w {A} (one : string -> res A) (show_one : nat -> A -> text) (prefix : string) (fuel i : nat) : writes (list A) :=
  match fuel with
  | O => wret Fuel
  | S f =>
    let sec := (prefix ++ to_string i)%string in
    if has_section r sec then
      wbind (wret (one sec)) (fun a =>
      wbind (put (show_one i a)) (fun _ =>
      wbind (read_numbered_w one show_one prefix f (S i)) (fun l => wret (Ok (a :: l)))))
    else wret (Ok [])
  end.

(** FileParser.cpp 6-26 after the reader has been made. *)
Definition read_all_w : writes (parameters T) :=
  wbind (wret (check_vitals r)) (fun _ =>
  wbind read_general_w (fun ug =>
  wbind (read_field_w (fst ug)) (fun f =>
  wbind (read_numbered_w (read_particle special r (fst ug)) put_particle "Particle" (S (length (r_sections r))) 1) (fun ps =>
  wbind (read_physics_w (fst ug)) (fun y =>
  wbind (read_numbered_w (read_histogram special r (fst ug)) put_histogram "Histogram" (S (length (r_sections r))) 1) (fun hs =>
  wret (Ok (mkParams (snd ug) f y ps hs)))))))).
End CheckFile.

(** FileParser.cpp 6-26: the constructor; the text and the parameters. *)
Definition file_parser_w {T} `{Num T} (special : text -> T) (show : T -> text) (check opened : bool) (p : path) : writes (parameters T) :=
  wbind (wret (new_reader p)) (fun x => read_all_w special show check opened (fst x)).
