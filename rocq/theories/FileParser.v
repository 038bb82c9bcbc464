(** * The simulation parameters read from the input file
    (Source/IO/Input/FileParser.{hh,cpp}) *)
From Coq Require Import String ZArith List Bool Ascii.
From Verif Require Import Num Outcome Vec Units Output Text Ini IniReader.
Import ListNotations.
Local Open Scope Z_scope.

Section FileParser.
Context {T : Type} `{Num T}.
Variable special : text -> T.
Local Open Scope num_scope.

(** FileParser.hh 8-16. *)
Record general := mkGeneral {
  g_units : string; g_timeStep : T; g_timeEnd : T; g_fileName : string; g_tracking : bool }.

(** FileParser.hh 18-31: the members set for each type of field; the others are
    left uninitialised and not used by the program.  [NoField] is the record
    of a file without section Field (its type is the empty string). *)
Inductive field :=
| NoField
| StaticField (e b : vec T)
| PlaneField (maxE wavelength polerisation : T) (direction : vec T)
| GaussianField (maxE wavelength duration waist polerisation : T) (start focus : vec T)
| FocusingField (maxE wavelength duration waist polerisation : T) (start focus : vec T).

(** FileParser.hh 33-47. *)
Record particle := mkParticle {
  p_number : Z; p_name : string; p_type : string; p_distro : string;
  p_position : vec T; p_direction : vec T; p_energy1 : T; p_energy2 : T;
  p_radius : T; p_divergence : T; p_duration : T; p_output : bool }.

(** FileParser.hh 49-55. *)
Record physics := mkPhysics {
  y_physics : string; y_minEnergy : T; y_fraction : T; y_pair : bool }.

(** FileParser.hh 57-66. *)
Record histogram := mkHistogram {
  h_name : string; h_particle : string; h_type : string; h_time : T; h_bins : Z;
  h_minBin : T; h_maxBin : T }.

Record parameters := mkParams {
  in_general : general; in_field : field; in_physics : physics;
  in_particles : list particle; in_histograms : list histogram }.

Variable r : reader.

(** std::find over the section names: exact spelling. *)
Definition has_section (name : string) : bool := existsb (teqb (tx name)) (r_sections r).

(** The getters with the literals of the source. *)
Definition real (section name : string) (dflt : T) : T := get_real special r (tx section) (tx name) dflt.
Definition vect (section name : string) : res (vec T) := get_vector r (tx section) (tx name) vzero.
Definition strg (section name dflt : string) : string := str (get_string r (tx section) (tx name) (tx dflt)).
Definition bool_ (section name : string) (dflt : bool) : bool := get_boolean r (tx section) (tx name) dflt.
Definition int_ (section name : string) (dflt : Z) : Z := get_integer r (tx section) (tx name) dflt.
Definition has (section name : string) : bool := has_value r (tx section) (tx name).

(** FileParser.cpp 38-61. *)
Definition check_vitals : res unit :=
  if negb (has_section "General") then Exit 1
  else if negb (has "General" "time_step") then Exit 1
  else if negb (has "General" "time_end") then Exit 1
  else if negb (has "General" "units") then Exit 1
  else Ok tt.

(** FileParser.cpp 63-69 (the copy of the parameters written to
    input-check.txt, here and below, is in CheckFile.v). *)
Definition read_general : res (units T * general) :=
  let name := strg "General" "units" "None" in
  let* u := units_system name in
  Ok (u, mkGeneral name
           (real "General" "time_step" n0 / ref_time u)
           (real "General" "time_end" n0 / ref_time u)
           (strg "General" "file_name" "out.h5")
           (bool_ "General" "tracking" false)).

(** FileParser.cpp 84-180.  Each vector is read before it is divided; the order
    of the reads only matters for which of several exits with code 1 happens. *)
Definition read_field (u : units T) : res field :=
  if has_section "Field" then
    let type := strg "Field" "field_type" "" in
    if String.eqb type "static" then
      let* e := vect "Field" "e_field" in
      let* b := vect "Field" "b_field" in
      Ok (StaticField (vdivs e (ref_eField u)) (vdivs b (ref_bField u)))
    else if String.eqb type "plane" then
      let* d := vect "Field" "direction" in
      Ok (PlaneField (real "Field" "e_max" n0 / ref_eField u)
                     (real "Field" "wavelength" n1 / ref_length u)
                     (real "Field" "polerisation" n0) d)
    else if String.eqb type "gaussian" then
      let* st := vect "Field" "start" in
      let* fo := vect "Field" "focus" in
      Ok (GaussianField (real "Field" "e_max" n0 / ref_eField u)
                        (real "Field" "wavelength" n1 / ref_length u)
                        (real "Field" "duration" n1 / ref_time u)
                        (real "Field" "waist" n1 / ref_length u)
                        (real "Field" "polerisation" n0)
                        (vdivs st (ref_length u)) (vdivs fo (ref_length u)))
    else if String.eqb type "focusing" then
      let* st := vect "Field" "start" in
      let* fo := vect "Field" "focus" in
      Ok (FocusingField (real "Field" "e_max" n0 / ref_eField u)
                        (real "Field" "wavelength" n1 / ref_length u)
                        (real "Field" "duration" n1 / ref_time u)
                        (real "Field" "waist" n1 / ref_length u)
                        (real "Field" "polerisation" n0)
                        (vdivs st (ref_length u)) (vdivs fo (ref_length u)))
    else Exit 1
  else Ok NoField.

(** FileParser.cpp 182-188. *)
Definition read_physics (u : units T) : physics :=
  mkPhysics (strg "Physics" "radiation_model" "")
            (real "Physics" "min_energy" n0 / ref_energy u)
            (real "Physics" "sample_fraction" n1)
            (bool_ "Physics" "pair_production" false).

(** FileParser.cpp 210-224: the parameters of one source.  Number is an
    unsigned int, GetInteger a long. *)
Definition read_particle (u : units T) (sec : string) : res particle :=
  let* pos := vect sec "position" in
  let* dir := vect sec "direction" in
  Ok (mkParticle (u32 (int_ sec "number_particles" 1))
        (strg sec "name" sec)
        (strg sec "particle_type" "Electron")
        (strg sec "energy_distribution" "mono")
        (vdivs pos (ref_length u)) dir
        (real sec "energy_mean" n0 / ref_energy u)
        (real sec "energy_sig" n0 / ref_energy u)
        (real sec "radius" n0 / ref_length u)
        (real sec "divergence" n0)
        (real sec "duration" n0 / ref_time u)
        (bool_ sec "output" false)).

(** FileParser.cpp 265-273. *)
Definition read_histogram (u : units T) (sec : string) : res histogram :=
  Ok (mkHistogram (strg sec "name" sec) (strg sec "particle" "") (strg sec "type" "")
        (real sec "time" n0 / ref_time u)
        (u32 (int_ sec "bins" 1))
        (real sec "min_bin" n0) (real sec "max_bin" n1)).

(** FileParser.cpp 201-254 and 256-292: the while(true) loop over the numbered
    sections.  The fuel is one more than the number of sections. *)
Fixpoint read_numbered {A} (one : string -> res A) (prefix : string) (fuel i : nat) : res (list A) :=
  match fuel with
  | O => Fuel
  | S f =>
    let sec := (prefix ++ to_string i)%string in
    if has_section sec then
      let* a := one sec in
      let* l := read_numbered one prefix f (S i) in
      Ok (a :: l)
    else Ok []
  end.

Definition read_all : res parameters :=
  let* _ := check_vitals in
  let* ug := read_general in
  let* f := read_field (fst ug) in
  let* ps := read_numbered (read_particle (fst ug)) "Particle" (S (length (r_sections r))) 1 in
  let y := read_physics (fst ug) in
  let* hs := read_numbered (read_histogram (fst ug)) "Histogram" (S (length (r_sections r))) 1 in
  Ok (mkParams (snd ug) f y ps hs).

End FileParser.
Arguments general : clear implicits.
Arguments field : clear implicits.
Arguments particle : clear implicits.
Arguments physics : clear implicits.
Arguments histogram : clear implicits.
Arguments parameters : clear implicits.

(** FileParser.cpp 6-26: the constructor. *)
Definition file_parser {T} `{Num T} (special : text -> T) (p : path) : res (parameters T) :=
  let* x := new_reader p in read_all special (fst x).
