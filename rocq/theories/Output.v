(** * The output manager (Source/IO/Output/OutputManager.{hh,cpp}), without MPI *)
From Coq Require Import String ZArith List Bool DecimalString.
From Verif Require Import Num Outcome Vec Units Particle ParticleList Fields Histogram Hdf5.
Import ListNotations.
Local Open Scope string_scope.

(** std::to_string of an unsigned number. *)
Definition to_string (n : nat) : string := NilZero.string_of_uint (Nat.to_uint n).

Section Output.
Context {T : Type} `{Num T}.
Local Open Scope num_scope.
Variable code : objinfo.
(** Contents of freshly allocated arrays. *)
Variable garbage : T.

(** OutputManager.hh 73-75: per event a pointer ([None] is null) to the rows and the number of rows. *)
Record table := mkTab { tb_rows : list (option (list T)); tb_count : list Z }.
(** OutputManager.hh 82-86: one tracked particle. *)
Record track := mkTrack { tk_id : Z; tk_pos : list (vec T); tk_mom : list (vec T); tk_time : list T; tk_gamma : list T }.

(** OutputManager.hh 62-87. *)
Record om := mkOM {
  om_file : file T; om_units : option (units T);
  om_single : bool; om_list : bool; om_source : bool;
  om_prim : list (option (list T)); om_el : table; om_po : table; om_ph : table;
  om_tracks : list track }.

Definition with_file (s : om) (f : file T) : om :=
  mkOM f (om_units s) (om_single s) (om_list s) (om_source s) (om_prim s) (om_el s) (om_po s) (om_ph s) (om_tracks s).
Definition with_single (s : om) : om :=
  mkOM (om_file s) (om_units s) true (om_list s) (om_source s) (om_prim s) (om_el s) (om_po s) (om_ph s) (om_tracks s).
Definition with_list (s : om) : om :=
  mkOM (om_file s) (om_units s) (om_single s) true (om_source s) (om_prim s) (om_el s) (om_po s) (om_ph s) (om_tracks s).
Definition with_source (s : om) : om :=
  mkOM (om_file s) (om_units s) (om_single s) (om_list s) true (om_prim s) (om_el s) (om_po s) (om_ph s) (om_tracks s).
Definition with_prim (s : om) (pr : list (option (list T))) : om :=
  mkOM (om_file s) (om_units s) (om_single s) (om_list s) (om_source s) pr (om_el s) (om_po s) (om_ph s) (om_tracks s).
Definition with_tables (s : om) (e p g : table) : om :=
  mkOM (om_file s) (om_units s) (om_single s) (om_list s) (om_source s) (om_prim s) e p g (om_tracks s).
Definition with_tracks (s : om) (ts : list track) : om :=
  mkOM (om_file s) (om_units s) (om_single s) (om_list s) (om_source s) (om_prim s) (om_el s) (om_po s) (om_ph s) ts.

Definition o_group (s : om) (name : string) : res om :=
  let* f := add_group code (om_file s) name in Ok (with_file s f).
Definition o_array (s : om) (buf : list T) (dims : list Z) (name : string) : res om :=
  let* f := add_array (om_file s) buf dims name in Ok (with_file s f).

(** OutputManager.cpp 4-38. *)
Definition om_new (u : option (units T)) : res om :=
  let s := mkOM file_new u false false false [] (mkTab [] []) (mkTab [] []) (mkTab [] []) [] in
  let* s := o_group s "Particles" in
  let* s := o_group s "Fields" in
  o_group s "Histograms".

(** OutputManager.cpp 75-86, 138-149, 437-449: the factors applied to lengths, momenta and times. *)
Definition scale_length (s : om) : T := match om_units s with None => n1 | Some u => ref_length u end.
Definition scale_momentum (s : om) : T := match om_units s with None => n1 | Some u => ref_momentum u end.
Definition scale_time (s : om) : T := match om_units s with None => n1 | Some u => ref_time u end.

(** A buffer of positions or momenta: [buff[3*i+k] = v[i][k] * factor] (91-100, 155-168, 464-476). *)
Definition flat_scaled (f : T) (vs : list (vec T)) : list T :=
  flat_map (fun v => [vx v * f; vy v * f; vz v * f]) vs.
Definition len {A} (l : list A) : Z := Z.of_nat (length l).

(** The four arrays of a track (112-115, 180-183, 486-489). *)
Definition out_arrays (s : om) (name : string) (pos mom : list T) (npos nmom : Z) (time gamma : list T) : res om :=
  let* s := o_array s pos [npos; 3%Z] (name ++ "/Position") in
  let* s := o_array s mom [nmom; 3%Z] (name ++ "/Momentum") in
  let* s := o_array s time [len time] (name ++ "/Time") in
  o_array s gamma [len gamma] (name ++ "/Gamma").

(** OutputManager.cpp 91-101: the loop runs over the position history and indexes the momentum history. *)
Fixpoint single_mom (n : nat) (mom : list (vec T)) (i : Z) : res (list (vec T)) :=
  match n with
  | O => Ok []
  | S m => let* v := get mom i in let* r := single_mom m mom (i + 1)%Z in Ok (v :: r)
  end.

(** OutputManager.cpp 61-118.  The buffers are on the stack (a stack overflow for long histories is not modelled);
    a momentum buffer that is longer than the position history stays partly unwritten. *)
Definition single_particle (s : om) (p : particle T) (name : string) : res om :=
  let* s := (if om_single s then Ok s else let* s := o_group s "Particles/Single" in Ok (with_single s)) in
  if negb (p_tracking p) then Exit 1
  else
    let* ms := single_mom (length (p_posHist p)) (p_momHist p) 0 in
    let pos := flat_scaled (scale_length s) (p_posHist p) in
    let mom := (flat_scaled (scale_momentum s) ms ++ repeat garbage (3 * (length (p_momHist p) - length (p_posHist p))))%list in
    let time := map (fun t => t * scale_time s) (p_timeHist p) in
    let g := "Particles/Single/" ++ name in
    let* s := o_group s g in
    out_arrays s g pos mom (len (p_posHist p)) (len (p_momHist p)) time (p_gammaHist p).

(** OutputManager.cpp 128-185; [i] is the index of the first remaining particle. *)
Fixpoint list_tracks_from (s : om) (name : string) (i : nat) (ps : list (particle T)) : res om :=
  match ps with
  | [] => Ok s
  | p :: t =>
      if negb (p_tracking p) then Exit 1
      else
        let pos := flat_scaled (scale_length s) (p_posHist p) in
        let mom := flat_scaled (scale_momentum s) (p_momHist p) in
        let time := map (fun x => x * scale_time s) (p_timeHist p) in
        let g := "Particles/ParticleList/" ++ name ++ "/" ++ to_string i in
        let* s := o_group s g in
        let* s := out_arrays s g pos mom (len (p_posHist p)) (len (p_momHist p)) time (p_gammaHist p) in
        list_tracks_from s name (S i) t
  end.

(** OutputManager.cpp 120-186. *)
Definition list_tracks (s : om) (l : plist (particle T)) (name : string) : res om :=
  let* s := (if om_list s then Ok s else let* s := o_group s "Particles/ParticleList" in Ok (with_list s)) in
  let* s := o_group s ("Particles/ParticleList/" ++ name) in
  list_tracks_from s name 0 (pl_items l).

(** OutputManager.cpp 199-206: one row of ListProperties. *)
Definition prop_row (i : nat) (p : particle T) : list T :=
  [nZ (Z.of_nat i); get_energy p; vx (p_pos p); vy (p_pos p); vz (p_pos p)].
Fixpoint prop_rows (i : nat) (ps : list (particle T)) : list T :=
  match ps with [] => [] | p :: t => (prop_row i p ++ prop_rows (S i) t)%list end.

(** OutputManager.cpp 188-208 (the buffer of 5 doubles per particle is never freed). *)
Definition list_properties (s : om) (l : plist (particle T)) (setName : string) : res om :=
  let* s := (if om_list s then Ok s else let* s := o_group s "Particles/ParticleList" in Ok (with_list s)) in
  let g := "Particles/ParticleList/" ++ pl_name l in
  let* s := o_group s g in
  o_array s (prop_rows 0 (pl_items l)) [pl_n l; 5%Z] (g ++ "/" ++ setName).

(** ** Event tables *)

(** OutputManager.cpp 210-219. *)
Definition init_source (s : om) (n : Z) : om :=
  let k := Z.to_nat n in
  let tab := mkTab (repeat None k) (repeat 0%Z k) in
  with_tables (with_prim s (repeat None k)) tab tab tab.

(** OutputManager.cpp 226-233, 259-275, 278-294, 297-313: the 8 values stored for a particle. *)
Definition row (id : Z) (p : particle T) : list T :=
  [nZ id; get_energy p; vx (p_mom p); vy (p_mom p); vz (p_mom p); vx (p_pos p); vy (p_pos p); vz (p_pos p)].

(** Writing to an array. *)
Definition put (buf : list T) (i : Z) (v : T) : res (list T) :=
  if ((i <? 0) || (Z.of_nat (length buf) <=? i))%Z%bool then UB OutOfBounds else Ok (upd buf (Z.to_nat i) v).
Fixpoint put_row (buf : list T) (i : Z) (vs : list T) : res (list T) :=
  match vs with
  | [] => Ok buf
  | v :: t => let* b := put buf (u32 i) v in put_row b (i + 1)%Z t
  end.

(** OutputManager.cpp 240-245: the number of particles with a name (unsigned counter). *)
Fixpoint count_named (name : string) (ps : list (particle T)) (c : Z) : Z :=
  match ps with
  | [] => c
  | p :: t => count_named name t (if String.eqb (p_name p) name then u32 (c + 1) else c)
  end.
(** OutputManager.cpp 253-314 for one species; the three species are separate arrays and counters, so the loop is
    split into one per species. *)
Fixpoint store_rows (name : string) (id : Z) (ps : list (particle T)) (buf : list T) (c : Z) : res (list T * Z) :=
  match ps with
  | [] => Ok (buf, c)
  | p :: t =>
      if String.eqb (p_name p) name then
        let* b := put_row buf (u32 (c * 8)) (row id p) in store_rows name id t b (u32 (c + 1))
      else store_rows name id t buf c
  end.
(** OutputManager.cpp 246-248: allocation, then the rows, then the pointer is stored. *)
Definition store_species (name : string) (id : Z) (ps : list (particle T)) (tb : table) : res table :=
  let* _ := get (tb_count tb) id in
  let* _ := get (tb_rows tb) id in
  let buf := repeat garbage (Z.to_nat (u32 (count_named name ps 0 * 8))) in
  let* r := store_rows name id ps buf 0 in
  Ok (mkTab (upd (tb_rows tb) (Z.to_nat id) (Some (fst r))) (upd (tb_count tb) (Z.to_nat id) (snd r))).

(** OutputManager.cpp 221-314. *)
Definition store_primary (s : om) (l : plist (particle T)) (id : Z) : res om :=
  let* p := pl_get l 0 in
  let* _ := get (om_prim s) id in
  Ok (with_prim s (upd (om_prim s) (Z.to_nat id) (Some (row id p)))).
Definition store_final (s : om) (l : plist (particle T)) (id : Z) : res om :=
  let* e := store_species "Electron" id (pl_items l) (om_el s) in
  let* p := store_species "Positron" id (pl_items l) (om_po s) in
  let* g := store_species "Photon" id (pl_items l) (om_ph s) in
  Ok (with_tables s e p g).

(** OutputManager.cpp 316-327. *)
Definition track_of (id : Z) (p : particle T) : track :=
  mkTrack id (p_posHist p) (p_momHist p) (p_timeHist p) (p_gammaHist p).
Definition store_track (s : om) (l : plist (particle T)) (id : Z) : om :=
  with_tracks s (om_tracks s ++ map (track_of id) (pl_items l))%list.

(** Reading eight values (340-347, 379-386, ...). *)
Fixpoint read_row (src : list T) (i : Z) (n : nat) : res (list T) :=
  match n with
  | O => Ok []
  | S m => let* v := get src (u32 i) in let* r := read_row src (i + 1)%Z m in Ok (v :: r)
  end.

(** OutputManager.cpp 338-348. *)
Fixpoint prime_rows (prim : list (option (list T))) (i : Z) (buf : list T) : res (list T) :=
  match prim with
  | [] => Ok buf
  | None :: _ => UB NullDeref
  | Some r :: t =>
      let* vs := read_row r 0 8 in
      let* b := put_row buf (u32 (i * 8)) vs in
      prime_rows t (i + 1)%Z b
  end.

(** OutputManager.cpp 377-388: the rows of one event ([n] of them, from number [j] on). *)
Fixpoint copy_rows (src : option (list T)) (j : Z) (n : nat) (buf : list T) (idx : Z) : res (list T * Z) :=
  match n with
  | O => Ok (buf, idx)
  | S m =>
      match src with
      | None => UB NullDeref
      | Some r =>
          let* vs := read_row r (u32 (j * 8)) 8 in
          let* b := put_row buf idx vs in
          copy_rows src (j + 1)%Z m b (u32 (idx + 8))
      end
  end.
Fixpoint copy_events (rows : list (option (list T))) (counts : list Z) (buf : list T) (idx : Z) : res (list T) :=
  match rows with
  | [] => Ok buf
  | r :: t =>
      match counts with
      | [] => UB OutOfBounds
      | c :: ct =>
          let* x := copy_rows r 0 (Z.to_nat c) buf idx in
          copy_events t ct (fst x) (snd x)
      end
  end.

(** OutputManager.cpp 354-363: the total number of rows (unsigned). *)
Definition total (counts : list Z) : Z := fold_left (fun a c => u32 (a + c)) counts 0%Z.

(** OutputManager.cpp 365-428 for one species: buffer, copy, and output if there is anything; the buffers are filled
    before the first data set is written. *)
Definition species_buffer (tb : table) : res (list T) :=
  copy_events (tb_rows tb) (tb_count tb) (repeat garbage (Z.to_nat (u32 (total (tb_count tb) * 8)))) 0.
Definition out_species (s : om) (tb : table) (buf : list T) (name : string) : res om :=
  if (0 <? total (tb_count tb))%Z then o_array s buf [total (tb_count tb); 8%Z] ("Particles/ParticleSource/" ++ name)
  else Ok s.

(** OutputManager.cpp 331-429. *)
Definition output_source (s : om) : res om :=
  let* s := (if om_source s then Ok s else let* s := o_group s "Particles/ParticleSource" in Ok (with_source s)) in
  let* pb := prime_rows (om_prim s) 0 (repeat garbage (length (om_prim s) * 8)) in
  let* s := o_array s pb [len (om_prim s); 8%Z] "Particles/ParticleSource/Primary" in
  let* eb := species_buffer (om_el s) in
  let* pb := species_buffer (om_po s) in
  let* gb := species_buffer (om_ph s) in
  let* s := out_species s (om_el s) eb "Electrons" in
  let* s := out_species s (om_po s) pb "Positrons" in
  out_species s (om_ph s) gb "Photons".

(** OutputManager.cpp 453-496. *)
Fixpoint output_tracks_from (s : om) (i : nat) (ts : list track) : res om :=
  match ts with
  | [] => Ok s
  | k :: t =>
      let g := "Particles/ParticleTrack/Event" ++ to_string i in
      let* s := o_group s g in
      let* s := out_arrays s g (flat_scaled (scale_length s) (tk_pos k)) (flat_scaled (scale_momentum s) (tk_mom k))
                  (len (tk_pos k)) (len (tk_mom k))
                  (map (fun x => x * scale_time s) (tk_time k)) (map (fun x => x * scale_time s) (tk_gamma k)) in
      output_tracks_from s (S i) t
  end.
(** OutputManager.cpp 431-497. *)
Definition output_track (s : om) : res om :=
  let* s := (if om_list s then Ok s else let* s := o_group s "Particles/ParticleTrack" in Ok (with_list s)) in
  output_tracks_from s 0 (om_tracks s).

(** OutputManager.cpp 329-498. *)
Definition output_events (s : om) (outSource outTrack : bool) : res om :=
  let* s := (if outSource then output_source s else Ok s) in
  if outTrack then output_track s else Ok s.

(** ** Fields and histograms *)

Definition comp (dir : nat) (v : vec T) : T := match dir with O => vx v | S O => vy v | _ => vz v end.

(** OutputManager.cpp 511-521: the grid points in the order of the loops. *)
Definition grid (nx ny nz : nat) : list (nat * nat * nat) :=
  flat_map (fun i => flat_map (fun j => map (fun k => (i, j, k)) (seq 0 nz)) (seq 0 ny)) (seq 0 nx).
(** OutputManager.cpp 517: [unsigned int index]. *)
Definition grid_index (ny nz : nat) (g : nat * nat * nat) : Z :=
  let '(i, j, k) := g in u32 (Z.of_nat (i * ny * nz + j * nz + k)).
(** OutputManager.cpp 518-521 for a quantity [q] of the grid point. *)
Fixpoint grid_fill (q : nat * nat * nat -> T) (ny nz : nat) (gs : list (nat * nat * nat)) (buf : list T) : res (list T) :=
  match gs with
  | [] => Ok buf
  | g :: t => let* b := put buf (grid_index ny nz g) (q g) in grid_fill q ny nz t b
  end.

(** The field at time [t] and a point, as a pair (E, B). *)
Variable fld : field T.

Definition grid_point (xs ys zs : list T) (g : nat * nat * nat) : vec T :=
  let '(i, j, k) := g in mkV (nth i xs n0) (nth j ys n0) (nth k zs n0).

(** OutputManager.cpp 508-535: one direction at one time. *)
Definition out_dir (s : om) (g : string) (t : T) (xs ys zs : list T) (dir : nat) : res om :=
  let n := (length xs * length ys * length zs)%nat in
  let gs := grid (length xs) (length ys) (length zs) in
  let dims := [len xs; len ys; len zs] in
  let* eb := grid_fill (fun p => comp dir (fst (fld t (grid_point xs ys zs p)))) (length ys) (length zs) gs (repeat garbage n) in
  let* bb := grid_fill (fun p => comp dir (snd (fld t (grid_point xs ys zs p)))) (length ys) (length zs) gs (repeat garbage n) in
  let* s := o_array s eb dims (g ++ "/E" ++ to_string dir) in
  o_array s bb dims (g ++ "/B" ++ to_string dir).

(** OutputManager.cpp 500-538. *)
Fixpoint out_field_from (s : om) (i : nat) (ts xs ys zs : list T) : res om :=
  match ts with
  | [] => Ok s
  | t :: r =>
      let g := "Fields/" ++ to_string i in
      let* s := o_group s g in
      let* s := out_dir s g t xs ys zs 0 in
      let* s := out_dir s g t xs ys zs 1 in
      let* s := out_dir s g t xs ys zs 2 in
      out_field_from s (S i) r xs ys zs
  end.
Definition out_field (s : om) (ts xs ys zs : list T) : res om := out_field_from s 0 ts xs ys zs.

(** OutputManager.cpp 540-547. *)
Definition out_hist (s : om) (h : hist T) : res om :=
  let g := "Histograms/" ++ hi_name h in
  let* s := o_group s g in
  let* s := o_array s (hi_centres h) [hi_n h] (g ++ "/BinCentres") in
  o_array s (hi_values h) [hi_n h] (g ++ "/BinValues").

(** ** Sequences of calls *)
Inductive op :=
| OSingle (p : particle T) (name : string)
| OListTracks (l : plist (particle T)) (name : string)
| OListProps (l : plist (particle T)) (name : string)
| OInit (n : Z)
| OPrimary (l : plist (particle T)) (id : Z)
| OFinal (l : plist (particle T)) (id : Z)
| OTrack (l : plist (particle T)) (id : Z)
| OEvents (outSource outTrack : bool)
| OField (ts xs ys zs : list T)
| OHist (h : hist T).

Definition exec (s : om) (o : op) : res om :=
  match o with
  | OSingle p n => single_particle s p n
  | OListTracks l n => list_tracks s l n
  | OListProps l n => list_properties s l n
  | OInit n => Ok (init_source s n)
  | OPrimary l i => store_primary s l i
  | OFinal l i => store_final s l i
  | OTrack l i => Ok (store_track s l i)
  | OEvents a b => output_events s a b
  | OField ts xs ys zs => out_field s ts xs ys zs
  | OHist h => out_hist s h
  end.
Fixpoint exec_all (s : om) (os : list op) : res om :=
  match os with
  | [] => Ok s
  | o :: t => let* s' := exec s o in exec_all s' t
  end.

(** QEDCASC.cpp 190-274, 284-292: the calls made by main.  A source has its Output flag, its number of events, and
    the storing calls of its events in the order in which they happen to be executed. *)
Record source_run := mkSR { sr_output : bool; sr_number : Z; sr_calls : list op }.
Definition main_calls (tracking : bool) (srcs : list source_run) (hs : list (hist T)) : list op :=
  (flat_map (fun r => (if sr_output r then [OInit (sr_number r)] else []) ++ sr_calls r ++ [OEvents (sr_output r) tracking]) srcs
   ++ map OHist hs)%list.

End Output.
Arguments om : clear implicits.
Arguments track : clear implicits.
Arguments table : clear implicits.
Arguments op : clear implicits.
Arguments source_run : clear implicits.
