(** * The main program built with OpenMP (Source/Exec/QEDCASC.cpp 189-275, [#pragma omp parallel for] on line 197)

    The iterations of the event loop run at the same time.  What they share: the generator of random numbers (MCTools.hh 36-37), the sample
    counter of the source (SourceGenerator.hh), the histograms, and the output manager; pusher, field and processes are shared too, but their
    member functions change nothing.  In C++ the unsynchronised accesses are data races; the model gives them a mild meaning: each random
    draw, each step of the counter of GenerateList, each call of AppParticle and each call of StoreSource or StoreTrack is atomic, and
    those of different iterations interleave arbitrarily (SourceRace.v and HistRace.v have finer accesses).  The iterations are not bound to
    threads: a thread that runs its iterations one after the other is one of the interleavings.  The messages on the progress are not
    modelled. *)
From Coq Require Import String ZArith List Bool.
From Verif Require Import Num Outcome Vec Units Numerics MCTools Particle ParticleList Source Fields Pusher Process Sim Histogram Hdf5 Output
  Text Ini IniReader Program.
From Verif Require FileParser.
Import ListNotations.
Local Open Scope string_scope.
Local Open Scope list_scope.

Section Threads.
Context {T : Type} `{Num T}.
Local Open Scope num_scope.

(** The calls on the output manager made in an iteration (QEDCASC.cpp 205, 253, 254). *)
Inductive save := SPrimary (l : event T) (j : Z) | SFinal (l : event T) (j : Z) | STrack (l : event T) (j : Z).

(** A computation that stops at every access to something shared: its outcome if there is none left, or the access and what comes after it. *)
Inductive co (A : Type) : Type :=
| Now (r : res A)
| Draw (k : T -> co A)
| Take (k : Z -> co A)
| Count (i : nat) (p : particle T) (k : co A)
| Store (c : save) (k : co A).
Arguments Now {A} r.
Arguments Draw {A} k.
Arguments Take {A} k.
Arguments Count {A} i p k.
Arguments Store {A} c k.

Definition ret {A} (a : A) : co A := Now (Ok a).
Fixpoint cbind {A B} (c : co A) (f : A -> co B) : co B :=
  match c with
  | Now (Ok a) => f a
  | Now (Exit n) => Now (Exit n)
  | Now Throw => Now Throw
  | Now (UB w) => Now (UB w)
  | Now Fuel => Now Fuel
  | Draw k => Draw (fun u => cbind (k u) f)
  | Take k => Take (fun n => cbind (k n) f)
  | Count i p k => Count i p (cbind k f)
  | Store s k => Store s (cbind k f)
  end.
Notation "'let!' x := e 'in' f" := (cbind e (fun x => f)) (at level 200, x pattern, e at level 100, f at level 200, right associativity).

(** ** The functions of MCTools.v, Particle.v, Process.v, Sim.v and Source.v in this form *)

(** MCTools.cpp 10-14. *)
Definition co_rand (low high : T) : co T := Draw (fun u => ret (u * (high - low) + low)).
(** Particle.cpp 61-64. *)
Definition co_depth : co T := let! u := co_rand n0 n1 in ret (depth_of_draw u).
Definition co_init_depth (p : particle T) : co (particle T) := let! d := co_depth in ret (set_depth p d).
(** Particle.cpp 18-27. *)
Definition co_new (ty : ptype) (name : string) (mass charge : T) (pos mom : vec T) (weight time : T) (tracking : bool) : co (particle T) :=
  let! d := co_depth in ret (Particle.mkP ty name mass charge weight time d tracking true pos mom [] [] [] []).
(** Lepton.cpp 3-14, 16-29, Photon.cpp 9-13. *)
Definition co_lepton (mass charge : T) (pos mom : vec T) (weight time : T) (tracking : bool) : co (particle T) :=
  co_new PLepton (lepton_name charge) mass charge pos mom weight time tracking.
Definition co_lepton_energy (mass charge energy : T) (pos dir : vec T) (weight time : T) (tracking : bool) : co (particle T) :=
  co_new PLepton (lepton_name charge) mass charge pos (smul energy (vnorm dir)) weight time tracking.
Definition co_photon_energy (energy : T) (pos dir : vec T) (weight time : T) (tracking : bool) : co (particle T) :=
  co_new PPhoton "Photon" n0 n0 pos (smul energy (vnorm dir)) weight time tracking.

(** PhotonEmission.cpp 36-48. *)
Definition co_chi (tab : em_tables T) (eta : T) : co T :=
  let! rand := co_rand n0 n1 in
  Now (let* lf := closest_points (ph_axis tab) (ph_etaLen tab) (nlog10 eta) in
       let low := fst lf in let frac := snd lf in
       let* row := get (ph_data tab) low in
       let* chis := get (ph_chi tab) low in
       let* lowValue := interpolate1d row chis (ph_chiLen tab) rand in
       let* row' := get (ph_data tab) (low + 1)%Z in
       let* chis' := get (ph_chi tab) (low + 1)%Z in
       let* highValue := interpolate1d row' chis' (ph_chiLen tab) rand in
       Ok (npow (nlit 10 0) ((n1 - frac) * lowValue + frac * highValue))).
(** NonLinearBreitWheeler.cpp 49-61. *)
Definition co_split (tab : bw_tables T) (chi : T) : co T :=
  let! rand := co_rand n0 n1 in
  Now (let* lf := closest_points (s_chi tab) (s_len tab) (nlog10 chi) in
       let low := fst lf in let frac := snd lf in
       let* row := get (s_data tab) low in
       let* lowValue := interpolate1d row (s_fract tab) (s_len tab) rand in
       let* row' := get (s_data tab) (low + 1)%Z in
       let* highValue := interpolate1d row' (s_fract tab) (s_len tab) rand in
       Ok ((n1 - frac) * lowValue + frac * highValue)).

(** StochasticEmission.cpp 16-53. *)
Definition co_stochastic (c : em_cfg T) (p : particle T) (l : event T) : co (particle T * event T) :=
  if ((p_mass p =? n0) || negb (p_alive p))%bool then ret (p, l)
  else
    let eta := calculate_eta (em_field c) p in
    let! logh := Now (if eta <? nlit 1 (-12) then Ok (nlit 7193 (-4))
                      else interpolate1d (h_axis (em_tab c)) (h_data (em_tab c)) (h_len (em_tab c)) (nlog10 eta)) in
    let p1 := update_depth p (emission_depth (em_dt c) eta logh (get_gamma p)) in
    if p_depth p1 <? n0 then
      let! chi := co_chi (em_tab c) eta in
      let gammaE := n2 * chi * get_gamma p1 / eta in
      let gammaP := smul gammaE (get_direction p1) in
      let p2 := update_track p1 (p_pos p1) (vsub (p_mom p1) gammaP) in
      let! keep := (if em_eMin c <? gammaE then let! r := co_rand n0 n1 in ret (em_frac c <? r) else ret false) in
      let! l3 := (if keep : bool then
                    let! ph := co_photon_energy gammaE (p_pos p2) (get_direction p2) (p_weight p2 / em_frac c) (p_time p2) (em_track c) in
                    ret (pl_add l ph)
                  else ret l) in
      let! p4 := co_init_depth p2 in
      ret (p4, l3)
    else ret (p1, l).

(** ContinuousEmission.cpp 21-64. *)
Definition co_continuous (c : em_cfg T) (classical : bool) (p : particle T) (l : event T) : co (particle T * event T) :=
  if ((p_mass p =? n0) || negb (p_alive p))%bool then ret (p, l)
  else
    let! r := co_rand n0 n1 in
    if em_frac c <? r then ret (p, l)
    else
      let eta := calculate_eta (em_field c) p in
      let! lc :=
        (if ((eta <? nlit 1 (-12)) || classical)%bool then
           let! a0 := Now (get (h_axis (em_tab c)) 0) in
           let chiMin := nexp a0 in
           let! chi := co_chi (em_tab c) chiMin in
           ret (nlit 7193 (-4), chi * (eta / chiMin) * (eta / chiMin))
         else
           let! logh := Now (interpolate1d (h_axis (em_tab c)) (h_data (em_tab c)) (h_len (em_tab c)) (nlog10 eta)) in
           let! chi := co_chi (em_tab c) eta in
           ret (logh, chi)) in
      let deltaOD := emission_depth (em_dt c) eta (fst lc) (get_gamma p) in
      let weight := p_weight p * deltaOD / em_frac c in
      let gammaE := n2 * snd lc * get_gamma p / eta in
      if em_eMin c <? gammaE then
        let! ph := co_photon_energy gammaE (p_pos p) (get_direction p) weight (p_time p) (em_track c) in
        ret (p, pl_add l ph)
      else ret (p, l).

(** NonLinearBreitWheeler.cpp 20-47. *)
Definition co_breit_wheeler (c : bw_cfg T) (p : particle T) (l : event T) : co (particle T * event T) :=
  if (match p_type p with PPhoton => false | _ => true end || negb (p_alive p))%bool then ret (p, l)
  else
    let chi := photon_chi (bw_field c) p in
    let! logt := Now (interpolate1d (t_axis (bw_tab c)) (t_data (bw_tab c)) (t_len (bw_tab c)) (nlog10 chi)) in
    let deltaOD := bw_dt c * c_alpha * chi * npow (nlit 10 0) logt / get_energy p in
    let p1 := update_depth p deltaOD in
    if p_depth p1 <? n0 then
      let! split := co_split (bw_tab c) chi in
      let pEnergy := split * get_energy p1 in
      let eEnergy := (n1 - split) * get_energy p1 in
      let pMomentum := smul (nsqrt (pEnergy * pEnergy - n1)) (get_direction p1) in
      let eMomentum := smul (nsqrt (eEnergy * eEnergy - n1)) (get_direction p1) in
      let! positron := co_lepton n1 n1 (p_pos p1) pMomentum (p_weight p1) (p_time p1) (bw_track c) in
      let! electron := co_lepton n1 (nlit (-1) 0) (p_pos p1) eMomentum (p_weight p1) (p_time p1) (bw_track c) in
      ret (kill p1, pl_add (pl_add l positron) electron)
    else ret (p1, l).

(** Process.hh 15. *)
Definition co_interact (pr : process T) (p : particle T) (l : event T) : co (particle T * event T) :=
  match pr with
  | Stochastic c => co_stochastic c p l
  | Continuous c cl => co_continuous c cl p l
  | BreitWheeler c => co_breit_wheeler c p l
  end.

(** QEDCASC.cpp 231-236. *)
Definition co_call (k : Z) (pr : process T) (l : event T) : co (event T) :=
  let! p := Now (pl_get l k) in
  let! r := co_interact pr p l in
  ret (pl_set (snd r) k (fst r)).
Fixpoint co_calls (k : Z) (prs : list (process T)) (l : event T) : co (event T) :=
  match prs with
  | [] => ret l
  | pr :: t => let! l' := co_call k pr l in co_calls k t l'
  end.
Definition co_visit (w : world T) (k : Z) (l : event T) : co (event T) :=
  let! p := Now (pl_get l k) in
  co_calls k (w_procs w) (pl_set l k (push_particle (w_force w) (w_field w) (w_dt w) p)).
Fixpoint co_pass_from (w : world T) (fuel : nat) (k : Z) (l : event T) : co (event T) :=
  if (k <? pl_n l)%Z then
    match fuel with
    | O => Now Fuel
    | S f => let! l' := co_visit w k l in co_pass_from w f (k + 1)%Z l'
    end
  else ret l.
Definition co_pass (w : world T) (l : event T) : co (event T) := co_pass_from w (Z.to_nat (pl_max l)) 0 l.

(** What does not change of a histogram: the time it is taken and the name of its particles. *)
Definition plan := list (T * string).
(** QEDCASC.cpp 217-224 and 242-249. *)
Fixpoint co_fill (i : nat) (name : string) (ps : list (particle T)) : co unit :=
  match ps with
  | [] => ret tt
  | p :: t => if String.eqb name (p_name p) then Count i p (co_fill i name t) else co_fill i name t
  end.

(** An event in the time loop: clock, particles, next histogram. *)
Record local := mkLoc { lo_time : T; lo_ev : event T; lo_hc : nat }.
(** QEDCASC.cpp 212-227. *)
Definition co_hist_check (pl : plan) (s : local) : co local :=
  match nth_error pl (lo_hc s) with
  | Some (ht, name) =>
      if nleb ht (lo_time s) then
        let! _ := co_fill (lo_hc s) name (pl_items (lo_ev s)) in
        ret (mkLoc (lo_time s) (lo_ev s) (lo_hc s + 1))
      else ret s
  | None => ret s
  end.
(** QEDCASC.cpp 211-237. *)
Definition co_time_step (w : world T) (pl : plan) (s : local) : co local :=
  let! s1 := co_hist_check pl s in
  let! l := co_pass w (lo_ev s1) in
  ret (mkLoc (nadd (lo_time s1) (w_dt w)) l (lo_hc s1)).
Fixpoint co_time_loop (w : world T) (pl : plan) (fuel : nat) (tEnd : T) (s : local) : co local :=
  if nltb (lo_time s) tEnd then
    match fuel with
    | O => Now Fuel
    | S f => let! s' := co_time_step w pl s in co_time_loop w pl f tEnd s'
    end
  else ret s.
(** QEDCASC.cpp 240-250; [i] is the number of the first of the remaining histograms. *)
Fixpoint co_fill_rest (i : nat) (pl : plan) (ps : list (particle T)) : co unit :=
  match pl with
  | [] => ret tt
  | (_, name) :: r => let! _ := co_fill i name ps in co_fill_rest (S i) r ps
  end.
(** QEDCASC.cpp 207-250. *)
Definition co_event (w : world T) (pl : plan) (fuel : nat) (tEnd : T) (l : event T) : co (event T) :=
  let! s := co_time_loop w pl fuel tEnd (mkLoc n0 l 0) in
  let! _ := co_fill_rest (lo_hc s) (skipn (lo_hc s) pl) (pl_items (lo_ev s)) in
  ret (lo_ev s).

(** SourceGenerator.cpp 62-82. *)
Definition co_primary (type : string) (energy : T) (pos dir : vec T) (track : bool) : co (particle T) :=
  if is_name "Photon" "photon" type then co_photon_energy energy pos dir n1 n0 track
  else if is_name "Electron" "electron" type then co_lepton_energy n1 (nlit (-1) 0) energy pos dir n1 n0 track
  else if is_name "Positron" "positron" type then co_lepton_energy n1 n1 energy pos dir n1 n0 track
  else Now (Exit (-1)).
(** SourceGenerator.cpp 41-85; [src] stands for what the calls do not change of the source.  The list is left without a name, which the
    program does not read. *)
Definition co_generate (src : source T) : co (event T) :=
  Take (fun c =>
    let! x := Now (get (s_xs src) c) in
    let! y := Now (get (s_ys src) c) in
    let! z := Now (get (s_zs src) c) in
    let pos := vadd (mvec (s_rot src) (mkV x y z)) (s_pos src) in
    let! th := Now (get (s_thetas src) c) in
    let! ph := Now (get (s_phis src) c) in
    let dir := mvec (s_rot src) (mkV (nsin th * ncos ph) (nsin th * nsin ph) (ncos th)) in
    let! en := Now (get (s_energies src) c) in
    let! p := co_primary (s_type src) en pos dir (s_track src) in
    ret (pl_add (pl_new "" default_max) p)).

(** QEDCASC.cpp 201-257: iteration [j]. *)
Definition iteration (w : world T) (pl : plan) (fuel : nat) (tEnd : T) (output tracking : bool) (src : source T) (j : Z) : co unit :=
  let! l := co_generate src in
  let! _ := (if output then Store (SPrimary l j) (ret tt) else ret tt) in
  let! fin := co_event w pl fuel tEnd l in
  let! _ := (if output then Store (SFinal fin j) (ret tt) else ret tt) in
  if tracking then Store (STrack fin j) (ret tt) else ret tt.

(** ** Running iterations at the same time *)
Variable E : Engine T.
Variable garbage : T.

(** What the iterations share. *)
Record shared := mkSh { sh_rng : est E; sh_src : source T; sh_hists : list (hist T); sh_om : om T }.

(** GenerateList: the test of the counter and its increment (SourceGenerator.cpp 43-47, 83). *)
Definition take (src : source T) : res (Z * source T) :=
  let c := s_count src in if (c =? s_nPart src)%Z then Exit 1 else Ok (c, with_count src (u32 (c + 1))).
(** Histogram [i] of the configured ones (QEDCASC.cpp 222, 247). *)
Definition count (i : nat) (p : particle T) (hs : list (hist T)) : res (list (hist T)) :=
  match nth_error hs i with
  | Some h => let* h' := app_particle h p in Ok (upd hs i h')
  | None => UB OutOfBounds
  end.
Definition store (c : save) (o : om T) : res (om T) :=
  match c with
  | SPrimary l j => store_primary o l j
  | SFinal l j => store_final garbage o l j
  | STrack l j => Ok (store_track o l j)
  end.

(** The next access of a computation. *)
Definition act {A} (c : co A) (s : shared) : res (co A * shared) :=
  match c with
  | Now r => let* a := r in Ok (Now (Ok a), s)
  | Draw k => let '(u, g) := e_canon E (sh_rng s) in Ok (k u, mkSh g (sh_src s) (sh_hists s) (sh_om s))
  | Take k => let* r := take (sh_src s) in Ok (k (fst r), mkSh (sh_rng s) (snd r) (sh_hists s) (sh_om s))
  | Count i p k => let* hs := count i p (sh_hists s) in Ok (k, mkSh (sh_rng s) (sh_src s) hs (sh_om s))
  | Store c k => let* o := store c (sh_om s) in Ok (k, mkSh (sh_rng s) (sh_src s) (sh_hists s) o)
  end.

(** All interleavings of the iterations [ts]: they end when all have ended; an iteration that exits, throws or runs into undefined behaviour
    ends the program. *)
Inductive par : list (co unit) -> shared -> res shared -> Prop :=
| par_end ts s : (forall c, In c ts -> c = Now (Ok tt)) -> par ts s (Ok s)
| par_step ts s t c c' s' x : nth_error ts t = Some c -> act c s = Ok (c', s') -> par (upd ts t c') s' x -> par ts s x
| par_fail ts s t c : In c ts -> (forall y, act c s <> Ok y) -> t = rmap snd (act c s) -> par ts s t.

Variable code : objinfo.
Variable fuel : nat.

Definition plan_of (hs : list (hist T)) : plan := map (fun h => (hi_time h, hi_particle h)) hs.

(** QEDCASC.cpp 190-275 with the loop of lines 199-269 in parallel; the last argument is a possible outcome. *)
Fixpoint threaded_loop (w : world T) (tEnd : T) (tracking : bool) (ss : list (bool * source T)) (s : prog E) (x : res (prog E)) : Prop :=
  match ss with
  | [] => x = Ok s
  | (output, src) :: r =>
      let o0 := if output then init_source (pg_om E s) (s_nPart src) else pg_om E s in
      let its := map (fun j => iteration w (plan_of (pg_hists E s)) fuel tEnd output tracking src (Z.of_nat j)) (seq 0 (Z.to_nat (s_nPart src))) in
      exists y, par its (mkSh (pg_rng E s) src (pg_hists E s) o0) y /\
      let z := (let* s1 := y in
                let* o1 := output_events code garbage (sh_om s1) output tracking in Ok (mkProg E o1 (sh_hists s1) (sh_rng s1))) in
      match z with Ok s1 => threaded_loop w tEnd tracking r s1 x | _ => x = z end
  end.

(** The tables read by the constructors of the processes, the uninitialised entry counters of the histograms (Program.v). *)
Variable load_em : res (em_tables T).
Variable load_bw : res (bw_tables T).
Variable counters : nat -> Z.

(** QEDCASC.cpp 86-302. *)
Definition threaded_simulation (pa : FileParser.parameters T) (g : est E) (x : res (file T)) : Prop :=
  let tracking := FileParser.g_tracking (FileParser.in_general pa) in
  match set_up_world load_em load_bw pa with
  | Ok w =>
      let '(ss, g1) := make_sources E tracking (FileParser.in_particles pa) g in
      let hs := make_histograms counters 0 (FileParser.in_histograms pa) in
      match om_new code None with
      | Ok o =>
          exists y, threaded_loop w (FileParser.g_timeEnd (FileParser.in_general pa)) tracking ss (mkProg E o hs g1) y /\
          x = (let* s := y in let* o1 := write_histograms code (pg_om E s) (pg_hists E s) in Ok (om_file o1))
      | bad => x = rmap (@om_file T) bad
      end
  | bad => x = rmap (fun _ => file_new) bad
  end.

Variable disk : string -> path.
Variable special : text -> T.
(** QEDCASC.cpp 34-303: a possible outcome of the program. *)
Definition threaded_program (argv : list string) (g : est E) (x : res (file T)) : Prop :=
  match (let* name := check_arguments argv in FileParser.file_parser special (disk name)) with
  | Ok pa => threaded_simulation pa g x
  | bad => x = rmap (fun _ => file_new) bad
  end.

End Threads.
Arguments co : clear implicits.
Arguments save : clear implicits.
Arguments Now {T A} r.
Arguments Draw {T A} k.
Arguments Take {T A} k.
Arguments Count {T A} i p k.
Arguments Store {T A} c k.
Arguments shared : clear implicits.
Arguments shared {T} E.
