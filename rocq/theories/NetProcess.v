(** * The network process as an object (Source/Geant/G4CascadeTF.{hh,cpp}, TensorflowGraph.{hh,cpp})
    Construction, loading, the steps and the stand-alone test; Geant.v has the body of a step. *)
From Coq Require Import String ZArith List Bool.
From Verif Require Import Num Outcome Vec Units MCTools Text Tables Geant.
Import ListNotations.
Local Open Scope string_scope.
Local Open Scope list_scope.

Section Net.
Context {T : Type} `{Num T}.
Variable E : Engine T.
Variable skewed : vec T * vec T * vec T -> est E -> vec T * est E.
Variable poisson : T -> est E -> nat * est E.
Local Open Scope num_scope.

(** The results of a TensorFlow run that the process can take apart: shape 1 x K, shape 1 x K x 3.  Other shapes end the program in
    TensorFlow's checks or are read wrongly; they are not represented. *)
Inductive tensor := Row (l : list T) | Rows (l : list (vec T)).

(** What a graph does: names of the outputs and input values to the results, in the order of the names; [None] is an error status. *)
Definition network := list string -> list T -> option (list tensor).

(** What TensorFlow finds at a path: no graph, a graph that the session rejects, a graph. *)
Inductive gfile := Unreadable | Rejected | Graph (n : network).

(** TensorflowGraph.hh 21-26; every object owns one session. *)
Record gobj := mkGobj { go_shape : nat; go_outputs : list string; go_net : network }.

(** The outside: files that TensorFlow reads, files that the process reads ([None]: cannot be opened), and whether a session can be made
    when so many were made before. *)
Variable graphs : string -> gfile.
Variable disk : string -> option text.
Variable session_ok : nat -> bool.

(** G4CascadeTF.hh 34-49: pointers and numbers are [None] while indeterminate.  [nt_sessions] counts the sessions that were made; none of
    them is ever closed (TensorflowGraph.cpp 42-44: the destructor is empty; a constructor that throws does not close its session). *)
Record net := mkNet {
  nt_elec : option gobj; nt_posi : option gobj; nt_phot : option gobj; nt_count : option gobj;
  nt_in : list (option T); nt_el : list (option T); nt_ph : list (option T); nt_lag : T; nt_switch : bool; nt_sessions : nat }.

(** G4CascadeTF.cpp 12-17 and the initialiser of G4CascadeTF.hh 48. *)
Definition new_net (sessions : nat) : net :=
  mkNet None None None None (repeat None 6) (repeat None 3) (repeat None 3) n0 false sessions.

(** TensorflowGraph.cpp 7-40: the object or an exception, and the number of sessions. *)
Definition new_graph (path : string) (shape : nat) (outputs : list string) (sessions : nat) : option gobj * nat :=
  if session_ok sessions then
    match graphs path with
    | Graph n => (Some (mkGobj shape outputs n), S sessions)
    | _ => (None, S sessions)
    end
  else (None, sessions).

(** TensorflowGraph.cpp 46-67: the result or an exception. *)
Fixpoint first_values (k : nat) (i : Z) (input : list T) : res (list T) :=
  match k with
  | O => Ok []
  | S k' => let* x := get input i in let* r := first_values k' (i + 1)%Z input in Ok (x :: r)
  end.
Definition run_graph (o : gobj) (input : list T) : res (option (list tensor)) :=
  let* v := first_values (go_shape o) 0 input in
  Ok (go_net o (go_outputs o) v).

(** [stream >> value] where the value may be indeterminate (see [in_double] in Tables.v). *)
Definition in_param (s : stream) (old : option T) : stream * option T :=
  match s with
  | None => (None, old)
  | Some t =>
      match skip_space t with
      | [] => (None, old)
      | u => match stream_double u with Some (x, r) => (Some r, Some x) | None => (None, Some n0) end
      end
  end.
Fixpoint in_params (s : stream) (olds : list (option T)) : list (option T) :=
  match olds with
  | [] => []
  | o :: r => let '(s', x) := in_param s o in x :: in_params s' r
  end.

(** G4CascadeTF.cpp 33-35. *)
Definition density_outputs : list string := ["frac"; "mean"; "sigma"; "skew"].

(** G4CascadeTF.cpp 28-56; the Boolean says whether an exception left the call.  (The two loops of 51-55 are separate here.) *)
Definition load_graphs (seedPath elecPath photPath : string) (p : net) : net * bool :=
  let with_graphs e f c n := mkNet e (nt_posi p) f c (nt_in p) (nt_el p) (nt_ph p) (nt_lag p) (nt_switch p) n in
  match new_graph (elecPath ++ "/param_graph.pb")%string 6 density_outputs (nt_sessions p) with
  | (None, n) => (with_graphs (nt_elec p) (nt_phot p) (nt_count p) n, true)
  | (Some e, n) =>
  match new_graph (photPath ++ "/param_graph.pb")%string 6 density_outputs n with
  | (None, n) => (with_graphs (Some e) (nt_phot p) (nt_count p) n, true)
  | (Some f, n) =>
  match new_graph (photPath ++ "/count_graph.pb")%string 6 ["mean"] n with
  | (None, n) => (with_graphs (Some e) (Some f) (nt_count p) n, true)
  | (Some c, n) =>
      (mkNet (Some e) (nt_posi p) (Some f) (Some c)
         (in_params (disk (seedPath ++ "/in_meta.dat")%string) (nt_in p))
         (in_params (disk (elecPath ++ "/meta.dat")%string) (nt_el p))
         (in_params (disk (photPath ++ "/meta.dat")%string) (nt_ph p)) (nt_lag p) (nt_switch p) n, false)
  end end end.

(** G4CascadeTF.cpp 58-61. *)
Definition is_applicable (particle : string) : bool := String.eqb particle "e-".

(** Reading a number or a pointer that may be indeterminate. *)
Definition initialised {A} (x : option A) : res A := match x with Some a => Ok a | None => UB Uninitialised end.
Fixpoint all_initialised {A} (l : list (option A)) : res (list A) :=
  match l with
  | [] => Ok []
  | x :: r => let* a := initialised x in let* b := all_initialised r in Ok (a :: b)
  end.
Definition vec3 (l : list T) : res (vec T) := match l with [a; b; c] => Ok (mkV a b c) | _ => UB OutOfBounds end.

(** The tensors taken apart (G4CascadeTF.cpp 107-124, 133-151): component weights; mean, width and skew of every component. *)
Definition components (m c s : list (vec T)) : list (vec T * vec T * vec T) := combine (combine m c) s.
Definition density (l : list tensor) : res (graph T) :=
  match l with
  | [Row w; Rows m; Rows c; Rows s] => Ok (mkGraph w (components m c s))
  | _ => Exit 134
  end.
(** 127: the first number of the first result. *)
Definition photon_mean (l : list tensor) : res T :=
  match l with
  | Row (x :: _) :: _ => Ok x
  | Rows (v :: _) :: _ => Ok (vx v)
  | _ => UB OutOfBounds
  end.

(** G4CascadeTF.cpp 98-104 and 179-186: the graphs run in turn; [None] is an exception. *)
Definition run_all (p : net) (input : list T) : res (option (graph T * graph T * T)) :=
  let* e := initialised (nt_elec p) in
  let* te := run_graph e input in
  match te with
  | None => Ok None
  | Some te =>
      let* f := initialised (nt_phot p) in
      let* tf := run_graph f input in
      match tf with
      | None => Ok None
      | Some tf =>
          let* c := initialised (nt_count p) in
          let* tc := run_graph c input in
          match tc with
          | None => Ok None
          | Some tc =>
              let* ge := density te in
              let* gf := density tf in
              let* m := photon_mean tc in
              Ok (Some (ge, gf, m))
          end
      end
  end.

(** G4CascadeTF.cpp 86-96: momentum and position of the track are Geant4's; [double test();] in line 92 declares a function. *)
Definition net_input (a : list T) (momentum position : vec T) (time lag : T) : res (list T) :=
  let mom := vmuls momentum (g4_energy si_units) in
  match a with
  | [a0; a1; a2; a3; a4; a5] =>
      Ok [vx mom / (a0 + n1); vy mom / (a1 + n1); vz mom / a2; vx position / a3; vy position / a4; (time - lag) / a5]
  | _ => UB OutOfBounds
  end.

(** G4CascadeTF.cpp 84-165: the proposal, or [None] for an exception.  The factors of the photons are only read if there are photons. *)
Definition net_step (p : net) (momentum position : vec T) (time : T) (g : est E) : res (option (proposal T) * est E) :=
  let* a := all_initialised (nt_in p) in
  let* input := net_input a momentum position time (nt_lag p) in
  let* r := run_all p input in
  match r with
  | None => Ok (None, g)
  | Some (ge, gf, m) =>
      let* el := all_initialised (nt_el p) in
      let* escale := vec3 el in
      match all_initialised (nt_ph p) with
      | Ok ph =>
          let* pscale := vec3 ph in
          let* r := tf_step E skewed poisson ge gf m escale pscale g in
          Ok (Some (fst r), snd r)
      | x =>
          let* r := tf_step E skewed poisson ge gf m escale (mkV n0 n0 n0) g in
          match pr_photons (fst r) with
          | [] => Ok (Some (fst r), snd r)
          | _ => UB Uninitialised
          end
      end
  end.

(** G4CascadeTF.cpp 221-243. *)
Fixpoint test_photons (k : nat) (ge gf : graph T) (g : est E) : res (est E) :=
  match k with
  | O => Ok g
  | S k' =>
      let* r := rand_discrete E (gr_frac ge) g in
      let* c := get (gr_comp gf) (fst r) in
      test_photons k' ge gf (snd (skewed c (snd r)))
  end.
(** G4CascadeTF.cpp 167-244; the Boolean says whether an exception left the call. *)
Definition test_input : list T := [n0; n0; nlit 8 (-1); nlit 5 (-1); nlit 5 (-1); n1].
Definition net_test (p : net) (g : est E) : res (bool * est E) :=
  let* r := run_all p test_input in
  match r with
  | None => Ok (true, g)
  | Some (ge, gf, m) =>
      let* i := rand_discrete E (gr_frac ge) g in
      let* c := get (gr_comp ge) (fst i) in
      let '(n, g1) := poisson m (snd (skewed c (snd i))) in
      let* g2 := test_photons n ge gf g1 in
      Ok (false, g2)
  end.

(** G4CascadeTF.cpp 19-26: the graphs are deleted in turn ([delete] of an indeterminate pointer is undefined). *)
Definition net_destroy (p : net) : res unit :=
  let* _ := initialised (nt_elec p) in
  let* _ := initialised (nt_posi p) in
  let* _ := initialised (nt_phot p) in
  let* _ := initialised (nt_count p) in
  Ok tt.

(** ** Call sequences *)
Inductive net_call :=
| NLoad (seedPath elecPath photPath : string)
| NLag (time : T)
| NPath (laser : T)
| NStep (momentum position : vec T) (time : T)
| NTest.
Inductive net_seen := NNothing | NRaised | NFree (path : T) | NProposal (pr : proposal T).

Definition net_do (c : net_call) (p : net) (g : est E) : res (net * est E * net_seen) :=
  match c with
  | NLoad a b d => let '(p', x) := load_graphs a b d p in Ok (p', g, if x then NRaised else NNothing)
  | NLag t => Ok (mkNet (nt_elec p) (nt_posi p) (nt_phot p) (nt_count p) (nt_in p) (nt_el p) (nt_ph p) t (nt_switch p) (nt_sessions p), g, NNothing)
  | NPath x =>
      let '(d, s) := mean_free_path x (nt_switch p) in
      Ok (mkNet (nt_elec p) (nt_posi p) (nt_phot p) (nt_count p) (nt_in p) (nt_el p) (nt_ph p) (nt_lag p) s (nt_sessions p), g, NFree d)
  | NStep m x t => let* r := net_step p m x t g in
      Ok (p, snd r, match fst r with Some pr => NProposal pr | None => NRaised end)
  | NTest => let* r := net_test p g in Ok (p, snd r, if fst r then NRaised else NNothing)
  end.
Fixpoint net_run (cs : list net_call) (p : net) (g : est E) : res (net * est E * list net_seen) :=
  match cs with
  | [] => Ok (p, g, [])
  | c :: r =>
      let* x := net_do c p g in
      let* y := net_run r (fst (fst x)) (snd (fst x)) in
      Ok (fst (fst y), snd (fst y), snd x :: snd y)
  end.
End Net.
Arguments tensor : clear implicits.
Arguments gfile : clear implicits.
Arguments gobj : clear implicits.
Arguments net : clear implicits.
Arguments net_call : clear implicits.
Arguments net_seen : clear implicits.
