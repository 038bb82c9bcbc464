(** * Output with MPI (Source/IO/Output/OutputManager.cpp 549-946, Source/Exec/QEDCASC.cpp 69-76, 190-300) *)
From Coq Require Import String ZArith List Bool.
From Verif Require Import Num Outcome Vec Units Particle ParticleList Fields Histogram Hdf5 Output.
Import ListNotations.

(** ** Message passing, as far as it is used

    The MPI library is not part of the repository; its documented behaviour is modelled.  Rank 0 (the master) runs a
    program that receives; the other ranks run straight-line programs of sends and barriers.  Messages from one rank
    are received in the order sent among those that match (non-overtaking).  A standard-mode send either buffers
    the message and returns, or blocks until the message has been received; the library may choose for every message.
    A receive that matches a message of another type, or one longer than its buffer, is an error. *)
Section Semantics.
Context {T : Type}.

Inductive payload := PD (l : list T) | PI (l : list Z).
Record msg := mkMsg { m_tag : Z; m_data : payload }.
Definition psize (p : payload) : Z := match p with PD l => Z.of_nat (length l) | PI l => Z.of_nat (length l) end.

(** The program of the master; [src] is the number of the sender among the other ranks (rank minus one), [None] for
    MPI_ANY_SOURCE. *)
Inductive prog (A : Type) :=
| Ret (a : A)
| Fail
| Probe (src : nat) (tag : Z) (k : Z -> prog A)
| RecvD (src : option nat) (tag max : Z) (k : list T -> prog A)
| RecvI (src : nat) (tag max : Z) (k : list Z -> prog A)
| Barrier (k : prog A).
Arguments Ret {A} a.
Arguments Fail {A}.
Arguments Probe {A} src tag k.
Arguments RecvD {A} src tag max k.
Arguments RecvI {A} src tag max k.
Arguments Barrier {A} k.

Fixpoint pbind {A B} (p : prog A) (f : A -> prog B) : prog B :=
  match p with
  | Ret a => f a
  | Fail => Fail
  | Probe s t k => Probe s t (fun c => pbind (k c) f)
  | RecvD s t m k => RecvD s t m (fun l => pbind (k l) f)
  | RecvI s t m k => RecvI s t m (fun l => pbind (k l) f)
  | Barrier k => Barrier (pbind k f)
  end.
(** A local computation; anything but a normal return is a failure of the run. *)
Definition local {A} (r : res A) : prog A := match r with Ok a => Ret a | _ => Fail end.

(** The program of another rank. *)
Inductive act := ASend (m : msg) | ABar.
(** Its state: messages sent and not yet received (with a mark if the sender waits for it), remaining program,
    whether it is blocked in a send. *)
Record slave := mkSl { sl_queue : list (msg * bool); sl_rest : list act; sl_wait : bool }.
Record world (A : Type) := mkW { w_master : prog A; w_slaves : list slave }.
Arguments mkW {A} w_master w_slaves.
Arguments w_master {A} w.
Arguments w_slaves {A} w.

(** The first message with a tag, and the others. *)
Fixpoint take (tag : Z) (q : list (msg * bool)) : option (msg * bool * list (msg * bool)) :=
  match q with
  | [] => None
  | x :: r => if (m_tag (fst x) =? tag)%Z then Some (x, r)
              else match take tag r with Some (y, r') => Some (y, x :: r') | None => None end
  end.
Definition from (src : option nat) (i : nat) : Prop := match src with None => True | Some j => i = j end.
Definition received (sl : slave) (b : bool) (q : list (msg * bool)) : slave :=
  mkSl q (sl_rest sl) (if b then false else sl_wait sl).

Inductive step {A : Type} : world A -> world A -> Prop :=
| st_send P ss i sl m r b : nth_error ss i = Some sl -> sl_wait sl = false -> sl_rest sl = ASend m :: r ->
    step (mkW P ss) (mkW P (upd ss i (mkSl (sl_queue sl ++ [(m, b)]) r b)))
| st_probe ss src tag k sl m b q : nth_error ss src = Some sl -> take tag (sl_queue sl) = Some (m, b, q) ->
    step (mkW (Probe src tag k) ss) (mkW (k (psize (m_data m))) ss)
| st_recvd ss src tag mx k i sl m b q l : nth_error ss i = Some sl -> from src i -> take tag (sl_queue sl) = Some (m, b, q) ->
    m_data m = PD l -> (Z.of_nat (length l) <= mx)%Z ->
    step (mkW (RecvD src tag mx k) ss) (mkW (k l) (upd ss i (received sl b q)))
| st_recvd_bad ss src tag mx k i sl m b q : nth_error ss i = Some sl -> from src i -> take tag (sl_queue sl) = Some (m, b, q) ->
    ~ (exists l, m_data m = PD l /\ (Z.of_nat (length l) <= mx)%Z) ->
    step (mkW (RecvD src tag mx k) ss) (mkW Fail ss)
| st_recvi ss src tag mx k sl m b q l : nth_error ss src = Some sl -> take tag (sl_queue sl) = Some (m, b, q) ->
    m_data m = PI l -> (Z.of_nat (length l) <= mx)%Z ->
    step (mkW (RecvI src tag mx k) ss) (mkW (k l) (upd ss src (received sl b q)))
| st_recvi_bad ss src tag mx k sl m b q : nth_error ss src = Some sl -> take tag (sl_queue sl) = Some (m, b, q) ->
    ~ (exists l, m_data m = PI l /\ (Z.of_nat (length l) <= mx)%Z) ->
    step (mkW (RecvI src tag mx k) ss) (mkW Fail ss)
| st_barrier ss k : (forall sl, In sl ss -> sl_wait sl = false /\ exists r, sl_rest sl = ABar :: r) ->
    step (mkW (Barrier k) ss) (mkW k (map (fun sl => mkSl (sl_queue sl) (tl (sl_rest sl)) (sl_wait sl)) ss)).

Inductive reach {A : Type} (w : world A) : world A -> Prop :=
| re_refl : reach w w
| re_step w1 w2 : reach w w1 -> step w1 w2 -> reach w w2.

(** Everybody has returned and no message is left over. *)
Definition done {A} (w : world A) (a : A) : Prop :=
  w_master w = Ret a /\ Forall (fun sl => sl_queue sl = [] /\ sl_rest sl = [] /\ sl_wait sl = false) (w_slaves w).
Definition start {A} (P : prog A) (rs : list (list act)) : world A := mkW P (map (fun r => mkSl [] r false) rs).
End Semantics.
Arguments payload : clear implicits.
Arguments msg : clear implicits.
Arguments act : clear implicits.
Arguments slave : clear implicits.
Arguments prog : clear implicits.
Arguments world : clear implicits.
Arguments Ret {T A} a.
Arguments Fail {T A}.
Arguments Probe {T A} src tag k.
Arguments RecvD {T A} src tag max k.
Arguments RecvI {T A} src tag max k.
Arguments Barrier {T A} k.
Arguments mkW {T A} w_master w_slaves.
Arguments w_master {T A} w.
Arguments w_slaves {T A} w.
Notation "'do!' x := e 'in' f" := (pbind e (fun x => f)) (at level 200, x pattern, e at level 100, f at level 200, right associativity).

Section Mpi.
Context {T : Type} `{Num T}.
Local Open Scope num_scope.
Variable code : objinfo.
Variable garbage : T.
Variable fld : field T.

(** OutputManager.cpp 552-555, 897. *)
Definition primaryTag : Z := 1.
Definition electronTag : Z := 2.
Definition positronTag : Z := 3.
Definition photonTag : Z := 4.
Definition histTag : Z := 0.

(** Addition of two [int]s; overflow is undefined. *)
Definition iadd (a b : Z) : prog T Z :=
  (if ((- 2 ^ 31 <=? a + b) && (a + b <? 2 ^ 31))%Z%bool then Ret (a + b)%Z else Fail).
(** [new double[n]] with an [int] [n]. *)
Definition inew (n : Z) : prog T (list T) := if (n <? 0)%Z then Fail else Ret (repeat garbage (Z.to_nat n)).

(** OutputManager.cpp 577-583: sizes of the arrays of the other ranks [is], and the total. *)
Fixpoint probes (is : list nat) (tot : Z) : prog T (list Z * Z) :=
  match is with
  | [] => Ret ([], tot)
  | i :: r =>
      Probe i primaryTag (fun c =>
        do! tot := iadd tot c in
        do! x := probes r tot in Ret (c :: fst x, snd x))
  end.

(** OutputManager.cpp 605-624 (and 722-780 for the other tables): receive an array of a rank into a fresh buffer and
    append its rows. *)
Definition recv_rows (i : nat) (tag size : Z) (buf : list T) (idx : Z) : prog T (list T * Z) :=
  do! proc := inew size in
  RecvD (Some i) tag size (fun l =>
    local (copy_rows (Some (l ++ skipn (length l) proc)) 0 (Z.to_nat (size / 8)) buf idx)).
Fixpoint recv_prime (is : list nat) (sizes : list Z) (buf : list T) (idx : Z) : prog T (list T) :=
  match is, sizes with
  | i :: r, c :: cs => do! x := recv_rows i primaryTag c buf idx in recv_prime r cs (fst x) (snd x)
  | _, _ => Ret buf
  end.

(** OutputManager.cpp 632-640 ([long unsigned]). *)
Definition total64 (counts : list Z) : Z := fold_left (fun a c => u64 (a + c)) counts 0%Z.

(** OutputManager.cpp 649-661: the sizes of the three tables of every rank. *)
Definition recv_size (i : nat) (tag tot : Z) : prog T (Z * Z) :=
  RecvI i tag 1 (fun l => match l with c :: _ => do! t := iadd tot c in Ret (c, t) | [] => Fail end).
Fixpoint recv_sizes (is : list nat) (te tp tg : Z) : prog T (list (Z * Z * Z) * (Z * Z * Z)) :=
  match is with
  | [] => Ret ([], (te, tp, tg))
  | i :: r =>
      do! e := recv_size i electronTag te in
      do! p := recv_size i positronTag tp in
      do! g := recv_size i photonTag tg in
      do! x := recv_sizes r (snd e) (snd p) (snd g) in
      Ret ((fst e, fst p, fst g) :: fst x, snd x)
  end.

(** Copying the rows of all events of the master (671-711), with the number of values written.  The code runs over
    the events once and fills the three buffers side by side; here it is one loop per buffer, and the index
    is a 32-bit number as in Output.v (it is 64-bit in this function; the difference needs 2^32 values). *)
Fixpoint copy_own (rows : list (option (list T))) (counts : list Z) (buf : list T) (idx : Z) : res (list T * Z) :=
  match rows with
  | [] => Ok (buf, idx)
  | r :: t =>
      match counts with
      | [] => UB OutOfBounds
      | c :: ct => let* x := copy_rows r 0 (Z.to_nat c) buf idx in copy_own t ct (fst x) (snd x)
      end
  end.

(** OutputManager.cpp 714-781. *)
Fixpoint recv_tables (is : list nat) (sizes : list (Z * Z * Z)) (e p g : list T * Z) : prog T (list T * list T * list T) :=
  match is, sizes with
  | i :: r, (ce, cp, cg) :: cs =>
      do! e := recv_rows i electronTag ce (fst e) (snd e) in
      do! p := recv_rows i positronTag cp (fst p) (snd p) in
      do! g := recv_rows i photonTag cg (fst g) (snd g) in
      recv_tables r cs e p g
  | _, _ => Ret (fst e, fst p, fst g)
  end.

(** OutputManager.cpp 782-796. *)
Definition out_gathered (s : om T) (size : Z) (buf : list T) (name : string) : res (om T) :=
  if (0 <? size)%Z then o_array s buf [(size / 8)%Z; 8%Z] ("Particles/ParticleSource/" ++ name)%string else Ok s.

(** OutputManager.cpp 562-806: OutputEventsMPI with [outSource = true] on the master; [is] are the other ranks. *)
Definition gather (is : list nat) (s : om T) : prog T (om T) :=
  do! s := local (if om_source s then Ok s else let* s := o_group code s "Particles/ParticleSource" in Ok (with_source s)) in
  let own := s32 (len (om_prim s) * 8) in
  do! x := probes is own in
  do! buf := inew (snd x) in
  do! buf := local (prime_rows (om_prim s) 0 buf) in
  do! buf := recv_prime is (fst x) buf own in
  do! s := local (o_array s buf [(snd x / 8)%Z; 8%Z] "Particles/ParticleSource/Primary") in
  let te := s32 (total64 (tb_count (om_el s)) * 8) in
  let tp := s32 (total64 (tb_count (om_po s)) * 8) in
  let tg := s32 (total64 (tb_count (om_ph s)) * 8) in
  do! y := recv_sizes is te tp tg in
  let '(te, tp, tg) := snd y in
  do! eb := inew te in
  do! pb := inew tp in
  do! gb := inew tg in
  do! e := local (copy_own (tb_rows (om_el s)) (tb_count (om_el s)) eb 0) in
  do! p := local (copy_own (tb_rows (om_po s)) (tb_count (om_po s)) pb 0) in
  do! g := local (copy_own (tb_rows (om_ph s)) (tb_count (om_ph s)) gb 0) in
  do! z := recv_tables is (fst y) e p g in
  let '(eb, pb, gb) := z in
  do! s := local (out_gathered s te eb "Electrons") in
  do! s := local (out_gathered s tp pb "Positrons") in
  local (out_gathered s tg gb "Photons").

(** MPI_Send of an array; the count is converted to [int] and must not be negative. *)
Definition send_double (tag size : Z) (buf : list T) : res (act T) :=
  if (s32 size <? 0)%Z then Throw
  else if (Z.of_nat (length buf) <? s32 size)%Z then UB OutOfBounds
  else Ok (ASend (mkMsg tag (PD (firstn (Z.to_nat (s32 size)) buf)))).
(** MPI_Send of one MPI_INT at the address of a [long unsigned] (859-864): the low 32 bits on a little-endian machine. *)
Definition send_size (tag size : Z) : act T := ASend (mkMsg tag (PI [s32 size])).

(** The buffer of one table of a rank other than 0 (834-853). *)
Definition slave_buffer (tb : table T) : res (list T * Z) :=
  copy_own (tb_rows tb) (tb_count tb) (repeat garbage (Z.to_nat (u64 (total64 (tb_count tb) * 8)))) 0.

(** OutputManager.cpp 808-882: what the other ranks do. *)
Definition slave_source (s : om T) : res (list (act T)) :=
  let* pb := prime_rows (om_prim s) 0 (repeat garbage (length (om_prim s) * 8)) in
  let* a1 := send_double primaryTag (len (om_prim s) * 8) pb in
  let* eb := slave_buffer (om_el s) in
  let* pb := slave_buffer (om_po s) in
  let* gb := slave_buffer (om_ph s) in
  let te := u64 (total64 (tb_count (om_el s)) * 8) in
  let tp := u64 (total64 (tb_count (om_po s)) * 8) in
  let tg := u64 (total64 (tb_count (om_ph s)) * 8) in
  let* a2 := send_double electronTag te (fst eb) in
  let* a3 := send_double positronTag tp (fst pb) in
  let* a4 := send_double photonTag tg (fst gb) in
  Ok [a1; send_size electronTag te; send_size positronTag tp; send_size photonTag tg; a2; a3; a4].

(** ** Histograms *)
(** [binValues[i] += dataBuff[i]] for all bins. *)
Fixpoint add_bins (a b : list T) : list T :=
  match a, b with x :: r, y :: q => (x + y) :: add_bins r q | _, _ => a end.
(** OutputManager.cpp 916-926: [n] receives from anybody. *)
Fixpoint recv_hists (n : nat) (bins : Z) (acc data : list T) : prog T (list T) :=
  match n with
  | O => Ret acc
  | S m =>
      RecvD None histTag bins (fun l =>
        let data := l ++ skipn (length l) data in recv_hists m bins (add_bins acc data) data)
  end.
(** OutputManager.cpp 891-944 on the master, for [n] other ranks. *)
Definition gather_hist (n : nat) (s : om T) (h : hist T) : prog T (om T) :=
  let buf := repeat garbage (Z.to_nat (hi_n h)) in
  do! own := local (if (Z.of_nat (length (hi_values h)) <? hi_n h)%Z then UB OutOfBounds else Ok (firstn (Z.to_nat (hi_n h)) (hi_values h))) in
  do! acc := recv_hists n (hi_n h) own buf in
  let g := ("Histograms/" ++ hi_name h)%string in
  do! s := local (o_group code s g) in
  do! s := local (o_array s (hi_centres h) [hi_n h] (g ++ "/BinCentres")) in
  do! s := local (o_array s acc [hi_n h] (g ++ "/BinValues")) in
  Barrier (Ret s).
(** and on the other ranks. *)
Definition slave_hist (h : hist T) : list (act T) :=
  [ASend (mkMsg histTag (PD (firstn (Z.to_nat (hi_n h)) (hi_values h)))); ABar].

(** ** The program (QEDCASC.cpp 190-300): sources, then histograms *)
Definition init_calls (r : source_run T) : list (op T) := (if sr_output r then [OInit (sr_number r)] else []) ++ sr_calls r.
Fixpoint master_sources (is : list nat) (s : om T) (srcs : list (source_run T)) : prog T (om T) :=
  match srcs with
  | [] => Ret s
  | r :: t =>
      do! s := local (exec_all code garbage fld s (init_calls r)) in
      do! s := (if sr_output r then gather is s else Ret s) in
      master_sources is s t
  end.
Fixpoint master_hists (n : nat) (s : om T) (hs : list (hist T)) : prog T (om T) :=
  match hs with [] => Ret s | h :: t => do! s := gather_hist n s h in master_hists n s t end.
Definition master_main (n : nat) (s : om T) (srcs : list (source_run T)) (hs : list (hist T)) : prog T (om T) :=
  do! s := master_sources (seq 0 n) s srcs in master_hists n s hs.
(** A rank other than 0 has no file; only its tables are used. *)
Fixpoint slave_sources (s : om T) (srcs : list (source_run T)) : res (list (act T)) :=
  match srcs with
  | [] => Ok []
  | r :: t =>
      let* s := exec_all code garbage fld s (init_calls r) in
      let* a := (if sr_output r then slave_source s else Ok []) in
      let* b := slave_sources s t in Ok (a ++ b)%list
  end.
Definition slave_main (s : om T) (srcs : list (source_run T)) (hs : list (hist T)) : res (list (act T)) :=
  let* a := slave_sources s srcs in Ok (a ++ flat_map slave_hist hs)%list.
End Mpi.
