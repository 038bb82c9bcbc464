(** * The data tables of the processes
    (Source/Physics/Processes/PhotonEmission.cpp 50-156, NonLinearBreitWheeler.cpp 73-157) *)
From Coq Require Import String ZArith List Bool Ascii.
From Verif Require Import Num Outcome Text Process.
Import ListNotations.
Local Open Scope string_scope.
Local Open Scope list_scope.

(** ** Input streams (the C++ library, as far as it is used)
    The characters still to be read; [None] once an extraction has failed (failbit). *)
Definition stream := option text.

(** [stream >> value] for an unsigned int (libstdc++ num_get::_M_extract_int, decimal).  Nothing left: the value
    is not touched.  No digits: 0.  Too large: the largest unsigned number.  A minus sign wraps around. *)
Definition in_unsigned (s : stream) (old : Z) : stream * Z :=
  match s with
  | None => (None, old)
  | Some t =>
      match skip_space t with
      | [] => (None, old)
      | u =>
          let '(neg, v) := sign u in
          let '(m, n, r) := digits 10 0 0 v in
          if (n =? 0)%Z then (None, 0%Z)
          else if (2 ^ 32 - 1 <? m)%Z then (None, (2 ^ 32 - 1)%Z)
          else (Some r, if neg then u32 (- m) else m)
      end
  end.

Section Tables.
Context {T : Type} `{Num T}.
Local Open Scope num_scope.

(** [stream >> value] for a double ([stream_double], Text.v).  Nothing left: the value is not touched.  Not a
    number: 0.  (Numbers too large for a double, which also fail, are the literals of the arithmetic here.) *)
Definition in_double (s : stream) (old : T) : stream * T :=
  match s with
  | None => (None, old)
  | Some t =>
      match skip_space t with
      | [] => (None, old)
      | u => match stream_double u with Some (x, r) => (Some r, x) | None => (None, n0) end
      end
  end.

(** What fresh memory contains: local variables (block 0), arrays (block 1, or 2 + the row number), length members. *)
Variable junk : nat -> nat -> T.
Variable junk_len : Z.

(** PhotonEmission.cpp 92-99, NonLinearBreitWheeler.cpp 120-126: pairs read through two local variables, of which
    the first is also returned. *)
Fixpoint in_pairs (n : nat) (s : stream) (a b : T) : list (T * T) * T :=
  match n with
  | O => ([], a)
  | S k =>
      let '(s1, a1) := in_double s a in
      let '(s2, b1) := in_double s1 b in
      let '(l, z) := in_pairs k s2 a1 b1 in
      ((a1, b1) :: l, z)
  end.

(** Numbers read into a fresh array (PhotonEmission.cpp 115-118, 135-139; NonLinearBreitWheeler.cpp 137, 139-142);
    [b] is the memory block, [i] the index of the next element. *)
Fixpoint in_array (n b i : nat) (s : stream) : list T * stream :=
  match n with
  | O => ([], s)
  | S k =>
      let '(s1, x) := in_double s (junk b i) in
      let '(l, z) := in_array k b (S i) s1 in
      (x :: l, z)
  end.
Fixpoint in_rows (n m b : nat) (s : stream) : list (list T) :=
  match n with
  | O => []
  | S k => let '(r, s1) := in_array m b 0 s in r :: in_rows k m (S b) s1
  end.
(** Numbers read through one local variable (NonLinearBreitWheeler.cpp 135-136). *)
Fixpoint in_column (n : nat) (s : stream) (a : T) : list T :=
  match n with
  | O => []
  | S k => let '(s1, a1) := in_double s a in a1 :: in_column k s1 a1
  end.

(** PhotonEmission.cpp 120-131: the axes computed from the limits and the smallest chi of every eta. *)
Definition eta_axis (n : Z) (logMin logMax : T) : list T :=
  let deltaEta := (logMax - logMin) / (nZ n - n1) in
  map (fun i => logMin + nZ (Z.of_nat i) * deltaEta) (seq 0 (Z.to_nat n)).
(** 123-130; the divisor is the length of the eta axis. *)
Definition chi_row (n m : Z) (logEta chiMin : T) : list T :=
  let logMinChi := nlog10 chiMin in
  let deltaChi := (logEta - nlog10 n2 - logMinChi) / (nZ n - n1) in
  map (fun j => logMinChi + nZ (Z.of_nat j) * deltaChi) (seq 0 (Z.to_nat m)).

(** PhotonEmission.cpp 88-140 on the contents of the three files. *)
Definition read_em (h ph cm : text) : em_tables T :=
  let '(hs, hn) := in_unsigned (Some h) junk_len in
  let hp := fst (in_pairs (Z.to_nat hn) hs (junk 0 0) (junk 0 1)) in
  let '(s1, en) := in_unsigned (Some ph) junk_len in
  let '(s2, cn) := in_unsigned s1 junk_len in
  let '(s3, logMin) := in_double s2 (junk 0 0) in
  let '(s4, logMax) := in_double s3 (junk 0 1) in
  let chiMins := fst (in_array (Z.to_nat en) 1 0 (Some cm)) in
  let etas := eta_axis en logMin logMax in
  mkEmT (map fst hp) (map snd hp) hn
    etas (map (fun x => chi_row en cn (fst x) (snd x)) (combine etas chiMins))
    (in_rows (Z.to_nat en) (Z.to_nat cn) 2 s4) en cn.

(** NonLinearBreitWheeler.cpp 116-143 on the contents of the four files.  Four streams are read in turn; here it is one
    loop per stream. *)
Definition read_bw (tb fr ep lc : text) : bw_tables T :=
  let '(ts, tn) := in_unsigned (Some tb) junk_len in
  let '(tp, logChi) := in_pairs (Z.to_nat tn) ts (junk 0 0) (junk 0 1) in
  let '(fs, fn) := in_unsigned (Some fr) junk_len in
  mkBwT (map fst tp) (map snd tp) tn
    (in_column (Z.to_nat fn) (Some lc) logChi)
    (fst (in_array (Z.to_nat fn) 1 0 (Some ep)))
    (in_rows (Z.to_nat fn) (Z.to_nat fn) 2 fs) fn.

(** The environment variable QED_TABLES_PATH ([None]: not set) and the readable files. *)
Variable env : option string.
Variable disk : string -> option text.

(** PhotonEmission.cpp 50-141.  The allocations are taken to succeed. *)
Definition load_em : res (em_tables T) :=
  match env with
  | None => UB NullString
  | Some path =>
      match disk (path ++ "/hsokolov.table")%string, disk (path ++ "/ksi_sokolov.table")%string, disk (path ++ "/chimin.table")%string with
      | Some h, Some ph, Some cm => Ok (read_em h ph cm)
      | _, _, _ => Exit 1
      end
  end.

(** NonLinearBreitWheeler.cpp 73-144. *)
Definition load_bw : res (bw_tables T) :=
  match env with
  | None => UB NullString
  | Some path =>
      match disk (path ++ "/pairprod.table")%string, disk (path ++ "/e_split.table")%string,
            disk (path ++ "/epsilon.table")%string, disk (path ++ "/log_chi.table")%string with
      | Some tb, Some fr, Some ep, Some lc => Ok (read_bw tb fr ep lc)
      | _, _, _, _ => Exit 1
      end
  end.
End Tables.
