(** * Numerics (Source/Tools/Numerics.cpp) *)
From Coq Require Import ZArith List.
From Verif Require Import Num Outcome.
Import ListNotations.
Local Open Scope Z_scope.

Section Numerics.
Context {T : Type} `{Num T}.
Local Open Scope num_scope.

(** Numerics.cpp 12-15 and 16-19: the loop [for (i = start; i < bound; i += 2) acc += w * f[i]].
    [fuel] is [S (length f)]: after that many rounds [i] is past the end of [f], so the
    exhausted case is an out-of-bounds read as well. *)
Fixpoint sum_step2 (fuel : nat) (w : T) (f : list T) (i bound : Z) (acc : T) : res T :=
  if (i <? bound)%Z then
    match fuel with
    | O => UB OutOfBounds
    | S k => let* fi := get f i in sum_step2 k w f (i + 2)%Z bound (acc + w * fi)
    end
  else Ok acc.

(** Numerics.cpp 6-23.  [axis.back()], [integrand.back()] of an empty vector and
    [operator[]] out of range are undefined behaviour; [size() - 1], [size() - 2] wrap
    modulo 2^64.  The 32-bit counter [i] is not wrapped (vectors shorter than 2^32). *)
Definition simpson (axis f : list T) : res T :=
  let na := Z.of_nat (length axis) in
  let nf := Z.of_nat (length f) in
  let* back := get axis (na - 1)%Z in
  let* front := get axis 0 in
  let deltaX := (back - front) / (nZ na - n1) in
  let* f0 := get f 0 in
  let* s1 := sum_step2 (S (length f)) (nZ 4) f 1 (u64 (nf - 1)%Z) f0 in
  let* s2 := sum_step2 (S (length f)) (nZ 2) f 2 (u64 (nf - 2)%Z) s1 in
  let* fb := get f (nf - 1)%Z in
  Ok ((s2 + fb) * deltaX / nZ 3).

(** Numerics.cpp 44-53: first index with [query < sample]; (low, high) = (i-1, i),
    or (0, 1) if there is none.  [fuel] counts the remaining entries. *)
Fixpoint first_above (fuel : nat) (sp : list T) (q : T) (i : Z) : res (Z * Z) :=
  match fuel with
  | O => Ok (0%Z, 1%Z)
  | S k => let* s := get sp i in
           if q <? s then Ok (i - 1, i)%Z else first_above k sp q (i + 1)%Z
  end.

(** Numerics.cpp 26-59.  [n] is the [sampleSize] argument (32-bit unsigned). *)
Definition interpolate1d (sp sd : list T) (n : Z) (q : T) : res T :=
  let* s0 := get sp 0 in
  if q <? s0 then
    let* d0 := get sd 0 in
    let* d1 := get sd 1 in
    let* s1 := get sp 1 in
    Ok (d0 + (d1 - d0) * ((q - s0) / (s1 - s0)))
  else
    let* sl := get sp (u32 (n - 1)%Z) in
    if sl <? q then
      let e := s32 (u32 (n - 1)%Z) in
      let* de := get sd e in
      let* dp := get sd (e - 1)%Z in
      let* sp' := get sp (e - 1)%Z in
      let* se := get sp e in
      Ok (de + (de - dp) * ((q - sp') / (se - sp')))
    else
      let* lh := first_above (Z.to_nat n) sp q 0 in
      let* dl := get sd (fst lh) in
      let* xl := get sp (fst lh) in
      let* dh := get sd (snd lh) in
      let* xh := get sp (snd lh) in
      Ok (dl + (q - xl) * (dh - dl) / (xh - xl)).

(** Numerics.cpp 63-73 and 92-102: the last index of the leading run of samples
    below the query (0 if the run is empty). *)
Fixpoint last_below (fuel : nat) (sp : list T) (q : T) (i low : Z) : res Z :=
  match fuel with
  | O => Ok low
  | S k => let* s := get sp i in
           if s <? q then last_below k sp q (i + 1)%Z i else Ok low
  end.

(** Numerics.cpp 61-87. *)
Definition array_index (sp : list T) (n : Z) (q : T) : res Z :=
  let* low := last_below (Z.to_nat n) sp q 0 0 in
  if (low <? u32 (n - 1))%Z then
    let* a := get sp low in
    let* b := get sp (low + 1)%Z in
    if (q - a) <? (b - q) then Ok low else Ok (low + 1)%Z
  else Ok (s32 (u32 (n - 1))).

(** Numerics.cpp 89-113; the reference parameters are returned as a pair. *)
Definition closest_points (sp : list T) (n : Z) (q : T) : res (Z * T) :=
  let* low := last_below (Z.to_nat n) sp q 0 0 in
  if (low <? u32 (n - 2))%Z then
    let* a := get sp low in
    let* b := get sp (low + 1)%Z in
    Ok (low, (q - a) / (b - a))
  else Exit (-1).

End Numerics.
