(** * Numbers

    The C++ code computes with [double].  The model functions are written once
    over an operations-only structure [Num T]; no law is part of the structure.
    - [Num_R]  : exact real arithmetic (rounding idealised away);
    - [Num_F64]: IEEE-754 binary64 via the standard library's executable
                 [SpecFloat] operations, with arbitrary libm functions. *)
From Coq Require Import ZArith Reals Lra.
From Coq Require Import Floats.SpecFloat.

(** Operations used by the code on [double] (all of /repo/Source).  [nlit m e] is
    the decimal literal [m * 10^e]; [x > y] of C++ is [nltb y x], [x >= y] is
    [nleb y x] (so every comparison with NaN is false, as in IEEE). *)
Class Num (T : Type) := {
  nlit   : Z -> Z -> T;
  nadd   : T -> T -> T;
  nsub   : T -> T -> T;
  nmul   : T -> T -> T;
  ndiv   : T -> T -> T;
  nneg   : T -> T;
  nsqrt  : T -> T;
  nexp   : T -> T;
  nlog   : T -> T;
  nlog10 : T -> T;
  npow   : T -> T -> T;
  nsin   : T -> T;
  ncos   : T -> T;
  natan  : T -> T;
  nltb   : T -> T -> bool;
  nleb   : T -> T -> bool;
  neqb   : T -> T -> bool
}.

Declare Scope num_scope.
Delimit Scope num_scope with num.
Infix "+" := nadd : num_scope.
Infix "-" := nsub : num_scope.
Infix "*" := nmul : num_scope.
Infix "/" := ndiv : num_scope.
Notation "- x" := (nneg x) : num_scope.
Infix "<?" := nltb : num_scope.
Infix "<=?" := nleb : num_scope.
Infix "=?" := neqb : num_scope.

Section Literals.
Context {T : Type} `{Num T}.
(** Integer literals and exact conversions from integer types. *)
Definition nZ (z : Z) : T := nlit z 0.
Definition n0 : T := nlit 0 0.
Definition n1 : T := nlit 1 0.
Definition n2 : T := nlit 2 0.
End Literals.

(** ** Exact reals *)

Definition Rltb (x y : R) : bool := if Rlt_dec x y then true else false.
Definition Rleb (x y : R) : bool := if Rle_dec x y then true else false.
Definition Reqb (x y : R) : bool := if Req_EM_T x y then true else false.

(** [std::pow] on the reals: integer exponents by repeated multiplication (any base),
    other exponents for positive bases.  (A negative base with a non-integer exponent is NaN
    in C; no call of the code has one, the value 0 here is a place-holder.) *)
Definition Rpow (x y : R) : R :=
  if Req_EM_T y (IZR (Int_part y)) then powerRZ x (Int_part y)
  else if Rlt_dec 0 x then Rpower x y else 0.

(** The value of a decimal literal. *)
Definition Rlit (m e : Z) : R := (IZR m * powerRZ 10 e)%R.

(** Where C yields NaN or an infinity the total functions of the Coq library yield some real
    number (division by 0, sqrt or log of a negative number, log 0).  Theorems over the exact reals
    carry hypotheses excluding those arguments, or do not depend on the value. *)
#[global] Instance Num_R : Num R := {
  nlit := Rlit;
  nadd := Rplus; nsub := Rminus; nmul := Rmult; ndiv := Rdiv; nneg := Ropp;
  nsqrt := R_sqrt.sqrt; nexp := exp; nlog := ln;
  nlog10 := fun x => (ln x / ln 10)%R;
  npow := Rpow; nsin := sin; ncos := cos; natan := atan;
  nltb := Rltb; nleb := Rleb; neqb := Reqb
}.

(** ** IEEE binary64 *)

(** The libm functions are not specified by IEEE-754 (except sqrt); theorems
    over binary64 hold for every choice of them. *)
Record Libm := {
  l_exp : spec_float -> spec_float;
  l_log : spec_float -> spec_float;
  l_log10 : spec_float -> spec_float;
  l_pow : spec_float -> spec_float -> spec_float;
  l_sin : spec_float -> spec_float;
  l_cos : spec_float -> spec_float;
  l_atan : spec_float -> spec_float
}.

Definition f64_prec : Z := 53.
Definition f64_emax : Z := 1024.

(** Integer to binary64, round to nearest even. *)
Definition f64_ofZ (z : Z) : spec_float :=
  binary_normalize f64_prec f64_emax z 0 false.

Definition f64_add := SFadd f64_prec f64_emax.
Definition f64_sub := SFsub f64_prec f64_emax.
Definition f64_mul := SFmul f64_prec f64_emax.
Definition f64_div := SFdiv f64_prec f64_emax.
Definition f64_sqrt := SFsqrt f64_prec f64_emax.

(** Decimal literal [m*10^e]: one rounded operation on the unrounded integers,
    i.e. correctly rounded, for the short literals of the source. *)
Definition f64_lit (m e : Z) : spec_float :=
  match m with
  | Z0 => S754_zero false
  | _ =>
    if (0 <=? e)%Z then f64_ofZ (m * 10 ^ e)
    else match m, (10 ^ (- e))%Z with
         | Zpos p, Zpos q => SFdiv f64_prec f64_emax (S754_finite false p 0) (S754_finite false q 0)
         | Zneg p, Zpos q => SFdiv f64_prec f64_emax (S754_finite true p 0) (S754_finite false q 0)
         | _, _ => S754_nan
         end
  end.

Definition Num_F64 (L : Libm) : Num spec_float := {|
  nlit := f64_lit;
  nadd := f64_add; nsub := f64_sub; nmul := f64_mul; ndiv := f64_div;
  nneg := SFopp; nsqrt := f64_sqrt;
  nexp := l_exp L; nlog := l_log L; nlog10 := l_log10 L; npow := l_pow L;
  nsin := l_sin L; ncos := l_cos L; natan := l_atan L;
  nltb := SFltb; nleb := SFleb; neqb := SFeqb
|}.
