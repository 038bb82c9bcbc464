(** * The output file (Source/IO/Output/HDF5Output.{hh,cpp}) *)
From Coq Require Import String Ascii ZArith List Bool.
From Verif Require Import Outcome.
Import ListNotations.
Local Open Scope string_scope.

(** ** The file library, as far as it is used

    The HDF5 library is not part of the repository; its documented behaviour is modelled: a file is a
    tree of groups and data sets, addressed by '/'-separated paths (empty components are skipped; the special
    component "." is not modelled); creating an object fails with an exception if the path is taken or if the
    parent is not an existing group (intermediate groups are not created). *)

Fixpoint path_go (s cur : string) : list string :=
  match s with
  | "" => if String.eqb cur "" then [] else [cur]
  | String c r =>
      if Ascii.eqb c "/" then (if String.eqb cur "" then path_go r "" else cur :: path_go r "")
      else path_go r (cur ++ String c "")
  end.
Definition path (s : string) : list string := path_go s "".

Section H5.
Context {T : Type}.

(** A data set holds its dimensions and its elements in row-major order. *)
Inductive node := Grp | Dat (dims : list Z) (vals : list T).
Definition tree := list (list string * node).

Fixpoint lookup (f : tree) (p : list string) : option node :=
  match f with
  | [] => None
  | (q, n) :: t => if list_eq_dec string_dec p q then Some n else lookup t p
  end.

(** The root group always exists. *)
Definition exists_ (f : tree) (p : list string) : bool :=
  match p with [] => true | _ => match lookup f p with Some _ => true | None => false end end.
Definition is_group (f : tree) (p : list string) : bool :=
  match p with [] => true | _ => match lookup f p with Some Grp => true | _ => false end end.

(** H5File::createGroup, H5File::createDataSet. *)
Definition create (f : tree) (p : list string) (n : node) : res tree :=
  if exists_ f p then Throw
  else if is_group f (removelast p) then Ok ((p, n) :: f) else Throw.

(** ** HDF5Output *)

(** State of the pointer [m_group]. *)
Inductive gptr := GNull | GLive | GFreed.
(** HDF5Output.hh 29-33 (the file name is irrelevant; [m_subGroup] is never initialised and only used by
    AddSubGroup 44-51, which nothing calls: not modelled). *)
Record file := mkFile { f_tree : tree; f_group : gptr }.

(** HDF5Output.cpp 10-20 with [append = false], as called from OutputManager.cpp 13, 31. *)
Definition file_new : file := mkFile [] GNull.

(** What H5Gget_objinfo returns, as a function of whether the object exists.  The documentation says: a
    non-negative value (0) on success, i.e. if the object exists, a negative value otherwise. *)
Definition objinfo := bool -> Z.
Definition objinfo_documented (code : objinfo) : Prop := code true = 0%Z /\ (code false < 0)%Z.
Definition objinfo_inverted (code : objinfo) : Prop := code true <> 0%Z /\ code false = 0%Z.

Variable code : objinfo.

(** HDF5Output.cpp 28-42; line 36 converts the result to [bool]. *)
Definition add_group (f : file) (name : string) : res file :=
  let* g := match f_group f with GNull => Ok GNull | GLive => Ok GFreed | GFreed => UB DoubleFree end in
  let status := negb (code (exists_ (f_tree f) (path name)) =? 0)%Z in
  if Bool.eqb status false then
    let* t := create (f_tree f) (path name) Grp in Ok (mkFile t GLive)
  else Ok (mkFile (f_tree f) g).

Fixpoint zprod (dims : list Z) : Z := match dims with [] => 1%Z | d :: t => (d * zprod t)%Z end.

(** HDF5Output.cpp 53-80: AddArray1D, AddArray2D, AddArray3D; the library reads as many doubles from the buffer as
    the dimensions say. *)
Definition add_array (f : file) (buf : list T) (dims : list Z) (name : string) : res file :=
  let* t := create (f_tree f) (path name) (Dat dims (firstn (Z.to_nat (zprod dims)) buf)) in
  if (Z.of_nat (length buf) <? zprod dims)%Z then UB OutOfBounds
  else Ok (mkFile t (f_group f)).

End H5.
Arguments node : clear implicits.
Arguments tree : clear implicits.
Arguments file : clear implicits.
