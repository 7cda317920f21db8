(** How types are spelled: the Go language specification (slices of the predeclared types) and the
    CDL names of the netCDF types.  Nothing in this file refers to the models. *)
From Verif Require Import Prelude GoVal.

(** Go spelling of a type *)
Fixpoint spelled (t : gtype) : bytes :=
  match t with
  | GNum I8 => bs "int8" | GNum I16 => bs "int16" | GNum I32 => bs "int32" | GNum I64 => bs "int64"
  | GNum U8 => bs "uint8" | GNum U16 => bs "uint16" | GNum U32 => bs "uint32" | GNum U64 => bs "uint64"
  | GNum F32 => bs "float32" | GNum F64 => bs "float64"
  | GString => bs "string"
  | GSlice u => bs "[]" ++ spelled u
  | GOther => bs "?"
  end.

(** Every part of the type is one that the library supports *)
Fixpoint plain (t : gtype) : Prop :=
  match t with GNum _ | GString => True | GSlice u => plain u | GOther => False end.

(** The type without its slices *)
Fixpoint base_of (t : gtype) : gtype :=
  match t with GSlice u => base_of u | _ => t end.

(** CDL names of the external types, by the codes of the file format *)
Definition cdl_names : list (Z * string) :=
  [(1, "byte"); (2, "char"); (3, "short"); (4, "int"); (5, "float"); (6, "double"); (7, "ubyte");
   (8, "ushort"); (9, "uint"); (10, "int64"); (11, "uint64")]%string.

(** CDL name of a Go type *)
Definition cdl_of (t : gtype) : bytes :=
  match t with
  | GNum I8 => bs "byte" | GNum I16 => bs "short" | GNum I32 => bs "int" | GNum I64 => bs "int64"
  | GNum U8 => bs "ubyte" | GNum U16 => bs "ushort" | GNum U32 => bs "uint" | GNum U64 => bs "uint64"
  | GNum F32 => bs "float" | GNum F64 => bs "double"
  | _ => bs "string"
  end.

(** The extents in parentheses, separated by commas *)
Fixpoint comma_list (ds : list Z) : bytes :=
  match ds with
  | [] => []
  | [d] => dec d
  | d :: r => dec d ++ bs "," ++ comma_list r
  end.
Definition with_extents (base : bytes) (ds : list Z) : bytes :=
  match ds with [] => base | _ => base ++ bs "(" ++ comma_list ds ++ bs ")" end.

(** Rectangular arrays: all slices of one depth have one length *)
Inductive rectangular : list Z -> gval -> Prop :=
| re_num k z : rectangular [] (VNum k z)
| re_str s : rectangular [] (VStr s)
| re_slice ds t l : Forall (rectangular ds) l -> rectangular (zlen l :: ds) (VSlice t l).

(** Slices of slices ... of a type, spelled in Go *)
Fixpoint brackets (n : nat) (base : bytes) : bytes :=
  match n with O => base | S m => bs "[]" ++ brackets m base end.
(** Levels of slices of an array of a rank: the last dimension of a char array is that of the strings *)
Definition levels (chars : bool) (rank : nat) : nat := if chars then Nat.pred rank else rank.

(** CDL type of an attribute: a scalar, a text, or a list of numbers with its length *)
Definition cdl_attr (v : gval) : bytes :=
  match v with
  | VSlice t [] => cdl_of t ++ bs "(*)"
  | VSlice t l => cdl_of t ++ bs "(" ++ dec (zlen l) ++ bs ")"
  | _ => cdl_of (type_of v)
  end.
