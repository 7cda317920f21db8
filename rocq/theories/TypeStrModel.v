(** Model of the type strings: cdf.go:781-860 (Type and GoType of a variable) and
    util/orderedmap.go:107-286 (GetType and GetGoType of an attribute, without the callbacks that
    HDF5 installs). *)
From Verif Require Import Prelude GoVal OrderedMapModel CdfReaderModel.

(** cdf.go:781-820 *)
Definition go_type (vType : Z) : res bytes :=
  match vType with
  | 1 => Ok (bs "int8")
  | 2 => Ok (bs "string")
  | 3 => Ok (bs "int16")
  | 4 => Ok (bs "int32")
  | 5 => Ok (bs "float32")
  | 6 => Ok (bs "float64")
  | 7 => Ok (bs "uint8")
  | 8 => Ok (bs "uint16")
  | 9 => Ok (bs "uint32")
  | 11 => Ok (bs "uint64")
  | 10 => Ok (bs "int64")
  | _ => Err EUnknownType
  end.

(** cdf.go:822-860 *)
Definition cdl_type (vType : Z) : res bytes :=
  match vType with
  | 1 => Ok (bs "byte")
  | 2 => Ok (bs "char")
  | 3 => Ok (bs "short")
  | 4 => Ok (bs "int")
  | 5 => Ok (bs "float")
  | 6 => Ok (bs "double")
  | 7 => Ok (bs "ubyte")
  | 8 => Ok (bs "ushort")
  | 9 => Ok (bs "uint")
  | 11 => Ok (bs "uint64")
  | 10 => Ok (bs "int64")
  | _ => Err EUnknownType
  end.

(** cdf.go:777-778 and internal/slicer.go:55-61 *)
Definition getter_type (g : getter) : res bytes := cdl_type (v_type (g_var g)).
Definition getter_go_type (g : getter) : res bytes := go_type (v_type (g_var g)).

(** reflect.Kind.String of the numbers; values of unsupported types ([VOther], a nil interface
    among them) are left out: None. *)
Definition kind_string (k : nk) : bytes :=
  match k with
  | I8 => bs "int8" | I16 => bs "int16" | I32 => bs "int32" | I64 => bs "int64"
  | U8 => bs "uint8" | U16 => bs "uint16" | U32 => bs "uint32" | U64 => bs "uint64"
  | F32 => bs "float32" | F64 => bs "float64"
  end.

(** reflect.Zero of a type: pGoType and pType of the element type of an empty slice.  A nil slice
    is an empty one. *)
Fixpoint zero_go_type (t : gtype) : option bytes :=
  match t with
  | GNum k => Some (kind_string k)
  | GString => Some (bs "string")
  | GSlice u => match zero_go_type u with Some s => Some (bs "[]" ++ s) | None => None end
  | GOther => None
  end.

(** orderedmap.go:107-163, slices and scalars (arrays and structs are not values of the model) *)
Fixpoint pGoType (v : gval) : option bytes :=
  match v with
  | VNum k _ => Some (kind_string k)
  | VStr _ => Some (bs "string")
  | VSlice t l =>
      match (match l with [] => zero_go_type t | x :: _ => pGoType x end) with
      | Some inner => Some (bs "[]" ++ inner)
      | None => None
      end
  | VOther => None
  end.

(** orderedmap.go:254-265: the map replacements; int64 and uint64 are not in it *)
Definition replaced (k : nk) : bytes :=
  match k with
  | F32 => bs "float" | F64 => bs "double" | I8 => bs "byte" | I16 => bs "short" | I32 => bs "int"
  | U8 => bs "ubyte" | U16 => bs "ushort" | U32 => bs "uint"
  | I64 => bs "int64" | U64 => bs "uint64"
  end.

(** strings.LastIndex of a one-byte string: the text before its last occurrence and the one after *)
Fixpoint split_last (c : Z) (s : bytes) : option (bytes * bytes) :=
  match s with
  | [] => None
  | x :: r =>
      match split_last c r with
      | Some (a, b) => Some (x :: a, b)
      | None => if x =? c then Some ([], r) else None
      end
  end.

Definition lpar : Z := 40.
Definition rpar : Z := 41.

(** orderedmap.go:181-193 for slices *)
Definition putDim (inner : bytes) (dim : Z) : bytes :=
  let sDim := if dim =? 0 then bs "*" else dec dim in
  match split_last lpar inner with
  | None | Some (_, []) => inner ++ [lpar] ++ sDim ++ [rpar]
  | Some (a, b) => a ++ [lpar] ++ sDim ++ bs "," ++ b
  end.

Fixpoint zero_type (t : gtype) : option bytes :=
  match t with
  | GNum k => Some (replaced k)
  | GString => Some (bs "string")
  | GSlice u => match zero_type u with Some s => Some (putDim s 0) | None => None end
  | GOther => None
  end.

(** orderedmap.go:195-270 *)
Fixpoint pType (v : gval) : option bytes :=
  match v with
  | VNum k _ => Some (replaced k)
  | VStr _ => Some (bs "string")
  | VSlice t l =>
      match (match l with [] => zero_type t | x :: _ => pType x end) with
      | Some inner => Some (putDim inner (zlen l))
      | None => None
      end
  | VOther => None
  end.

(** strings.ReplaceAll(prelim, ")(", ","), orderedmap.go:285 *)
Fixpoint commas (s : bytes) : bytes :=
  match s with
  | a :: ((b :: r) as t) => if (a =? rpar) && (b =? lpar) then 44 :: commas r else a :: commas t
  | _ => s
  end.

(** orderedmap.go:165-176 and 272-286 *)
Definition om_go_type (m : omap gval) (key : bytes) : option bytes :=
  match om_get m key with None => None | Some v => pGoType v end.
Definition om_type (m : omap gval) (key : bytes) : option bytes :=
  match om_get m key with
  | None => None
  | Some v => match pType v with Some s => Some (commas s) | None => None end
  end.
