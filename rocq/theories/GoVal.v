(** Go values handed to and returned by the API (interface values [any]). *)
From Verif Require Import Prelude.

(** Numeric kinds supported by netCDF. Floats are represented by their IEEE bit
    patterns, integers by their mathematical value. *)
Inductive nk : Type := I8 | I16 | I32 | I64 | U8 | U16 | U32 | U64 | F32 | F64.

Definition nk_eqb (a b : nk) : bool :=
  match a, b with
  | I8, I8 | I16, I16 | I32, I32 | I64, I64 | U8, U8 | U16, U16 | U32, U32 | U64, U64
  | F32, F32 | F64, F64 => true
  | _, _ => false
  end.

(** Size in bytes. *)
Definition ksize (k : nk) : Z :=
  match k with
  | I8 | U8 => 1
  | I16 | U16 => 2
  | I32 | U32 | F32 => 4
  | I64 | U64 | F64 => 8
  end.

Definition ksigned (k : nk) : bool :=
  match k with I8 | I16 | I32 | I64 => true | _ => false end.

(** Range of the represented integer (bit pattern for floats). *)
Definition kmin (k : nk) : Z := if ksigned k then - 2 ^ (8 * ksize k - 1) else 0.
Definition kmax (k : nk) : Z :=
  if ksigned k then 2 ^ (8 * ksize k - 1) - 1 else 2 ^ (8 * ksize k) - 1.
Definition in_range (k : nk) (z : Z) : bool := (kmin k <=? z) && (z <=? kmax k).

(** Go static types of values; [GOther] is any type the library does not support
    (bool, int, uint, complex, struct, ...). Go arrays, named types, maps and
    channels are not represented. *)
Inductive gtype : Type :=
| GNum (k : nk)
| GString
| GSlice (t : gtype)
| GOther.

(** Dynamic values; [VOther] covers nil interfaces and values of unsupported types
    on which reflect.Value.Len panics. *)
Inductive gval : Type :=
| VNum (k : nk) (z : Z)
| VStr (s : bytes)
| VSlice (t : gtype) (l : list gval)
| VOther.

Fixpoint gtype_eqb (a b : gtype) : bool :=
  match a, b with
  | GNum k, GNum k' => nk_eqb k k'
  | GString, GString => true
  | GSlice t, GSlice t' => gtype_eqb t t'
  | GOther, GOther => true
  | _, _ => false
  end.

(** reflect.TypeOf *)
Definition type_of (v : gval) : gtype :=
  match v with
  | VNum k _ => GNum k
  | VStr _ => GString
  | VSlice t _ => GSlice t
  | VOther => GOther
  end.

(** Well-typed values: what the Go type system guarantees about a value. *)
Fixpoint wt (v : gval) : bool :=
  match v with
  | VNum k z => in_range k z
  | VStr s => forallb (fun b => (0 <=? b) && (b <? 256)) s
  | VSlice t l =>
      forallb (fun x => gtype_eqb (type_of x) t) l && forallb wt l
  | VOther => true
  end.

(** Big- and little-endian encodings of one number; encoding/binary on the kind. *)
Definition enc_be (k : nk) (z : Z) : bytes := be (Z.to_nat (ksize k)) z.
Definition enc_le (k : nk) (z : Z) : bytes := le (Z.to_nat (ksize k)) z.
Definition of_unsigned (k : nk) (u : Z) : Z :=
  if ksigned k then signed (8 * ksize k) u else u.
Definition dec_be (k : nk) (b : bytes) : Z := of_unsigned k (of_be b).
Definition dec_le (k : nk) (b : bytes) : Z := of_unsigned k (of_le b).
