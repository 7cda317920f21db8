(** Specification of slices and boxes of arrays, and of stored numbers with fill values.
    Nothing in this file refers to the models. *)
From Verif Require Import Prelude GoVal ArraySpec.

(** v[b:e] of Go, for slices and strings *)
Definition vslice (b e : Z) (v : gval) : gval :=
  match v with
  | VSlice t l => VSlice t (ztake (e - b) (zdrop b l))
  | VStr s => VStr (ztake (e - b) (zdrop b s))
  | _ => v
  end.

(** 0 <= b <= e <= d in every dimension *)
Inductive box_in : list Z -> list Z -> list Z -> Prop :=
| box_nil : box_in [] [] []
| box_cons d b e ds bs es : 0 <= b -> b <= e -> e <= d -> box_in ds bs es -> box_in (d :: ds) (b :: bs) (e :: es).

Fixpoint zadd (a b : list Z) : list Z :=
  match a, b with x :: a', y :: b' => (x + y) :: zadd a' b' | _, _ => [] end.
Fixpoint zsub (a b : list Z) : list Z :=
  match a, b with x :: a', y :: b' => (x - y) :: zsub a' b' | _, _ => [] end.

(** The last bound replaced: a row of characters is one string and is not cut *)
Fixpoint set_last (x : list Z) (b : list Z) : list Z :=
  match b with
  | [] => []
  | [_] => [last x 0]
  | c :: r => c :: set_last x r
  end.
Definition whole_rows (t : elt) (ds : list Z) : bool :=
  match t with EChar => (1 <? zlen ds) | ENum _ => false end.
Definition box_begin (t : elt) (ds b : list Z) : list Z := if whole_rows t ds then set_last [0] b else b.
Definition box_end (t : elt) (ds e : list Z) : list Z := if whole_rows t ds then set_last ds e else e.

(** Kind of the stored numbers *)
Definition elt_kind (t : elt) : nk := match t with EChar => U8 | ENum k => k end.
Definition esize (t : elt) : Z := ksize (elt_kind t).

(** Default fill values of netCDF (netcdf.h) *)
Definition nc_fill (t : elt) : Z :=
  match t with
  | EChar => 0
  | ENum I8 => -127
  | ENum U8 => 255
  | ENum I16 => -32767
  | ENum U16 => 65535
  | ENum I32 => -2147483647
  | ENum U32 => 4294967295
  | ENum I64 => -9223372036854775806
  | ENum U64 => 18446744073709551614
  | ENum F32 => 2096103424             (* 9.9692099683868690e+36 *)
  | ENum F64 => 5160562223013167104    (* 9.9692099683868690e+36 *)
  end.

(** The bytes of element [i] of a variable whose data begin at [off]: None when the file ends before *)
Definition stored (f : bytes) (off sz i : Z) : option bytes :=
  if off + (i + 1) * sz <=? zlen f then Some (ztake sz (zdrop (off + i * sz) f)) else None.
(** The number stored there, or the fill value *)
Definition stored_or (fill : Z) (t : elt) (f : bytes) (off i : Z) : Z :=
  match stored f off (esize t) i with Some b => dec_be (elt_kind t) b | None => fill end.
(** The file does not end inside an element of the variable *)
Definition ends_between (f : bytes) (off n : Z) (t : elt) : Prop :=
  off + n * esize t <= zlen f \/ zlen f <= off \/ (zlen f - off) mod esize t = 0.

(** 0 .. n-1 *)
Definition iota (n : Z) : list Z := map Z.of_nat (seq 0 (Z.to_nat n)).
(** The numbers of the first [n] records, [per] numbers in each, the records [step] bytes apart *)
Definition record_numbers (t : elt) (f : bytes) (off step per n : Z) : list Z :=
  flat_map (fun r => map (fun j => dec_be (elt_kind t) (ztake (esize t) (zdrop (off + r * step + j * esize t) f))) (iota per)) (iota n).
