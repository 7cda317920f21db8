(** Common definitions used by all models: outcomes, byte lists, integer encodings.

    This file models no Go function by itself except the byte codecs of
    encoding/binary (used through netcdf/util/binary.go:14-60). *)
From Coq Require Export ZArith List Bool Lia String Ascii.
Export ListNotations.
Open Scope list_scope.
Open Scope Z_scope.

(** Go sentinel errors that the modelled code can return or throw.
    netcdf/cdf/cdf.go:84-96, netcdf/cdf/cdfwriter.go:49-55, netcdf/netcdf4.go,
    netcdf/util/orderedmap.go:24-26, netcdf/hdf5/errors.go.
    [EEOF] stands for io.EOF and io.ErrUnexpectedEOF alike; [ENotModelled] marks the parts
    of the HDF5 reader that the model leaves out (see DESIGN.md). *)
Inductive err : Type :=
| EEOF | EInvalidName | EDimensionSize | EEmptySlice | EUnknownType | EAttribute
| EUnlimitedMustBeFirst | EInternal | ENotCDF | EUnknownVersion | ENoStreaming
| ECorruptedFile | ETooManyDimensions | EDuplicateVariable | EKeysDontMatch
| ENotFound | EUnsupported | EFillValue | EInvalidSlice | EUnknown | EBadSeek
| EBadMagic | ETruncated | EVersion | EOffsetSize | EFletcher | EUnsupportedType
| EDimensionality | ECorrupted | EDataspaceVersion | ELayout | ELinkType
| EUnsupportedDataTypeVersion | EFixedPoint | EFloatingPoint | EReference
| EVirtualStorage | EBitfield | EUnsupportedReferenceVersion | EUnsupportedFilter
| ESuperblock | EExternal | ENotModelled.

(** Outcome of a Go call: a value, a returned/thrown error, or a runtime panic
    that escapes thrower.RecoverError (index out of range, failed type assertion,
    nil dereference, makeslice, ...). *)
Inductive res (A : Type) : Type :=
| Ok (a : A)
| Err (e : err)
| Panic.
Arguments Ok {A} a.
Arguments Err {A} e.
Arguments Panic {A}.

Definition rbind {A B} (x : res A) (f : A -> res B) : res B :=
  match x with
  | Ok a => f a
  | Err e => Err e
  | Panic => Panic
  end.

Notation "'let*' x ':=' e 'in' k" := (rbind e (fun x => k))
  (at level 200, x pattern, e at level 100, k at level 200, right associativity).

Definition rmap {A B} (f : A -> B) (x : res A) : res B :=
  match x with Ok a => Ok (f a) | Err e => Err e | Panic => Panic end.

Definition is_ok {A} (x : res A) : bool :=
  match x with Ok _ => true | _ => false end.
Definition is_panic {A} (x : res A) : bool :=
  match x with Panic => true | _ => false end.

(** Bytes are integers in [0,256); strings and files are lists of bytes. *)
Definition bytes := list Z.
Definition is_byte (b : Z) : Prop := 0 <= b < 256.
Definition are_bytes (l : bytes) : Prop := Forall is_byte l.

Definition zlen {A} (l : list A) : Z := Z.of_nat (List.length l).

Definition ztake {A} (n : Z) (l : list A) : list A := firstn (Z.to_nat n) l.
Definition zdrop {A} (n : Z) (l : list A) : list A := skipn (Z.to_nat n) l.
Definition zrep {A} (n : Z) (x : A) : list A := repeat x (Z.to_nat n).

(** ASCII literal to bytes. *)
Definition bs (s : string) : bytes :=
  map (fun a => Z.of_N (N_of_ascii a)) (list_ascii_of_string s).

Fixpoint beqb (a b : bytes) : bool :=
  match a, b with
  | [], [] => true
  | x :: a', y :: b' => (x =? y) && beqb a' b'
  | _, _ => false
  end.

(** Little-endian encoding of the low [8n] bits of [z]; encoding/binary. *)
Fixpoint le (n : nat) (z : Z) : bytes :=
  match n with
  | O => []
  | S m => z mod 256 :: le m (z / 256)
  end.

Fixpoint of_le (l : bytes) : Z :=
  match l with
  | [] => 0
  | b :: r => b + 256 * of_le r
  end.

(** Big-endian encoding. *)
Definition be (n : nat) (z : Z) : bytes := rev (le n z).
Definition of_be (l : bytes) : Z := of_le (rev l).

(** Machine integer conversions. *)
Definition u64 (z : Z) : Z := z mod 2 ^ 64.
Definition u32 (z : Z) : Z := z mod 2 ^ 32.
Definition u16 (z : Z) : Z := z mod 2 ^ 16.
Definition u8 (z : Z) : Z := z mod 2 ^ 8.
(** Two's complement reading of the low [w] bits. *)
Definition signed (w : Z) (z : Z) : Z :=
  let u := z mod 2 ^ w in if u <? 2 ^ (w - 1) then u else u - 2 ^ w.
Definition i64 (z : Z) : Z := signed 64 z.
Definition i32 (z : Z) : Z := signed 32 z.

(** Decimal representation of a non-negative integer (fmt %d / strconv.Itoa);
    the fuel is the number of binary digits, always sufficient. *)
Fixpoint dec_fuel (fuel : nat) (z : Z) : bytes :=
  match fuel with
  | O => []
  | S f => (if z / 10 =? 0 then [] else dec_fuel f (z / 10)) ++ [48 + z mod 10]
  end.
Definition dec (z : Z) : bytes :=
  dec_fuel (S (Z.to_nat (Z.log2 (Z.max z 1)))) z.

(** Association lists used for Go maps: [assoc_set] replaces or appends. *)
Fixpoint assoc {V} (k : bytes) (m : list (bytes * V)) : option V :=
  match m with
  | [] => None
  | (k', v) :: r => if beqb k k' then Some v else assoc k r
  end.
Fixpoint assoc_set {V} (k : bytes) (v : V) (m : list (bytes * V)) : list (bytes * V) :=
  match m with
  | [] => [(k, v)]
  | (k', v') :: r => if beqb k k' then (k', v) :: r else (k', v') :: assoc_set k v r
  end.
Definition mem (k : bytes) (l : list bytes) : bool := existsb (beqb k) l.

(** Sequencing over lists. *)
Fixpoint rmapM {A B} (f : A -> res B) (l : list A) : res (list B) :=
  match l with
  | [] => Ok []
  | x :: r => let* y := f x in let* ys := rmapM f r in Ok (y :: ys)
  end.

(** [make] of [n] elements of [sz] bytes panics above 2^48 bytes (linux/amd64
    runtime.maxAlloc) and for negative lengths. *)
Definition go_make (n sz : Z) : res unit :=
  if (n <? 0) || (2 ^ 48 <? n * sz) then Panic else Ok tt.
