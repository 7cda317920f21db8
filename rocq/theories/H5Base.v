(** Reading primitives of netcdf/hdf5.

    A file is its list of bytes (fewer than 2^63 of them); a remReader is the list of the
    bytes it has not delivered yet, so Rem() is the length of that list and Count() the
    number of bytes consumed.  Simplifications: an address with the top bit set makes the
    seek itself fail (in Go the first read does); a region that reaches past the end of
    the file because int64 arithmetic wrapped has only the bytes that exist; EEOF stands for
    io.EOF and io.ErrUnexpectedEOF; log output is not modelled. *)
From Verif Require Import Prelude GoVal.

Definition P (A : Type) := bytes -> res (A * bytes).

Definition pret {A} (a : A) : P A := fun s => Ok (a, s).
Definition pbind {A B} (p : P A) (f : A -> P B) : P B :=
  fun s => let* (a, s') := p s in f a s'.
Definition pfail {A} (e : err) : P A := fun _ => Err e.

Notation "'do*' x ':=' e 'in' k" := (pbind e (fun x => k))
  (at level 200, x pattern, e at level 100, k at level 200, right associativity).

(** assert.go:22-40: assert and assertError throw *)
Definition passert (b : bool) (e : err) : P unit :=
  fun s => if b then Ok (tt, s) else Err e.

(** util.MustReadLE of a byte slice of length [n] (netcdf/util/binary.go); io.ReadFull *)
Definition rd (n : Z) : P bytes :=
  fun s => if n <=? zlen s then Ok (ztake n s, zdrop n s) else Err EEOF.

(** hdf5.go:299-321 *)
Definition read8 : P Z := do* b := rd 1 in pret (of_le b).
Definition read16 : P Z := do* b := rd 2 in pret (of_le b).
Definition read32 : P Z := do* b := rd 4 in pret (of_le b).
Definition read64 : P Z := do* b := rd 8 in pret (of_le b).

(** hdf5.go:323-337 *)
Definition readEnc (e : Z) : P Z :=
  if e =? 1 then read8
  else if e =? 2 then read16
  else if e =? 4 then read32
  else if e =? 8 then read64
  else pfail EInternal.

(** readers.go:15-18: io.CopyN throws io.EOF if there are fewer bytes; a negative length
    copies nothing *)
Definition skip (n : Z) : P unit :=
  fun s => if n <=? zlen s then Ok (tt, zdrop n s) else Err EEOF.

(** bf.Rem() *)
Definition prem : P Z := fun s => Ok (zlen s, s).

(** hdf5.go:285-294 *)
Definition newSeek (f : bytes) (addr size : Z) : res bytes :=
  let a := i64 addr in
  if i64 (a + size) <=? zlen f then
    if a <? 0 then Err EBadSeek
    else
      let size' := if size =? 0 then zlen f - a else size in
      Ok (ztake size' (zdrop a f))
  else Err EInternal.
