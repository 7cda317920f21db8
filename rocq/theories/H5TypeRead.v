(** How the HDF5 reader parses datatypes and turns bytes into Go values:
    netcdf/hdf5/types.go, fixedPoint.go, floatingPoint.go, string.go, opaque.go, compound.go,
    enum.go, vlen.go, reference.go, array.go.

    Simplifications: no Go type is registered (hdf5.go:2752-2844, cast gives nil; the Go text
    that it makes first, which can fail, is apart, in H5TypeText); the
    obsolete time class, and arrays of arrays, are not modelled; running out of memory for
    a huge dimension is not modelled; the datatype is parsed apart from the data of an
    attribute (the reader df), whose rules are in the model of attributes. *)
From Verif Require Import Prelude GoVal H5Base H5MetaWrite H5MetaRead H5Value.

(** The part of the struct attribute (hdf5.go:143-178) that describes a datatype; a
    member of a compound has a name, an offset and its dimensions. *)
Inductive dty : Type :=
| DFixed (len : Z) (sg big : bool)
| DFloat (len : Z) (big : bool)
| DString (len : Z)
| DOpaque (len : Z)
| DComp (len : Z) (ms : list (bytes * Z * list Z * dty))
| DRef (len : Z)
| DEnum (len : Z) (blen : Z) (sg big : bool) (names : list bytes) (vals : list hval)
| DVlen (len : Z) (str : bool) (d : dty)
| DArray (len : Z) (dims : list Z) (d : dty).

(** attr.length *)
Definition dlen (d : dty) : Z :=
  match d with
  | DFixed n _ _ | DFloat n _ | DString n | DOpaque n | DComp n _ | DRef n
  | DEnum n _ _ _ _ _ | DVlen n _ _ | DArray n _ _ => n
  end.

(** readers.go:358-379 without a layout *)
Definition calcAttrSize (dims : list Z) (len : Z) : Z := u64 (fold_left Z.mul dims 1 * len).

Definition repeatP {A} (p : P A) : nat -> P (list A) :=
  fix go (n : nat) : P (list A) :=
    match n with
    | O => pret []
    | S m => do* x := p in do* r := go m in pret (x :: r)
    end.

(** the integer kind of a fixed-point type, fixedPoint.go:60-77 *)
Definition int_kind (len : Z) (sg : bool) : option nk :=
  if len =? 1 then Some (if sg then I8 else U8)
  else if len =? 2 then Some (if sg then I16 else U16)
  else if len =? 4 then Some (if sg then I32 else U32)
  else if len =? 8 then Some (if sg then I64 else U64)
  else None.

Definition readNum (k : nk) (big : bool) : P hval :=
  do* b := rd (ksize k) in pret (HNum k (if big then dec_be k b else dec_le k b)).

(** ** Parsing *)

(** fixedPoint.go:132-163 *)
Definition parseFixed (len bits : Z) : P (bool * bool) :=
  let sg := Z.testbit bits 3 in
  let big := Z.testbit bits 0 in
  do* _ := passert (Z.land (Z.shiftr bits 1) 3 =? 0) EFixedPoint in
  do* rem := prem in
  do* _ := passert (0 <? rem) EInternal in
  do* bitOffset := read16 in
  do* _ := read16 in
  do* _ := passert (bitOffset =? 0) EFixedPoint in
  do* _ := passert ((len =? 1) || (len =? 2) || (len =? 4) || (len =? 8)) EFixedPoint in
  pret (sg, big).

(** floatingPoint.go:87-158; the mantissa fields are read but not looked at *)
Definition parseFloat (version len bits : Z) : P bool :=
  do* _ := passert (version =? 1) EFloatingPoint in
  do* _ := passert (negb (Z.testbit bits 6)) EInternal in
  let big := Z.testbit bits 0 in
  do* _ := passert (negb (Z.testbit bits 1)) EFloatingPoint in
  do* _ := passert (negb (Z.testbit bits 2)) EFloatingPoint in
  do* _ := passert (negb (Z.testbit bits 3)) EFloatingPoint in
  let norm := Z.land (Z.shiftr bits 4) 3 in
  let sign := Z.land (Z.shiftr bits 8) 255 in
  do* rem := prem in
  do* _ := passert (12 <=? rem) EInternal in
  do* bitOffset := read16 in
  do* precision := read16 in
  do* expLoc := read8 in
  do* expSize := read8 in
  do* _ := read8 in
  do* _ := read8 in
  do* bias := read32 in
  do* _ := passert (bitOffset =? 0) EFloatingPoint in
  do* _ := passert (norm =? 2) EFloatingPoint in
  do* _ :=
    (if len =? 4 then
       passert ((sign =? 31) && (precision =? 32) && (expLoc =? 23) && (expSize =? 8)
                && (bias =? 127)) EFloatingPoint
     else if len =? 8 then
       passert ((sign =? 63) && (precision =? 64) && (expLoc =? 52) && (expSize =? 11)
                && (bias =? 1023)) EFloatingPoint
     else pfail EFloatingPoint) in
  pret big.

(** opaque.go:51-70: everything that is left is the tag *)
Definition parseOpaque : P unit :=
  do* rem := prem in
  if rem =? 0 then pret tt
  else
    do* tag := rd rem in
    passert (forallb (fun x => x =? 0) (zdrop (zlen (getString tag)) tag)) EInternal.

(** compound.go:79-101: the width of a member offset *)
Definition offsetWidth (version len : Z) : Z :=
  if version <? 3 then 4
  else if len <? 256 then 1
  else if len <? 65536 then 2
  else if len <? 16777216 then 3
  else 4.

(** compound.go:106-125, version 1 only; slicing four dimensions beyond their number is a
    panic *)
Definition memberDims (version : Z) : P (list Z) :=
  if version =? 1 then
    do* dimensionality := read8 in
    do* _ := checkZeroes 3 in
    do* perm := read32 in
    do* _ := passert (perm =? 0) EInternal in
    do* reserved := read32 in
    do* _ := checkVal 0 reserved in
    do* dims := repeatP read32 4 in
    if 4 <? dimensionality then fun _ => Panic
    else pret (firstn (Z.to_nat dimensionality) dims)
  else pret [].

Definition namePadding (version : Z) : Z := if version <? 3 then 7 else 0.

(** types.go:117-154 and the parse methods.  [fuel] bounds the nesting, each level of which
    takes 8 bytes. *)
Fixpoint printDatatype (fuel : nat) : P dty :=
  match fuel with
  | O => pfail ENotModelled
  | S fu =>
      do* rem := prem in
      do* _ := passert (8 <=? rem) EInternal in
      do* b0 := read8 in
      do* b1 := read8 in
      do* b2 := read8 in
      do* b3 := read8 in
      let bits := b1 + 256 * b2 + 65536 * b3 in
      let version := Z.land (Z.shiftr b0 4) 15 in
      let class := Z.land b0 15 in
      do* len := read32 in
      if 10 <? class then fun _ => Panic
      else
      do* _ := passert ((1 <=? version) && (version <=? 4)) EUnsupportedDataTypeVersion in
      do* _ := passert (negb (len =? 0)) EInternal in
      if class =? 0 then
        do* (sg, big) := parseFixed len bits in pret (DFixed len sg big)
      else if class =? 1 then
        do* big := parseFloat version len bits in pret (DFloat len big)
      else if class =? 3 then
        do* _ := checkVal 1 version in pret (DString len)
      else if class =? 4 then pfail EBitfield
      else if class =? 5 then
        do* _ := parseOpaque in pret (DOpaque len)
      else if class =? 6 then
        do* ms :=
          repeatP (do* name := readNullTerminatedName (namePadding version) in
                   do* off := readEnc (offsetWidth version len) in
                   do* dims := memberDims version in
                   do* d := printDatatype fu in
                   pret (name, u32 off, dims, d)) (Z.to_nat (Z.land bits 255)) in
        pret (DComp len ms)
      else if class =? 7 then
        do* _ := passert (version =? 1) EUnsupportedReferenceVersion in
        do* _ := passert (Z.land bits 15 <? 2) EInternal in
        pret (DRef len)
      else if class =? 8 then
        do* base := printDatatype fu in
        let n := Z.to_nat (Z.land bits 255) in
        do* names := repeatP (readNullTerminatedName (namePadding version)) n in
        match base with
        | DFixed blen sg big =>
            do* _ := passert ((len =? 1) || (len =? 2) || (len =? 4) || (len =? 8))
                             EFixedPoint in
            match int_kind blen sg with
            | Some k => do* vals := repeatP (readNum k big) n in
                        pret (DEnum len blen sg big names vals)
            | None => pfail EFixedPoint
            end
        | _ => pfail EInternal
        end
      else if class =? 9 then
        let vtype := Z.land bits 15 in
        do* _ := passert (Z.land (Z.shiftr bits 4) 15 <? 2) EInternal in
        do* _ := (if vtype =? 0
                  then checkVal 0 (Z.land (Z.shiftr bits 8) 15)
                  else passert (vtype =? 1) EInternal) in
        do* d := printDatatype fu in
        pret (DVlen len (vtype =? 1) d)
      else if class =? 10 then
        do* dimensionality := read8 in
        do* _ := (if version <? 3 then checkZeroes 3 else pret tt) in
        do* dims := repeatP read32 (Z.to_nat dimensionality) in
        do* _ := (if version <? 3
                  then do* _ := repeatP read32 (Z.to_nat dimensionality) in pret tt
                  else pret tt) in
        do* d := printDatatype fu in
        pret (DArray len dims d)
      else pfail ENotModelled
  end.

Definition parseDatatype : P dty :=
  fun s => printDatatype (S (List.length s)) s.

(** ** Values *)

Fixpoint nest (n : nat) (t : hty) : hty := match n with O => t | S m => TSlice (nest m t) end.

(** The nested loops of the alloc functions over the dimensions; hdf5.go:2448-2454 gives
    the type of the slices *)
Fixpoint allocDims (t : hty) (elem : P hval) (dims : list Z) : P hval :=
  match dims with
  | [] => elem
  | n :: ds =>
      do* l := repeatP (allocDims t elem ds) (Z.to_nat n) in
      pret (HSlice (nest (List.length ds) t) l)
  end.

(** string.go:48-82.  With characters (length 1) the last dimension becomes one string,
    which then does not fit the slice made for it: reflect panics. *)
Definition readFixedString (len : Z) : P hval :=
  do* b := rd len in pret (HStr (getString b)).
Fixpoint allocRegularStrings (len : Z) (dims : list Z) : P hval :=
  match dims with
  | [] => readFixedString len
  | [n] => if len =? 1 then readFixedString n else allocDims TStr (readFixedString len) dims
  | n :: ds =>
      do* l := repeatP (do* x := allocRegularStrings len ds in
                        if hty_eqb (htype x) (nest (List.length ds) TStr) then pret x
                        else fun _ => Panic) (Z.to_nat n) in
      pret (HSlice (nest (List.length ds) TStr) l)
  end.

Definition readDescriptor : P (Z * Z * Z) :=
  do* len := read32 in do* addr := read64 in do* idx := read32 in pret (len, addr, idx).

(** vlen.go:133-182, one string: a missing object gives the empty string *)
Definition readVlenString (heap : Z -> Z -> res (option bytes)) : P hval :=
  do* (len, addr, idx) := readDescriptor in
  if len =? 0 then pret (HStr [])
  else fun s => let* o := heap addr idx in
                match o with
                | Some b => Ok (HStr (getString b), s)
                | None => Ok (HStr [], s)
                end.

(** hdf5.go:3430-3480: emptySlice, undoInterfaces, convert.  Every slice here has elements
    of its element type, so that only empty ones change: emptySlice makes one slice too
    few, and looks into compound (a slice of structs) and opaque (a slice of bytes). *)
Fixpoint slice_base (t : hty) : nat * hty :=
  match t with
  | TSlice t' => let (n, b) := slice_base t' in (S n, b)
  | TComp => (1%nat, TOther)
  | TOpaque => (1%nat, TNum U8)
  | _ => (0%nat, t)
  end.
Definition emptySlice (t : hty) : hval :=
  let (n, b) := slice_base t in HSlice (nest (n - 1) b) [].
Fixpoint undoInterfaces (v : hval) : hval :=
  match v with
  | HSlice t [] => emptySlice t
  | HSlice t (x :: r) =>
      let u := undoInterfaces x in
      let us := map undoInterfaces r in
      if forallb (fun y => hty_eqb (htype y) (htype u)) us then HSlice (htype u) (u :: us)
      else v
  | _ => v
  end.

(** reflect.MakeSlice of the type of the first value, then Set of all *)
Definition make_slice (l : list hval) : res hval :=
  match l with
  | [] => Panic
  | x :: _ => if forallb (fun y => hty_eqb (htype y) (htype x)) l then Ok (HSlice (htype x) l)
              else Panic
  end.

(** vlen.go:184-255: one sequence, read with [elem] for its elements of [len] bytes *)
Definition readVlenSeq (heap : Z -> Z -> res (option bytes)) (len : Z) (elem : P hval) : P hval :=
  do* (n, addr, idx) := readDescriptor in
  fun s =>
    if n =? 0 then
      let* (v, _) := elem (zrep len 0) in Ok (HSlice (htype v) [], s)
    else
      let* o := heap addr idx in
      match o with
      | None => Panic
      | Some b => let* (l, _) := repeatP elem (Z.to_nat n) b in
                  let* v := make_slice l in Ok (v, s)
      end.
Fixpoint allocVariable (one : P hval) (dims : list Z) : P hval :=
  match dims with
  | [] => one
  | n :: ds =>
      do* l := repeatP (allocVariable one ds) (Z.to_nat n) in
      fun s => let* v := make_slice l in Ok (v, s)
  end.

(** compound.go:152-190, one compound: [ms] are its members, read with [get] *)
Fixpoint readMembers (total : Z) (ms : list (bytes * Z * Z * P hval)) : P (list (bytes * hval)) :=
  match ms with
  | [] => pret []
  | (name, off, size, get) :: r =>
      do* _ := (fun s => let count := total - zlen s in
                         if count <? off then skip (off - count) s else Ok (tt, s)) in
      do* v := limited size get in
      do* vs := readMembers total r in
      pret ((name, v) :: vs)
  end.
Definition readCompound (len : Z) (ms : list (bytes * Z * Z * P hval)) : P hval :=
  fun s =>
    let c := ztake len s in
    let total := zlen c in
    let* (fs, c) := readMembers total ms c in
    let count := total - zlen c in
    let* (_, c) := (if count <? len then skip (len - count) c else Ok (tt, c)) in
    Ok (HComp fs, c ++ zdrop len s).

(** alloc of every type manager with getDataAttr (hdf5.go:2728-2750, no slice requested);
    the values are read from a dataset or attribute with dimensions [dims] *)
Fixpoint alloc (heap : Z -> Z -> res (option bytes)) (d : dty) (dims : list Z) {struct d}
  : P hval :=
  match d with
  | DFixed len sg big =>
      match int_kind len sg with
      | Some k => allocDims (TNum k) (readNum k big) dims
      | None => pfail EInternal
      end
  | DFloat len big =>
      if len =? 4 then allocDims (TNum F32) (readNum F32 big) dims
      else if len =? 8 then allocDims (TNum F64) (readNum F64 big) dims
      else pfail EInternal
  | DString len => allocRegularStrings len dims
  | DOpaque len =>
      allocDims TOpaque (do* b := rd len in pret (HOpaque b)) dims
  | DComp len ms =>
      allocDims TComp
        (readCompound len
           (map (fun m => match m with
                          | (name, off, mdims, md) =>
                              (name, off, calcAttrSize mdims (dlen md), alloc heap md mdims)
                          end) ms)) dims
  | DRef _ => allocDims (TNum U64) (do* a := read64 in pret (HNum U64 a)) dims
  | DEnum _ blen sg big names vals =>
      match int_kind blen sg with
      | Some k => do* v := allocDims (TNum k) (readNum k big) dims in pret (HEnum v names vals)
      | None => pfail EInternal
      end
  | DVlen _ true _ => allocDims TStr (readVlenString heap) dims
  | DVlen _ false d' =>
      do* v := allocVariable (readVlenSeq heap (dlen d') (alloc heap d' [])) dims in
      pret (undoInterfaces v)
  | DArray _ adims d' =>
      match d' with
      | DArray _ _ _ => pfail ENotModelled
      | _ => alloc heap d' (dims ++ adims)
      end
  end.
