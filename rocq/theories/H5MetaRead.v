(** How the HDF5 reader takes apart superblocks, object headers and the simple messages:
    netcdf/hdf5/hdf5.go.  Reading primitives are in H5Base; log output is not modelled. *)
From Verif Require Import Prelude GoVal H5Base H5ChecksumModel H5MetaWrite.

(** hdf5.go:1102-1140 *)
Definition checkVal (expected actual : Z) : P unit := passert (expected =? actual) EInternal.

(** hdf5.go:508-516 *)
Definition checkMagic (m : bytes) : P unit :=
  do* b := rd (zlen m) in passert (beqb b m) EBadMagic.

(** hdf5.go:698-700 *)
Definition hasFlag8 (flags flag : Z) : bool := Z.odd (Z.shiftr flags flag).

(** assert.go:72-75, 78-104: a non-zero byte makes logger.Fatal end the process
    (internal/logging.go:80-84), which no caller can recover from: [Panic] *)
Definition checkZeroes (n : Z) : P unit :=
  do* b := rd (Z.max n 0) in
  if forallb (fun x => x =? 0) b then pret tt else fun _ => Panic.

(** assert.go:67-70 with pad32 = 7; [total] is the size of the reader, so that Count() is
    [total] less what remains *)
Definition padBytes7 (total : Z) : P unit :=
  fun s => let count := total - zlen s in checkZeroes ((8 - count mod 8) mod 8) s.

(** hdf5.go:518-527 *)
Fixpoint getString (b : bytes) : bytes :=
  match b with
  | [] => []
  | c :: r => if c =? 0 then [] else c :: getString r
  end.

(** hdf5.go:529-558; [padding] is 0 or 7 *)
Fixpoint name_until_nul (s : bytes) : res (bytes * bytes) :=
  match s with
  | [] => Err EEOF
  | b :: r => if b =? 0 then Ok ([], r) else let* (n, r') := name_until_nul r in Ok (b :: n, r')
  end.
Definition readNullTerminatedName (padding : Z) : P bytes :=
  do* name := name_until_nul in
  if 0 <? padding then
    let extra := (8 - (zlen name + 1) mod 8) mod 8 in
    do* _ := checkZeroes extra in pret name
  else pret name.

(** newResetReader(bf, n) over the reader [bf]: a reader of at most [n] of its bytes; what it
    does not consume stays in [bf].  Simplification: when [bf] has fewer than [n] bytes left
    Rem() counts only those. *)
Definition limited {A} (n : Z) (p : P A) : P A :=
  fun s => let* (a, r) := p (ztake n s) in Ok (a, r ++ zdrop n s).

(** hdf5.go:371-506.  [readExt] reads the object header of the superblock extension. *)
Definition readSuperblock (readExt : Z -> res unit) (f : bytes) : res Z :=
  if negb (48 <=? zlen f) then Err ECorrupted
  else
  let* bf := newSeek f 0 48 in
  let* (_, bf) := checkMagic h5_magic bf in
  let* (version, bf) := read8 bf in
  let* bf :=
    (if version =? 0 then newSeek f 9 (96 - 9)
     else if version =? 1 then newSeek f 9 (100 - 9)
     else if (version =? 2) || (version =? 3) then Ok bf
     else Err EVersion) in
  let rest : P (Z * Z) :=
    do* _ := (if version <? 2 then
                do* _ := read8 in
                do* b := read8 in do* _ := checkVal 0 b in
                do* b := read8 in do* _ := checkVal 0 b in
                do* b := read8 in checkVal 0 b
              else pret tt) in
    do* b := read8 in
    do* _ := passert (b =? 8) EOffsetSize in
    do* b := read8 in
    do* _ := checkVal 8 b in
    do* _ := (if version <? 2 then
                do* b := read8 in do* _ := checkVal 0 b in
                do* s := read16 in do* _ := passert (s =? 4) EInternal in
                do* _ := read16 in
                do* _ := read32 in
                if version =? 1 then
                  do* s := read16 in do* _ := passert (0 <? s) EInternal in
                  do* s := read16 in checkVal 0 s
                else pret tt
              else do* _ := read8 in pret tt) in
    do* baseAddress := read64 in
    do* _ := checkVal 0 baseAddress in
    do* a := read64 in
    do* sbExtension := (if version <? 2
                        then do* _ := checkVal invalidAddress a in pret invalidAddress
                        else pret a) in
    do* eofAddr := read64 in
    do* _ := passert (eofAddr <=? zlen f) ETruncated in
    if version <? 2 then
      do* _ := read64 in
      do* _ := read64 in
      do* objectHeaderAddress := read64 in
      do* cacheType := read32 in
      do* reserved := read32 in
      do* _ := checkVal 0 reserved in
      do* _ := (if cacheType =? 1 then do* _ := read64 in do* _ := read64 in pret tt
                else pret tt) in
      pret (objectHeaderAddress, sbExtension)
    else
      do* rootAddr := read64 in
      fun s => let* _ := checkChecksum f 0 44 in Ok ((rootAddr, sbExtension), s) in
  let* (r, _) := rest bf in
  let '(rootAddr, sbExtension) := r in
  if sbExtension =? invalidAddress then Ok rootAddr
  else let* _ := readExt sbExtension in Ok rootAddr.

(** hdf5.go:1447-1460, isMagic *)
Definition isMagic (f : bytes) (m : bytes) (addr : Z) : res bool :=
  if (addr =? 0) || (addr =? invalidAddress) then Err EInternal
  else if zlen f <? u64 (addr + 4) then Err ECorrupted
  else if i64 addr <? 0 then Err EBadSeek
  else Ok (beqb (ztake 4 (zdrop addr f)) m).

Section Messages.
  (** What happens to a message: its type and its bytes, on a state; yields the new state and
      the bytes of the message that were not read. *)
  Context {S : Type} (handle : Z -> bytes -> S -> res (S * bytes)).

  (** hdf5.go:2124-2129: what is left over at the end of a header must be zero *)
  Definition header_end (st : S) (s : bytes) : res (S * bytes) :=
    let* (_, s) := checkZeroes (zlen s) s in Ok (st, s).

  (** hdf5.go:1872-2130, readCommon: the loop over the messages; [s] is what bf has left, so
      that chunkSize - bf.Count() is its length.  Every turn consumes at least three bytes. *)
  Fixpoint readMessages (fuel : nat) (version ohFlags : Z) (st : S) (s : bytes) : res (S * bytes) :=
    match fuel with
    | O => Panic
    | Datatypes.S fu =>
        if zlen s <? 3 then header_end st s
        else
          let* (headerType, s) := (if version =? 1 then read16 s else read8 s) in
          let* (size, s) := read16 s in
          if (size =? 0) && (version =? 1) then readMessages fu version ohFlags st s
          else if zlen s =? 0 then header_end st s
          else
            let s0 := s in
            let* (_, s) := read8 s in
            let* (_, s) := (if version =? 1 then checkZeroes 3 s else Ok (tt, s)) in
            if hasFlag8 ohFlags 2 && (zlen s <? 2) then header_end st s
            else
              let* (_, s) := (if hasFlag8 ohFlags 2 then read16 s else Ok (0, s)) in
              if (size =? 0) && (1 <? version) then readMessages fu version ohFlags st s
              else if (version =? 1) && (zlen s <? size) then Err EInternal
              else if (if 1 <? version then zlen s else zlen s0) <? size then Err EInternal
              else
                let* (st, rest) := handle headerType (ztake size s) st in
                let* (_, rest) :=
                  (if (version =? 1) || (version =? 2)
                   then checkZeroes (zlen rest) rest else Ok (tt, rest)) in
                readMessages fu version ohFlags st (rest ++ zdrop size s)
    end.

  Definition readCommon (version ohFlags : Z) (st : S) (bf : bytes) (chunkSize : Z) : res S :=
    let s := ztake chunkSize bf in
    let* (st, _) := readMessages (Datatypes.S (List.length s)) version ohFlags st s in
    Ok st.

  (** hdf5.go:2172-2262, readDataObjectHeaderV2.  The four "should use all bytes" assertions
      hold trivially, as does the one that readCommon has read chunkSize bytes. *)
  Definition readObjectHeaderV2 (f : bytes) (addr : Z) (st : S) : res S :=
    let origAddr := addr in
    let* bf := newSeek f addr 6 in
    let* (_, bf) := checkMagic (bs "OHDR") bf in
    let* (version, bf) := read8 bf in
    let* (_, bf) := checkVal 2 version bf in
    let* (ohFlags, bf) := read8 bf in
    if negb (Z.land ohFlags 0xc0 =? 0) then Err EInternal
    else
      let addr := u64 (addr + 6) in
      let* addr :=
        (if hasFlag8 ohFlags 5 then
           let* bf := newSeek f addr 16 in
           let* (_, _) := rd 16 bf in Ok (u64 (addr + 16))
         else Ok addr) in
      let* addr :=
        (if hasFlag8 ohFlags 4 then
           let* bf := newSeek f addr 4 in
           let* (_, _) := rd 4 bf in Ok (u64 (addr + 4))
         else Ok addr) in
      let nBytesInChunkSize := Z.shiftl 1 (Z.land ohFlags 3) in
      let* bf := newSeek f addr nBytesInChunkSize in
      let* (chunkSize, _) := readEnc nBytesInChunkSize bf in
      let addr := u64 (addr + nBytesInChunkSize) in
      let* bf := newSeek f addr (i64 chunkSize) in
      let* st := readCommon version ohFlags st bf (i64 chunkSize) in
      let addr := u64 (addr + chunkSize) in
      let* _ := checkChecksum f origAddr (i64 (addr - origAddr)) in
      Ok st.

  (** hdf5.go:2264-2294, readDataObjectHeaderV1 *)
  Definition readObjectHeaderV1 (f : bytes) (addr : Z) (st : S) : res S :=
    let* bf := newSeek f addr 16 in
    let* (version, bf) := read8 bf in
    if negb ((version =? 1) || (version =? 0)) then Err EInternal
    else
      let* (reserved, bf) := read8 bf in
      let* (_, bf) := checkVal 0 reserved bf in
      let* (_, bf) := read16 bf in
      let* (_, bf) := read32 bf in
      let* (headerSize, bf) := read32 bf in
      let* (_, bf) := checkZeroes 4 bf in
      let* bf := newSeek f (u64 (addr + 16)) headerSize in
      readCommon version 0 st bf headerSize.

  (** hdf5.go:2163-2170, readDataObjectHeader *)
  Definition readObjectHeader (f : bytes) (addr : Z) (st : S) : res S :=
    let* m := isMagic f (bs "OHDR") addr in
    if m then readObjectHeaderV2 f addr st else readObjectHeaderV1 f addr st.

  (** hdf5.go:2132-2161, readContinuation, with offset and size already read.  The gap it looks
      for before the checksum is empty: readCommon has consumed all but the last four bytes. *)
  Definition readContinuation (f : bytes) (version ohFlags offset size : Z) (st : S) : res S :=
    let* bf := newSeek f offset (i64 size) in
    if 1 <? version then
      let* (_, bf) := checkMagic (bs "OCHK") bf in
      let chunkSize := u64 (size - 8) in
      let* st := readCommon version ohFlags st bf (i64 chunkSize) in
      let* _ := checkChecksum f offset (i64 (size - 4)) in
      Ok st
    else readCommon version ohFlags st bf (i64 size).
End Messages.

(** ** Messages *)

(** hdf5.go:710-745, the part of readLinkDirectFrom that reads the message: name and address.
    A soft or external link (linkType other than 0) is read as if it were a hard one, as the
    code does.  The names' character set and the creation order are dropped. *)
Definition readLink : P (bytes * Z * Z) :=
  do* version := read8 in
  do* _ := checkVal 1 version in
  do* flags := read8 in
  do* _ := (if hasFlag8 flags 3 then read8 else pret 0) in
  do* co := (if hasFlag8 flags 2 then read64 else pret 0) in
  do* cset := (if hasFlag8 flags 4 then read8 else pret 0) in
  do* _ := passert ((cset =? 0) || (cset =? 1)) EInternal in
  do* lenlen := readEnc (Z.shiftl 1 (Z.land flags 3)) in
  (* make([]byte, lenlen) panics for a length above 2^48 *)
  if 2 ^ 48 <? lenlen then fun _ => Panic
  else
  do* name := rd lenlen in
  do* hardAddr := read64 in
  do* rem := prem in
  do* _ := checkZeroes rem in
  pret (name, hardAddr, co).

(** hdf5.go:1422-1441 *)
Definition readLinkInfo : P (Z * Z) :=
  do* _ := read8 in
  do* flags := read8 in
  do* _ := (if hasFlag8 flags 0 then read64 else pret 0) in
  do* fha := read64 in
  do* bta := read64 in
  do* _ := (if hasFlag8 flags 1 then read64 else pret 0) in
  pret (fha, bta).

(** hdf5.go:1463-1483 *)
Definition readAttributeInfo : P (Z * Z) :=
  do* version := read8 in
  do* _ := checkVal 0 version in
  do* flags := read8 in
  do* _ := (if hasFlag8 flags 0 then read16 else pret 0) in
  do* fha := read64 in
  do* bta := read64 in
  do* _ := (if hasFlag8 flags 1 then read64 else pret 0) in
  pret (fha, bta).

(** hdf5.go:1485-1522 *)
Definition readGroupInfo : P unit :=
  do* version := read8 in
  do* _ := checkVal 0 version in
  do* flags := read8 in
  do* _ := (if hasFlag8 flags 0 then
              do* r := prem in do* _ := passert (4 <=? r) EInternal in
              do* _ := read16 in do* _ := read16 in pret tt
            else pret tt) in
  do* _ := (if hasFlag8 flags 1 then
              do* r := prem in do* _ := passert (4 <=? r) EInternal in
              do* _ := read16 in do* _ := read16 in pret tt
            else pret tt) in
  do* r := prem in
  checkZeroes r.

Fixpoint read_n {A} (n : nat) (p : P A) : P (list A) :=
  match n with
  | O => pret []
  | S m => do* a := p in do* r := read_n m p in pret (a :: r)
  end.

(** hdf5.go:1531-1591; the element count it also computes is only used in log messages *)
Definition readDataspace : P (list Z) :=
  do* version := read8 in
  do* _ := passert ((version =? 1) || (version =? 2)) EDataspaceVersion in
  do* d := read8 in
  do* flags := read8 in
  do* dstype := read8 in
  do* dstype := (if version =? 1 then
                   do* _ := checkVal 0 dstype in
                   do* reserved := read32 in
                   do* _ := checkVal 0 reserved in
                   pret 1
                 else pret dstype) in
  do* _ := passert (dstype <=? 2) EInternal in
  do* dims := read_n (Z.to_nat d) read64 in
  do* _ := (if hasFlag8 flags 0 then read_n (Z.to_nat d) read64 else pret []) in
  do* _ := (if (version =? 1) && hasFlag8 flags 1 then
              do* _ := read_n (Z.to_nat d) read64 in pfail EInternal
            else pret tt) in
  pret dims.

(** Storage of a variable, hdf5.go:1644-1797: nothing allocated, bytes in the header itself, one
    contiguous block (address, size), or chunks (B-tree address, chunk shape, element size). *)
Inductive layout : Type :=
| LCompact (data : bytes)
| LContiguous (addr size : Z)
| LNone
| LChunked (btree : option Z) (shape : list Z) (elem : Z).

Definition readDataLayout : P layout :=
  do* version := read8 in
  do* _ := passert ((version =? 3) || (version =? 4)) ELayout in
  do* class := read8 in
  if class =? 0 then
    do* size := read16 in
    do* b := rd size in
    pret (LCompact b)
  else if class =? 1 then
    do* address := read64 in
    do* size := read64 in
    pret (if address =? invalidAddress then LNone else LContiguous address size)
  else if class =? 2 then
    if version =? 3 then
      do* dimensionality := read8 in
      do* address := read64 in
      do* _ := passert (2 <=? dimensionality) EDimensionality in
      do* lay := read_n (Z.to_nat (dimensionality - 1)) read32 in
      do* size := read32 in
      pret (LChunked (if address =? invalidAddress then None else Some address) lay size)
    else
      (* version 4: every path ends in an error; which one is not modelled *)
      pfail ELayout
  else if class =? 3 then pfail EVirtualStorage
  else pfail EInternal.

(** hdf5.go:1142-1195, readGlobalHeap without the cache: the objects of the collection by
    index; a later object replaces an earlier one of the same index.  [csize] bytes of the
    collection remain; every turn consumes at least 16 of them. *)
Fixpoint heap_loop (fuel : nat) (csize : Z) (cache : list (Z * bytes)) (s : bytes)
  : res (list (Z * bytes)) :=
  match fuel with
  | O => Panic
  | S fu =>
      if csize <? 16 then Ok cache
      else
        let* (hoi, s) := read16 s in
        if hoi =? 0 then Ok cache
        else
          let* (rc, s) := read16 s in
          let* (_, s) := checkVal 0 rc s in
          let* (zero, s) := read32 s in
          let* (_, s) := checkVal 0 zero s in
          let* (osize, s) := read64 s in
          let csize := csize - 16 in
          if csize <? osize then Err EInternal
          else if osize =? 0 then heap_loop fu csize cache s
          else
            let asize := osize + (8 - osize mod 8) mod 8 in
            if csize <? asize then Err EInternal
            else
              let* (b, s) := rd osize s in
              let* (_, s) := skip (asize - osize) s in
              heap_loop fu (csize - asize) ((hoi, b) :: cache) s
  end.

Fixpoint zassoc {V} (k : Z) (m : list (Z * V)) : option V :=
  match m with
  | [] => None
  | (k', v) :: r => if k =? k' then Some v else zassoc k r
  end.

Definition readHeapCollection (f : bytes) (heapAddress : Z) : res (list (Z * bytes)) :=
  let* bf := newSeek f heapAddress 16 in
  let* (_, bf) := checkMagic (bs "GCOL") bf in
  let* (version, bf) := read8 bf in
  let* (_, bf) := checkVal 1 version bf in
  let* (_, bf) := checkZeroes 3 bf in
  let* (csize, bf) := read64 bf in
  let csize := u64 (csize - 16) in
  let* bf := newSeek f (u64 (heapAddress + 16)) (i64 csize) in
  heap_loop (S (List.length bf)) csize [] bf.

(** The bytes of object [index]; None is the nil reader with size 0 *)
Definition readGlobalHeap (f : bytes) (heapAddress index : Z) : res (option bytes) :=
  let* cache := readHeapCollection f heapAddress in
  Ok (zassoc index cache).
