(** How the HDF5 reader finds links and attributes that are not in the object header itself:
    fractal heaps, version-2 B-trees and symbol tables, netcdf/hdf5/hdf5.go.

    What is done with a link, an attribute or a symbol is a parameter that works on a state.
    Simplifications: the table width is the 4 that readHeap insists on; the block offset in an
    indirect block, which is only logged, is read and dropped; an offset search that nests 70
    deep ends ([ENotModelled]; the number of rows shrinks with every level unless the starting
    block size is 2^62 or more); the number of records to read is cut at the number of bytes
    there are, every record having at least one. *)
From Verif Require Import Prelude GoVal H5Base H5ChecksumModel H5MetaWrite H5MetaRead.

(** ** Fractal heaps *)

(** hdf5.go:1027-1034 *)
Definition glog2 (v : Z) : Z := if v <=? 0 then -1 else Z.log2 v.

(** hdf5.go:223-232, the parts that readHeap and readRootBlock set *)
Record fheap : Type := mkFheap {
  fh_direct : list Z; fh_indirect : list Z; fh_start : Z; fh_max : Z; fh_bits : Z }.
(** a linkInfo whose heap has not been read *)
Definition no_fheap : fheap := mkFheap [] [] 0 0 0.

(** hdf5.go:1036-1100: the addresses of the direct and of the indirect blocks *)
Definition readRootBlock (f : bytes) (start max bits bta nrows : Z) : res (list Z * list Z) :=
  let bSize := 4 + 1 + 8 + bits / 8 + u16 (nrows * 4 * 8) + 4 in
  let* bf := newSeek f bta bSize in
  let* (_, bf) := checkMagic (bs "FHIB") bf in
  let* (version, bf) := read8 bf in
  let* (_, bf) := checkVal 0 version bf in
  let* (_, bf) := read64 bf in
  let* (_, bf) := read32 bf in
  let* (_, bf) := (if bits =? 40 then read8 bf else Ok (0, bf)) in
  let maxRowsDirect := glog2 max - glog2 start + 2 in
  (* make with a negative capacity *)
  if (u16 maxRowsDirect <=? nrows) && (maxRowsDirect <? 0) then Panic
  else
    let* (addrs, _) := read_n (Z.to_nat (nrows * 4)) read64 bf in
    let* _ := checkChecksum f bta (bSize - 4) in
    Ok (ztake (4 * maxRowsDirect) addrs, zdrop (4 * maxRowsDirect) addrs).

(** hdf5.go:636-655 and 664-678: the loops of doDoubling over the direct and the indirect
    blocks; [e] is entryNum.  Yields the block, if one was found, and where offset and
    blockSize have got to. *)
Fixpoint tryDirect (max : Z) (l : list Z) (e off size : Z) : option Z * Z * Z :=
  match l with
  | [] => (None, off, size)
  | b :: r =>
      if (off <? size) && negb (b =? invalidAddress) then (Some b, off, size)
      else
        tryDirect max r (e + 1) (u64 (off - size))
          (if (1 <=? e / 4) && (e mod 4 =? 3) && (size <? max) then u64 (size * 2) else size)
  end.
Fixpoint tryIndirect (l : list Z) (e off size : Z) : option Z * Z * Z :=
  match l with
  | [] => (None, off, size)
  | b :: r =>
      if (off <? size) && negb (b =? invalidAddress) then (Some b, off, size)
      else
        tryIndirect r (e + 1) (u64 (off - size)) (if e mod 4 =? 3 then u64 (size * 2) else size)
  end.

(** hdf5.go:636-696: the block that an offset into the heap is in, and the offset within it *)
Fixpoint doDoubling (fuel : nat) (f : bytes) (h : fheap) (offset : Z) : res (Z * Z) :=
  match fuel with
  | O => Err ENotModelled
  | S fu =>
      match tryDirect (fh_max h) (fh_direct h) 0 offset (fh_start h) with
      | (Some b, off, _) => Ok (b, off)
      | (None, off, size) =>
          match tryIndirect (fh_indirect h) 0 off (u64 (size * 2)) with
          | (None, _, _) => Err EInternal
          | (Some b, off, size) =>
              let nrows := glog2 size - glog2 (u64 (fh_start h * 4)) + 1 in
              let* (d, i) := readRootBlock f (fh_start h) (fh_max h) (fh_bits h) b (u16 nrows) in
              doDoubling fu f (mkFheap d i (fh_start h) (fh_max h) (fh_bits h)) off
          end
      end
  end.

(** hdf5.go:1197-1268 *)
Definition readHeap (f : bytes) (addr : Z) : res fheap :=
  let* bf := newSeek f addr 144 in
  let* (_, bf) := checkMagic (bs "FRHP") bf in
  let* (_, bf) := read8 bf in
  let* (_, bf) := read16 bf in
  let* (filterLen, bf) := read16 bf in
  let* (_, bf) := checkVal 0 filterLen bf in
  let* (_, bf) := read8 bf in
  let* (_, bf) := read32 bf in
  let* (_, bf) := read_n 12 read64 bf in
  let* (tableWidth, bf) := read16 bf in
  let* (_, bf) := checkVal 4 tableWidth bf in
  let* (start, bf) := read64 bf in
  let* (max, bf) := read64 bf in
  let* (bits, bf) := read16 bf in
  let* (_, bf) := passert ((bits =? 32) || (bits =? 40)) EInternal bf in
  let* (_, bf) := read16 bf in
  let* (root, bf) := read64 bf in
  let* (rows, bf) := read16 bf in
  let* _ := checkChecksum f addr 142 in
  if 0 <? rows then
    let* (d, i) := readRootBlock f start max bits root rows in
    Ok (mkFheap d i start max bits)
  else Ok (mkFheap [root] [] start max bits).

(** ** Version-2 B-trees *)
Section Records.
  (** What happens to a link and to an attribute: the address and the size of the message, the
      creation order.  [lh] and [ah] are obj.link and obj.attr, None for nil. *)
  Context {S : Type} (f : bytes) (onLink onAttr : Z -> Z -> Z -> S -> res S) (lh ah : option fheap).

  (** hdf5.go:691-696 *)
  Definition readLinkData (h : option fheap) (on : Z -> Z -> Z -> S -> res S)
    (offset length co : Z) (st : S) : res S :=
    match h with
    | None => Panic
    | Some h => let* (b, off) := doDoubling 70 f h offset in on (u64 (b + off)) length co st
    end.

  (** hdf5.go:823-913, one turn of the loop.  The types 6 and 9 end the process, as
      parseCreationOrder is false. *)
  Definition readRecord (ty : Z) (s : bytes) (st : S) : res (S * bytes) :=
    if ty =? 5 then
      let* (_, s) := read32 s in
      let* (vt, s) := read8 s in
      let* (_, s) := checkVal 0 (Z.land (Z.shiftr vt 4) 3) s in
      let* (offset, s) := read32 s in
      let* (length, s) := read16 s in
      let* st := readLinkData lh onLink offset length 0 st in
      Ok (st, s)
    else if ty =? 8 then
      let* (vt, s) := read8 s in
      let* (_, s) := checkVal 0 (Z.land (Z.shiftr vt 4) 3) s in
      let* (offset, s) := read32 s in
      let* (more, s) := read8 s in
      let* (length, s) := read16 s in
      let* (_, s) := read8 s in
      let* (co, s) := read32 s in
      let* (_, s) := read32 s in
      let* st := readLinkData ah onAttr (Z.lor offset (Z.shiftl more 32)) length co st in
      Ok (st, s)
    else if (ty =? 6) || (ty =? 9) then Panic
    else Err EInternal.
  Fixpoint readRecords (n : nat) (ty : Z) (s : bytes) (st : S) : res (S * bytes) :=
    match n with
    | O => Ok (st, s)
    | Datatypes.S m => let* (st, s) := readRecord ty s st in readRecords m ty s st
    end.
  Definition numRecords (n : Z) (s : bytes) : nat := Z.to_nat (Z.min n (1 + zlen s)).

  (** hdf5.go:915-928 *)
  Definition readBTreeLeaf (bta numRec recordSize : Z) (st : S) : res S :=
    let nbytes := i64 (6 + i64 numRec * recordSize) in
    let* bf := newSeek f bta nbytes in
    let* (_, bf) := checkMagic (bs "BTLF") bf in
    let* (_, bf) := read8 bf in
    let* (ty, bf) := read8 bf in
    let* (st, _) := readRecords (numRecords (i64 numRec) bf) ty bf st in
    let* _ := checkChecksum f bta nbytes in
    Ok st.

  (** hdf5.go:789-816, the loop over the children: [i] of them are left; [child] reads one *)
  Fixpoint readChildren (i : nat) (depth recordSize nodeSize : Z) (child : Z -> Z -> S -> res S)
    (bf : bytes) (st : S) : res S :=
    match i with
    | O => Ok st
    | Datatypes.S j =>
        let* (cnp, bf) := read64 bf in
        let maxRecords := u32 (nodeSize - 26) / (recordSize + 16) in
        let* (_, bf) := passert (maxRecords <? 256) EInternal bf in
        let* (cnr, bf) := read8 bf in
        let* st := child cnp cnr st in
        let* (_, bf) := (if 1 <? depth then read16 bf else Ok (0, bf)) in
        readChildren j depth recordSize nodeSize child bf st
    end.

  (** hdf5.go:768-819; [d] is one less than the depth.  The accounting check holds trivially. *)
  Fixpoint readBTreeInternal (d : nat) (bta numRec recordSize nodeSize : Z) (st : S) : res S :=
    let depth := Z.of_nat d + 1 in
    let sub := if 1 <? depth then 2 else 0 in
    let bsize := 6 + numRec * recordSize + (numRec + 1) * (9 + sub) in
    let* bf := newSeek f bta bsize in
    let* (_, bf) := checkMagic (bs "BTIN") bf in
    let* (version, bf) := read8 bf in
    let* (_, bf) := checkVal 0 version bf in
    let* (ty, bf) := read8 bf in
    let* (st, bf) := readRecords (numRecords numRec bf) ty bf st in
    let child :=
      match d with
      | O => fun cnp cnr => readBTreeLeaf cnp cnr recordSize
      | Datatypes.S d' => fun cnp cnr => readBTreeInternal d' cnp cnr recordSize nodeSize
      end in
    let* st := readChildren (Z.to_nat (numRec + 1)) depth recordSize nodeSize child bf st in
    let* _ := checkChecksum f bta bsize in
    Ok st.

  (** hdf5.go:1388-1420 *)
  Definition readBTree (addr : Z) (st : S) : res S :=
    let* bf := newSeek f addr 36 in
    let* (_, bf) := checkMagic (bs "BTHD") bf in
    let* (version, bf) := read8 bf in
    let* (_, bf) := checkVal 0 version bf in
    let* (_, bf) := read8 bf in
    let* (nodeSize, bf) := read32 bf in
    let* (recordSize, bf) := read16 bf in
    let* (depth, bf) := read16 bf in
    let* (_, bf) := read8 bf in
    let* (_, bf) := read8 bf in
    let* (root, bf) := read64 bf in
    let* (numRecRoot, bf) := read16 bf in
    let* (numRec, bf) := read64 bf in
    let* _ := checkChecksum f addr 34 in
    if 0 <? depth then readBTreeInternal (Z.to_nat (depth - 1)) root numRecRoot recordSize nodeSize st
    else readBTreeLeaf root numRec recordSize st.
End Records.

(** ** Symbol tables *)

(** hdf5.go:1270-1282 *)
Definition readLocalHeap (f : bytes) (addr offset : Z) : res bytes :=
  let* bf := newSeek f addr 32 in
  let* (_, bf) := checkMagic (bs "HEAP") bf in
  let* (version, bf) := read8 bf in
  let* (_, bf) := checkVal 0 version bf in
  let* (_, bf) := checkZeroes 3 bf in
  let* (dsSize, bf) := read64 bf in
  let* (_, bf) := read64 bf in
  let* (dsAddr, bf) := read64 bf in
  let* bff := newSeek f (u64 (dsAddr + offset)) (i64 (dsSize - offset)) in
  let* (name, _) := readNullTerminatedName 0 bff in
  Ok name.

Section Symbols.
  (** What happens to a symbol: its name and address; false makes the leaf end there *)
  Context {S : Type} (f : bytes) (onSymbol : bytes -> Z -> S -> res (S * bool)).

  (** hdf5.go:1295-1349 *)
  Fixpoint readSymbols (n : nat) (heapAddr : Z) (bf : bytes) (st : S) : res S :=
    match n with
    | O => Ok st
    | Datatypes.S m =>
        let* (_, bf) := passert (24 <=? zlen bf) EInternal bf in
        let* (nameOffset, bf) := read64 bf in
        let* name := readLocalHeap f heapAddr nameOffset in
        let* (_, bf) := passert (0 <? zlen name) EInternal bf in
        let* (addr, bf) := read64 bf in
        let* (cacheType, bf) := read32 bf in
        let* (reserved, bf) := read32 bf in
        let* (_, bf) := checkVal 0 reserved bf in
        let* (_, bf) := passert (cacheType <=? 2) EInternal bf in
        let* (_, bf) :=
          (if cacheType =? 0 then
             let* (_, bf) := passert (16 <=? zlen bf) EInternal bf in checkZeroes 16 bf
           else if cacheType =? 1 then rmap (fun p => (tt, snd p)) (rd 16 bf)
           else
             let* (_, bf) := read32 bf in
             let* (_, bf) := checkZeroes 12 bf in Err ELinkType) in
        let* (st, go) := onSymbol name addr st in
        if go : bool then readSymbols m heapAddr bf st else Ok st
    end.

  (** hdf5.go:1284-1350 *)
  Definition readSymbolTableLeaf (heapAddr addr : Z) (st : S) : res S :=
    let* bf := newSeek f addr 8 in
    let* (_, bf) := checkMagic (bs "SNOD") bf in
    let* (version, bf) := read8 bf in
    let* (_, bf) := checkVal 1 version bf in
    let* (reserved, bf) := read8 bf in
    let* (_, bf) := checkVal 0 reserved bf in
    let* (numSymbols, bf) := read16 bf in
    let* bf := newSeek f (u64 (addr + 8)) (numSymbols * 40) in
    readSymbols (Z.to_nat numSymbols) heapAddr bf st.

  Fixpoint readLeaves (heapAddr : Z) (l : list Z) (st : S) : res S :=
    match l with
    | [] => Ok st
    | a :: r => let* st := readSymbolTableLeaf heapAddr a st in readLeaves heapAddr r st
    end.

  (** hdf5.go:1352-1386; the level of the node is only logged *)
  Definition readSymbolTable (addr heapAddr : Z) (st : S) : res S :=
    let* bf := newSeek f addr 52 in
    let* (_, bf) := checkMagic (bs "TREE") bf in
    let* (nodeType, bf) := read8 bf in
    let* (_, bf) := read8 bf in
    let* (entriesUsed, bf) := read16 bf in
    let* (leftAddr, bf) := read64 bf in
    let* (rightAddr, bf) := read64 bf in
    let* (_, bf) := passert ((leftAddr =? invalidAddress) && (rightAddr =? invalidAddress)) EInternal bf in
    let* (_, bf) := passert (nodeType =? 0) EInternal bf in
    let* bf := newSeek f (u64 (addr + 24)) (16 * entriesUsed + 8) in
    let* (addrs, bf) := read_n (Z.to_nat entriesUsed) (do* _ := read64 in read64) bf in
    let* (_, _) := read64 bf in
    readLeaves heapAddr addrs st.
End Symbols.
