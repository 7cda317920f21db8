(** Reading the stored data of a variable: the index of chunks, blocks, holes and slices.
    netcdf/hdf5/hdf5.go:933-1025 (the index), 2476-2757 (blocks to values), 3249-3355 (the
    calls of the interface), netcdf/hdf5/segment.go, internal/slicer.go.

    Simplifications: filters are a function from the stored bytes of a block to its data,
    used when the block is looked at (in Go when it is read); sort.Sort is a stable sort
    (the order of two blocks at the same place is not defined in Go either); an error while
    the index is read leaves no blocks on the object (in Go those read before); the bytes of
    a chunked variable that needs reassembly are read as far as the limit of the request
    allows before they are decoded. *)
From Verif Require Import Prelude GoVal FillModel H5Base H5MetaWrite H5MetaRead H5LayoutModel H5Value H5TypeRead.

(** hdf5.go:193-200: struct dataBlock *)
Record block : Type := mkBlock {
  b_addr : Z; b_length : Z; b_ds : Z; b_mask : Z; b_offsets : list Z; b_raw : option bytes }.

(** What an object says about its data (hdf5.go:234-253); [d_fill] is the pattern that
    makeFillValueReader (2659-2690) settles on; [d_filter] applies the filters, none of
    which but the checksum is used if [d_seek]. *)
Record dset : Type := mkDset {
  d_dims : list Z; d_layout : list Z; d_ty : dty;
  d_btree : Z; d_elem : Z; d_number : Z; d_rank : Z;
  d_fill : bytes; d_filter : block -> bytes -> res bytes; d_seek : bool }.

Definition d_length (d : dset) : Z := dlen (d_ty d).
Definition d_size (d : dset) : Z := H5LayoutModel.calcAttrSize (d_dims d) (d_layout d) (d_length d).

(** ** The index of chunks *)

(** hdf5.go:933-945 *)
Fixpoint keyOffset (offsets dims : list Z) (dt : Z) : Z * Z :=
  match offsets, dims with
  | o :: os, d :: ds =>
      let '(dso, sizes) := keyOffset os ds dt in (u64 (dso + u64 (o * sizes)), u64 (sizes * d))
  | _, _ => (0, dt)
  end.
Definition calculateFlatOffsetFromKeys (offsets dims : list Z) (dt : Z) : Z :=
  fst (keyOffset offsets dims dt).

Record entry : Type := mkEntry { e_size : Z; e_mask : Z; e_offsets : list Z; e_addr : Z }.

(** hdf5.go:986-997, without the address that only the entries before the last one have *)
Definition readKey (rank : Z) : P entry :=
  do* size := read32 in
  do* mask := read32 in
  do* offs := repeatP read64 (Z.to_nat (rank - 1)) in
  do* _ := read64 in
  pret (mkEntry size mask offs 0).
Definition readEntry (rank : Z) : P entry :=
  do* e := readKey rank in
  do* addr := read64 in
  pret (mkEntry (e_size e) (e_mask e) (e_offsets e) addr).

(** hdf5.go:999-1023: the entries of a node of level [level], the last of which ends at key
    [e]; [descend] reads the node at an address *)
Definition walkEntries (descend : Z -> res (list block)) (flat : entry -> Z) (level size : Z) (e : entry)
    (first last_ : Z) : list entry -> res (list block) :=
  fix go (es : list entry) : res (list block) :=
    match es with
    | [] => Ok []
    | x :: r =>
        let low := flat x in
        let high := if level =? 0 then u64 (low + size)
                    else flat (match r with y :: _ => y | [] => e end) in
        if (last_ <=? low) || ((0 <? high) && (high <=? first)) then go r
        else
          let* here :=
            (if 0 <? level then descend (e_addr x)
             else Ok [mkBlock (e_addr x) (e_size x) size (e_mask x) (e_offsets x) None]) in
          let* more := go r in
          Ok (here ++ more)
    end.

(** hdf5.go:953-1025; [fuel] bounds the depth, which nothing in the file does: beyond it the
    model makes no claim.  A rank of 0 and 65535 entries, where the arithmetic of uint8 and
    uint16 wraps, are not modelled. *)
Fixpoint readBTreeNodeAny (fuel : nat) (f : bytes) (d : dset) (addr : Z) (isTop : bool)
    (first last_ : Z) : res (list block) :=
  match fuel with
  | O => Err ENotModelled
  | S fu =>
      let* bf := newSeek f addr 24 in
      let* (_, bf) := checkMagic (bs "TREE") bf in
      let* (nodeType, bf) := read8 bf in
      let* (_, bf) := checkVal 1 nodeType bf in
      let* (level, bf) := read8 bf in
      let* (used, bf) := read16 bf in
      let* (leftAddr, bf) := read64 bf in
      let* (rightAddr, bf) := read64 bf in
      if (negb (leftAddr =? invalidAddress) || negb (rightAddr =? invalidAddress)) && isTop
      then Err EInternal
      else if (d_rank d <=? 0) || (used =? 65535) then Err ENotModelled
      else
        let dimData := 8 * (d_rank d - 1) in
        let* bf := newSeek f (u64 (addr + 24)) (used * (24 + dimData) + 16 + dimData) in
        let* (es, bf) := repeatP (readEntry (d_rank d)) (Z.to_nat used) bf in
        let* (e, _) := readKey (d_rank d) bf in
        walkEntries (fun a => readBTreeNodeAny fu f d a false first last_)
          (fun e => calculateFlatOffsetFromKeys (e_offsets e) (d_dims d) (d_elem d))
          level (u64 (d_number d * d_elem d)) e first last_ es
  end.

Definition readBTreeNode (f : bytes) (d : dset) (first last_ : Z) : res (list block) :=
  readBTreeNodeAny (S (List.length f)) f d (d_btree d) true first last_.

(** ** Blocks *)

(** makeFillValueReader with nothing in front *)
Definition fillBytes (pat : bytes) (n : Z) : bytes := fst (fv_read (new_fvr pat) (Z.to_nat n)).

(** segment.go:10-14 *)
Record segment : Type := mkSeg { s_off : Z; s_len : Z; s_data : bytes }.

(** b[:n]; whether there is spare capacity is not modelled *)
Definition prefix_of (b : bytes) (n : Z) : res bytes :=
  if (0 <=? n) && (n <=? zlen b) then Ok (ztake n b) else Panic.

(** hdf5.go:2525-2593: the part of a block at [offset] that lies in the range *)
Definition readBlock (f : bytes) (d : dset) (first last_ : Z) (b : block) (offset : Z)
  : res segment :=
  let dsl := b_ds b in
  let skipBegin := if (offset <=? first) && (first <? u64 (offset + dsl))
                   then u64 (first - offset) else 0 in
  let skipEnd := if last_ <? u64 (offset + dsl) then u64 (offset + dsl - last_) else 0 in
  let* bf := match b_raw b with
             | Some raw => prefix_of raw (i64 (u64 (dsl - skipEnd)))
             | None => newSeek f (b_addr b) (i64 (b_length b))
             end in
  let* bf := d_filter d b bf in
  let len := u64 (dsl - u64 (skipBegin + skipEnd)) in
  let* bf := (if 0 <? skipBegin then
                match b_raw b, d_seek d with
                | None, true => newSeek f (u64 (b_addr b + skipBegin)) (i64 len)
                | _, _ => let* (_, bf) := skip (i64 skipBegin) bf in Ok bf
                end
              else Ok bf) in
  Ok (mkSeg (u64 (offset + skipBegin)) len bf).

(** hdf5.go:2508-2598 *)
Fixpoint readBlocks (f : bytes) (d : dset) (first last_ : Z) (bl : list block) (offset : Z)
  : res (list segment) :=
  match bl with
  | [] => Ok []
  | b :: r =>
      let chunked := match d_layout d with [] => false | _ => true end in
      let offset := if chunked
                    then calculateFlatOffset (b_offsets b) (d_dims d) (d_layout d) (d_length d)
                    else offset in
      let next := if chunked then offset else u64 (offset + b_ds b) in
      if u64 (offset + b_ds b) <=? first then readBlocks f d first last_ r next
      else if last_ <=? offset then Ok []
      else
        let* s := readBlock f d first last_ b offset in
        let* ss := readBlocks f d first last_ r next in
        Ok (s :: ss)
  end.

(** segment.go:34-45 *)
Fixpoint insertSeg (s : segment) (l : list segment) : list segment :=
  match l with
  | [] => [s]
  | x :: r => if s_off s <=? s_off x then s :: l else x :: insertSeg s r
  end.
Definition sortSegs (l : list segment) : list segment := fold_right insertSeg [] l.

(** hdf5.go:2602-2617; the bytes and [off] *)
Fixpoint joinSegs (pat : bytes) (l : list segment) (off : Z) : bytes * Z :=
  match l with
  | [] => ([], off)
  | s :: r =>
      let hole := if off <? s_off s then fillBytes pat (i64 (s_off s - off)) else [] in
      let off := if off <? s_off s then s_off s else off in
      let '(b, off) := joinSegs pat r (u64 (off + s_len s)) in
      (hole ++ ztake (i64 (s_len s)) (s_data s) ++ b, off)
  end.

(** hdf5.go:2476-2632: the bytes, Rem(), and the blocks of the object afterwards.
    [slice] is objAttr.firstDim and lastDim if objAttr.isSlice *)
Definition newRecordReader (f : bytes) (d : dset) (bl : list block) (slice : option (Z * Z))
  : res (bytes * Z * list block) :=
  let size := d_size d in
  if size =? 0 then Ok ([], 0, bl)
  else
    let '(first, last_, size) :=
      match slice, d_dims d with
      | Some (b, e), n :: _ =>
          if negb (needsLayoutReader (d_dims d) (d_layout d)) && (0 <? n) then
            let dimSize := size / n in
            let first := u64 (u64 b * dimSize) in
            let last_ := u64 (u64 e * dimSize) in
            (first, last_, u64 (last_ - first))
          else (0, size, size)
      | _, _ => (0, size, size)
      end in
    let* bl := match bl with
               | [] => if d_btree d =? 0 then Ok [] else readBTreeNode f d first last_
               | _ => Ok bl
               end in
    match bl with
    | [] => Ok (fillBytes (d_fill d) (i64 size), i64 size, bl)
    | _ =>
        let* segs := readBlocks f d first last_ bl 0 in
        let '(data, off) := joinSegs (d_fill d) (sortSegs segs) first in
        let extra := if off <? size then fillBytes (d_fill d) (i64 (size - off)) else [] in
        let off := if off <? size then size else off in
        if off <=? last_ then Ok (ztake (i64 size) (data ++ extra), i64 size, bl)
        else Err ECorrupted
    end.

(** Reading up to [n] bytes from the reader of readers.go:506-519 *)
Fixpoint lr_take (fuel : nat) (dims layout : list Z) (dt : Z) (s : lreader) (n : Z) : res bytes :=
  match fuel with
  | O => Ok []
  | S fu =>
      if n <=? 0 then Ok []
      else
        let* x := lr_read dims layout dt s n in
        match x with
        | None => Ok []
        | Some (b, s') => let* r := lr_take fu dims layout dt s' (n - zlen b) in Ok (b ++ r)
        end
  end.

(** hdf5.go:2634-2640 and 2693-2726: the bytes that the value is decoded from *)
Definition dataBytes (f : bytes) (d : dset) (bl : list block) (slice : option (Z * Z))
  : res (bytes * list block) :=
  let sz := i64 (d_size d) in
  let* (data, rem, bl) := newRecordReader f d bl slice in
  let* limit :=
    match slice with
    | None => Ok sz
    | Some (b, e) =>
        if e <? b then Err EInternal
        else
          let chunkSize := match d_dims d with
                           | [] => 1
                           | n :: _ => if n =? 0 then 0 else Z.quot sz (i64 n)
                           end in
          Ok (i64 (chunkSize * i64 (e - b)))
    end in
  let layout := needsLayoutReader (d_dims d) (d_layout d) in
  let* data :=
    (if layout then lr_take (S (List.length data + Z.to_nat limit)) (d_dims d) (d_layout d) (d_length d)
                            (newLayoutReader data) limit
     else Ok data) in
  let rem := if layout then i64 (u64 (calcDataSize (d_dims d) * d_length d)) else rem in
  let data := if rem <? sz then ztake sz (data ++ fillBytes (d_fill d) (sz - zlen data)) else data in
  Ok (ztake limit data, bl).

(** hdf5.go:2728-2741 *)
Definition sliceDims (dims : list Z) (slice : option (Z * Z)) : list Z :=
  match slice, dims with
  | Some (b, e), _ :: r => u64 (e - b) :: r
  | _, _ => dims
  end.

(** ** Calls *)

(** What calls change: objAttr.isSlice, firstDim and lastDim; the blocks; and the
    dimensions of an array type, array.go:46-62 *)
Record vstate : Type := mkVst { v_slice : option (Z * Z); v_blocks : list block; v_ty : dty }.

Definition grow (d : dty) (dims : list Z) : dty :=
  match d with DArray len adims d' => DArray len (dims ++ adims) d' | _ => d end.

(** hdf5.go:2693-2750; [keep]: the object itself is read, not the copy of getSlice, which
    has blocks of its own *)
Definition getData (f : bytes) (heap : Z -> Z -> res (option bytes)) (d : dset) (keep : bool)
    (st : vstate) : res hval * vstate :=
  match dataBytes f d (v_blocks st) (v_slice st) with
  | Ok (data, bl) =>
      let dims := sliceDims (d_dims d) (v_slice st) in
      (let* (v, _) := alloc heap (v_ty st) dims data in Ok v,
       mkVst (v_slice st) (if keep then bl else v_blocks st) (grow (v_ty st) dims))
  | Err e => (Err e, st)
  | Panic => (Panic, st)
  end.

(** hdf5.go:3295-3315 *)
Definition getSlice (f : bytes) (heap : Z -> Z -> res (option bytes)) (d : dset) (b e : Z)
    (st : vstate) : res hval * vstate :=
  let fakeEnd := match d_dims d with [] => true | _ => false end in
  if (b =? 0) && (e =? 1) && fakeEnd then getData f heap d true st
  else if e <? b then (Err EInvalidSlice, st)
  else getData f heap d false (mkVst (Some (b, e)) (v_blocks st) (v_ty st)).

(** slicer.go:83-108; [int64] begin and end, v.Slice checks its bounds.  A compound and an
    opaque value are slices, an enumeration is not. *)
Definition vslice {A} (l : list A) (b e : Z) : res (list A) :=
  if (0 <=? b) && (b <=? e) && (e <=? zlen l) then Ok (ztake (e - b) (zdrop b l)) else Panic.
Fixpoint sliceRecursive (rank : nat) (v : hval) (bs_ es : list Z) : res hval :=
  match rank, bs_, es with
  | S n, b :: br, e :: er =>
      match v with
      | HSlice t l =>
          let* l := vslice l b e in
          match n with
          | O => Ok (HSlice t l)
          | S _ => let* l := rmapM (fun x => sliceRecursive n x br er) l in Ok (HSlice t l)
          end
      | HOpaque l => let* l := vslice l b e in Ok (HOpaque l)
      | HComp l => let* l := vslice l b e in Ok (HComp l)
      | _ => Ok v
      end
  | S _, _, _ => Panic
  | O, _, _ => Ok v
  end.

Fixpoint ordered (bs_ es : list Z) : bool :=
  match bs_, es with b :: br, e :: er => (b <=? e) && ordered br er | _, _ => true end.

(** hdf5.go:3316-3343; a variable without dimensions has no begin[0] *)
Definition getSliceMD (f : bytes) (heap : Z -> Z -> res (option bytes)) (d : dset) (bs_ es : list Z)
    (st : vstate) : res hval * vstate :=
  let rank := List.length (d_dims d) in
  if negb (Nat.eqb (List.length bs_) rank) || negb (Nat.eqb (List.length es) rank)
  then (Err EDimensionality, st)
  else if negb (ordered bs_ es) then (Err EInvalidSlice, st)
  else
    match bs_, es with
    | b :: br, e :: er =>
        let '(r, st) := getSlice f heap d b e st in
        (let* v := r in sliceRecursive rank v (0 :: br) (i64 (e - b) :: er), st)
    | _, _ => (Panic, st)
    end.

(** slicer.go:33-37 and hdf5.go:3283-3294 *)
Definition varLen (d : dset) : Z := match d_dims d with [] => 1 | n :: _ => i64 n end.

(** The calls on a variable: GetVariable, and Values, GetSlice and GetSliceMD of the
    VarGetter *)
Inductive vcall : Type :=
| VGet | VValues | VSlice (b e : Z) | VSliceMD (bs_ es : list Z).
Definition vstep (f : bytes) (heap : Z -> Z -> res (option bytes)) (d : dset) (c : vcall)
    (st : vstate) : res hval * vstate :=
  match c with
  | VGet => getData f heap d true st
  | VValues => getSlice f heap d 0 (varLen d) st
  | VSlice b e => getSlice f heap d b e st
  | VSliceMD bs_ es => getSliceMD f heap d bs_ es st
  end.
Fixpoint vrun (f : bytes) (heap : Z -> Z -> res (option bytes)) (d : dset) (cs : list vcall)
    (st : vstate) : vstate :=
  match cs with [] => st | c :: r => vrun f heap d r (snd (vstep f heap d c st)) end.

(** A variable as Open leaves it; [bl] is the block of contiguous or compact storage *)
Definition opened (d : dset) (bl : list block) : vstate := mkVst None bl (d_ty d).
