(** How the HDF5 reader builds its tree of objects from a file, and the calls that look at
    that tree: netcdf/hdf5/hdf5.go.  Superblock, headers and simple messages are in
    H5MetaRead, datatypes in H5TypeRead, stored data in H5RecordModel.

    Not modelled ([ENotModelled]): data behind filters; an empty old fill value, which panics
    when it is used; nesting of objects and continuation blocks deeper than the file is long.
    Simplifications: Go maps of children are lists in the order of the links in the file, so
    that what ranges over them is meaningful only up to the order; creation orders of links
    are dropped, as nothing depends on them; heaps are read anew each time; no Go type is
    registered; the lists are those obtained before any attribute has been parsed; the root's
    address in the index of addresses is 0. *)
From Verif Require Import Prelude GoVal OrderedMapModel H5Base H5MetaWrite H5MetaRead H5Value H5TypeRead
  H5FileWrite H5PathModel H5RecordModel FillModel H5DenseRead.

(** ** Attributes *)

(** hdf5.go:143-190, the parts used for attributes of objects *)
Record rattr : Type := mkRattr {
  ra_name : bytes; ra_dims : list Z; ra_ty : dty; ra_df : option bytes; ra_val : option hval;
  ra_co : Z }.

(** What the parse methods do with the data of an attribute, of which [df] is all that is
    there; [tag]: the datatype goes on after its first 8 bytes.  fixedPoint.go:161-163,
    floatingPoint.go:150-151, string.go:43-47, opaque.go:47-64, compound.go:138-149,
    enum.go:165-168, vlen.go:79-89, reference.go:60-65, array.go:91-94 *)
Definition saveDf (d : dty) (tag : bool) (df : bytes) : res (option bytes * option hval) :=
  let rem := zlen df in
  let if_full := if dlen d <=? rem then Some df else None in
  match d with
  | DFixed _ _ _ | DVlen _ _ _ => Ok (if_full, None)
  | DFloat len _ => if len <=? rem then Ok (Some df, None) else Err EInternal
  | DString _ => Ok (None, Some (HStr (getString df)))
  | DOpaque _ => Ok (if tag then if_full else None, None)
  | DComp _ _ | DEnum _ _ _ _ _ _ | DArray _ _ _ => Ok (if 0 <? rem then Some df else None, None)
  | DRef len => if len <=? rem then Ok (Some df, None) else Err EReference
  end.

(** hdf5.go:569-631; [b] is the message, [co] the creation order.  Whatever is left of it after the datatype has been
    parsed is skipped (types.go:148-153). *)
Definition readAttribute (co : Z) (b : bytes) : res rattr :=
  let total := zlen b in
  let head : P (bytes * bytes * list Z) :=
    do* version := read8 in
    do* _ := passert ((1 <=? version) && (version <=? 3)) EInternal in
    do* flags := read8 in
    do* _ := (if version =? 1 then checkVal 0 flags
              else passert (negb (hasFlag8 flags 0 || hasFlag8 flags 1)) EUnsupportedDataTypeVersion) in
    do* nameSize := read16 in
    do* datatypeSize := read16 in
    do* dataspaceSize := read16 in
    do* _ := (if version =? 3 then read8 else pret 0) in
    do* _ := passert (0 <? nameSize) EInternal in
    do* name := rd nameSize in
    do* _ := (if version =? 1 then padBytes7 total else pret tt) in
    do* dtb := rd datatypeSize in
    do* _ := (if version =? 1 then
                do* pad := rd ((8 - datatypeSize mod 8) mod 8) in
                passert (forallb (fun x => x =? 0) pad) EInternal
              else pret tt) in
    do* dims := limited dataspaceSize readDataspace in
    do* _ := (if version =? 1 then padBytes7 total else pret tt) in
    pret (getString name, dtb, dims) in
  let* (h, df) := head b in
  let '(name, dtb, dims) := h in
  let* (d, _) := parseDatatype dtb in
  let* (sdf, v) := saveDf d (8 <? zlen dtb) df in
  Ok (mkRattr name dims d sdf v co).

(** ** Objects *)

(** hdf5.go:234-253; the type stays unset for a group.  [ri_layout] is objAttr.layout.  A fill
    value of None is the constant that stands for an undefined one. *)
Record rinfo : Type := mkRinfo {
  ri_name : bytes; ri_addr : Z; ri_group : bool;
  ri_link : option (Z * Z); ri_ainfo : option (Z * Z);
  ri_attrs : list rattr; ri_dims : option (list Z); ri_ty : option dty;
  ri_layout : list Z; ri_blocks : list block;
  ri_btree : Z; ri_elem : Z; ri_number : Z; ri_rank : Z;
  ri_fill : option (option bytes); ri_fillOld : option bytes; ri_filters : list (Z * list Z) }.
Definition newObject (name : bytes) (addr : Z) : rinfo :=
  mkRinfo name addr false None None [] None None [] [] 0 0 0 0 None None [].

Inductive robj : Type := RObj (i : rinfo) (cs : list (bytes * robj)).
Definition r_info (o : robj) : rinfo := match o with RObj i _ => i end.
Definition r_children (o : robj) : list (bytes * robj) := match o with RObj _ c => c end.
Definition r_attrs (o : robj) : list rattr := ri_attrs (r_info o).

(** An object being read, and h5.addrs *)
Record rstate : Type := mkRst { rs_info : rinfo; rs_children : list (bytes * robj); rs_addrs : list Z }.

Definition with_info (st : rstate) (i : rinfo) : rstate := mkRst i (rs_children st) (rs_addrs st).
Definition set_group (g : bool) (i : rinfo) : rinfo :=
  mkRinfo (ri_name i) (ri_addr i) g (ri_link i) (ri_ainfo i) (ri_attrs i) (ri_dims i) (ri_ty i)
    (ri_layout i) (ri_blocks i) (ri_btree i) (ri_elem i) (ri_number i) (ri_rank i) (ri_fill i)
    (ri_fillOld i) (ri_filters i).
Definition set_dims (d : list Z) (i : rinfo) : rinfo :=
  mkRinfo (ri_name i) (ri_addr i) (ri_group i) (ri_link i) (ri_ainfo i) (ri_attrs i) (Some d)
    (ri_ty i) (ri_layout i) (ri_blocks i) (ri_btree i) (ri_elem i) (ri_number i) (ri_rank i)
    (ri_fill i) (ri_fillOld i) (ri_filters i).
(** the attribute read replaces all of objAttr but the dimensions: hdf5.go:1966-1977 *)
Definition set_type (t : dty) (i : rinfo) : rinfo :=
  mkRinfo (ri_name i) (ri_addr i) (ri_group i) (ri_link i) (ri_ainfo i) (ri_attrs i) (ri_dims i)
    (Some t) [] (ri_blocks i) (ri_btree i) (ri_elem i) (ri_number i) (ri_rank i) (ri_fill i)
    (ri_fillOld i) (ri_filters i).
Definition set_link (l : Z * Z) (i : rinfo) : rinfo :=
  mkRinfo (ri_name i) (ri_addr i) (ri_group i) (Some l) (ri_ainfo i) (ri_attrs i) (ri_dims i)
    (ri_ty i) (ri_layout i) (ri_blocks i) (ri_btree i) (ri_elem i) (ri_number i) (ri_rank i)
    (ri_fill i) (ri_fillOld i) (ri_filters i).
Definition set_ainfo (l : Z * Z) (i : rinfo) : rinfo :=
  mkRinfo (ri_name i) (ri_addr i) (ri_group i) (ri_link i) (Some l) (ri_attrs i) (ri_dims i)
    (ri_ty i) (ri_layout i) (ri_blocks i) (ri_btree i) (ri_elem i) (ri_number i) (ri_rank i)
    (ri_fill i) (ri_fillOld i) (ri_filters i).
Definition add_attr (a : rattr) (i : rinfo) : rinfo :=
  mkRinfo (ri_name i) (ri_addr i) (ri_group i) (ri_link i) (ri_ainfo i) (ri_attrs i ++ [a])
    (ri_dims i) (ri_ty i) (ri_layout i) (ri_blocks i) (ri_btree i) (ri_elem i) (ri_number i)
    (ri_rank i) (ri_fill i) (ri_fillOld i) (ri_filters i).
Definition add_block (b : block) (i : rinfo) : rinfo :=
  mkRinfo (ri_name i) (ri_addr i) (ri_group i) (ri_link i) (ri_ainfo i) (ri_attrs i) (ri_dims i)
    (ri_ty i) (ri_layout i) (ri_blocks i ++ [b]) (ri_btree i) (ri_elem i) (ri_number i) (ri_rank i)
    (ri_fill i) (ri_fillOld i) (ri_filters i).
Definition set_chunks (shape : list Z) (bt elem number rank : Z) (i : rinfo) : rinfo :=
  mkRinfo (ri_name i) (ri_addr i) (ri_group i) (ri_link i) (ri_ainfo i) (ri_attrs i) (ri_dims i)
    (ri_ty i) shape (ri_blocks i) bt elem number rank (ri_fill i) (ri_fillOld i) (ri_filters i).
Definition set_fill (v : option bytes) (i : rinfo) : rinfo :=
  mkRinfo (ri_name i) (ri_addr i) (ri_group i) (ri_link i) (ri_ainfo i) (ri_attrs i) (ri_dims i)
    (ri_ty i) (ri_layout i) (ri_blocks i) (ri_btree i) (ri_elem i) (ri_number i) (ri_rank i)
    (Some v) (ri_fillOld i) (ri_filters i).
Definition set_fillOld (v : bytes) (i : rinfo) : rinfo :=
  mkRinfo (ri_name i) (ri_addr i) (ri_group i) (ri_link i) (ri_ainfo i) (ri_attrs i) (ri_dims i)
    (ri_ty i) (ri_layout i) (ri_blocks i) (ri_btree i) (ri_elem i) (ri_number i) (ri_rank i)
    (ri_fill i) (Some v) (ri_filters i).
Definition add_filters (l : list (Z * list Z)) (i : rinfo) : rinfo :=
  mkRinfo (ri_name i) (ri_addr i) (ri_group i) (ri_link i) (ri_ainfo i) (ri_attrs i) (ri_dims i)
    (ri_ty i) (ri_layout i) (ri_blocks i) (ri_btree i) (ri_elem i) (ri_number i) (ri_rank i)
    (ri_fill i) (ri_fillOld i) (ri_filters i ++ l).

(** What readDataLayout leaves on the object: hdf5.go:1663-1713 *)
Definition set_layout (l : layout) (i : rinfo) : rinfo :=
  match l with
  | LCompact b => add_block (mkBlock 0 (zlen b) (zlen b) 0 [] (Some b)) i
  | LContiguous addr size => add_block (mkBlock addr size size 0 [] None) i
  | LNone => i
  | LChunked None shape elem =>
      set_chunks shape (ri_btree i) (ri_elem i) (ri_number i) (ri_rank i) i
  | LChunked (Some a) shape elem =>
      set_chunks shape a elem (u64 (fold_left Z.mul shape 1)) (zlen shape + 1) i
  end.

(** A parser of a whole message *)
Definition onMessage {A} (p : P A) (b : bytes) (k : A -> rstate) : res (rstate * bytes) :=
  let* (x, rest) := p b in Ok (k x, rest).

(** What the handling of a message may call: the file; reading an object, that is its header and
    then what dumpObject reads; reading a continuation block of the header at hand. *)
Record env : Type := mkEnv {
  e_file : bytes; e_object : Z -> rstate -> res rstate; e_more : Z -> Z -> rstate -> res rstate }.

(** hdf5.go:747-765, the second half of readLinkDirectFrom *)
Definition followLink (x : env) (name : bytes) (addr : Z) (st : rstate) : res rstate :=
  if mem name (map fst (rs_children st)) then Err EInternal
  else if existsb (Z.eqb addr) (rs_addrs st) then Ok st
  else
    let* c := e_object x addr (mkRst (newObject name addr) [] (rs_addrs st ++ [addr])) in
    Ok (mkRst (rs_info st) (rs_children st ++ [(name, RObj (rs_info c) (rs_children c))]) (rs_addrs c)).
(** hdf5.go:1326-1348: an object met before ends the symbol table node *)
Definition followSymbol (x : env) (name : bytes) (addr : Z) (st : rstate) : res (rstate * bool) :=
  if mem name (map fst (rs_children st)) then Err EInternal
  else if existsb (Z.eqb addr) (rs_addrs st) then Ok (st, false)
  else
    let* c := e_object x addr (mkRst (set_group true (newObject name addr)) [] (rs_addrs st ++ [addr])) in
    Ok (mkRst (rs_info st) (rs_children st ++ [(name, RObj (rs_info c) (rs_children c))]) (rs_addrs c), true).

(** hdf5.go:702-708, 561-567: a link and an attribute in a heap *)
Definition denseLink (x : env) (addr len co : Z) (st : rstate) : res rstate :=
  let* b := newSeek (e_file x) addr len in
  let* (l, _) := readLink (ztake len b) in
  let '(name, addr, _) := l in
  followLink x name addr st.
Definition denseAttr (x : env) (addr len co : Z) (st : rstate) : res rstate :=
  let* b := newSeek (e_file x) addr len in
  let* a := readAttribute co b in
  Ok (with_info st (add_attr a (rs_info st))).

(** hdf5.go:2431-2442.  A heap that has not been read has no blocks. *)
Definition dumpObject (x : env) (st : rstate) : res rstate :=
  let f := e_file x in
  let unread (l : option (Z * Z)) := match l with Some _ => Some no_fheap | None => None end in
  let lh := unread (ri_link (rs_info st)) in
  let ah := unread (ri_ainfo (rs_info st)) in
  let* (st, ah) :=
    match ri_ainfo (rs_info st) with
    | Some (heap, bt) =>
        if heap =? invalidAddress then Ok (st, ah)
        else
          let* h := readHeap f heap in
          let* st := readBTree f (denseLink x) (denseAttr x) lh (Some h) bt st in
          Ok (st, Some h)
    | None => Ok (st, ah)
    end in
  match ri_link (rs_info st) with
  | Some (heap, bt) =>
      if heap =? invalidAddress then Ok st
      else
        let* h := readHeap f heap in
        readBTree f (denseLink x) (denseAttr x) (Some h) ah bt st
  | None => Ok st
  end.

(** hdf5.go:1799-1861; None for nil, Some None for the constant that means undefined *)
Definition readFillValue : P (option (option bytes)) :=
  do* version := read8 in
  do* _ := passert ((1 <=? version) && (version <=? 3)) EInternal in
  let value (alloc write defined : Z) : P (option (option bytes)) :=
    do* _ := passert ((1 <=? alloc) && (alloc <=? 3)) EInternal in
    do* _ := passert ((0 <=? write) && (write <=? 2)) EInternal in
    if (1 <? version) && (defined =? 0) then pret None
    else
      do* len := read32 in
      if len =? 0 then pret None else do* b := rd len in pret (Some (Some b)) in
  if version <=? 2 then
    do* alloc := read8 in
    do* write := read8 in
    do* defined := read8 in
    value alloc write defined
  else
    do* flags := read8 in
    let undefined := Z.land (Z.shiftr flags 4) 1 in
    let defined := Z.land (Z.shiftr flags 5) 1 in
    do* _ := checkVal 0 (Z.land (Z.shiftr flags 6) 3) in
    if undefined =? 1 then
      do* _ := passert (negb (defined =? 1)) EInternal in pret (Some None)
    else value (Z.land flags 3) (Z.land (Z.shiftr flags 2) 3) defined.

(** hdf5.go:1593-1645; [total] is the length of the message *)
Definition readFilter (total version : Z) : P (Z * list Z) :=
  do* fiv := read16 in
  do* nameLength := (if (version =? 1) || (256 <=? fiv) then read16 else pret 0) in
  do* _ := read16 in
  do* nCDV := read16 in
  do* _ := (if 0 <? nameLength then do* _ := rd nameLength in padBytes7 total else pret tt) in
  do* cdv := read_n (Z.to_nat nCDV) (do* rem := prem in do* _ := passert (4 <=? rem) EInternal in read32) in
  do* _ := (if (version =? 1) && (nCDV mod 2 =? 1) then do* pad := read32 in checkVal 0 pad else pret tt) in
  do* _ := passert ((1 <=? fiv) && (fiv <=? 3)) EUnsupportedFilter in
  pret (fiv, cdv).
Definition readFilterPipeline (b : bytes) : res (list (Z * list Z) * bytes) :=
  let p : P (list (Z * list Z)) :=
    do* version := read8 in
    do* _ := passert ((1 <=? version) && (version <=? 2)) EInternal in
    do* nof := read8 in
    do* _ := (if version =? 1 then
                do* r := read16 in do* _ := checkVal 0 r in
                do* r := read32 in checkVal 0 r
              else pret tt) in
    repeatP (readFilter (zlen b) version) (Z.to_nat nof) in
  p b.

(** hdf5.go:1878-2098, the messages of an object header; their numbers are in
    hdf5.go:83-111 *)
Definition handle (x : env) (t : Z) (b : bytes) (st : rstate) : res (rstate * bytes) :=
  let i := rs_info st in
  if t =? 0 then Ok (st, [])
  else if t =? 1 then onMessage readDataspace b (fun d => with_info st (set_dims d (set_group false i)))
  else if t =? 2 then
    match ri_link i with
    | Some _ => Err EInternal
    | None => onMessage readLinkInfo b (fun l => with_info st (set_group true (set_link l i)))
    end
  else if t =? 3 then onMessage parseDatatype b (fun d => with_info st (set_type d (set_group false i)))
  else if t =? 4 then
    onMessage (do* sz := read32 in rd sz) b (fun v => with_info st (set_fillOld v (set_group false i)))
  else if t =? 5 then
    onMessage readFillValue b (fun v => with_info st (match v with
                                                      | None => set_group false i
                                                      | Some v => set_fill v (set_group false i)
                                                      end))
  else if t =? 6 then
    let* (l, rest) := readLink b in
    let '(name, addr, _) := l in
    let* st := followLink x name addr st in
    Ok (st, rest)
  else if t =? 7 then Err EExternal
  else if t =? 8 then onMessage readDataLayout b (fun l => with_info st (set_layout l (set_group false i)))
  else if t =? 9 then
    onMessage (do* bogus := read32 in passert (bogus =? 0xdeadbeef) EInternal) b (fun _ => st)
  else if t =? 10 then onMessage readGroupInfo b (fun _ => with_info st (set_group true i))
  else if t =? 11 then onMessage readFilterPipeline b (fun l => with_info st (add_filters l i))
  else if t =? 12 then
    let* a := readAttribute 0 b in Ok (with_info st (add_attr a i), [])
  else if t =? 13 then onMessage (readNullTerminatedName 0) b (fun _ => st)
  else if t =? 14 then onMessage (do* _ := rd 14 in checkZeroes 2) b (fun _ => st)
  else if t =? 15 then Ok (st, [])
  else if t =? 16 then
    let* (offset, b) := read64 b in
    let* (size, b) := read64 b in
    let* st := e_more x offset size st in
    Ok (st, b)
  else if t =? 17 then
    let* (bt, b) := read64 b in
    let* (heap, b) := read64 b in
    let* st := readSymbolTable (e_file x) (followSymbol x) bt heap (with_info st (set_group true i)) in
    Ok (st, b)
  else if t =? 18 then
    onMessage (do* _ := read8 in do* z := rd 3 in do* _ := passert (forallb (fun c => c =? 0) z) EInternal in read32)
      b (fun _ => st)
  else if t =? 19 then Err ESuperblock
  else if t =? 20 then Err EInternal
  else if t =? 21 then
    match ri_ainfo i with
    | Some _ => Err EInternal
    | None => onMessage readAttributeInfo b (fun l => with_info st (set_ainfo l i))
    end
  else if t =? 22 then
    onMessage (do* v := read8 in do* _ := checkVal 0 v in read32) b (fun _ => st)
  else Err EInternal.

(** What there is to read: an object; the header of one only; a continuation block of a header
    of this version with these flags *)
Inductive job : Type :=
| JObject (addr : Z)
| JHeader (addr : Z)
| JMore (version flags offset size : Z).

(** the version and the flags of the header at an address, as readDataObjectHeader finds them *)
Definition byteAt (f : bytes) (a : Z) : Z := nth (Z.to_nat a) f 0.
Definition headerKind (f : bytes) (addr : Z) : Z * Z :=
  match isMagic f (bs "OHDR") addr with
  | Ok true => (2, byteAt f (addr + 5))
  | _ => (byteAt f addr, 0)
  end.

(** [fuel] bounds the nesting.  Every nested object has an address of its own that was not met
    before; for continuation blocks there is no bound. *)
Fixpoint readAny (fuel : nat) (f : bytes) (j : job) (st : rstate) : res rstate :=
  match fuel with
  | O => Err ENotModelled
  | S fu =>
      let envOf (k : Z * Z) := mkEnv f (fun a => readAny fu f (JObject a))
                                 (fun o n => readAny fu f (JMore (fst k) (snd k) o n)) in
      match j with
      | JObject a =>
          let x := envOf (headerKind f a) in
          let* st := readObjectHeader (handle x) f a st in dumpObject x st
      | JHeader a => readObjectHeader (handle (envOf (headerKind f a))) f a st
      | JMore version flags offset size =>
          readContinuation (handle (envOf (version, flags))) f version flags offset size st
      end
  end.
(** the same with the surroundings of an object's header by name *)
Definition envAt (fu : nat) (f : bytes) (k : Z * Z) : env :=
  mkEnv f (fun a => readAny fu f (JObject a)) (fun o n => readAny fu f (JMore (fst k) (snd k) o n)).
Definition readObj (fuel : nat) (f : bytes) (addr : Z) (st : rstate) : res rstate :=
  readAny fuel f (JObject addr) st.

(** hdf5.go:2393-2423.  The superblock extension's header is read into an object of its own. *)
Definition openFile (f : bytes) : res robj :=
  let fuel := S (S (List.length f)) in
  let new := mkRst (newObject [] 0) [] [] in
  let* root := readSuperblock (fun a => let* _ := readAny fuel f (JHeader a) new in Ok tt) f in
  if root =? invalidAddress then Err EInternal
  else
    let* st := readAny fuel f (JHeader root) new in
    let* st := dumpObject (envAt fuel f (headerKind f root)) (with_info st (set_group true (rs_info st))) in
    Ok (RObj (rs_info st) (rs_children st)).

(** ** The calls on a group: a handle is the group's name, with slashes, and its object *)
Record rhandle : Type := mkRh { rh_name : bytes; rh_obj : robj }.

Fixpoint rdepth (o : robj) : nat :=
  match o with RObj _ c => S (fold_right (fun p m => Nat.max (rdepth (snd p)) m) O c) end.
(** hdf5.go:2344-2362, as in H5PathModel *)
Fixpoint rdescend (fuel : nat) (groupName : bytes) (o : robj) (group : bytes) : option robj :=
  match fuel with
  | O => None
  | S f =>
      if negb (ri_group (r_info o)) then None
      else if beqb group groupName then Some o
      else
        match split (zdrop (zlen group) groupName) with
        | c :: _ =>
            match assoc c (r_children o) with
            | Some o' => rdescend f groupName o' (group ++ c ++ [slash])
            | None => None
            end
        | [] => None
        end
  end.
(** hdf5.go:2324-2375 *)
Definition rgetGroup (root : robj) (h : rhandle) (p : bytes) : res rhandle :=
  let group := canonicalizePath p in
  let '(groupName, toDescend, start) :=
    if has_slash group
    then (if beqb group [slash] then [slash] else group ++ [slash], root, [slash])
    else (rh_name h ++ group ++ [slash], rh_obj h, rh_name h) in
  match rdescend (rdepth toDescend) groupName toDescend start with
  | None => Err ENotFound
  | Some o => Ok (mkRh groupName o)
  end.

(** strings.HasPrefix *)
Fixpoint hasPrefix (s p : bytes) : bool :=
  match p, s with
  | [], _ => true
  | y :: p', x :: s' => (x =? y) && hasPrefix s' p'
  | _ :: _, [] => false
  end.
Definition dimMarker : bytes := bs "This is a netCDF dimension".

(** hdf5.go:2858-2890 *)
Definition hasClass (l : list rattr) : bool := existsb (fun a => beqb (ra_name a) (bs "CLASS")) l.
Definition hasName (l : list rattr) : bool :=
  existsb (fun a => beqb (ra_name a) (bs "NAME") &&
                    match ra_val a with Some (HStr v) => negb (hasPrefix v dimMarker) | _ => false end) l.
Definition hasCoordinates (l : list rattr) : bool :=
  existsb (fun a => beqb (ra_name a) (bs "_Netcdf4Coordinates")) l.
Definition isDimensionScale (l : list rattr) : bool :=
  hasClass l && negb (hasCoordinates l) && negb (hasName l).

(** hdf5.go:2892-2906 *)
Definition findVariable (h : rhandle) (name : bytes) : option robj :=
  match assoc name (r_children (rh_obj h)) with
  | None => None
  | Some o =>
      if isDimensionScale (r_attrs o) then None
      else match ri_dims (r_info o) with None => None | Some _ => Some o end
  end.

(** hdf5.go:3409-3428 *)
Fixpoint lvDescend (h : rhandle) (o : robj) (group : bytes) : list bytes :=
  match o with
  | RObj _ cs =>
      (fix go (cs : list (bytes * robj)) : list bytes :=
         match cs with
         | [] => []
         | (n, c) :: r =>
             (if beqb group (rh_name h) && negb (beqb n [])
              then match findVariable h n with Some _ => [n] | None => [] end
              else lvDescend h c (group ++ n ++ [slash])) ++ go r
         end) cs
  end.
Definition listVariables (root : robj) (h : rhandle) : list bytes := lvDescend h root [slash].

(** hdf5.go:3358-3382; a slash in what is left of the name makes the assertion fail, which no
    one recovers from *)
Fixpoint sgList (groupName : bytes) (o : robj) (group : bytes) : res (list bytes) :=
  match o with
  | RObj i cs =>
      if negb (ri_group i) then Ok []
      else if negb (beqb group groupName) && hasPrefix group groupName then
        let tail := zdrop (zlen groupName) group in
        let tail := ztake (zlen tail - 1) tail in
        if existsb (Z.eqb slash) tail then Panic else Ok [tail]
      else
        (fix go (cs : list (bytes * robj)) : res (list bytes) :=
           match cs with
           | [] => Ok []
           | (n, c) :: r =>
               let* a := sgList groupName c (group ++ n ++ [slash]) in
               let* b := go r in
               Ok (a ++ b)
           end) cs
  end.
Definition listSubgroups (root : robj) (h : rhandle) : res (list bytes) := sgList (rh_name h) root [slash].

(** hdf5.go:3030-3043 *)
Definition isDimension (o : robj) : bool :=
  negb (ri_group (r_info o)) && hasClass (r_attrs o) &&
  (hasName (r_attrs o) || negb (hasCoordinates (r_attrs o))).
Definition listDimensions (h : rhandle) : list bytes :=
  flat_map (fun c => if isDimension (snd c) then [fst c] else []) (r_children (rh_obj h)).
(** hdf5.go:3047-3058; a scalar, or something without a dataspace, has no first dimension *)
Definition getDimension (h : rhandle) (name : bytes) : res (option Z) :=
  match assoc name (r_children (rh_obj h)) with
  | Some o => if isDimension o
              then match ri_dims (r_info o) with Some (n :: _) => Ok (Some n) | _ => Panic end
              else Ok None
  | None => Ok None
  end.
(** hdf5.go:3011-3027 *)
Definition listTypes (h : rhandle) : list bytes :=
  flat_map (fun c => if ri_group (r_info (snd c)) || isDimensionScale (r_attrs (snd c)) then []
                     else match ri_dims (r_info (snd c)) with Some _ => [] | None => [fst c] end)
    (r_children (rh_obj h)).

(** ** Attributes and variables *)

(** hdf5.go:3085-3099 and 3110-3117: parseAttr, and for an attribute without data zeros.  An
    attribute with data is filled up with zeros, there being no fill value. *)
Definition attrValue (f : bytes) (a : rattr) : res hval :=
  match ra_val a with
  | Some v => Ok v
  | None =>
      let sz := i64 (calcAttrSize (ra_dims a) (dlen (ra_ty a))) in
      let df := match ra_df a with Some b => b | None => [] end in
      let* (v, _) := alloc (readGlobalHeap f) (ra_ty a) (ra_dims a) (ztake sz (df ++ zrep (sz - zlen df) 0)) in
      Ok v
  end.
(** parseAttr alone *)
Definition parseAttr (f : bytes) (a : rattr) : res (option hval) :=
  match ra_df a with
  | Some _ => let* v := attrValue f a in Ok (Some v)
  | None => Ok (ra_val a)
  end.

(** hdf5.go:3133-3157.  The element of a compound of one field is a struct that no value here
    stands for. *)
Fixpoint undoScalarAttribute (v : hval) : hval :=
  match v with
  | HEnum w names vals => HEnum (undoScalarAttribute w) names vals
  | HSlice _ [x] => x
  | HComp [_] => HOther
  | _ => v
  end.

Definition hiddenNames : list bytes :=
  [bs "_Netcdf4Dimid"; bs "_Netcdf4Coordinates"; bs "DIMENSION_LIST"; bs "NAME"; bs "REFERENCE_LIST"; bs "CLASS"].

(** hdf5.go:3101-3131; [_NCProperties] can be got but is not among the keys.  Simplification: the keys are in
    the order of the attributes; the code takes them from a Go map in random order (hdf5.go:3123-3126). *)
Fixpoint filtered (f : bytes) (l : list rattr) (m : hattrs) : res hattrs :=
  match l with
  | [] => Ok m
  | a :: r =>
      if mem (ra_name a) hiddenNames then filtered f r m
      else let* v := attrValue f a in filtered f r (assoc_set (ra_name a) (undoScalarAttribute v) m)
  end.
Definition getAttributes (f : bytes) (l : list rattr) : res (omap hval) :=
  let* m := filtered f l [] in
  let* om := new_ordered_map (map fst m) m in
  Ok (om_hide om ncpKey).

(** hdf5.go:3384-3395.  Simplification: the sort is stable; sort.Slice keeps sorted lists and
    lists of up to 12 elements stable, else promises nothing for equal creation orders. *)
Fixpoint insertAttr (a : rattr) (l : list rattr) : list rattr :=
  match l with
  | [] => [a]
  | b :: r => if ra_co a <=? ra_co b then a :: l else b :: insertAttr a r
  end.
Definition sortAttrs (l : list rattr) : list rattr := fold_right insertAttr [] l.
Definition sortAttrList (f : bytes) (l : list rattr) : res (list rattr) :=
  let* _ := rmapM (parseAttr f) l in Ok (sortAttrs l).

(** hdf5.go:2847-2852 *)
Definition groupAttributes (f : bytes) (h : rhandle) : res (omap hval) :=
  let* l := sortAttrList f (r_attrs (rh_obj h)) in
  getAttributes f l.

(** hdf5.go:3162-3177; the root is at address 0 in the index *)
Fixpoint addrIndex (o : robj) : list (Z * bytes) :=
  match o with
  | RObj i cs =>
      (ri_addr i, ri_name i) ::
      (fix go (cs : list (bytes * robj)) : list (Z * bytes) :=
         match cs with [] => [] | (_, c) :: r => addrIndex c ++ go r end) cs
  end.

(** a.value.([][]uint64) *)
Definition asRefs (v : option hval) : res (list Z) :=
  match v with
  | Some (HSlice (TSlice (TNum U64)) l) =>
      Ok (flat_map (fun x => match x with
                             | HSlice _ ys => flat_map (fun y => match y with HNum _ z => [z] | _ => [] end) ys
                             | _ => []
                             end) l)
  | _ => Panic
  end.
(** a.value.([]compound) and what is asserted about its elements *)
Definition refEntry (v : hval) : bool :=
  match v with
  | HComp ((_, HNum U64 _) :: (_, HNum I32 _) :: _) | HComp ((_, HNum U64 _) :: (_, HNum U32 _) :: _) => true
  | _ => false
  end.
Definition asRefList (v : option hval) : res unit :=
  match v with
  | Some (HSlice TComp l) => if forallb refEntry l then Ok tt else Panic
  | _ => Panic
  end.

(** hdf5.go:3181-3201 *)
Fixpoint dimListNames (f : bytes) (ix : list (Z * bytes)) (l : list rattr) : res (list bytes) :=
  match l with
  | [] => Ok []
  | a :: r =>
      let* v := parseAttr f a in
      let* here := (if beqb (ra_name a) (bs "DIMENSION_LIST") then
                      let* refs := asRefs v in
                      Ok (flat_map (fun x => match zassoc x ix with
                                             | Some (c :: n) => [c :: n]
                                             | _ => []
                                             end) refs)
                    else Ok []) in
      let* more := dimListNames f ix r in
      Ok (here ++ more)
  end.
(** hdf5.go:3206-3232 *)
Fixpoint scanRefLists (f : bytes) (o : robj) : res unit :=
  match o with
  | RObj i cs =>
      let* _ := rmapM (fun a => let* v := parseAttr f a in
                                if beqb (ra_name a) (bs "REFERENCE_LIST") then asRefList v else Ok tt)
                  (ri_attrs i) in
      (fix go (cs : list (bytes * robj)) : res unit :=
         match cs with [] => Ok tt | (_, c) :: r => let* _ := scanRefLists f c in go r end) cs
  end.
(** hdf5.go:3233-3244 *)
Fixpoint nameOfScale (f : bytes) (l : list rattr) : res (list bytes) :=
  match l with
  | [] => Ok []
  | a :: r =>
      let* v := parseAttr f a in
      if beqb (ra_name a) (bs "NAME") then
        match v with
        | Some (HStr s) => if hasPrefix s dimMarker then nameOfScale f r else Ok [s]
        | _ => Panic
        end
      else nameOfScale f r
  end.
(** hdf5.go:3179-3246; [l] are the attributes of the object *)
Definition getDimensions (f : bytes) (root : robj) (l : list rattr) : res (list bytes) :=
  let* names := dimListNames f (addrIndex root) l in
  match names with
  | _ :: _ => Ok names
  | [] => let* _ := scanRefLists f root in nameOfScale f l
  end.

(** makeFillValueReader, hdf5.go:2659-2690, and the default of each type: fixedPoint.go:78-127,
    floatingPoint.go:59-83, string.go:29-32, vlen.go:93-95; the others return what they get.
    Patterns of zeros are written as one zero. *)
Definition undefinedFill (t : dty) : bytes :=
  let e (big : bool) (n : nat) (v : Z) := if big then rev (le n v) else le n v in
  match t with
  | DFixed 1 true big => e big 1%nat FillByte
  | DFixed 1 false big => e big 1%nat FillUByte
  | DFixed 2 sg big => e big 2%nat (if sg then FillShort else FillUShort)
  | DFixed 4 sg big => e big 4%nat (if sg then FillInt else FillUInt)
  | DFixed 8 sg big => e big 8%nat (if sg then FillInt64 else FillUInt64)
  | DFloat 4 big => e big 4%nat FillFloat
  | DFloat 8 big => e big 8%nat FillDouble
  | DString _ | DVlen _ _ _ => [0]
  | _ => [255]
  end.
Definition fillOf (i : rinfo) (t : dty) : bytes :=
  match ri_fill i, ri_fillOld i with
  | Some None, _ => undefinedFill t
  | Some (Some (c :: v)), _ | None, Some (c :: v) => c :: v
  | _, _ => [0]
  end.
(** The object as the data reader sees it; there are no filters *)
Definition dset_of (i : rinfo) (dims : list Z) (t : dty) : dset :=
  mkDset dims (ri_layout i) t (ri_btree i) (ri_elem i) (ri_number i) (ri_rank i) (fillOf i t)
    (fun _ b => Ok b) true.
Definition data_modelled (i : rinfo) : bool :=
  match ri_filters i, ri_fill i, ri_fillOld i with
  | _ :: _, _, _ | [], None, Some [] => false
  | _, _, _ => true
  end.

Record rvar : Type := mkRvar { rv_val : hval; rv_dims : list bytes; rv_attrs : omap hval }.

(** hdf5.go:3249-3270.  A dataspace without a datatype has class 0 and length 0, which the
    allocation of fixed-point numbers refuses. *)
Definition getVariable (f : bytes) (root : robj) (h : rhandle) (name : bytes) : res rvar :=
  match findVariable h name with
  | None => Err ENotFound
  | Some o =>
      let i := r_info o in
      match ri_dims i with
      | None => Err ENotFound
      | Some dims =>
          if negb (data_modelled i) then Err ENotModelled else
          let* v := match ri_ty i with
                    | Some t => let d := dset_of i dims t in
                                fst (getData f (readGlobalHeap f) d true (opened d (ri_blocks i)))
                    | None => Err EInternal
                    end in
          let* l := sortAttrList f (ri_attrs i) in
          let* ds := getDimensions f root l in
          let* a := getAttributes f l in
          Ok (mkRvar v ds a)
      end
  end.
