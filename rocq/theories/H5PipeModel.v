(** The filters of a chunk undone: netcdf/hdf5/hdf5.go:2542-2590, and the data of a variable read
    through them (3249-3270).

    Simplifications: compress/zlib is the function [inflate] from the bytes of a stream to the bytes it
    delivers, which the theorems quantify over; a filter asks for all that the filter below delivers, in one
    Read, and looks at the checksum when that is done, where in Go it is not looked at if less is asked for;
    the errors of creating the readers come in the order of the Reads. *)
From Verif Require Import Prelude GoVal H5Base H5MetaRead H5Value H5TypeRead H5LayoutModel H5RecordModel H5FilterModel
  H5PathModel H5FileRead.

Section Pipe.
  Variable inflate : bytes -> res bytes.

  (** hdf5.go:2549, 2560: filterMask has 32 bits *)
  Definition masked (mask j : Z) : bool := Z.testbit mask j.

  (** hdf5.go:2545-2554: the size of the data before each filter *)
  Fixpoint targetSizes (mask j curr : Z) (l : list (Z * list Z)) : list Z :=
    match l with
    | [] => []
    | (kind, _) :: r =>
        curr :: targetSizes mask (j + 1) (if negb (masked mask j) && (kind =? 3) then u64 (curr + 4) else curr) r
    end.

  (** What a reader delivers until its end.  The argument tells if it is asked for 0 bytes once
      more, as readAll (2456-2474) does; only the checksum reader minds. *)
  Definition reader : Type := bool -> res bytes.

  (** hdf5.go:2562-2588: a filter put around the reader, which has [inputSize] bytes *)
  Definition fletcherStage (r : reader) (size : Z) : reader := fun again =>
    let* b := r again in
    let* fl := fletcher32Reader b size in
    let* (outs, _) := fl_reads fl ((size - 4, size - 4) :: if again then [(0, 0)] else []) in
    Ok (List.concat outs).
  Definition deflateStage (r : reader) (target : Z) : reader := fun _ =>
    let* b := r false in
    let* x := inflate b in
    Ok (ztake (i64 target) x).
  Definition shuffleStage (r : reader) (target param : Z) : reader := fun _ =>
    let* b := r true in
    let* (out, _) := unsh_read (newUnshuffleReader b target param) target in
    Ok out.
  Definition stage (kind : Z) (cdv : list Z) (target : Z) (st : reader * Z) : reader * Z :=
    let (r, inputSize) := st in
    if kind =? 3 then (fletcherStage r inputSize, u64 (inputSize - 4))
    else if kind =? 1 then (deflateStage r target, target)
    else if kind =? 2 then (shuffleStage r target (match cdv with c :: _ => c | [] => 0 end), target)
    else st.

  (** hdf5.go:2556-2590: from the last filter to the first *)
  Fixpoint stages (mask j : Z) (l : list (Z * list Z)) (targets : list Z) (st : reader * Z) : reader * Z :=
    match l, targets with
    | (kind, cdv) :: r, target :: ts =>
        let st := stages mask (j + 1) r ts st in
        if masked mask j then st else stage kind cdv target st
    | _, _ => st
    end.

  Definition undoFilters (l : list (Z * list Z)) (b : block) (bf : bytes) : res bytes :=
    fst (stages (b_mask b) 0 l (targetSizes (b_mask b) 0 (b_ds b) l) (fun _ => Ok bf, b_length b)) false.

  (** canSeek, 2526-2587; a chunk whose filters are all masked is skipped through, not sought, if its
      dataset has filters that others use: the bytes are the same *)
  Definition canSeek (l : list (Z * list Z)) : bool := forallb (fun x => fst x =? 3) l.

  Definition piped_dset (i : rinfo) (dims : list Z) (t : dty) : dset :=
    mkDset dims (ri_layout i) t (ri_btree i) (ri_elem i) (ri_number i) (ri_rank i) (fillOf i t)
      (undoFilters (ri_filters i)) (canSeek (ri_filters i)).

  (** Not the old fill value of no bytes, whose first one line 2666 asks for *)
  Definition fill_usable (i : rinfo) : bool :=
    match ri_fill i, ri_fillOld i with None, Some [] => false | _, _ => true end.

  (** Whether makeFillValueReader is called when the whole is read: hdf5.go:2498-2501, 2604-2628 and
      2698-2702.  Where a filter fails too, it does so first; in the code that depends on the filter. *)
  Fixpoint hasHole (l : list segment) (off : Z) : bool :=
    match l with
    | [] => false
    | s :: r => (off <? s_off s) || hasHole r (u64 (off + s_len s))
    end.
  Definition asksFill (f : bytes) (d : dset) (bl : list block) : res bool :=
    let size := d_size d in
    if size =? 0 then Ok false
    else
      let* bl := match bl with
                 | [] => if d_btree d =? 0 then Ok [] else readBTreeNode f d 0 size
                 | _ => Ok bl
                 end in
      match bl with
      | [] => Ok true
      | _ =>
          let* segs := readBlocks f d 0 size bl 0 in
          let '(_, off) := joinSegs (d_fill d) (sortSegs segs) 0 in
          let rem := if needsLayoutReader (d_dims d) (d_layout d)
                     then i64 (u64 (calcDataSize (d_dims d) * d_length d)) else i64 size in
          Ok (hasHole (sortSegs segs) 0 || (off <? size) || (rem <? i64 size))
      end.

  (** hdf5.go:3249-3270, as getVariable *)
  Definition getVariablePiped (f : bytes) (root : robj) (h : rhandle) (name : bytes) : res rvar :=
    match findVariable h name with
    | None => Err ENotFound
    | Some o =>
        let i := r_info o in
        match ri_dims i with
        | None => Err ENotFound
        | Some dims =>
            let* v := match ri_ty i with
                      | Some t => let d := piped_dset i dims t in
                                  let* lacks := if fill_usable i then Ok false else asksFill f d (ri_blocks i) in
                                  if lacks then Panic
                                  else fst (getData f (readGlobalHeap f) d true (opened d (ri_blocks i)))
                      | None => Err EInternal
                      end in
            let* l := sortAttrList f (ri_attrs i) in
            let* ds := getDimensions f root l in
            let* a := getAttributes f l in
            Ok (mkRvar v ds a)
        end
    end.
End Pipe.
