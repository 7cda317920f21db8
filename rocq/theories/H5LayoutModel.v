(** Chunked datasets: netcdf/hdf5/readers.go:337-542 (sizes, chunk placement and the reader that
    puts chunks back into row-major order).

    [dims] is attr.dimensions, [layout] the chunk shape attr.layout (both of the same length),
    [dt] the element size attr.length.  Simplifications: a chunk extent of zero (division by zero
    in Go) is not represented; int is 64 bits wide and the int conversions in fillrow, where all
    numbers are sizes of buffers that were allocated, do not wrap. *)
From Verif Require Import Prelude H5Base.

(** (d + l - 1) / l in uint64 *)
Definition cdiv (d l : Z) : Z := u64 (d + l - 1) / l.
Fixpoint zip {A B C} (f : A -> B -> C) (a : list A) (b : list B) : list C :=
  match a, b with x :: a', y :: b' => f x y :: zip f a' b' | _, _ => [] end.
Definition prod64 (l : list Z) : Z := fold_left (fun a x => u64 (a * x)) l 1.

(** readers.go:348-354 *)
Definition calcChunkSize (layout : list Z) : Z := prod64 layout.
(** readers.go:372-378 *)
Definition calcDataSize (dims : list Z) : Z := prod64 dims.
(** readers.go:358-370 *)
Definition calcAttrSize (dims layout : list Z) (dt : Z) : Z :=
  match layout with
  | [] => u64 (calcDataSize dims * dt)
  | _ => u64 (u64 (prod64 (zip cdiv dims layout) * calcChunkSize layout) * dt)
  end.

(** readers.go:380-400 *)
Fixpoint flatIndex (offsets dims layout : list Z) : Z :=
  match offsets, dims, layout with
  | o :: os, d :: ds, l :: ls =>
      u64 (u64 (o / l * prod64 (zip cdiv ds ls)) + flatIndex os ds ls)
  | _, _, _ => 0
  end.
Definition calculateFlatOffset (offsets dims layout : list Z) (dt : Z) : Z :=
  u64 (u64 (flatIndex offsets dims layout * prod64 layout) * dt).

(** hdf5.go:2642-2657 *)
Definition needsLayoutReader (dims layout : list Z) : bool :=
  match layout with
  | [] => false
  | _ => existsb (fun b => b) (zip (fun d l => negb (d mod l =? 0)) dims layout) ||
         existsb (fun l => negb (l =? 1)) (removelast layout)
  end.

(** The loops that take an index apart, last extent first (readers.go:420-425, 466-469);
    also what is left over *)
Fixpoint decode (ext : list Z) (n : Z) : list Z * Z :=
  match ext with
  | [] => ([], n)
  | g :: r => let '(cs, t) := decode r n in (t mod g :: cs, t / g)
  end.
(** readers.go:484-489, and the last stride *)
Fixpoint encode (ext : list Z) (idx : list Z) : Z * Z :=
  match ext, idx with
  | v :: vs, d :: ds => let '(x, s) := encode vs ds in (x + d * s, s * v)
  | _, _ => (0, 1)
  end.

Definition product (l : list Z) : Z := fold_right Z.mul 1 l.
Definition zseq (n : Z) : list Z := map Z.of_nat (seq 0 (Z.to_nat n)).

(** readers.go:431-439: end - start *)
Fixpoint validCounts (dims layout coords : list Z) : list Z :=
  match dims, layout, coords with
  | d :: ds, l :: ls, c :: cs =>
      let start := c * l in
      let end_ := if d <? start + l then d else start + l in
      (end_ - start) :: validCounts ds ls cs
  | _, _, _ => []
  end.
(** readers.go:471-478 *)
Fixpoint isValid (dims layout coords delta : list Z) : bool :=
  match dims, layout, coords, delta with
  | d :: ds, l :: ls, c :: cs, x :: xs => (c * l + x <? d) && isValid ds ls cs xs
  | _, _, _, _ => true
  end.

(** copy(buf[off:off+n], src[so:so+n]) with the slice bounds checks *)
Definition copy_range (buf : bytes) (off : Z) (src : bytes) (so n : Z) : res bytes :=
  if (0 <=? n) && (0 <=? off) && (off + n <=? zlen buf) && (0 <=? so) && (so + n <=? zlen src)
  then Ok (ztake off buf ++ ztake n (zdrop so src) ++ zdrop (off + n) buf)
  else Panic.

Fixpoint foldM {A B} (f : A -> B -> res A) (l : list B) (a : A) : res A :=
  match l with [] => Ok a | x :: r => let* a' := f a x in foldM f r a' end.

(** readers.go:463-501: row [rc] of chunk [gc].  [lead]: all but the last dimension *)
Definition copyRow (dims layout coords valid : list Z) (lineLen L dt gc : Z) (chunk : bytes)
    (buf : bytes) (rc : Z) : res bytes :=
  let '(delta, _) := decode layout rc in
  if negb (isValid dims layout coords delta) then Ok buf
  else
    let destRow := fst (encode valid delta) in
    let destCol := gc * L in
    if lineLen <=? destCol then Ok buf
    else
      let copyLen := if lineLen <? destCol + L then lineLen - destCol else L in
      copy_range buf ((destRow * lineLen + destCol) * dt) chunk (rc * L * dt) (copyLen * dt).

(** The state of the reader: what the reader below still delivers, lr.buf, lr.stripeIndex *)
Record lreader : Type := mkLR { lr_r : bytes; lr_buf : bytes; lr_stripe : Z }.

(** readers.go:402-504; [None] is io.EOF after the last stripe *)
Definition fillrow (dims layout : list Z) (dt : Z) (s : lreader) : res (option lreader) :=
  match dims with
  | [] => Panic   (* make([]int, -1) *)
  | _ =>
      let lead := removelast dims in
      let llead := removelast layout in
      let g := zip cdiv dims layout in
      let glead := removelast g in
      let lineLen := last dims 0 in
      let L := last layout 0 in
      if product glead <=? lr_stripe s then Ok None
      else
        let '(coords, _) := decode glead (lr_stripe s) in
        let valid := validCounts lead llead coords in
        let buf0 := zrep (product valid * lineLen * dt) 0 in
        let* (buf, r) :=
          foldM (fun (st : bytes * bytes) gc =>
                   let* (chunk, r) := rd (product layout * dt) (snd st) in
                   let* buf := foldM (copyRow lead llead coords valid lineLen L dt gc chunk)
                                     (zseq (product llead)) (fst st) in
                   Ok (buf, r))
                (zseq (last g 0)) (buf0, lr_r s) in
        Ok (Some (mkLR r buf (lr_stripe s + 1)))
  end.

(** readers.go:506-519: the bytes read, [None] at the end *)
Definition lr_read (dims layout : list Z) (dt : Z) (s : lreader) (n : Z) : res (option (bytes * lreader)) :=
  let* s1 := (if zlen (lr_buf s) =? 0 then fillrow dims layout dt s else Ok (Some s)) in
  match s1 with
  | None => Ok None
  | Some s1 => Ok (Some (ztake n (lr_buf s1), mkLR (lr_r s1) (zdrop n (lr_buf s1)) (lr_stripe s1)))
  end.

(** A consumer that asks for [sizes] in turn: what it gets, [None] once the end is reached *)
Fixpoint lr_reads (dims layout : list Z) (dt : Z) (s : lreader) (sizes : list Z) : res (list (option bytes)) :=
  match sizes with
  | [] => Ok []
  | n :: r =>
      let* x := lr_read dims layout dt s n in
      match x with
      | None => let* xs := lr_reads dims layout dt s r in Ok (None :: xs)
      | Some (b, s') => let* xs := lr_reads dims layout dt s' r in Ok (Some b :: xs)
      end
  end.

(** readers.go:529-532 *)
Definition newLayoutReader (r : bytes) : lreader := mkLR r [] 0.
