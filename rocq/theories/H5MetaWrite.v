(** The metadata blocks the HDF5 writer emits: netcdf/hdf5/hdf5writer.go and
    netcdf/hdf5/writer_utils.go, superblock, object headers, links, dataspaces, layouts and
    the global heap.  A bytes.Buffer is the list of the bytes written so far. *)
From Verif Require Import Prelude GoVal H5ChecksumModel.

(** hdf5.go:25 *)
Definition h5_magic : bytes := [137; 72; 68; 70; 13; 10; 26; 10].
(** hdf5.go:28 *)
Definition invalidAddress : Z := 2 ^ 64 - 1.

(** hdf5writer.go:364-379, writeSuperblockV2 *)
Definition superblockV2 : bytes :=
  h5_magic ++ [2; 8; 8; 0] ++ le 8 0 ++ le 8 invalidAddress ++ le 8 0 ++ le 8 0 ++ le 4 0.

(** binary.LittleEndian.PutUint64(data[off:], v) and the like: overwrite in place; the slice
    expression panics if the buffer is too short *)
Definition put_at (off : Z) (b data : bytes) : res bytes :=
  if off + zlen b <=? zlen data
  then Ok (ztake off data ++ b ++ zdrop (off + zlen b) data)
  else Panic.

(** hdf5writer.go:100-109, the end of Close: patch the end of file address, the root address
    and the checksum into the superblock *)
Definition finalize (data : bytes) (rootAddr : Z) : res bytes :=
  let eofAddr := u64 (zlen data) in
  let* data := put_at 28 (le 8 eofAddr) data in
  let* data := put_at 36 (le 8 rootAddr) data in
  let* c := checksum (ztake 44 data) in
  put_at 44 (le 4 c) data.

(** hdf5writer.go:48-52 *)
Record h5msg : Type := mkMsg { m_type : Z; m_data : bytes; m_flags : Z }.
Definition msg (t : Z) (d : bytes) : h5msg := mkMsg t d 0.

(** hdf5writer.go:457-462 *)
Definition msg_bytes (m : h5msg) : bytes :=
  u8 (m_type m) :: le 2 (u16 (zlen (m_data m))) ++ m_flags m :: m_data m.

(** hdf5writer.go:468-484: the null message that fills the block up to a multiple of 8 *)
Definition null_pad (len : Z) : bytes :=
  let remainder := len mod 8 in
  if remainder =? 0 then []
  else
    let pad := 8 - remainder in
    let pad := if pad <? 4 then pad + 8 else pad in
    0 :: le 2 (pad - 4) ++ 0 :: zrep (pad - 4) 0.

(** hdf5writer.go:450-490, writeObjectHeaderV2 *)
Definition ohdr_body (messages : list h5msg) : bytes :=
  let m := flat_map msg_bytes messages in m ++ null_pad (zlen m).
Definition objectHeaderV2 (messages : list h5msg) : res bytes :=
  let body := ohdr_body messages in
  let oh := bs "OHDR" ++ [2; 2] ++ le 4 (u32 (zlen body)) ++ body in
  let* c := checksum oh in
  Ok (oh ++ le 4 c).

(** hdf5writer.go:421-428 *)
Definition buildLinkInfoMessage : h5msg :=
  msg 2 ([0; 0] ++ le 8 invalidAddress ++ le 8 invalidAddress).
(** hdf5writer.go:326 *)
Definition groupInfoMessage : h5msg := msg 10 [0; 0].
(** hdf5writer.go:430-439 *)
Definition buildLinkMessage (name : bytes) (addr : Z) : h5msg :=
  msg 6 ([1; 0; u8 (zlen name)] ++ name ++ le 8 addr).
(** hdf5writer.go:441-448 *)
Definition buildLayoutMessageV2 (addr size : Z) : bytes :=
  [3; 1] ++ le 8 addr ++ le 8 size.
(** writer_utils.go:12-33 *)
Definition buildDataspaceMessage (dims : list Z) : bytes :=
  [1; u8 (zlen dims); 0] ++ [0] ++ zrep 4 0 ++ flat_map (le 8) dims.

(** The zero bytes that bring a buffer of [n] bytes to a multiple of 8 *)
Definition pad8 (n : Z) : bytes := zrep ((8 - n mod 8) mod 8) 0.

(** hdf5writer.go:962-972, the objects of the collection; [n] is the number of bytes already
    in the buffer, [i] the number of objects already written *)
Fixpoint heap_objects (n i : Z) (objs : list bytes) : bytes :=
  match objs with
  | [] => []
  | o :: r =>
      let e := le 2 (u16 (i + 1)) ++ le 2 0 ++ le 4 0 ++ le 8 (zlen o) ++ o in
      let e := e ++ pad8 (n + zlen e) in
      e ++ heap_objects (n + zlen e) (i + 1) r
  end.

(** hdf5writer.go:944-998, writeGlobalHeap: what is appended to a buffer of [n] bytes, and the
    address of the heap *)
Definition globalHeap (n : Z) (objs : list bytes) : Z * bytes :=
  let addr := n + zlen (pad8 n) in
  let o := heap_objects (addr + 16) 0 objs in
  let currentSize := 16 + zlen o in
  let totalSize := currentSize + 16 in
  let totalSize := if totalSize <? 4096 then 4096 else totalSize in
  let freeEntrySize := totalSize - currentSize in
  let free := le 2 0 ++ le 2 0 ++ le 4 0 ++ le 8 freeEntrySize ++ zrep (freeEntrySize - 16) 0 in
  let finalSize := 16 + zlen o + zlen free in
  (addr, pad8 n ++ bs "GCOL" ++ [1; 0; 0; 0] ++ le 8 finalSize ++ o ++ free).
