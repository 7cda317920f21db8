(** How the filters of the HDF5 format make the stored bytes of a chunk from its data: HDF5 File Format
    Specification, version 3.0, III.A.1 (filter mask), IV.A.2.l.  Written without the reader. *)
From Verif Require Import Prelude ArraySpec ChunkSpec RecordSpec H5Value MetaSpec DenseSpec FilterSpec ForeignSpec ForeignTypeSpec
  ForeignMsgSpec ForeignDataSpec.

(** A filter that was used *)
Inductive step : Type := Deflated | Shuffled (n : Z) | Checked.

Section Filters.
  (** [deflated d s]: [s] is a zlib stream of the data [d] *)
  Variable deflated : bytes -> bytes -> Prop.

  (** Filter [j] and those after it make [s] of [d], if bit [j] of the mask does not say that it was left
      out; the list has each filter that was used and what it was used on. *)
  Inductive encoded (mask : Z) : Z -> list filter_desc -> bytes -> list (step * bytes) -> bytes -> Prop :=
  | enc_end j d : encoded mask j [] d [] d
  | enc_left_out j x l d tr s : Z.testbit mask j = true -> encoded mask (j + 1) l d tr s -> encoded mask j (x :: l) d tr s
  | enc_deflate j x l d d' tr s : Z.testbit mask j = false -> fd_id x = 1 -> deflated d d' ->
      encoded mask (j + 1) l d' tr s -> encoded mask j (x :: l) d ((Deflated, d) :: tr) s
  | enc_shuffle j x l d n ns tr s : Z.testbit mask j = false -> fd_id x = 2 -> fd_vals x = n :: ns ->
      encoded mask (j + 1) l (shuffle (Z.to_nat n) d) tr s -> encoded mask j (x :: l) d ((Shuffled n, d) :: tr) s
  | enc_checksum j x l d tr s : Z.testbit mask j = false -> fd_id x = 3 -> are_bytes d ->
      encoded mask (j + 1) l (d ++ le 4 (fletcher32 d)) tr s -> encoded mask j (x :: l) d ((Checked, d) :: tr) s.

  (** The pipelines that the reader undoes: whole elements are shuffled; no half of a checksum is 0xFFFF;
      what is shuffled and then checked at once has an even length; after compression there is
      nothing but checksums. *)
  Definition sum_plain (d : bytes) : Prop :=
    fletcher32 d mod 2 ^ 16 <> 0xFFFF /\ fletcher32 d / 2 ^ 16 <> 0xFFFF.
  Fixpoint only_checked (tr : list (step * bytes)) : Prop :=
    match tr with
    | [] => True
    | (Checked, d) :: r => sum_plain d /\ only_checked r
    | _ => False
    end.
  Fixpoint undoable (shuffled : bool) (tr : list (step * bytes)) : Prop :=
    match tr with
    | [] => True
    | (Deflated, d) :: r => only_checked r
    | (Shuffled n, d) :: r => 1 <= n /\ (n | zlen d) /\ undoable true r
    | (Checked, d) :: r => sum_plain d /\ (shuffled = true -> zlen d mod 2 = 0) /\ undoable shuffled r
    end.

  (** The chunk [c] of the index has the data [x]; sizes of chunks are numbers of 32 bits *)
  Definition chunk_is (f : bytes) (fs : list filter_desc) (shape : list Z) (dt : Z) (c : key * Z) (x : bytes) : Prop :=
    zlen x = volume shape * dt /\ zlen x < 2 ^ 32 /\
    exists tr s, encoded (k_mask (fst c)) 0 fs x tr s /\ undoable false tr /\
      has_at f (snd c) s /\ zlen s = k_size (fst c) /\ s <> [].

  (** The elements are in their chunks, or else have the fill value *)
  Definition in_filtered (f : bytes) (fs : list filter_desc) (dims shape : list Z) (dt : Z) (fill : option bytes)
      (t : itree) (b : bytes) : Prop :=
    zlen b = volume dims * dt /\ exists xs, Forall2 (chunk_is f fs shape dt) (ichunks t) xs /\
    forall idx, in_shape dims idx ->
      (forall c x, In (c, x) (combine (ichunks t) xs) -> chunk_of shape (k_index (fst c)) = chunk_of shape idx ->
         element dt x (offset shape (within shape idx)) = element dt b (offset dims idx)) /\
      ((forall addr, ~ chunk_has shape t idx addr) -> exists v, fill = Some v /\ zlen v = dt /\ element dt b (offset dims idx) = v).

  (** The data [b] of a dataset with filters are stored as its layout says *)
  Inductive filtered_as (f : bytes) (fs : list filter_desc) (dims : list Z) (dt : Z) (fill : option bytes) : place -> bytes -> Prop :=
  | as_no_filtered shape b : chunks_fit dims shape dt -> orderly dims shape -> filled dims dt fill b ->
      filtered_as f fs dims dt fill (Chunked None shape dt) b
  | as_filtered a shape t b : chunks_fit dims shape dt -> orderly dims shape -> index_is f a dims shape t ->
      in_filtered f fs dims shape dt fill t b -> filtered_as f fs dims dt fill (Chunked (Some a) shape dt) b.
End Filters.

(** As [dataset_told], for a dataset with the filters [fs] *)
Definition filtered_told (l : list fmsg) (fs : list filter_desc) (t : fty) (p : place) (fill : option bytes) : Prop :=
  exists l1 l2 tb tpad pb ppad fb fpad, l = l1 ++ l2 /\
    of_type 3 l1 = [tb ++ zrep tpad 0] /\ of_type 3 l2 = [] /\ of_type 8 l1 = [] /\ of_type 8 l2 = [pb ++ zrep ppad 0] /\
    of_type 11 l = [fb ++ zrep fpad 0] /\ filters_are fb fs /\ Forall known_filter fs /\
    type_is known_version t tb /\ few_members t /\ opaque_last t /\ place_is pb p /\ fill_told l t fill.
Definition filtered_at (f : bytes) (other : Z -> bytes -> Prop) (a : Z) (fs : list filter_desc) (dims : list Z) (t : fty) (p : place)
    (fill : option bytes) : Prop :=
  exists c l b, messages_are f c a l /\
    Forall (fun m => fm_type m = 1 \/ fm_type m = 21 \/ plain other [0; 3; 4; 5; 8; 11; 12; 13; 14; 18; 22] m) l /\
    of_type 1 l = [b] /\ dataspace b dims /\ stored_attrs f other l /\ filtered_told l fs t p fill.

(** The zlib streams (RFC 1950) of one stored block (RFC 1951, 3.2.4) *)
Definition adler32 (d : bytes) : Z :=
  let s := fold_left (fun s x => let a := (fst s + x) mod 65521 in (a, (snd s + a) mod 65521)) d (1, 0) in
  snd s * 2 ^ 16 + fst s.
Definition stored_stream (d s : bytes) : Prop :=
  zlen d < 2 ^ 16 /\ s = [0x78; 0x01; 1] ++ le 2 (zlen d) ++ le 2 (65535 - zlen d) ++ d ++ be 4 (adler32 d).
