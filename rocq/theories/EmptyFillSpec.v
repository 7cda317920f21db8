(** Datasets with an old fill value message that has no value: HDF5 File Format Specification, version 3.0, IV.A.2.e
    (the size may be 0).  Written without the reader. *)
From Verif Require Import Prelude ArraySpec ChunkSpec RecordSpec MetaSpec ForeignSpec ForeignTypeSpec ForeignMsgSpec ForeignDataSpec.

(** As [dataset_at] of ForeignDataSpec, but for the fill value *)
Definition unfilled_at (f : bytes) (other : Z -> bytes -> Prop) (a : Z) (dims : list Z) (t : fty) (p : place) : Prop :=
  exists c l b, messages_are f c a l /\
    Forall (fun m => fm_type m = 1 \/ fm_type m = 21 \/ plain other [0; 3; 4; 5; 8; 11; 12; 13; 14; 18; 22] m) l /\
    of_type 1 l = [b] /\ dataspace b dims /\ stored_attrs f other l /\
    exists l1 l2 tb tpad pb ppad pad, l = l1 ++ l2 /\
      of_type 3 l1 = [tb ++ zrep tpad 0] /\ of_type 3 l2 = [] /\ of_type 8 l1 = [] /\ of_type 8 l2 = [pb ++ zrep ppad 0] /\
      of_type 11 l = [] /\ of_type 5 l = [] /\ of_type 4 l = [[0; 0; 0; 0] ++ zrep pad 0] /\
      type_is known_version t tb /\ few_members t /\ opaque_last t /\ place_is pb p.

(** Where all the data are in one piece, and where there are none *)
Definition in_one_piece (f : bytes) (p : place) (b : bytes) : Prop :=
  p = Compact b \/ exists a, p = Contiguous (Some a) (zlen b) /\ has_at f a b.
Definition nothing_stored (dims : list Z) (dt : Z) (p : place) : Prop :=
  (exists size, p = Contiguous None size) \/
  (exists shape, p = Chunked None shape dt /\ chunks_fit dims shape dt).

(** All elements are stored: in one piece, or in chunks that are all there and do not go beyond the dataset *)
Definition all_stored (f : bytes) (dims : list Z) (dt : Z) (p : place) (b : bytes) : Prop :=
  in_one_piece f p b \/
  exists a shape it, p = Chunked (Some a) shape dt /\ chunks_fit dims shape dt /\ orderly dims shape /\ index_is f a dims shape it /\
    in_chunks f dims shape dt None it b /\ zlen (ichunks it) = volume (chunk_grid dims shape) /\
    volume dims = volume (chunk_grid dims shape) * volume shape.
(** There are none, or a chunk is missing, or the chunks go beyond the dataset *)
Definition some_missing (f : bytes) (dims : list Z) (dt : Z) (p : place) : Prop :=
  nothing_stored dims dt p \/
  exists a shape it, p = Chunked (Some a) shape dt /\ chunks_fit dims shape dt /\ index_is f a dims shape it /\
    Forall (chunk_there f shape dt) (ichunks it) /\
    (zlen (ichunks it) < volume (chunk_grid dims shape) \/ volume dims < volume (chunk_grid dims shape) * volume shape).
