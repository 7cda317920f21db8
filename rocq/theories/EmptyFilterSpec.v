(** As EmptyFillSpec, for datasets whose chunks went through filters.  Written without the reader. *)
From Verif Require Import Prelude ArraySpec ChunkSpec RecordSpec MetaSpec DenseSpec FilterSpec ForeignSpec ForeignTypeSpec ForeignMsgSpec ForeignDataSpec
  ForeignFilterSpec EmptyFillSpec.

(** As [filtered_at] of ForeignFilterSpec, but for the fill value *)
Definition unfilled_filtered_at (f : bytes) (other : Z -> bytes -> Prop) (a : Z) (fs : list filter_desc) (dims : list Z) (t : fty) (p : place) : Prop :=
  exists c l b, messages_are f c a l /\
    Forall (fun m => fm_type m = 1 \/ fm_type m = 21 \/ plain other [0; 3; 4; 5; 8; 11; 12; 13; 14; 18; 22] m) l /\
    of_type 1 l = [b] /\ dataspace b dims /\ stored_attrs f other l /\
    exists l1 l2 tb tpad pb ppad fb fpad pad, l = l1 ++ l2 /\
      of_type 3 l1 = [tb ++ zrep tpad 0] /\ of_type 3 l2 = [] /\ of_type 8 l1 = [] /\ of_type 8 l2 = [pb ++ zrep ppad 0] /\
      of_type 11 l = [fb ++ zrep fpad 0] /\ filters_are fb fs /\ Forall known_filter fs /\
      of_type 5 l = [] /\ of_type 4 l = [[0; 0; 0; 0] ++ zrep pad 0] /\
      type_is known_version t tb /\ few_members t /\ opaque_last t /\ place_is pb p.

Section Filters.
  Variable deflated : bytes -> bytes -> Prop.
  (** All chunks are there, and they do not go beyond the dataset *)
  Definition all_filtered (f : bytes) (fs : list filter_desc) (dims : list Z) (dt : Z) (p : place) (b : bytes) : Prop :=
    exists a shape it, p = Chunked (Some a) shape dt /\ chunks_fit dims shape dt /\ orderly dims shape /\ index_is f a dims shape it /\
      in_filtered deflated f fs dims shape dt None it b /\ zlen (ichunks it) = volume (chunk_grid dims shape) /\
      volume dims = volume (chunk_grid dims shape) * volume shape.
  (** There are none, or one is missing, or they go beyond the dataset *)
  Definition filtered_missing (f : bytes) (fs : list filter_desc) (dims : list Z) (dt : Z) (p : place) : Prop :=
    (exists shape, p = Chunked None shape dt /\ chunks_fit dims shape dt) \/
    exists a shape it xs, p = Chunked (Some a) shape dt /\ chunks_fit dims shape dt /\ index_is f a dims shape it /\
      Forall2 (chunk_is deflated f fs shape dt) (ichunks it) xs /\
      (zlen (ichunks it) < volume (chunk_grid dims shape) \/ volume dims < volume (chunk_grid dims shape) * volume shape).
End Filters.
