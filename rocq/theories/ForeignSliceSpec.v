(** Parts of variables of files of other writers: what GetSlice and GetSliceMD of the VarGetter are to deliver, and
    data that are stored so that it is so.  Written without the reader. *)
From Verif Require Import Prelude GoVal ArraySpec ChunkSpec RecordSpec H5Base H5Value MetaSpec DenseSpec ForeignSpec ForeignTypeSpec
  ForeignMsgSpec ForeignDataSpec ForeignValueSpec ForeignFilterSpec.

(** ** What is expected of the calls *)

(** [slice b e] is [v\[b:e\]], for all bounds; for those without anything between them only under [empty] *)
Definition parts_of (v : hval) (n : Z) (empty : Prop) (slice : Z -> Z -> res hval) : Prop :=
  forall b e, 0 <= b <= e -> e <= n -> b < e \/ empty -> exists v', slice b e = Ok v' /\ vpart v b e = Some v'.
(** [box bs es] is the array of the elements from [bs] to [es] *)
Definition boxes_of (v : hval) (dims : list Z) (empty : Prop) (box : list Z -> list Z -> res hval) : Prop :=
  forall bs es, bounds dims bs es -> hd 0 bs < hd 0 es \/ empty -> exists v', box bs es = Ok v' /\ shaped (vsub es bs) v' /\
    forall idx, in_shape (vsub es bs) idx -> vat v' idx = vat v (vadd bs idx).

(** ** Types *)

(** Types all whose elements take the same number of bytes: no sequences and no characters *)
Inductive fixed : fty -> Prop :=
| fixed_int n sg big : fixed (FInt n sg big)
| fixed_real n big : fixed (FReal n big)
| fixed_text n : n <> 1 -> fixed (FText n)
| fixed_opaque n : fixed (FOpaque n)
| fixed_comp n ms : fixed (FComp n ms)
| fixed_ref : fixed FRef
| fixed_enum n sg big names vals : fixed (FEnum n sg big names vals)
| fixed_string t : fixed (FString t)
| fixed_array dims t : is_array t = false -> fixed t -> fixed (FArray dims t).
(** Sequences of numbers, strings or enumerations *)
Inductive listed : fty -> Prop :=
| listed_of t : match t with FInt _ _ _ | FReal _ _ | FText _ | FRef | FEnum _ _ _ _ _ | FString _ => True | _ => False end -> listed (FSeq t).
(** What can be cut: also characters in one dimension, none of them NUL *)
Definition cuttable (t : fty) (dims : list Z) (v : hval) : Prop :=
  fixed t \/ listed t \/ (t = FText 1 /\ exists s, v = HStr s /\ dims = [zlen s]).
Definition array_free (t : fty) : Prop := is_array t = false.
(** Values of enumerations are not slices *)
Definition enum_free (t : fty) : Prop :=
  match t with FEnum _ _ _ _ _ | FArray _ (FEnum _ _ _ _ _) => False | _ => True end.

(** ** How the data are stored *)

(** A dataset with filters, or without *)
Definition variable_at (f : bytes) (other : Z -> bytes -> Prop) (a : Z) (fs : list filter_desc) (dims : list Z) (t : fty) (p : place)
    (fill : option bytes) : Prop :=
  fs = [] /\ dataset_at f other a dims t p fill \/ filtered_at f other a fs dims t p fill.

Section Rows.
  Variable deflated : bytes -> bytes -> Prop.
  (** The rows of the dataset follow each other: not in chunks, or in chunks that are runs, with their keys in order *)
  Inductive by_rows (f : bytes) (fs : list filter_desc) (dims : list Z) (dt : Z) (fill : option bytes) : place -> bytes -> Prop :=
  | rows_compact b : fs = [] -> by_rows f fs dims dt fill (Compact b) b
  | rows_contiguous a b : fs = [] -> has_at f a b -> by_rows f fs dims dt fill (Contiguous (Some a) (zlen b)) b
  | rows_nothing size b : fs = [] -> filled dims dt fill b -> by_rows f fs dims dt fill (Contiguous None size) b
  | rows_no_chunks shape b : chunks_fit dims shape dt -> runs dims shape -> filled dims dt fill b ->
      by_rows f fs dims dt fill (Chunked None shape dt) b
  | rows_chunks a shape it b : chunks_fit dims shape dt -> runs dims shape -> index_is f a dims shape it -> iordered dims shape dt it ->
      in_filtered deflated f fs dims shape dt fill it b -> by_rows f fs dims dt fill (Chunked (Some a) shape dt) b.
  (** Chunks of another shape *)
  Inductive by_chunks (f : bytes) (fs : list filter_desc) (dims : list Z) (dt : Z) (fill : option bytes) : place -> bytes -> Prop :=
  | chunks_any a shape it b : chunks_fit dims shape dt -> orderly dims shape -> ~ runs dims shape -> index_is f a dims shape it ->
      in_filtered deflated f fs dims shape dt fill it b -> by_chunks f fs dims dt fill (Chunked (Some a) shape dt) b.
End Rows.
