(** How the data of a dataset are stored in a file of the HDF5 format: HDF5 File Format Specification,
    version 3.0, III.A.1 (version 1 B-trees of chunks), IV.A.2.i (layouts).  Written without the reader. *)
From Verif Require Import Prelude ArraySpec ChunkSpec RecordSpec H5Value MetaSpec DenseSpec ForeignSpec ForeignTypeSpec
  ForeignMsgSpec.

(** Element [i] of data whose elements take [dt] bytes each *)
Definition element (dt : Z) (b : bytes) (i : Z) : bytes := ztake dt (zdrop (i * dt) b).

(** The value that all elements have which are not stored, if it is known *)
Definition filled (dims : list Z) (dt : Z) (fill : option bytes) (b : bytes) : Prop :=
  exists v, fill = Some v /\ zlen v = dt /\ zlen b = volume dims * dt /\
    forall i, 0 <= i < volume dims -> element dt b i = v.

(** The index of the chunks has an entry for each chunk that is stored, with its first element and where
    it is; no chunk is there twice. *)
Definition index_is (f : bytes) (a : Z) (dims shape : list Z) (t : itree) : Prop :=
  0 < a /\ stored f (List.length dims) true a t /\ ikeys dims t /\ (idepth t <= S (List.length f))%nat /\
  NoDup (map (fun c => chunk_of shape (k_index (fst c))) (ichunks t)).
(** A chunk has [shape] elements, also beyond the bounds of the dataset *)
Definition chunk_there (f : bytes) (shape : list Z) (dt : Z) (c : key * Z) : Prop :=
  k_size (fst c) = volume shape * dt /\ 0 <= snd c /\ snd c + volume shape * dt <= zlen f.
(** The chunk that the element with this index is in is stored at [addr] *)
Definition chunk_has (shape : list Z) (t : itree) (idx : list Z) (addr : Z) : Prop :=
  exists k, In (k, addr) (ichunks t) /\ chunk_of shape (k_index k) = chunk_of shape idx.
(** The elements are in their chunks, or else have the fill value *)
Definition in_chunks (f : bytes) (dims shape : list Z) (dt : Z) (fill : option bytes) (t : itree) (b : bytes) : Prop :=
  Forall (chunk_there f shape dt) (ichunks t) /\ zlen b = volume dims * dt /\
  forall idx, in_shape dims idx ->
    (forall addr, chunk_has shape t idx addr -> has_at f (addr + offset shape (within shape idx) * dt) (element dt b (offset dims idx))) /\
    ((forall addr, ~ chunk_has shape t idx addr) -> exists v, fill = Some v /\ zlen v = dt /\ element dt b (offset dims idx) = v).

(** The sizes are numbers of 63 bits *)
Definition chunks_fit (dims shape : list Z) (dt : Z) : Prop :=
  List.length shape = List.length dims /\ dims <> [] /\ Forall (fun l => 1 <= l) shape /\
  Forall2 (fun d l => d + l <= 2 ^ 64) dims shape /\ volume shape < 2 ^ 64 /\
  volume (chunk_grid dims shape) * volume shape * dt < 2 ^ 63.

(** The data [b] of a dataset are stored as its layout says *)
Inductive stored_as (f : bytes) (dims : list Z) (dt : Z) (fill : option bytes) : place -> bytes -> Prop :=
| as_compact b : stored_as f dims dt fill (Compact b) b
| as_contiguous a b : has_at f a b -> stored_as f dims dt fill (Contiguous (Some a) (zlen b)) b
| as_nothing size b : filled dims dt fill b -> stored_as f dims dt fill (Contiguous None size) b
| as_no_chunks shape b : chunks_fit dims shape dt -> orderly dims shape -> filled dims dt fill b ->
    stored_as f dims dt fill (Chunked None shape dt) b
| as_chunks a shape t b : chunks_fit dims shape dt -> orderly dims shape -> index_is f a dims shape t ->
    in_chunks f dims shape dt fill t b -> stored_as f dims dt fill (Chunked (Some a) shape dt) b.

Definition zeros (n : Z) : bytes := zrep n 0.
(** What stands for data that are not stored where the fill value is said to be undefined: the fill values of
    netCDF (NC_FILL_BYTE, ...) for numbers and characters, nothing for sequences.  [None]: it is not known *)
Definition netcdf_fill (t : fty) : option bytes :=
  let e (big : bool) (n : nat) (v : Z) := Some (if big then be n v else le n v) in
  match t with
  | FInt 1 sg big => e big 1%nat (if sg then -127 else 255)
  | FInt 2 sg big => e big 2%nat (if sg then -32767 else 65535)
  | FInt 4 sg big => e big 4%nat (if sg then -2147483647 else 4294967295)
  | FInt 8 sg big => e big 8%nat (if sg then -9223372036854775806 else 18446744073709551614)
  | FReal 4 big => e big 4%nat 0x7cf00000
  | FReal 8 big => e big 8%nat 0x479e000000000000
  | FText n => Some (zeros n)
  | FSeq _ | FString _ => Some (zeros 16)
  | _ => None
  end.
(** What the fill value messages of a dataset say, whose elements have type [t] *)
Inductive fill_told : list fmsg -> fty -> option bytes -> Prop :=
| told_nothing l t : of_type 4 l = [] -> of_type 5 l = [] -> fill_told l t (Some (zeros (fsize t)))
| told_new l t b pad v : of_type 5 l = [b ++ zrep pad 0] -> fill_is b (Fill v) -> zlen v = fsize t -> fill_told l t (Some v)
| told_default l t b pad : of_type 4 l = [] -> of_type 5 l = [b ++ zrep pad 0] -> fill_is b DefaultFill ->
    fill_told l t (Some (zeros (fsize t)))
| told_none l t b pad : of_type 5 l = [b ++ zrep pad 0] -> fill_is b NoFill -> fill_told l t (netcdf_fill t)
| told_old l t b pad v : of_type 4 l = [b ++ zrep pad 0] -> of_type 5 l = [] -> old_fill_is b v -> zlen v = fsize t -> v <> [] ->
    fill_told l t (Some v).

(** The messages [l] of a dataset without filters say that its elements have type [t], where they
    are, and the fill value.  The type comes before the layout. *)
Definition dataset_told (l : list fmsg) (t : fty) (p : place) (fill : option bytes) : Prop :=
  exists l1 l2 tb tpad pb ppad, l = l1 ++ l2 /\
    of_type 3 l1 = [tb ++ zrep tpad 0] /\ of_type 3 l2 = [] /\ of_type 8 l1 = [] /\ of_type 8 l2 = [pb ++ zrep ppad 0] /\
    of_type 11 l = [] /\
    type_is known_version t tb /\ few_members t /\ opaque_last t /\ place_is pb p /\ fill_told l t fill.

(** The object at [a] is a dataset with these dimensions, this type, layout and fill value; [other] as in [object_is] *)
Definition dataset_at (f : bytes) (other : Z -> bytes -> Prop) (a : Z) (dims : list Z) (t : fty) (p : place) (fill : option bytes) : Prop :=
  exists c l b, messages_are f c a l /\
    Forall (fun m => fm_type m = 1 \/ fm_type m = 21 \/ plain other [0; 3; 4; 5; 8; 11; 12; 13; 14; 18; 22] m) l /\
    of_type 1 l = [b] /\ dataspace b dims /\ stored_attrs f other l /\ dataset_told l t p fill.
