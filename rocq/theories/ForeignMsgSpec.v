(** The messages of datasets, named datatypes and groups that say nothing of links: HDF5 File Format
    Specification, version 3.0, IV.A.2.  Written without the reader.  Every message may have zeros
    after it, as those of headers of version 1 do. *)
From Verif Require Import Prelude MetaSpec DenseSpec ForeignSpec ForeignTypeSpec.

(** Dataspace: IV.A.2.b, without anything after it *)
Inductive space_is : bytes -> list Z -> Prop :=
| space_v1 flags dims most : word 1 flags -> Forall (word 64) dims -> Forall (word 64) most -> zlen dims < 2 ^ 8 ->
    (if Z.testbit flags 0 then zlen most = zlen dims else most = []) ->
    space_is ([1; zlen dims; flags] ++ zrep 5 0 ++ flat_map (le 8) dims ++ flat_map (le 8) most) dims
| space_v2 flags kind dims most : word 1 flags -> Forall (word 64) dims -> Forall (word 64) most -> zlen dims < 2 ^ 8 ->
    (if Z.testbit flags 0 then zlen most = zlen dims else most = []) -> 0 <= kind <= 2 ->
    space_is ([2; zlen dims; flags; kind] ++ flat_map (le 8) dims ++ flat_map (le 8) most) dims.

(** Fill values: IV.A.2.e and f *)
Definition old_fill_is (b : bytes) (v : bytes) : Prop :=
  zlen v < 2 ^ 32 /\ b = le 4 (zlen v) ++ v.
(** There is no fill value, it is that of the library, or it is given. *)
Inductive fill : Type := NoFill | DefaultFill | Fill (v : bytes).
Inductive fill_is : bytes -> fill -> Prop :=
| fill_v1 alloc write defined v : 1 <= alloc <= 3 -> 0 <= write <= 2 -> 0 <= defined <= 1 -> zlen v < 2 ^ 32 ->
    fill_is ([1; alloc; write; defined] ++ le 4 (zlen v) ++ v) (match v with [] => DefaultFill | _ => Fill v end)
| fill_v2_not alloc write : 1 <= alloc <= 3 -> 0 <= write <= 2 -> fill_is [2; alloc; write; 0] DefaultFill
| fill_v2 alloc write v : 1 <= alloc <= 3 -> 0 <= write <= 2 -> zlen v < 2 ^ 32 ->
    fill_is ([2; alloc; write; 1] ++ le 4 (zlen v) ++ v) (match v with [] => DefaultFill | _ => Fill v end)
| fill_v3_none alloc write : 1 <= alloc <= 3 -> 0 <= write <= 2 -> fill_is [3; alloc + 4 * write + 16] NoFill
| fill_v3_not alloc write : 1 <= alloc <= 3 -> 0 <= write <= 2 -> fill_is [3; alloc + 4 * write] DefaultFill
| fill_v3 alloc write v : 1 <= alloc <= 3 -> 0 <= write <= 2 -> zlen v < 2 ^ 32 ->
    fill_is ([3; alloc + 4 * write + 32] ++ le 4 (zlen v) ++ v) (match v with [] => DefaultFill | _ => Fill v end).

(** Where the data are: IV.A.2.i.  Without an address, nothing has been stored. *)
Inductive place : Type :=
| Compact (data : bytes)
| Contiguous (addr : option Z) (size : Z)
| Chunked (index : option Z) (shape : list Z) (elem : Z).
Definition address (a : option Z) : Z := match a with Some a => a | None => undefined end.
Definition address_ok (a : option Z) : Prop := match a with Some a => 0 <= a < undefined | None => True end.
Inductive place_is : bytes -> place -> Prop :=
| place_compact v data : v = 3 \/ v = 4 -> zlen data < 2 ^ 16 ->
    place_is ([v; 0] ++ le 2 (zlen data) ++ data) (Compact data)
| place_contiguous v a size : v = 3 \/ v = 4 -> address_ok a -> word 64 size ->
    place_is ([v; 1] ++ le 8 (address a) ++ le 8 size) (Contiguous a size)
| place_chunked a shape elem : address_ok a -> 0 < zlen shape < 255 -> Forall (word 32) shape -> word 32 elem ->
    place_is ([3; 2; zlen shape + 1] ++ le 8 (address a) ++ flat_map (le 4) shape ++ le 4 elem) (Chunked a shape elem).

(** Filters: IV.A.2.l: an identification, flags, a name and parameters *)
Record filter_desc : Type := mkFilter { fd_id : Z; fd_flags : Z; fd_name : bytes; fd_vals : list Z }.
Definition filter_ok (d : filter_desc) : Prop :=
  word 16 (fd_id d) /\ word 16 (fd_flags d) /\ zlen (fd_name d) < 2 ^ 16 /\ zlen (fd_vals d) < 2 ^ 16 /\ Forall (word 32) (fd_vals d).
(** In version 1 names take a multiple of 8 bytes; in version 2 only filters from 256 on have one. *)
Definition filter_v1 (d : filter_desc) : bytes :=
  le 2 (fd_id d) ++ le 2 (zlen (fd_name d)) ++ le 2 (fd_flags d) ++ le 2 (zlen (fd_vals d)) ++ fd_name d ++
  flat_map (le 4) (fd_vals d) ++ (if zlen (fd_vals d) mod 2 =? 1 then zrep 4 0 else []).
Definition filter_v2 (d : filter_desc) : bytes :=
  le 2 (fd_id d) ++ (if fd_id d <? 256 then [] else le 2 (zlen (fd_name d))) ++
  le 2 (fd_flags d) ++ le 2 (zlen (fd_vals d)) ++ (if fd_id d <? 256 then [] else fd_name d) ++ flat_map (le 4) (fd_vals d).
Inductive filters_are : bytes -> list filter_desc -> Prop :=
| filters_v1 l : zlen l < 2 ^ 8 -> Forall (fun d => filter_ok d /\ zlen (fd_name d) mod 8 = 0) l ->
    filters_are ([1; zlen l] ++ zrep 6 0 ++ flat_map filter_v1 l) l
| filters_v2 l : zlen l < 2 ^ 8 -> Forall filter_ok l -> filters_are ([2; zlen l] ++ flat_map filter_v2 l) l.

(** Group info: IV.A.2.k *)
Definition group_info_is (b : bytes) : Prop :=
  exists flags x y z w, word 2 flags /\ word 16 x /\ word 16 y /\ word 16 z /\ word 16 w /\
    b = [0; flags] ++ (if Z.testbit flags 0 then le 2 x ++ le 2 y else []) ++ (if Z.testbit flags 1 then le 2 z ++ le 2 w else []).

Section Messages.
  Context (uses : Z -> Z -> Z -> Prop).

  (** Attributes: IV.A.2.m; the name, the type, the dimensions and the data.  In version 1 the name,
      the type and the dataspace are each filled up to a multiple of 8 bytes.  The flags say that the type or the
      dataspace are elsewhere: that is left out. *)
  Definition fill8 (b : bytes) : bytes := b ++ zrep ((- zlen b) mod 8) 0.
  Inductive attribute_is : bytes -> bytes -> fty -> list Z -> bytes -> Prop :=
  | attribute_v1 name t tb dims sb data : name_ok name -> type_is uses t tb -> space_is sb dims ->
      zlen name + 1 < 2 ^ 16 -> zlen tb < 2 ^ 16 -> zlen sb < 2 ^ 16 ->
      attribute_is ([1; 0] ++ le 2 (zlen name + 1) ++ le 2 (zlen tb) ++ le 2 (zlen sb) ++
                    fill8 (name ++ [0]) ++ fill8 tb ++ fill8 sb ++ data) name t dims data
  | attribute_v2 name t tb dims sb data : name_ok name -> type_is uses t tb -> space_is sb dims ->
      zlen name + 1 < 2 ^ 16 -> zlen tb < 2 ^ 16 -> zlen sb < 2 ^ 16 ->
      attribute_is ([2; 0] ++ le 2 (zlen name + 1) ++ le 2 (zlen tb) ++ le 2 (zlen sb) ++
                    name ++ [0] ++ tb ++ sb ++ data) name t dims data
  | attribute_v3 cset name t tb dims sb data : 0 <= cset <= 1 -> name_ok name -> type_is uses t tb -> space_is sb dims ->
      zlen name + 1 < 2 ^ 16 -> zlen tb < 2 ^ 16 -> zlen sb < 2 ^ 16 ->
      attribute_is ([3; 0] ++ le 2 (zlen name + 1) ++ le 2 (zlen tb) ++ le 2 (zlen sb) ++ [cset] ++
                    name ++ [0] ++ tb ++ sb ++ data) name t dims data.
End Messages.

(** ** The messages that the reader is meant to know *)

(** Compression, shuffling and checksums *)
Definition known_filter (d : filter_desc) : Prop := 1 <= fd_id d <= 3.
(** An attribute without elements is left out if they are numbers with a fraction or references. *)
Definition elements_there (t : fty) (data : bytes) : Prop :=
  match t with FReal n _ => n <= zlen data | FRef => 8 <= zlen data | _ => True end.

Inductive message_body : Z -> bytes -> Prop :=
| body_type t b : type_is known_version t b -> few_members t -> opaque_last t -> message_body 3 b
| body_old_fill b v : old_fill_is b v -> message_body 4 b
| body_fill b x : fill_is b x -> message_body 5 b
| body_place b p : place_is b p -> message_body 8 b
| body_group_info b : group_info_is b -> message_body 10 b
| body_filters b l : filters_are b l -> Forall known_filter l -> message_body 11 b
| body_attribute b name t dims data : attribute_is known_version b name t dims data ->
    few_members t -> opaque_last t -> elements_there t data -> message_body 12 b
| body_comment c : name_ok c -> message_body 13 (c ++ [0])
| body_old_time digits : zlen digits = 14 -> message_body 14 (digits ++ [0; 0])
| body_time s : word 32 s -> message_body 18 ([1; 0; 0; 0] ++ le 4 s)
| body_count n : word 32 n -> message_body 22 ([0] ++ le 4 n).
Definition message_is (t : Z) (b : bytes) : Prop := exists b0 pad, b = b0 ++ zrep pad 0 /\ message_body t b0.
