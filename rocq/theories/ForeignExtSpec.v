(** Superblocks with an extension: HDF5 File Format Specification, version 3.0, II.C.  An extension is an object header
    with messages on the file as a whole. *)
From Verif Require Import Prelude MetaSpec DenseSpec ForeignSpec.

Definition extended_superblock_is (f : bytes) (ext root : Z) : Prop :=
  word 64 root /\ word 64 ext /\ ext <> undefined /\
  exists eof version flags, word 64 eof /\ eof <= zlen f /\ (version = 2 \/ version = 3) /\ word 8 flags /\
    has_at f 0 (sealed (h5_signature ++ [version; 8; 8; flags] ++ le 8 0 ++ le 8 ext ++ le 8 eof ++ le 8 root)).

(** B-tree "K" values, IV.A.2.t: version, and the K values of chunk indexes, of group nodes and of group leaves *)
Definition k_values (chunks nodes leaves : Z) : bytes := [0] ++ le 2 chunks ++ le 2 nodes ++ le 2 leaves.
(** Driver information, IV.A.2.u: version, the name of the driver in eight bytes, and what it has to know *)
Definition driver_info (name data : bytes) : bytes := [0] ++ name ++ le 2 (zlen data) ++ data.
(** File space information, IV.A.2.x: version, strategy (1: managers and aggregators, no persisting), no persisting,
    threshold, page size, page end threshold, end of file before managers were set up *)
Definition space_info (strategy threshold page : Z) : bytes :=
  [1; strategy; 0] ++ le 8 threshold ++ le 8 page ++ le 2 0 ++ le 8 undefined.
