(** Files that no HDF5 library writes: HDF5 File Format Specification, version 3.0, IV.A.1.a (object headers of version 1),
    IV.A.2.q (continuation messages) and III.A.1 (indexes of chunks).  Written without the reader. *)
From Verif Require Import Prelude ChunkSpec RecordSpec MetaSpec DenseSpec ForeignSpec.

(** The message that the header goes on at the address [o] with [n] bytes *)
Definition goes_on (flags o n : Z) : bytes := le 2 16 ++ le 2 16 ++ [flags; 0; 0; 0] ++ le 8 o ++ le 8 n.

(** An object header of version 1 with messages [b] *)
Definition header_v1 (f : bytes) (a : Z) (padding b : bytes) : Prop :=
  exists count refs, word 16 count /\ word 32 refs /\ word 32 (zlen b) /\ zlen padding = 4 /\
    has_at f a ([1; 0] ++ le 2 count ++ le 4 refs ++ le 4 (zlen b) ++ padding ++ b).

(** Messages of [n] bytes at [o] that begin with the one that they go on there *)
Definition circle (f : bytes) (o n : Z) : Prop :=
  0 < o /\ exists flags rest, has_at f o (goes_on flags o n ++ rest) /\ zlen (goes_on flags o n ++ rest) = n.

(** A node of an index of chunks, above the leaves, that begins with an entry for itself *)
Definition circular_index (f : bytes) (a : Z) (rank : nat) : Prop :=
  exists level k es last, 0 < level < 2 ^ 8 /\ k_index k = repeat 0 rank /\
    node_fits rank level undefined undefined ((k, a) :: es) last /\ has_at f a (RecordSpec.node_bytes level undefined undefined ((k, a) :: es) last).
