(** Forms of the data layout message that [ForeignMsgSpec.place_is] leaves out: HDF5 File Format Specification,
    version 3.0, IV.A.2.i. *)
From Verif Require Import Prelude ArraySpec MetaSpec DenseSpec ForeignSpec ForeignTypeSpec ForeignMsgSpec.

(** Versions 1 and 2: the number of dimensions, the class, five bytes of nothing, an address unless the data are in the
    message, the sizes of the dimensions; then the size of an element where there are chunks, and the data where they
    are in the message.  [elem]: the size of an element *)
Inductive old_place_is (elem : Z) : bytes -> place -> Prop :=
| old_compact v dims data : v = 1 \/ v = 2 -> zlen dims < 2 ^ 8 -> Forall (word 32) dims -> word 32 (zlen data) ->
    old_place_is elem ([v; zlen dims; 0] ++ zrep 5 0 ++ flat_map (le 4) dims ++ le 4 (zlen data) ++ data) (Compact data)
| old_contiguous v dims a : v = 1 \/ v = 2 -> zlen dims < 2 ^ 8 -> Forall (word 32) dims -> address_ok a ->
    old_place_is elem ([v; zlen dims; 1] ++ zrep 5 0 ++ le 8 (address a) ++ flat_map (le 4) dims) (Contiguous a (volume dims * elem))
| old_chunked v shape a : v = 1 \/ v = 2 -> 0 < zlen shape < 255 -> Forall (word 32) shape -> address_ok a -> word 32 elem ->
    old_place_is elem ([v; zlen shape + 1; 2] ++ zrep 5 0 ++ le 8 (address a) ++ flat_map (le 4) shape ++ le 4 elem) (Chunked a shape elem).

(** Version 4, chunks: flags, the number of dimensions, how many bytes the size of one takes, their sizes with the size of
    an element as the last, which kind of index there is, what is to be known of it, and its address *)
Inductive index_info : Z -> Z -> bytes -> Prop :=
| info_single : index_info 0 1 []
| info_single_filtered size mask : word 64 size -> word 32 mask -> index_info 2 1 (le 8 size ++ le 4 mask)
| info_implicit flags : index_info flags 2 []
| info_fixed_array flags bits : index_info flags 3 [bits]
| info_extensible_array flags a b c d e : index_info flags 4 [a; b; c; d; e]
| info_tree flags size split merge : word 32 size -> index_info flags 5 (le 4 size ++ [split; merge]).
Definition new_chunks_are (b : bytes) (shape : list Z) (elem : Z) : Prop :=
  exists flags n kind info a, 0 <= flags <= 3 /\ 1 <= n <= 8 /\ 0 < zlen shape < 255 /\
    Forall (word (8 * n)) (shape ++ [elem]) /\ index_info flags kind info /\ address_ok a /\
    b = [4; 2; flags; zlen shape + 1; n] ++ flat_map (le (Z.to_nat n)) (shape ++ [elem]) ++ [kind] ++ info ++ le 8 (address a).

(** Version 4, a virtual dataset: the place of the list of its sources in the global heap *)
Definition virtual_is (b : bytes) : Prop := exists heap index, word 64 heap /\ word 32 index /\ b = [4; 3] ++ le 8 heap ++ le 4 index.
