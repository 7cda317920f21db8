(** C39, C40: chunked HDF5 datasets. *)
From Verif Require Import Prelude BaseLemmas ArraySpec ChunkSpec H5Base H5LayoutModel H5ChunkProofs H5LayoutRead.

(** C39.  Full statement: for every shape, chunk shape and sequence of read sizes the reader
    delivers the dataset in row-major order.  Missing here: chunk shapes that are not [orderly]
    (every chunk shape of rank one or two is); for the others it is false, see C39_refuted.
    [dims] and chunk extents are such that the Go expression (d + l - 1) does not wrap, and the
    stream [s] of decoded chunks is complete.  Each read gets the bytes that follow, the end is
    reported only after the last byte, and a read of at least one byte makes progress. *)
Theorem C39_row_major_partial : forall dims layout dt s sizes,
  orderly dims layout ->
  Forall2 (fun d l => 0 <= d /\ 1 <= l /\ d + l <= 2 ^ 64) dims layout -> 1 <= dt ->
  volume (chunk_grid dims layout) * volume layout * dt <= zlen s ->
  Forall (fun m => 0 <= m) sizes ->
  exists outs rest, lr_reads dims layout dt (newLayoutReader s) sizes = Ok outs /\
    List.concat (map (fun o => match o with Some b => b | None => [] end) outs) ++ rest = dataset dims layout dt s /\
    (In None outs -> rest = []) /\
    Forall2 (fun m o => 0 < m -> 0 < last dims 0 -> o <> Some []) sizes outs.
Proof. exact layout_reader_row_major. Qed.

(** Rank one and two *)
Theorem C39_rank12 : forall dims layout, (List.length dims = 1 \/ List.length dims = 2)%nat ->
  List.length layout = List.length dims -> orderly dims layout.
Proof.
  intros [|a [|b [|c r]]] [|l [|m [|k t]]] [H|H] E; try discriminate; [constructor|].
  exact (ord_whole a l [] [] b m (Forall2_nil _)).
Qed.

(** A 3 by 3 dataset in chunks of 2 by 2; 9 stands for the padding of the edge chunks *)
Example C39_example :
  let s := [11; 12; 21; 22; 13; 9; 23; 9; 31; 32; 9; 9; 33; 9; 9; 9] in
  dataset [3; 3] [2; 2] 1 s = [11; 12; 13; 21; 22; 23; 31; 32; 33] /\
  lr_reads [3; 3] [2; 2] 1 (newLayoutReader s) [4; 1; 2; 0; 2; 1; 9; 3; 1] =
  Ok [Some [11; 12; 13; 21]; Some [22]; Some [23]; Some []; Some [31; 32]; Some [33]; None; None; None].
Proof. split; vm_compute; reflexivity. Qed.
Example C39_example3 :
  orderly [2; 2; 2] [1; 2; 2] /\ orderly [4; 3; 5] [2; 3; 2] /\ orderly [4; 3; 3; 5] [1; 2; 7; 2].
Proof.
  split; [|split].
  - constructor. exact (C39_rank12 [2; 2] [2; 2] (or_intror eq_refl) eq_refl).
  - apply (ord_whole 4 2 [3] [3] 5 2). repeat constructor; discriminate.
  - constructor. apply (ord_whole 3 2 [3] [7] 5 2). repeat constructor; discriminate.
Qed.

(** A dataset of shape 2,2,1 in chunks of shape 2,1,1 is delivered in the wrong order. *)
Theorem C39_refuted : exists dims layout dt s sizes outs,
  Forall2 (fun d l => 0 <= d /\ 1 <= l /\ d + l <= 2 ^ 64) dims layout /\ 1 <= dt /\
  volume (chunk_grid dims layout) * volume layout * dt <= zlen s /\
  lr_reads dims layout dt (newLayoutReader s) sizes = Ok outs /\
  zlen (List.concat (map (fun o => match o with Some b => b | None => [] end) outs)) = zlen (dataset dims layout dt s) /\
  List.concat (map (fun o => match o with Some b => b | None => [] end) outs) <> dataset dims layout dt s.
Proof.
  exists [2; 2; 1], [2; 1; 1], 1, [1; 3; 2; 4], [2; 2], [Some [1; 3]; Some [2; 4]].
  split; [repeat constructor; discriminate|]. split; [discriminate|].
  split; [vm_compute; discriminate|]. split; [vm_compute; reflexivity|]. split; [vm_compute; reflexivity|].
  vm_compute. discriminate.
Qed.

(** C40.  [o] is the index of the first element of a chunk (or any element of it): its position
    is its rank among the chunks times the chunk's size, it fits in the dataset's size, and of
    two chunks the lexicographically smaller lies wholly before the other.  Hypothesis: the size
    of the dataset, whole chunks counted, is a uint64. *)
Theorem C40_placement : forall dims layout dt,
  Forall2 (fun d l => 0 <= d /\ 1 <= l /\ d + l <= 2 ^ 64) dims layout -> dims <> [] -> 0 <= dt ->
  volume (chunk_grid dims layout) * volume layout * dt < 2 ^ 64 ->
  (forall o, List.length o = List.length dims -> in_shape (chunk_grid dims layout) (chunk_of layout o) ->
     calculateFlatOffset o dims layout dt =
       offset (chunk_grid dims layout) (chunk_of layout o) * (volume layout * dt) /\
     0 <= calculateFlatOffset o dims layout dt /\
     calculateFlatOffset o dims layout dt + volume layout * dt <= calcAttrSize dims layout dt) /\
  (forall o1 o2, List.length o1 = List.length dims -> List.length o2 = List.length dims ->
     in_shape (chunk_grid dims layout) (chunk_of layout o1) ->
     in_shape (chunk_grid dims layout) (chunk_of layout o2) ->
     lex_lt (chunk_of layout o1) (chunk_of layout o2) ->
     calculateFlatOffset o1 dims layout dt + volume layout * dt <= calculateFlatOffset o2 dims layout dt).
Proof.
  intros dims layout dt He Hne Hdt Hv. split.
  - intros o El Hin. destruct (placement _ _ _ He Hne Hdt Hv o El Hin) as (P1 & P2 & P3 & _).
    exact (conj P1 (conj P2 P3)).
  - intros o1 o2 E1 E2 H1 H2 Hl.
    destruct (placement _ _ _ He Hne Hdt Hv o1 E1 H1) as (P1 & _).
    destruct (placement _ _ _ He Hne Hdt Hv o2 E2 H2) as (P2 & _).
    rewrite P1, P2. pose proof (offset_lex _ _ _ H1 H2 Hl) as L.
    pose proof (layout_pos _ _ He) as LP.
    assert (0 <= volume layout * dt) by (apply Z.mul_nonneg_nonneg; lia).
    assert ((offset (chunk_grid dims layout) (chunk_of layout o1) + 1) * (volume layout * dt) <=
            offset (chunk_grid dims layout) (chunk_of layout o2) * (volume layout * dt)) by (apply Z.mul_le_mono_nonneg_r; lia).
    lia.
Qed.

Example C40_example :
  calcAttrSize [5; 7] [2; 3] 4 = 216 /\ calculateFlatOffset [2; 3] [5; 7] [2; 3] 4 = 96 /\
  calculateFlatOffset [4; 6] [5; 7] [2; 3] 4 = 192 /\ chunk_of [2; 3] [4; 6] = [2; 2] /\
  chunk_grid [5; 7] [2; 3] = [3; 3].
Proof. vm_compute. exact (conj eq_refl (conj eq_refl (conj eq_refl (conj eq_refl eq_refl)))). Qed.

Print Assumptions C39_row_major_partial.
Print Assumptions C39_rank12.
Print Assumptions C39_refuted.
Print Assumptions C40_placement.
