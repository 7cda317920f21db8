(** What a dataset stored in blocks reads as, independently of the readers. *)
From Verif Require Import Prelude ArraySpec ChunkSpec H5Value H5TypeRead MetaSpec H5RecordModel.

(** ** Blocks and holes *)

(** A stored piece: where it lies in the dataset, and its bytes. *)
Definition piece : Type := Z * bytes.
Definition p_end (x : piece) : Z := fst x + zlen (snd x).
Definition covers (p : Z) (x : piece) : bool := (fst x <=? p) && (p <? p_end x).

(** The hole around [p] starts at the last end of a piece before it, or at [lo]. *)
Definition hole_start (ps : list piece) (lo p : Z) : Z :=
  fold_right (fun x h => if p_end x <=? p then Z.max h (p_end x) else h) lo ps.

(** The byte at position [p]: that of the piece that covers it, or that of the pattern
    repeated from the start of the hole. *)
Definition byte_at (pat : bytes) (ps : list piece) (lo p : Z) : Z :=
  match find (covers p) ps with
  | Some x => nth (Z.to_nat (p - fst x)) (snd x) 0
  | None => nth (Z.to_nat ((p - hole_start ps lo p) mod zlen pat)) pat 0
  end.

(** The bytes from [lo] to [hi]. *)
Definition stream (pat : bytes) (ps : list piece) (lo hi : Z) : bytes :=
  map (fun i => byte_at pat ps lo (lo + Z.of_nat i)) (seq 0 (Z.to_nat (hi - lo))).

(** No two pieces overlap, and all of them are inside the dataset. *)
Inductive apart : list piece -> Prop :=
| apart_nil : apart []
| apart_cons x r : Forall (fun y => p_end x <= fst y \/ p_end y <= fst x) r -> apart r -> apart (x :: r).
Definition inside (size : Z) (ps : list piece) : Prop :=
  Forall (fun x => 0 <= fst x /\ p_end x <= size /\ snd x <> []) ps.

(** Part of a list. *)
Definition part {A} (l : list A) (a n : Z) : list A := ztake n (zdrop a l).

(** ** Index trees *)

(** The key of a chunk: stored size, filter mask, and the index of its first element. *)
Record key : Type := mkKey { k_size : Z; k_mask : Z; k_index : list Z }.

(** The index of a dataset: leaves give the address of every chunk; every node ends with a
    key beyond its last chunk. *)
Inductive itree : Type :=
| ILeaf (es : list (key * Z)) (last : key)
| INode (level : Z) (es : list (key * Z * itree)) (last : key).

(** All chunks with their addresses *)
Fixpoint ichunks (t : itree) : list (key * Z) :=
  match t with
  | ILeaf es _ => es
  | INode _ es _ => (fix go (es : list (key * Z * itree)) : list (key * Z) :=
                       match es with [] => [] | (_, _, t) :: r => ichunks t ++ go r end) es
  end.

(** The format of nodes *)
Definition key_bytes (k : key) : bytes :=
  le 4 (k_size k) ++ le 4 (k_mask k) ++ List.concat (map (le 8) (k_index k)) ++ le 8 0.
Definition node_bytes (level : Z) (left right : Z) (es : list (key * Z)) (last : key) : bytes :=
  bs "TREE" ++ le 1 1 ++ le 1 level ++ le 2 (zlen es) ++ le 8 left ++ le 8 right ++
  List.concat (map (fun e => key_bytes (fst e) ++ le 8 (snd e)) es) ++ key_bytes last.

Definition key_fits (rank : nat) (k : key) : Prop :=
  0 <= k_size k < 2 ^ 32 /\ 0 <= k_mask k < 2 ^ 32 /\
  List.length (k_index k) = rank /\ Forall (fun i => 0 <= i < 2 ^ 64) (k_index k).
Definition node_fits (rank : nat) (level left right : Z) (es : list (key * Z)) (last : key) : Prop :=
  zlen es < 65535 /\ 0 <= left < 2 ^ 64 /\ 0 <= right < 2 ^ 64 /\
  Forall (fun e => key_fits rank (fst e) /\ 0 <= snd e < 2 ^ 64) es /\ key_fits rank last.

Inductive stored (f : bytes) (rank : nat) : bool -> Z -> itree -> Prop :=
| stored_leaf (top : bool) a left right es last :
    (top = true -> left = 2 ^ 64 - 1 /\ right = 2 ^ 64 - 1) ->
    node_fits rank 0 left right es last ->
    has_at f a (node_bytes 0 left right es last) ->
    stored f rank top a (ILeaf es last)
| stored_node (top : bool) a left right level es last :
    (top = true -> left = 2 ^ 64 - 1 /\ right = 2 ^ 64 - 1) ->
    0 < level < 256 ->
    node_fits rank level left right (map fst es) last ->
    has_at f a (node_bytes level left right (map fst es) last) ->
    Forall (fun e => stored f rank false (snd (fst e)) (snd e)) es ->
    stored f rank top a (INode level es last).

Fixpoint idepth (t : itree) : nat :=
  match t with
  | ILeaf _ _ => 1
  | INode _ es _ => S ((fix go (es : list (key * Z * itree)) : nat :=
                          match es with [] => O | (_, _, t) :: r => Nat.max (idepth t) (go r) end) es)
  end.

(** Where a chunk starts, in elements: its elements are a run of the row-major order. *)
Definition chunk_first (dims : list Z) (k : key) : Z := offset dims (k_index k).

(** Chunks that are runs of the row-major order: one element long in all dimensions but the
    last, which they divide. *)
Inductive runs : list Z -> list Z -> Prop :=
| runs_last d l : 0 < l -> d mod l = 0 -> runs [d] [l]
| runs_one d ds ls : runs ds ls -> runs (d :: ds) (1 :: ls).

(** Chunks start at multiples of their extents. *)
Definition aligned (layout idx : list Z) : Prop := Forall2 (fun l i => i mod l = 0) layout idx.
Definition chunk_key (dims layout : list Z) (k : key) : Prop :=
  in_shape dims (k_index k) /\ aligned layout (k_index k).

(** Where the key that follows a chunk may be: at a later chunk, in the order of the
    indices, or past the chunk in every dimension. *)
Definition follows (dims layout : list Z) (c next : key) : Prop :=
  (chunk_key dims layout next /\ lex_lt (k_index c) (k_index next)) \/
  Forall2 (fun x l => fst x + l <= snd x) (combine (k_index c) (k_index next)) layout /\
  List.length (k_index next) = List.length dims.

(** Ordered keys: every chunk below an entry is at the key of the entry or later, and
    before the next key.  The position of the last key, in bytes, is a number of 64 bits. *)
Inductive iordered (dims layout : list Z) (dt : Z) : itree -> Prop :=
| ordered_leaf es last : Forall (fun c => chunk_key dims layout (fst c)) es -> iordered dims layout dt (ILeaf es last)
| ordered_node level es last :
    Forall (fun e => iordered dims layout dt (snd e) /\ chunk_key dims layout (fst (fst e))) es ->
    chunk_first dims last * dt < 2 ^ 64 ->
    Forall2 (fun e next =>
       Forall (fun c => (k_index (fst (fst e)) = k_index (fst c) \/
                         lex_lt (k_index (fst (fst e))) (k_index (fst c))) /\
                        follows dims layout (fst c) next) (ichunks (snd e)))
      es (tl (map (fun e => fst (fst e)) es ++ [last])) ->
    iordered dims layout dt (INode level es last).

(** The chunks, of [n] elements of [dt] bytes each, that have a byte between [first] and [last]. *)
Definition touching (dims : list Z) (dt n first last : Z) (cs : list (key * Z)) : list (key * Z) :=
  filter (fun c => let at_ := chunk_first dims (fst c) * dt in
                   (at_ <? last) && (first <? at_ + n * dt)) cs.

(** ** Slices of values *)

(** [v\[b:e\]] in Go; slicing the values of an enumeration slices the numbers *)
Fixpoint vpart (v : hval) (b e : Z) : option hval :=
  match v with
  | HStr s => if (0 <=? b) && (b <=? e) && (e <=? zlen s) then Some (HStr (part s b (e - b))) else None
  | HSlice t l => if (0 <=? b) && (b <=? e) && (e <=? zlen l) then Some (HSlice t (part l b (e - b))) else None
  | HEnum v names vals => match vpart v b e with Some v => Some (HEnum v names vals) | None => None end
  | _ => None
  end.

(** ** Stored datasets *)

(** The bytes of a block once its filters are undone.  If nothing but checksums is used,
    they are what the file has. *)
Definition block_data (f : bytes) (d : dset) (b : block) (data : bytes) : Prop :=
  zlen data = b_ds b /\ data <> [] /\
  match b_raw b with
  | Some raw => (exists more, raw = data ++ more) /\ (forall x, d_filter d b x = Ok x)
  | None => exists disk more,
      has_at f (b_addr b) disk /\ zlen disk = b_length b /\ disk <> [] /\
      d_filter d b disk = Ok (data ++ more) /\
      (d_seek d = true -> exists more', disk = data ++ more')
  end.

(** The block that an entry of the index stands for. *)
Definition index_block (d : dset) (c : key * Z) : block :=
  mkBlock (snd c) (k_size (fst c)) (volume (d_layout d) * d_elem d) (k_mask (fst c)) (k_index (fst c)) None.

(** A dataset of chunks that are runs, with index [t] stored in the file.  No chunk is there
    twice.  The depth of the index is less than the length of the file, as it is if no node
    is its own descendant. *)
Definition indexed (f : bytes) (d : dset) (t : itree) : Prop :=
  d_elem d = dlen (d_ty d) /\ dlen (d_ty d) < 2 ^ 32 /\ d_number d = volume (d_layout d) /\
  d_rank d = Z.of_nat (List.length (d_dims d)) + 1 /\ runs (d_dims d) (d_layout d) /\
  d_btree d <> 0 /\ stored f (List.length (d_dims d)) true (d_btree d) t /\
  iordered (d_dims d) (d_layout d) (d_elem d) t /\ (idepth t <= S (List.length f))%nat /\
  NoDup (map (fun c => k_index (fst c)) (ichunks t)).

(** The position of a chunk: its rank among all chunks times their size. *)
Definition chunk_pos (d : dset) (b : block) : Z :=
  offset (chunk_grid (d_dims d) (d_layout d)) (chunk_of (d_layout d) (b_offsets b)) *
  (volume (d_layout d) * d_length d).

(** [ps] are the blocks of a dataset with their positions: chunks have theirs, other blocks
    follow each other from [o] on. *)
Inductive placed (f : bytes) (d : dset) : Z -> list block -> list piece -> Prop :=
| placed_nil o : placed f d o [] []
| placed_cons o b bl data ps :
    block_data f d b data -> placed f d (o + b_ds b) bl ps ->
    placed f d o (b :: bl) ((match d_layout d with [] => o | _ => chunk_pos d b end, data) :: ps).

(** The size of a dataset, whole chunks counted. *)
Definition total (d : dset) : Z :=
  match d_layout d with
  | [] => volume (d_dims d)
  | _ => volume (chunk_grid (d_dims d) (d_layout d)) * volume (d_layout d)
  end * d_length d.

(** A dataset whose sizes fit the integers of the reader, with blocks that belong to it. *)
Definition fits (d : dset) (bl : list block) : Prop :=
  Forall (fun n => 0 <= n < 2 ^ 63) (d_dims d) /\ 0 < d_length d /\ total d < 2 ^ 63 /\
  match d_layout d with
  | [] => True
  | _ => d_dims d <> [] /\
         Forall2 (fun d l => 0 <= d /\ 1 <= l /\ d + l <= 2 ^ 64) (d_dims d) (d_layout d) /\
         Forall (fun b => List.length (b_offsets b) = List.length (d_dims d) /\
                          in_shape (chunk_grid (d_dims d) (d_layout d)) (chunk_of (d_layout d) (b_offsets b))) bl
  end.

(** Types whose elements take a fixed number of bytes each.  Sequences of variable length
    and characters (strings of length one) are not among them. *)
Inductive sized : dty -> Prop :=
| sized_fixed len sg big k : int_kind len sg = Some k -> sized (DFixed len sg big)
| sized_float4 big : sized (DFloat 4 big)
| sized_float8 big : sized (DFloat 8 big)
| sized_string len : 0 <= len -> len <> 1 -> sized (DString len)
| sized_opaque len : 0 <= len -> sized (DOpaque len)
| sized_comp len ms : 0 <= len -> sized (DComp len ms)
| sized_ref : sized (DRef 8)
| sized_enum len sg big names vals k : int_kind len sg = Some k -> sized (DEnum len len sg big names vals)
| sized_vstr d : sized (DVlen 16 true d)
| sized_array dims d : Forall (fun n => 0 <= n) dims -> match d with DArray _ _ _ => False | _ => True end ->
    sized d -> sized (DArray (volume dims * dlen d) dims d).

(** Types whose arrays take a fixed number of bytes: also the descriptors of sequences of
    variable length, and characters. *)
Inductive laid : dty -> Prop :=
| laid_sized d : sized d -> laid d
| laid_seq d : laid (DVlen 16 false d)
| laid_chars : laid (DString 1)
| laid_array dims d : Forall (fun n => 0 <= n) dims -> match d with DArray _ _ _ => False | _ => True end ->
    laid d -> laid (DArray (volume dims * dlen d) dims d).

(** Sequences of variable length, of numbers, strings or enumerations. *)
Inductive sequence : dty -> Prop :=
| sequence_of d :
    match d with DFixed _ _ _ | DFloat _ _ | DString _ | DRef _ | DEnum _ _ _ _ _ _ | DVlen _ true _ => True | _ => False end ->
    sequence (DVlen 16 false d).

(** Types whose values slice as they are read: those of fixed size, such sequences, and
    characters in one dimension of which none is NUL, so that the value [v] has them all. *)
Definition sliceable (d : dset) (v : hval) : Prop :=
  sized (d_ty d) \/ sequence (d_ty d) \/
  (d_ty d = DString 1 /\ exists s, v = HStr s /\ d_dims d = [zlen s]).

(** All keys of an index are indices of the dataset. *)
Inductive ikeys (dims : list Z) : itree -> Prop :=
| ikeys_leaf es last : Forall (fun c => in_shape dims (k_index (fst c))) es -> ikeys dims (ILeaf es last)
| ikeys_node level es last :
    Forall (fun e => ikeys dims (snd e) /\ in_shape dims (k_index (fst (fst e)))) es ->
    ikeys dims (INode level es last).

(** A dataset of chunks of any shape, with index [t] stored in the file. *)
Definition indexed_whole (f : bytes) (d : dset) (t : itree) : Prop :=
  d_elem d = dlen (d_ty d) /\ dlen (d_ty d) < 2 ^ 32 /\ d_number d = volume (d_layout d) /\
  d_rank d = Z.of_nat (List.length (d_dims d)) + 1 /\ d_layout d <> [] /\
  d_btree d <> 0 /\ stored f (List.length (d_dims d)) true (d_btree d) t /\
  ikeys (d_dims d) t /\ (idepth t <= S (List.length f))%nat /\
  NoDup (map (fun c => chunk_of (d_layout d) (k_index (fst c))) (ichunks t)).

(** ** Indexing values *)

(** [v\[i\]\[j\]...], and whether the values are arrays of shape [ds]. *)
Fixpoint vat (v : hval) (idx : list Z) : option hval :=
  match idx with
  | [] => Some v
  | i :: r => match v with
              | HSlice _ l => if i <? 0 then None else match nth_error l (Z.to_nat i) with Some x => vat x r | None => None end
              | _ => None
              end
  end.
Inductive shaped : list Z -> hval -> Prop :=
| shaped_nil v : shaped [] v
| shaped_cons n ds t l : zlen l = n -> Forall (shaped ds) l -> shaped (n :: ds) (HSlice t l).

Fixpoint vadd (a b : list Z) : list Z := match a, b with x :: a, y :: b => x + y :: vadd a b | _, _ => [] end.
Fixpoint vsub (a b : list Z) : list Z := match a, b with x :: a, y :: b => x - y :: vsub a b | _, _ => [] end.

(** Bounds inside a shape. *)
Inductive bounds : list Z -> list Z -> list Z -> Prop :=
| bounds_nil : bounds [] [] []
| bounds_cons n ds b br e er : 0 <= b <= e -> e <= n -> bounds ds br er -> bounds (n :: ds) (b :: br) (e :: er).

(** ** Data plus fill *)

(** [out] has the byte of a piece where a piece is, and elsewhere the bytes of the pattern
    repeated from the start [h] of the hole, which is where the last piece before it ends. *)
Definition data_plus_fill (pat : bytes) (ps : list piece) (size : Z) (out : bytes) : Prop :=
  zlen out = size /\
  forall p, 0 <= p < size ->
    (forall x, In x ps -> fst x <= p < p_end x -> nth (Z.to_nat p) out 0 = nth (Z.to_nat (p - fst x)) (snd x) 0) /\
    ((forall x, In x ps -> ~ fst x <= p < p_end x) ->
     exists h, (h = 0 \/ exists x, In x ps /\ p_end x = h) /\ 0 <= h <= p /\
               (forall x, In x ps -> ~ h < p_end x <= p) /\
               nth (Z.to_nat p) out 0 = nth (Z.to_nat ((p - h) mod zlen pat)) pat 0).
