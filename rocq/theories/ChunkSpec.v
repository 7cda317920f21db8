(** Chunked storage, independently of the reader: where the element with a given index lies in
    the sequence of chunks, and the whole dataset in row-major order. *)
From Verif Require Import Prelude ArraySpec.

(** All index tuples of a shape in lexicographic (row-major) order *)
Fixpoint indices (ds : list Z) : list (list Z) :=
  match ds with
  | [] => [[]]
  | d :: r => flat_map (fun i => map (cons i) (indices r)) (map Z.of_nat (seq 0 (Z.to_nat d)))
  end.

(** Number of chunks in each dimension: the extent divided by the chunk extent, rounded up *)
Fixpoint chunk_grid (ds ls : list Z) : list Z :=
  match ds, ls with d :: ds', l :: ls' => (d + l - 1) / l :: chunk_grid ds' ls' | _, _ => [] end.
(** The chunk an index lies in, and the index within that chunk *)
Fixpoint chunk_of (ls idx : list Z) : list Z :=
  match ls, idx with l :: ls', i :: idx' => i / l :: chunk_of ls' idx' | _, _ => [] end.
Fixpoint within (ls idx : list Z) : list Z :=
  match ls, idx with l :: ls', i :: idx' => i mod l :: within ls' idx' | _, _ => [] end.

(** The bytes of the element with index [idx] in [s], the chunks one after the other in
    lexicographic order of their coordinates, each in row-major order *)
Definition chunk_elem (ds ls : list Z) (dt : Z) (s : bytes) (idx : list Z) : bytes :=
  let pos := offset (chunk_grid ds ls) (chunk_of ls idx) * volume ls + offset ls (within ls idx) in
  ztake dt (zdrop (pos * dt) s).

(** The dataset in row-major order *)
Definition dataset (ds ls : list Z) (dt : Z) (s : bytes) : bytes :=
  flat_map (chunk_elem ds ls dt s) (indices ds).

(** Lexicographic order of chunk coordinates *)
Inductive lex_lt : list Z -> list Z -> Prop :=
| lex_here a b x y : a < b -> List.length x = List.length y -> lex_lt (a :: x) (b :: y)
| lex_next a x y : lex_lt x y -> lex_lt (a :: x) (a :: y).

(** Chunk shapes for which the order "chunk by chunk along all but the last dimension" is the
    row-major order: chunks of extent one in some first dimensions, any extent in the next one,
    and chunks covering the whole dimension in the others but the last, which is free. *)
Inductive orderly : list Z -> list Z -> Prop :=
| ord_last d l : orderly [d] [l]
| ord_one d ds ls : orderly ds ls -> orderly (d :: ds) (1 :: ls)
| ord_whole d l ds ls e m : Forall2 (fun d l => d <= l) ds ls -> orderly (d :: ds ++ [e]) (l :: ls ++ [m]).
