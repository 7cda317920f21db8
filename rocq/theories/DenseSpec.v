(** How the HDF5 file format keeps the links of a group and the attributes of an object outside
    the object header: HDF5 File Format Specification, version 3.0, III.A.1 (symbol table
    nodes of version-1 B-trees), III.A.2 (version-2 B-trees), III.B, III.C (symbol table
    entries), III.D (local heaps), III.G (fractal heaps).  Written without the reader. *)
From Verif Require Import Prelude Lookup3Spec MetaSpec.

Definition undefined : Z := 2 ^ 64 - 1.
Definition word (w : Z) (z : Z) : Prop := 0 <= z < 2 ^ w.
(** A structure with its checksum after it *)
Definition sealed (b : bytes) : bytes := b ++ le 4 (lookup3 b).

(** ** Fractal heaps: table width 4, no filters *)
Section Heap.
  (** the file, the starting block size, the largest direct block, the number of bits of an
      offset *)
  Context (f : bytes) (B M bits : Z).

  Definition row_size (r : Z) : Z := if r =? 0 then B else B * 2 ^ (r - 1).
  Definition row_start (r : Z) : Z := if r =? 0 then 0 else 4 * B * 2 ^ (r - 1).
  (** the number of rows of an indirect block that stands for [s] bytes *)
  Definition rows_of (s : Z) : Z := Z.log2 s - Z.log2 (4 * B) + 1.

  (** An indirect block with these entries is at [a] *)
  Definition indirect_at (a : Z) (entries : list Z) : Prop :=
    exists heap off, word 64 heap /\ word bits off /\ Forall (word 64) entries /\
      has_at f a (sealed (bs "FHIB" ++ [0] ++ le 8 heap ++ le (Z.to_nat (bits / 8)) off ++
                          flat_map (le 8) entries)).

  (** The byte of the heap at [off], counted from the start of an indirect block with these
      entries, is at [addr] in the file.  Entry [c] of row [r] stands for [row_size r] bytes. *)
  Inductive byte_at : list Z -> Z -> Z -> Prop :=
  | byte_direct entries off r c a :
      0 <= r -> 0 <= c < 4 -> nth_error entries (Z.to_nat (4 * r + c)) = Some a -> a <> undefined ->
      row_size r <= M ->
      row_start r + c * row_size r <= off < row_start r + (c + 1) * row_size r ->
      byte_at entries off (a + (off - (row_start r + c * row_size r)))
  | byte_indirect entries off r c a es addr :
      0 <= r -> 0 <= c < 4 -> nth_error entries (Z.to_nat (4 * r + c)) = Some a -> a <> undefined ->
      M < row_size r ->
      row_start r + c * row_size r <= off < row_start r + (c + 1) * row_size r ->
      indirect_at a es -> zlen es = 4 * rows_of (row_size r) ->
      byte_at es (off - (row_start r + c * row_size r)) addr ->
      byte_at entries off addr.

  Definition heap_sizes : Prop :=
    (bits = 32 \/ bits = 40) /\ exists b m, 0 <= b <= m /\ m < 64 /\ B = 2 ^ b /\ M = 2 ^ m.

  (** The header of the heap is at [a]; its root block, and the rows of that if it is an
      indirect one, else 0 *)
  Definition heap_at (a root rows : Z) : Prop :=
    heap_sizes /\ word 64 root /\ word 16 rows /\
    (0 < rows -> 4 * B * 2 ^ (rows - 1) <= 2 ^ bits) /\
    exists idLen flags maxObject twelve startRows,
      word 16 idLen /\ word 8 flags /\ word 32 maxObject /\ Forall (word 64) twelve /\ zlen twelve = 12 /\
      word 16 startRows /\
      has_at f a (sealed (bs "FRHP" ++ [0] ++ le 2 idLen ++ le 2 0 ++ [flags] ++ le 4 maxObject ++
                          flat_map (le 8) twelve ++ le 2 4 ++ le 8 B ++ le 8 M ++ le 2 bits ++
                          le 2 startRows ++ le 8 root ++ le 2 rows)).
End Heap.

(** The byte at [off] in the heap whose header is at [a] is at [addr] in the file. *)
Definition in_heap (f : bytes) (a off addr : Z) : Prop :=
  exists B M bits root rows, heap_at f B M bits a root rows /\
    if rows =? 0 then root <> undefined /\ 0 <= off < B /\ addr = root + off
    else exists entries, indirect_at f bits root entries /\ zlen entries = 4 * rows /\
         byte_at f B M bits entries off addr.

(** ** Version-2 B-trees *)

(** Records of the index of the names of links (type 5) and of attributes (type 8): where the
    object is in the heap, its length, the creation order, and what the reader has no use for.
    The heap identifier has 7 bytes for links and 8 for attributes. *)
Record brec : Type := mkBrec { br_off : Z; br_len : Z; br_order : Z; br_hash : Z; br_flags : Z }.
Definition link_rec (r : brec) : bytes :=
  le 4 (br_hash r) ++ [0] ++ le 4 (br_off r) ++ le 2 (br_len r).
Definition attr_rec (r : brec) : bytes :=
  [0] ++ le 5 (br_off r) ++ le 2 (br_len r) ++ [br_flags r] ++ le 4 (br_order r) ++ le 4 (br_hash r).
Definition brec_ok (bits : Z) (r : brec) : Prop :=
  word bits (br_off r) /\ word 16 (br_len r) /\ word 32 (br_order r) /\ word 32 (br_hash r) /\ word 8 (br_flags r).

(** A tree: records in the leaves and in the nodes, one more child than records in a node *)
Inductive btree : Type :=
| BLeaf (rs : list brec)
| BNode (rs : list brec) (cs : list btree).
Definition own (t : btree) : list brec := match t with BLeaf rs => rs | BNode rs _ => rs end.
(** All records, in the order of the keys *)
Fixpoint all (t : btree) : list brec :=
  match t with
  | BLeaf rs => rs
  | BNode rs cs =>
      (fix go (rs : list brec) (cs : list btree) : list brec :=
         match cs with
         | [] => rs
         | c :: cs' => all c ++ match rs with [] => go [] cs' | r :: rs' => r :: go rs' cs' end
         end) rs cs
  end.

Section Tree.
  (** the type and the bytes of a record; the sizes of a node and of a record *)
  Context (f : bytes) (ty : Z) (rec_bytes : brec -> bytes) (bits N R : Z).

  (** The bytes needed to write numbers up to [n] *)
  Definition width (n : Z) : Z := Z.log2 n / 8 + 1.
  Definition max_leaf : Z := (N - 10) / R.
  (** the width of the number of records of a child *)
  Definition count_width : Z := width max_leaf.
  (** The most records a tree of depth [d] can have *)
  Fixpoint max_total (d : nat) : Z :=
    match d with
    | O => max_leaf
    | S d' =>
        let pointer := 8 + count_width + match d' with O => 0 | S _ => width (max_total d') end in
        let m := (N - (10 + pointer)) / (R + pointer) in
        (m + 1) * max_total d' + m
    end.
  (** the width of the number of all records below a child of depth [d]; it is not there for
      leaves *)
  Definition total_width (d : nat) : Z := match d with O => 0 | S _ => width (max_total d) end.

  Definition leaf_bytes (rs : list brec) : bytes := bs "BTLF" ++ [0; ty] ++ flat_map rec_bytes rs.
  Definition pointer_bytes (d : nat) (p : Z * btree) : bytes :=
    le 8 (fst p) ++ le (Z.to_nat count_width) (zlen (own (snd p))) ++
    le (Z.to_nat (total_width d)) (zlen (all (snd p))).
  (** a node of depth [d + 1] *)
  Definition node_bytes (d : nat) (rs : list brec) (ps : list (Z * btree)) : bytes :=
    bs "BTIN" ++ [0; ty] ++ flat_map rec_bytes rs ++ flat_map (pointer_bytes d) ps.

  (** The tree is stored at an address, with a given depth *)
  Inductive tree_at : nat -> Z -> btree -> Prop :=
  | leaf_at a rs :
      Forall (brec_ok bits) rs -> rs <> [] -> zlen (sealed (leaf_bytes rs)) <= N ->
      has_at f a (sealed (leaf_bytes rs)) -> tree_at O a (BLeaf rs)
  | node_at d a rs ps :
      Forall (brec_ok bits) rs -> rs <> [] -> zlen ps = zlen rs + 1 ->
      zlen (sealed (node_bytes d rs ps)) <= N ->
      has_at f a (sealed (node_bytes d rs ps)) ->
      Forall (fun p => word 64 (fst p) /\ tree_at d (fst p) (snd p)) ps ->
      tree_at (S d) a (BNode rs (map snd ps)).

  (** The header of a tree with at least one record is at [a] *)
  Definition btree_at (a : Z) (d : nat) (t : btree) : Prop :=
    word 32 N /\ (forall r, zlen (rec_bytes r) = R) /\ 
    exists split merge root,
      word 8 split /\ word 8 merge /\ word 64 root /\ tree_at d root t /\ Z.of_nat d < 2 ^ 16 /\
      zlen (all t) < 2 ^ 63 /\
      has_at f a (sealed (bs "BTHD" ++ [0; ty] ++ le 4 N ++ le 2 R ++ le 2 (Z.of_nat d) ++
                          [split; merge] ++ le 8 root ++ le 2 (zlen (own t)) ++ le 8 (zlen (all t)))).

  (** The widths the reader takes for granted *)
  Definition usual_widths (d : nat) : Prop :=
    count_width = 1 /\ forall k, (0 < k < d)%nat -> total_width k = 2.
End Tree.

(** ** Symbol tables *)

(** A symbol: the place of its name in the local heap, the address of its object, and the
    address of a B-tree and a heap if the object is a group that has these cached *)
Record symbol : Type := mkSymbol { sy_name : Z; sy_addr : Z; sy_cache : option (Z * Z) }.
Definition symbol_ok (s : symbol) : Prop :=
  word 64 (sy_name s) /\ word 64 (sy_addr s) /\
  match sy_cache s with Some (b, h) => word 64 b /\ word 64 h | None => True end.
Definition symbol_bytes (s : symbol) : bytes :=
  le 8 (sy_name s) ++ le 8 (sy_addr s) ++
  match sy_cache s with
  | None => le 4 0 ++ le 4 0 ++ zrep 16 0
  | Some (b, h) => le 4 1 ++ le 4 0 ++ le 8 b ++ le 8 h
  end.

(** A local heap at [a]: a name with a NUL after it is at [off] of its data segment *)
Definition name_at (f : bytes) (a off : Z) (name : bytes) : Prop :=
  exists size free data, word 63 size /\ word 64 free /\ word 63 data /\ 0 <= off /\
    has_at f a (bs "HEAP" ++ [0; 0; 0; 0] ++ le 8 size ++ le 8 free ++ le 8 data) /\
    data + size <= zlen f /\ off + zlen name + 1 <= size /\
    name <> [] /\ Forall (fun c => c <> 0) name /\ has_at f (data + off) (name ++ [0]).

(** A symbol table node *)
Definition symbols_at (f : bytes) (a : Z) (l : list symbol) : Prop :=
  Forall symbol_ok l /\ zlen l < 2 ^ 16 /\
  has_at f a (bs "SNOD" ++ [1; 0] ++ le 2 (zlen l) ++ flat_map symbol_bytes l).

(** A node of a version-1 B-tree over symbol table nodes: its level, its left and right
    siblings, its keys, which are one more than its children.  A node takes up space for more
    than it uses, 52 bytes at the least. *)
Definition treenode_at (f : bytes) (a level sl sr : Z) (ks cs : list Z) : Prop :=
  zlen ks = zlen cs + 1 /\ Forall (word 64) ks /\ Forall (word 64) cs /\ zlen cs < 2 ^ 16 /\
  word 8 level /\ word 64 sl /\ word 64 sr /\ a + 52 <= zlen f /\
  has_at f a (bs "TREE" ++ [0; level] ++ le 2 (zlen cs) ++ le 8 sl ++ le 8 sr ++
              flat_map (fun p => le 8 (fst p) ++ le 8 (snd p)) (combine ks cs) ++ le 8 (last ks 0)).

(** The tree below a node: nodes of level 0 have symbol table nodes as their children, others
    nodes one level down; the symbols in all of them *)
Inductive symtree_at (f : bytes) : nat -> Z -> Z -> Z -> list symbol -> Prop :=
| sym_leaf a sl sr ks cs ls :
    treenode_at f a 0 sl sr ks cs -> Forall2 (symbols_at f) cs ls ->
    symtree_at f O sl sr a (List.concat ls)
| sym_node d a sl sr ks cs ls :
    treenode_at f a (Z.of_nat d + 1) sl sr ks cs ->
    Forall2 (fun c l => exists l1 l2, symtree_at f d l1 l2 c l) cs ls ->
    symtree_at f (S d) sl sr a (List.concat ls).
Definition symbol_table_at (f : bytes) (d : nat) (a : Z) (l : list symbol) : Prop :=
  symtree_at f d undefined undefined a l.

(** Doing something for every element of a list *)
Fixpoint rfold {S A} (g : A -> S -> res S) (l : list A) (st : S) : res S :=
  match l with
  | [] => Ok st
  | x :: r => match g x st with Ok st' => rfold g r st' | Err e => Err e | Panic => Panic end
  end.
