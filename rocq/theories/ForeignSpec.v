(** Object headers, groups and superblocks as the HDF5 file format has them: HDF5 File Format
    Specification, version 3.0, II (superblock), IV.A.1 (object headers), IV.A.2 (messages).
    Written without the reader. *)
From Coq Require Import Permutation.
From Verif Require Import Prelude Lookup3Spec MetaSpec DenseSpec.

(** ** Object headers *)
Record fmsg : Type := mkFmsg { fm_type : Z; fm_flags : Z; fm_order : Z; fm_data : bytes }.

(** The two versions; in version 2 the creation order of messages may be there *)
Inductive hversion : Type := HV1 | HV2 (track : bool).

Definition fmsg_bytes (v : hversion) (m : fmsg) : bytes :=
  match v with
  | HV1 => le 2 (fm_type m) ++ le 2 (zlen (fm_data m)) ++ [fm_flags m; 0; 0; 0] ++ fm_data m
  | HV2 track => [fm_type m] ++ le 2 (zlen (fm_data m)) ++ [fm_flags m] ++
                 (if track then le 2 (fm_order m) else []) ++ fm_data m
  end.
(** Only a null message has no data; in version 1 the data takes a multiple of 8 bytes. *)
Definition fmsg_ok (v : hversion) (m : fmsg) : Prop :=
  word 8 (fm_flags m) /\ word 16 (fm_order m) /\ zlen (fm_data m) < 2 ^ 16 /\
  (fm_data m = [] -> fm_type m = 0) /\
  match v with HV1 => word 16 (fm_type m) /\ zlen (fm_data m) mod 8 = 0 | HV2 _ => word 8 (fm_type m) end.

(** The messages of a header, or of a continuation block of it; in version 2 there may be a gap
    after them, too small for another message *)
Definition chunk (v : hversion) (ms : list fmsg) (gap : Z) : bytes := flat_map (fmsg_bytes v) ms ++ zrep gap 0.
Definition chunk_ok (v : hversion) (ms : list fmsg) (gap : Z) : Prop :=
  Forall (fmsg_ok v) ms /\
  match v with HV1 => gap = 0 | HV2 track => 0 <= gap < (if track then 6 else 4) end.

Definition optional (b : bool) (n : Z) (x : bytes) : Prop := if b then zlen x = n else x = [].

(** A header of version [v] with these messages is at [a]; headers of 2 GB and more are left
    out *)
Definition header_is (f : bytes) (a : Z) (v : hversion) (ms : list fmsg) : Prop :=
  exists gap, chunk_ok v ms gap /\
  let c := chunk v ms gap in
  match v with
  | HV1 => exists number refs, word 16 number /\ word 32 refs /\ zlen c < 2 ^ 32 /\
      has_at f a ([1; 0] ++ le 2 number ++ le 4 refs ++ le 4 (zlen c) ++ zrep 4 0 ++ c)
  | HV2 track => exists flags times phase,
      word 6 flags /\ track = Z.testbit flags 2 /\
      optional (Z.testbit flags 5) 16 times /\ optional (Z.testbit flags 4) 4 phase /\
      zlen c < 2 ^ (8 * 2 ^ (flags mod 4)) /\ zlen c < 2 ^ 31 /\
      has_at f a (sealed (bs "OHDR" ++ [2; flags] ++ times ++ phase ++
                          le (Z.to_nat (2 ^ (flags mod 4))) (zlen c) ++ c))
  end.

(** A continuation block of [size] bytes is at [a] *)
Definition block_is (f : bytes) (a size : Z) (v : hversion) (ms : list fmsg) : Prop :=
  exists gap, chunk_ok v ms gap /\
  let c := chunk v ms gap in
  match v with
  | HV1 => size = zlen c /\ has_at f a c
  | HV2 _ => size = zlen (sealed (bs "OCHK" ++ c)) /\ has_at f a (sealed (bs "OCHK" ++ c))
  end.

(** What is held by the messages [ms]: these, but in place of a continuation message what is in
    the block it names; at most [n] blocks deep *)
Inductive held (f : bytes) (v : hversion) : nat -> list fmsg -> list fmsg -> Prop :=
| held_nil n : held f v n [] []
| held_msg n m ms l : fm_type m <> 16 -> held f v n ms l -> held f v n (m :: ms) (m :: l)
| held_more n m ms off size inner li l :
    fm_type m = 16 -> word 64 off -> word 31 size -> fm_data m = le 8 off ++ le 8 size ->
    block_is f off size v inner -> held f v n inner li -> held f v (S n) ms l ->
    held f v (S n) (m :: ms) (li ++ l).

(** The messages of the object at [a], all told *)
Definition messages_are (f : bytes) (n : nat) (a : Z) (l : list fmsg) : Prop :=
  0 < a /\ exists v ms, header_is f a v ms /\ held f v n ms l.

(** ** Groups *)

(** A hard link, in a link message: IV.A.2.g *)
Definition link_bytes (flags order cset : Z) (name : bytes) (addr : Z) : bytes :=
  [1; flags] ++ (if Z.testbit flags 3 then [0] else []) ++ (if Z.testbit flags 2 then le 8 order else []) ++
  (if Z.testbit flags 4 then [cset] else []) ++ le (Z.to_nat (2 ^ (flags mod 4))) (zlen name) ++ name ++ le 8 addr.
Definition hard_link (b : bytes) (name : bytes) (addr : Z) : Prop :=
  exists flags order cset pad, word 5 flags /\ word 64 order /\ (cset = 0 \/ cset = 1) /\
    word 64 addr /\ zlen name < 2 ^ (8 * 2 ^ (flags mod 4)) /\
    b = link_bytes flags order cset name addr ++ zrep pad 0.

(** The link info message: IV.A.2.c *)
Definition link_info (b : bytes) (heap index : Z) : Prop :=
  exists flags most byOrder pad, word 2 flags /\ word 64 most /\ word 64 heap /\ word 64 index /\ word 64 byOrder /\
    b = [0; flags] ++ (if Z.testbit flags 0 then le 8 most else []) ++ le 8 heap ++ le 8 index ++
        (if Z.testbit flags 1 then le 8 byOrder else []) ++ zrep pad 0.

(** Links kept in a heap, with an index of their names *)
Definition dense_are (f : bytes) (heap index : Z) (links : list (bytes * Z)) : Prop :=
  exists N d t, btree_at f 5 link_rec 32 N 11 index d t /\ usual_widths N 11 d /\
    Forall2 (fun r x => exists a b, in_heap f heap (br_off r) a /\ zlen b = br_len r /\
                                    has_at f a b /\ hard_link b (fst x) (snd x)) (all t) links.

(** Links kept in a symbol table of one level *)
Definition table_has (f : bytes) (index heap : Z) (links : list (bytes * Z)) : Prop :=
  exists syms, symbol_table_at f 0 index syms /\ word 64 heap /\
    Forall2 (fun s x => name_at f heap (sy_name s) (fst x) /\ sy_addr s = snd x) syms links.

(** A dataspace: IV.A.2.b, version 1 without permutations, and version 2 *)
Definition dataspace (b : bytes) (dims : list Z) : Prop :=
  exists flags most pad, word 1 flags /\ Forall (word 64) dims /\ Forall (word 64) most /\
    (if Z.testbit flags 0 then zlen most = zlen dims else most = []) /\ zlen dims < 2 ^ 8 /\
    (b = [1; zlen dims; flags] ++ zrep 5 0 ++ flat_map (le 8) dims ++ flat_map (le 8) most ++ zrep pad 0 \/
     exists kind, 0 <= kind <= 2 /\
     b = [2; zlen dims; flags; kind] ++ flat_map (le 8) dims ++ flat_map (le 8) most ++ zrep pad 0).

(** ** Trees of objects *)

(** Groups, with the links in them and the objects these lead to; datasets; named datatypes *)
Inductive ftree : Type :=
| FGroup (kids : list (bytes * Z * ftree))
| FData (dims : list Z)
| FType.

(** The addresses of all objects below *)
Fixpoint below (t : ftree) : list Z :=
  match t with
  | FGroup kids => flat_map (fun k => snd (fst k) :: below (snd k)) kids
  | _ => []
  end.

(** The attribute info message: IV.A.2.v *)
Definition attr_info (b : bytes) (heap index : Z) : Prop :=
  exists flags most byOrder pad, word 2 flags /\ word 16 most /\ word 64 heap /\ word 64 index /\ word 64 byOrder /\
    b = [0; flags] ++ (if Z.testbit flags 0 then le 2 most else []) ++ le 8 heap ++ le 8 index ++
        (if Z.testbit flags 1 then le 8 byOrder else []) ++ zrep pad 0.

(** The data of the messages of a type *)
Definition of_type (t : Z) (l : list fmsg) : list bytes := map fm_data (filter (fun m => fm_type m =? t) l).

Section Objects.
  (** the file, and what the data of a message of some type is that says nothing of groups: a
      datatype, an attribute and so on *)
  Context (f : bytes) (other : Z -> bytes -> Prop).

  (** A message with no say on the structure, of one of these types; a null message may be
      anything *)
  Definition plain (types : list Z) (m : fmsg) : Prop :=
    In (fm_type m) types /\ (fm_type m = 0 \/ (fm_data m <> [] /\ other (fm_type m) (fm_data m))).

  (** The message of a group, and the links in it: a link, a symbol table, or something else *)
  Definition group_msg (m : fmsg) (links : list (bytes * Z)) : Prop :=
    (fm_type m = 6 /\ exists name addr, hard_link (fm_data m) name addr /\ links = [(name, addr)]) \/
    (fm_type m = 17 /\ exists index heap pad, fm_data m = le 8 index ++ le 8 heap ++ zrep pad 0 /\ word 64 index /\
                                             table_has f index heap links) \/
    ((fm_type m = 2 \/ fm_type m = 21 \/ plain [0; 10; 12; 13; 14; 18; 22] m) /\ links = []).
  (** Links outside the header *)
  Definition stored_links (l : list fmsg) (links : list (bytes * Z)) : Prop :=
    (of_type 2 l = [] /\ links = []) \/
    exists b heap index, of_type 2 l = [b] /\ link_info b heap index /\
      ((heap = undefined /\ links = []) \/ (heap <> undefined /\ dense_are f heap index links)).
  (** Attributes outside the header *)
  Definition stored_attrs (l : list fmsg) : Prop :=
    of_type 21 l = [] \/
    exists b heap index, of_type 21 l = [b] /\ attr_info b heap index /\
      (heap = undefined \/
       heap <> undefined /\
       exists N d t, btree_at f 8 attr_rec 40 N 17 index d t /\ usual_widths N 17 d /\
         Forall (fun r => exists a b, in_heap f heap (br_off r) a /\ zlen b = br_len r /\
                                      0 < zlen b /\ has_at f a b /\ other 12 b) (all t)).

  (** as well, with the creation orders and the messages of the attributes that are there *)
  Definition attrs_stored (l : list fmsg) (xs : list (Z * bytes)) : Prop :=
    (of_type 21 l = [] /\ xs = []) \/
    exists b heap index, of_type 21 l = [b] /\ attr_info b heap index /\
      ((heap = undefined /\ xs = []) \/
       heap <> undefined /\
       exists N d t, btree_at f 8 attr_rec 40 N 17 index d t /\ usual_widths N 17 d /\
         Forall2 (fun r x => fst x = br_order r /\ exists a, in_heap f heap (br_off r) a /\ zlen (snd x) = br_len r /\
                             0 < zlen (snd x) /\ has_at f a (snd x) /\ other 12 (snd x)) (all t) xs).

  (** The object at an address is such a tree.  The number bounds how deep groups and
      continuation blocks are nested. *)
  Inductive object_is : nat -> Z -> ftree -> Prop :=
  | is_group n c k a l ls stored kids :
      messages_are f c a l -> (c + k < n)%nat ->
      Forall2 group_msg l ls -> stored_links l stored -> stored_attrs l ->
      of_type 2 l ++ of_type 17 l <> [] ->
      Permutation (List.concat ls ++ stored) (map fst kids) -> NoDup (map fst (map fst kids)) ->
      kids_are k kids -> object_is n a (FGroup kids)
  | is_data n c a l b dims :
      messages_are f c a l -> (c < n)%nat ->
      Forall (fun m => fm_type m = 1 \/ fm_type m = 21 \/ plain [0; 3; 4; 5; 8; 11; 12; 13; 14; 18; 22] m) l ->
      of_type 1 l = [b] -> dataspace b dims -> stored_attrs l ->
      object_is n a (FData dims)
  | is_type n c a l :
      messages_are f c a l -> (c < n)%nat ->
      Forall (fun m => fm_type m = 21 \/ plain [0; 3; 12; 13; 14; 18; 22] m) l ->
      of_type 3 l <> [] -> stored_attrs l -> object_is n a FType
  with kids_are : nat -> list (bytes * Z * ftree) -> Prop :=
  | kids_nil n : kids_are n []
  | kids_cons n name a t kids : object_is n a t -> kids_are n kids -> kids_are n ((name, a, t) :: kids).
End Objects.

(** ** Superblocks *)

Definition h5_signature : bytes := [137; 72; 68; 70; 13; 10; 26; 10].
(** with offsets and lengths of 8 bytes, no driver, no free space index, no extension, at the
    start of the file *)
Definition superblock_is (f : bytes) (root : Z) : Prop :=
  word 64 root /\
  exists eof, word 64 eof /\ eof <= zlen f /\
  ((exists version free k flags k2 driver name cache scratch,
      (version = 0 \/ version = 1) /\ word 8 free /\ word 16 k /\ word 32 flags /\ word 16 k2 /\ 0 < k2 /\
      word 64 driver /\ word 64 name /\ (cache = 0 \/ cache = 1) /\ zlen scratch = 16 /\
      has_at f 0 (h5_signature ++ [version; free; 0; 0; 0; 8; 8; 0] ++ le 2 4 ++ le 2 k ++ le 4 flags ++
                  (if version =? 1 then le 2 k2 ++ [0; 0] else []) ++
                  le 8 0 ++ le 8 undefined ++ le 8 eof ++ le 8 driver ++
                  le 8 name ++ le 8 root ++ le 4 cache ++ le 4 0 ++ scratch)) \/
   (exists version flags, (version = 2 \/ version = 3) /\ word 8 flags /\
      has_at f 0 (sealed (h5_signature ++ [version; 8; 8; flags] ++ le 8 0 ++ le 8 undefined ++ le 8 eof ++ le 8 root)))).

(** ** Paths in a tree *)
Inductive found_at : ftree -> list bytes -> ftree -> Prop :=
| found_here t : found_at t [] t
| found_below kids name a t p u : In (name, a, t) kids -> found_at t p u -> found_at (FGroup kids) (name :: p) u.

(** No name is empty or has a slash *)
Definition plain_names (t : ftree) : Prop :=
  forall p kids name a u, found_at t p (FGroup kids) -> In (name, a, u) kids -> name <> [] /\ ~ In 47 name.

Definition is_fgroup (t : ftree) : bool := match t with FGroup _ => true | _ => false end.

Scheme object_is_ind2 := Induction for object_is Sort Prop
with kids_are_ind2 := Induction for kids_are Sort Prop.
Combined Scheme object_kids_ind from object_is_ind2, kids_are_ind2.
