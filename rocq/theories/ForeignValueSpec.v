(** How the values of a type are stored in a file of the HDF5 format, and what Go values they are:
    HDF5 File Format Specification, version 3.0, IV.A.2.d and III.E.  Written without the reader. *)
From Verif Require Import Prelude GoVal H5Value MetaSpec DenseSpec ForeignTypeSpec.

(** The text before the first zero *)
Fixpoint cut (b : bytes) : bytes :=
  match b with [] => [] | c :: r => if c =? 0 then [] else c :: cut r end.

(** The kinds of numbers *)
Definition int_kind_of (n : Z) (sg : bool) : nk :=
  if n =? 1 then (if sg then I8 else U8) else if n =? 2 then (if sg then I16 else U16)
  else if n =? 4 then (if sg then I32 else U32) else (if sg then I64 else U64).
Definition real_kind (n : Z) : nk := if n =? 4 then F32 else F64.
Fixpoint slices (n : nat) (t : hty) : hty := match n with O => t | Datatypes.S m => TSlice (slices m t) end.

(** The Go type of an array with these dimensions: slices of slices.  Characters (strings of length 1)
    in one dimension are one string; values of an enumeration know their type as a whole. *)
Fixpoint go_type_of (t : fty) (dims : list Z) : hty :=
  match t with
  | FInt n sg _ => slices (List.length dims) (TNum (int_kind_of n sg))
  | FReal n _ => slices (List.length dims) (TNum (real_kind n))
  | FText n => if (n =? 1) && (0 <? zlen dims) then slices (List.length dims - 1) TStr else slices (List.length dims) TStr
  | FOpaque _ => slices (List.length dims) TOpaque
  | FComp _ _ => slices (List.length dims) TComp
  | FRef => slices (List.length dims) (TNum U64)
  | FEnum _ _ _ _ _ => TEnum
  | FSeq t => slices (List.length dims) (TSlice (go_type_of t []))
  | FString _ => slices (List.length dims) TStr
  | FArray adims t => go_type_of t (dims ++ adims)
  end.

(** Types whose arrays are slices of what is stored, one after the other *)
Definition in_rows (t : fty) : bool :=
  match t with FText n => negb (n =? 1) | FEnum _ _ _ _ _ | FArray _ _ => false | _ => true end.
(** There are such numbers *)
Definition numbers_ok (t : fty) : Prop :=
  match t with FInt n _ _ => int_size n | FReal n _ => n = 4 \/ n = 8 | _ => True end.
Definition is_seq (t : fty) : bool := match t with FSeq _ => true | _ => false end.
Definition is_array (t : fty) : bool := match t with FArray _ _ => true | _ => false end.
(** Types of which a sequence may be empty: numbers, strings, references, enumerations *)
Definition simple (t : fty) : Prop :=
  match t with
  | FInt n _ _ | FEnum n _ _ _ _ => int_size n
  | FReal n _ => n = 4 \/ n = 8
  | FText n => 0 < n
  | FRef | FString _ => True
  | _ => False
  end.

Section Values.
(** What the objects of the global heaps are: address of the heap, index, data *)
Context (in_heap : Z -> Z -> bytes -> Prop).

(** Where data of varying length are *)
Definition descriptor_of (count addr idx : Z) : bytes := le 4 count ++ le 8 addr ++ le 4 idx.

(** [b] has the value [v] in it, of this type and with these dimensions *)
Inductive array_is : fty -> list Z -> bytes -> hval -> Prop :=
| value_int n sg big z : int_size n -> int_in n sg z ->
    array_is (FInt n sg big) [] (int_bytes n big z) (HNum (int_kind_of n sg) z)
| value_real n big z : n = 4 \/ n = 8 -> word (8 * n) z ->
    array_is (FReal n big) [] (int_bytes n big z) (HNum (real_kind n) z)
| value_text n b : 0 < n -> zlen b = n -> array_is (FText n) [] b (HStr (cut b))
| value_characters b : array_is (FText 1) [zlen b] b (HStr (cut b))
| value_opaque n b : 0 < n -> zlen b = n -> array_is (FOpaque n) [] b (HOpaque b)
| value_ref a : word 64 a -> array_is FRef [] (le 8 a) (HNum U64 a)
| value_comp n ms b fs : 0 < n < 2 ^ 32 -> fields_are 0 n ms b fs -> array_is (FComp n ms) [] b (HComp fs)
| value_enum n sg big names vals dims b v : array_is (FInt n sg big) dims b v ->
    array_is (FEnum n sg big names vals) dims b (HEnum v names (map (HNum (int_kind_of n sg)) vals))
| value_no_string t addr idx : word 64 addr -> word 32 idx ->
    array_is (FString t) [] (descriptor_of 0 addr idx) (HStr [])
| value_string t addr idx data : word 64 addr -> word 32 idx -> in_heap addr idx data -> 0 < zlen data < 2 ^ 32 ->
    array_is (FString t) [] (descriptor_of (zlen data) addr idx) (HStr (cut data))
| value_no_seq t addr idx : word 64 addr -> word 32 idx -> simple t ->
    array_is (FSeq t) [] (descriptor_of 0 addr idx) (HSlice (go_type_of t []) [])
| value_seq t addr idx data l : word 64 addr -> word 32 idx -> in_heap addr idx data -> rows_are t [] data l ->
    0 < zlen l < 2 ^ 32 ->
    array_is (FSeq t) [] (descriptor_of (zlen l) addr idx) (HSlice (go_type_of t []) l)
| value_array adims t dims b v : is_array t = false -> Forall (fun d => 0 < d) adims -> array_is t (dims ++ adims) b v ->
    array_is (FArray adims t) dims b v
| value_rows t ds b l : in_rows t = true -> numbers_ok t -> (is_seq t = true -> l <> []) -> rows_are t ds b l ->
    array_is t (zlen l :: ds) b (HSlice (go_type_of t ds) l)
with rows_are : fty -> list Z -> bytes -> list hval -> Prop :=
| rows_nil t ds : rows_are t ds [] []
| rows_cons t ds b v b' l : array_is t ds b v -> rows_are t ds b' l -> rows_are t ds (b ++ b') (v :: l)
(** the members of a compound of [n] bytes, of which [b] is what there is from byte [pos] on: anything may be between the members *)
with fields_are : Z -> Z -> list (bytes * Z * list Z * fty) -> bytes -> list (bytes * hval) -> Prop :=
| fields_nil pos n b : zlen b = n - pos -> fields_are pos n [] b []
| fields_cons pos n name off dims t ms gap b v rest fs :
    zlen gap = off - pos -> array_is t dims b v -> fields_are (off + zlen b) n ms rest fs ->
    fields_are pos n ((name, off, dims, t) :: ms) (gap ++ b ++ rest) ((name, v) :: fs).
End Values.

Scheme array_is_ind2 := Induction for array_is Sort Prop
with rows_are_ind2 := Induction for rows_are Sort Prop
with fields_are_ind2 := Induction for fields_are Sort Prop.
Combined Scheme values_ind from array_is_ind2, rows_are_ind2, fields_are_ind2.

(** ** Global heaps: III.E *)

(** An object: its index, its data, and what fills it up to a multiple of 8 bytes *)
Definition heap_object (o : Z * bytes * bytes) : bytes :=
  let '(i, d, pad) := o in le 2 i ++ le 2 0 ++ le 4 0 ++ le 8 (zlen d) ++ d ++ pad.
Definition heap_object_ok (o : Z * bytes * bytes) : Prop :=
  let '(i, d, pad) := o in 0 < i < 2 ^ 16 /\ (zlen d + zlen pad) mod 8 = 0 /\ zlen pad < 8.
(** A collection: objects with different indexes in any order; after them less than another object
    would take, or the object 0, which is the free space *)
Definition collection_at (f : bytes) (addr : Z) (objs : list (Z * bytes * bytes)) : Prop :=
  exists free,
    Forall heap_object_ok objs /\ NoDup (map (fun o => fst (fst o)) objs) /\
    (zlen free < 16 \/ exists r, free = le 2 0 ++ r) /\
    has_at f addr (bs "GCOL" ++ [1; 0; 0; 0] ++ le 8 (16 + zlen (flat_map heap_object objs ++ free)) ++
                   flat_map heap_object objs ++ free).
Definition in_global_heap (f : bytes) (addr idx : Z) (data : bytes) : Prop :=
  exists objs pad, collection_at f addr objs /\ In (idx, data, pad) objs /\ data <> [].
