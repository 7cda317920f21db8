(** What a file of the HDF5 format has in it, for files that a writer made: HDF5 File Format Specification,
    version 3.0, IV.A.2; HDF5 Dimension Scale Specification.  The messages are those of ForeignSpec,
    ForeignTypeSpec and ForeignMsgSpec; here are the values they lead to.  Written without the writer. *)
From Coq Require Import Permutation.
From Verif Require Import Prelude GoVal H5Value ArraySpec MetaSpec DenseSpec ForeignSpec ForeignTypeSpec ForeignMsgSpec
  ForeignValueSpec ForeignAttrSpec.

Section Values.
(** What the objects of the global heaps are: address of the heap, index, data *)
Context (in_heap : Z -> Z -> bytes -> Prop).

(** [b] has the value [v] in it, of this type and with these dimensions.  Text has at least one zero after
    it; text and sequences of varying length that are not empty are in a heap. *)
Inductive has_value : fty -> list Z -> bytes -> hval -> Prop :=
| has_int n sg big z : int_size n -> int_in n sg z ->
    has_value (FInt n sg big) [] (int_bytes n big z) (HNum (int_kind_of n sg) z)
| has_real n big z : n = 4 \/ n = 8 -> word (8 * n) z ->
    has_value (FReal n big) [] (int_bytes n big z) (HNum (real_kind n) z)
| has_text n s pad : name_ok s -> 0 < pad -> zlen s + pad = n -> has_value (FText n) [] (s ++ zrep pad 0) (HStr s)
| has_opaque_data n b : 0 < n -> zlen b = n -> has_value (FOpaque n) [] b (HOpaque b)
| has_ref a : word 64 a -> has_value FRef [] (le 8 a) (HNum U64 a)
| has_comp n ms b fs : 0 < n < 2 ^ 32 -> has_fields 0 n ms b fs -> has_value (FComp n ms) [] b (HComp fs)
| has_enum n sg big names vals dims b v : has_value (FInt n sg big) dims b v ->
    has_value (FEnum n sg big names vals) dims b (HEnum v names (map (HNum (int_kind_of n sg)) vals))
| has_string t addr idx s : word 64 addr -> word 32 idx -> name_ok s -> zlen s < 2 ^ 32 -> (s = [] \/ in_heap addr idx s) ->
    has_value (FString t) [] (descriptor_of (zlen s) addr idx) (HStr s)
| has_seq t addr idx data l : word 64 addr -> word 32 idx -> zlen l < 2 ^ 32 -> has_rows t [] data l ->
    (l = [] \/ in_heap addr idx data) ->
    has_value (FSeq t) [] (descriptor_of (zlen l) addr idx) (HSlice (go_type_of t []) l)
| has_array t ds b l : in_rows t = true -> has_rows t ds b l -> has_value t (zlen l :: ds) b (HSlice (go_type_of t ds) l)
with has_rows : fty -> list Z -> bytes -> list hval -> Prop :=
| row_nil t ds : has_rows t ds [] []
| row_cons t ds b v b' l : has_value t ds b v -> has_rows t ds b' l -> has_rows t ds (b ++ b') (v :: l)
(** the members of a compound of [n] bytes, of which [b] is what there is from byte [pos] on *)
with has_fields : Z -> Z -> list (bytes * Z * list Z * fty) -> bytes -> list (bytes * hval) -> Prop :=
| field_nil pos n b : zlen b = n - pos -> has_fields pos n [] b []
| field_cons pos n name off dims t ms gap b v rest fs :
    zlen gap = off - pos -> zlen b = volume dims * fsize t -> has_value t dims b v -> has_fields (off + zlen b) n ms rest fs ->
    has_fields pos n ((name, off, dims, t) :: ms) (gap ++ b ++ rest) ((name, v) :: fs).
End Values.

(** The attribute message [b] of the file [f] is an attribute of this name and value *)
Definition attribute_as (f b : bytes) (kv : bytes * hval) : Prop :=
  exists t dims data, attribute_is known_version b (fst kv) t dims data /\
    zlen data = volume dims * fsize t /\ has_value (in_global_heap f) t dims data (snd kv).

(** The object at [a] is a dataset of these dimensions with this value, stored in one piece, and with these
    attributes, all of them in its header *)
Definition dataset_as (f : bytes) (a : Z) (dims : list Z) (v : hval) (attrs : list (bytes * hval)) : Prop :=
  exists c l sb tb pb t addr data,
    messages_are f c a l /\ of_type 1 l = [sb] /\ space_is sb dims /\ of_type 3 l = [tb] /\ type_is known_version t tb /\
    of_type 8 l = [pb] /\ place_is pb (Contiguous (Some addr) (zlen data)) /\ has_at f addr data /\
    zlen data = volume dims * fsize t /\ has_value (in_global_heap f) t dims data v /\
    of_type 11 l = [] /\ of_type 21 l = [] /\ Forall2 (attribute_as f) (of_type 12 l) attrs.
(** The object at [a] has these attributes *)
Definition attrs_in_header (f : bytes) (a : Z) (attrs : list (bytes * hval)) : Prop :=
  exists c l, messages_are f c a l /\ of_type 21 l = [] /\ Forall2 (attribute_as f) (of_type 12 l) attrs.

(** ** Dimension scales *)
(** For every dimension a sequence of one reference to the object that describes it *)
Definition dimension_list (refs : list Z) : bytes * hval :=
  (bs "DIMENSION_LIST", HSlice (TSlice (TNum U64)) (map (fun a => HSlice (TNum U64) [HNum U64 a]) refs)).
(** The attributes of such an object: its class, a name and a number *)
Definition scale_is (name : bytes) (i : Z) : list (bytes * hval) :=
  [(bs "CLASS", HStr (bs "DIMENSION_SCALE")); (bs "NAME", HStr name); (bs "_Netcdf4Dimid", HNum I32 i)].
