(** The attributes of the objects of a file of the HDF5 format, what Go values they have, and how netCDF-4
    gives names to dimensions with them: HDF5 File Format Specification, version 3.0, IV.A.2.m; HDF5 Dimension
    Scale Specification; NetCDF-4 format.  Written without the reader. *)
From Coq Require Import Permutation.
From Verif Require Import Prelude GoVal H5Value ArraySpec MetaSpec DenseSpec ForeignSpec ForeignTypeSpec ForeignMsgSpec ForeignDataSpec
  ForeignValueSpec.

Definition is_text (t : fty) : bool := match t with FText _ => true | _ => false end.
Definition is_opaque (t : fty) : bool := match t with FOpaque _ => true | _ => false end.

Record fattr : Type := mkFattr { fa_name : bytes; fa_type : fty; fa_dims : list Z; fa_val : hval }.
Definition names_of (attrs : list fattr) : list bytes := map fa_name attrs.

(** The value of an attribute: text is one string. *)
Inductive attribute_value (f : bytes) : fty -> list Z -> bytes -> hval -> Prop :=
| value_one_text n dims data : 0 < n -> zlen data = volume dims * n -> volume dims = 1 \/ n = 1 /\ (List.length dims <= 1)%nat ->
    attribute_value f (FText n) dims data (HStr (cut data))
| value_any t dims data v : is_text t = false -> array_is (in_global_heap f) t dims data v ->
    attribute_value f t dims data v.

(** The message has a datatype of more than eight bytes: its length is in the bytes 4 and 5 *)
Definition long_type (b : bytes) : Prop := exists n, 8 < n < 2 ^ 16 /\ has_at b 4 (le 2 n).

(** The attribute message [b] is this attribute.  Opaque data have a tag that is not empty. *)
Definition attribute_holds (f b : bytes) (x : fattr) : Prop :=
  exists b0 pad data, b = b0 ++ zrep pad 0 /\ attribute_is known_version b0 (fa_name x) (fa_type x) (fa_dims x) data /\
    few_members (fa_type x) /\ opaque_last (fa_type x) /\ elements_there (fa_type x) data /\
    (is_opaque (fa_type x) = true -> long_type b0) /\
    attribute_value f (fa_type x) (fa_dims x) data (fa_val x).

(** An attribute with one dimension of length 1 is its element: netCDF has no scalar attributes *)
Definition one_of (v : hval) : hval :=
  match v with HSlice _ [x] => x | HEnum (HSlice _ [x]) names vals => HEnum x names vals | _ => v end.
Definition attribute_go (x : fattr) : hval := match fa_dims x with [1] => one_of (fa_val x) | _ => fa_val x end.
(** Slices of one element, and compounds of one member *)
Fixpoint of_one (v : hval) : bool :=
  match v with HSlice _ [_] | HComp [_] => true | HEnum w _ _ => of_one w | _ => false end.

(** ** The attributes of an object *)

(** An object with the header messages [l] has these attributes, some of them outside the header *)
Definition attributes_are (f : bytes) (other : Z -> bytes -> Prop) (l : list fmsg) (attrs : list fattr) : Prop :=
  exists xs, attrs_stored f other l xs /\ Forall2 (attribute_holds f) (of_type 12 l ++ map snd xs) attrs.

(** Names that are for the bookkeeping of netCDF-4 *)
Definition bookkeeping : list bytes :=
  [bs "_Netcdf4Dimid"; bs "_Netcdf4Coordinates"; bs "DIMENSION_LIST"; bs "NAME"; bs "REFERENCE_LIST"; bs "CLASS"].
Definition properties_name : bytes := bs "_NCProperties".

(** No name is there twice, and what is to be shown is of one element only if it has one dimension of length 1 *)
Definition attrs_plain (attrs : list fattr) : Prop :=
  NoDup (names_of attrs) /\
  Forall (fun x => In (fa_name x) bookkeeping \/ fa_dims x = [1] \/ of_one (fa_val x) = false) attrs.

(** What a Go program gets: [keys] are the names, [get] the values *)
Definition attributes_got (attrs : list fattr) (keys : list bytes) (get : bytes -> option hval) : Prop :=
  NoDup keys /\
  (forall k, In k keys <-> In k (names_of attrs) /\ ~ In k bookkeeping /\ k <> properties_name) /\
  (forall x, In x attrs -> ~ In (fa_name x) bookkeeping -> get (fa_name x) = Some (attribute_go x)) /\
  (forall k, ~ In k (names_of attrs) \/ In k bookkeeping -> get k = None).

(** ** Names of dimensions *)

(** The sequences of references that the attribute DIMENSION_LIST is *)
Definition refs_in (v : hval) (refs : list Z) : Prop :=
  exists rows, v = HSlice (TSlice (TNum U64)) (map (fun r => HSlice (TNum U64) (map (HNum U64) r)) rows) /\ refs = List.concat rows.
(** The attribute REFERENCE_LIST: compounds of a reference and an index *)
Definition back_ref (e : hval) : Prop :=
  exists a r b i rest, e = HComp ((a, HNum U64 r) :: (b, HNum I32 i) :: rest) \/ e = HComp ((a, HNum U64 r) :: (b, HNum U32 i) :: rest).
Definition back_refs (x : fattr) : Prop := 0 < volume (fa_dims x) /\ exists l, fa_val x = HSlice TComp l /\ Forall back_ref l.
Definition starts_with (p s : bytes) : Prop := exists r, s = p ++ r.
Definition marker : bytes := bs "This is a netCDF dimension".

(** Something in the tree has this address and this name *)
Definition called (tree : ftree) (a : Z) (name : bytes) : Prop :=
  exists p ks t, found_at tree p (FGroup ks) /\ In (name, a, t) ks.

(** No references to dimensions: no attribute DIMENSION_LIST, or one with empty sequences only *)
Definition no_refs (attrs : list fattr) : Prop :=
  forall x, In x attrs -> fa_name x = bs "DIMENSION_LIST" -> 0 < volume (fa_dims x) /\ refs_in (fa_val x) [].

(** The names of the dimensions of a variable with these attributes.  A dimension without a scale has none in this list
    (see [C78_scales_refuted]). *)
Inductive dimensions_are (tree : ftree) (attrs : list fattr) : list bytes -> Prop :=
| dims_by_list x refs names : In x attrs -> fa_name x = bs "DIMENSION_LIST" -> 0 < volume (fa_dims x) -> refs_in (fa_val x) refs -> refs <> [] ->
    Forall2 (called tree) refs names -> dimensions_are tree attrs names
| dims_by_name x s : no_refs attrs -> In x attrs -> fa_name x = bs "NAME" -> 0 < volume (fa_dims x) ->
    fa_val x = HStr s -> ~ starts_with marker s -> dimensions_are tree attrs [s]
| dims_marked x s : no_refs attrs -> In x attrs -> fa_name x = bs "NAME" -> 0 < volume (fa_dims x) ->
    fa_val x = HStr s -> starts_with marker s -> dimensions_are tree attrs []
| dims_none : no_refs attrs -> ~ In (bs "NAME") (names_of attrs) -> dimensions_are tree attrs [].

(** ** What is a variable, and what a dimension *)

(** A name of its own, as text *)
Definition own_name (attrs : list fattr) : Prop :=
  exists x s, In x attrs /\ fa_name x = bs "NAME" /\ is_text (fa_type x) = true /\ fa_val x = HStr s /\ ~ starts_with marker s.
Definition is_scale (attrs : list fattr) : Prop :=
  In (bs "CLASS") (names_of attrs) /\ (own_name attrs \/ ~ In (bs "_Netcdf4Coordinates") (names_of attrs)).
(** A scale without values: a dimension only *)
Definition is_bare (attrs : list fattr) : Prop :=
  In (bs "CLASS") (names_of attrs) /\ ~ own_name attrs /\ ~ In (bs "_Netcdf4Coordinates") (names_of attrs).

(** ** Files all of whose attributes are such *)
Definition with_values (f : bytes) (t : Z) (b : bytes) : Prop :=
  message_is t b /\ (t = 12 -> exists x, attribute_holds f b x /\ (fa_name x = bs "REFERENCE_LIST" -> back_refs x)).

(** The dataset at [a], as in [dataset_at], with its attributes *)
Definition dataset_with (f : bytes) (other : Z -> bytes -> Prop) (a : Z) (dims : list Z) (t : fty) (p : place) (fill : option bytes)
  (attrs : list fattr) : Prop :=
  exists c l b, messages_are f c a l /\
    Forall (fun m => fm_type m = 1 \/ fm_type m = 21 \/ plain other [0; 3; 4; 5; 8; 11; 12; 13; 14; 18; 22] m) l /\
    of_type 1 l = [b] /\ dataspace b dims /\ attributes_are f other l attrs /\ dataset_told l t p fill.
(** The group at [a], as in [object_is], with its attributes *)
Definition group_with (f : bytes) (other : Z -> bytes -> Prop) (n : nat) (a : Z) (kids : list (bytes * Z * ftree)) (attrs : list fattr) : Prop :=
  exists c k l ls stored, messages_are f c a l /\ (c + k < n)%nat /\
    Forall2 (group_msg f other) l ls /\ stored_links f l stored /\ attributes_are f other l attrs /\
    of_type 2 l ++ of_type 17 l <> [] /\
    Permutation (List.concat ls ++ stored) (map fst kids) /\ NoDup (map fst (map fst kids)) /\ kids_are f other k kids.

(** As [found_at], with the address *)
Inductive located : Z -> ftree -> list bytes -> Z -> ftree -> Prop :=
| located_here a t : located a t [] a t
| located_below a0 kids name a t p a' u : In (name, a, t) kids -> located a t p a' u -> located a0 (FGroup kids) (name :: p) a' u.
