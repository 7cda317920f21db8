(** Datatype messages as the HDF5 file format has them: HDF5 File Format Specification, version
    3.0, IV.A.2.d.  Written without the reader. *)
From Verif Require Import Prelude MetaSpec DenseSpec.

(** Integers and enumerations of 1, 2, 4 or 8 bytes, IEEE numbers of 4 or 8 bytes, strings of fixed
    and of varying length, opaque data, compounds, references to objects, sequences and arrays.
    A member of a compound has a name, an offset and (in version 1) dimensions of its own. *)
Inductive fty : Type :=
| FInt (n : Z) (sg big : bool)
| FReal (n : Z) (big : bool)
| FText (n : Z)
| FOpaque (n : Z)
| FComp (n : Z) (ms : list (bytes * Z * list Z * fty))
| FRef
| FEnum (n : Z) (sg big : bool) (names : list bytes) (vals : list Z)
| FSeq (t : fty)
| FString (t : fty)
| FArray (dims : list Z) (t : fty).

(** The size of an element *)
Fixpoint fsize (t : fty) : Z :=
  match t with
  | FInt n _ _ | FReal n _ | FText n | FOpaque n | FComp n _ | FEnum n _ _ _ _ => n
  | FRef => 8
  | FSeq _ | FString _ => 16
  | FArray dims t => fold_right Z.mul 1 dims * fsize t
  end.

(** Class and version, 24 bits, and the size *)
Definition dt_head (class version bits size : Z) : bytes := [16 * version + class] ++ le 3 bits ++ le 4 size.

Definition int_size (n : Z) : Prop := n = 1 \/ n = 2 \/ n = 4 \/ n = 8.
(** A name ends with a zero; before version 3 it is filled up to a multiple of 8 bytes. *)
Definition name_bytes (version : Z) (name : bytes) : bytes :=
  name ++ [0] ++ (if version <? 3 then zrep ((- (zlen name + 1)) mod 8) 0 else []).
Definition name_ok (name : bytes) : Prop := Forall (fun b => 0 < b < 256) name.
(** The bytes for an offset in a compound of this size, from version 3 on *)
Definition offset_width (version size : Z) : nat :=
  if version <? 3 then 4%nat
  else if size <? 2 ^ 8 then 1%nat else if size <? 2 ^ 16 then 2%nat else if size <? 2 ^ 24 then 3%nat else 4%nat.
(** The dimensions of a member: there are always four fields, of which the first ones are used. *)
Definition dims_bytes (version : Z) (dims : list Z) (b : bytes) : Prop :=
  if version =? 1 then
    exists more, zlen dims + zlen more = 4 /\ Forall (word 32) dims /\ Forall (word 32) more /\
      b = [zlen dims; 0; 0; 0] ++ le 4 0 ++ le 4 0 ++ flat_map (le 4) dims ++ flat_map (le 4) more
  else dims = [] /\ b = [].
(** A number of [n] bytes *)
Definition int_bytes (n : Z) (big : bool) (z : Z) : bytes := if big then rev (le (Z.to_nat n) z) else le (Z.to_nat n) z.
Definition int_in (n : Z) (sg : bool) (z : Z) : Prop :=
  if sg then - 2 ^ (8 * n - 1) <= z < 2 ^ (8 * n - 1) else 0 <= z < 2 ^ (8 * n).
Definition bit (b : bool) : Z := if b then 1 else 0.

Section Messages.
(** Which versions a writer uses for a part of the type: of what class, of what size *)
Context (uses : Z -> Z -> Z -> Prop).

(** [b] is a datatype message for the type; every part of it has a version of its own. *)
Inductive type_is : fty -> bytes -> Prop :=
| is_int v n sg big : uses 0 v n -> int_size n ->
    type_is (FInt n sg big) (dt_head 0 v (bit big + 8 * bit sg) n ++ le 2 0 ++ le 2 (8 * n))
| is_real4 v big : uses 1 v 4 ->
    type_is (FReal 4 big) (dt_head 1 v (bit big + 32 + 256 * 31) 4 ++ le 2 0 ++ le 2 32 ++ [23; 8; 0; 23] ++ le 4 127)
| is_real8 v big : uses 1 v 8 ->
    type_is (FReal 8 big) (dt_head 1 v (bit big + 32 + 256 * 63) 8 ++ le 2 0 ++ le 2 64 ++ [52; 11; 0; 52] ++ le 4 1023)
| is_text v n pad set : uses 3 v n -> 0 < n < 2 ^ 32 -> 0 <= pad <= 2 -> 0 <= set <= 1 ->
    type_is (FText n) (dt_head 3 v (pad + 16 * set) n)
| is_opaque v n tag pad : uses 5 v n -> 0 < n < 2 ^ 32 -> name_ok tag -> (zlen tag + pad) mod 8 = 0 -> 0 <= pad ->
    zlen tag + pad < 2 ^ 8 ->
    type_is (FOpaque n) (dt_head 5 v (zlen tag + pad) n ++ tag ++ zrep pad 0)
| is_comp v n ms b : uses 6 v n -> 0 < n < 2 ^ 32 -> zlen ms < 2 ^ 16 -> members_are v n ms b ->
    type_is (FComp n ms) (dt_head 6 v (zlen ms) n ++ b)
| is_ref v : uses 7 v 8 -> type_is FRef (dt_head 7 v 0 8)
| is_enum v n sg big names vals b : uses 8 v n -> type_is (FInt n sg big) b ->
    zlen names = zlen vals -> zlen names < 2 ^ 16 -> Forall name_ok names -> Forall (int_in n sg) vals ->
    type_is (FEnum n sg big names vals)
            (dt_head 8 v (zlen names) n ++ b ++ flat_map (name_bytes v) names ++ flat_map (int_bytes n big) vals)
| is_seq v t b : uses 9 v 16 -> type_is t b -> type_is (FSeq t) (dt_head 9 v 0 16 ++ b)
| is_string v t b pad set : uses 9 v 16 -> type_is t b -> 0 <= pad <= 1 -> 0 <= set <= 1 ->
    type_is (FString t) (dt_head 9 v (1 + 16 * pad + 256 * set) 16 ++ b)
| is_array v dims t b : uses 10 v (fsize (FArray dims t)) -> 2 <= v -> Forall (word 32) dims -> 0 < zlen dims <= 32 ->
    0 < fsize (FArray dims t) < 2 ^ 32 -> type_is t b ->
    type_is (FArray dims t)
            (dt_head 10 v 0 (fsize (FArray dims t)) ++
             (if v <? 3 then [zlen dims; 0; 0; 0] ++ flat_map (le 4) dims ++ zrep (4 * zlen dims) 0
              else [zlen dims] ++ flat_map (le 4) dims) ++ b)
with members_are : Z -> Z -> list (bytes * Z * list Z * fty) -> bytes -> Prop :=
| members_nil v n : members_are v n [] []
| members_cons v n name off dims t ms db b bs :
    name_ok name -> 0 <= off < n -> dims_bytes v dims db -> type_is t b -> members_are v n ms bs ->
    members_are v n ((name, off, dims, t) :: ms)
                (name_bytes v name ++ le (offset_width v n) off ++ db ++ b ++ bs).
End Messages.

Scheme type_is_ind2 := Induction for type_is Sort Prop
with members_are_ind2 := Induction for members_are Sort Prop.
Combined Scheme type_members_ind from type_is_ind2, members_are_ind2.

(** The versions there are *)
Definition all_versions (class version size : Z) : Prop := 1 <= version <= 4.

(** No more than 255 members or names *)
Fixpoint few_members (t : fty) : Prop :=
  match t with
  | FComp _ ms => zlen ms < 256 /\
      (fix all (ms : list (bytes * Z * list Z * fty)) : Prop :=
         match ms with [] => True | m :: r => few_members (snd m) /\ all r end) ms
  | FEnum _ _ _ names _ => zlen names < 256
  | FSeq t | FString t | FArray _ t => few_members t
  | _ => True
  end.

(** Opaque data, or with such data in it; and nothing comes after that *)
Fixpoint has_opaque (t : fty) : bool :=
  match t with
  | FOpaque _ => true
  | FComp _ ms => (fix any (ms : list (bytes * Z * list Z * fty)) : bool :=
                     match ms with [] => false | m :: r => has_opaque (snd m) || any r end) ms
  | FSeq t | FString t | FArray _ t => has_opaque t
  | _ => false
  end.
Fixpoint opaque_last (t : fty) : Prop :=
  match t with
  | FComp _ ms =>
      (fix all (ms : list (bytes * Z * list Z * fty)) : Prop :=
         match ms with
         | [] => True
         | m :: r => opaque_last (snd m) /\ (r <> [] -> has_opaque (snd m) = false) /\ all r
         end) ms
  | FSeq t | FString t | FArray _ t => opaque_last t
  | _ => True
  end.

(** The versions that the reader is meant to know: for numbers with a fraction, strings and
    references only the first; no offsets of 3 bytes *)
Definition known_version (class version size : Z) : Prop :=
  1 <= version <= 4 /\ (class = 1 \/ class = 3 \/ class = 7 -> version = 1) /\
  (class = 6 -> version < 3 \/ size < 2 ^ 16 \/ 2 ^ 24 <= size).

