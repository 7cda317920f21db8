(** Specification of multi-dimensional arrays: shapes, row-major order, indexing.
    Nothing in this file refers to the models. *)
From Verif Require Import Prelude GoVal.

(** Number of elements of a shape *)
Fixpoint volume (ds : list Z) : Z :=
  match ds with [] => 1 | d :: r => d * volume r end.

(** Row-major position of an index tuple *)
Fixpoint offset (ds idx : list Z) : Z :=
  match ds, idx with
  | d :: ds', i :: idx' => i * volume ds' + offset ds' idx'
  | _, _ => 0
  end.

(** Index tuples inside a shape *)
Definition in_shape (ds idx : list Z) : Prop := Forall2 (fun d i => 0 <= i < d) ds idx.

(** Indexing a value; the last index of a char array selects a byte of a string. *)
Fixpoint vindex (v : gval) (idx : list Z) : option gval :=
  match idx with
  | [] => Some v
  | i :: r =>
      if i <? 0 then None
      else match v with
           | VSlice _ l => match nth_error l (Z.to_nat i) with
                           | Some x => vindex x r
                           | None => None
                           end
           | VStr s => match nth_error s (Z.to_nat i), r with
                       | Some b, [] => Some (VNum U8 b)
                       | _, _ => None
                       end
           | _ => None
           end
  end.

(** [has_shape ds v]: every slice at depth i has length (nth i ds); a string may
    stand for the last dimension. *)
Inductive has_shape : list Z -> gval -> Prop :=
| sh_num k z : has_shape [] (VNum k z)
| sh_str0 s : has_shape [] (VStr s)
| sh_str s : has_shape [zlen s] (VStr s)
| sh_slice ds t l : Forall (has_shape ds) l -> has_shape (zlen l :: ds) (VSlice t l).

(** Consecutive pieces *)
Fixpoint chunks {A} (n : nat) (sz : Z) (l : list A) : list (list A) :=
  match n with
  | O => []
  | S m => ztake sz l :: chunks m sz (zdrop sz l)
  end.

(** Element type of the slices of an array; [chr]: a char array, whose innermost rows are strings. *)
Inductive elt : Type := EChar | ENum (k : nk).
Fixpoint arr_type (t : elt) (rank : nat) : gtype :=
  match rank with
  | O => match t with EChar => GString | ENum k => GNum k end
  | S O => match t with EChar => GString | ENum k => GSlice (GNum k) end
  | S n => GSlice (arr_type t n)
  end.

Definition leaf (t : elt) (z : Z) : gval :=
  match t with EChar => VStr [z] | ENum k => VNum k z end.
Definition row (t : elt) (l : list Z) : gval :=
  match t with EChar => VStr l | ENum k => VSlice (GNum k) (map (VNum k) l) end.

(** Row-major reconstruction *)
Fixpoint nest (t : elt) (ds : list Z) (data : list Z) : gval :=
  match ds with
  | [] => leaf t (nth 0 data 0)
  | [d] => row t (ztake d data)
  | d :: ds' => VSlice (arr_type t (List.length ds'))
                  (map (nest t ds') (chunks (Z.to_nat d) (volume ds') data))
  end.

(** What an index into a full array denotes *)
Definition entry (t : elt) (z : Z) : gval :=
  match t with EChar => VNum U8 z | ENum k => VNum k z end.

(** Leaves in row-major order *)
Fixpoint leaves (v : gval) : list gval :=
  match v with
  | VSlice _ l => flat_map leaves l
  | _ => [v]
  end.
