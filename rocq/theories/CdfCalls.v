(** Specification vocabulary for histories of calls on a CDF writer.  Only the types of calls
    ([wop], [attrs]) are taken from the writer model. *)
From Verif Require Import Prelude GoVal ArraySpec CdfSpec CdfWriterModel.

(** Calls that were accepted, in order *)
Fixpoint accepted (ops : list wop) (rs : list (res unit)) : list wop :=
  match ops, rs with
  | o :: ops', Ok _ :: rs' => o :: accepted ops' rs'
  | _ :: ops', _ :: rs' => accepted ops' rs'
  | _, _ => []
  end.
Definition is_var (o : wop) : bool := match o with WVar _ _ _ _ => true | _ => false end.
(** Names of the variables added *)
Definition var_names (l : list wop) : list bytes :=
  flat_map (fun o => match o with WVar n _ _ _ => [n] | _ => [] end) l.
(** The global attributes in force after a sequence of accepted calls *)
Fixpoint last_attrs (init : attrs) (l : list wop) : attrs :=
  match l with
  | [] => init
  | WAttrs a :: r => last_attrs a r
  | _ :: r => last_attrs init r
  end.

(** Attribute values with a CDF representation *)
Definition attr_supported (v : gval) : Prop :=
  match v with VNum _ _ | VStr _ | VSlice (GNum _) _ => True | _ => False end.
(** Kinds that only CDF-5 has *)
Definition only_v5 (k : nk) : Prop := k = U8 \/ k = U16 \/ k = U32 \/ k = U64 \/ k = I64.
Definition attr_only_v5 (v : gval) : Prop :=
  match v with VNum k _ | VSlice (GNum k) _ => only_v5 k | _ => False end.
Definition attr_elems (v : gval) : Z :=
  match v with VStr s => zlen s | VSlice _ l => zlen l | _ => 1 end.

(** Largest number a header field can hold, by version *)
Definition field_limit (ver : Z) : Z := if ver =? 5 then 2 ^ 63 else 2 ^ 31.

(** An attribute map whose entries fit into the header *)
Record attrs_fit (limit : Z) (a : attrs) : Prop := mkAfit {
  af_keys : NoDup (map fst a);
  af_count : zlen a < limit;
  af_names : Forall (fun kv => zlen (fst kv) < 2 ^ 31) a;
  af_typed : Forall (fun kv => wt (snd kv) = true) a;
  af_supported : Forall (fun kv => attr_supported (snd kv)) a;
  af_elems : Forall (fun kv => attr_elems (snd kv) < limit /\ attr_elems (snd kv) * 8 <= 2 ^ 48) a
}.

(** Shape of a value, the characters of strings included *)
Definition full_shape (v : gval) : list Z :=
  extent v ++ match base_type (type_of v) with GString => [longest v] | _ => [] end.

(** A variable that fits: limits of the format and of Go's allocator *)
Record var_fits (limit : Z) (name : bytes) (v : gval) (dims : list bytes) (a : attrs) : Prop := mkVfit {
  vf_value : storable (match dims with [] => false | _ => true end) v;
  vf_rank : zlen (full_shape v) <= 1024;
  vf_volume : 24 * volume (full_shape v) <= 2 ^ 48;
  vf_name : zlen name < 2 ^ 31;
  vf_attrs : attrs_fit limit a
}.

(** Preconditions of the round trip, for a history [ops] with results [rs] that left the
    writer in state [st]; [w_ver st] is the version byte of the file to be, and
    [w_dimlens st] the dimensions it will list (a rejected AddVar may have added some). *)
Record fits (ops : list wop) (rs : list (res unit)) (st : wst) : Prop := mkFits {
  ft_vars : forall n v d a, In (WVar n v d a) (accepted ops rs) ->
            var_fits (field_limit (w_ver st)) n v d a;
  ft_distinct : NoDup (var_names (accepted ops rs));
  ft_nvars : zlen (var_names (accepted ops rs)) < field_limit (w_ver st);
  ft_gattrs : attrs_fit (field_limit (w_ver st)) (last_attrs [] (accepted ops rs));
  ft_gver : Forall (fun kv => attr_only_v5 (snd kv) -> w_ver st = 5) (last_attrs [] (accepted ops rs));
  ft_dims : Forall (fun d => ~ In 0 (fst d) /\ zlen (fst d) < 2 ^ 31 /\ snd d < field_limit (w_ver st))
                   (w_dimlens st);
  ft_ndims : zlen (w_dimlens st) <= 1024
}.

(** Shape of the data stored for a value; [named]: the caller named a dimension.  A string of
    one byte without dimension names is a scalar. *)
Definition stored_shape (named : bool) (v : gval) : list Z :=
  match v, named with
  | VStr [_], false => []
  | _, _ => full_shape v
  end.
Definition named (d : list bytes) : bool := match d with [] => false | _ => true end.

(** Names of the dimensions of a variable: the [given] ones, then generated ones.
    [known]: the dimensions the file has already, in order. *)
Definition learn (known : list bytes) (nm : bytes) : list bytes :=
  if mem nm known then known else known ++ [nm].
Fixpoint dim_names (known : list bytes) (chars : bool) (name : bytes) (rank : nat) (given : list bytes)
  : list bytes :=
  match rank with
  | O => []
  | S r =>
      let nm := match given with
                | g :: _ => g
                | [] => if chars && (Nat.eqb r 0) then bs "_stringlen_" ++ name
                        else bs "_dimid_" ++ dec (zlen known)
                end in
      nm :: dim_names (learn known nm) chars name r (tl given)
  end.
Definition chars (v : gval) : bool :=
  match base_type (type_of v) with GString => true | _ => false end.
Definition names_of (known : list bytes) (o : wop) : list bytes :=
  match o with
  | WVar n v d _ => dim_names known (chars v) n (List.length (stored_shape (named d) v)) d
  | _ => []
  end.
(** Dimensions of the file after a sequence of accepted calls: every name once, in order of first use *)
Fixpoint known_after (known : list bytes) (l : list wop) : list bytes :=
  match l with
  | [] => known
  | o :: r => known_after (fold_left learn (names_of known o) known) r
  end.
