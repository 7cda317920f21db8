(** The classic netCDF file format (versions 1, 2 and 5), as specified by its published grammar.
    Nothing in this file refers to the models. *)
From Verif Require Import Prelude GoVal ArraySpec.

(** nc_type codes *)
Definition type_code (t : elt) : Z :=
  match t with
  | ENum I8 => 1 | EChar => 2 | ENum I16 => 3 | ENum I32 => 4 | ENum F32 => 5 | ENum F64 => 6
  | ENum U8 => 7 | ENum U16 => 8 | ENum U32 => 9 | ENum I64 => 10 | ENum U64 => 11
  end.
Definition elt_size (t : elt) : Z := match t with EChar => 1 | ENum k => ksize k end.
(** Types that only version 5 has *)
Definition elt5 (t : elt) : bool :=
  match t with ENum (U8 | U16 | U32 | U64 | I64) => true | _ => false end.

(** Attribute values: text or a vector of numbers *)
Inductive aval : Type := AText (s : bytes) | ANums (k : nk) (l : list Z).
Record fatt : Type := mkFatt { fa_name : bytes; fa_val : aval }.
Record fvar : Type := mkFvar {
  fv_name : bytes; fv_dims : list Z; fv_atts : list fatt; fv_type : elt; fv_size : Z; fv_begin : Z }.
Record fheader : Type := mkFheader {
  fh_ver : Z; fh_numrecs : Z; fh_dims : list (bytes * Z); fh_atts : list fatt; fh_vars : list fvar }.

(** NON_NEG: 4 bytes in versions 1 and 2, 8 bytes in version 5 *)
Definition non_neg (ver n : Z) : bytes := if ver =? 5 then be 8 n else be 4 n.
(** OFFSET: 4 bytes in version 1, else 8 *)
Definition offs (ver n : Z) : bytes := if ver =? 1 then be 4 n else be 8 n.
(** Content followed by padding to a multiple of four; [p] is both together *)
Definition padded (b p : bytes) : Prop := exists pad, p = b ++ pad /\ zlen pad < 4 /\ zlen p mod 4 = 0.

Definition name_bytes (ver : Z) (nm : bytes) (b : bytes) : Prop :=
  exists p, padded nm p /\ b = non_neg ver (zlen nm) ++ p.
Definition dim_bytes (ver : Z) (d : bytes * Z) (b : bytes) : Prop :=
  exists n, name_bytes ver (fst d) n /\ b = n ++ non_neg ver (snd d).
Definition aval_type (v : aval) : elt := match v with AText _ => EChar | ANums k _ => ENum k end.
Definition aval_count (v : aval) : Z := match v with AText s => zlen s | ANums _ l => zlen l end.
Definition aval_bytes (v : aval) : bytes :=
  match v with AText s => s | ANums k l => flat_map (enc_be k) l end.
Definition att_bytes (ver : Z) (a : fatt) (b : bytes) : Prop :=
  exists n p, name_bytes ver (fa_name a) n /\ padded (aval_bytes (fa_val a)) p /\
    b = n ++ be 4 (type_code (aval_type (fa_val a))) ++ non_neg ver (aval_count (fa_val a)) ++ p.
(** A tagged list; an empty one may also be written as two zeroes *)
Definition list_bytes {A} (item : A -> bytes -> Prop) (tag ver : Z) (l : list A) (b : bytes) : Prop :=
  (exists bs, Forall2 item l bs /\ b = be 4 tag ++ non_neg ver (zlen l) ++ List.concat bs) \/
  (l = [] /\ b = be 4 0 ++ non_neg ver 0).
Definition att_list (ver : Z) := list_bytes (att_bytes ver) 12 ver.
Definition var_bytes (ver : Z) (v : fvar) (b : bytes) : Prop :=
  exists n a, name_bytes ver (fv_name v) n /\ att_list ver (fv_atts v) a /\
    b = n ++ non_neg ver (zlen (fv_dims v)) ++ flat_map (non_neg ver) (fv_dims v) ++ a ++
        be 4 (type_code (fv_type v)) ++ non_neg ver (fv_size v) ++ offs ver (fv_begin v).
Definition header_bytes (h : fheader) (b : bytes) : Prop :=
  exists d a v,
    list_bytes (dim_bytes (fh_ver h)) 10 (fh_ver h) (fh_dims h) d /\
    att_list (fh_ver h) (fh_atts h) a /\
    list_bytes (var_bytes (fh_ver h)) 11 (fh_ver h) (fh_vars h) v /\
    b = bs "CDF" ++ [fh_ver h] ++ non_neg (fh_ver h) (fh_numrecs h) ++ d ++ a ++ v.

(** ** Conforming headers *)
Definition nlimit (ver : Z) : Z := if ver =? 5 then 2 ^ 63 else 2 ^ 31.
(** A name that a program can hold in memory *)
Definition fname_ok (ver : Z) (nm : bytes) : Prop :=
  ~ In 0 nm /\ zlen nm < nlimit ver /\ zlen nm + 4 <= 2 ^ 48.
Definition fatt_ok (ver : Z) (a : fatt) : Prop :=
  fname_ok ver (fa_name a) /\ aval_count (fa_val a) < nlimit ver /\ aval_count (fa_val a) * 8 <= 2 ^ 48 /\
  (elt5 (aval_type (fa_val a)) = true -> ver = 5) /\
  match fa_val a with ANums k l => Forall (fun z => in_range k z = true) l | AText _ => True end.
Record fvar_ok (ver : Z) (dims : list (bytes * Z)) (v : fvar) : Prop := mkFvok {
  fo_name : fname_ok ver (fv_name v);
  fo_rank : zlen (fv_dims v) <= 1024;
  fo_dims : Forall (fun i => 0 <= i < zlen dims) (fv_dims v);
  fo_natts : zlen (fv_atts v) < nlimit ver;
  fo_atts : Forall (fatt_ok ver) (fv_atts v);
  fo_size : 0 <= fv_size v < nlimit ver;
  fo_begin : 0 <= fv_begin v < (if ver =? 1 then 2 ^ 31 else 2 ^ 63)
}.
Record header_ok (h : fheader) : Prop := mkHok {
  ho_ver : fh_ver h = 1 \/ fh_ver h = 2 \/ fh_ver h = 5;
  ho_numrecs : 0 <= fh_numrecs h < nlimit (fh_ver h);
  ho_ndims : zlen (fh_dims h) <= 1024;
  ho_dims : Forall (fun d => fname_ok (fh_ver h) (fst d) /\ 0 <= snd d < nlimit (fh_ver h)) (fh_dims h);
  ho_natts : zlen (fh_atts h) < nlimit (fh_ver h);
  ho_atts : Forall (fatt_ok (fh_ver h)) (fh_atts h);
  ho_nvars : zlen (fh_vars h) < nlimit (fh_ver h);
  ho_vars : Forall (fvar_ok (fh_ver h) (fh_dims h)) (fh_vars h)
}.
(** No name twice among the variables, no key twice in an attribute list *)
Definition keys_distinct (l : list fatt) : Prop := NoDup (map fa_name l).
Definition names_distinct (h : fheader) : Prop :=
  keys_distinct (fh_atts h) /\ Forall (fun v => keys_distinct (fv_atts v)) (fh_vars h) /\
  NoDup (map fv_name (fh_vars h)).

(** Value of an attribute as returned to Go: one number is a scalar *)
Definition aval_value (v : aval) : gval :=
  match v with
  | AText s => VStr s
  | ANums k [z] => VNum k z
  | ANums k l => VSlice (GNum k) (map (VNum k) l)
  end.

(** A record variable: its first dimension has length zero *)
Definition is_record (dims : list (bytes * Z)) (v : fvar) : bool :=
  match fv_dims v with
  | i :: _ => match nth_error dims (Z.to_nat i) with Some (_, n) => n =? 0 | None => false end
  | [] => false
  end.
(** Bytes per record, without padding *)
Definition dim_length (dims : list (bytes * Z)) (i : Z) : Z :=
  match nth_error dims (Z.to_nat i) with Some (_, n) => n | None => 0 end.
Definition record_bytes (dims : list (bytes * Z)) (v : fvar) : Z :=
  volume (map (dim_length dims) (tl (fv_dims v))) * elt_size (fv_type v).

(** Only the first dimension of a variable may be the unlimited one *)
Definition unlimited_first (dims : list (bytes * Z)) (v : fvar) : Prop :=
  Forall (fun i => 0 < dim_length dims i) (tl (fv_dims v)).
(** Names and lengths of the dimensions of a variable; the unlimited one has as many entries as there are records *)
Definition fvar_names (h : fheader) (v : fvar) : list bytes :=
  map (fun i => match nth_error (fh_dims h) (Z.to_nat i) with Some (nm, _) => nm | None => [] end) (fv_dims v).
Definition fvar_shape (h : fheader) (v : fvar) : list Z :=
  map (fun i => if dim_length (fh_dims h) i =? 0 then fh_numrecs h else dim_length (fh_dims h) i) (fv_dims v).

(** Distance of the records: the record variables follow each other, each padded to a multiple
    of four bytes; but a lone record variable of a one or two byte type is not padded. *)
Definition small_type (t : elt) : bool :=
  match t with EChar | ENum (I8 | U8 | I16 | U16) => true | _ => false end.
Definition pad_size (n : Z) : Z := n + (- n) mod 4.
Definition record_vars (h : fheader) : list fvar := filter (is_record (fh_dims h)) (fh_vars h).
Definition record_step (h : fheader) : Z :=
  match record_vars h with
  | [v] => if small_type (fv_type v) then record_bytes (fh_dims h) v else pad_size (record_bytes (fh_dims h) v)
  | l => fold_right (fun v a => pad_size (record_bytes (fh_dims h) v) + a) 0 l
  end.
(** The size fields of the record variables say what they should *)
Definition sizes_right (h : fheader) : Prop :=
  Forall (fun v => fv_size v = pad_size (record_bytes (fh_dims h) v)) (record_vars h).
