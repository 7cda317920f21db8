(** Model of netcdf/cdf/cdfwriter.go.

    The bufio.Writer and the file are represented by the list of bytes written so
    far; write errors of the operating system are not modelled.  Sizes are
    unbounded integers: an int64 overflow in the writer needs more than 2^60 bytes of
    data (or a ragged value, about which no round-trip claim is made). *)
From Verif Require Import Prelude GoVal ValidNameModel.

(** netcdf/cdf/cdf.go:27-42, type codes; [TChar] is typeChar *)
Inductive cty : Type := TChar | TNum (k : nk).

Definition tcode (t : cty) : Z :=
  match t with
  | TNum I8 => 1
  | TChar => 2
  | TNum I16 => 3
  | TNum I32 => 4
  | TNum F32 => 5
  | TNum F64 => 6
  | TNum U8 => 7
  | TNum U16 => 8
  | TNum U32 => 9
  | TNum I64 => 10
  | TNum U64 => 11
  end.

(** cdf.go:21-25 *)
Definition fieldDimension : Z := 10.
Definition fieldVariable : Z := 11.
Definition fieldAttribute : Z := 12.

(** An api.AttributeMap (api.go:18-26) as seen through Keys() and Get(): the list of
    keys with the value Get returns ([VOther] when Get finds nothing).  A nil map
    behaves as the empty list in every place the writer uses it. *)
Definition attrs := list (bytes * gval).

(** cdfwriter.go:26-34, without vsize, which is recomputed in [write_vars]. *)
Record svar : Type := mkSvar {
  sv_name : bytes;
  sv_val : gval;
  sv_ty : cty;
  sv_lens : list Z;
  sv_dims : list bytes;
  sv_attrs : attrs
}.

(** cdfwriter.go:36-47; the maps dimLengths and dimIds are association lists. *)
Record wst : Type := mkWst {
  w_vars : list svar;
  w_gattrs : attrs;
  w_dimlens : list (bytes * Z);
  w_dimnames : list bytes;
  w_dimids : list (bytes * Z);
  w_next : Z;
  w_ver : Z
}.

(** cdfwriter.go:940-959 *)
Definition open_writer : wst := mkWst [] [] [] [] [] 0 2.

(** Kinds whose type codes exist only in CDF version 5 (cdfwriter.go:349-368, 415-418) *)
Definition v5kind (k : nk) : bool :=
  match k with U8 | U16 | U32 | U64 | I64 => true | _ => false end.
Definition v5ty (t : cty) : bool :=
  match t with TNum k => v5kind k | TChar => false end.

(** Longest string of a []string; cdfwriter.go:290-295 *)
Definition str_len (v : gval) : Z := match v with VStr s => zlen s | _ => 0 end.
Fixpoint max_strlen (l : list gval) : Z :=
  match l with
  | [] => 0
  | v :: r => Z.max (str_len v) (max_strlen r)
  end.

(** cdfwriter.go:267-320 (getDimLengthsHelper), 328-373 (scalarKind).  The assignment
    cw.version = 5 of scalarKind happens exactly when the resulting type is a version 5
    type and is repeated at 415-418, where [add_var] models it.  [VOther]: rv.Len()
    panics. *)
Fixpoint dim_lengths (v : gval) (dims : list Z) (nonames : bool) : res (list Z * cty) :=
  match v with
  | VNum k _ => Ok (dims, TNum k)
  | VStr s =>
      if (zlen s =? 1) && nonames then Ok (dims, TChar)
      else Ok (dims ++ [zlen s], TChar)
  | VSlice t l =>
      let dims' := dims ++ [zlen l] in
      match t with
      | GString =>
          if max_strlen l =? 0 then Err EEmptySlice
          else Ok (dims' ++ [max_strlen l], TChar)
      | _ =>
          match l with
          | [] => match t with
                  | GNum k => Ok (dims', TNum k)
                  | _ => Err EEmptySlice
                  end
          | x :: _ => dim_lengths x dims' nonames
          end
      end
  | VOther => Panic
  end.

(** cdfwriter.go:375-385 *)
Definition valid_attr_names (U : ucd) (a : attrs) : bool :=
  forallb (fun kv => valid_name U (fst kv)) a.

(** Attribute value types: 0 unsupported, 2 all versions, 5 version 5 only.
    cdfwriter.go:591-602 *)
Definition attr_version (v : gval) : Z :=
  match v with
  | VStr _ => 2
  | VNum k _ => if v5kind k then 5 else 2
  | VSlice (GNum k) _ => if v5kind k then 5 else 2
  | _ => 0
  end.

(** cdfwriter.go:585-604: the new version, or ErrAttribute. *)
Fixpoint check_v5 (ver : Z) (a : attrs) : res Z :=
  match a with
  | [] => Ok ver
  | (_, v) :: r =>
      if attr_version v =? 0 then Err EAttribute
      else if attr_version v =? 5 then Ok 5
      else check_v5 ver r
  end.

(** cdfwriter.go:389-395 *)
Definition add_attributes (U : ucd) (st : wst) (a : attrs) : wst * res unit :=
  if valid_attr_names U a
  then (mkWst (w_vars st) a (w_dimlens st) (w_dimnames st) (w_dimids st) (w_next st) (w_ver st),
        Ok tt)
  else (st, Err EInvalidName).

Definition stringlen_name (name : bytes) : bytes := bs "_stringlen_" ++ name.
Definition dimid_name (n : Z) : bytes := bs "_dimid_" ++ dec n.

(** cdfwriter.go:419-445: loop over the dimensions, [i] counted up, [lens] the
    remaining lengths.  Returns the state reached and the completed vr.Dimensions. *)
Fixpoint add_dims (name : bytes) (ty : cty) (i : nat) (lens : list Z)
         (vdims : list bytes) (st : wst) : wst * res (list bytes) :=
  match lens with
  | [] => (st, Ok vdims)
  | n :: lens' =>
      let given := nth i vdims [] in
      let vdims' :=
        match given with
        | [] =>
            vdims ++
            [match ty, lens' with
             | TChar, [] => stringlen_name name
             | _, _ => dimid_name (w_next st)
             end]
        | _ => vdims
        end in
      match nth_error vdims' i with
      | None => (st, Panic)
      | Some dn =>
          match assoc dn (w_dimlens st) with
          | Some cur =>
              if n =? cur then add_dims name ty (S i) lens' vdims' st
              else (st, Err EDimensionSize)
          | None =>
              let st' := mkWst (w_vars st) (w_gattrs st)
                               (assoc_set dn n (w_dimlens st))
                               (w_dimnames st ++ [dn])
                               (assoc_set dn (w_next st) (w_dimids st))
                               (w_next st + 1) (w_ver st) in
              add_dims name ty (S i) lens' vdims' st'
          end
      end
  end.

Definition set_ver (st : wst) (v : Z) : wst :=
  mkWst (w_vars st) (w_gattrs st) (w_dimlens st) (w_dimnames st) (w_dimids st) (w_next st) v.
Definition push_var (st : wst) (s : svar) : wst :=
  mkWst (w_vars st ++ [s]) (w_gattrs st) (w_dimlens st) (w_dimnames st) (w_dimids st)
        (w_next st) (w_ver st).

(** cdfwriter.go:404-449 *)
Definition add_var (U : ucd) (st : wst) (name : bytes) (val : gval) (dims : list bytes)
           (a : attrs) : wst * res unit :=
  if negb (valid_name U name) then (st, Err EInvalidName)
  else if negb (valid_attr_names U a) then (st, Err EInvalidName)
  else
    match check_v5 (w_ver st) a with
    | Err e => (st, Err e)
    | Panic => (st, Panic)
    | Ok v1 =>
        let st1 := set_ver st v1 in
        match dim_lengths val [] (match dims with [] => true | _ => false end) with
        | Err e => (st1, Err e)
        | Panic => (st1, Panic)
        | Ok (lens, ty) =>
            let st2 := if v5ty ty then set_ver st1 5 else st1 in
            match add_dims name ty 0 lens dims st2 with
            | (st3, Ok vdims) => (push_var st3 (mkSvar name val ty lens vdims a), Ok tt)
            | (st3, Err e) => (st3, Err e)
            | (st3, Panic) => (st3, Panic)
            end
        end
    end.

(** Calls on an api.Writer (api.go:109-122) other than Close. *)
Inductive wop : Type :=
| WAttrs (a : attrs)
| WVar (name : bytes) (val : gval) (dims : list bytes) (a : attrs)
| WGroup (name : bytes).

(** WGroup: cdfwriter.go:398-400 *)
Definition wstep (U : ucd) (st : wst) (o : wop) : wst * res unit :=
  match o with
  | WAttrs a => add_attributes U st a
  | WVar n v d a => add_var U st n v d a
  | WGroup _ => (st, Err EUnsupported)
  end.

Fixpoint wrun (U : ucd) (st : wst) (ops : list wop) : wst * list (res unit) :=
  match ops with
  | [] => (st, [])
  | o :: r => let '(st1, x) := wstep U st o in
              let '(st2, xs) := wrun U st1 r in (st2, x :: xs)
  end.

(** cdfwriter.go:791-793; (i+3) & ^3 *)
Definition round4 (i : Z) : Z := 4 * ((i + 3) / 4).

(** cdfwriter.go:795-802 *)
Definition pad_out (out : bytes) : bytes := out ++ zrep (round4 (zlen out) - zlen out) 0.

(** cdfwriter.go:887-893 *)
Definition enc_number (ver n : Z) : bytes := if ver <? 5 then be 4 n else be 8 n.

(** cdfwriter.go:879-885 *)
Definition write_name (ver : Z) (out name : bytes) : bytes :=
  pad_out (out ++ enc_number ver (zlen name) ++ name).

Definition num_bytes (v : gval) : bytes :=
  match v with VNum k z => enc_be k z | _ => [] end.

(** cdfwriter.go:462-581: type, element count, payload of an attribute value *)
Definition attr_payload (v : gval) : option (cty * Z * bytes) :=
  match v with
  | VStr s => Some (TChar, zlen s, s)
  | VNum k z => Some (TNum k, 1, enc_be k z)
  | VSlice (GNum k) l => Some (TNum k, zlen l, flat_map num_bytes l)
  | _ => None
  end.

(** Which attribute and variable types are followed by pad():
    cdfwriter.go:463-546 and 804-836 *)
Definition padded_ty (t : cty) : bool :=
  match t with
  | TChar => true
  | TNum (I8 | U8 | I16 | U16) => true
  | TNum _ => false
  end.

(** cdfwriter.go:459-582 *)
Fixpoint write_attr_list (ver : Z) (out : bytes) (a : attrs) : res bytes :=
  match a with
  | [] => Ok out
  | (k, v) :: r =>
      let out1 := write_name ver out k in
      match attr_payload v with
      | None => Err EUnknownType
      | Some (t, n, p) =>
          let out2 := out1 ++ be 4 (tcode t) ++ enc_number ver n ++ p in
          let out3 := if padded_ty t then pad_out out2 else out2 in
          write_attr_list ver out3 r
      end
  end.

(** cdfwriter.go:451-583 *)
Definition write_attributes (ver : Z) (out : bytes) (a : attrs) : res bytes :=
  match a with
  | [] => Ok (out ++ be 4 0 ++ enc_number ver 0)
  | _ => write_attr_list ver (out ++ be 4 fieldAttribute ++ enc_number ver (zlen a)) a
  end.

Definition tysize (t : cty) : Z := match t with TChar => 1 | TNum k => ksize k end.

(** cdfwriter.go:631-641; [first] is i = 0.  The length-0 dimension of index 0 leaves
    the product unchanged. *)
Fixpoint vsize_loop (first : bool) (lens : list Z) (acc : Z) : res Z :=
  match lens with
  | [] => Ok acc
  | v :: r =>
      if negb (v =? 0) then vsize_loop false r (acc * v)
      else if first then vsize_loop false r acc
      else Err EUnlimitedMustBeFirst
  end.

(** cdfwriter.go:606-652; [off] is cw.begin plus the sizes of the preceding variables.
    Returns the output and the padded vsize. *)
Definition write_var (ids : list (bytes * Z)) (ver : Z) (out : bytes) (s : svar) (off : Z)
  : res (bytes * Z) :=
  let out1 := write_name ver out (sv_name s) in
  let out2 := out1 ++ enc_number ver (zlen (sv_lens s)) in
  let names := firstn (List.length (sv_lens s)) (sv_dims s) in
  let dim_id name := match assoc name ids with Some i => i | None => 0 end in
  let out3 := out2 ++ flat_map (fun nm => enc_number ver (dim_id nm)) names in
  let* out4 := write_attributes ver out3 (sv_attrs s) in
  let out5 := out4 ++ be 4 (tcode (sv_ty s)) in
  let* vs := vsize_loop true (sv_lens s) (tysize (sv_ty s)) in
  let vsize := round4 vs in
  Ok (out5 ++ enc_number ver vsize ++ be 8 off, vsize).

(** cdfwriter.go:925-927 *)
Fixpoint write_vars (ids : list (bytes * Z)) (ver : Z) (out : bytes) (vs : list svar) (off : Z)
  : res bytes :=
  match vs with
  | [] => Ok out
  | s :: r =>
      let* (out1, vsize) := write_var ids ver out s off in
      write_vars ids ver out1 r (off + vsize)
  end.

(** addLength closures, cdfwriter.go:656-661 and 758-763 *)
Definition numsize (ver : Z) : Z := if ver =? 5 then 8 else 4.

(** cdfwriter.go:670-752 *)
Fixpoint attr_list_size (ver : Z) (count : Z) (a : attrs) : res Z :=
  match a with
  | [] => Ok count
  | (k, v) :: r =>
      let count1 := round4 (count + numsize ver + zlen k) in
      let count2 := count1 + 4 + numsize ver in
      match v with
      | VStr s => attr_list_size ver (round4 (count2 + zlen s)) r
      | VNum kd _ => attr_list_size ver (round4 (count2 + ksize kd)) r
      | VSlice (GNum kd) l => attr_list_size ver (round4 (count2 + ksize kd * zlen l)) r
      | _ => Err EUnknownType
      end
  end.

(** cdfwriter.go:654-754 *)
Definition attributes_size (ver : Z) (a : attrs) : res Z :=
  attr_list_size ver (4 + numsize ver) a.

(** cdfwriter.go:756-789 *)
Definition var_size (ver : Z) (s : svar) : res Z :=
  let c1 := round4 (numsize ver + zlen (sv_name s)) in
  let c2 := c1 + numsize ver in
  let c3 := c2 + zlen (sv_lens s) * 4 + (if ver =? 5 then zlen (sv_lens s) * 4 else 0) in
  let* asz := attributes_size ver (sv_attrs s) in
  Ok (c3 + asz + 4 + numsize ver + 8).

(** cdfwriter.go:920-923 *)
Fixpoint vars_size (ver : Z) (acc : Z) (vs : list svar) : res Z :=
  match vs with
  | [] => Ok acc
  | s :: r => let* n := var_size ver s in vars_size ver (acc + n) r
  end.

(** Storing a float32 scalar goes through reflect.Value.Float (a float64):
    cdfwriter.go:233; the hardware conversion sets the quiet bit of a signalling NaN. *)
Definition f32_nan (z : Z) : bool :=
  (Z.land (Z.shiftr z 23) 255 =? 255) && negb (Z.land z 8388607 =? 0).
Definition quiet32 (z : Z) : Z := if f32_nan z then Z.lor z 4194304 else z.
Definition scalar_bits (k : nk) (z : Z) : Z := match k with F32 => quiet32 z | _ => z end.

(** cdfwriter.go:71-265: storeChars, storeBytes, ..., storeDoubles *)
Fixpoint store (t : cty) (dims : list Z) (v : gval) {struct dims} : res bytes :=
  match dims with
  | [] =>
      match t, v with
      | TChar, VStr s => Ok (firstn 1 s)
      | TNum k, VNum k' z => if nk_eqb k k' then Ok (enc_be k (scalar_bits k z)) else Panic
      | _, _ => Panic
      end
  | [d] =>
      match t, v with
      | TChar, VStr s => Ok (s ++ zrep (d - zlen s) 0)
      | TChar, _ => Err EInternal
      | TNum k, VSlice (GNum k') l =>
          if nk_eqb k k' then Ok (flat_map num_bytes l) else Panic
      | _, _ => Panic
      end
  | _ :: ds =>
      match v with
      | VSlice _ l => rmap (@List.concat Z) (rmapM (store t ds) l)
      | _ => Panic
      end
  end.

(** cdfwriter.go:804-836 *)
Definition write_data1 (out : bytes) (s : svar) : res bytes :=
  let* b := store (sv_ty s) (sv_lens s) (sv_val s) in
  Ok (if padded_ty (sv_ty s) then pad_out (out ++ b) else out ++ b).

(** cdfwriter.go:928-930 *)
Fixpoint write_data (out : bytes) (vs : list svar) : res bytes :=
  match vs with
  | [] => Ok out
  | s :: r => let* out1 := write_data1 out s in write_data out1 r
  end.

(** cdfwriter.go:903-907 *)
Fixpoint write_dims (ver : Z) (lens : list (bytes * Z)) (out : bytes) (names : list bytes) : bytes :=
  match names with
  | [] => out
  | nm :: r =>
      let n := match assoc nm lens with Some n => n | None => 0 end in
      write_dims ver lens (write_name ver out nm ++ enc_number ver n) r
  end.

(** cdfwriter.go:896-911 *)
Definition write_prologue (st : wst) : bytes :=
  let ver := w_ver st in
  let out := bs "CDF" ++ [u8 ver] ++ enc_number ver 0 in
  if 0 <? zlen (w_dimlens st)
  then write_dims ver (w_dimlens st)
         (out ++ be 4 fieldDimension ++ enc_number ver (zlen (w_dimlens st)))
         (firstn (Z.to_nat (w_next st)) (w_dimnames st))
  else out ++ be 4 0 ++ enc_number ver 0.

(** cdfwriter.go:895-935: the complete file, from the data collected so far.  The
    version may change to 5 between the dimensions and the attributes (line 912). *)
Definition write_all (st : wst) : res bytes :=
  let out1 := write_prologue st in
  let* ver := check_v5 (w_ver st) (w_gattrs st) in
  let* out2 := write_attributes ver out1 (w_gattrs st) in
  match w_vars st with
  | [] => Ok (out2 ++ be 4 0 ++ enc_number ver 0)
  | vs =>
      let out3 := out2 ++ be 4 fieldVariable ++ enc_number ver (zlen vs) in
      let* begin := vars_size ver (zlen out3) vs in
      let* out4 := write_vars (w_dimids st) ver out3 vs begin in
      write_data out4 vs
  end.

(** cdfwriter.go:839-852: bytes of the file after a successful Close. *)
Definition close_writer (st : wst) : res bytes := write_all st.
