(** Model of netcdf/cdf/cdf.go and internal/slicer.go.

    A file is its list of bytes (below 2^63 of them).  Readers are parsers over the
    remaining bytes. *)
From Verif Require Import Prelude GoVal OrderedMapModel FillModel CdfWriterModel.

Definition P (A : Type) := bytes -> res (A * bytes).

(** cdf.go:46-49 *)
Record rdim : Type := mkDim { d_name : bytes; d_len : Z }.

(** cdf.go:51-58; vsize is an int64, the other numbers are unsigned *)
Record rvar : Type := mkRvar {
  v_name : bytes;
  v_ids : list Z;
  v_attrs : omap gval;
  v_type : Z;
  v_vsize : Z;
  v_begin : Z
}.

(** cdf.go:68-80; the reference count is modelled in RefModel.v *)
Record cdf : Type := mkCdf {
  c_file : bytes;
  c_ver : Z;
  c_numrecs : Z;
  c_recsize : Z;
  c_dims : list rdim;
  c_gattrs : omap gval;
  c_vars : omap rvar;
  c_special : bool
}.

Definition maxDimensions : Z := 1024.

(** cdf.go:27-42: type from its code; None for unknown codes *)
Definition ty_of_code (c : Z) : option cty :=
  match c with
  | 1 => Some (TNum I8)
  | 2 => Some TChar
  | 3 => Some (TNum I16)
  | 4 => Some (TNum I32)
  | 5 => Some (TNum F32)
  | 6 => Some (TNum F64)
  | 7 => Some (TNum U8)
  | 8 => Some (TNum U16)
  | 9 => Some (TNum U32)
  | 10 => Some (TNum I64)
  | 11 => Some (TNum U64)
  | _ => None
  end.

(** cdf.go:181-185: make, then io.ReadFull *)
Definition read_bytes (n : Z) : P bytes := fun s =>
  let* _ := go_make n 1 in
  if zlen s <? n then Err EEOF else Ok (ztake n s, zdrop n s).

(** cdf.go:187-209 *)
Definition read_uint (n : Z) : P Z := fun s =>
  if zlen s <? n then Err EEOF else Ok (of_be (ztake n s), zdrop n s).
Definition read32 : P Z := read_uint 4.
Definition read64 : P Z := read_uint 8.

(** cdf.go:443-450 *)
Definition read_number (ver : Z) : P Z := fun s =>
  if ver <? 5 then
    let* (n, s1) := read32 s in Ok (u64 (i32 n), s1)
  else read64 s.

(** cdf.go:224-226; (i+3) & ^3 in uint64 *)
Definition round32 (i : Z) : Z := let j := u64 (i + 3) in j - j mod 4.

(** cdf.go:372-379: [n] is the name length still to scan, [b] the bytes read.  Index out of range when the
    rounded length wrapped around. *)
Fixpoint name_scan (b : bytes) (n : Z) : res bytes :=
  if n <=? 0 then Ok []
  else match b with
       | [] => Panic
       | c :: r => if c =? 0 then Ok []
                   else let* t := name_scan r (n - 1) in Ok (c :: t)
       end.

(** cdf.go:369-380 *)
Definition read_name (ver : Z) : P bytes := fun s =>
  let* (n, s1) := read_number ver s in
  let* (b, s2) := read_bytes (round32 n) s1 in
  let* nm := name_scan b n in
  Ok (nm, s2).

(** binary.Read of [n] numbers of kind [k], big endian; [dec_list] decodes them. *)
Fixpoint dec_list (k : nk) (n : nat) (b : bytes) : list Z :=
  match n with
  | O => []
  | S m => dec_be k (ztake (ksize k) b) :: dec_list k m (zdrop (ksize k) b)
  end.
Definition read_nums (k : nk) (n : Z) : P (list Z) := fun s =>
  let* _ := go_make n (ksize k) in
  if zlen s <? n * ksize k then Err EEOF
  else Ok (dec_list k (Z.to_nat n) s, zdrop (n * ksize k) s).

(** cdf.go:323-327 *)
Definition read_pad (nread : Z) : P unit := fun s =>
  let p := round4 nread - nread in
  if zlen s <? p then Err EEOF else Ok (tt, zdrop p s).

(** cdf.go:329-332 *)
Definition attr_scalar (v : gval) : gval :=
  match v with
  | VSlice _ [x] => x
  | _ => v
  end.

(** cdf.go:216-221 *)
Definition check_version (ver : Z) (k : nk) : res unit :=
  if v5kind k && (ver <? 5) then Err ECorruptedFile else Ok tt.

(** cdf.go:228-334 *)
Definition get_attr (ver : Z) : P (bytes * gval) := fun s =>
  let* (name, s1) := read_name ver s in
  let* (vt, s2) := read32 s1 in
  let* (n, s3) := read_number ver s2 in
  match ty_of_code vt with
  | None => Err ECorruptedFile
  | Some TChar =>
      let* (b, s4) := read_bytes n s3 in
      let* (_, s5) := read_pad n s4 in
      Ok ((name, VStr b), s5)
  | Some (TNum k) =>
      let* _ := check_version ver k in
      let* (zs, s4) := read_nums k n s3 in
      let* (_, s5) := read_pad (n * ksize k) s4 in
      Ok ((name, attr_scalar (VSlice (GNum k) (map (VNum k) zs))), s5)
  end.

(** cdf.go:336-353 *)
Definition get_nelems (ver expected : Z) : P Z := fun s =>
  let* (ft, s1) := read32 s in
  let* (n, s2) := read_number ver s1 in
  if ft =? 0 then (if n =? 0 then Ok (n, s2) else Err ECorruptedFile)
  else if ft =? expected then Ok (n, s2)
  else Err ECorruptedFile.

(** The loops over nElems (cdf.go:359, 501): every iteration that succeeds consumes at
    least one byte, so [fuel] = one more than the bytes left never runs out;
    the value returned in that case (EOF) is unreachable. *)
Fixpoint get_attrs_loop (ver : Z) (fuel : nat) (n : Z) (s : bytes)
  : res (list (bytes * gval) * bytes) :=
  if n <=? 0 then Ok ([], s)
  else match fuel with
       | O => Err EEOF
       | S f =>
           let* (a, s1) := get_attr ver s in
           let* (r, s2) := get_attrs_loop ver f (n - 1) s1 in
           Ok (a :: r, s2)
       end.

Definition build_map {V} (l : list (bytes * V)) : list (bytes * V) :=
  fold_left (fun m kv => assoc_set (fst kv) (snd kv) m) l [].

(** cdf.go:355-367 *)
Definition get_attr_list (ver : Z) : P (omap gval) := fun s =>
  let* (n, s1) := get_nelems ver fieldAttribute s in
  let* (l, s2) := get_attrs_loop ver (S (List.length s1)) n s1 in
  let* om := new_ordered_map (map fst l) (build_map l) in
  Ok (om, s2).

(** cdf.go:382-386 and the loop 486-488 *)
Fixpoint get_dims (ver : Z) (n : nat) (s : bytes) : res (list rdim * bytes) :=
  match n with
  | O => Ok ([], s)
  | S m =>
      let* (nm, s1) := read_name ver s in
      let* (len, s2) := read_number ver s1 in
      let* (r, s3) := get_dims ver m s2 in
      Ok (mkDim nm len :: r, s3)
  end.

(** Indexing cdf.dimensions by a uint64; out of range panics *)
Definition dim_at (dims : list rdim) (i : Z) : res rdim :=
  if i <? zlen dims then
    match nth_error dims (Z.to_nat i) with Some d => Ok d | None => Panic end
  else Panic.

(** cdf.go:388-390 *)
Definition has_unlimited (dims : list rdim) (ids : list Z) : res bool :=
  match ids with
  | [] => Ok false
  | i :: _ => let* d := dim_at dims i in Ok (d_len d =? 0)
  end.

(** cdf.go:399-402 *)
Fixpoint read_numbers (ver : Z) (n : nat) (s : bytes) : res (list Z * bytes) :=
  match n with
  | O => Ok ([], s)
  | S m =>
      let* (x, s1) := read_number ver s in
      let* (r, s2) := read_numbers ver m s1 in
      Ok (x :: r, s2)
  end.

(** cdf.go:410-412, uint64 product *)
Fixpoint dims_prod (dims : list rdim) (ids : list Z) (acc : Z) : res Z :=
  match ids with
  | [] => Ok acc
  | i :: r => let* d := dim_at dims i in dims_prod dims r (u64 (acc * d_len d))
  end.

(** cdf.go:392-441; also returns the updated recSize *)
Definition get_var (ver : Z) (dims : list rdim) (recsz : Z) : P (rvar * Z) := fun s =>
  let* (name, s1) := read_name ver s in
  let* (nd, s2) := read_number ver s1 in
  if maxDimensions <? nd then Err ETooManyDimensions else
  let* (ids, s3) := read_numbers ver (Z.to_nat nd) s2 in
  let* (at_, s4) := get_attr_list ver s3 in
  let* (vt, s5) := read32 s4 in
  let* (vsize, s6) := read_number ver s5 in
  let* unl := has_unlimited dims ids in
  let* (used, recsz') :=
    if unl then
      let* n := dims_prod dims (tl ids) 1 in
      match ty_of_code vt with
      | None => Err EUnknownType
      | Some t => Ok (u64 (n * tysize t), u64 (recsz + vsize))
      end
    else Ok (vsize, recsz) in
  let* (off, s7) := if ver =? 1 then read32 s6 else read64 s6 in
  Ok ((mkRvar name ids at_ vt (i64 used) off, recsz'), s7).

(** State of the variable loop, cdf.go:497-514 *)
Record vloop : Type := mkVl {
  vl_rec : Z; vl_vars : omap rvar; vl_nrec : Z; vl_first : option rvar }.

Fixpoint get_vars_loop (ver : Z) (dims : list rdim) (fuel : nat) (n : Z) (st : vloop) (s : bytes)
  : res (vloop * bytes) :=
  if n <=? 0 then Ok (st, s)
  else match fuel with
       | O => Err EEOF
       | S f =>
           let* ((v, rs), s1) := get_var ver dims (vl_rec st) s in
           match om_get (vl_vars st) (v_name v) with
           | Some _ => Err EDuplicateVariable
           | None =>
               let* unl := has_unlimited dims (v_ids v) in
               let st' := mkVl rs (om_add (vl_vars st) (v_name v) v)
                            (if unl then vl_nrec st + 1 else vl_nrec st)
                            (if unl then match vl_first st with
                                         | None => Some v
                                         | Some w => Some w
                                         end
                             else vl_first st) in
               get_vars_loop ver dims f (n - 1) st' s1
           end
       end.

Definition empty_om {V} : omap V := mkOM [] [] [] [].

Definition ncpKey : bytes := bs "_NCProperties".

(** cdf.go:515-536: record size and special case *)
Definition finish_rec (st : vloop) : Z * bool :=
  if vl_nrec st =? 0 then (vl_rec st, false)
  else if vl_nrec st =? 1 then
    match vl_first st with
    | Some v =>
        match ty_of_code (v_type v) with
        | Some (TChar | TNum (I8 | U8)) => (u64 (v_vsize v), true)
        | Some (TNum (I16 | U16)) => (u64 (2 * v_vsize v), true)
        | _ => (vl_rec st, false)
        end
    | None => (vl_rec st, false)
    end
  else (round32 (vl_rec st), false).

(** cdf.go:452-538.  The assertion at 517 (recSize = 0 without record variables) cannot
    fail because recSize is only increased for record variables. *)
Definition read_header (f : bytes) : res cdf :=
  let* (m, s0) := read_bytes 4 f in
  if negb (beqb (ztake 3 m) (bs "CDF")) then Err ENotCDF else
  let ver := nth 3 m 0 in
  if negb ((ver =? 1) || (ver =? 2) || (ver =? 5)) then Err EUnknownVersion else
  let* (numrecs, s1) := read_number ver s0 in
  if numrecs =? 2 ^ 64 - 1 then Err ENoStreaming else
  let* (nd, s2) := get_nelems ver fieldDimension s1 in
  if maxDimensions <? nd then Err ETooManyDimensions else
  let* (dims, s3) := get_dims ver (Z.to_nat nd) s2 in
  let* (ga, s4) := get_attr_list ver s3 in
  let* (nv, s5) := get_nelems ver fieldVariable s4 in
  let* (vl, _) := get_vars_loop ver dims (S (List.length s5)) nv (mkVl 0 empty_om 0 None) s5 in
  let '(rs, sp) := finish_rec vl in
  Ok (mkCdf f ver numrecs rs dims (om_hide ga ncpKey) (vl_vars vl) sp).

(** cdf.go:584-595 *)
Definition cdf_open (f : bytes) : res cdf := read_header f.

(** cdf.go:103-129 *)
Definition list_variables (c : cdf) : list bytes := om_keys_visible (c_vars c).
Definition list_dimensions (c : cdf) : list bytes := map d_name (c_dims c).
Definition get_dimension (c : cdf) (name : bytes) : option Z :=
  option_map d_len (find (fun d => beqb (d_name d) name) (c_dims c)).

(** Go slices with their spare capacity: [CSlice t l spare] is a slice of length
    [length l] whose backing array continues with [spare]. *)
Inductive cval : Type :=
| CNum (k : nk) (z : Z)
| CStr (s : bytes)
| CSlice (t : gtype) (l : list cval) (spare : list cval).

Definition ctype_of (v : cval) : gtype :=
  match v with
  | CNum k _ => GNum k
  | CStr _ => GString
  | CSlice t _ _ => GSlice t
  end.

(** What the caller observes *)
Fixpoint erase (v : cval) : gval :=
  match v with
  | CNum k z => VNum k z
  | CStr s => VStr s
  | CSlice t l _ => VSlice t (map erase l)
  end.

(** string(b) for a byte b converts a code point (cdf.go:948) *)
Definition string_of_rune_byte (b : Z) : bytes :=
  if b <? 128 then [b] else [192 + b / 64; 128 + b mod 64].

(** cdf.go:925-934 *)
Fixpoint nest_slice (t : gtype) (n : nat) : gtype :=
  match n with O => t | S m => GSlice (nest_slice t m) end.
Definition elem_gtype (t : cty) : gtype := match t with TChar => GNum U8 | TNum k => GNum k end.
Definition empty_slice (t : cty) (n : nat) : res cval :=
  match n with
  | O => Panic
  | S m => Ok (CSlice (nest_slice (elem_gtype t) m) [] [])
  end.

(** One row of raw data: a slice for numbers, a string for chars *)
Definition conv_row (t : cty) (row spare : list Z) : cval :=
  match t with
  | TChar => CStr row
  | TNum k => CSlice (GNum k) (map (CNum k) row) (map (CNum k) spare)
  end.
Definition row_gtype (t : cty) : gtype :=
  match t with TChar => GString | TNum k => GSlice (GNum k) end.

(** cdf.go:998-1102: v[:d1], v = v[d1:] *)
Fixpoint conv_rows (t : cty) (n : nat) (d1 : Z) (data : list Z) : res (list cval) :=
  match n with
  | O => Ok []
  | S m =>
      if zlen data <? d1 then Panic
      else let* r := conv_rows t m d1 (zdrop d1 data) in
           Ok (conv_row t (ztake d1 data) (zdrop d1 data) :: r)
  end.

(** cdf.go:1130-1132 *)
Definition zprod (l : list Z) : Z := fold_right Z.mul 1 l.

(** cdf.go:936-1140; [slow] is cdf.slowConvert (false unless set by tests).
    [data] is the slice read from the file; dimension lengths are at most 2^48 here, so the
    uint64/int conversions are exact. *)
Fixpoint convert (slow : bool) (t : cty) (dims : list Z) (data : list Z) {struct dims} : res cval :=
  match dims with
  | [] =>
      match data with
      | [] => Panic
      | z :: _ =>
          match t with
          | TChar => Ok (CStr (if slow then [z] else string_of_rune_byte z))
          | TNum k => Ok (CNum k z)
          end
      end
  | [d] =>
      if slow then
        match data with
        | [] => empty_slice t 1
        | _ => if zlen data <? d then Panic
               else Ok (conv_row t (ztake d data) (zdrop d data))
        end
      else Ok (conv_row t data [])
  | d :: ds =>
      let generic :=
        match data with
        | [] => empty_slice t (List.length dims)
        | _ =>
            let* _ := go_make d 24 in
            let total := zprod ds in
            let elems :=
              (fix go (n : nat) (cur : list Z) {struct n} : res (list cval) :=
                 match n with
                 | O => Ok []
                 | S m =>
                     let* x := convert slow t ds cur in
                     match m with
                     | O => Ok [x]
                     | S _ =>
                         if zlen cur <? total then Panic
                         else let* r := go m (zdrop total cur) in Ok (x :: r)
                     end
                 end) in
            let* l := elems (Z.to_nat d) data in
            match l with
            | [] => Panic
            | x :: _ => Ok (CSlice (ctype_of x) l [])
            end
        end in
      if negb slow && (zlen ds =? 1) then
        match ds with
        | [d1] =>
            let* _ := go_make d (match t with TChar => 16 | TNum _ => 24 end) in
            let* rows := conv_rows t (Z.to_nat d) d1 data in
            Ok (CSlice (row_gtype t) rows [])
        | _ => generic
        end
      else generic
  end.

(** Default fill values per type, big endian; cdf.go:1172-1288 without user value *)
Definition default_fill (t : cty) : Z :=
  match t with
  | TChar => FillChar
  | TNum I8 => FillByte
  | TNum U8 => FillUByte
  | TNum I16 => FillShort
  | TNum U16 => FillUShort
  | TNum I32 => FillInt
  | TNum U32 => FillUInt
  | TNum I64 => FillInt64
  | TNum U64 => FillUInt64
  | TNum F32 => FillFloat
  | TNum F64 => FillDouble
  end.
Definition fill_kind (t : cty) : nk := match t with TChar => U8 | TNum k => k end.

(** cdf.go:1172-1288: the repeated byte pattern; type assertions panic on a
    mismatch *)
Definition fill_pattern (v : rvar) (t : cty) : res bytes :=
  match om_get (v_attrs v) (bs "_FillValue") with
  | None => Ok (enc_be (fill_kind t) (default_fill t))
  | Some u =>
      let* u' := match u with
                 | VSlice _ [x] => Ok x
                 | VSlice _ _ => Err EFillValue
                 | _ => Ok u
                 end in
      match u' with
      | VNum k z => if nk_eqb k (fill_kind t) then Ok (enc_be k z) else Panic
      | _ => Panic
      end
  end.

(** The endless stream of a fresh FillValueReader, first [n] bytes *)
Definition fill_stream (pat : bytes) (n : nat) : bytes := fst (fv_read (new_fvr pat) n).

(** cdf.go:907-923: readers as (offset, limit); None for a nil io.Reader.  [n] is the number of
    iterations left, [i] the loop index. *)
Fixpoint record_readers (v : rvar) (recsz : Z) (n : nat) (i start size : Z)
  : list (option (Z * Z)) :=
  match n with
  | O => []
  | S m =>
      if size <=? 0 then None :: record_readers v recsz m (i + 1) start size
      else
        let inc := i64 (i * i64 recsz) in
        if inc <? start then None :: record_readers v recsz m (i + 1) start size
        else Some (i64 (i64 (i64 (v_begin v) + inc) + start), v_vsize v)
             :: record_readers v recsz m (i + 1) 0 (i64 (size - v_vsize v))
  end.

(** io.ReadFull of [need] bytes from io.MultiReader of io.LimitReader of seekReader
    (cdf.go:889-905, 918, 922); a nil reader panics when it is reached *)
Fixpoint multi_read (f : bytes) (rs : list (option (Z * Z))) (need : Z) : res bytes :=
  if need <=? 0 then Ok []
  else match rs with
       | [] => Err EEOF
       | None :: _ => Panic
       | Some (off, lim) :: r =>
           if lim <=? 0 then multi_read f r need
           else if off <? 0 then Err EBadSeek
           else let got := ztake (Z.min lim need) (zdrop off f) in
                let* rest := multi_read f r (need - zlen got) in
                Ok (got ++ rest)
       end.

(** The part of getVarCommon before the closures: cdf.go:602-644 *)
Record getter : Type := mkGetter {
  g_cdf : cdf;
  g_var : rvar;
  g_lens : list Z;      (* dimLengths *)
  g_names : list bytes; (* dimNames *)
  g_unl : bool;
  g_chunk : Z;
  g_len : Z;
  g_ty : cty
}.

Fixpoint var_dims (c : cdf) (first : bool) (ids : list Z) : res (list (Z * bytes * bool)) :=
  match ids with
  | [] => Ok []
  | i :: r =>
      if i <? zlen (c_dims c) then
        let* d := dim_at (c_dims c) i in
        if d_len d =? 0 then
          if first then
            let* l := var_dims c false r in Ok ((c_numrecs c, d_name d, true) :: l)
          else Err ECorruptedFile
        else let* l := var_dims c false r in Ok ((d_len d, d_name d, false) :: l)
      else Err EInternal
  end.

Definition total_size (lens : list Z) : Z :=
  fold_left (fun acc n => i64 (acc * i64 n)) lens 1.

Definition get_var_getter (c : cdf) (name : bytes) : res getter :=
  match om_get (c_vars c) name with
  | None => Err ENotFound
  | Some v =>
      let* ds := var_dims c true (v_ids v) in
      let lens := map (fun x => fst (fst x)) ds in
      let names := map (fun x => snd (fst x)) ds in
      let unl := existsb snd ds in
      let total := total_size lens in
      let '(chunk, len) :=
        match lens with
        | [] => (total, 1)
        | n :: _ => if n =? 0 then (total, 0) else (i64 (Z.quot total (i64 n)), i64 n)
        end in
      match ty_of_code (v_type v) with
      | None => Err EUnknownType
      | Some t => Ok (mkGetter c v lens names unl chunk len t)
      end
  end.

(** cdf.go:645-744 *)
Definition get_slice_c (g : getter) (begin end_ : Z) : res cval :=
  if end_ <? begin then Err EInvalidSlice
  else
    let nchunks :=
      match g_lens g with
      | [] => 1
      | n :: _ => if n =? 0 then 0 else i64 (end_ - begin)
      end in
    let size := i64 (nchunks * g_chunk g) in
    let sz := tysize (g_ty g) in
    let start := i64 (i64 (begin * g_chunk g) * sz) in
    let nbytes := i64 (size * sz) in
    let v := g_var g in
    let f := c_file (g_cdf g) in
    let* raw :=
      if g_unl g && negb (c_special (g_cdf g)) then
        let* _ := go_make (c_numrecs (g_cdf g)) 16 in
        let rs := record_readers v (c_recsize (g_cdf g))
                    (Z.to_nat (c_numrecs (g_cdf g))) 0 start nbytes in
        let* _ := go_make size sz in
        multi_read f rs (size * sz)
      else
        let off := i64 (i64 (v_begin v) + start) in
        if off <? 0 then Err EBadSeek
        else
          let* pat := fill_pattern v (g_ty g) in
          let* _ := go_make size sz in
          let got := ztake (size * sz) (zdrop off f) in
          Ok (got ++ fill_stream pat (Z.to_nat (size * sz - zlen got))) in
    let data := dec_list (fill_kind (g_ty g)) (Z.to_nat size) raw in
    let dims := match g_lens g with [] => [] | _ :: r => nchunks :: r end in
    convert false (g_ty g) dims data.

(** internal/slicer.go:21-25 *)
Definition get_slice (g : getter) (begin end_ : Z) : res gval := rmap erase (get_slice_c g begin end_).

(** internal/slicer.go:33-37 *)
Definition values (g : getter) : res gval := get_slice g 0 (g_len g).

(** internal/slicer.go:43 and cdf.go:773-776 *)
Definition shape (g : getter) : list Z := map i64 (g_lens g).

(** internal/slicer.go:79-109; reflect.Value.Slice is bounded by the capacity.  [n] is
    len(dims). *)
Fixpoint slice_rec (n : nat) (b e : list Z) (v : cval) {struct n} : res cval :=
  match n with
  | O => Ok v
  | S m =>
      match v with
      | CSlice t l spare =>
          match b, e with
          | b0 :: bs', e0 :: es' =>
              if (b0 <? 0) || (e0 <? b0) || (zlen l + zlen spare <? e0) then Panic
              else
                let sl := ztake (e0 - b0) (zdrop b0 (l ++ spare)) in
                match m with
                | O => Ok (CSlice t sl (zdrop e0 (l ++ spare)))
                | S _ => let* l' := rmapM (slice_rec m bs' es') sl in Ok (CSlice t l' [])
                end
          | _, _ => Panic
          end
      | _ => Ok v
      end
  end.

(** cdf.go:749-753 *)
Fixpoint md_ordered (b e : list Z) : bool :=
  match b, e with
  | x :: b', y :: e' => (x <=? y) && md_ordered b' e'
  | _, _ => true
  end.

(** cdf.go:745-772; b[0] of a scalar panics *)
Definition get_slice_md (g : getter) (b e : list Z) : res gval :=
  if negb (zlen b =? zlen (g_lens g)) || negb (zlen e =? zlen (g_lens g))
  then Err ETooManyDimensions
  else if negb (md_ordered b e) then Err EInvalidSlice
  else
    match b, e with
    | b0 :: b', e0 :: e' =>
        let* p := get_slice_c g b0 e0 in
        rmap erase (slice_rec (List.length (g_lens g)) (0 :: b') (i64 (e0 - b0) :: e') p)
    | _, _ => Panic
    end.

(** api.Variable returned by GetVariable, cdf.go:872-886 *)
Record variable : Type := mkVariable {
  var_values : gval; var_dimensions : list bytes; var_attributes : omap gval }.

Definition get_variable (c : cdf) (name : bytes) : res variable :=
  let* g := get_var_getter c name in
  let* vals := get_slice g 0 (g_len g) in
  Ok (mkVariable vals (g_names g) (v_attrs (g_var g))).
