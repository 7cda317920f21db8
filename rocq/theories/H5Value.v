(** Go values as the HDF5 writer and reader see them, and how the writer describes and
    stores them: netcdf/hdf5/writer_utils.go and the data part of netcdf/hdf5/hdf5writer.go.

    Simplifications: pointers, Go arrays, named element types and nil interfaces are not
    represented ([HOther] stands for every value of an unsupported type); the types
    compound, opaque and enumerated are those of the package (a caller gets such values by
    reading a file).  The error of encoding/binary about a value without a fixed size is
    represented by [EUnsupportedType]. *)
From Verif Require Import Prelude GoVal H5Base H5MetaWrite.

(** Go types *)
Inductive hty : Type :=
| TNum (k : nk) | TStr | TComp | TOpaque | TEnum | TSlice (t : hty) | TOther.

Fixpoint hty_eqb (a b : hty) : bool :=
  match a, b with
  | TNum k, TNum k' => nk_eqb k k'
  | TStr, TStr | TComp, TComp | TOpaque, TOpaque | TEnum, TEnum | TOther, TOther => true
  | TSlice t, TSlice t' => hty_eqb t t'
  | _, _ => false
  end.

(** Go values: compound.go:14-19, opaque.go:11, enum.go:13-17.  Integers are represented by
    their value, floats by their bits. *)
Inductive hval : Type :=
| HNum (k : nk) (z : Z)
| HStr (s : bytes)
| HComp (fs : list (bytes * hval))
| HOpaque (b : bytes)
| HEnum (v : hval) (names : list bytes) (mvals : list hval)
| HSlice (t : hty) (l : list hval)
| HOther.

Definition htype (v : hval) : hty :=
  match v with
  | HNum k _ => TNum k
  | HStr _ => TStr
  | HComp _ => TComp
  | HOpaque _ => TOpaque
  | HEnum _ _ _ => TEnum
  | HSlice t _ => TSlice t
  | HOther => TOther
  end.

Definition is_hslice (v : hval) : bool := match v with HSlice _ _ => true | _ => false end.
Definition is_tslice (t : hty) : bool := match t with TSlice _ => true | _ => false end.

(** binary.Write of one number in the byte order of the host ([big]: a big-endian host);
    util/binary.go:11 *)
Definition henc (big : bool) (k : nk) (z : Z) : bytes :=
  if big then enc_be k z else enc_le k z.

(** writer_utils.go:35-53.  The writer's order is binary.NativeEndian, which never equals
    binary.BigEndian (util/binary.go:11, hdf5writer.go:1269-1286), so that the byte-order
    bit is never set. *)
Definition fixedPointDt (size : Z) (sg : bool) : bytes :=
  [16; if sg then 8 else 0; 0; 0] ++ le 4 size ++ le 2 0 ++ le 2 (size * 8).

(** writer_utils.go:55-95 *)
Definition floatingPointDt (size : Z) : bytes :=
  if size =? 4
  then [17; 32; 31; 0] ++ le 4 size ++ le 2 0 ++ le 2 32 ++ [23; 8; 0; 23] ++ le 4 127
  else [17; 32; 63; 0] ++ le 4 size ++ le 2 0 ++ le 2 64 ++ [52; 11; 0; 52] ++ le 4 1023.

(** writer_utils.go:97-105 *)
Definition stringDt (size : Z) : bytes := [19; 0; 0; 0] ++ le 4 size.

(** writer_utils.go:179-187 *)
Definition opaqueDt (size : Z) : bytes := [21; 0; 0; 0] ++ le 4 size.

(** writer_utils.go:531-542 *)
Definition vlenStringDt : bytes := [25; 1; 0; 0] ++ le 4 16 ++ stringDt 1.

(** writer_utils.go:544-564 *)
Definition referenceDt : bytes := [23; 0; 0; 0] ++ le 4 8.
Definition vlenReferenceDt : bytes := [25; 0; 0; 0] ++ le 4 16 ++ referenceDt.

(** the scalar cases of buildDatatypeMessage, writer_utils.go:494-515 *)
Definition numDt (k : nk) : bytes :=
  match k with
  | F32 => floatingPointDt 4
  | F64 => floatingPointDt 8
  | _ => fixedPointDt (ksize k) (ksigned k)
  end.

(** innermost type of nested slices *)
Fixpoint leaf_ty (t : hty) : hty := match t with TSlice t' => leaf_ty t' | _ => t end.

(** the scalar reached through first elements, or the zero value of the element type:
    writer_utils.go:131-139 and 233-240 *)
Fixpoint enum_leaf (v : hval) : hty :=
  match v with
  | HSlice t [] => leaf_ty t
  | HSlice _ (x :: _) => enum_leaf x
  | _ => htype v
  end.

(** writer_utils.go:107-147.  Values of an enumerated are numbers (the reader makes no
    others); anything else there is not modelled. *)
Fixpoint calcFieldSize (v : hval) : res Z :=
  match v with
  | HNum k _ => Ok (ksize k)
  | HStr _ => Ok 16
  | HComp fs =>
      (fix go (fs : list (bytes * hval)) : res Z :=
         match fs with
         | [] => Ok 0
         | (_, x) :: r => let* a := calcFieldSize x in let* b := go r in Ok (a + b)
         end) fs
  | HOpaque b => Ok (zlen b)
  | HEnum w _ _ => match enum_leaf w with TNum k => Ok (ksize k) | _ => Err ENotModelled end
  | HSlice _ _ => Ok 16
  | HOther => Err EUnsupportedType
  end.

(** writer_utils.go:149-159 *)
Definition writeEnc (val total : Z) : bytes :=
  if total <? 256 then le 1 val
  else if total <? 65536 then le 2 val
  else le 4 val.

(** hdf5writer.go:1010-1030 *)
Fixpoint getDims (v : hval) : list Z :=
  match v with
  | HEnum w _ _ => getDims w
  | HSlice _ [] => [0]
  | HSlice _ (x :: r) => zlen (x :: r) :: getDims x
  | _ => []
  end.

(** hdf5writer.go:1036-1051 *)
Fixpoint getDimsLimited (depth : nat) (v : hval) {struct v} : list Z :=
  match v with
  | HEnum w _ _ => getDimsLimited depth w
  | HSlice _ l =>
      match depth with
      | O => []
      | S d => match l with
               | [] => [0]
               | x :: r => zlen (x :: r) :: getDimsLimited d x
               end
      end
  | _ => []
  end.

(** binary.Write (encoding/binary) of a number or of a slice of numbers *)
Fixpoint all_num (l : list hval) : option (list (nk * Z)) :=
  match l with
  | [] => Some []
  | HNum k z :: r => option_map (cons (k, z)) (all_num r)
  | _ => None
  end.
Definition binary_write (big : bool) (v : hval) : res bytes :=
  match v with
  | HNum k z => Ok (henc big k z)
  | HSlice (TNum _) l =>
      match all_num l with
      | Some ks => Ok (flat_map (fun kz => henc big (fst kz) (snd kz)) ks)
      | None => Err EUnsupportedType
      end
  | _ => Err EUnsupportedType
  end.

Fixpoint rconcat (l : list (res bytes)) : res bytes :=
  match l with
  | [] => Ok []
  | x :: r => let* a := x in let* b := rconcat r in Ok (a ++ b)
  end.

Definition count3 (n : Z) : bytes := le 3 n.
Definition cstrings (names : list bytes) : bytes := flat_map (fun s => s ++ [0]) names.

(** writer_utils.go:229-280.  A leaf that is not an integer leaves size and sign unset. *)
Definition enumDt (big : bool) (w : hval) (names : list bytes) (mvals : list hval) : res bytes :=
  let '(size, sg) :=
    match enum_leaf w with
    | TNum F32 | TNum F64 => (0, false)
    | TNum k => (ksize k, ksigned k)
    | _ => (0, false)
    end in
  let* vals := rconcat (map (binary_write big) mvals) in
  Ok ([56] ++ count3 (zlen names) ++ le 4 size ++ fixedPointDt size sg ++ cstrings names ++ vals).

Definition vlenHead : bytes := [25; 0; 0; 0] ++ le 4 16.

(** buildDatatypeMessage for the zero value of a type: what navigateToFirst gives for an
    empty slice (writer_utils.go:163-177), followed by 449-529 *)
Fixpoint zeroDt (orig : bool) (n : nat) (t : hty) : res bytes :=
  match t with
  | TNum k => Ok (numDt k)
  | TStr => Ok (if orig then vlenStringDt else stringDt 1)
  | TComp => Ok ([54] ++ count3 0 ++ le 4 0)
  | TOpaque => Ok (opaqueDt 0)
  | TEnum => Panic
  | TSlice t' =>
      match n with
      | S m => zeroDt orig m t'
      | O => let* d := zeroDt (is_tslice t') (if is_tslice t' then 1 else 0)%nat t' in
             Ok (vlenHead ++ d)
      end
  | TOther => Err EUnsupportedType
  end.

(** buildDatatypeMessage (writer_utils.go:449-529) with buildCompoundDatatype (189-227) and
    buildVlenSequenceDatatype (282-305).  Go strips [n] slice levels off the type and goes
    to the first element of the value as many levels down; since all the elements of a
    slice have its element type, this descends through the value.  [orig]: the value
    the call was made for is a slice (shouldUseVLen, hdf5writer.go:577-592). *)
Fixpoint buildDt (big : bool) (orig : bool) (n : nat) (v : hval) {struct v} : res bytes :=
  match v with
  | HNum k _ => Ok (numDt k)
  | HStr s => Ok (if orig then vlenStringDt else stringDt (zlen s + 1))
  | HOpaque b => Ok (opaqueDt (zlen b))
  | HEnum w names mvals => enumDt big w names mvals
  | HComp fs =>
      let* total := calcFieldSize (HComp fs) in
      let* ms :=
        (fix go (off : Z) (fs : list (bytes * hval)) : res bytes :=
           match fs with
           | [] => Ok []
           | (nm, x) :: r =>
               let* dt := match x with
                          | HStr _ => Ok vlenStringDt
                          | _ => buildDt big (is_hslice x) 0%nat x
                          end in
               let* sz := calcFieldSize x in
               let* rest := go (off + sz) r in
               Ok (nm ++ [0] ++ writeEnc off total ++ dt ++ rest)
           end) 0 fs in
      Ok ([54] ++ count3 (zlen fs) ++ le 4 total ++ ms)
  | HSlice t l =>
      match n with
      | S m => match l with
               | [] => zeroDt orig m t
               | x :: _ => buildDt big orig m x
               end
      | O =>
          let* d := match l with
                    | [] => zeroDt (is_tslice t) (if is_tslice t then 1 else 0)%nat t
                    | x :: _ => buildDt big (is_hslice x) (List.length (getDims x)) x
                    end in
          Ok (vlenHead ++ d)
      end
  | HOther => Err EUnsupportedType
  end.

Definition buildDatatypeMessage (big : bool) (v : hval) (nDims : nat) : res bytes :=
  buildDt big (is_hslice v) nDims v.

(** the members of a compound datatype (the inner loop of [buildDt]) *)
Definition membersDt (big : bool) (total : Z) : Z -> list (bytes * hval) -> res bytes :=
  fix go (off : Z) (fs : list (bytes * hval)) : res bytes :=
    match fs with
    | [] => Ok []
    | (nm, x) :: r =>
        let* dt := match x with
                   | HStr _ => Ok vlenStringDt
                   | _ => buildDt big (is_hslice x) 0%nat x
                   end in
        let* sz := calcFieldSize x in
        let* rest := go (off + sz) r in
        Ok (nm ++ [0] ++ writeEnc off total ++ dt ++ rest)
    end.

(** The global heap the values refer to: its address and the index of each string
    (hdf5writer.go:36-44, heap.indices; a missing key gives 0). *)
Record henv := { he_addr : Z; he_idx : bytes -> Z }.

Definition descriptor (e : henv) (len idx : Z) : bytes :=
  le 4 len ++ le 8 (he_addr e) ++ le 4 idx.

(** The indices of the sequences still to be written: hw.vlenHeapIndices from hw.vlenPos
    on; running out of them is an index out of range. *)
Definition W := list Z -> res (bytes * list Z).
Definition wput (b : bytes) : W := fun ix => Ok (b, ix).
Definition wres (b : res bytes) : W := fun ix => let* b := b in Ok (b, ix).
Definition wseq (a b : W) : W :=
  fun ix => let* (x, ix) := a ix in let* (y, ix) := b ix in Ok (x ++ y, ix).
Definition wvlen (e : henv) (len : Z) : W :=
  fun ix => match ix with
            | [] => Panic
            | i :: r => Ok (descriptor e len i, r)
            end.

(** writeCompoundValue, writer_utils.go:414-447, one field *)
Fixpoint writeField (big : bool) (e : henv) (v : hval) : W :=
  match v with
  | HNum k z => wput (henc big k z)
  | HStr s => wput (descriptor e (zlen s) (he_idx e s))
  | HComp fs =>
      (fix go (fs : list (bytes * hval)) : W :=
         match fs with
         | [] => wput []
         | (_, x) :: r => wseq (writeField big e x) (go r)
         end) fs
  | HOpaque b => wput b
  | HEnum w _ _ => wres (binary_write big w)
  | HSlice _ l => wvlen e (zlen l)
  | HOther => fun _ => Err EUnsupportedType
  end.

Definition writeFields (big : bool) (e : henv) : list (bytes * hval) -> W :=
  fix go (fs : list (bytes * hval)) : W :=
    match fs with
    | [] => wput []
    | (_, x) :: r => wseq (writeField big e x) (go r)
    end.

(** writeDataRecursive (hdf5writer.go:519-575) and writeAttributeDataRecursive
    (writer_utils.go:352-412), which do the same into another buffer *)
Fixpoint writeData (big : bool) (e : henv) (fixedLen : Z) (n : nat) (v : hval) {struct v} : W :=
  match v with
  | HComp fs => writeFields big e fs
  | HOpaque b => wput b
  | HEnum w _ _ => writeData big e fixedLen n w
  | HSlice _ l =>
      match n with
      | O => wvlen e (zlen l)
      | S m => (fix go (l : list hval) : W :=
                  match l with
                  | [] => wput []
                  | x :: r => wseq (writeData big e fixedLen m x) (go r)
                  end) l
      end
  | HStr s =>
      if 0 <? fixedLen then wput (s ++ zrep (fixedLen - zlen s) 0)
      else wput (descriptor e (zlen s) (he_idx e s))
  | HNum k z => wput (henc big k z)
  | HOther => fun _ => Err EUnsupportedType
  end.

(** writer_utils.go:617-629 *)
Fixpoint findMaxLen (v : hval) : Z :=
  match v with
  | HSlice _ l => (fix go (l : list hval) : Z :=
                     match l with [] => 0 | x :: r => Z.max (findMaxLen x) (go r) end) l
  | HStr s => zlen s
  | _ => 0
  end.

Definition leaf_is_string (v : hval) : bool :=
  match leaf_ty (htype v) with TStr => true | _ => false end.
(** hdf5writer.go:577-592 *)
Definition shouldUseVLen (v : hval) : bool := leaf_is_string v && is_hslice v.

(** hdf5writer.go:493-516 up to the padding, and writer_utils.go:336-348: the length of fixed strings.
    compound and opaque values are slices too, so that the length is 1 for them; they have
    no strings of fixed length. *)
Definition fixedLenOf (v : hval) : Z :=
  if shouldUseVLen v then 0
  else match v with
       | HSlice _ _ | HStr _ | HComp _ | HOpaque _ => findMaxLen v + 1
       | _ => 0
       end.

(** hdf5writer.go:493-516: the bytes of the data before the padding *)
Definition writeDataVar (big : bool) (e : henv) (v : hval) (nDims : nat) (ix : list Z)
  : res (bytes * list Z) :=
  writeData big e (fixedLenOf v) nDims v ix.

(** The heap under construction: hw.heap.objects and hw.heap.indices.  The address is
    still 0 then, and hw.vlenHeapIndices is nil. *)
Record heapst := { hs_objs : list bytes; hs_map : list (bytes * Z) }.

Fixpoint bassoc (s : bytes) (m : list (bytes * Z)) : option Z :=
  match m with
  | [] => None
  | (s', i) :: r => if beqb s s' then Some i else bassoc s r
  end.
Definition map_idx (m : list (bytes * Z)) (s : bytes) : Z :=
  match bassoc s m with Some i => i | None => 0 end.

Definition add_object (h : heapst) (b : bytes) : heapst * Z :=
  ({| hs_objs := hs_objs h ++ [b]; hs_map := hs_map h |}, zlen (hs_objs h) + 1).

(** hdf5writer.go:672-677; the index is a uint32 *)
Definition addStringToHeap (h : heapst) (s : bytes) : heapst :=
  match bassoc s (hs_map h) with
  | Some _ => h
  | None => {| hs_objs := hs_objs h ++ [s];
               hs_map := (s, zlen (hs_objs h) + 1) :: hs_map h |}
  end.

(** hdf5writer.go:657-670 *)
Fixpoint collectStringsActual (h : heapst) (v : hval) {struct v} : heapst :=
  match v with
  | HSlice _ l => (fix go (h : heapst) (l : list hval) : heapst :=
                     match l with [] => h | x :: r => go (collectStringsActual h x) r end) h l
  | HStr s => addStringToHeap h s
  | _ => h
  end.

(** hdf5writer.go:615-655 *)
Fixpoint collectStrings (h : heapst) (v : hval) {struct v} : heapst :=
  match v with
  | HComp fs =>
      (fix go (h : heapst) (fs : list (bytes * hval)) : heapst :=
         match fs with
         | [] => h
         | (_, x) :: r =>
             go (match x with HStr s => addStringToHeap h s | _ => collectStrings h x end) r
         end) h fs
  | HEnum w _ _ => collectStrings h w
  | HSlice t l =>
      if shouldUseVLen v then collectStringsActual h v
      else (fix go (h : heapst) (l : list hval) : heapst :=
              match l with [] => h | x :: r => go (collectStrings h x) r end) h l
  | _ => h
  end.

(** serializeVlenElement and serializeVlenToHeap (hdf5writer.go:921-942, 860-881) *)
Definition collect_env (h : heapst) : henv := {| he_addr := 0; he_idx := map_idx (hs_map h) |}.

Definition serializeElem (big : bool) (h : heapst) (x : hval) : res bytes :=
  match x with
  | HComp fs => let* (b, _) := writeFields big (collect_env h) fs [] in Ok b
  | HOpaque b => Ok b
  | HEnum w _ _ => binary_write big w
  | _ => binary_write big x
  end.

Definition serializeVlen (big : bool) (h : heapst) (l : list hval) : res (heapst * Z) :=
  let* b := rconcat (map (serializeElem big h) l) in
  Ok (add_object h b).

(** hdf5writer.go:698-733; the last test looks at the fields of the compound itself only *)
Definition vlen_field (f : bytes * hval) : bool := is_hslice (snd f).
Fixpoint hasVlenData (n : nat) (v : hval) {struct v} : bool :=
  match v with
  | HEnum w _ _ => hasVlenData n w
  | HSlice t l =>
      match n with
      | O => true
      | S m => match l with
               | [] => is_tslice t
               | x :: _ => hasVlenData m x
               end
      end
  | HComp fs => match n with O => existsb vlen_field fs | S _ => false end
  | _ => false
  end.

(** hdf5writer.go:735-767.  A compound and an opaque value are slices to reflect, so that
    the test for a sequence catches them before the one for compounds: the fields of a
    compound are structs with a string, which encoding/binary rejects. *)
Fixpoint collectVlenElements (big : bool) (h : heapst) (n : nat) (v : hval) {struct v}
  : res (heapst * list Z) :=
  match v with
  | HEnum w _ _ => collectVlenElements big h n w
  | HSlice _ l =>
      match n with
      | O => let* (h, i) := serializeVlen big h l in Ok (h, [i])
      | S m =>
          (fix go (h : heapst) (l : list hval) : res (heapst * list Z) :=
             match l with
             | [] => Ok (h, [])
             | x :: r =>
                 let* (h, is) := collectVlenElements big h m x in
                 let* (h, js) := go h r in
                 Ok (h, is ++ js)
             end) h l
      end
  | HComp fs =>
      match n, fs with
      | O, _ :: _ => Err EUnsupportedType
      | O, [] => let (h, i) := add_object h [] in Ok (h, [i])
      | S _, _ => Ok (h, [])
      end
  | HOpaque b =>
      match n with O => let (h, i) := add_object h b in Ok (h, [i]) | S _ => Ok (h, []) end
  | _ => Ok (h, [])
  end.

(** hdf5writer.go:679-695, one variable *)
Definition collectVlenVar (big : bool) (h : heapst) (v : hval) (nDims : nat)
  : res (heapst * list Z) :=
  if hasVlenData nDims v then collectVlenElements big h nDims v else Ok (h, []).

(** The heap for several variables, taken in the order of [vs]: all strings first
    (hdf5writer.go:594-613), then the sequences (679-696); each variable keeps the indices
    of its own sequences.  Attributes are left out here. *)
Fixpoint collectVlenVars (big : bool) (h : heapst) (vs : list (hval * nat))
  : res (heapst * list (list Z)) :=
  match vs with
  | [] => Ok (h, [])
  | (v, n) :: r =>
      let* (h, ix) := collectVlenVar big h v n in
      let* (h, ixs) := collectVlenVars big h r in
      Ok (h, ix :: ixs)
  end.
Definition collectHeap (big : bool) (vs : list (hval * nat)) : res (heapst * list (list Z)) :=
  collectVlenVars big
    (fold_left (fun h v => collectStrings h (fst v)) vs {| hs_objs := []; hs_map := [] |}) vs.
