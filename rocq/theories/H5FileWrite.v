(** What Close of the HDF5 writer writes for a tree of groups: netcdf/hdf5/hdf5writer.go and
    netcdf/hdf5/writer_utils.go.  Values, datatypes and the heap are in H5Value, the
    metadata blocks in H5MetaWrite.

    Go maps are association lists.  Where the code ranges over a map in Go's arbitrary order
    the result is computed from a list that stands for the order taken ([orders]).  An
    attribute map is the list of its keys in order with their values. *)
From Verif Require Import Prelude GoVal OrderedMapModel H5MetaWrite H5Value.

Definition hattrs := list (bytes * hval).
Definition path := list bytes.

(** hdf5writer.go:22-31; a nil attribute map is [None] *)
Record hvar : Type := mkHvar {
  hv_val : hval;
  hv_dims : list bytes;
  hv_attrs : option hattrs;
  hv_scale : bool
}.

(** hdf5writer.go:33-40, with what the pointers point to *)
Inductive wtree : Type :=
| WNode (a : option hattrs) (vs : list (bytes * hvar)) (gs : list (bytes * wtree)).
Definition w_attrs (t : wtree) : option hattrs := match t with WNode a _ _ => a end.
Definition w_vars (t : wtree) : list (bytes * hvar) := match t with WNode _ v _ => v end.
Definition w_groups (t : wtree) : list (bytes * wtree) := match t with WNode _ _ g => g end.

Definition attr_list (a : option hattrs) : hattrs := match a with Some l => l | None => [] end.

(** ** Sorting by name (slices.Sort of the keys of a map, then looking them up) *)
Fixpoint ninsert {V} (x : bytes * V) (l : list (bytes * V)) : list (bytes * V) :=
  match l with
  | [] => [x]
  | y :: r => if ble (fst x) (fst y) then x :: y :: r else y :: ninsert x r
  end.
Fixpoint nsort {V} (l : list (bytes * V)) : list (bytes * V) :=
  match l with [] => [] | x :: r => ninsert x (nsort r) end.
Fixpoint sort_tree (t : wtree) : wtree :=
  match t with
  | WNode a vs gs => WNode a (nsort vs) (nsort (map (fun g => (fst g, sort_tree (snd g))) gs))
  end.

(** ** Preparation *)

(** The map the keys and values of which are put together in addNCProperties and
    createDimensionScales: an error of NewOrderedMap is dropped, and the nil pointer it leaves
    makes a later call of Keys panic (at the latest in collectStrings). *)
Definition attrs_map (l : hattrs) : res hattrs :=
  let vals := fold_left (fun m kv => assoc_set (fst kv) (snd kv) m) l [] in
  match new_ordered_map (map fst l) vals with
  | Ok m => Ok (map (fun k => (k, match om_get m k with Some v => v | None => HOther end))
                    (om_keys_visible m))
  | _ => Panic
  end.

Definition ncpKey : bytes := bs "_NCProperties".
(** hdf5writer.go:120-132; the root without attributes is a nil interface *)
Definition addNCProperties (a : option hattrs) : res hattrs :=
  match a with
  | None => Panic
  | Some l =>
      attrs_map (l ++ [(ncpKey, HStr (bs "version=2,github.com/batchatco/go-native-netcdf=1.0"))])
  end.

(** hdf5writer.go:145-180: the dimensions of the variables of a sorted tree with their sizes, in
    the order in which they are met; [acc] are those met before *)
Fixpoint dims_of_names (names : list bytes) (shape : list Z) (acc : list (bytes * Z))
  : list (bytes * Z) :=
  match names with
  | [] => acc
  | d :: r =>
      let size := match shape with [] => 0 | n :: _ => n end in
      let acc := if beqb d [] || mem d (map fst acc) then acc else acc ++ [(d, size)] in
      dims_of_names r (tl shape) acc
  end.
Definition dims_of_vars (vs : list (bytes * hvar)) (acc : list (bytes * Z)) : list (bytes * Z) :=
  fold_left (fun acc v =>
               if hv_scale (snd v) then acc
               else dims_of_names (hv_dims (snd v)) (getDims (hv_val (snd v))) acc) vs acc.
Fixpoint collectDims (t : wtree) (acc : list (bytes * Z)) : list (bytes * Z) :=
  match t with
  | WNode _ vs gs =>
      (fix go (gs : list (bytes * wtree)) (acc : list (bytes * Z)) : list (bytes * Z) :=
         match gs with
         | [] => acc
         | (_, g) :: r => go r (collectDims g acc)
         end) gs (dims_of_vars vs acc)
  end.

(** fmt %10d of a uint64 *)
Definition dec10 (z : Z) : bytes := let d := dec z in zrep (10 - zlen d) 32 ++ d.
Definition scale_note (size : Z) : bytes :=
  bs "This is a netCDF dimension but not a netCDF variable." ++ dec10 size.
Definition scale_attrs (name : bytes) (i : Z) : hattrs :=
  [(bs "CLASS", HStr (bs "DIMENSION_SCALE")); (bs "NAME", HStr name);
   (bs "_Netcdf4Dimid", HNum I32 (i32 i))].

(** hdf5writer.go:188-224, one dimension *)
Definition promote (i : Z) (d : bytes) (v : hvar) : res hvar :=
  let* a := attrs_map (scale_attrs d i ++ attr_list (hv_attrs v)) in
  Ok (mkHvar (hv_val v) (hv_dims v) (Some a) true).
Definition synthetic (i : Z) (d : bytes) (size : Z) : res hvar :=
  let* _ := go_make size 1 in
  Ok (mkHvar (HSlice (TNum I8) (zrep size (HNum I8 0))) [d] (Some (scale_attrs (scale_note size) i)) true).
Definition scale_of (i : Z) (d : bytes * Z) (vs : list (bytes * hvar)) : res hvar :=
  match assoc (fst d) vs with
  | Some v => if hv_scale v then synthetic i (fst d) (snd d) else promote i (fst d) v
  | None => synthetic i (fst d) (snd d)
  end.
Fixpoint add_scales (i : Z) (ds : list (bytes * Z)) (vs : list (bytes * hvar))
  : res (list (bytes * hvar)) :=
  match ds with
  | [] => Ok vs
  | d :: r =>
      let* v := scale_of i d vs in
      add_scales (i + 1) r (assoc_set (fst d) v vs)
  end.

(** hdf5writer.go:73-75 *)
Definition prepare (t : wtree) : res wtree :=
  let* a := addNCProperties (w_attrs t) in
  let* vs := add_scales 0 (collectDims (sort_tree t) []) (w_vars t) in
  Ok (WNode (Some a) vs (w_groups t)).

(** ** Attributes *)

(** Kind() == reflect.Slice and its Len() *)
Definition klen (v : hval) : option Z :=
  match v with
  | HSlice _ l => Some (zlen l)
  | HComp fs => Some (zlen fs)
  | HOpaque b => Some (zlen b)
  | _ => None
  end.
(** elements that are slices of different lengths: hdf5writer.go:821-842, 903-916.  All elements
    of a slice have the same kind. *)
Definition varying (l : list hval) : bool :=
  match l with
  | x :: r => match klen x with
              | Some n => existsb (fun y => match klen y with Some m => negb (m =? n) | None => false end) r
              | None => false
              end
  | [] => false
  end.

(** hdf5writer.go:883-919; nDims is the number of the dimensions returned *)
Fixpoint attrDimsIn (v : hval) : list Z :=
  match v with
  | HSlice _ l =>
      zlen l :: match l with
                | [] => []
                | x :: r => if varying l then [] else attrDimsIn x
                end
  | _ => []
  end.
Fixpoint attrDims (v : hval) : list Z :=
  match v with HEnum w _ _ => attrDims w | _ => attrDimsIn v end.

(** serializeVlenToHeap (hdf5writer.go:860-881) for what reflect takes for a slice: the bytes of
    an opaque value are written one by one, and the fields of a compound are structs that
    encoding/binary rejects *)
Definition serializeAny (big : bool) (h : heapst) (v : hval) : res (heapst * Z) :=
  match v with
  | HSlice _ l => serializeVlen big h l
  | HOpaque b => Ok (add_object h b)
  | HComp [] => Ok (add_object h [])
  | HComp _ => Err EUnsupportedType
  | _ => Panic
  end.

(** hdf5writer.go:796-858 *)
Fixpoint collectVlenFromValue (big : bool) (h : heapst) (v : hval) {struct v}
  : res (heapst * list Z) :=
  match v with
  | HComp fs =>
      (fix go (h : heapst) (fs : list (bytes * hval)) : res (heapst * list Z) :=
         match fs with
         | [] => Ok (h, [])
         | (_, x) :: r =>
             let* (h, is) :=
               match x with
               | HSlice _ l => let* (h, i) := serializeVlen big h l in Ok (h, [i])
               | _ => collectVlenFromValue big h x
               end in
             let* (h, js) := go h r in
             Ok (h, is ++ js)
         end) h fs
  | HEnum w _ _ => collectVlenFromValue big h w
  | HSlice _ l =>
      let vlen := varying l in
      (fix go (h : heapst) (l : list hval) : res (heapst * list Z) :=
         match l with
         | [] => Ok (h, [])
         | x :: r =>
             let* (h, is) :=
               (if vlen then let* (h, i) := serializeAny big h x in Ok (h, [i])
                else collectVlenFromValue big h x) in
             let* (h, js) := go h r in
             Ok (h, is ++ js)
         end) h l
  | _ => Ok (h, [])
  end.

(** writeDataRecursive and writeAttributeDataRecursive while hw.heap is still nil and no
    indices have been collected (writeDimScaleContents runs before the heap is made) *)
Fixpoint writeFieldNil (big : bool) (v : hval) : res bytes :=
  match v with
  | HNum k z => Ok (henc big k z)
  | HStr _ => Panic
  | HComp fs =>
      (fix go (fs : list (bytes * hval)) : res bytes :=
         match fs with
         | [] => Ok []
         | (_, x) :: r => let* a := writeFieldNil big x in let* b := go r in Ok (a ++ b)
         end) fs
  | HOpaque b => Ok b
  | HEnum w _ _ => binary_write big w
  | HSlice _ _ => Panic
  | HOther => Err EUnsupportedType
  end.
Fixpoint writeDataNil (big : bool) (fixedLen : Z) (n : nat) (v : hval) {struct v} : res bytes :=
  match v with
  | HComp _ => writeFieldNil big v
  | HOpaque b => Ok b
  | HEnum w _ _ => writeDataNil big fixedLen n w
  | HSlice _ l =>
      match n with
      | O => Panic
      | S m => (fix go (l : list hval) : res bytes :=
                  match l with
                  | [] => Ok []
                  | x :: r => let* a := writeDataNil big fixedLen m x in let* b := go r in Ok (a ++ b)
                  end) l
      end
  | HStr s => if 0 <? fixedLen then Ok (s ++ zrep (fixedLen - zlen s) 0) else Panic
  | HNum k z => Ok (henc big k z)
  | HOther => Err EUnsupportedType
  end.

(** The bytes of a value: with the heap [e], or before there is one *)
Definition valueBytes (big : bool) (e : option henv) (v : hval) (nDims : nat) (ix : list Z) : res bytes :=
  match e with
  | None => writeDataNil big (fixedLenOf v) nDims v
  | Some e => let* (b, _) := writeDataVar big e v nDims ix in Ok b
  end.

Definition padded (b : bytes) : bytes := b ++ pad8 (zlen b).

(** The head of an attribute message, writer_utils.go:312-333 and 580-603: eight bytes, then
    three parts, each filled up to a multiple of 8 *)
Definition attrHead (name dt ds : bytes) : bytes :=
  [1; 0] ++ le 2 (u16 (zlen name + 1)) ++ le 2 (u16 (zlen dt)) ++ le 2 (u16 (zlen ds)) ++
  padded (name ++ [0]) ++ padded dt ++ padded ds.

(** writer_utils.go:307-350 *)
Definition buildAttributeMessage (big : bool) (e : option henv) (name : bytes) (v : hval) (ix : list Z)
  : res h5msg :=
  let dims := attrDims v in
  let* dt := buildDatatypeMessage big v (List.length dims) in
  let* data := valueBytes big e v (List.length dims) ix in
  Ok (msg 12 (attrHead name dt (buildDataspaceMessage dims) ++ data)).

Definition dimref (d : bytes) : bytes := bs "__dimref:" ++ d.

(** writer_utils.go:566-615; [None]: the variable gets no such attribute *)
Definition buildDimensionList (e : henv) (addrs : list (bytes * Z)) (dims : list bytes) : option h5msg :=
  if existsb (fun d => beqb d [] || negb (mem d (map fst addrs))) dims then None
  else Some (msg 12 (attrHead (bs "DIMENSION_LIST") vlenReferenceDt (buildDataspaceMessage [zlen dims]) ++
                     flat_map (fun d => descriptor e 1 (he_idx e (dimref d))) dims)).

(** ** Object headers *)

(** Whose attribute: group or variable, and its name *)
Definition akey : Type := path * option bytes * bytes.
Definition opt_eqb (a b : option bytes) : bool :=
  match a, b with Some x, Some y => beqb x y | None, None => true | _, _ => false end.
Definition akey_eqb (a b : akey) : bool :=
  match a, b with (p, o, k), (q, o', k') => keys_eqb p q && opt_eqb o o' && beqb k k' end.
Definition vkey : Type := path * bytes.
Definition vkey_eqb (a b : vkey) : bool :=
  match a, b with (p, n), (q, m) => keys_eqb p q && beqb n m end.
Fixpoint lookup {K V} (eqb : K -> K -> bool) (d : V) (k : K) (m : list (K * V)) : V :=
  match m with
  | [] => d
  | (k', v) :: r => if eqb k k' then v else lookup eqb d k r
  end.

(** What is known when object headers are written: the heap, the addresses of the dimension
    scales, the heap indices of the sequences in variables and in attributes *)
Record wctx : Type := mkCtx {
  c_heap : option henv;
  c_dims : list (bytes * Z);
  c_vix : list (vkey * list Z);
  c_aix : list (akey * list Z)
}.

Definition attrMessages (big : bool) (c : wctx) (p : path) (o : option bytes) (a : option hattrs)
  : res (list h5msg) :=
  rmapM (fun kv => buildAttributeMessage big (c_heap c) (fst kv) (snd kv)
                     (lookup akey_eqb [] (p, o, fst kv) (c_aix c))) (attr_list a).

(** hdf5writer.go:381-419 *)
Definition varMessages (big : bool) (c : wctx) (p : path) (name : bytes) (v : hvar) (dataAddr dataSize : Z)
  : res (list h5msg) :=
  let nDims := List.length (hv_dims v) in
  let* dt := buildDatatypeMessage big (hv_val v) nDims in
  let ds := buildDataspaceMessage (getDimsLimited nDims (hv_val v)) in
  let* atts := attrMessages big c p (Some name) (hv_attrs v) in
  let dl :=
    match c_heap c with
    | Some e =>
        if negb (hv_scale v) && (0 <? zlen (hv_dims v))
        then match buildDimensionList e (c_dims c) (hv_dims v) with Some m => [m] | None => [] end
        else []
    | None => []
    end in
  Ok ([msg 1 ds; msg 3 dt; msg 8 (buildLayoutMessageV2 dataAddr dataSize)] ++ atts ++ dl).

(** hdf5writer.go:317-362; [vas] and [gas] are the sorted children with their addresses *)
Definition groupMessages (big : bool) (c : wctx) (p : path) (a : option hattrs) (vas gas : list (bytes * Z))
  : res (list h5msg) :=
  let* atts := attrMessages big c p None a in
  Ok ([buildLinkInfoMessage; groupInfoMessage] ++
      map (fun x => buildLinkMessage (fst x) (snd x)) vas ++
      map (fun x => buildLinkMessage (fst x) (snd x)) gas ++ atts).

(** One variable into a buffer of [n] bytes: its data padded (493-517), then its header; with
    the address of the header *)
Definition writeVar (big : bool) (c : wctx) (p : path) (nv : bytes * hvar) (n : Z) : res (bytes * Z) :=
  let (name, v) := nv in
  let* data := valueBytes big (c_heap c) (hv_val v) (List.length (hv_dims v))
                 (lookup vkey_eqb [] (p, name) (c_vix c)) in
  let block := data ++ pad8 (n + zlen data) in
  let addr := n + zlen block in
  let* ms := varMessages big c p name v n (zlen data) in
  let* oh := objectHeaderV2 ms in
  Ok (block ++ oh, addr).
Fixpoint writeVars (big : bool) (c : wctx) (p : path) (vs : list (bytes * hvar)) (n : Z)
  : res (bytes * list (bytes * Z)) :=
  match vs with
  | [] => Ok ([], [])
  | nv :: r =>
      let* (b, addr) := writeVar big c p nv n in
      let* (b', addrs) := writeVars big c p r (n + zlen b) in
      Ok (b ++ b', (fst nv, addr) :: addrs)
  end.

Definition scales (vs : list (bytes * hvar)) : list (bytes * hvar) := filter (fun v => hv_scale (snd v)) vs.
Definition others (vs : list (bytes * hvar)) : list (bytes * hvar) :=
  filter (fun v => negb (hv_scale (snd v))) vs.

(** v.addr of the variables in the order of [vs] *)
Definition addrs_in (vs : list (bytes * hvar)) (addrs : list (bytes * Z)) : list (bytes * Z) :=
  map (fun v => (fst v, match assoc (fst v) addrs with Some a => a | None => 0 end)) vs.

(** hdf5writer.go:282-315 on a sorted tree: the bytes, the addresses of the variables and of
    the subgroups.  Only the root has dimension scales ([c_dims]). *)
Fixpoint groupContents (big : bool) (c : wctx) (p : path) (t : wtree) (n : Z) {struct t}
  : res (bytes * list (bytes * Z) * list (bytes * Z)) :=
  match t with
  | WNode _ vs gs =>
      let* (b1, va) := writeVars big c p (others vs) n in
      let* (b2, ga) :=
        (fix go (gs : list (bytes * wtree)) (n : Z) : res (bytes * list (bytes * Z)) :=
           match gs with
           | [] => Ok ([], [])
           | (name, g) :: r =>
               let q := p ++ [name] in
               let* (b, va, ga) := groupContents big c q g n in
               let addr := n + zlen b in
               let* ms := groupMessages big c q (w_attrs g) (addrs_in (w_vars g) va) ga in
               let* oh := objectHeaderV2 ms in
               let* (b', addrs) := go r (addr + zlen oh) in
               Ok (b ++ oh ++ b', (name, addr) :: addrs)
           end) gs (n + zlen b1) in
      Ok (b1 ++ b2, va, ga)
  end.

(** ** The heap *)

(** All variables and all attributes of a tree *)
Fixpoint all_vars (p : path) (t : wtree) : list (vkey * hvar) :=
  match t with
  | WNode _ vs gs =>
      map (fun v => ((p, fst v), snd v)) vs ++
      (fix go (gs : list (bytes * wtree)) : list (vkey * hvar) :=
         match gs with [] => [] | (name, g) :: r => all_vars (p ++ [name]) g ++ go r end) gs
  end.
Definition attrs_at (p : path) (o : option bytes) (a : option hattrs) : list (akey * hval) :=
  map (fun kv => ((p, o, fst kv), snd kv)) (attr_list a).
Fixpoint all_attrs (p : path) (t : wtree) : list (akey * hval) :=
  match t with
  | WNode a vs gs =>
      flat_map (fun v => attrs_at p (Some (fst v)) (hv_attrs (snd v))) vs ++ attrs_at p None a ++
      (fix go (gs : list (bytes * wtree)) : list (akey * hval) :=
         match gs with [] => [] | (name, g) :: r => all_attrs (p ++ [name]) g ++ go r end) gs
  end.

(** The order in which Go's map iterations visit values in collectStrings (594-613), variables
    in collectVlenData (679-696), attributes in collectAttrVlenData (754-794) and variables in
    collectDimReferences (254-280) *)
Record orders : Type := mkOrders {
  o_strings : list hval;
  o_vlen : list (vkey * hvar);
  o_attrs : list (akey * hval);
  o_dims : list (vkey * hvar)
}.

Fixpoint collectVlenData (big : bool) (vs : list (vkey * hvar)) (h : heapst)
  : res (heapst * list (vkey * list Z)) :=
  match vs with
  | [] => Ok (h, [])
  | (k, v) :: r =>
      let* (h, ix) := collectVlenVar big h (hv_val v) (List.length (hv_dims v)) in
      let* (h, ixs) := collectVlenData big r h in
      Ok (h, (k, ix) :: ixs)
  end.
Fixpoint collectAttrVlenData (big : bool) (l : list (akey * hval)) (h : heapst)
  : res (heapst * list (akey * list Z)) :=
  match l with
  | [] => Ok (h, [])
  | (k, v) :: r =>
      let* (h, ix) := collectVlenFromValue big h v in
      let* (h, ixs) := collectAttrVlenData big r h in
      Ok (h, (k, ix) :: ixs)
  end.
(** hdf5writer.go:258-275 *)
Definition addDimRef (addrs : list (bytes * Z)) (h : heapst) (d : bytes) : heapst :=
  if beqb d [] then h
  else match bassoc (dimref d) (hs_map h) with
       | Some _ => h
       | None => match assoc d addrs with
                 | None => h
                 | Some a => {| hs_objs := hs_objs h ++ [le 8 a];
                                hs_map := (dimref d, zlen (hs_objs h) + 1) :: hs_map h |}
                 end
       end.
Definition collectDimReferences (addrs : list (bytes * Z)) (vs : list (vkey * hvar)) (h : heapst) : heapst :=
  fold_left (fun h v => if hv_scale (snd v) then h else fold_left (addDimRef addrs) (hv_dims (snd v)) h) vs h.

Definition emptyHeap : heapst := {| hs_objs := []; hs_map := [] |}.

(** hdf5writer.go:84-93; [n] is the size of the buffer.  Without objects no heap is written and
    its address stays 0. *)
Definition buildHeap (big : bool) (o : orders) (addrs : list (bytes * Z)) (n : Z)
  : res (bytes * wctx) :=
  let h := fold_left collectStrings (o_strings o) emptyHeap in
  let* (h, vix) := collectVlenData big (o_vlen o) h in
  let* (h, aix) := collectAttrVlenData big (o_attrs o) h in
  let h := collectDimReferences addrs (o_dims o) h in
  let '(addr, b) := match hs_objs h with [] => (0, []) | _ => globalHeap n (hs_objs h) end in
  Ok (b, mkCtx (Some {| he_addr := addr; he_idx := map_idx (hs_map h) |}) addrs vix aix).

(** ** The file: hdf5writer.go:66-118 from the preparation on.  [pick] gives the orders taken
    for the prepared tree. *)
Definition render (big : bool) (pick : wtree -> orders) (t : wtree) : res bytes :=
  let* t := prepare t in
  let o := pick t in
  let t := sort_tree t in
  let* (b1, dimAddrs) := writeVars big (mkCtx None [] [] []) [] (scales (w_vars t)) 48 in
  let n := 48 + zlen b1 in
  let* (b2, c) := buildHeap big o dimAddrs n in
  let n := n + zlen b2 in
  let* (b3, va, ga) := groupContents big c [] t n in
  let* ms := groupMessages big c [] (w_attrs t) (addrs_in (w_vars t) (dimAddrs ++ va)) ga in
  let* oh := objectHeaderV2 ms in
  finalize (superblockV2 ++ b1 ++ b2 ++ b3 ++ oh) (n + zlen b3).
