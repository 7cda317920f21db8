(** GetVarGetter on a variable of a file: netcdf/hdf5/hdf5.go:3272-3351, internal/slicer.go:19-76.

    What GetSlice, GetSliceMD and Values then do is [vstep] of H5RecordModel: the VarGetter keeps the object that
    GetVariable and all other VarGetters of the variable use.

    Simplifications: Type and GoType are in H5TypeText; an object without a datatype and an old fill value of no
    bytes are not modelled. *)
From Verif Require Import Prelude GoVal OrderedMapModel H5Base H5MetaRead H5Value H5TypeRead H5LayoutModel H5RecordModel
  H5PathModel H5FileRead H5PipeModel.

(** slicer.go:10-19; the object in place of getSlice and getSliceMD *)
Record rgetter : Type := mkRgetter {
  rg_dset : dset; rg_blocks : list block;
  rg_len : Z; rg_shape : list Z; rg_dims : list bytes; rg_attrs : omap hval
}.

(** hdf5.go:3272-3351 *)
Definition getVarGetter (inflate : bytes -> res bytes) (f : bytes) (root : robj) (h : rhandle) (name : bytes) : res rgetter :=
  match findVariable h name with
  | None => Err ENotFound
  | Some o =>
      let i := r_info o in
      let dims := match ri_dims i with Some dims => dims | None => [] end in
      if negb (fill_usable i) then Err ENotModelled else
      match ri_ty i with
      | None => Err ENotModelled
      | Some t =>
          let* l := sortAttrList f (ri_attrs i) in
          let* ds := getDimensions f root l in
          let* a := getAttributes f l in
          let d := piped_dset inflate i dims t in
          Ok (mkRgetter d (ri_blocks i) (varLen d) (map i64 dims) ds a)
      end
  end.

(** slicer.go:21-39: a call on a VarGetter, when the object is in state [st] *)
Definition getterCall (f : bytes) (g : rgetter) (c : vcall) (st : vstate) : res hval :=
  fst (vstep f (readGlobalHeap f) (rg_dset g) c st).
(** The state after these calls, from Open on *)
Definition getterAfter (f : bytes) (g : rgetter) (cs : list vcall) : vstate :=
  vrun f (readGlobalHeap f) (rg_dset g) cs (opened (rg_dset g) (rg_blocks g)).
