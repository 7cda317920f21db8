(** The types that the attribute maps of the HDF5 reader tell: hdf5/amap.go, and GetType and GetGoType of
    util/orderedmap.go. *)
From Verif Require Import Prelude GoVal OrderedMapModel H5Base H5Value H5FileRead H5TypeText.

(** Nothing recovers what is thrown in a callback of an attribute map: it panics the caller. *)
Definition uncaught {A} (m : M A) : M A :=
  fun r => exists q, m q /\ r = match q with Err _ => Panic | _ => q end.

(** amap.go:17 and 22: an empty text says that there is none *)
Definition orNone (s : bytes) : option bytes := match s with [] => None | _ => Some s end.

(** orderedmap.go:271-278 with amap.go:15-18.  [h] is the handle whose getAttributes (hdf5.go:3127) made the
    map; h5.rootObject is that of the file. *)
Definition mapType (root : robj) (h : rhandle) (m : omap hval) (key : bytes) : M (option bytes) :=
  match om_get m key with
  | None => mret None
  | Some _ => uncaught (mbind (globalAttrType root (rh_obj h) key) (fun s => mret (orNone s)))
  end.

(** orderedmap.go:167-176 with amap.go:20-23 *)
Definition mapGoType (root : robj) (h : rhandle) (m : omap hval) (key : bytes) : M (option bytes) :=
  match om_get m key with
  | None => mret None
  | Some _ => uncaught (mbind (globalAttrGoType root (rh_obj h) key) (fun s => mret (orNone s)))
  end.
