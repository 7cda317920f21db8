(** The HDF5 file that a history of calls describes: the groups and datasets of the netCDF-4 data model as
    objects of the file format.  Written without the writer; the format is that of ForeignSpec and
    FormatSpec, the histories are those of WriterSpec. *)
From Verif Require Import Prelude GoVal H5Value H5FileWrite MetaSpec ForeignSpec ForeignMsgSpec ForeignAttrSpec FormatSpec WriterSpec FileSpec LengthSpec.
From Verif Require TypeTextSpec.

(** The name that stands for "there is no variable": the length follows, in a field of ten characters
    unless it is longer. *)
Definition no_variable (size : Z) (s : bytes) : Prop :=
  exists (k : Z) (t : bytes), s = bs "This is a netCDF dimension but not a netCDF variable." ++ zrep k 32 ++ t /\
    TypeTextSpec.natural_text size t /\ (zlen t <= 10 -> k + zlen t = 10) /\ 0 <= k /\ (10 < zlen t -> k = 0).

(** The file [f] has a root group at [root] with these objects below it.  They make up a tree: a group for
    every group that was made, a dataset for every variable that was given and for every dimension.
    - A group has the attributes that were last given; the root has one more.
    - A variable has the value and the attributes last given, and refers to its dimensions.
    - A dimension is described by a dataset in the root, with the attributes of a dimension scale: by the
      variable of that name if there is one, otherwise by a dataset of zeros, whose name says so and which is
      as long as some variable that has the dimension.  The dimensions are numbered: [ds]. *)
Record file_is (f : bytes) (es : list event) (ds : list bytes) (root : Z) (kids : list (bytes * Z * ftree)) : Prop := {
  fi_dims : NoDup ds /\ forall d, In d ds <-> dimension es d;
  fi_super : superblock_is f root;
  fi_tree : exists n, object_is f message_is n root (FGroup kids);
  fi_apart : NoDup (root :: below (FGroup kids));
  fi_groups : forall p, group_made es p <-> exists a ks, located root (FGroup kids) p a (FGroup ks);
  fi_data : forall p n, (last_var es p n <> None \/ (p = [] /\ dimension es n)) <->
    exists a dims, located root (FGroup kids) (p ++ [n]) a (FData dims);
  fi_only : forall p a, ~ located root (FGroup kids) p a FType;
  fi_attrs : forall p a ks, located root (FGroup kids) p a (FGroup ks) ->
    exists extra, attrs_in_header f a (attr_list (last_attrs es p) ++ extra) /\
      (p <> [] -> extra = []) /\ (p = [] -> exists s, extra = [(bs "_NCProperties", HStr s)]);
  fi_vars : forall p n v a dims, last_var es p n = Some v -> (p = [] -> ~ dimension es n) ->
    located root (FGroup kids) (p ++ [n]) a (FData dims) ->
    exists refs, Forall2 (fun d r => exists ds, located root (FGroup kids) [d] r (FData ds)) (hv_dims v) refs /\
      dataset_as f a dims (hv_val v) (attr_list (hv_attrs v) ++ match refs with [] => [] | _ => [dimension_list refs] end);
  fi_coords : forall k n v a dims, nth_error ds k = Some n -> last_var es [] n = Some v ->
    located root (FGroup kids) [n] a (FData dims) ->
    dataset_as f a dims (hv_val v) (scale_is n (Z.of_nat k) ++ attr_list (hv_attrs v));
  fi_bare : forall k n a dims, nth_error ds k = Some n -> last_var es [] n = None ->
    located root (FGroup kids) [n] a (FData dims) ->
    exists size s, length_along es n size /\ dims = [size] /\ no_variable size s /\
      dataset_as f a dims (HSlice (TNum I8) (zrep size (HNum I8 0))) (scale_is s (Z.of_nat k)) }.
