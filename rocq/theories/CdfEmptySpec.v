(** Histories of calls on a CDF writer with variables of length zero; see [CdfCalls]. *)
From Verif Require Import Prelude GoVal ArraySpec CdfSpec CdfCalls CdfWriterModel.

(** A value whose only dimension has length zero: an empty string or an empty slice of numbers *)
Definition empty_value (v : gval) : Prop := v = VStr [] \/ exists k, v = VSlice (GNum k) [].

(** As [fits], but for variables of length zero *)
Record fits_empty (ops : list wop) (rs : list (res unit)) (st : wst) : Prop := mkFitse {
  fe_vars : forall n v d a, In (WVar n v d a) (accepted ops rs) ->
            var_fits (field_limit (w_ver st)) n v d a \/
            (empty_value v /\ zlen n < 2 ^ 31 /\ attrs_fit (field_limit (w_ver st)) a);
  fe_sizes : forall n v d a, In (WVar n v d a) (accepted ops rs) -> zlen (xdr (returned v)) + 3 < field_limit (w_ver st);
  fe_distinct : NoDup (var_names (accepted ops rs));
  fe_nvars : zlen (var_names (accepted ops rs)) < field_limit (w_ver st);
  fe_gattrs : attrs_fit (field_limit (w_ver st)) (last_attrs [] (accepted ops rs));
  fe_gver : Forall (fun kv => attr_only_v5 (snd kv) -> w_ver st = 5) (last_attrs [] (accepted ops rs));
  fe_dims : Forall (fun d => ~ In 0 (fst d) /\ zlen (fst d) < 2 ^ 31 /\ snd d < field_limit (w_ver st))
                   (w_dimlens st);
  fe_ndims : zlen (w_dimlens st) <= 1024
}.
