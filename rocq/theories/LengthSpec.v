(** The lengths of the dimensions that a history of calls describes. *)
From Verif Require Import Prelude GoVal ArraySpec H5Value H5FileWrite H5WriterModel TypeSpec WriterSpec FileSpec.

(** Some variable that was given has the dimension [d], and its length along it is [n]. *)
Definition length_along (es : list event) (d : bytes) (n : Z) : Prop :=
  exists p m v dims i, last_var es p m = Some v /\ var_value dims (hv_val v) /\ shape_told dims /\
    List.length dims = List.length (hv_dims v) /\ nth_error (hv_dims v) i = Some d /\ nth_error dims i = Some n.
