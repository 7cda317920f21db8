(** C61: the types of the classic versions. *)
From Verif Require Import Prelude GoVal OrderedMapModel ArraySpec CdfFormat CdfFormatEx CdfWriterModel CdfReaderModel CdfTypes.

(** C61.  Full statement: in an opened file of version 1 or 2 every attribute value and every
    variable has a type of the classic format.  Proved for the attributes; missing: the types of
    variables, for which it is false, see C61_refuted. *)
Theorem C61_attributes_partial : forall f c, cdf_open f = Ok c -> c_ver c <> 5 ->
  (forall k v, om_get (c_gattrs c) k = Some v -> classic_value v) /\
  (forall name x k v, om_get (c_vars c) name = Some x -> om_get (v_attrs x) k = Some v -> classic_value v).
Proof.
  intros f c H1 H2. destruct (opened_classic f c H1 H2) as [G1 G2]. split; [exact G1|].
  intros name x k v H3 H4. exact (G2 name x H3 k v H4).
Qed.

Definition C61_header (ver : Z) (k : nk) (t : elt) : fheader :=
  mkFheader ver 0 [] [mkFatt (bs "a") (ANums k [7])] [mkFvar (bs "v") [] [] t 8 200].
(** With attributes of a classic type the file opens, with others it does not *)
Example C61_example :
  (exists c, cdf_open (put_header (C61_header 1 I32 (ENum F64))) = Ok c /\ om_get (c_gattrs c) (bs "a") = Some (VNum I32 7)) /\
  cdf_open (put_header (C61_header 1 I64 (ENum F64))) = Err ECorruptedFile /\
  cdf_open (put_header (C61_header 2 U16 (ENum F64))) = Err ECorruptedFile /\
  (exists c, cdf_open (put_header (C61_header 5 I64 (ENum F64))) = Ok c /\ om_get (c_gattrs c) (bs "a") = Some (VNum I64 7)).
Proof.
  split; [eexists; split; vm_compute; reflexivity|]. split; [vm_compute; reflexivity|]. split; [vm_compute; reflexivity|].
  eexists. split; vm_compute; reflexivity.
Qed.

(** A version 1 file with a variable of the type uint64 (code 11) opens, and the variable is read. *)
Theorem C61_refuted : exists f c x v, cdf_open f = Ok c /\ c_ver c = 1 /\
  om_get (c_vars c) (bs "v") = Some x /\ v_type x = 11 /\
  get_variable c (bs "v") = Ok v /\ var_values v = VNum U64 5.
Proof.
  exists (put_header (C61_header 1 I32 (ENum U64)) ++ zrep (200 - zlen (put_header (C61_header 1 I32 (ENum U64)))) 0 ++ be 8 5).
  eexists _, _, _. split; [vm_compute; reflexivity|]. split; [vm_compute; reflexivity|]. split; [vm_compute; reflexivity|].
  split; [vm_compute; reflexivity|]. split; vm_compute; reflexivity.
Qed.

Print Assumptions C61_attributes_partial.
Print Assumptions C61_refuted.
