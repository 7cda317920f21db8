(** Properties C16, C17: record variables. *)
From Coq Require Import ZifyBool ZifyNat.
From Verif Require Import Prelude GoVal BaseLemmas OrderedMapModel ArraySpec SliceSpec CdfFormat CdfWriterModel CdfReaderModel
  CdfConvert CdfParse CdfOpened CdfRecord CdfFormatEx CdfSliceEx.

(** C16.  [reads_records h b d v]: [b] is a conforming header [h] with correct record sizes,
    [d] whatever follows, all records of [v] are present.  [record_numbers] is the stored data of
    the records, [record_step] apart; [lone_small] is the case of one record variable of a type
    smaller than four bytes, whose records are not padded.
    Missing: record variables of an absent or incomplete record (C85), an empty char variable of three
    or more dimensions (type of the empty slice), headers with wrong size fields ([C16_refuted]). *)
Theorem C16_records_partial h b d v : reads_records h b d v ->
  ~ (fv_type v = EChar /\ fh_numrecs h = 0 /\ 3 <= zlen (fvar_shape h v)) ->
  exists c x, cdf_open (b ++ d) = Ok c /\ get_variable c (fv_name v) = Ok x /\
    var_values x = nest (fv_type v) (fvar_shape h v)
      (record_numbers (fv_type v) (b ++ d) (fv_begin v) (record_step h) (volume (tl (fvar_shape h v))) (fh_numrecs h)).
Proof.
  intros RR HE. destruct (record_values h b d v RR HE) as (c & g & OP & GG & GL & GV). exists c. eexists. split; [exact OP|].
  unfold get_variable. rewrite GG. cbn [rbind]. unfold values in GV. rewrite GV. cbn [rbind]. split; reflexivity.
Qed.

Ltac records_tac := constructor; [apply rec_header_ok|apply rec_header_ok|apply put_header_bytes|cbn; tauto|
  repeat constructor; cbn; lia|repeat constructor; vm_compute; reflexivity|vm_compute; discriminate|split; vm_compute; reflexivity|
  right; vm_compute; discriminate|cbn; intuition (subst; discriminate)].
Definition rec_r : fvar := mkFvar (bs "r") [0; 1] [mkFatt (bs "scale") (ANums I16 [-7])] (ENum I16) 8 264.
Example C16_example : reads_records rec_header (put_header rec_header) rec_data rec_r /\ record_step rec_header = 12 /\
  lone_small rec_header = false /\
  exists c x, cdf_open (put_header rec_header ++ rec_data) = Ok c /\ get_variable c (bs "r") = Ok x /\
    var_values x = nest (ENum I16) [2; 3] [1; 2; -3; 4; 5; 6].
Proof.
  split; [records_tac|]. split; [vm_compute; reflexivity|]. split; [vm_compute; reflexivity|].
  eexists. eexists. split; [vm_compute; reflexivity|]. split; vm_compute; reflexivity.
Qed.
(** One record variable of shorts: three records of one number, two bytes apart. *)
Definition lone_v : fvar := mkFvar (bs "r") [0] [] (ENum I16) 4 80.
Definition lone_header : fheader := mkFheader 1 3 [(bs "t", 0)] [] [lone_v].
Example C16_example_lone : reads_records lone_header (put_header lone_header) (flat_map (be 2) [1; 2; -3]) lone_v /\
  record_step lone_header = 2 /\ lone_small lone_header = true /\
  exists c x, cdf_open (put_header lone_header ++ flat_map (be 2) [1; 2; -3]) = Ok c /\ get_variable c (bs "r") = Ok x /\
    var_values x = nest (ENum I16) [3] [1; 2; -3].
Proof.
  split.
  { assert (NK : forall ver nm, forallb (fun b => 0 <? b) nm = true -> zlen nm < 2 ^ 31 -> fname_ok ver nm).
    { intros ver nm H L. split; [|split].
      - intros X. rewrite forallb_forall in H. specialize (H 0 X). discriminate.
      - unfold nlimit. destruct (ver =? 5); lia.
      - lia. }
    constructor.
    - constructor; cbn [lone_header fh_ver fh_numrecs fh_dims fh_atts fh_vars].
      + left. reflexivity.
      + cbn. lia.
      + cbn. lia.
      + repeat constructor; try (apply NK; reflexivity); cbn; lia.
      + reflexivity.
      + constructor.
      + reflexivity.
      + repeat apply Forall_cons; try apply Forall_nil; constructor; cbn [lone_v fv_name fv_dims fv_atts fv_size fv_begin];
          try (apply NK; reflexivity); try (cbn; lia); repeat constructor; cbn; lia.
    - split; [|split]; cbn; repeat constructor; cbn; intuition discriminate.
    - apply put_header_bytes.
    - cbn; tauto.
    - repeat constructor; cbn; lia.
    - repeat constructor; vm_compute; reflexivity.
    - vm_compute; discriminate.
    - split; vm_compute; reflexivity.
    - right; vm_compute; discriminate.
    - cbn; tauto. }
  split; [vm_compute; reflexivity|]. split; [vm_compute; reflexivity|].
  eexists. eexists. split; [vm_compute; reflexivity|]. split; vm_compute; reflexivity.
Qed.

(** C16 is false of the code where a size field is wrong: netCDF ignores these fields, because they
    follow from the dimensions, but the reader takes the distance of records from them.  Here one of
    the two record variables claims 8 bytes instead of 4; the second record of the other one is read
    4 bytes too far. *)
Definition wrong_size (v : fvar) : fvar :=
  mkFvar (fv_name v) (fv_dims v) (fv_atts v) (fv_type v) (if beqb (fv_name v) (bs "r") then fv_size v else 8) (fv_begin v).
Definition wrong_header : fheader :=
  mkFheader (fh_ver rec_header) (fh_numrecs rec_header) (fh_dims rec_header) (fh_atts rec_header) (map wrong_size (fh_vars rec_header)).
Theorem C16_refuted :
  In rec_r (record_vars wrong_header) /\ record_step wrong_header = 12 /\
  record_numbers (ENum I16) (put_header wrong_header ++ rec_data) 264 12 3 2 = [1; 2; -3; 4; 5; 6] /\
  exists c x, cdf_open (put_header wrong_header ++ rec_data) = Ok c /\ get_variable c (bs "r") = Ok x /\
    var_values x = nest (ENum I16) [2; 3] [1; 2; -3; 6; 0; -1].
Proof.
  split; [vm_compute; tauto|]. split; [vm_compute; reflexivity|]. split; [vm_compute; reflexivity|].
  eexists. eexists. split; [vm_compute; reflexivity|]. split; vm_compute; reflexivity.
Qed.

(** C17, what holds: slices from the first record, empty slices, and all slices of a lone
    record variable of a small type. *)
Theorem C17_slice_partial h b d v x y : reads_records h b d v ->
  0 <= x -> x <= y -> y <= fh_numrecs h -> x = 0 \/ x = y \/ lone_small h = true ->
  ~ (fv_type v = EChar /\ x = y /\ 3 <= zlen (fvar_shape h v)) ->
  exists c g, cdf_open (b ++ d) = Ok c /\ get_var_getter c (fv_name v) = Ok g /\ g_len g = fh_numrecs h /\
    get_slice g x y = Ok (vslice x y (nest (fv_type v) (fvar_shape h v)
      (record_numbers (fv_type v) (b ++ d) (fv_begin v) (record_step h) (volume (tl (fvar_shape h v))) (fh_numrecs h)))).
Proof.
  intros RR H1 H2 H3 H4 H5. destruct (record_slice h b d v x y RR H1 H2 H3 H4 H5) as (c & g & s & OP & GG & GL & GS & ES).
  exists c, g. split; [exact OP|]. split; [exact GG|]. split; [exact GL|]. unfold get_slice. rewrite GS. cbn [rmap]. rewrite ES. reflexivity.
Qed.
(** C17 is false of the code, and everywhere else: every other slice in range crashes. *)
Theorem C17_crash h b d v x y : reads_records h b d v -> lone_small h = false -> 0 < x -> x < y -> y <= fh_numrecs h ->
  exists c g, cdf_open (b ++ d) = Ok c /\ get_var_getter c (fv_name v) = Ok g /\ g_len g = fh_numrecs h /\
    get_slice g x y = Panic.
Proof. exact (record_crash h b d v x y). Qed.
Theorem C17_refuted : reads_records rec_header (put_header rec_header) rec_data rec_r /\ fh_numrecs rec_header = 2 /\
  get_slice (var_of (put_header rec_header ++ rec_data) (bs "r")) 1 2 = Panic.
Proof. split; [records_tac|]. split; vm_compute; reflexivity. Qed.
Example C17_example :
  get_slice (var_of (put_header rec_header ++ rec_data) (bs "r")) 0 1 = Ok (nest (ENum I16) [1; 3] [1; 2; -3]) /\
  get_slice (var_of (put_header lone_header ++ flat_map (be 2) [1; 2; -3]) (bs "r")) 1 3 = Ok (nest (ENum I16) [2] [2; -3]).
Proof. split; vm_compute; reflexivity. Qed.

Print Assumptions C16_records_partial.
Print Assumptions C16_refuted.
Print Assumptions C17_slice_partial.
Print Assumptions C17_crash.
Print Assumptions C17_refuted.
