(** C85: record variables of files that end early. *)
From Coq Require Import ZifyBool ZifyNat.
From Verif Require Import Prelude GoVal BaseLemmas OrderedMapModel ArraySpec SliceSpec CdfFormat CdfWriterModel CdfReaderModel
  CdfConvert CdfParse CdfOpened CdfRecord CdfCut CdfFormatEx CdfSliceEx P_CdfRecord.

(** [record_file h b v]: as [reads_records] of C16, without the data; [lone_small h = false]: not the one record variable
    of bytes, characters or shorts, for which see [C85_lone_partial].  The first [y] records are read where they
    are there, whatever comes after them. *)
Theorem C85_present h b d v y : record_file h b v -> lone_small h = false -> 0 < y <= fh_numrecs h ->
  fv_begin v + (y - 1) * record_step h + record_bytes (fh_dims h) v <= zlen (b ++ d) ->
  exists c g, cdf_open (b ++ d) = Ok c /\ get_var_getter c (fv_name v) = Ok g /\ g_len g = fh_numrecs h /\
    get_slice g 0 y = Ok (nest (fv_type v) (y :: tl (fvar_shape h v))
      (record_numbers (fv_type v) (b ++ d) (fv_begin v) (record_step h) (volume (tl (fvar_shape h v))) y)).
Proof. intros RR LS. exact (there h b d v RR LS y). Qed.

(** Where the file ends in the last record of the variable or before it, GetVariable gives an error. *)
Theorem C85_whole h b d v : record_file h b v -> lone_small h = false -> 0 < fh_numrecs h ->
  zlen (b ++ d) < fv_begin v + (fh_numrecs h - 1) * record_step h + record_bytes (fh_dims h) v ->
  exists c, cdf_open (b ++ d) = Ok c /\ get_variable c (fv_name v) = Err EEOF.
Proof.
  intros RR LS HR HC. destruct (cut h b d v RR LS (fh_numrecs h) ltac:(lia) HC) as (c & g & OP & GG & GL & GS).
  exists c. split; [exact OP|]. unfold get_variable. rewrite GG. cbn [rbind]. unfold values in *. rewrite GL, GS, Z.eqb_refl. reflexivity.
Qed.

(** But GetSlice crashes in every such file if it is not asked for all records: the readers of the others are nil. *)
Theorem C85_slice_refuted h b d v y : record_file h b v -> lone_small h = false -> 0 < y < fh_numrecs h ->
  zlen (b ++ d) < fv_begin v + (y - 1) * record_step h + record_bytes (fh_dims h) v ->
  exists c g, cdf_open (b ++ d) = Ok c /\ get_var_getter c (fv_name v) = Ok g /\ g_len g = fh_numrecs h /\ get_slice g 0 y = Panic.
Proof.
  intros RR LS HR HC. destruct (cut h b d v RR LS y ltac:(lia) HC) as (c & g & OP & GG & GL & GS).
  exists c, g. split; [exact OP|]. split; [exact GG|]. split; [exact GL|]. rewrite GS. replace (y =? fh_numrecs h) with false by lia. reflexivity.
Qed.

(** Two records of which the second is cut; then the first one too *)
Lemma rec_file : record_file rec_header (put_header rec_header) rec_r.
Proof.
  constructor; [apply rec_header_ok|apply rec_header_ok|apply put_header_bytes|cbn; tauto|
  repeat constructor; cbn; lia|repeat constructor; vm_compute; reflexivity|vm_compute; discriminate|split; vm_compute; reflexivity].
Qed.
Definition cut_file (n : Z) : bytes := put_header rec_header ++ ztake n rec_data.
Example C85_example : record_file rec_header (put_header rec_header) rec_r /\ lone_small rec_header = false /\ fh_numrecs rec_header = 2 /\
  fv_begin rec_r + (1 - 1) * record_step rec_header + record_bytes (fh_dims rec_header) rec_r <= zlen (cut_file 40) /\
  zlen (cut_file 40) < fv_begin rec_r + (2 - 1) * record_step rec_header + record_bytes (fh_dims rec_header) rec_r /\
  get_slice (var_of (cut_file 40) (bs "r")) 0 1 = Ok (nest (ENum I16) [1; 3] [1; 2; -3]) /\
  get_slice (var_of (cut_file 40) (bs "r")) 0 2 = Err EEOF /\
  zlen (cut_file 28) < fv_begin rec_r + (1 - 1) * record_step rec_header + record_bytes (fh_dims rec_header) rec_r /\
  get_slice (var_of (cut_file 28) (bs "r")) 0 1 = Panic.
Proof. split; [apply rec_file|]. repeat split; vm_compute; try reflexivity; discriminate. Qed.

(** The lone record variable of a small type is read as variables without records are (C15): what is missing has the fill
    value; also with slices that do not start at the first record.  Missing: files that end inside an element. *)
Theorem C85_lone_partial h b d v fill x y : record_file h b v -> lone_small h = true -> header_fill v fill -> 0 <= x < y -> y <= fh_numrecs h ->
  ends_between (b ++ d) (fv_begin v) (fh_numrecs h * volume (tl (fvar_shape h v))) (fv_type v) ->
  exists c g, cdf_open (b ++ d) = Ok c /\ get_var_getter c (fv_name v) = Ok g /\ g_len g = fh_numrecs h /\
    get_slice g x y = Ok (vslice x y (nest (fv_type v) (fh_numrecs h :: tl (fvar_shape h v))
      (map (stored_or fill (fv_type v) (b ++ d) (fv_begin v)) (iota (fh_numrecs h * volume (tl (fvar_shape h v))))))).
Proof. exact (lone_cut h b d v fill x y). Qed.

Definition lone_cut_file : bytes := put_header lone_header ++ be 2 1 ++ be 2 2.
Example C85_example_lone : record_file lone_header (put_header lone_header) lone_v /\ lone_small lone_header = true /\ header_fill lone_v (-32767) /\
  fh_numrecs lone_header = 3 /\ ends_between lone_cut_file (fv_begin lone_v) 3 (fv_type lone_v) /\
  get_slice (var_of lone_cut_file (bs "r")) 1 3 = Ok (nest (ENum I16) [2] [2; -32767]).
Proof.
  split; [exact (rr_file _ _ _ _ (proj1 C16_example_lone))|].
  split; [reflexivity|]. split; [left; split; [intros a []|reflexivity]|]. split; [reflexivity|].
  split; [right; right; vm_compute; reflexivity|vm_compute; reflexivity].
Qed.

Print Assumptions C85_present.
Print Assumptions C85_whole.
Print Assumptions C85_slice_refuted.
Print Assumptions C85_example.
Print Assumptions C85_lone_partial.
Print Assumptions C85_example_lone.
