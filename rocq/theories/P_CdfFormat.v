(** Properties C10, C11, C53, C54, C58, C59: CDF headers and the published grammar of the format ([CdfFormat]). *)
From Verif Require Import Prelude GoVal OrderedMapModel ValidNameModel ValidNameProofs ArraySpec CdfSpec CdfCalls CdfFormat
  CdfWriterModel CdfReaderModel CdfExamples CdfFormatEx CdfConvert CdfOpened CdfLocal.

(** C10.  A conforming header in which a variable name occurs twice, or an attribute key
    occurs twice in one list, is rejected, whatever follows it. *)
Theorem C10_duplicates h b d : header_ok h -> header_bytes h b -> ~ names_distinct h ->
  cdf_open (b ++ d) = Err EKeysDontMatch \/ cdf_open (b ++ d) = Err EDuplicateVariable.
Proof. exact (dup_rejected h b d). Qed.

(** Whatever bytes were opened, names are unique in the group returned. *)
Theorem C10_unique f c : cdf_open f = Ok c ->
  NoDup (list_variables c) /\
  NoDup (om_keys_visible (c_gattrs c)) /\
  (forall k, In k (om_keys_visible (c_gattrs c)) -> om_get (c_gattrs c) k <> None) /\
  (forall n, In n (list_variables c) <-> om_get (c_vars c) n <> None) /\
  (forall n v, om_get (c_vars c) n = Some v ->
     v_name v = n /\ NoDup (om_keys_visible (v_attrs v)) /\
     (forall k, In k (om_keys_visible (v_attrs v)) <-> om_get (v_attrs v) k <> None)).
Proof. exact (opened_unique f c). Qed.

Example C10_example : header_ok dup_header /\ header_bytes dup_header (put_header dup_header) /\ ~ names_distinct dup_header.
Proof. split; [apply dup_header_ok|]. split; [apply put_header_bytes|apply dup_header_ok]. Qed.
Example C10_example_unique : exists c, cdf_open (put_header rec_header ++ rec_data) = Ok c /\
  list_variables c = [bs "r"; bs "s"; bs "fix"].
Proof. eexists. split; vm_compute; reflexivity. Qed.

(** C11 is false: a dimension id out of range and a negative length crash. *)
Theorem C11_refuted :
  (are_bytes bad_id_file /\ cdf_open bad_id_file = Panic) /\
  (are_bytes neg_name_file /\ cdf_open neg_name_file = Panic).
Proof.
  split; (split; [vm_compute; repeat constructor; intro; discriminate|]); [exact bad_id_panics|exact neg_name_panics].
Qed.

(** C11, guarded: no crash for a conforming header followed by anything, nor for any
    truncation of it.  Malformed headers: P_CdfCrash. *)
Theorem C11_no_crash_partial h b : header_ok h -> header_bytes h b ->
  (forall d, cdf_open (b ++ d) <> Panic) /\
  (names_distinct h -> forall b1 b2, b = b1 ++ b2 -> cdf_open b1 <> Panic).
Proof.
  intros HO HB. split.
  - intros d. assert (D : names_distinct h \/ ~ names_distinct h).
    { unfold names_distinct.
      assert (DF : Forall (fun v => keys_distinct (fv_atts v)) (fh_vars h) \/ ~ Forall (fun v => keys_distinct (fv_atts v)) (fh_vars h)).
      { induction (fh_vars h) as [|v l IH]; [left; constructor|]. destruct (CdfParse.keys_dec (fv_atts v)) as [K|K], IH as [I|I].
        - left. constructor; assumption.
        - right. intros X. apply Forall_cons_iff in X. apply I, X.
        - right. intros X. apply Forall_cons_iff in X. apply K, X.
        - right. intros X. apply Forall_cons_iff in X. apply K, X. }
      destruct (CdfParse.keys_dec (fh_atts h)), DF, (ListDec.NoDup_dec (list_eq_dec Z.eq_dec) (map fv_name (fh_vars h))); tauto. }
    destruct D as [D|D].
    + destruct (conforming_opens h b d HO D HB) as (c & -> & _). discriminate.
    + destruct (dup_rejected h b d HO HB D) as [-> | ->]; discriminate.
  - intros D b1 b2 E. destruct b2 as [|x b2].
    + destruct (conforming_opens h b [] HO D HB) as (c & X & _). rewrite app_nil_r in E, X. subst b1. rewrite X. discriminate.
    + rewrite (header_cut h b b1 (x :: b2) HO D HB E); discriminate.
Qed.

Example C11_example : header_ok rec_header /\ header_bytes rec_header (put_header rec_header) /\ names_distinct rec_header.
Proof. split; [apply rec_header_ok|]. split; [apply put_header_bytes|apply rec_header_ok]. Qed.

(** C53 *)
Theorem C53_not_found f c n : cdf_open f = Ok c ->
  (get_variable c n = Err ENotFound <-> ~ In n (list_variables c)) /\
  (get_var_getter c n = Err ENotFound <-> ~ In n (list_variables c)) /\
  ((exists len, get_dimension c n = Some len) <-> In n (list_dimensions c)).
Proof.
  intros E. destruct (not_found f c n E) as [A B]. split; [exact A|]. split; [exact B|]. exact (dimension_listed c n).
Qed.
Example C53_example : exists c, cdf_open (put_header rec_header ++ rec_data) = Ok c /\
  get_variable c (bs "q") = Err ENotFound /\ get_dimension c (bs "x") = Some 3 /\
  exists v, get_variable c (bs "r") = Ok v.
Proof. eexists. split; [vm_compute; reflexivity|]. split; [vm_compute; reflexivity|]. split; [vm_compute; reflexivity|]. eexists. vm_compute. reflexivity. Qed.

(** C54.  Any cut inside a conforming header fails to open. *)
Theorem C54_header_cut h b b1 b2 : header_ok h -> names_distinct h -> header_bytes h b ->
  b = b1 ++ b2 -> b2 <> [] -> cdf_open b1 = Err EEOF.
Proof. exact (header_cut h b b1 b2). Qed.

(** For files of the writer: a cut before the first data byte. *)
Theorem C54_written_cut U ops rs st f c n : ucd_ascii U -> ucd_disjoint U ->
  wrun U open_writer ops = (st, rs) -> fits ops rs st -> close_writer st = Ok f -> zlen f < 2 ^ 62 ->
  cdf_open f = Ok c -> 0 <= n < zlen f ->
  (forall name v, om_get (c_vars c) name = Some v -> n < v_begin v) ->
  cdf_open (ztake n f) = Err EEOF.
Proof. exact (written_cut U ops rs st f c n). Qed.

(** Every file that opens at all has a header part that alone determines the group, and
    every cut inside that part fails to open. *)
Theorem C54_any_file f c : cdf_open f = Ok c ->
  exists head data, f = head ++ data /\
    (forall data', cdf_open (head ++ data') = Ok (mkCdf (head ++ data') (c_ver c) (c_numrecs c) (c_recsize c)
        (c_dims c) (c_gattrs c) (c_vars c) (c_special c))) /\
    (forall h1 h2, head = h1 ++ h2 -> h2 <> [] -> cdf_open h1 = Err EEOF).
Proof. exact (open_header f c). Qed.

Example C54_example : header_ok rec_header /\ names_distinct rec_header /\ header_bytes rec_header (put_header rec_header).
Proof. split; [apply rec_header_ok|]. split; [apply rec_header_ok|apply put_header_bytes]. Qed.
Example C54_example_written : fits ex_ops ex_rs ex_st /\ exists c, cdf_open ex_file = Ok c /\
  forall name v, om_get (c_vars c) name = Some v -> 300 < v_begin v.
Proof.
  split; [exact ex_fits|]. eexists. split; [vm_compute; reflexivity|]. intros name v H. apply BaseLemmas.assoc_Some_In in H.
  cbn [c_vars om_vals] in H. cbn [In] in H.
  repeat (destruct H as [H|H]; [injection H as _ <-; reflexivity|]). destruct H.
Qed.

(** C58.  A conforming file opens, and the group has exactly the content of its header. *)
Theorem C58_conforming h b d : header_ok h -> names_distinct h -> header_bytes h b ->
  exists c, cdf_open (b ++ d) = Ok c /\
    list_variables c = map fv_name (fh_vars h) /\
    list_dimensions c = map fst (fh_dims h) /\
    (forall nm, get_dimension c nm = assoc nm (fh_dims h)) /\
    om_keys_visible (c_gattrs c) = filter (fun k => negb (beqb k (bs "_NCProperties"))) (map fa_name (fh_atts h)) /\
    (forall a, In a (fh_atts h) -> om_get (c_gattrs c) (fa_name a) = Some (aval_value (fa_val a))) /\
    forall v, In v (fh_vars h) -> unlimited_first (fh_dims h) v ->
      exists g, get_var_getter c (fv_name v) = Ok g /\
        g_names g = fvar_names h v /\ shape g = fvar_shape h v /\
        om_keys_visible (v_attrs (g_var g)) = map fa_name (fv_atts v) /\
        (forall a, In a (fv_atts v) -> om_get (v_attrs (g_var g)) (fa_name a) = Some (aval_value (fa_val a))).
Proof.
  intros HO ND HB. destruct (conforming_opens h b d HO ND HB) as (c & E & [R1 R2 R3 R4 R5 R6 R7 R8 R9]).
  exists c. split; [exact E|]. split; [exact R4|]. split; [exact R5|]. split; [exact R6|]. split; [exact R7|]. split; [exact R8|].
  intros v Hv HU. destruct (R9 v Hv HU) as (g & G1 & G2 & G3 & G4 & G5 & _). exists g. repeat split; assumption.
Qed.
Example C58_example : header_ok rec_header /\ names_distinct rec_header /\ header_bytes rec_header (put_header rec_header) /\
  Forall (unlimited_first (fh_dims rec_header)) (fh_vars rec_header) /\
  fvar_shape rec_header (nth 0 (fh_vars rec_header) (mkFvar [] [] [] EChar 0 0)) = [2; 3] /\
  exists c v, cdf_open (put_header rec_header ++ rec_data) = Ok c /\ get_variable c (bs "r") = Ok v /\
    var_values v = rows I16 [[1; 2; -3]; [4; 5; 6]].
Proof.
  split; [apply rec_header_ok|]. split; [apply rec_header_ok|]. split; [apply put_header_bytes|]. split; [apply rec_header_ok|].
  split; [reflexivity|]. eexists _, _. split; [vm_compute; reflexivity|]. split; [vm_compute; reflexivity|reflexivity].
Qed.

(** C59.  The writer's files conform to the grammar. *)
Theorem C59_written_conforms U ops rs st f : ucd_ascii U -> ucd_disjoint U ->
  wrun U open_writer ops = (st, rs) -> fits ops rs st -> close_writer st = Ok f -> zlen f < 2 ^ 62 ->
  (forall n v d a, In (WVar n v d a) (accepted ops rs) -> zlen (xdr (returned v)) + 3 < field_limit (w_ver st)) ->
  exists h b data, f = b ++ data /\ header_bytes h b /\ header_ok h /\ names_distinct h /\
    fh_ver h = w_ver st /\ fh_numrecs h = 0 /\ fh_dims h = w_dimlens st /\
    map fv_name (fh_vars h) = var_names (accepted ops rs) /\
    Forall (fun v => (elt5 (fv_type v) = true -> fh_ver h = 5) /\ is_record (fh_dims h) v = false /\ unlimited_first (fh_dims h) v) (fh_vars h).
Proof. exact (written_conforms U ops rs st f). Qed.
Example C59_example : fits ex_ops ex_rs ex_st /\
  (forall n v d a, In (WVar n v d a) (accepted ex_ops ex_rs) -> zlen (xdr (returned v)) + 3 < field_limit (w_ver ex_st)).
Proof.
  split; [exact ex_fits|]. rewrite ex_rs_eq. cbn [accepted ex_ops]. intros n v d a H. cbn [In] in H.
  repeat (destruct H as [H|H]; [try discriminate H; injection H as _ <- _ _; vm_compute; reflexivity|]). destruct H.
Qed.

Print Assumptions C10_duplicates.
Print Assumptions C10_unique.
Print Assumptions C11_refuted.
Print Assumptions C11_no_crash_partial.
Print Assumptions C53_not_found.
Print Assumptions C54_header_cut.
Print Assumptions C54_written_cut.
Print Assumptions C54_any_file.
Print Assumptions C58_conforming.
Print Assumptions C59_written_conforms.
