(** Properties C06-C09 and C55-C57: behaviour of the CDF writer over histories of calls. *)
From Verif Require Import Prelude GoVal ValidNameModel ValidNameProofs OrderedMapModel ArraySpec CdfSpec CdfCalls CdfEmptySpec
  CdfWriterModel CdfReaderModel CdfInv CdfRound CdfLayout CdfClose CdfVersion CdfEmpty CdfExamples.

(** C06.  The version byte is 2 or 5; 5 only if some attempted variable used a CDF-5 type
    (in its values or attributes); 5 always if an accepted one did. *)
Theorem C06_version U ops st rs f : Forall op_wt ops -> wrun U open_writer ops = (st, rs) ->
  close_writer st = Ok f ->
  (nth 3 f 0 = 2 \/ nth 3 f 0 = 5) /\
  (nth 3 f 0 = 5 -> Exists uses_v5 ops) /\
  (Exists uses_v5 (accepted ops rs) -> nth 3 f 0 = 5).
Proof.
  intros W E C. rewrite (version_byte U ops st rs f E C). exact (version_selected U ops st rs W E).
Qed.

(** Full claim: no version 2 file has a CDF-5 type code.  Missing: global attributes of CDF-5
    types without a variable that forces CDF-5 (excluded by [fits]); false then, [C06_refuted]. *)
Theorem C06_no_v5_codes_partial U ops rs st f : ucd_ascii U -> ucd_disjoint U ->
  wrun U open_writer ops = (st, rs) -> fits ops rs st -> close_writer st = Ok f -> zlen f < 2 ^ 62 ->
  nth 3 f 0 = 2 ->
  exists c, cdf_open f = Ok c /\
    (forall k y, om_get (c_gattrs c) k = Some y -> ~ attr_only_v5 y) /\
    forall n rv, om_get (c_vars c) n = Some rv -> classic_type (v_type rv) /\
      forall k y, om_get (v_attrs rv) k = Some y -> ~ attr_only_v5 y.
Proof. exact (no_v5_codes U ops rs st f). Qed.

(** One global uint64 attribute: the file says version 2 and does not open. *)
Theorem C06_refuted : exists f,
  opens_as [WAttrs [(bs "a", VNum U64 1)]] f (Err ECorruptedFile) /\ nth 3 f 0 = 2.
Proof. exact (ex_intro _ v5_file (conj v5_open v5_version)). Qed.

Definition C06_ops : list wop := [WVar (bs "a") (ints I16 [3; 4]) [] [(bs "u", VStr (bs "m"))]].
Example C06_example : exists f, close_writer (fst (wrun U0 open_writer C06_ops)) = Ok f /\ nth 3 f 0 = 2 /\
  fits C06_ops (snd (wrun U0 open_writer C06_ops)) (fst (wrun U0 open_writer C06_ops)) /\
  uses_v5 (WVar (bs "c") (ints U8 [9; 8; 7]) [] []) /\ Forall op_wt ex_ops.
Proof.
  eexists. split; [vm_compute; reflexivity|]. split; [reflexivity|]. split.
  - replace (snd (wrun U0 open_writer C06_ops)) with [Ok tt : res unit] by (vm_compute; reflexivity).
    constructor.
    + intros n v d a H. cbn [C06_ops accepted In] in H. destruct H as [H|[]]. injection H as <- <- <- <-.
      constructor; [|vm_compute; discriminate|vm_compute; discriminate|vm_compute; reflexivity|attrs_tac].
      constructor; [reflexivity|exists [2]; rect_tac|discriminate|discriminate|discriminate].
    + nodup_tac.
    + vm_compute. reflexivity.
    + attrs_tac.
    + constructor.
    + match goal with |- Forall _ ?l => let l' := eval vm_compute in l in change l with l' end.
      repeat first [apply Forall_nil | apply Forall_cons];
        (split; [cbn; intuition discriminate|split; vm_compute; reflexivity]).
    + vm_compute. discriminate.
  - split; [left; exists U8; split; [reflexivity|left; reflexivity]|].
    repeat apply Forall_cons; try apply Forall_nil; try exact I; reflexivity.
Qed.

(** C07 is false: the values of a variable change when an empty one is added before it. *)
Theorem C07_refuted :
  (exists x, reads_as [WVar (bs "b") (ints I32 [1; 2]) [] []] (bs "b") (Ok x) /\
     var_values x = ints I32 [1; 2]) /\
  (exists x, reads_as [WVar (bs "e") (ints I32 []) [] []; WVar (bs "b") (ints I32 [1; 2]) [] []]
       (bs "b") (Ok x) /\
     var_values x = ints I32 [2; -2147483647]).
Proof. exact (conj after_alone after_empty). Qed.

(** Full claim: variables of length zero do not change what the other variables read back as.
    Missing: the variables added after the first one of length zero, for which it is false
    ([C07_refuted]); and values outside [var_fits]. *)
Theorem C07_before_partial U ops rs st f l1 n v d a l2 : ucd_ascii U -> ucd_disjoint U ->
  wrun U open_writer ops = (st, rs) -> fits_empty ops rs st -> close_writer st = Ok f ->
  zlen f < 2 ^ 62 -> are_bytes f -> accepted ops rs = l1 ++ WVar n v d a :: l2 ->
  (forall n' v' d' a', In (WVar n' v' d' a') l1 -> ~ empty_value v') -> ~ empty_value v ->
  exists c x, cdf_open f = Ok c /\ get_variable c n = Ok x /\ var_values x = returned v.
Proof. exact (values_before U ops rs st f l1 n v d a l2). Qed.

Definition C07_ops : list wop := [WVar (bs "b") (ints I32 [1; 2]) [] []; WVar (bs "e") (ints I32 []) [] [];
  WVar (bs "t") (VStr []) [] []].
Definition C07_st : wst := fst (wrun U0 open_writer C07_ops).
Example C07_example : exists f, wrun U0 open_writer C07_ops = (C07_st, [Ok tt; Ok tt; Ok tt]) /\
  fits_empty C07_ops [Ok tt; Ok tt; Ok tt] C07_st /\ close_writer C07_st = Ok f /\ zlen f < 2 ^ 62 /\ are_bytes f /\
  accepted C07_ops [Ok tt; Ok tt; Ok tt] = [] ++ WVar (bs "b") (ints I32 [1; 2]) [] [] ::
    [WVar (bs "e") (ints I32 []) [] []; WVar (bs "t") (VStr []) [] []] /\
  ~ empty_value (ints I32 [1; 2]) /\ empty_value (ints I32 []) /\ empty_value (VStr []).
Proof.
  eexists. split; [vm_compute; reflexivity|]. split; [|split; [vm_compute; reflexivity|]].
  - constructor.
    + intros n v d a H. cbn [C07_ops accepted In] in H. destruct H as [H|[H|[H|[]]]]; injection H as <- <- <- <-.
      * left. constructor; [|vm_compute; discriminate|vm_compute; discriminate|vm_compute; reflexivity|attrs_tac].
        constructor; [reflexivity|exists [2]; rect_tac|discriminate|discriminate|discriminate].
      * right. split; [right; exists I32; reflexivity|]. split; [vm_compute; reflexivity|attrs_tac].
      * right. split; [left; reflexivity|]. split; [vm_compute; reflexivity|attrs_tac].
    + intros n v d a H. cbn [C07_ops accepted In] in H. destruct H as [H|[H|[H|[]]]]; injection H as <- <- <- <-; vm_compute; reflexivity.
    + nodup_tac.
    + vm_compute. reflexivity.
    + attrs_tac.
    + constructor.
    + match goal with |- Forall _ ?l => let l' := eval vm_compute in l in change l with l' end.
      repeat first [apply Forall_nil | apply Forall_cons];
        (split; [cbn; intuition discriminate|split; vm_compute; reflexivity]).
    + vm_compute. discriminate.
  - split; [vm_compute; reflexivity|]. split; [unfold are_bytes; apply Forall_forall; intros z Hz; repeat (destruct Hz as [<- | Hz]; [split; vm_compute; congruence|]); destruct Hz|].
    split; [reflexivity|]. split; [intros [X|(k & X)]; discriminate|]. split; [right; exists I32; reflexivity|left; reflexivity].
Qed.

(** C08.  Full claim: a rejected AddVar leaves the writer as it was.  Missing: rejections with
    ErrDimensionSize and calls using CDF-5 types; after these the list of variables and the global
    attributes are as before, but new dimensions or version 5 may stay ([C08_refuted]). *)
Theorem C08_rejected_partial U st n v d a st' r : wt v = true -> add_var U st n v d a = (st', r) -> r <> Ok tt ->
  (uses_v5 (WVar n v d a) \/ r = Err EDimensionSize -> w_vars st' = w_vars st /\ w_gattrs st' = w_gattrs st) /\
  (~ uses_v5 (WVar n v d a) -> r <> Err EDimensionSize -> st' = st).
Proof. exact (rejected_call U st n v d a st' r). Qed.

Example C08_example : wt (ints I16 []) = true /\
  snd (add_var U0 ex_st (bs "_x") (ints I16 [4]) [] []) = Err EInvalidName /\
  ~ uses_v5 (WVar (bs "_x") (ints I16 [4]) [] []).
Proof.
  split; [reflexivity|]. split; [vm_compute; reflexivity|].
  intros [(k & E & O)|X]; [|inversion X]. injection E as <-. destruct O as [O|[O|[O|[O|O]]]]; discriminate.
Qed.

(** The third call is rejected only because of the rejected second one. *)
Theorem C08_refuted :
  snd (wrun U0 open_writer [first_op; failing_op; third_op]) = [Ok tt; Err EDimensionSize; Err EDimensionSize] /\
  snd (wrun U0 open_writer [first_op; third_op]) = [Ok tt; Ok tt].
Proof. exact (conj with_failing without_failing). Qed.

(** C09.  Full claim: the file of any accepted history opens.  Missing: histories outside [fits]
    (duplicate names, CDF-5 global attributes, ...), for which it is false ([C09_refuted]). *)
Theorem C09_opens_partial U ops rs st f : ucd_ascii U -> ucd_disjoint U ->
  wrun U open_writer ops = (st, rs) -> fits ops rs st -> close_writer st = Ok f -> zlen f < 2 ^ 62 ->
  exists c, cdf_open f = Ok c.
Proof.
  intros UA UD E F C H. destruct (round_values U ops rs st f UA UD E F C H) as (c & O & _). exact (ex_intro _ c O).
Qed.
Theorem C09_refuted :
  (exists f, opens_as [WVar (bs "a") (VNum I8 1) [] []; WVar (bs "a") (VNum I8 2) [] []] f (Err EDuplicateVariable)) /\
  (exists f, opens_as [WAttrs [(bs "a", VNum U64 1)]] f (Err ECorruptedFile)).
Proof. exact (conj (ex_intro _ dup_file dup_open) (ex_intro _ v5_file v5_open)). Qed.

(** C55.  [runs]: the entries of the maps the writer keeps are reordered arbitrarily before every
    call and before Close. *)
Theorem C55_map_order U ops st1 rs1 st2 rs2 :
  runs U open_writer ops st1 rs1 -> runs U open_writer ops st2 rs2 ->
  rs1 = rs2 /\ close_writer st1 = close_writer st2.
Proof. exact (map_order U ops st1 rs1 st2 rs2). Qed.
Example C55_example : exists st1 st2, w_dimlens st1 <> w_dimlens st2 /\
  runs U0 open_writer [failing_op] st1 [Ok tt] /\ runs U0 open_writer [failing_op] st2 [Ok tt].
Proof.
  pose (s := fst (add_var U0 open_writer (bs "b") (rows I32 [[1; 2; 3]; [4; 5; 6]]) [bs "y"; bs "x"] [])).
  assert (S : wstep U0 open_writer failing_op = (s, Ok tt)) by (vm_compute; reflexivity).
  exists s, (mkWst (w_vars s) (w_gattrs s) (rev (w_dimlens s)) (w_dimnames s) (w_dimids s) (w_next s) (w_ver s)).
  split; [vm_compute; discriminate|].
  assert (R0 : shuffled open_writer open_writer).
  { exists [], []. split; [constructor|]. split; [constructor|reflexivity]. }
  split; (eapply runs_cons; [exact R0|exact S|apply runs_nil]).
  - exists (w_dimlens s), (w_dimids s). split; [reflexivity|]. split; reflexivity.
  - exists (rev (w_dimlens s)), (w_dimids s). split; [apply Permutation.Permutation_rev|]. split; reflexivity.
Qed.

(** C56.  Full claim: after accepted calls Close succeeds.  It does exactly if all attributes have
    supported types and no array has an empty row; otherwise it returns an error. *)
Theorem C56_close_partial U ops st rs : Forall op_wt ops -> wrun U open_writer ops = (st, rs) ->
  okerr (close_writer st)
    (attrs_supported (last_attrs [] (accepted ops rs)) /\ Forall op_closable (accepted ops rs)).
Proof. exact (close_calls U ops st rs). Qed.
Example C56_example : Forall op_wt ex_ops /\
  attrs_supported (last_attrs [] (accepted ex_ops ex_rs)) /\ Forall op_closable (accepted ex_ops ex_rs).
Proof.
  rewrite ex_rs_eq. split; [repeat apply Forall_cons; try apply Forall_nil; try exact I; reflexivity|].
  assert (T : forall k (z : gval), attr_supported z -> attrs_supported [(k : bytes, z)])
    by (intros k z H; constructor; [exact H|constructor]).
  split; [|cbn [accepted ex_ops]].
  - repeat first [apply Forall_nil | apply Forall_cons]; exact I.
  - repeat first [apply Forall_nil | apply Forall_cons]; [exact I|..];
      (split; [first [apply T; exact I | apply Forall_nil]|unfold rows_nonempty; cbn; intuition discriminate]).
Qed.
Theorem C56_refuted :
  (let '(st, rs) := wrun U0 open_writer [first_op; badattr_op] in
   rs = [Ok tt; Ok tt] /\ close_writer st = Err EAttribute) /\
  (let '(st, rs) := wrun U0 open_writer [first_op; emptyrows_op] in
   rs = [Ok tt; Ok tt] /\ close_writer st = Err EUnlimitedMustBeFirst).
Proof. exact (conj badattr_close emptyrows_close). Qed.

(** C57.  Full claim: no call crashes.  Missing: AddVar with a value whose element type is none of
    the supported ones and which is not a slice or string (a bool, nil, ...), where it is false. *)
Theorem C57_add_var_partial U ops st rs name v d a : wrun U open_writer ops = (st, rs) ->
  wt v = true -> base_type (type_of v) <> GOther -> snd (add_var U st name v d a) <> Panic.
Proof. exact (add_var_no_panic U ops st rs name v d a). Qed.
Theorem C57_add_attributes U st a : snd (add_attributes U st a) <> Panic.
Proof. unfold add_attributes. destruct (valid_attr_names U a); discriminate. Qed.
Theorem C57_close U ops st rs : Forall op_wt ops -> wrun U open_writer ops = (st, rs) ->
  close_writer st <> Panic.
Proof.
  intros W E C. pose proof (close_calls U ops st rs W E) as H. rewrite C in H. exact H.
Qed.
Theorem C57_refuted : snd (add_var U0 open_writer (bs "a") VOther [] []) = Panic.
Proof. exact other_panics. Qed.

Print Assumptions C06_version.
Print Assumptions C06_no_v5_codes_partial.
Print Assumptions C06_refuted.
Print Assumptions C07_refuted.
Print Assumptions C07_before_partial.
Print Assumptions C08_rejected_partial.
Print Assumptions C08_refuted.
Print Assumptions C09_opens_partial.
Print Assumptions C09_refuted.
Print Assumptions C55_map_order.
Print Assumptions C56_close_partial.
Print Assumptions C56_refuted.
Print Assumptions C57_add_var_partial.
Print Assumptions C57_add_attributes.
Print Assumptions C57_close.
Print Assumptions C57_refuted.
