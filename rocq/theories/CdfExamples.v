(** A concrete history that meets the hypotheses of the theorems about CDF files, and
    histories that show where unrestricted claims fail. *)
From Verif Require Import Prelude GoVal OrderedMapModel ValidNameModel ValidNameProofs ArraySpec CdfSpec CdfCalls CdfWriterModel
  CdfReaderModel.

Definition U0 : ucd := ucd_example.
Definition ints (k : nk) (l : list Z) : gval := VSlice (GNum k) (map (VNum k) l).
Definition rows (k : nk) (l : list (list Z)) : gval := VSlice (GSlice (GNum k)) (map (ints k) l).
Definition strs (l : list bytes) : gval := VSlice GString (map VStr l).

Definition ex_ops : list wop :=
  [ WAttrs [(bs "title", VStr (bs "test")); (bs "range", ints I16 [1; -2; 3]); (bs "one", ints F64 [7])];
    WVar (bs "t") (rows F64 [[1; 2; 3]; [4; 5; 6]]) [bs "y"; bs "x"] [(bs "units", VStr (bs "K"))];
    WVar (bs "bad") (ints I32 [1; 2]) [bs "x"] [];
    WVar (bs "names") (strs [bs "abc"; bs "d"]) [bs "y"] [];
    WVar (bs "c") (ints U8 [9; 8; 7]) [] [];
    WVar (bs "s") (VNum I16 (-5)) [] [(bs "n", VNum I8 3)] ].
Definition ex_st : wst := fst (wrun U0 open_writer ex_ops).
Definition ex_rs : list (res unit) := snd (wrun U0 open_writer ex_ops).
Definition ex_file : bytes := match close_writer ex_st with Ok f => f | _ => [] end.

Lemma ex_rs_eq : ex_rs = [Ok tt; Ok tt; Err EDimensionSize; Ok tt; Ok tt; Ok tt].
Proof. vm_compute. reflexivity. Qed.
Lemma ex_close : close_writer ex_st = Ok ex_file.
Proof. vm_compute. reflexivity. Qed.
Lemma ex_len : zlen ex_file < 2 ^ 62.
Proof. vm_compute. reflexivity. Qed.

Ltac rect_tac :=
  unfold rows, strs, ints; cbn [map];
  repeat match goal with
  | |- rect _ (VNum _ _) => apply r_num
  | |- rect _ (VStr _) => apply r_str
  | |- rect (?d :: ?ds) (VSlice ?t ?l) => refine (r_slice ds t l _ _); [discriminate|]
  | |- Forall _ [] => apply Forall_nil
  | |- Forall _ (_ :: _) => apply Forall_cons
  end.
Ltac nodup_tac :=
  repeat (apply NoDup_cons; [cbn; intuition discriminate|]); apply NoDup_nil.
Ltac attrs_tac :=
  constructor; [nodup_tac|vm_compute; reflexivity|..];
  repeat first [apply Forall_nil | apply Forall_cons];
  try (vm_compute; first [reflexivity | exact I]);
  (split; [vm_compute; reflexivity|vm_compute; discriminate]).

Lemma ex_fits : fits ex_ops ex_rs ex_st.
Proof.
  rewrite ex_rs_eq. constructor.
  - intros n v d a H. cbn [ex_ops accepted In] in H.
    repeat (destruct H as [H|H]; [try discriminate H; injection H as <- <- <- <-|]); [..|destruct H].
    + constructor; [|vm_compute; discriminate|vm_compute; discriminate|vm_compute; reflexivity|attrs_tac].
      constructor; [reflexivity|exists [2; 3]; rect_tac|discriminate|discriminate|discriminate].
    + constructor; [|vm_compute; discriminate|vm_compute; discriminate|vm_compute; reflexivity|attrs_tac].
      constructor; [reflexivity|exists [2]; rect_tac|split; vm_compute; reflexivity|discriminate|discriminate].
    + constructor; [|vm_compute; discriminate|vm_compute; discriminate|vm_compute; reflexivity|attrs_tac].
      constructor; [reflexivity|exists [3]; rect_tac|discriminate|discriminate|discriminate].
    + constructor; [|vm_compute; discriminate|vm_compute; discriminate|vm_compute; reflexivity|attrs_tac].
      constructor; [reflexivity|exists []; rect_tac|discriminate|discriminate|discriminate].
  - nodup_tac.
  - vm_compute. reflexivity.
  - attrs_tac.
  - change (w_ver ex_st) with 5. repeat first [apply Forall_nil | apply Forall_cons; [reflexivity|]].
  - match goal with |- Forall _ ?l => let l' := eval vm_compute in l in change l with l' end.
    repeat first [apply Forall_nil | apply Forall_cons];
      (split; [cbn; intuition discriminate|split; vm_compute; reflexivity]).
  - vm_compute. discriminate.
Qed.

(** Write with every call accepted, close, open, get one variable *)
Definition reads_as (ops : list wop) (n : bytes) (r : res variable) : Prop :=
  exists st rs f c, wrun U0 open_writer ops = (st, rs) /\ Forall (fun r => r = Ok tt) rs /\
    close_writer st = Ok f /\ cdf_open f = Ok c /\ get_variable c n = r.
Definition okb (r : res unit) : bool := match r with Ok tt => true | _ => false end.
Definition read_back (ops : list wop) (n : bytes) : option (res variable) :=
  let '(st, rs) := wrun U0 open_writer ops in
  if forallb okb rs then
    match close_writer st with
    | Ok f => match cdf_open f with Ok c => Some (get_variable c n) | _ => None end
    | _ => None
    end
  else None.
Lemma read_back_ok ops n r : read_back ops n = Some r -> reads_as ops n r.
Proof.
  unfold read_back, reads_as. destruct (wrun U0 open_writer ops) as [st rs].
  destruct (forallb okb rs) eqn:F; [|discriminate]. intros H.
  destruct (close_writer st) as [f| |] eqn:C; try discriminate.
  destruct (cdf_open f) as [c| |] eqn:O; try discriminate. injection H as <-.
  exists st, rs, f, c. split; [reflexivity|]. split; [|auto].
  apply Forall_forall. intros x Hx. rewrite forallb_forall in F. specialize (F x Hx).
  destruct x as [[]| |]; [reflexivity|discriminate|discriminate].
Qed.

Definition char_op : wop := WVar (bs "c") (VStr [200]) [] [].
Definition late_strings : gval := VSlice (GSlice GString) [strs [bs "a"]; strs [bs "bcd"]].
Definition late_op : wop := WVar (bs "c") late_strings [] [].
Definition nan_op : wop := WVar (bs "c") (VNum F32 2141192192) [] [].

Lemma char_read : reads_as [char_op] (bs "c") (Ok (mkVariable (VStr [195; 136]) [] (mkOM [] [] [] []))).
Proof. apply read_back_ok. vm_compute. reflexivity. Qed.
Lemma late_read : exists x, reads_as [late_op] (bs "c") (Ok x) /\
  var_values x = VSlice (GSlice GString) [strs [bs "a"]; strs [bs "b"]].
Proof. eexists. split; [apply read_back_ok; vm_compute; reflexivity|reflexivity]. Qed.
Lemma nan_read : exists x, reads_as [nan_op] (bs "c") (Ok x) /\ var_values x = VNum F32 2145386496.
Proof. eexists. split; [apply read_back_ok; vm_compute; reflexivity|reflexivity]. Qed.

(** C06, C09: a CDF-5 typed global attribute in a file that starts as version 2 *)
Definition v5_ops : list wop := [WAttrs [(bs "a", VNum U64 1)]].
Definition open_after (ops : list wop) : option (bytes * res cdf) :=
  let '(st, rs) := wrun U0 open_writer ops in
  if forallb okb rs then
    match close_writer st with Ok f => Some (f, cdf_open f) | _ => None end
  else None.
Definition opens_as (ops : list wop) (f : bytes) (r : res cdf) : Prop :=
  exists st rs, wrun U0 open_writer ops = (st, rs) /\ Forall (fun r => r = Ok tt) rs /\
    close_writer st = Ok f /\ cdf_open f = r.
Lemma open_after_ok ops f r : open_after ops = Some (f, r) -> opens_as ops f r.
Proof.
  unfold open_after, opens_as. destruct (wrun U0 open_writer ops) as [st rs].
  destruct (forallb okb rs) eqn:F; [|discriminate]. intros H.
  destruct (close_writer st) as [g| |] eqn:C; try discriminate. injection H as <- <-.
  exists st, rs. split; [reflexivity|]. split; [|auto].
  apply Forall_forall. intros x Hx. rewrite forallb_forall in F. specialize (F x Hx).
  destruct x as [[]| |]; [reflexivity|discriminate|discriminate].
Qed.

Definition v5_file : bytes := match open_after v5_ops with Some (f, _) => f | None => [] end.
Lemma v5_open : opens_as v5_ops v5_file (Err ECorruptedFile).
Proof. apply open_after_ok. vm_compute. reflexivity. Qed.
Lemma v5_version : nth 3 v5_file 0 = 2.
Proof. vm_compute. reflexivity. Qed.

(** C09: the same name twice *)
Definition dup_ops : list wop := [WVar (bs "a") (VNum I8 1) [] []; WVar (bs "a") (VNum I8 2) [] []].
Definition dup_file : bytes := match open_after dup_ops with Some (f, _) => f | None => [] end.
Lemma dup_open : opens_as dup_ops dup_file (Err EDuplicateVariable).
Proof. apply open_after_ok. vm_compute. reflexivity. Qed.

(** C07: an empty variable before another one *)
Definition empty_op : wop := WVar (bs "e") (ints I32 []) [] [].
Definition after_op : wop := WVar (bs "b") (ints I32 [1; 2]) [] [].
Lemma after_alone : exists x, reads_as [after_op] (bs "b") (Ok x) /\ var_values x = ints I32 [1; 2].
Proof. eexists. split; [apply read_back_ok; vm_compute; reflexivity|reflexivity]. Qed.
Lemma after_empty : exists x, reads_as [empty_op; after_op] (bs "b") (Ok x) /\
  var_values x = ints I32 [2; -2147483647].
Proof. eexists. split; [apply read_back_ok; vm_compute; reflexivity|reflexivity]. Qed.

(** C08: a rejected AddVar leaves a dimension behind, so that a later call fails *)
Definition first_op : wop := WVar (bs "a") (ints I8 [1; 2]) [bs "x"] [].
Definition failing_op : wop := WVar (bs "b") (rows I32 [[1; 2; 3]; [4; 5; 6]]) [bs "y"; bs "x"] [].
Definition third_op : wop := WVar (bs "c") (ints I8 [1; 2; 3]) [bs "y"] [].
Lemma with_failing : snd (wrun U0 open_writer [first_op; failing_op; third_op]) =
  [Ok tt; Err EDimensionSize; Err EDimensionSize].
Proof. vm_compute. reflexivity. Qed.
Lemma without_failing : snd (wrun U0 open_writer [first_op; third_op]) = [Ok tt; Ok tt].
Proof. vm_compute. reflexivity. Qed.

(** C56: accepted calls that cannot be written out *)
Definition badattr_op : wop := WAttrs [(bs "a", VOther)].
Definition emptyrows_op : wop := WVar (bs "e") (rows I32 [[]; []]) [] [].
Lemma badattr_close : let '(st, rs) := wrun U0 open_writer [first_op; badattr_op] in
  rs = [Ok tt; Ok tt] /\ close_writer st = Err EAttribute.
Proof. vm_compute. split; reflexivity. Qed.
Lemma emptyrows_close : let '(st, rs) := wrun U0 open_writer [first_op; emptyrows_op] in
  rs = [Ok tt; Ok tt] /\ close_writer st = Err EUnlimitedMustBeFirst.
Proof. vm_compute. split; reflexivity. Qed.
(** C57: a value of an unsupported type *)
Lemma other_panics : snd (add_var U0 open_writer (bs "a") VOther [] []) = Panic.
Proof. vm_compute. reflexivity. Qed.
