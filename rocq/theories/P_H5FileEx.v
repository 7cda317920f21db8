(** Concrete files for C50 and C51: a history that meets the hypotheses of the theorems, and
    histories for which the full statements fail. *)
From Verif Require Import Prelude GoVal ValidNameModel OrderedMapModel ArraySpec H5Base H5MetaWrite H5MetaRead H5Value H5TypeRead
  H5FileWrite H5PathModel H5RecordModel H5FileRead H5WriterModel PathSpec WriterSpec TypeSpec FileSpec BaseLemmas
  ValidNameProofs H5PathProofs H5SizeProofs H5WholeProofs H5WriterProofs P_H5Writer H5CallsProofs DispatchModel P_H5File.
From Coq Require Import Lia ZifyBool ZifyNat Permutation.

Definition ex_ops : list wop :=
  [ OVar 0 (bs "t") (HSlice (TNum I32) [HNum I32 10; HNum I32 20]) [bs "t"] (Some [(bs "units", HStr (bs "s"))]);
    OVar 0 (bs "v") (HSlice (TSlice (TNum F64)) [HSlice (TNum F64) [HNum F64 1; HNum F64 2; HNum F64 3];
                                                 HSlice (TNum F64) [HNum F64 4; HNum F64 5; HNum F64 6]]) [bs "t"; bs "y"] None;
    OGroup 0 (bs "g");
    OVar 1 (bs "names") (HSlice TStr [HStr (bs "a"); HStr []; HStr (bs "bc")]) [bs "y"] None;
    OVar 1 (bs "title") (HStr (bs "hello")) [] None;
    OAttrs 0 (Some [(bs "n", HNum U8 3); (bs "one", HSlice (TNum I16) [HNum I16 5])]) ].
Definition ex_state : hstate := fst (run ucd_example false in_order open_writer ex_ops).
Definition ex_outs : list (res (option nat)) := snd (run ucd_example false in_order open_writer ex_ops).
Definition ex_dims : list bytes := [bs "t"; bs "y"].
Definition ex_strings : list bytes := [bs "a"; []; bs "bc"].
Definition ex_events : list event := Eval vm_compute in events ex_ops ex_outs.

Lemma last_attrs_from es p d :
  let r := fold_left (fun cur e => match e with EAttrs q a => if path_eqb p q then a else cur | _ => cur end) es d in
  r = d \/ In (EAttrs p r) es.
Proof.
  cbv zeta. revert d. induction es as [|e es IH]; intros d; [left; reflexivity|].
  cbn [fold_left]. destruct e as [q|q m w|q a]; try (destruct (IH d) as [E|E]; [left; exact E|right; right; exact E]).
  destruct (path_eqb p q) eqn:Ee.
  - apply path_eqb_eq in Ee. subst q. destruct (IH a) as [E|E]; [right; left; rewrite E; reflexivity|right; right; exact E].
  - destruct (IH d) as [E|E]; [left; exact E|right; right; exact E].
Qed.
Lemma last_attrs_event es p : attr_list (last_attrs es p) = [] \/ In (EAttrs p (last_attrs es p)) es.
Proof.
  destruct (last_attrs_from es p (match p with [] => Some [] | _ => None end)) as [E|E]; [left|right; exact E].
  unfold last_attrs. rewrite E. destruct p; reflexivity.
Qed.

Definition event_values (e : event) : list hval :=
  match e with
  | EGroup _ => []
  | EVar _ _ v => hv_val v :: map snd (attr_list (hv_attrs v))
  | EAttrs _ a => map snd (attr_list a)
  end.
Lemma value_events es v : value_in es v -> In v (flat_map event_values es).
Proof.
  intros (p & [(k & H)|(n & w & H & Hv)]); apply in_flat_map.
  - destruct (last_attrs_event es p) as [E|E]; [rewrite E in H; destruct H|]. eexists. split; [exact E|]. cbn [event_values].
    apply in_map_iff. exists (k, v). auto.
  - apply last_var_event in H. exists (EVar p n w). split; [exact H|]. cbn [event_values In]. destruct Hv as [->|(k & Hv)]; [left; reflexivity|].
    right. apply in_map_iff. exists (k, v). auto.
Qed.

Ltac here := cbn [In]; tauto.
Ltac elems := repeat (apply Forall_cons || apply Forall_nil).
Ltac one_num := eexists; split; [reflexivity|reflexivity].

(** The values of the example *)
Lemma ex_fine p n v : last_var ex_events p n = Some v -> zlen n < 256 /\ fine_var v.
Proof.
  intros H. apply last_var_event in H. unfold ex_events in H. cbn [In] in H.
  destruct H as [H|[H|[H|[H|[H|[H|[]]]]]]]; try discriminate H; injection H as <- <- <-; (split; [reflexivity|]); unfold fine_var;
    cbn [hv_val hv_dims hv_attrs].
  - split; [|split].
    + exists [2]. split; [reflexivity|]. split; [discriminate|]. split; [elems; split; [discriminate|reflexivity]|]. split; [apply Forall_nil|].
      left. left. exists I32. eexists. split; [reflexivity|]. split; [reflexivity|]. elems; one_num.
    + split; [apply NoDup_cons; [tauto|apply NoDup_nil]|]. split; [|discriminate]. elems. split; [apply text_check; reflexivity|].
      split; [vm_compute; intuition discriminate|]. exists []. cbn [fst snd].
      split; [left|split; [apply Forall_nil|discriminate]].
      split; [right; right; split; [reflexivity|]; exists (bs "s"); split; [reflexivity|]; split; [apply text_check; reflexivity|reflexivity]|].
      split; [discriminate|]. intros t E. injection E as <-. discriminate.
    + elems. split; [discriminate|]. split; [apply text_check; reflexivity|reflexivity].
  - split; [|split].
    + exists [2; 3]. split; [reflexivity|]. split; [discriminate|]. split; [elems; (split; [discriminate|reflexivity])|].
      split; [apply Forall_cons; [reflexivity|apply Forall_nil]|].
      left. left. exists F64. eexists. split; [reflexivity|]. split; [reflexivity|].
      elems; (eexists; split; [reflexivity|]; split; [reflexivity|]; elems; one_num).
    + split; [apply NoDup_nil|]. split; [apply Forall_nil|discriminate].
    + elems; (split; [discriminate|]; split; [apply text_check; reflexivity|reflexivity]).
  - split; [|split].
    + exists [3]. split; [reflexivity|]. split; [discriminate|]. split; [elems; split; [discriminate|reflexivity]|]. split; [apply Forall_nil|].
      left. right. left. split; [discriminate|]. eexists. split; [reflexivity|]. split; [reflexivity|].
      elems; (eexists; split; [reflexivity|]; split; [apply text_check; reflexivity|reflexivity]).
    + split; [apply NoDup_nil|]. split; [apply Forall_nil|discriminate].
    + elems. split; [discriminate|]. split; [apply text_check; reflexivity|reflexivity].
  - split; [|split].
    + exists []. split; [reflexivity|]. split; [discriminate|]. split; [apply Forall_nil|]. split; [apply Forall_nil|].
      left. right. right. split; [reflexivity|]. eexists. split; [reflexivity|]. split; [apply text_check; reflexivity|reflexivity].
    + split; [apply NoDup_nil|]. split; [apply Forall_nil|discriminate].
    + apply Forall_nil.
Qed.

Lemma ex_events_eq : events ex_ops ex_outs = ex_events.
Proof. vm_compute. reflexivity. Qed.
Lemma ex_group p n : group_made ex_events (p ++ [n]) -> p = [] /\ n = bs "g".
Proof.
  intros [H|H]; [destruct p; discriminate|]. unfold ex_events in H. cbn [In] in H.
  destruct H as [H|[H|[H|[H|[H|[H|[]]]]]]]; try discriminate H. injection H as H.
  destruct p as [|a [|b p]]; cbn [app] in H; [injection H as <-; auto|discriminate H|discriminate H].
Qed.
Lemma ex_var p n v : last_var ex_events p n = Some v -> p = [] /\ (n = bs "t" \/ n = bs "v") \/ p = [bs "g"] /\ (n = bs "names" \/ n = bs "title").
Proof.
  intros H. apply last_var_event in H. unfold ex_events in H. cbn [In] in H.
  destruct H as [H|[H|[H|[H|[H|[H|[]]]]]]]; try discriminate H; injection H as <- <- _; vm_compute; tauto.
Qed.
Lemma ex_dimension d : dimension ex_events d -> d = bs "t" \/ d = bs "y".
Proof.
  intros (p & n & v & H & Hd). apply last_var_event in H. unfold ex_events in H. cbn [In] in H.
  destruct H as [H|[H|[H|[H|[H|[H|[]]]]]]]; try discriminate H; injection H as _ _ <-; cbn [hv_dims In] in Hd; vm_compute; intuition congruence.
Qed.

Lemma no_dimref_check s : beqb (ztake 9 s) (bs "__dimref:") = false -> no_dimref s.
Proof.
  intros E d ->. change (ztake 9 (bs "__dimref:" ++ d)) with (bs "__dimref:") in E. discriminate E.
Qed.
Lemma ex_calls_fine : calls_fine ex_dims ex_strings ex_events.
Proof.
  constructor.
  - exact ex_fine.
  - intros p n H. apply ex_group in H. destruct H as [_ ->]. reflexivity.
  - intros p. destruct (last_attrs_event ex_events p) as [E|E].
    + unfold fine_attrs. rewrite E. split; [apply NoDup_nil|]. split; [apply Forall_nil|discriminate].
    + revert E. generalize (last_attrs ex_events p). intros a E. unfold ex_events in E. cbn [In] in E.
      destruct E as [E|[E|[E|[E|[E|[E|[]]]]]]]; try discriminate E. injection E as _ <-. unfold fine_attrs. cbn [attr_list map fst].
      split; [apply NoDup_cons; [cbn [In]; intuition discriminate|apply NoDup_cons; [tauto|apply NoDup_nil]]|]. split; [|discriminate].
      apply Forall_cons; [|apply Forall_cons; [|apply Forall_nil]].
      * split; [apply text_check; reflexivity|]. split; [vm_compute; intuition discriminate|]. exists []. cbn [fst snd].
        split; [left|split; [apply Forall_nil|discriminate]].
        split; [left; exists U8; one_num|]. split; [discriminate|]. discriminate.
      * split; [apply text_check; reflexivity|]. split; [vm_compute; intuition discriminate|]. exists [1]. cbn [fst snd].
        split; [left|split; [apply Forall_cons; [reflexivity|apply Forall_nil]|discriminate]].
        split; [left; exists I16; eexists; split; [reflexivity|]; split; [reflexivity|]; elems; one_num|].
        split; [discriminate|]. discriminate.
  - intros p n H M. apply ex_group in M. destruct M as [-> ->]. apply H. reflexivity.
  - intros d H. apply ex_dimension in H. split; [destruct H as [->| ->]; [left|right; left]; reflexivity|]. split.
    + destruct H as [->| ->]; apply no_dimref_check; reflexivity.
    + intros M. apply (ex_group [] d) in M. destruct M as [_ ->]. destruct H as [H|H]; discriminate H.
  - intros n H _ r. apply ex_dimension in H. destruct H as [->| ->]; discriminate.
  - intros v s H Hs. apply value_events in H. unfold ex_events in H. cbn [flat_map event_values attr_list hv_val hv_attrs map snd app In] in H.
    repeat (destruct H as [<-|H]; [cbn [strings_of app In] in Hs;
      repeat (destruct Hs as [<-|Hs]; [apply no_dimref_check; reflexivity|]); destruct Hs|]). destruct H.
  - intros v s H Hs. apply value_events in H. unfold ex_events in H. cbn [flat_map event_values attr_list hv_val hv_attrs map snd app In] in H.
    repeat (destruct H as [<-|H]; [cbn [heap_strings strings_of app In] in Hs; vm_compute; tauto|]). destruct H.
  - discriminate.
  - discriminate.
Qed.

(** The example meets the hypotheses of C50 and C51 ... *)
Example C50_example_hypotheses :
  run ucd_example false in_order open_writer ex_ops = (ex_state, ex_outs) /\ st_closed ex_state = false /\
  (exists s1, step ucd_example false in_order ex_state (OClose 0) = (s1, Ok None) /\ zlen (st_file s1) < 2 ^ 63) /\
  calls_fine ex_dims ex_strings (events ex_ops ex_outs) /\ (forall t, orders_ok t (in_order t)).
Proof.
  split; [vm_compute; reflexivity|]. split; [reflexivity|]. split; [|split].
  - exists (fst (step ucd_example false in_order ex_state (OClose 0))). split; [vm_compute; reflexivity|vm_compute; reflexivity].
  - rewrite ex_events_eq. exact ex_calls_fine.
  - intros t. repeat split; apply Permutation_refl.
Qed.

(** ** Files as users make them *)
Definition is_ok {A} (x : res A) : bool := match x with Ok _ => true | _ => false end.
(** The file after the calls and Close, if all of them succeed *)
Definition file_of (ops : list wop) : option bytes :=
  let '(s, outs) := run ucd_example false in_order open_writer (ops ++ [OClose 0]) in
  if forallb is_ok outs then Some (st_file s) else None.
Definition written (ops : list wop) : bytes := match file_of ops with Some f => f | None => [] end.
Definition root_of (f : bytes) : robj := match openFile f with Ok o => o | _ => RObj (newObject [] 0) [] end.
Definition handle_of (f : bytes) : rhandle := mkRh [slash] (root_of f).
Definition i16s (l : list Z) : hval := HSlice (TNum I16) (map (HNum I16) l).

(** ... and this is what the calls on its file return *)
Example C50_example :
  let f := written ex_ops in let root := root_of f in
  openFile f = Ok root /\
  listSubgroups root (handle_of f) = Ok [bs "g"] /\
  listVariables root (handle_of f) = [bs "t"; bs "v"] /\ listDimensions (handle_of f) = [bs "t"; bs "y"] /\
  rmap (fun v => (rv_val v, rv_dims v, om_keys_visible (rv_attrs v))) (getVariable f root (handle_of f) (bs "v")) =
    Ok (HSlice (TSlice (TNum F64)) [HSlice (TNum F64) [HNum F64 1; HNum F64 2; HNum F64 3];
                                    HSlice (TNum F64) [HNum F64 4; HNum F64 5; HNum F64 6]], [bs "t"; bs "y"], []) /\
  rmap (fun v => (rv_val v, rv_dims v, om_get (rv_attrs v) (bs "units"))) (getVariable f root (handle_of f) (bs "t")) =
    Ok (HSlice (TNum I32) [HNum I32 10; HNum I32 20], [bs "t"], Some (HStr (bs "s"))) /\
  (let* h := rgetGroup root (handle_of f) (bs "/g") in
   let* v := getVariable f root h (bs "names") in Ok (rv_val v, rv_dims v, listVariables root h, listDimensions h)) =
    Ok (HSlice TStr [HStr (bs "a"); HStr []; HStr (bs "bc")], [bs "y"], [bs "names"; bs "title"], []) /\
  rgetGroup root (handle_of f) (bs "/h") = Err ENotFound /\
  rmap om_keys_visible (groupAttributes f (handle_of f)) = Ok [bs "n"; bs "one"].
Proof. vm_compute. repeat (split; [reflexivity|]). reflexivity. Qed.

(** ** What C50 does not hold for *)

(** A variable and a group of one name are both accepted; the file is written and does not open. *)
Theorem C50_same_name_refuted : exists ops f, file_of ops = Some f /\ openFile f = Err EInternal.
Proof.
  exists [OVar 0 (bs "x") (HNum I16 1) [] None; OGroup 0 (bs "x")].
  exists (written [OVar 0 (bs "x") (HNum I16 1) [] None; OGroup 0 (bs "x")]). split; vm_compute; reflexivity.
Qed.
(** So are a group and a dimension. *)
Theorem C50_group_dimension_refuted : exists ops f, file_of ops = Some f /\ openFile f = Err EInternal.
Proof.
  exists [OVar 0 (bs "x") (i16s [1; 2]) [bs "y"] None; OGroup 0 (bs "y")].
  exists (written [OVar 0 (bs "x") (i16s [1; 2]) [bs "y"] None; OGroup 0 (bs "y")]). split; vm_compute; reflexivity.
Qed.
(** An attribute that is an empty slice of floats: the file does not open. *)
Theorem C50_empty_attribute_refuted : exists a f, file_of [OAttrs 0 (Some [(bs "x", a)])] = Some f /\ openFile f = Err EInternal.
Proof. exists (HSlice (TNum F64) []), (written [OAttrs 0 (Some [(bs "x", HSlice (TNum F64) [])])]). split; vm_compute; reflexivity. Qed.
(** An attribute that is an empty slice of slices: the file opens, reading the attributes panics. *)
Theorem C50_empty_rows_refuted : exists a f,
  file_of [OAttrs 0 (Some [(bs "x", a)])] = Some f /\ openFile f = Ok (root_of f) /\ groupAttributes f (handle_of f) = Panic.
Proof.
  exists (HSlice (TSlice (TNum I16)) []), (written [OAttrs 0 (Some [(bs "x", HSlice (TSlice (TNum I16)) [])])]).
  split; [|split]; vm_compute; reflexivity.
Qed.
(** An attribute that is a slice of one element is read as that element. *)
Theorem C50_one_element_refuted : exists f,
  file_of [OAttrs 0 (Some [(bs "x", i16s [5])])] = Some f /\
  rmap (fun m => om_get m (bs "x")) (groupAttributes f (handle_of f)) = Ok (Some (HNum I16 5)).
Proof. exists (written [OAttrs 0 (Some [(bs "x", i16s [5])])]). split; vm_compute; reflexivity. Qed.
(** An attribute with the name of one that netCDF uses itself is accepted and not seen again. *)
Theorem C50_reserved_name_refuted : exists k f,
  file_of [OAttrs 0 (Some [(k, HNum I16 5)])] = Some f /\
  rmap (fun m => (om_keys_visible m, om_get m k)) (groupAttributes f (handle_of f)) = Ok ([], None).
Proof. exists (bs "NAME"), (written [OAttrs 0 (Some [(bs "NAME", HNum I16 5)])]). split; vm_compute; reflexivity. Qed.
(** A string attribute ends at its first zero byte. *)
Theorem C50_zero_byte_refuted : exists f,
  file_of [OAttrs 0 (Some [(bs "x", HStr [65; 0; 66])])] = Some f /\
  rmap (fun m => om_get m (bs "x")) (groupAttributes f (handle_of f)) = Ok (Some (HStr [65])).
Proof. exists (written [OAttrs 0 (Some [(bs "x", HStr [65; 0; 66])])]). split; vm_compute; reflexivity. Qed.
(** A root variable that has the name of a dimension of another variable is told to have that
    dimension, and not the one given. *)
Theorem C50_coordinate_refuted : exists ops f,
  In (OVar 0 (bs "x") (i16s [1; 2]) [bs "y"] None) ops /\ file_of ops = Some f /\
  rmap rv_dims (getVariable f (root_of f) (handle_of f) (bs "x")) = Ok [bs "x"].
Proof.
  exists [OVar 0 (bs "x") (i16s [1; 2]) [bs "y"] None; OVar 0 (bs "z") (i16s [3]) [bs "x"] None].
  exists (written [OVar 0 (bs "x") (i16s [1; 2]) [bs "y"] None; OVar 0 (bs "z") (i16s [3]) [bs "x"] None]).
  split; [left; reflexivity|]. split; vm_compute; reflexivity.
Qed.
(** A matrix named like its first dimension is told to have that dimension only. *)
Theorem C50_coordinate_matrix_refuted : exists f,
  file_of [OVar 0 (bs "x") (HSlice (TSlice (TNum I16)) [i16s [1; 2]]) [bs "x"; bs "y"] None] = Some f /\
  rmap rv_dims (getVariable f (root_of f) (handle_of f) (bs "x")) = Ok [bs "x"].
Proof.
  exists (written [OVar 0 (bs "x") (HSlice (TSlice (TNum I16)) [i16s [1; 2]]) [bs "x"; bs "y"] None]).
  split; vm_compute; reflexivity.
Qed.
(** A string that begins with [__dimref:] takes the place of the reference to a dimension: the
    variables of that dimension are told to have none. *)
Theorem C50_dimref_refuted : exists ops f,
  In (OVar 0 (bs "x") (i16s [1; 2]) [bs "y"] None) ops /\ file_of ops = Some f /\
  rmap rv_dims (getVariable f (root_of f) (handle_of f) (bs "x")) = Ok [].
Proof.
  exists [OVar 0 (bs "x") (i16s [1; 2]) [bs "y"] None; OVar 0 (bs "z") (HSlice TStr [HStr (bs "__dimref:y")]) [bs "y"] None].
  exists (written [OVar 0 (bs "x") (i16s [1; 2]) [bs "y"] None; OVar 0 (bs "z") (HSlice TStr [HStr (bs "__dimref:y")]) [bs "y"] None]).
  split; [left; reflexivity|]. split; vm_compute; reflexivity.
Qed.
(** A variable whose value is a slice without rows is read as a slice of numbers. *)
Theorem C50_no_rows_refuted : exists f,
  file_of [OVar 0 (bs "x") (HSlice (TSlice (TNum I16)) []) [bs "z"; bs "y"] None] = Some f /\
  rmap rv_val (getVariable f (root_of f) (handle_of f) (bs "x")) = Ok (HSlice (TNum I16) []).
Proof.
  exists (written [OVar 0 (bs "x") (HSlice (TSlice (TNum I16)) []) [bs "z"; bs "y"] None]). split; vm_compute; reflexivity.
Qed.
(** Calls that were all accepted, and Close panics: a coordinate variable of strings, and one with
    an attribute CLASS. *)
Theorem C50_close_refuted : exists ops1 ops2 s1 outs1 s2 outs2,
  run ucd_example false in_order open_writer ops1 = (s1, outs1) /\ forallb is_ok outs1 = true /\
  snd (step ucd_example false in_order s1 (OClose 0)) = Panic /\
  run ucd_example false in_order open_writer ops2 = (s2, outs2) /\ forallb is_ok outs2 = true /\
  snd (step ucd_example false in_order s2 (OClose 0)) = Panic.
Proof.
  set (a := [OVar 0 (bs "z") (HSlice TStr [HStr (bs "a")]) [bs "z"] None]).
  set (b := [OVar 0 (bs "x") (i16s [1; 2]) [bs "x"] (Some [(bs "CLASS", HNum I16 1)])]).
  exists a, b, (fst (run ucd_example false in_order open_writer a)), (snd (run ucd_example false in_order open_writer a)),
    (fst (run ucd_example false in_order open_writer b)), (snd (run ucd_example false in_order open_writer b)).
  split; [vm_compute; reflexivity|]. split; [vm_compute; reflexivity|]. split; [vm_compute; reflexivity|].
  split; [vm_compute; reflexivity|]. split; vm_compute; reflexivity.
Qed.

(** ** What C51 does not hold for *)
(** A coordinate variable whose name begins like that of a bare scale is not listed. *)
Theorem C51_marker_refuted : exists n f,
  file_of [OVar 0 n (i16s [1; 2]) [n] None] = Some f /\ openFile f = Ok (root_of f) /\
  listVariables (root_of f) (handle_of f) = [] /\ listDimensions (handle_of f) = [n].
Proof.
  exists marker, (written [OVar 0 marker (i16s [1; 2]) [marker] None]).
  split; [vm_compute; reflexivity|]. split; [vm_compute; reflexivity|]. split; vm_compute; reflexivity.
Qed.

Print Assumptions C50_tree_partial.
Print Assumptions C51_lists_partial.
Print Assumptions C50_example_hypotheses.
Print Assumptions C50_same_name_refuted.
Print Assumptions C51_marker_refuted.

(** C23 and C26 for the example *)
Example C23_hdf5_example : exists o, nc_open (fun _ => @Err unit EBadMagic) openFile (written ex_ops) = Ok (GHdf o).
Proof. exists (root_of (written ex_ops)). vm_compute. reflexivity. Qed.
Example C26_file_example :
  (exists t, render false in_order t = Ok (written ex_ops)) /\ zlen (written ex_ops) = 5634 /\
  openFile (ztake 5633 (written ex_ops)) = Err ETruncated /\ openFile (ztake 47 (written ex_ops)) = Err ECorrupted.
Proof. split; [exists (content ex_state); vm_compute; reflexivity|]. split; [|split]; vm_compute; reflexivity. Qed.

Print Assumptions C23_hdf5_writer.
Print Assumptions C23_hdf5_accepts.
Print Assumptions C26_file.
