(** C50 and C51 for variables of compound, enumeration and opaque types and of sequences: a history of calls that
    meets the hypotheses, and what is read from the file. *)
From Verif Require Import Prelude GoVal ValidNameModel OrderedMapModel ArraySpec H5Base H5MetaWrite H5MetaRead H5Value H5TypeRead
  H5FileWrite H5PathModel H5RecordModel H5FileRead H5WriterModel PathSpec WriterSpec TypeSpec FileSpec BaseLemmas
  ValidNameProofs H5PathProofs H5SizeProofs H5WholeProofs H5WriterProofs P_H5Writer H5CallsProofs DispatchModel P_H5File P_H5FileEx
  P_H5Types P_H5Length.
From Coq Require Import Lia ZifyBool ZifyNat Permutation.

(** Two compounds, each with a number, a compound with a string, an enumeration and an opaque; an
    enumeration of two by two values; one opaque; one enumeration, with attributes that are a
    compound, a slice of one enumeration, an array of two by two sequences and two compounds with sequences; three
    sequences of different lengths. *)
Definition cx_colour (w : hval) : hval := HEnum w [bs "red"; bs "blue"] [HNum I16 (-1); HNum I16 700].
Definition cx_matrix : hval :=
  cx_colour (HSlice (TSlice (TNum I16)) [HSlice (TNum I16) [HNum I16 (-1); HNum I16 700]; HSlice (TNum I16) [HNum I16 700; HNum I16 5]]).
Definition cx_seq (l : list Z) : hval := HSlice (TNum I16) (map (HNum I16) l).
Definition cx_poly : hval :=
  HSlice (TSlice (TSlice (TNum I16))) [HSlice (TSlice (TNum I16)) [cx_seq [-7]; cx_seq [1; 2]]; HSlice (TSlice (TNum I16)) [cx_seq []; cx_seq [4; 5; 6]]].
Definition cx_track (n : Z) (t : bytes) (l : list Z) : hval := HComp [(bs "n", HNum U8 n); (bs "name", HStr t); (bs "points", cx_seq l)].
Definition cx_tracks : hval := HSlice TComp [cx_track 4 (bs "up") [7; -8; 9]; cx_track 200 (bs "") []].
Definition cx_attrs : hattrs := [(bs "best", ex_elem 7 (bs "q")); (bs "cols", cx_colour (HSlice (TNum I16) [HNum I16 5]));
  (bs "poly", cx_poly); (bs "tracks", cx_tracks)].
Definition cx_ops : list wop :=
  [ OVar 0 (bs "obs") ex_var [bs "t"] None;
    OGroup 0 (bs "g");
    OVar 1 (bs "grid") cx_matrix [bs "t"; bs "y"] None;
    OVar 1 (bs "key") (HOpaque [9; 0; 255]) [] (Some [(bs "units", HStr (bs "s"))]);
    OVar 0 (bs "c") (cx_colour (HNum I16 700)) [] (Some cx_attrs);
    OVar 1 (bs "rows") ex_rows [bs "x"] None ].
Definition cx_state : hstate := fst (run ucd_example false in_order open_writer cx_ops).
Definition cx_outs : list (res (option nat)) := snd (run ucd_example false in_order open_writer cx_ops).
Definition cx_dims : list bytes := [bs "t"; bs "y"; bs "x"].
Definition cx_strings : list bytes := [bs "abc"; bs "de"; bs "q"; bs "up"; bs ""].
Definition cx_events : list event := Eval vm_compute in events cx_ops cx_outs.
Lemma cx_events_eq : events cx_ops cx_outs = cx_events.
Proof. vm_compute. reflexivity. Qed.

Definition cx_sty : sty := SEnum I16 [bs "red"; bs "blue"] [-1; 700].
Lemma cx_writable : writable cx_sty.
Proof.
  split; [split; discriminate|]. split; [reflexivity|]. split; [reflexivity|].
  split; [repeat (apply Forall_cons; [apply text_dec; reflexivity|]); apply Forall_nil|].
  repeat (apply Forall_cons; [reflexivity|]). apply Forall_nil.
Qed.
Lemma cx_obs : composed [2] ex_var.
Proof.
  exists ex_sty. destruct ex_var_ok as (T & V & S). split; [exact T|].
  split; [apply Z.leb_le; vm_compute; reflexivity|]. split; [exact V|exact S].
Qed.
Lemma cx_grid : composed [2; 2] cx_matrix.
Proof.
  exists cx_sty. split; [split; [exact cx_writable|left; reflexivity]|]. split; [apply Z.leb_le; vm_compute; reflexivity|]. split; [|exact I].
  eexists. split; [reflexivity|]. eexists. split; [reflexivity|]. split; [reflexivity|].
  elems; (eexists; split; [reflexivity|]; split; [reflexivity|]; elems; one_num).
Qed.
Lemma cx_one : composed [] (cx_colour (HNum I16 700)).
Proof.
  exists cx_sty. split; [split; [exact cx_writable|left; reflexivity]|]. split; [apply Z.leb_le; vm_compute; reflexivity|]. split; [|exact I].
  eexists. split; [reflexivity|]. one_num.
Qed.
Lemma cx_key : composed [] (HOpaque [9; 0; 255]).
Proof.
  exists (SOpaque 3). split; [split; [split; reflexivity|left; reflexivity]|]. split; [discriminate|]. split; [|split; [intros n []|reflexivity]].
  exists [9; 0; 255]. split; reflexivity.
Qed.
Lemma cx_rows : composed [3] ex_rows.
Proof.
  exists (SVlen (SNum U16)). destruct ex_rows_ok as (T & V & S). split; [exact T|]. split; [discriminate|]. split; [exact V|exact S].
Qed.

Lemma cx_seq_conf l : forallb (in_range I16) l = true -> zlen l < 2 ^ 32 -> conf (SVlen (SNum I16)) (cx_seq l).
Proof.
  intros H L. exists (map (HNum I16) l). split; [reflexivity|]. split; [rewrite zlen_map; exact L|].
  clear L. induction l as [|z l IH]; [exact I|]. cbn [forallb] in H. apply andb_true_iff in H. destruct H as [H1 H2].
  split; [exists z; auto|exact (IH H2)].
Qed.
Lemma cx_poly_fine room : 8 * 2 + (8 + 40) + 16 * 4 <= room -> attr_value room [2; 2] cx_poly.
Proof.
  intros R. right. right. exists (SNum I16). split; [split; [exact I|reflexivity]|]. split; [exact R|]. split; [|split].
  - eexists. split; [reflexivity|]. split; [reflexivity|].
    elems; (eexists; split; [reflexivity|]; split; [reflexivity|]; elems; (apply cx_seq_conf; reflexivity)).
  - split; [intros n [<-|[<-|[]]]; reflexivity|reflexivity].
  - cbn [ragged cx_poly]. elems; reflexivity.
Qed.
Definition cx_track_sty : sty := SComp [(bs "n", SNum U8); (bs "name", SStr); (bs "points", SVlen (SNum I16))].
Lemma cx_track_conf n t l : in_range U8 n = true -> text t -> zlen t < 2 ^ 32 -> forallb (in_range I16) l = true -> zlen l < 2 ^ 32 ->
  conf cx_track_sty (cx_track n t l).
Proof.
  intros Hn Ht Hz Hl L. eexists. split; [reflexivity|]. split; [reflexivity|]. split; [exists n; auto|].
  split; [reflexivity|]. split; [exists t; auto|]. split; [reflexivity|]. split; [|exact I]. apply cx_seq_conf; assumption.
Qed.
Lemma cx_tracks_fine room : 1000 <= room -> attr_value room [2] cx_tracks.
Proof.
  intros R. right. left. exists cx_track_sty. split; [|split; [|split; [|split; [|split]]]].
  - split; [reflexivity|]. split; [left; split; reflexivity|].
    repeat (split; [apply text_check; reflexivity|]; split; [split; [exact I|reflexivity] || exact I|]; split; [reflexivity|]). exact I.
  - apply (Z.le_trans _ 1000); [apply Z.leb_le; vm_compute; reflexivity|exact R].
  - eexists. split; [reflexivity|]. split; [reflexivity|].
    elems; (apply cx_track_conf; [reflexivity|apply text_check; reflexivity|reflexivity|reflexivity|reflexivity]).
  - split; [intros n [<-|[]]; reflexivity|reflexivity].
  - discriminate.
  - elems; reflexivity.
Qed.
Lemma cx_fine p n v : last_var cx_events p n = Some v -> zlen n < 256 /\ fine_var v.
Proof.
  intros H. apply last_var_event in H. unfold cx_events in H. cbn [In] in H.
  destruct H as [H|[H|[H|[H|[H|[H|[]]]]]]]; try discriminate H; injection H as <- <- <-; (split; [reflexivity|]); unfold fine_var;
    cbn [hv_val hv_dims hv_attrs].
  - split; [|split].
    + exists [2]. split; [reflexivity|]. split; [discriminate|]. split; [elems; split; [discriminate|reflexivity]|]. split; [apply Forall_nil|].
      right. exact cx_obs.
    + split; [apply NoDup_nil|]. split; [apply Forall_nil|discriminate].
    + elems. split; [discriminate|]. split; [apply text_check; reflexivity|reflexivity].
  - split; [|split].
    + exists [2; 2]. split; [reflexivity|]. split; [discriminate|]. split; [elems; (split; [discriminate|reflexivity])|].
      split; [apply Forall_cons; [reflexivity|apply Forall_nil]|]. right. exact cx_grid.
    + split; [apply NoDup_nil|]. split; [apply Forall_nil|discriminate].
    + elems; (split; [discriminate|]; split; [apply text_check; reflexivity|reflexivity]).
  - split; [|split].
    + exists []. split; [reflexivity|]. split; [discriminate|]. split; [apply Forall_nil|]. split; [apply Forall_nil|].
      right. exact cx_key.
    + split; [apply NoDup_cons; [tauto|apply NoDup_nil]|]. split; [|discriminate]. elems. split; [apply text_check; reflexivity|].
      split; [vm_compute; intuition discriminate|]. exists []. cbn [fst snd].
      split; [left|split; [apply Forall_nil|discriminate]].
      split; [right; right; split; [reflexivity|]; exists (bs "s"); split; [reflexivity|]; split; [apply text_check; reflexivity|reflexivity]|].
      split; [discriminate|]. intros t E. injection E as <-. discriminate.
    + apply Forall_nil.
  - split; [|split].
    + exists []. split; [reflexivity|]. split; [discriminate|]. split; [apply Forall_nil|]. split; [apply Forall_nil|].
      right. exact cx_one.
    + split; [repeat (apply NoDup_cons; [cbn [In fst]; intuition discriminate|]); apply NoDup_nil|].
      split; [|discriminate]. apply Forall_cons; [|apply Forall_cons; [|apply Forall_cons; [|apply Forall_cons; [|apply Forall_nil]]]].
      * split; [apply text_check; reflexivity|]. split; [vm_compute; intuition discriminate|]. exists []. cbn [fst snd].
        split; [right; left|split; [apply Forall_nil|discriminate]]. exists ex_sty. split; [exact ex_writable|].
        split; [apply Z.leb_le; vm_compute; reflexivity|].
        split; [apply (ex_elem_conf 7 (bs "q")); [reflexivity|apply text_check; reflexivity|reflexivity]|].
        split; [split; [intros n []|reflexivity]|]. split; [intros _; discriminate|]. elems; reflexivity.
      * split; [apply text_check; reflexivity|]. split; [vm_compute; intuition discriminate|]. exists [1]. cbn [fst snd].
        split; [right; left|split; [apply Forall_cons; [reflexivity|apply Forall_nil]|discriminate]]. exists cx_sty. split; [exact cx_writable|].
        split; [apply Z.leb_le; vm_compute; reflexivity|]. split; [|split; exact I].
        eexists. split; [reflexivity|]. eexists. split; [reflexivity|]. split; [reflexivity|]. elems; one_num.
      * split; [apply text_check; reflexivity|]. split; [vm_compute; intuition discriminate|]. exists [2; 2]. cbn [fst snd].
        split; [apply cx_poly_fine; discriminate|split; [elems; reflexivity|discriminate]].
      * split; [apply text_check; reflexivity|]. split; [vm_compute; intuition discriminate|]. exists [2]. cbn [fst snd].
        split; [apply cx_tracks_fine; discriminate|split; [elems; reflexivity|discriminate]].
    + apply Forall_nil.
  - split; [|split].
    + exists [3]. split; [reflexivity|]. split; [discriminate|]. split; [elems; split; [discriminate|reflexivity]|]. split; [apply Forall_nil|].
      right. exact cx_rows.
    + split; [apply NoDup_nil|]. split; [apply Forall_nil|discriminate].
    + elems. split; [discriminate|]. split; [apply text_check; reflexivity|reflexivity].
Qed.
Lemma cx_group p n : group_made cx_events (p ++ [n]) -> p = [] /\ n = bs "g".
Proof.
  intros [H|H]; [destruct p; discriminate|]. unfold cx_events in H. cbn [In] in H.
  destruct H as [H|[H|[H|[H|[H|[H|[]]]]]]]; try discriminate H. injection H as H.
  destruct p as [|a [|b p]]; cbn [app] in H; [injection H as <-; auto|discriminate H|discriminate H].
Qed.
Lemma cx_dimension d : dimension cx_events d -> d = bs "t" \/ d = bs "y" \/ d = bs "x".
Proof.
  intros (p & n & v & H & Hd). apply last_var_event in H. unfold cx_events in H. cbn [In] in H.
  destruct H as [H|[H|[H|[H|[H|[H|[]]]]]]]; try discriminate H; injection H as _ _ <-; cbn [hv_dims In] in Hd; vm_compute; intuition congruence.
Qed.
Lemma cx_var p n v : last_var cx_events p n = Some v ->
  p = [] /\ (n = bs "obs" \/ n = bs "c") \/ p = [bs "g"] /\ (n = bs "grid" \/ n = bs "key" \/ n = bs "rows").
Proof.
  intros H. apply last_var_event in H. unfold cx_events in H. cbn [In] in H.
  destruct H as [H|[H|[H|[H|[H|[H|[]]]]]]]; try discriminate H; injection H as <- <- _; vm_compute; tauto.
Qed.
Lemma cx_calls_fine : calls_fine cx_dims cx_strings cx_events.
Proof.
  constructor.
  - exact cx_fine.
  - intros p n H. apply cx_group in H. destruct H as [_ ->]. reflexivity.
  - intros p. destruct (last_attrs_event cx_events p) as [E|E].
    + unfold fine_attrs. rewrite E. split; [apply NoDup_nil|]. split; [apply Forall_nil|discriminate].
    + exfalso. revert E. generalize (last_attrs cx_events p). intros a E. unfold cx_events in E. cbn [In] in E.
      destruct E as [E|[E|[E|[E|[E|[E|[]]]]]]]; discriminate E.
  - intros p n H M. apply cx_group in M. destruct M as [-> ->]. apply H. reflexivity.
  - intros d H. apply cx_dimension in H. split; [destruct H as [->|[->| ->]]; [left|right; left|right; right; left]; reflexivity|]. split.
    + destruct H as [->|[->| ->]]; apply no_dimref_check; reflexivity.
    + intros M. apply (cx_group [] d) in M. destruct M as [_ ->]. destruct H as [H|[H|H]]; discriminate H.
  - intros n H _ r. apply cx_dimension in H. destruct H as [->|[->| ->]]; discriminate.
  - intros v s H Hs. apply value_events in H. unfold cx_events in H. cbn [flat_map event_values attr_list hv_val hv_attrs map snd app In] in H.
    repeat (destruct H as [<-|H]; [cbn [strings_of app In] in Hs;
      repeat (destruct Hs as [<-|Hs]; [apply no_dimref_check; reflexivity|]); destruct Hs|]). destruct H.
  - intros v s H Hs. apply value_events in H. unfold cx_events in H. cbn [flat_map event_values attr_list hv_val hv_attrs map snd app In] in H.
    repeat (destruct H as [<-|H]; [cbn [heap_strings strings_of app In] in Hs; vm_compute; tauto|]). destruct H.
  - discriminate.
  - discriminate.
Qed.

Example C50_composed_hypotheses :
  run ucd_example false in_order open_writer cx_ops = (cx_state, cx_outs) /\ st_closed cx_state = false /\
  (exists s1, step ucd_example false in_order cx_state (OClose 0) = (s1, Ok None) /\ zlen (st_file s1) < 2 ^ 63) /\
  calls_fine cx_dims cx_strings (events cx_ops cx_outs) /\ (forall t, orders_ok t (in_order t)).
Proof.
  split; [vm_compute; reflexivity|]. split; [reflexivity|]. split; [|split].
  - exists (fst (step ucd_example false in_order cx_state (OClose 0))). split; [vm_compute; reflexivity|vm_compute; reflexivity].
  - rewrite cx_events_eq. exact cx_calls_fine.
  - intros t. repeat split; apply Permutation_refl.
Qed.
Example C50_composed_example :
  let f := written cx_ops in let root := root_of f in
  openFile f = Ok root /\
  listVariables root (handle_of f) = [bs "c"; bs "obs"] /\ listDimensions (handle_of f) = [bs "t"; bs "x"; bs "y"] /\
  rmap (fun v => (rv_val v, rv_dims v)) (getVariable f root (handle_of f) (bs "obs")) = Ok (ex_var, [bs "t"]) /\
  rmap (fun v => (rv_val v, rv_dims v, om_get (rv_attrs v) (bs "best"), om_get (rv_attrs v) (bs "cols"),
              om_get (rv_attrs v) (bs "poly"), om_get (rv_attrs v) (bs "tracks")))
    (getVariable f root (handle_of f) (bs "c")) =
    Ok (cx_colour (HNum I16 700), [], Some (ex_elem 7 (bs "q")), Some (cx_colour (HNum I16 5)), Some cx_poly,
        Some cx_tracks) /\
  (let* h := rgetGroup root (handle_of f) (bs "/g") in
   let* v := getVariable f root h (bs "grid") in
   let* w := getVariable f root h (bs "key") in
   let* x := getVariable f root h (bs "rows") in
   Ok (rv_val v, rv_dims v, rv_val w, om_get (rv_attrs w) (bs "units"), rv_val x, rv_dims x)) =
    Ok (cx_matrix, [bs "t"; bs "y"], HOpaque [9; 0; 255], Some (HStr (bs "s")), ex_rows, [bs "x"]).
Proof. vm_compute. repeat (split; [reflexivity|]). reflexivity. Qed.

(** ** What C50 does not hold for *)
(** An opaque attribute is read as zeros. *)
Theorem C50_opaque_attribute_refuted : exists f,
  file_of [OAttrs 0 (Some [(bs "x", HOpaque [1; 2])])] = Some f /\
  rmap (fun m => om_get m (bs "x")) (groupAttributes f (handle_of f)) = Ok (Some (HOpaque [0; 0])).
Proof. exists (written [OAttrs 0 (Some [(bs "x", HOpaque [1; 2])])]). split; vm_compute; reflexivity. Qed.
(** An attribute that is a compound of one member is not read as a compound. *)
Theorem C50_one_member_refuted : exists f,
  file_of [OAttrs 0 (Some [(bs "x", HComp [(bs "a", HNum I16 5)])])] = Some f /\
  rmap (fun m => om_get m (bs "x")) (groupAttributes f (handle_of f)) = Ok (Some HOther).
Proof. exists (written [OAttrs 0 (Some [(bs "x", HComp [(bs "a", HNum I16 5)])])]). split; vm_compute; reflexivity. Qed.

(** In an array of sequences that is an attribute, whether the elements are sequences is decided by the first row alone:
    where its sequences happen to have one length, all others are read as if they had that length. *)
Definition cx_half (last : list hval) : hval :=
  HSlice (TSlice (TSlice (TNum I16))) [HSlice (TSlice (TNum I16)) [cx_seq [3; 8]; cx_seq [4; 5]]; HSlice (TSlice (TNum I16)) last].
Theorem C50_even_row_refuted : exists f,
  file_of [OAttrs 0 (Some [(bs "x", cx_half [cx_seq [-7]; cx_seq [1; 2]])])] = Some f /\
  rmap (fun m => om_get m (bs "x")) (groupAttributes f (handle_of f)) = Ok (Some (cx_half [cx_seq [-7; 1]; cx_seq [2; 0]])).
Proof. exists (written [OAttrs 0 (Some [(bs "x", cx_half [cx_seq [-7]; cx_seq [1; 2]])])]). split; vm_compute; reflexivity. Qed.

(** In an attribute of compounds, an empty sequence of opaques is read as one of bytes. *)
Definition cx_blobs (last : hval) : hval :=
  HSlice TComp [HComp [(bs "a", HNum I16 5); (bs "b", HSlice TOpaque [HOpaque [1; 2]])]; HComp [(bs "a", HNum I16 6); (bs "b", last)]].
Theorem C50_empty_opaques_refuted : exists f,
  file_of [OAttrs 0 (Some [(bs "x", cx_blobs (HSlice TOpaque []))])] = Some f /\
  rmap (fun m => om_get m (bs "x")) (groupAttributes f (handle_of f)) = Ok (Some (cx_blobs (HSlice (TNum U8) []))).
Proof. exists (written [OAttrs 0 (Some [(bs "x", cx_blobs (HSlice TOpaque []))])]). split; vm_compute; reflexivity. Qed.
(** Strings in a sequence of compounds are written without their heap: a file with such an attribute is made, but the
    attributes cannot be read. *)
Definition cx_lost : hval :=
  HComp [(bs "a", HNum I16 5); (bs "b", HSlice TComp [HComp [(bs "q", HStr (bs "u"))]; HComp [(bs "q", HStr (bs "vw"))]])].
Theorem C50_strings_in_sequence_refuted : exists f,
  file_of [OAttrs 0 (Some [(bs "x", cx_lost)])] = Some f /\ groupAttributes f (handle_of f) = Err EBadMagic.
Proof. exists (written [OAttrs 0 (Some [(bs "x", cx_lost)])]). split; vm_compute; reflexivity. Qed.

(** A file with a variable that has a name of 256 bytes is made, but opening it ends the program; one with an attribute of
    more bytes than the size of a message can tell cannot be opened. *)
Definition cx_long : list wop := [OVar 0 (zrep 256 97) (HNum I16 7) [] None].
Theorem C50_long_name_refuted : exists f, file_of cx_long = Some f /\ openFile f = Panic.
Proof. exists (written cx_long). split; vm_compute; reflexivity. Qed.
Definition cx_large : list wop := [OAttrs 0 (Some [(bs "x", HStr (zrep 65600 97))])].
Theorem C50_large_attribute_refuted : exists f, file_of cx_large = Some f /\ openFile f = Err EInternal.
Proof.
  exists (written cx_large). split; [|vm_compute; reflexivity].
  assert (E : match file_of cx_large with Some _ => true | None => false end = true) by (vm_compute; reflexivity).
  unfold written. destruct (file_of cx_large); [reflexivity|discriminate].
Qed.

Print Assumptions C50_long_name_refuted.
Print Assumptions C50_large_attribute_refuted.
Print Assumptions C50_empty_opaques_refuted.
Print Assumptions C50_strings_in_sequence_refuted.
Print Assumptions C50_opaque_attribute_refuted.
Print Assumptions C50_even_row_refuted.
Print Assumptions C50_one_member_refuted.
Print Assumptions C50_composed_hypotheses.
Print Assumptions C50_composed_example.
