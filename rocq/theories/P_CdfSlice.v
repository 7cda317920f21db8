(** Properties C12-C15, C24, C25: slices, missing data and shapes of CDF variables. *)
From Coq Require Import ZifyBool ZifyNat.
From Verif Require Import Prelude GoVal BaseLemmas OrderedMapModel ArraySpec ArrayProofs SliceSpec CdfFormat CdfWriterModel CdfReaderModel
  CdfConvert CdfParse CdfOpened CdfBox CdfMissing CdfSliceEx CdfCalls CdfExamples.

(** C12.  Full claim: without the third and fourth hypotheses, for every size and offset.
    Missing: slices not starting at 0 of a variable cut short inside an element, and empty
    slices of char variables of three or more dimensions; both are witnesses in
    [C12_refuted].  [vslice] is Go's slice expression. *)
Theorem C12_slice_partial f c n g t fill b e : fixed_var f c n g t fill -> g_lens g <> [] ->
  b = 0 \/ ends_between f (v_begin (g_var g)) (volume (g_lens g)) t ->
  ~ (t = EChar /\ b = e /\ 3 <= zlen (g_lens g)) -> 0 <= b -> b <= e -> e <= g_len g ->
  exists w, values g = Ok w /\ get_slice g b e = Ok (vslice b e w).
Proof. exact (fixed_slice f c n g t fill b e). Qed.

Example C12_example : fixed_var grid_file (opened grid_file) (bs "a") (var_of grid_file (bs "a")) (ENum I16) (-9) /\
  g_lens (var_of grid_file (bs "a")) = [2; 3] /\
  ends_between grid_file (v_begin (g_var (var_of grid_file (bs "a")))) 6 (ENum I16) /\
  get_slice (var_of grid_file (bs "a")) 1 2 = Ok (VSlice (GSlice (GNum I16)) [VSlice (GNum I16) (map (VNum I16) [-4; 5; 6])]).
Proof.
  split; [exact grid_a|]. split; [vm_compute; reflexivity|]. split; [left; vm_compute; discriminate|vm_compute; reflexivity].
Qed.

Theorem C12_refuted :
  (fixed_var torn_file (opened torn_file) (bs "a") (var_of torn_file (bs "a")) (ENum I32) (-2147483647) /\
   values (var_of torn_file (bs "a")) = Ok (VSlice (GNum I32) (map (VNum I32) [1; 8388608; 25165824])) /\
   get_slice (var_of torn_file (bs "a")) 2 3 = Ok (VSlice (GNum I32) (map (VNum I32) [-2147483647]))) /\
  (fixed_var cube_file (opened cube_file) (bs "a") (var_of cube_file (bs "a")) EChar 0 /\
   values (var_of cube_file (bs "a")) = Ok (VSlice (GSlice GString) [VSlice GString [VStr (bs "hi")]]) /\
   get_slice (var_of cube_file (bs "a")) 1 1 = Ok (VSlice (GSlice (GSlice (GNum U8))) [])).
Proof. exact (conj (conj torn_a torn_read) (conj cube_a cube_read)). Qed.

(** C13.  [box_begin], [box_end]: the last bound of a char variable of two or more dimensions is
    that of the whole row.  Missing as in C12: files that end inside an element. *)
Theorem C13_box_partial f c n g t fill b e : fixed_var f c n g t fill -> g_lens g <> [] ->
  hd 0 b = 0 \/ ends_between f (v_begin (g_var g)) (volume (g_lens g)) t -> box_in (g_lens g) b e ->
  let lo := box_begin t (g_lens g) b in let hi := box_end t (g_lens g) e in
  exists w r, values g = Ok w /\ get_slice_md g b e = Ok r /\ has_shape (zsub hi lo) r /\
    forall idx, in_shape (zsub hi lo) idx -> vindex r idx = vindex w (zadd lo idx).
Proof. exact (fixed_slice_md f c n g t fill b e). Qed.

Example C13_example : box_in (g_lens (var_of grid_file (bs "a"))) [0; 1] [2; 3] /\
  get_slice_md (var_of grid_file (bs "a")) [0; 1] [2; 3] =
    Ok (VSlice (GSlice (GNum I16)) [VSlice (GNum I16) (map (VNum I16) [2; 3]); VSlice (GNum I16) (map (VNum I16) [5; 6])]) /\
  box_end EChar (g_lens (var_of grid_file (bs "w"))) [2; 2] = [2; 3] /\
  get_slice_md (var_of grid_file (bs "w")) [1; 1] [2; 2] = Ok (VSlice GString [VStr (bs "def")]).
Proof.
  split.
  - replace (g_lens (var_of grid_file (bs "a"))) with [2; 3] by (vm_compute; reflexivity).
    apply box_cons; [lia|lia|lia|]. apply box_cons; [lia|lia|lia|]. apply box_nil.
  - split; [vm_compute; reflexivity|]. split; vm_compute; reflexivity.
Qed.
Theorem C13_refuted :
  fixed_var torn_file (opened torn_file) (bs "a") (var_of torn_file (bs "a")) (ENum I32) (-2147483647) /\
  values (var_of torn_file (bs "a")) = Ok (VSlice (GNum I32) (map (VNum I32) [1; 8388608; 25165824])) /\
  get_slice_md (var_of torn_file (bs "a")) [2] [3] = Ok (VSlice (GNum I32) (map (VNum I32) [-2147483647])).
Proof. split; [exact torn_a|]. split; [exact (proj1 torn_read)|vm_compute; reflexivity]. Qed.

(** C14, for CDF: reversed bounds and wrong numbers of bounds are errors, for every variable. *)
Theorem C14_reversed_partial g b e :
  (forall x y, y < x -> get_slice g x y = Err EInvalidSlice) /\
  (List.length b <> List.length (g_lens g) \/ List.length e <> List.length (g_lens g) -> get_slice_md g b e = Err ETooManyDimensions) /\
  (List.length b = List.length (g_lens g) -> List.length e = List.length (g_lens g) ->
     (exists i, nth i e 0 < nth i b 0) -> get_slice_md g b e = Err EInvalidSlice).
Proof.
  split; [|split].
  - intros x y H. unfold get_slice, get_slice_c. replace (y <? x) with true by lia. reflexivity.
  - intros H. unfold get_slice_md, zlen. destruct (_ || _) eqn:E; [reflexivity|]. lia.
  - intros Hb He (i & Hi). unfold get_slice_md, zlen. rewrite Hb, He, Z.eqb_refl. cbn [negb orb].
    replace (md_ordered b e) with false; [reflexivity|]. symmetry. rewrite <- He in Hb. clear He.
    revert i e Hb Hi. induction b as [|x b IH]; intros i e Hb Hi.
    + destruct e; [|discriminate]. destruct i; cbn in Hi; lia.
    + destruct e as [|y e]; [discriminate|]. cbn [md_ordered]. injection Hb as Hb. destruct i as [|i]; cbn [nth] in Hi.
      * replace (x <=? y) with false by lia. reflexivity.
      * rewrite (IH i e Hb Hi). apply andb_false_r.
Qed.
Example C14_example : get_slice (var_of grid_file (bs "a")) 2 1 = Err EInvalidSlice /\
  get_slice_md (var_of grid_file (bs "a")) [0; 2] [2; 1] = Err EInvalidSlice /\
  get_slice_md (var_of grid_file (bs "a")) [0] [2] = Err ETooManyDimensions.
Proof. repeat split; vm_compute; reflexivity. Qed.
(** A range outside [0, Len()] gives values that are not the variable's, or crashes. *)
Theorem C14_refuted :
  (g_lens (var_of grid_file (bs "b")) = [2] /\
   get_slice (var_of grid_file (bs "b")) 0 3 = Ok (VSlice (GNum I32) (map (VNum I32) [77; -2147483647; -2147483647]))) /\
  (g_lens (var_of grid_file (bs "a")) = [2; 3] /\
   get_slice (var_of grid_file (bs "a")) (-1) 0 = Ok (VSlice (GSlice (GNum I16)) [VSlice (GNum I16) (map (VNum I16) [8; 0; 220])]) /\
   get_slice_md (var_of grid_file (bs "a")) [0; 0] [1; 4] = Panic).
Proof. repeat split; vm_compute; reflexivity. Qed.

(** C15.  [stored_or]: the number stored, or the fill value when the file ends before it.
    Missing: a single character, if its code is 128 or more, and a variable of type char with a
    _FillValue of type char; see [C15_refuted]. *)
Theorem C15_missing_partial f c n g t fill : fixed_var f c n g t fill ->
  ends_between f (v_begin (g_var g)) (volume (g_lens g)) t ->
  (t = EChar -> g_lens g = [] -> stored_or fill t f (v_begin (g_var g)) 0 < 128) ->
  values g = Ok (nest t (g_lens g) (map (stored_or fill t f (v_begin (g_var g))) (iota (volume (g_lens g))))).
Proof. intros [H1 H2 H3 H4 H5 H6 H7 H8]. exact (missing_filled f c n g t fill H1 H2 H3 H4 H5 H6 H7 H8). Qed.

Example C15_example : fixed_var grid_file (opened grid_file) (bs "b") (var_of grid_file (bs "b")) (ENum I32) (-2147483647) /\
  ends_between grid_file (v_begin (g_var (var_of grid_file (bs "b")))) 2 (ENum I32) /\
  values (var_of grid_file (bs "b")) = Ok (VSlice (GNum I32) (map (VNum I32) [77; -2147483647])).
Proof. split; [exact grid_b|]. split; [right; right; vm_compute; reflexivity|apply grid_read]. Qed.
(** The same with a fill value of the variable's own. *)
Example C15_example_own :
  let f := ztake 204 grid_file in
  fixed_var f (opened f) (bs "a") (var_of f (bs "a")) (ENum I16) (-9) /\
  ends_between f (v_begin (g_var (var_of f (bs "a")))) 6 (ENum I16) /\
  values (var_of f (bs "a")) = Ok (nest (ENum I16) [2; 3] [1; 2; -9; -9; -9; -9]).
Proof.
  split; [fixed_tac; right; vm_compute; reflexivity|]. split; [right; right; vm_compute; reflexivity|vm_compute; reflexivity].
Qed.
Theorem C15_refuted :
  (cdf_open fillc_file = Ok (opened fillc_file) /\ get_variable (opened fillc_file) (bs "a") = Panic) /\
  (cdf_open high_file = Ok (opened high_file) /\ values (var_of high_file (bs "a")) = Ok (VStr [195; 136])).
Proof. exact (conj fillc_read (proj2 high_read)). Qed.

(** C24.  [convert false] is the code with the special cases for ranks 0, 1 and 2, [convert true]
    the general code.  Missing: a single character of code 128 or more ([C24_refuted]). *)
Theorem C24_row_major_partial t ds data :
  Forall (fun d => 0 < d) ds -> 24 * volume ds <= 2 ^ 48 -> volume ds = zlen data ->
  (t = EChar -> ds = [] -> Forall (fun z => 0 <= z < 128) data) ->
  exists x y, convert false (cty_of t) ds data = Ok x /\ convert true (cty_of t) ds data = Ok y /\ erase x = erase y /\
    has_shape ds (erase x) /\
    (ds <> [] -> forall idx, in_shape ds idx -> exists z,
       nth_error data (Z.to_nat (offset ds idx)) = Some z /\ vindex (erase x) idx = Some (entry t z)) /\
    (ds = [] -> exists z, data = [z] /\ erase x = leaf t z).
Proof.
  intros HP HM HV HC. destruct (CdfRecord.cty_elt t) as (T1 & _).
  destruct (convert_nest (cty_of t) ds data HP HM HV) as (x & X1 & X2).
  { intros TC E. apply HC; [|exact E]. destruct t; [reflexivity|discriminate]. }
  destruct (convert_slow_nest (cty_of t) ds data HP HM HV) as (y & Y1 & Y2). rewrite T1 in *.
  assert (HN : Forall (fun d => 0 <= d) ds) by (eapply Forall_impl; [|exact HP]; intros a Ha; cbn in Ha; lia).
  exists x, y. split; [exact X1|]. split; [exact Y1|]. split; [congruence|]. rewrite X2.
  split; [apply nest_shape; assumption|]. split.
  - intros NE idx HI. destruct (nest_index t ds data idx NE HN HV HI) as (z & Z1 & Z2 & _). exists z. split; assumption.
  - intros E. subst ds. cbn [volume] in HV. destruct data as [|z [|z2 l]].
    + rewrite zlen_nil in HV. lia.
    + exists z. split; reflexivity.
    + rewrite !zlen_cons in HV. pose proof (zlen_nonneg l). lia.
Qed.
Example C24_example : convert false (TNum I32) [2; 1; 2] [5; 6; 7; 8] = convert true (TNum I32) [2; 1; 2] [5; 6; 7; 8] /\
  rmap (fun x => vindex (erase x) [1; 0; 1]) (convert false (TNum I32) [2; 1; 2] [5; 6; 7; 8]) = Ok (Some (VNum I32 8)) /\
  rmap erase (convert false TChar [2; 2] [97; 98; 99; 100]) = Ok (VSlice GString [VStr (bs "ab"); VStr (bs "cd")]).
Proof. repeat split; vm_compute; reflexivity. Qed.
Theorem C24_refuted : rmap erase (convert false TChar [] [200]) = Ok (VStr [195; 136]) /\
  rmap erase (convert true TChar [] [200]) = Ok (VStr [200]).
Proof. split; vm_compute; reflexivity. Qed.

(** C25 is false of the code: a file cut inside its data opens, and fill values are returned
    for what is missing, without any error. *)
Theorem C25_refuted : close_writer ex_st = Ok ex_file /\
  In (WVar (bs "s") (VNum I16 (-5)) [] [(bs "n", VNum I8 3)]) (accepted ex_ops ex_rs) /\
  exists c x, cdf_open (ztake 600 ex_file) = Ok c /\ get_variable c (bs "s") = Ok x /\ var_values x = VNum I16 (-32767).
Proof.
  split; [exact ex_close|]. split; [rewrite ex_rs_eq; cbn; tauto|]. eexists. eexists. split; [vm_compute; reflexivity|].
  split; vm_compute; reflexivity.
Qed.
(** C25, what holds, for every file that opens, cut anywhere: opening the rest fails with EOF, or
    gives the same names, attributes and dimensions, and each fixed-size variable wholly before
    the cut is returned as before.  Missing: variables that reach beyond the cut. *)
Theorem C25_cut_partial f c n : cdf_open f = Ok c -> are_bytes f -> 0 <= n ->
  cdf_open (ztake n f) = Err EEOF \/
  exists c', cdf_open (ztake n f) = Ok c' /\ c_ver c' = c_ver c /\ c_numrecs c' = c_numrecs c /\ c_dims c' = c_dims c /\
    c_gattrs c' = c_gattrs c /\ c_vars c' = c_vars c /\
    forall name g, get_var_getter c name = Ok g -> g_unl g = false ->
      24 * volume (g_lens g) <= 2 ^ 48 -> v_begin (g_var g) < 2 ^ 62 ->
      v_begin (g_var g) + volume (g_lens g) * tysize (g_ty g) <= n ->
      get_variable c' name = get_variable c name.
Proof.
  intros OP AB HN. destruct (cut_opens f c n OP HN) as [E|E]; [left; exact E|right].
  exists (with_file c (ztake n f)). split; [exact E|]. repeat (split; [reflexivity|]).
  intros name g GG NU HV HB HL. exact (cut_keeps f c n name g OP AB GG NU HV HB HL).
Qed.
Example C25_example : exists c, cdf_open ex_file = Ok c /\ are_bytes ex_file /\
  (exists g, get_var_getter c (bs "t") = Ok g /\ g_unl g = false /\ v_begin (g_var g) + volume (g_lens g) * tysize (g_ty g) = 604) /\
  (exists c', cdf_open (ztake 604 ex_file) = Ok c') /\ cdf_open (ztake 555 ex_file) = Err EEOF.
Proof.
  eexists. split; [vm_compute; reflexivity|]. split; [apply are_bytes_check; vm_compute; reflexivity|]. split.
  - eexists. split; [vm_compute; reflexivity|]. split; vm_compute; reflexivity.
  - split; [eexists; vm_compute; reflexivity|vm_compute; reflexivity].
Qed.

Print Assumptions C12_slice_partial.
Print Assumptions C12_refuted.
Print Assumptions C13_box_partial.
Print Assumptions C13_refuted.
Print Assumptions C14_reversed_partial.
Print Assumptions C14_refuted.
Print Assumptions C15_missing_partial.
Print Assumptions C15_refuted.
Print Assumptions C24_row_major_partial.
Print Assumptions C24_refuted.
Print Assumptions C25_cut_partial.
Print Assumptions C25_refuted.
