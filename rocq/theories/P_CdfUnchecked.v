(** C14: what GetSlice of a CDF variable gives for bounds outside of the variable. *)
From Coq Require Import Lia ZifyBool ZifyNat.
From Verif Require Import Prelude GoVal BaseLemmas OrderedMapModel ArraySpec ArrayProofs SliceSpec CdfFormat CdfWriterModel CdfReaderModel CdfConvert CdfFixed
  CdfBounds CdfRecord CdfMissing CdfFormatEx CdfSliceEx CdfSlice.
Ltac Zify.zify_post_hook ::= Z.div_mod_to_equations.

(** The getter of the rows from [b] to [e], as a variable of its own *)
Definition moved (g : getter) (b e : Z) : getter :=
  let v := g_var g in
  mkGetter (g_cdf g) (mkRvar (v_name v) (v_ids v) (v_attrs v) (v_type v) (v_vsize v) (v_begin v + b * volume (tl (g_lens g)) * tysize (g_ty g)))
    (e - b :: tl (g_lens g)) (g_names g) false (g_chunk g) (e - b) (g_ty g).

Lemma moved_slice g b e : fixed_getter g -> g_lens g <> [] -> b < e ->
  24 * ((e - b) * volume (tl (g_lens g))) <= 2 ^ 48 -> - 2 ^ 58 < b * volume (tl (g_lens g)) < 2 ^ 58 ->
  get_slice_c g b e = get_slice_c (moved g b e) 0 (e - b).
Proof.
  intros FG NE BE M R. destruct FG as [F1 F2 F3 F4 F5 F6]. unfold get_slice_c, moved. cbn [g_lens g_chunk g_ty g_var g_cdf g_unl v_begin].
  replace (e <? b) with false by lia. replace (e - b <? 0) with false by lia. rewrite F1, F3. cbn [andb].
  destruct (g_lens g) as [|d ds]; [contradiction|]. cbn [tl] in *. apply Forall_cons_iff in F2. destruct F2 as [P1 P2].
  replace (d =? 0) with false by lia. replace (e - b =? 0) with false by lia. pose proof (volume_pos _ P2) as VP.
  pose proof (tysize_pos (g_ty g)) as TS. set (V := volume ds) in *. set (sz := tysize (g_ty g)) in *.
  assert (E1 : (e - b) * 1 <= (e - b) * V) by (apply Z.mul_le_mono_nonneg_l; lia).
  assert (S1 : - 2 ^ 61 < b * V * sz < 2 ^ 61) by (split; nia).
  rewrite Z.sub_0_r, !Z.mul_0_l. change (i64 0) with 0. rewrite ?Z.mul_0_l. change (i64 0) with 0. rewrite (i64_small (b * V)) by lia. rewrite (i64_small (b * V * sz)) by lia.
  rewrite (i64_small (v_begin (g_var g))) by lia. rewrite (i64_small (v_begin (g_var g) + b * V * sz)) by lia. rewrite Z.add_0_r.
  rewrite (i64_small (v_begin (g_var g) + b * V * sz)) by lia. reflexivity.
Qed.

Lemma moved_fixed f c n g t fill b e : fixed_var f c n g t fill -> b < e ->
  24 * ((e - b) * volume (tl (g_lens g))) <= 2 ^ 48 ->
  0 <= v_begin (g_var g) + b * volume (tl (g_lens g)) * esize t < 2 ^ 62 -> fixed_getter (moved g b e).
Proof.
  intros FV BE M PL. destruct (fixed_var_parts _ _ _ _ _ _ FV) as (FG & CF & FP & TE & TS).
  pose proof (fg_pos g FG) as P. constructor; unfold moved; cbn [g_unl g_lens g_chunk g_len g_var v_begin tl].
  - reflexivity.
  - constructor; [lia|]. destruct (g_lens g); [constructor|]. apply Forall_cons_iff in P. apply P.
  - exact (fg_chunk g FG).
  - reflexivity.
  - cbn [volume]. exact M.
  - rewrite TS. exact PL.
Qed.
(** No bound is checked: for every variable of fixed size with a dimension, in every file that opens, GetSlice of any rows, also of
    negative numbers and beyond the last, gives what the file has at the place where such rows would be, be it of the header or of
    other variables, and the fill value beyond the end of the file; as long as the place is not before the beginning of the file. *)
Theorem C14_unchecked_refuted f c n g t fill b e : fixed_var f c n g t fill -> g_lens g <> [] -> b < e ->
  24 * ((e - b) * volume (tl (g_lens g))) <= 2 ^ 48 -> - 2 ^ 58 < b * volume (tl (g_lens g)) < 2 ^ 58 ->
  let place := v_begin (g_var g) + b * volume (tl (g_lens g)) * esize t in
  0 <= place < 2 ^ 62 -> ends_between f place ((e - b) * volume (tl (g_lens g))) t ->
  get_slice g b e = Ok (nest t (e - b :: tl (g_lens g)) (map (stored_or fill t f place) (iota ((e - b) * volume (tl (g_lens g)))))).
Proof.
  intros FV NE BE M R place PL EB. destruct (fixed_var_parts _ _ _ _ _ _ FV) as (FG & CF & FP & TE & TS).
  destruct (getter_fixed f c n g (fv_open _ _ _ _ _ _ FV) (fv_are_bytes _ _ _ _ _ _ FV) (fv_getter _ _ _ _ _ _ FV)
    (fv_fixed _ _ _ _ _ _ FV) (fv_memory _ _ _ _ _ _ FV) (fv_offset _ _ _ _ _ _ FV)) as (_ & _ & WT).
  destruct (has_fill_pattern _ _ _ (fv_fill _ _ _ _ _ _ FV) WT) as [_ IR].
  pose proof (moved_fixed f c n g t fill b e FV BE M PL) as FM.
  unfold get_slice. rewrite (moved_slice g b e FG NE BE M R).
  assert (FP' : fill_pattern (g_var (moved g b e)) (g_ty (moved g b e)) = Ok (enc_be (elt_kind t) fill)) by exact FP.
  destruct (values_fixed (moved g b e) _ FM FP') as (x & X1 & X2); [intros _ X; discriminate|].
  change (g_len (moved g b e)) with (e - b) in X1. rewrite X1. cbn [rmap]. rewrite X2.
  assert (VB : v_begin (g_var (moved g b e)) = place) by (unfold moved, place; cbn [g_var v_begin]; rewrite TS; reflexivity).
  rewrite (data_or_fill (moved g b e) t fill FM).
  - rewrite VB. change (g_ty (moved g b e)) with (g_ty g). rewrite TE. change (g_cdf (moved g b e)) with (g_cdf g). rewrite CF. reflexivity.
  - exact (fv_elt _ _ _ _ _ _ FV).
  - exact IR.
  - rewrite VB. change (g_cdf (moved g b e)) with (g_cdf g). rewrite CF. exact EB.
Qed.

(** The same for GetSliceMD and the rows of its first bounds; the other bounds are those of a box. *)
Theorem C14_box_refuted f c n g t fill b e bs_ es : fixed_var f c n g t fill -> g_lens g <> [] -> b < e -> box_in (tl (g_lens g)) bs_ es ->
  24 * ((e - b) * volume (tl (g_lens g))) <= 2 ^ 48 -> - 2 ^ 58 < b * volume (tl (g_lens g)) < 2 ^ 58 ->
  let place := v_begin (g_var g) + b * volume (tl (g_lens g)) * esize t in
  0 <= place < 2 ^ 62 -> ends_between f place ((e - b) * volume (tl (g_lens g))) t ->
  let ds := e - b :: tl (g_lens g) in let lo := box_begin t ds (0 :: bs_) in let hi := box_end t ds (e - b :: es) in
  exists r, get_slice_md g (b :: bs_) (e :: es) = Ok r /\ has_shape (zsub hi lo) r /\
    forall idx, in_shape (zsub hi lo) idx ->
      vindex r idx = vindex (nest t ds (map (stored_or fill t f place) (iota (volume ds)))) (zadd lo idx).
Proof.
  intros FV NE BE BX M R place PL EB ds lo hi. destruct (fixed_var_parts _ _ _ _ _ _ FV) as (FG & CF & FP & TE & TS).
  pose proof (moved_fixed f c n g t fill b e FV BE M PL) as FM.
  destruct (CdfBox.slice_md (moved g b e) _ (0 :: bs_) (e - b :: es) FM FP) as (w & r & W & G & H1 & H2).
  - left. reflexivity.
  - discriminate.
  - change (g_lens (moved g b e)) with ds. constructor; [lia|lia|lia|exact BX].
  - change (g_lens (moved g b e)) with ds in *. change (g_ty (moved g b e)) with (g_ty g) in *. rewrite TE in *. exists r.
    assert (EW : w = nest t ds (map (stored_or fill t f place) (iota (volume ds)))).
    { pose proof (C14_unchecked_refuted f c n g t fill b e FV NE BE M R PL EB) as X. unfold get_slice in X. rewrite (moved_slice g b e FG NE BE M R) in X.
      unfold values, get_slice in W. change (g_len (moved g b e)) with (e - b) in W. rewrite X in W. injection W as <-. reflexivity. }
    rewrite <- EW. split; [|split; [exact H1|exact H2]]. rewrite <- G. unfold get_slice_md. change (g_lens (moved g b e)) with ds. unfold ds.
    destruct (g_lens g) as [|d dr] eqn:EL; [contradiction|]. cbn [tl] in *. rewrite !zlen_cons. cbn [md_ordered].
    replace (0 <=? e - b) with (b <=? e) by lia. rewrite Z.sub_0_r. rewrite <- (moved_slice g b e FG) by (rewrite ?EL; cbn [tl]; first [discriminate|assumption]).
    cbn [List.length]. reflexivity.
Qed.

(** Where the place is before the beginning of the file there is an error. *)
Theorem C14_before f c n g t fill b e : fixed_var f c n g t fill -> g_lens g <> [] -> b <= e ->
  - 2 ^ 58 < b * volume (tl (g_lens g)) < 2 ^ 58 -> v_begin (g_var g) + b * volume (tl (g_lens g)) * esize t < 0 ->
  get_slice g b e = Err EBadSeek.
Proof.
  intros FV NE BE R PL. destruct (fixed_var_parts _ _ _ _ _ _ FV) as (FG & CF & FP & TE & TS). rewrite <- TS in PL.
  destruct FG as [F1 F2 F3 F4 F5 F6]. unfold get_slice, get_slice_c. replace (e <? b) with false by lia. rewrite F1, F3. cbn [andb]. cbv zeta.
  pose proof (tysize_pos (g_ty g)) as T8. set (V := volume (tl (g_lens g))) in *. set (sz := tysize (g_ty g)) in *.
  assert (S1 : - 2 ^ 61 < b * V * sz < 2 ^ 61) by (split; nia).
  rewrite (i64_small (b * V)) by lia. rewrite (i64_small (b * V * sz)) by lia.
  rewrite (i64_small (v_begin (g_var g))) by lia. rewrite (i64_small (v_begin (g_var g) + b * V * sz)) by lia.
  replace (v_begin (g_var g) + b * V * sz <? 0) with true by lia. reflexivity.
Qed.

(** The row before the first of an array of shorts is six bytes of the header; one after the last is of the next variable. *)
Example C14_example_unchecked :
  fixed_var grid_file (opened grid_file) (bs "a") (var_of grid_file (bs "a")) (ENum I16) (-9) /\
  g_lens (var_of grid_file (bs "a")) = [2; 3] /\ v_begin (g_var (var_of grid_file (bs "a"))) = 200 /\
  ends_between grid_file (200 + -1 * 3 * 2) (4 * 3) (ENum I16) /\
  get_slice (var_of grid_file (bs "a")) (-1) 3 = Ok (VSlice (GSlice (GNum I16))
    [VSlice (GNum I16) (map (VNum I16) [8; 0; 220]); VSlice (GNum I16) (map (VNum I16) [1; 2; 3]); VSlice (GNum I16) (map (VNum I16) [-4; 5; 6]);
     VSlice (GNum I16) (map (VNum I16) [24930; 25444; 25958])]) /\
  get_slice_md (var_of grid_file (bs "a")) [2; 1] [3; 3] = Ok (VSlice (GSlice (GNum I16)) [VSlice (GNum I16) (map (VNum I16) [25444; 25958])]) /\
  get_slice (var_of grid_file (bs "a")) (-34) 1 = Err EBadSeek.
Proof.
  split; [exact grid_a|]. split; [vm_compute; reflexivity|]. split; [vm_compute; reflexivity|]. split; [left; vm_compute; discriminate|].
  split; [vm_compute; reflexivity|]. split; vm_compute; reflexivity.
Qed.

Print Assumptions C14_unchecked_refuted.
Print Assumptions C14_before.
Print Assumptions C14_box_refuted.
