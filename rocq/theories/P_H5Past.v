(** C14: slices of contiguous HDF5 variables outside of their rows. *)
From Coq Require Import Lia ZifyBool ZifyNat.
From Verif Require Import Prelude BaseLemmas GoVal FillModel ArraySpec ChunkSpec IndexProofs H5Base H5LayoutModel H5Value H5TypeRead H5RecordModel
  H5ChunkProofs RecordSpec H5RecordProofs H5IndexProofs H5SliceProofs H5RunProofs H5CallProofs P_H5Record.

(** The same variable with [e] rows *)
Definition longer (d : dset) (e : Z) : dset :=
  mkDset (e :: tl (d_dims d)) (d_layout d) (d_ty d) (d_btree d) (d_elem d) (d_number d) (d_rank d) (d_fill d) (d_filter d) (d_seek d).

Lemma readBlock_longer f d e first last_ b off : readBlock f (longer d e) first last_ b off = readBlock f d first last_ b off.
Proof. reflexivity. Qed.
Lemma readBlocks_longer f d e first last_ bl : d_layout d = [] -> forall off,
  readBlocks f (longer d e) first last_ bl off = readBlocks f d first last_ bl off.
Proof.
  intros L. induction bl as [|b bl IH]; intros off; [reflexivity|]. cbn [readBlocks]. change (d_layout (longer d e)) with (d_layout d). rewrite L.
  rewrite !IH. rewrite readBlock_longer. reflexivity.
Qed.

Lemma size_rows d n ds : d_layout d = [] -> d_dims d = n :: ds -> 0 <= n -> 0 <= volume ds * d_length d ->
  n * (volume ds * d_length d) < 2 ^ 63 -> d_size d = n * (volume ds * d_length d).
Proof.
  intros L D N P B. unfold d_size. rewrite L, D. cbn [H5LayoutModel.calcAttrSize]. unfold H5LayoutModel.calcDataSize. rewrite prod64_volume, u64_mul_l.
  cbn [volume]. rewrite <- Z.mul_assoc. pose proof (Z.mul_nonneg_nonneg _ _ N P). apply u64_small. lia.
Qed.

Lemma fill_prefix pat a b : pat <> [] -> a <= b -> ztake a (fillBytes pat b) = fillBytes pat a.
Proof.
  intros N H. apply znth_ext.
  - rewrite zlen_ztake_min, !zlen_fill by assumption. lia.
  - intros p. rewrite zlen_ztake_min, zlen_fill by assumption. intros P.
    rewrite znth_fill by (assumption || lia). rewrite znth_take by lia. apply (znth_fill pat b p N). lia.
Qed.
Lemma pad_prefix pat (data : bytes) k m : pat <> [] -> 0 <= k <= m ->
  ztake k (ztake m (data ++ fillBytes pat (m - zlen data))) = ztake k (data ++ fillBytes pat (k - zlen data)).
Proof.
  intros N H. rewrite ztake_ztake. replace (Z.min k m) with k by lia. destruct (Z.le_gt_cases k (zlen data)) as [L|L].
  - rewrite !ztake_app_l by lia. reflexivity.
  - rewrite !ztake_app_r by lia. rewrite !fill_prefix by (assumption || lia). reflexivity.
Qed.

Theorem C14_hdf5_past : forall f heap d bl n ds b e,
  d_layout d = [] -> d_dims d = n :: ds -> d_btree d = 0 -> d_fill d <> [] -> 0 < volume ds * d_length d ->
  0 < n <= e -> e * (volume ds * d_length d) < 2 ^ 63 -> 0 <= b <= e -> b = 0 \/ e - b < n ->
  fst (vstep f heap d (VSlice b e) (opened d bl)) = fst (vstep f heap (longer d e) (VSlice b e) (opened (longer d e) bl)).
Proof.
  intros f heap d bl n ds b e L D Bt Fl Row N Big B Short.
  set (row := volume ds * d_length d) in *.
  assert (Hn : n * row <= e * row) by (apply Z.mul_le_mono_nonneg_r; lia).
  assert (Hb : 0 <= b * row <= e * row) by (split; [apply Z.mul_nonneg_nonneg; lia|apply Z.mul_le_mono_nonneg_r; lia]).
  assert (He : e <= e * row) by (rewrite <- (Z.mul_1_r e) at 1; apply Z.mul_le_mono_nonneg_l; lia).
  assert (S1 : d_size d = n * row) by (apply size_rows; try assumption; fold row; lia).
  assert (S2 : d_size (longer d e) = e * row).
  { apply (size_rows (longer d e) e ds); [exact L|cbn [longer d_dims]; rewrite D; reflexivity|lia|..];
      change (d_length (longer d e)) with (d_length d); fold row; lia. }
  assert (N0 : 0 < n * row) by (apply Z.mul_pos_pos; lia).
  assert (R : newRecordReader f (longer d e) bl (Some (b, e)) = newRecordReader f d bl (Some (b, e))).
  { unfold newRecordReader. rewrite S1, S2. cbn [longer d_dims d_layout d_btree d_fill]. rewrite D, L, Bt. cbn [tl needsLayoutReader negb andb].
    replace (n * row =? 0) with false by lia. replace (e * row =? 0) with false by lia. replace (0 <? n) with true by lia. replace (0 <? e) with true by lia.
    cbv iota. rewrite (Z.mul_comm n row), (Z.mul_comm e row), !Z.div_mul by lia.
    destruct bl as [|b0 bl]; [reflexivity|]. cbn [rbind]. rewrite <- (readBlocks_longer f d e) by exact L. reflexivity. }
  assert (M : forall data rem bl', newRecordReader f d bl (Some (b, e)) = Ok (data, rem, bl') -> rem = e * row - b * row).
  { intros data rem bl'. unfold newRecordReader. rewrite S1, D, L. cbn [needsLayoutReader negb andb].
    replace (n * row =? 0) with false by lia. replace (0 <? n) with true by lia. cbv iota. rewrite (Z.mul_comm n row), Z.div_mul by lia.
    rewrite (u64_small b), (u64_small e), (u64_small (b * row)), (u64_small (e * row)) by lia. rewrite (u64_small (e * row - b * row)) by lia.
    rewrite (i64_small (e * row - b * row)) by lia. set (m := e * row - b * row).
    destruct (match bl with [] => _ | _ => _ end) as [bs| |]; cbn [rbind]; try discriminate.
    destruct bs as [|b0 bs]; [intros H; congruence|].
    destruct (readBlocks _ _ _ _ _ _) as [segs| |]; cbn [rbind]; try discriminate.
    destruct (joinSegs _ _ _) as [dt off]. destruct (_ <=? _); intros H; congruence. }
  assert (Q : dataBytes f (longer d e) bl (Some (b, e)) = dataBytes f d bl (Some (b, e))).
  { unfold dataBytes. rewrite R, S1, S2. cbn [longer d_dims d_layout d_fill]. rewrite D, L. cbn [needsLayoutReader].
    destruct (newRecordReader f d bl (Some (b, e))) as [[[data rem] bl']| |]; cbn [rbind]; try reflexivity.
    specialize (M _ _ _ eq_refl). replace (e <? b) with false by lia. replace (e =? 0) with false by lia. replace (n =? 0) with false by lia.
    rewrite (i64_small e), (i64_small n), (i64_small (e - b)), (i64_small (n * row)), (i64_small (e * row)) by lia.
    rewrite (Z.mul_comm e row), (Z.mul_comm n row), !Z.quot_mul by lia. rewrite (Z.mul_comm row e), (Z.mul_comm row n).
    replace (row * (e - b)) with rem by (rewrite M; ring). rewrite (i64_small rem) by lia. cbn [rbind]. do 2 f_equal.
    destruct Short as [-> | Short].
    - replace (rem <? e * row) with false by lia. replace (rem <? n * row) with false by lia. reflexivity.
    - assert (Hs : (e - b) * row < n * row) by (apply Z.mul_lt_mono_pos_r; lia). rewrite Z.mul_sub_distr_r in Hs.
      replace (rem <? e * row) with true by lia. replace (rem <? n * row) with true by lia.
      rewrite !pad_prefix by (assumption || lia). reflexivity. }
  cbn [vstep]. unfold getSlice. change (d_dims (longer d e)) with (e :: tl (d_dims d)). rewrite D. cbn [tl]. rewrite andb_false_r.
  replace (e <? b) with false by lia. cbv iota. unfold getData, opened. cbn [v_blocks v_slice v_ty].
  rewrite Q. change (d_dims (longer d e)) with (e :: tl (d_dims d)). rewrite D. reflexivity.
Qed.

Lemma block_data_longer f d e b data : block_data f d b data -> block_data f (longer d e) b data.
Proof. intros H. exact H. Qed.
Lemma placed_longer f d e o bl ps : d_layout d = [] -> placed f d o bl ps -> placed f (longer d e) o bl ps.
Proof.
  intros L. induction 1 as [o|o b bl data ps Hb Hp IH]; [constructor|]. rewrite L.
  pose proof (placed_cons f (longer d e) o b bl data ps (block_data_longer f d e b data Hb) IH) as P. cbn [longer d_layout] in P. rewrite L in P. exact P.
Qed.

(** So the rows behind the end are the fill values that the variable would have there. *)
Theorem C14_hdf5_past_refuted : forall f heap d bl ps n ds b e v st,
  zlen f < 2 ^ 63 -> sliceable (longer d e) v -> d_layout d = [] -> d_dims d = n :: ds -> fits d bl -> d_btree d = 0 ->
  0 < zlen (d_fill d) -> d_length d mod zlen (d_fill d) = 0 -> Forall (fun x => p_end x mod zlen (d_fill d) = 0) ps ->
  placed f d 0 bl ps -> inside (total d) ps -> 0 < total d ->
  n < e -> e * (volume ds * d_length d) < 2 ^ 63 -> 0 <= b < e -> b = 0 \/ e - b < n ->
  vstep f heap (longer d e) VGet (opened (longer d e) bl) = (Ok v, st) ->
  exists v', fst (vstep f heap d (VSlice b e) (opened d bl)) = Ok v' /\ vpart v b e = Some v'.
Proof.
  intros f heap d bl ps n ds b e v st Hf Hs L D (Fd & Fl & Ft & _) Bt Hp Hm Hef Hpl Hin T N Big B Short H.
  rewrite D in Fd. inversion Fd as [|? ? Hn Hds]; subst x l.
  assert (Et : total d = n * (volume ds * d_length d)) by (unfold total; rewrite L, D; cbn [volume]; ring).
  assert (Row : 0 < volume ds * d_length d) by (apply (Z.mul_pos_cancel_l n); [|rewrite <- Et; exact T]; destruct (Z.eq_dec n 0) as [->|]; lia).
  assert (N0 : 0 < n) by (destruct (Z.eq_dec n 0) as [->|]; lia).
  assert (El : total (longer d e) = e * (volume ds * d_length d)).
  { unfold total. cbn [longer d_layout d_dims]. rewrite L, D. cbn [tl volume]. change (d_length (longer d e)) with (d_length d). ring. }
  assert (Hle : n * (volume ds * d_length d) <= e * (volume ds * d_length d)) by (apply Z.mul_le_mono_nonneg_r; lia).
  assert (He : e <= e * (volume ds * d_length d)) by (rewrite <- (Z.mul_1_r e) at 1; apply Z.mul_le_mono_nonneg_l; lia).
  rewrite (C14_hdf5_past f heap d bl n ds b e L D Bt); [|destruct (d_fill d); [cbn in Hp; lia|discriminate]|exact Row|lia|exact Big|lia|exact Short].
  refine (proj2 (C44_slice_partial f heap (longer d e) bl ps e ds b e v st Hf Hs L _ _ Hp Hm Hef _ _ _ H) _ _ _); try lia.
  - cbn [longer d_dims]. rewrite D. reflexivity.
  - split; [|split; [exact Fl|split; [rewrite El; lia|]]].
    + cbn [longer d_dims]. rewrite D. constructor; [lia|exact Hds].
    + cbn [longer d_layout]. rewrite L. exact I.
  - apply placed_longer; assumption.
  - rewrite El. eapply Forall_impl; [|exact Hin]. cbn beta. rewrite Et. intros x (A & Bx & C). repeat split; [exact A|lia|exact C].
  - intros _. exact Bt.
Qed.

Example C14_hdf5_past_example :
  sliceable (longer dA 4) (HSlice (TSlice (TNum I16)) [i16s [1; 2]; i16s [3; 4]; i16s [5; 6]; i16s [0; 0]]) /\
  d_layout dA = [] /\ d_dims dA = [3; 2] /\ fits dA blA /\ placed fA dA 0 blA psA /\ inside (total dA) psA /\ 0 < total dA /\
  Forall (fun x => p_end x mod zlen (d_fill dA) = 0) psA /\
  fst (vstep fA no_heap (longer dA 4) VGet (opened (longer dA 4) blA)) =
    Ok (HSlice (TSlice (TNum I16)) [i16s [1; 2]; i16s [3; 4]; i16s [5; 6]; i16s [0; 0]]) /\
  fst (vstep fA no_heap dA (VSlice 2 4) (opened dA blA)) = Ok (HSlice (TSlice (TNum I16)) [i16s [5; 6]; i16s [0; 0]]) /\
  fst (vstep fA no_heap dA (VSlice 0 4) (opened dA blA)) =
    Ok (HSlice (TSlice (TNum I16)) [i16s [1; 2]; i16s [3; 4]; i16s [5; 6]; i16s [0; 0]]).
Proof.
  split; [left; apply (sized_fixed 2 true false I16); reflexivity|]. split; [reflexivity|]. split; [reflexivity|]. split; [exact fits_A|].
  split; [exact placed_A|]. split; [exact inside_A|]. split; [reflexivity|]. split; [repeat constructor|]. repeat split; vm_compute; reflexivity.
Qed.

(** ** Slices wholly outside *)

Lemma blocks_behind f d o bl ps first last_ : d_layout d = [] -> placed f d o bl ps -> 0 <= o -> Forall (fun x => p_end x <= first) ps -> first < 2 ^ 64 ->
  readBlocks f d first last_ bl o = Ok [].
Proof.
  intros L P. induction P as [o|o b bl data ps Hb Hp IH]; intros O F B; [reflexivity|]. rewrite L in F.
  inversion F as [|? ? F1 F2]; subst. unfold p_end in F1. cbn [fst snd] in F1. destruct Hb as (Ld & _).
  pose proof (zlen_nonneg data). cbn [readBlocks]. rewrite L. rewrite (u64_small (o + b_ds b)) by lia. replace (o + b_ds b <=? first) with true by lia.
  apply IH; [lia|exact F2|exact B].
Qed.

Lemma u64_below z : - 2 ^ 63 <= z < 0 -> u64 z = z + 2 ^ 64.
Proof.
  intros H. rewrite <- (u64_small (z + 2 ^ 64)) by lia. unfold u64. replace (z + 2 ^ 64) with (z + 1 * 2 ^ 64) by ring.
  rewrite Z_mod_plus_full. reflexivity.
Qed.

(** Slices that begin before a stored variable and end in it or behind it are errors. *)
Theorem C14_hdf5_before : forall f heap d bl ps n ds b e,
  d_layout d = [] -> d_dims d = n :: ds -> 0 < n -> 0 < volume ds * d_length d -> total d < 2 ^ 63 ->
  bl <> [] -> placed f d 0 bl ps -> inside (total d) ps ->
  b < 0 <= e -> - 2 ^ 63 < b * (volume ds * d_length d) -> (e - b) * (volume ds * d_length d) < 2 ^ 63 ->
  fst (vstep f heap d (VSlice b e) (opened d bl)) = Err ECorrupted.
Proof.
  intros f heap d bl ps n ds b e L D N Row T Hbl Hpl Hin B Lo Hi. set (row := volume ds * d_length d) in *.
  assert (Et : total d = n * row) by (unfold total, row; rewrite L, D; cbn [volume]; ring).
  assert (N0 : 0 < n * row) by (apply Z.mul_pos_pos; lia). assert (S1 : d_size d = n * row) by (apply size_rows; try assumption; fold row; lia).
  assert (Hb : b * row < 0) by (apply Z.mul_neg_pos; lia). assert (He : 0 <= e * row) by (apply Z.mul_nonneg_nonneg; lia).
  rewrite Z.mul_sub_distr_r in Hi.
  assert (F : u64 (u64 b * row) = b * row + 2 ^ 64) by (rewrite u64_mul_l; apply u64_below; lia).
  assert (G : u64 (u64 e * row) = e * row) by (rewrite u64_mul_l; apply u64_small; lia).
  assert (H : newRecordReader f d bl (Some (b, e)) = Err ECorrupted).
  { unfold newRecordReader. rewrite S1, D. cbn [needsLayoutReader]. rewrite L. cbn [needsLayoutReader negb andb].
    replace (n * row =? 0) with false by lia. replace (0 <? n) with true by lia. cbv iota. rewrite (Z.mul_comm n row), Z.div_mul by lia.
    rewrite F, G. destruct bl as [|b0 bl]; [contradiction|]. cbn [rbind].
    rewrite (blocks_behind f d 0 (b0 :: bl) ps); [|exact L|exact Hpl|lia| |lia].
    - cbn [rbind sortSegs fold_right joinSegs].
      assert (U : u64 (e * row - (b * row + 2 ^ 64)) = e * row - b * row).
      { replace (e * row - (b * row + 2 ^ 64)) with ((e * row - b * row) + (-1) * 2 ^ 64) by ring. unfold u64. rewrite Z_mod_plus_full. apply u64_small. lia. }
      rewrite U. replace (b * row + 2 ^ 64 <? e * row - b * row) with false by lia. replace (b * row + 2 ^ 64 <=? e * row) with false by lia. reflexivity.
    - eapply Forall_impl; [|exact Hin]. cbn beta. intros x (_ & A & _). lia. }
  cbn [vstep]. unfold getSlice. rewrite D. rewrite andb_false_r. replace (e <? b) with false by lia. unfold getData, opened. cbn [v_blocks v_slice v_ty].
  unfold dataBytes. rewrite H. reflexivity.
Qed.

(** Slices wholly before or wholly behind it are taken, and are those of a variable of which
    nothing is stored, as long as they have fewer rows than it. *)
Theorem C14_hdf5_outside_refuted : forall f heap d bl ps n ds b e,
  d_layout d = [] -> d_dims d = n :: ds -> d_btree d = 0 -> d_fill d <> [] -> 0 < volume ds * d_length d -> total d < 2 ^ 63 ->
  placed f d 0 bl ps -> inside (total d) ps ->
  b <= e -> e < 0 \/ n <= b -> e - b < n -> - 2 ^ 63 < b * (volume ds * d_length d) -> e * (volume ds * d_length d) < 2 ^ 63 ->
  fst (vstep f heap d (VSlice b e) (opened d bl)) = fst (vstep f heap d (VSlice 0 (e - b)) (opened d [])).
Proof.
  intros f heap d bl ps n ds b e L D Bt Fl Row T Hpl Hin B Out Short Lo Hi. set (row := volume ds * d_length d) in *.
  assert (Et : total d = n * row) by (unfold total, row; rewrite L, D; cbn [volume]; ring).
  assert (N : 0 < n) by lia.
  assert (N0 : 0 < n * row) by (apply Z.mul_pos_pos; lia). assert (S1 : d_size d = n * row) by (apply size_rows; try assumption; fold row; lia).
  assert (N1 : n <= n * row) by (rewrite <- (Z.mul_1_r n) at 1; apply Z.mul_le_mono_nonneg_l; lia).
  assert (Hm : 0 <= (e - b) * row < n * row) by (split; [apply Z.mul_nonneg_nonneg; lia|apply Z.mul_lt_mono_pos_r; lia]).
  assert (Es : (e - b) * row = e * row - b * row) by ring. set (m := (e - b) * row) in *.
  assert (F : exists first, u64 (u64 b * row) = first /\ u64 (u64 e * row) = first + m /\ n * row <= first /\ first + m < 2 ^ 64).
  { destruct Out as [Neg | Beh].
    - assert (e * row < 0) by (apply Z.mul_neg_pos; lia). exists (b * row + 2 ^ 64). rewrite !u64_mul_l, !u64_below by lia. repeat split; lia.
    - assert (n * row <= b * row) by (apply Z.mul_le_mono_nonneg_r; lia). exists (b * row). rewrite !u64_mul_l, !u64_small by lia. repeat split; lia. }
  destruct F as (first & F & G & Hf1 & Hf2).
  assert (H : exists out, newRecordReader f d bl (Some (b, e)) = Ok (out, m, bl) /\ (out = [] \/ out = fillBytes (d_fill d) m)).
  { unfold newRecordReader. rewrite S1, D, L, Bt. cbn [needsLayoutReader negb andb].
    replace (n * row =? 0) with false by lia. replace (0 <? n) with true by lia. cbv iota. rewrite (Z.mul_comm n row), Z.div_mul by lia.
    rewrite F, G. replace (first + m - first) with m by ring. rewrite (u64_small m), (i64_small m) by lia.
    destruct bl as [|b0 bl]; cbn [rbind]; [exists (fillBytes (d_fill d) m); split; [reflexivity|right; reflexivity]|].
    rewrite (blocks_behind f d 0 (b0 :: bl) ps); [|exact L|exact Hpl|lia| |lia].
    - cbn [rbind sortSegs fold_right joinSegs]. replace (first <? m) with false by lia. replace (first <=? first + m) with true by lia.
      exists []. split; [|left; reflexivity]. cbn [app]. unfold ztake. rewrite firstn_nil. reflexivity.
    - eapply Forall_impl; [|exact Hin]. cbn beta. intros x (_ & A & _). lia. }
  assert (H0 : newRecordReader f d [] (Some (0, e - b)) = Ok (fillBytes (d_fill d) m, m, [])).
  { unfold newRecordReader. rewrite S1, D, L, Bt. cbn [needsLayoutReader negb andb].
    replace (n * row =? 0) with false by lia. replace (0 <? n) with true by lia. cbv iota. rewrite (Z.mul_comm n row), Z.div_mul by lia.
    rewrite !u64_mul_l. cbn [Z.mul]. fold m. rewrite (u64_small 0), (u64_small m), Z.sub_0_r, (u64_small m), (i64_small m) by lia. reflexivity. }
  assert (P : forall out, out = [] \/ out = fillBytes (d_fill d) m ->
    ztake m (ztake (n * row) (out ++ fillBytes (d_fill d) (n * row - zlen out))) = fillBytes (d_fill d) m).
  { intros out Ho. rewrite pad_prefix by (assumption || lia). destruct Ho as [-> | ->].
    - cbn [app]. change (zlen (@nil Z)) with 0. rewrite Z.sub_0_r. apply ztake_all. rewrite zlen_fill by assumption. lia.
    - rewrite ztake_app_l by (rewrite zlen_fill by assumption; lia). apply ztake_all. rewrite zlen_fill by assumption. lia. }
  destruct H as (out & H & Ho).
  cbn [vstep]. unfold getSlice. rewrite D. rewrite !andb_false_r. replace (e <? b) with false by lia. replace (e - b <? 0) with false by lia.
  unfold getData, opened. cbn [v_blocks v_slice v_ty]. unfold dataBytes. rewrite H, H0, S1, D, L. cbn [rbind needsLayoutReader].
  replace (e <? b) with false by lia. replace (e - b <? 0) with false by lia. replace (n =? 0) with false by lia. rewrite Z.sub_0_r. cbn [rbind].
  rewrite (i64_small n), (i64_small (e - b)), (i64_small (n * row)) by lia. rewrite (Z.mul_comm n row), Z.quot_mul, (Z.mul_comm row n) by lia.
  rewrite (Z.mul_comm row (e - b)). fold m. rewrite (i64_small m) by lia. replace (m <? n * row) with true by lia.
  rewrite (P out Ho), (P _ (or_intror eq_refl)). cbn [sliceDims fst]. rewrite Z.sub_0_r. reflexivity.
Qed.

Example C14_hdf5_outside_example :
  fst (vstep fA no_heap dA (VSlice (-1) 1) (opened dA blA)) = Err ECorrupted /\
  fst (vstep fA no_heap dA (VSlice (-2) (-1)) (opened dA blA)) = Ok (HSlice (TSlice (TNum I16)) [i16s [0; 0]]) /\
  fst (vstep fA no_heap dA (VSlice 3 5) (opened dA blA)) = Ok (HSlice (TSlice (TNum I16)) [i16s [0; 0]; i16s [0; 0]]) /\
  (forall b e, -1000 <= b <= e -> e <= 1000 -> e < 0 \/ 3 <= b -> e - b < 3 ->
    fst (vstep fA no_heap dA (VSlice b e) (opened dA blA)) = fst (vstep fA no_heap dA (VSlice 0 (e - b)) (opened dA []))).
Proof.
  split; [vm_compute; reflexivity|]. split; [vm_compute; reflexivity|]. split; [vm_compute; reflexivity|]. intros b e B E O S.
  assert (R : volume [2] * d_length dA = 4) by reflexivity.
  apply (C14_hdf5_outside_refuted fA no_heap dA blA psA 3 [2] b e);
    [reflexivity|reflexivity|reflexivity|discriminate|rewrite R; lia|reflexivity|exact placed_A|exact inside_A|lia|lia|lia|rewrite R; lia|rewrite R; lia].
Qed.

(** ** Slices that are too long *)

Definition eats {A} (p : P A) (k : Z) : Prop := forall s,
  (k <= zlen s -> exists v, p s = Ok (v, zdrop k s)) /\ (zlen s < k -> p s = Err EEOF).

Lemma eats_num k big : eats (readNum k big) (ksize k).
Proof.
  intros s. unfold readNum, pbind, rd, pret. split; intros H.
  - replace (ksize k <=? zlen s) with true by lia. cbn [rbind]. eexists. reflexivity.
  - replace (ksize k <=? zlen s) with false by lia. reflexivity.
Qed.
Lemma eats_repeat {A} (p : P A) k : 0 <= k -> eats p k -> forall n, eats (repeatP p n) (Z.of_nat n * k).
Proof.
  intros K Hp. induction n as [|n IH]; intros s.
  - rewrite Z.mul_0_l. split; intros H; [|pose proof (zlen_nonneg s); lia]. exists []. rewrite zdrop_0 by lia. reflexivity.
  - rewrite repeatP_S. replace (Z.of_nat (S n) * k) with (k + Z.of_nat n * k) by lia.
    assert (0 <= Z.of_nat n * k) by (apply Z.mul_nonneg_nonneg; lia). destruct (Hp s) as [Y N]. split; intros H1.
    + destruct (Y ltac:(lia)) as (v & E). rewrite E. cbn [rbind]. destruct (IH (zdrop k s)) as [Y2 _].
      destruct Y2 as (w & E2); [rewrite zlen_zdrop; lia|]. rewrite E2. cbn [rbind]. exists (v :: w).
      rewrite zdrop_zdrop by lia. reflexivity.
    + destruct (Z.lt_ge_cases (zlen s) k) as [Q|Q]; [rewrite (N Q); reflexivity|].
      destruct (Y Q) as (v & E). rewrite E. cbn [rbind]. destruct (IH (zdrop k s)) as [_ N2]. rewrite N2; [reflexivity|]. rewrite zlen_zdrop. lia.
Qed.
Lemma eats_dims t p k : 0 <= k -> eats p k -> forall dims, Forall (fun n => 0 <= n) dims -> eats (allocDims t p dims) (volume dims * k).
Proof.
  intros K Hp. induction dims as [|n ds IH]; intros F.
  - cbn [allocDims volume]. rewrite Z.mul_1_l. exact Hp.
  - inversion F as [|? ? F1 F2]; subst. intros s. cbn [allocDims volume]. unfold pbind, pret.
    assert (V : 0 <= volume ds * k) by (apply Z.mul_nonneg_nonneg; [apply volume_nonneg; exact F2|exact K]).
    pose proof (eats_repeat (allocDims t p ds) (volume ds * k) V (IH F2) (Z.to_nat n) s) as [Y N].
    rewrite Z2Nat.id in Y, N by lia. replace (n * volume ds * k) with (n * (volume ds * k)) by ring. split; intros H.
    + destruct (Y H) as (v & E). rewrite E. cbn [rbind]. eexists. reflexivity.
    + rewrite (N H). reflexivity.
Qed.

Definition numeric (t : dty) : Prop :=
  match t with DFixed len sg _ => int_kind len sg <> None | DFloat len _ => len = 4 \/ len = 8 | _ => False end.
Lemma numeric_eats heap t dims : numeric t -> Forall (fun n => 0 <= n) dims -> eats (alloc heap t dims) (volume dims * dlen t).
Proof.
  intros H F. destruct t; try contradiction; cbn [numeric] in H; cbn [alloc dlen].
  - destruct (int_kind len sg) as [k|] eqn:E; [|contradiction].
    replace len with (ksize k); [apply eats_dims; [destruct k; cbn; lia|apply eats_num|exact F]|].
    unfold int_kind in E. repeat match type of E with (if ?c then _ else _) = _ => destruct c eqn:?; [injection E as <-; destruct sg; cbn; lia|] end. discriminate.
  - destruct H as [-> | ->]; cbn [Z.eqb Pos.eqb].
    + refine (eats_dims (TNum F32) _ 4 _ (eats_num F32 _) _ F). lia.
    + refine (eats_dims (TNum F64) _ 8 _ (eats_num F64 _) _ F). lia.
Qed.

Lemma blocks_within f d o bl ps first t last_ : d_layout d = [] -> placed f d o bl ps -> 0 <= o -> Forall (fun x => p_end x <= t) ps -> t <= last_ ->
  last_ < 2 ^ 64 -> readBlocks f d first last_ bl o = readBlocks f d first t bl o.
Proof.
  intros L P. induction P as [o|o b bl data ps Hb Hp IH]; intros O F T B; [reflexivity|]. rewrite L in F.
  inversion F as [|? ? F1 F2]; subst. unfold p_end in F1. cbn [fst snd] in F1. destruct Hb as (Ld & Ne & _).
  pose proof (nonempty_len _ Ne). cbn [readBlocks]. rewrite L. rewrite (u64_small (o + b_ds b)) by lia.
  rewrite (IH ltac:(lia) F2 T B). replace (last_ <=? o) with false by lia. replace (t <=? o) with false by lia.
  unfold readBlock. rewrite (u64_small (o + b_ds b)) by lia. replace (last_ <? o + b_ds b) with false by lia. replace (t <? o + b_ds b) with false by lia. reflexivity.
Qed.

(** Slices of numbers that do not begin with the first row and have at least as many rows as
    the variable are errors. *)
Theorem C14_hdf5_wide : forall f heap d bl ps n ds b e,
  zlen f < 2 ^ 63 -> d_layout d = [] -> d_dims d = n :: ds -> d_fill d <> [] -> numeric (d_ty d) -> 0 < n -> Forall (fun x => 0 <= x) ds ->
  0 < volume ds * d_length d -> total d < 2 ^ 63 -> bl <> [] -> placed f d 0 bl ps -> inside (total d) ps ->
  n <= e - b -> 0 < b \/ e < 0 -> - 2 ^ 63 < b * (volume ds * d_length d) -> e * (volume ds * d_length d) < 2 ^ 63 ->
  fst (vstep f heap d (VSlice b e) (opened d bl)) = Err EEOF.
Proof.
  intros f heap d bl ps n ds b e Hf L D Fl Num N Hds Row T Hbl Hpl Hin Wide Out Lo Hi. set (row := volume ds * d_length d) in *.
  assert (Et : total d = n * row) by (unfold total, row; rewrite L, D; cbn [volume]; ring).
  assert (N0 : 0 < n * row) by (apply Z.mul_pos_pos; lia). assert (S1 : d_size d = n * row) by (apply size_rows; try assumption; fold row; lia).
  assert (N1 : n <= n * row) by (rewrite <- (Z.mul_1_r n) at 1; apply Z.mul_le_mono_nonneg_l; lia).
  assert (Hm : n * row <= (e - b) * row) by (apply Z.mul_le_mono_nonneg_r; lia).
  assert (Hm1 : e - b <= (e - b) * row) by (rewrite <- (Z.mul_1_r (e - b)) at 1; apply Z.mul_le_mono_nonneg_l; lia).
  assert (Es : (e - b) * row = e * row - b * row) by ring. set (m := (e - b) * row) in *.
  assert (Mm : m < 2 ^ 63).
  { destruct Out as [O | O]; [assert (0 < b * row) by (apply Z.mul_pos_pos; lia)|assert (e * row < 0) by (apply Z.mul_neg_pos; lia)]; lia. }
  assert (F : exists first, u64 (u64 b * row) = first /\ u64 (u64 e * row) = first + m /\ 0 < first /\ first + m < 2 ^ 64 /\
    (first <= n * row -> first + m < 2 ^ 63) /\ n * row <= first + m).
  { destruct Out as [Pos | Neg].
    - assert (0 < b * row) by (apply Z.mul_pos_pos; lia). exists (b * row). rewrite !u64_mul_l, !u64_small by lia. repeat split; lia.
    - assert (e * row < 0) by (apply Z.mul_neg_pos; lia). exists (b * row + 2 ^ 64). rewrite !u64_mul_l, !u64_below by lia. repeat split; lia. }
  destruct F as (first & F & G & Hf1 & Hf2 & Hf3 & Hf4).
  assert (P : Forall (fun x => p_end x <= n * row) ps) by (eapply Forall_impl; [|exact Hin]; cbn beta; intros x (_ & A & _); lia).
  assert (H : exists segs data off, readBlocks f d first (first + m) bl 0 = Ok segs /\ joinSegs (d_fill d) (sortSegs segs) first = (data, off) /\
    first <= off <= Z.max first (n * row) /\ zlen data = off - first).
  { destruct (Z.le_gt_cases first (n * row)) as [In | Be].
    - rewrite (blocks_within f d 0 bl ps first (n * row) (first + m)); [|exact L|exact Hpl|lia|exact P|lia|lia].
      destruct (placed_contiguous f d L bl 0 ps Hpl) as (As & Ap & _).
      destruct (range_ok f d first (n * row) bl ps Hf ltac:(lia) ltac:(lia) Fl Hpl (fun C => False_ind _ (C L)) Ap (inside_range _ _ T Hin) (or_introl As))
        as (segs & data & off & E & Ej & Bo & Ln & _).
      exists segs, data, off. repeat split; try assumption; lia.
    - exists [], [], first. rewrite (blocks_behind f d 0 bl ps); [|exact L|exact Hpl|lia| |lia].
      + repeat split; try lia. change (zlen (@nil Z)) with 0. lia.
      + eapply Forall_impl; [|exact P]. cbn beta. intros x A. lia. }
  destruct H as (segs & data & off & E & Ej & Bo & Ln).
  assert (Pm : 0 < m) by lia.
  assert (H : exists out, newRecordReader f d bl (Some (b, e)) = Ok (out, m, bl) /\ zlen out < m).
  { unfold newRecordReader. rewrite S1, D, L. cbn [needsLayoutReader negb andb].
    replace (n * row =? 0) with false by lia. replace (0 <? n) with true by lia. cbv iota. rewrite (Z.mul_comm n row), Z.div_mul by lia.
    rewrite F, G. replace (first + m - first) with m by ring. rewrite (u64_small m), (i64_small m) by lia.
    destruct bl as [|b0 bl]; [contradiction|]. cbn [rbind]. rewrite E. cbn [rbind]. rewrite Ej.
    replace ((if off <? m then m else off) <=? first + m) with true by (destruct (Z.ltb_spec off m); lia).
    eexists. split; [reflexivity|]. rewrite zlen_ztake_min, zlen_app. destruct (Z.ltb_spec off m).
    - rewrite zlen_fill by assumption. rewrite i64_small by lia. lia.
    - change (zlen (@nil Z)) with 0. destruct (Z.le_gt_cases first (n * row)); lia. }
  destruct H as (out & H & Lo').
  cbn [vstep]. unfold getSlice. rewrite D. rewrite andb_false_r. replace (e <? b) with false by lia.
  unfold getData, opened. cbn [v_blocks v_slice v_ty]. unfold dataBytes. rewrite H, S1, D, L. cbn [rbind needsLayoutReader].
  replace (e <? b) with false by lia. replace (n =? 0) with false by lia. cbn [rbind].
  rewrite (i64_small n), (i64_small (e - b)), (i64_small (n * row)) by lia. rewrite (Z.mul_comm n row), Z.quot_mul, (Z.mul_comm row n) by lia.
  rewrite (Z.mul_comm row (e - b)). fold m. rewrite (i64_small m) by lia. replace (m <? n * row) with false by lia.
  rewrite ztake_all by lia. cbn [sliceDims fst]. rewrite (u64_small (e - b)) by lia.
  pose proof (numeric_eats heap (d_ty d) ((e - b) :: ds) Num ltac:(constructor; [lia|exact Hds]) out) as [_ Q].
  rewrite Q; [reflexivity|]. cbn [volume]. change (dlen (d_ty d)) with (d_length d). rewrite <- Z.mul_assoc. fold row. fold m. exact Lo'.
Qed.

Example C14_hdf5_wide_example :
  fst (vstep fA no_heap dA (VSlice 1 5) (opened dA blA)) = Err EEOF /\
  (forall b e, -1000 <= b -> e <= 1000 -> 3 <= e - b -> 0 < b \/ e < 0 -> fst (vstep fA no_heap dA (VSlice b e) (opened dA blA)) = Err EEOF).
Proof.
  split; [vm_compute; reflexivity|]. intros b e B E W O. assert (R : volume [2] * d_length dA = 4) by reflexivity.
  apply (C14_hdf5_wide fA no_heap dA blA psA 3 [2] b e);
    [reflexivity|reflexivity|reflexivity|discriminate|discriminate|lia|repeat constructor; lia|rewrite R; lia|reflexivity|discriminate|exact placed_A|exact inside_A|lia|lia
    |rewrite R; lia|rewrite R; lia].
Qed.

(** ** Boxes *)

(** Bounds that leave a shape in some dimension, and are not empty in those before it *)
Inductive leaving : list Z -> list Z -> list Z -> Prop :=
| leaving_here n ds b br e er : b < 0 \/ n < e -> leaving (n :: ds) (b :: br) (e :: er)
| leaving_later n ds b br e er : 0 <= b < e -> e <= n -> leaving ds br er -> leaving (n :: ds) (b :: br) (e :: er).

Lemma leaving_panics ds bs_ es : leaving ds bs_ es -> forall v, shaped ds v -> sliceRecursive (List.length ds) v bs_ es = Panic.
Proof.
  induction 1 as [n ds b br e er O|n ds b br e er B E L IH]; intros v Sh; inversion Sh as [|? ? t l Ln F]; subst; cbn [List.length sliceRecursive]; unfold vslice.
  - replace ((0 <=? b) && (b <=? e) && (e <=? zlen l)) with false by lia. reflexivity.
  - replace ((0 <=? b) && (b <=? e) && (e <=? zlen l)) with true by lia. cbn [rbind].
    assert (P : Forall (shaped ds) (ztake (e - b) (zdrop b l))).
    { rewrite <- (ztake_zdrop b l) in F. apply Forall_app in F. destruct F as [_ F].
      rewrite <- (ztake_zdrop (e - b) (zdrop b l)) in F. apply Forall_app in F. exact (proj1 F). }
    assert (Lp : zlen (ztake (e - b) (zdrop b l)) = e - b) by (rewrite zlen_ztake_min, zlen_zdrop; lia).
    destruct (ztake (e - b) (zdrop b l)) as [|x r]; [change (zlen (@nil hval)) with 0 in Lp; lia|]. inversion P as [|? ? Px Pr]; subst.
    destruct ds as [|m ds]; [inversion L|]. cbn [List.length rmapM]. cbn [List.length] in IH. rewrite (IH x Px). reflexivity.
Qed.

(** In every variable, boxes whose other bounds leave it crash. *)
Theorem C14_hdf5_inner_refuted : forall f heap d bl n ds b br e er v,
  d_dims d = n :: ds -> Forall (fun x => 0 <= x) ds -> sized (d_ty d) -> no_enum (d_ty d) ->
  List.length br = List.length ds -> List.length er = List.length ds -> ordered br er = true -> b < e -> e - b < 2 ^ 63 ->
  fst (vstep f heap d (VSlice b e) (opened d bl)) = Ok v -> leaving ds br er ->
  fst (vstep f heap d (VSliceMD (b :: br) (e :: er)) (opened d bl)) = Panic.
Proof.
  intros f heap d bl n ds b br e er v D P Hs Ne Lb Le Or B Sm H L. cbn [vstep] in *. unfold getSliceMD. rewrite D. cbn [List.length].
  rewrite Lb, Le, Nat.eqb_refl. cbn [negb orb ordered]. rewrite Or. replace (b <=? e) with true by lia. cbn [andb negb].
  assert (Sh : shaped (e - b :: ds) v).
  { unfold getSlice in H. rewrite D in H. rewrite andb_false_r in H. replace (e <? b) with false in H by lia. unfold getData, opened in H.
    cbn [v_blocks v_slice v_ty] in H. destruct (dataBytes f d bl (Some (b, e))) as [[data bl']| |]; try discriminate. cbn [fst] in H.
    rewrite D in H. cbn [sliceDims] in H. rewrite u64_small in H by lia.
    destruct (alloc heap (d_ty d) (e - b :: ds) data) as [[w r]| |] eqn:Ea; cbn [rbind] in H; try discriminate.
    assert (w = v) by congruence. subst w. apply (sized_shaped heap (d_ty d) Hs Ne _ data v r); [constructor; [lia|exact P]|exact Ea]. }
  destruct (getSlice f heap d b e (opened d bl)) as [r st]. cbn [fst] in *. rewrite H. cbn [rbind]. rewrite i64_small by lia.
  change (S (List.length ds)) with (List.length (e - b :: ds)). apply leaving_panics; [|exact Sh]. apply leaving_later; [lia|lia|exact L].
Qed.

Example C14_hdf5_inner_example :
  leaving [2] [1] [3] /\ fst (vstep fA no_heap dA (VSliceMD [0; 1] [2; 3]) (opened dA blA)) = Panic /\
  fst (vstep fA no_heap dA (VSlice 0 2) (opened dA blA)) = Ok (HSlice (TSlice (TNum I16)) [i16s [1; 2]; i16s [3; 4]]) /\
  sized (d_ty dA) /\ no_enum (d_ty dA).
Proof.
  split; [apply leaving_here; lia|]. split; [vm_compute; reflexivity|]. split; [vm_compute; reflexivity|].
  split; [apply (sized_fixed 2 true false I16); reflexivity|exact I].
Qed.

Print Assumptions C14_hdf5_inner_refuted.
Print Assumptions C14_hdf5_wide.
Print Assumptions C14_hdf5_before.
Print Assumptions C14_hdf5_outside_refuted.
Print Assumptions C14_hdf5_past.
Print Assumptions C14_hdf5_past_refuted.
