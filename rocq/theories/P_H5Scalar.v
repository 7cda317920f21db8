(** C88: slices of HDF5 variables without dimensions. *)
From Coq Require Import Lia ZifyBool ZifyNat.
From Verif Require Import Prelude BaseLemmas GoVal ArraySpec H5Base H5LayoutModel H5Value H5TypeRead H5RecordModel P_H5Record P_H5Past.

(** A number is read from its bytes, whatever follows them. *)
Lemma numeric_first heap t : numeric t -> exists dec : bytes -> hval, 0 < dlen t < 2 ^ 32 /\
  forall s, alloc heap t [] s = if dlen t <=? zlen s then Ok (dec (ztake (dlen t) s), zdrop (dlen t) s) else Err EEOF.
Proof.
  assert (R : forall k big, exists dec : bytes -> hval, forall s, allocDims (TNum k) (readNum k big) [] s =
    if ksize k <=? zlen s then Ok (dec (ztake (ksize k) s), zdrop (ksize k) s) else Err EEOF).
  { intros k big. exists (fun x => HNum k (if big then dec_be k x else dec_le k x)). intros s. cbn [allocDims]. unfold readNum, pbind, rd, pret. destruct (ksize k <=? zlen s); reflexivity. }
  intros H. destruct t; try contradiction; cbn [numeric] in H; cbn [alloc dlen].
  - destruct (int_kind len sg) as [k|] eqn:E; [|contradiction].
    assert (EK : len = ksize k).
    { unfold int_kind in E. repeat match type of E with (if ?c then _ else _) = _ => destruct c eqn:?; [injection E as <-; destruct sg; cbn; lia|] end. discriminate. }
    rewrite EK. destruct (R k big) as (dec & D). exists dec. split; [destruct k; cbn; lia|exact D].
  - destruct H as [-> | ->]; cbn [Z.eqb Pos.eqb].
    + destruct (R F32 big) as (dec & D). exists dec. split; [lia|exact D].
    + destruct (R F64 big) as (dec & D). exists dec. split; [lia|exact D].
Qed.

(** What a slice reads is a prefix of what there is, of as many bytes as it has rows. *)
Lemma scalar_bytes f d bl b e : d_dims d = [] -> d_layout d = [] -> 0 < d_length d < 2 ^ 32 -> b <= e -> e - b < 2 ^ 63 ->
  match dataBytes f d bl None with
  | Ok (data, bl') => exists all, data = ztake (d_length d) all /\ dataBytes f d bl (Some (b, e)) = Ok (ztake (e - b) all, bl')
  | Err x => dataBytes f d bl (Some (b, e)) = Err x
  | Panic => dataBytes f d bl (Some (b, e)) = Panic
  end.
Proof.
  intros D L K B E.
  assert (N : newRecordReader f d bl (Some (b, e)) = newRecordReader f d bl None) by (unfold newRecordReader; rewrite D; reflexivity).
  assert (S : i64 (d_size d) = d_length d).
  { unfold d_size. rewrite D, L. change (H5LayoutModel.calcAttrSize [] [] (d_length d)) with (u64 (1 * d_length d)). rewrite Z.mul_1_l, u64_small, i64_small by lia. reflexivity. }
  unfold dataBytes. rewrite N, S, D, L. cbn [needsLayoutReader]. replace (e <? b) with false by lia.
  destruct (newRecordReader f d bl None) as [[[data rem] bl']|x|]; cbn [rbind]; try reflexivity.
  rewrite Z.mul_1_l, !(i64_small (e - b)) by lia. eexists. split; reflexivity.
Qed.

(** A variable without dimensions has one row, which is its value. *)
Theorem C88_value : forall f heap d st, d_dims d = [] ->
  varLen d = 1 /\ vstep f heap d VValues st = vstep f heap d VGet st /\ vstep f heap d (VSlice 0 1) st = vstep f heap d VGet st.
Proof.
  intros f heap d st D. cbn [vstep]. unfold varLen, getSlice. rewrite D. cbn [Z.eqb Pos.eqb andb]. split; [reflexivity|]. split; reflexivity.
Qed.

(** All slices of a number *)
Lemma scalar_slice f heap d bl b e v st : d_dims d = [] -> d_layout d = [] -> numeric (d_ty d) -> vstep f heap d VGet (opened d bl) = (Ok v, st) ->
  b <= e -> e - b < 2 ^ 63 -> ~ (b = 0 /\ e = 1) ->
  fst (vstep f heap d (VSlice b e) (opened d bl)) = (if d_length d <=? e - b then Ok v else Err EEOF) /\
  fst (vstep f heap d VGet (vrun f heap d [VSlice b e] (opened d bl))) = (if d_length d <=? e - b then Ok v else Err EEOF).
Proof.
  intros D L N G B E X. destruct (numeric_first heap (d_ty d) N) as (dec & K & A). change (dlen (d_ty d)) with (d_length d) in *.
  pose proof (scalar_bytes f d bl b e D L K B E) as S. cbn [vrun vstep] in *. unfold getSlice. rewrite D.
  replace ((b =? 0) && (e =? 1) && true) with false by lia. replace (e <? b) with false by lia.
  unfold getData, opened in *. cbn [v_slice v_blocks v_ty] in *.
  destruct (dataBytes f d bl None) as [[data bl']|x|]; [|discriminate|discriminate]. destruct S as (all & -> & S). rewrite S. cbn [fst snd v_slice v_blocks v_ty].
  assert (GR : grow (d_ty d) (sliceDims (d_dims d) (Some (b, e))) = d_ty d) by (destruct (d_ty d); try contradiction; reflexivity).
  rewrite GR, S. cbn [fst]. rewrite D in *. cbn [sliceDims] in *. rewrite A in *.
  assert (V : d_length d <= zlen all /\ v = dec (ztake (d_length d) all)).
  { rewrite zlen_ztake_min in G. pose proof (zlen_nonneg all). destruct (Z.leb_spec (d_length d) (Z.min (Z.max (d_length d) 0) (zlen all))) as [Q|Q]; cbn [rbind] in G.
    - split; [lia|]. rewrite ztake_ztake in G. replace (Z.min (d_length d) (d_length d)) with (d_length d) in G by lia. apply (f_equal fst) in G. cbn [fst] in G.
      assert (H' : forall x y : hval, Ok x = Ok y -> y = x) by (intros x y H'; congruence). exact (H' _ _ G).
    - discriminate. }
  destruct V as [V1 V2]. rewrite zlen_ztake_min. 
  destruct (Z.leb_spec (d_length d) (e - b)).
  - replace (d_length d <=? Z.min (Z.max (e - b) 0) (zlen all)) with true by lia. cbn [rbind]. rewrite ztake_ztake.
    replace (Z.min (d_length d) (e - b)) with (d_length d) by lia. rewrite V2. split; reflexivity.
  - replace (d_length d <=? Z.min (Z.max (e - b) 0) (zlen all)) with false by lia. split; reflexivity.
Qed.

(** Slices of fewer rows than a number has bytes are errors. *)
Theorem C88_short : forall f heap d bl b e v st, d_dims d = [] -> d_layout d = [] -> numeric (d_ty d) -> vstep f heap d VGet (opened d bl) = (Ok v, st) ->
  b <= e -> ~ (b = 0 /\ e = 1) -> e - b < d_length d -> fst (vstep f heap d (VSlice b e) (opened d bl)) = Err EEOF.
Proof.
  intros f heap d bl b e v st D L N G B X S. destruct (numeric_first heap (d_ty d) N) as (dec & K & _). change (dlen (d_ty d)) with (d_length d) in K.
  destruct (scalar_slice f heap d bl b e v st D L N G B ltac:(lia) X) as [Q _]. rewrite Q. replace (d_length d <=? e - b) with false by lia. reflexivity.
Qed.

(** Slices of as many rows as that or more are taken, wherever they are. *)
Theorem C88_refuted : forall f heap d bl b e v st, d_dims d = [] -> d_layout d = [] -> numeric (d_ty d) -> vstep f heap d VGet (opened d bl) = (Ok v, st) ->
  d_length d <= e - b < 2 ^ 63 -> fst (vstep f heap d (VSlice b e) (opened d bl)) = Ok v.
Proof.
  intros f heap d bl b e v st D L N G B. destruct (numeric_first heap (d_ty d) N) as (dec & K & _). change (dlen (d_ty d)) with (d_length d) in K.
  assert (b = 0 /\ e = 1 \/ ~ (b = 0 /\ e = 1)) as [[-> ->] | X] by lia.
  - rewrite (proj2 (proj2 (C88_value f heap d _ D))), G. reflexivity.
  - destruct (scalar_slice f heap d bl b e v st D L N G ltac:(lia) ltac:(lia) X) as [Q _]. rewrite Q. replace (d_length d <=? e - b) with true by lia. reflexivity.
Qed.

(** After one that is an error, so is GetVariable. *)
Theorem C88_history_refuted : forall f heap d bl b e v st, d_dims d = [] -> d_layout d = [] -> numeric (d_ty d) ->
  vstep f heap d VGet (opened d bl) = (Ok v, st) -> b <= e -> ~ (b = 0 /\ e = 1) -> e - b < d_length d ->
  fst (vstep f heap d VGet (vrun f heap d [VSlice b e] (opened d bl))) = Err EEOF.
Proof.
  intros f heap d bl b e v st D L N G B X S. destruct (numeric_first heap (d_ty d) N) as (dec & K & _). change (dlen (d_ty d)) with (d_length d) in K.
  destruct (scalar_slice f heap d bl b e v st D L N G B ltac:(lia) X) as [_ Q]. rewrite Q. replace (d_length d <=? e - b) with false by lia. reflexivity.
Qed.

(** The only box that has the right number of bounds crashes. *)
Theorem C88_box_refuted : forall f heap d st bs_ es, d_dims d = [] ->
  fst (vstep f heap d (VSliceMD bs_ es) st) = match bs_, es with [], [] => Panic | _, _ => Err EDimensionality end.
Proof.
  intros f heap d st bs_ es D. cbn [vstep]. unfold getSliceMD. rewrite D. cbn [List.length].
  destruct bs_, es; reflexivity.
Qed.

(** The number 2 *)
Definition dScalar : dset := mkDset [] [] (DFixed 2 true false) 0 0 0 0 [0; 0] plain true.
Definition blScalar : list block := [mkBlock 6 2 2 0 [] None].
Example C88_example :
  numeric (d_ty dScalar) /\ fst (vstep fA no_heap dScalar VGet (opened dScalar blScalar)) = Ok (HNum I16 2) /\
  fst (vstep fA no_heap dScalar VValues (opened dScalar blScalar)) = Ok (HNum I16 2) /\
  fst (vstep fA no_heap dScalar (VSlice 0 1) (opened dScalar blScalar)) = Ok (HNum I16 2) /\
  fst (vstep fA no_heap dScalar (VSlice 1 2) (opened dScalar blScalar)) = Err EEOF /\
  fst (vstep fA no_heap dScalar (VSlice 7 9) (opened dScalar blScalar)) = Ok (HNum I16 2) /\
  fst (vstep fA no_heap dScalar VGet (vrun fA no_heap dScalar [VSlice 0 0] (opened dScalar blScalar))) = Err EEOF.
Proof. split; [discriminate|]. vm_compute. repeat split. Qed.

Print Assumptions C88_value.
Print Assumptions C88_short.
Print Assumptions C88_refuted.
Print Assumptions C88_history_refuted.
Print Assumptions C88_box_refuted.
