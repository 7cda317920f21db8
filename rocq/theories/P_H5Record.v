(** C41-C45, C63-C65 and the HDF5 part of C14: reading the data of HDF5 variables. *)
From Coq Require Import ZifyBool ZifyNat.
From Verif Require Import Prelude BaseLemmas GoVal ArraySpec ChunkSpec H5LayoutModel H5Value H5TypeRead H5RecordModel MetaSpec H5MetaProofs
  H5ChunkProofs RecordSpec H5RecordProofs H5IndexProofs H5SliceProofs H5RunProofs H5ChunkedProofs H5CallProofs.

(** ** C41 *)

Lemma stream_spec pat ps size : 0 <= size -> apart ps -> inside size ps -> data_plus_fill pat ps size (stream pat ps 0 size).
Proof.
  intros Hs Ha Hi. split.
  - rewrite zlen_stream. lia.
  - intros p Hp.
    assert (E : nth (Z.to_nat p) (stream pat ps 0 size) 0 = byte_at pat ps 0 p).
    { unfold stream. rewrite (nth_indep _ 0 (byte_at pat ps 0 (0 + Z.of_nat 0))) by (rewrite map_length, seq_length; lia).
      rewrite (map_nth (fun i => byte_at pat ps 0 (0 + Z.of_nat i))). rewrite seq_nth by lia. f_equal. lia. }
    rewrite E. split.
    + intros x I C. apply byte_covered; [exact Ha|exact I|]. unfold covers. lia.
    + intros N. assert (P0 : Forall (fun x => 0 <= p_end x) ps).
      { eapply Forall_impl; [|exact Hi]. cbn beta. intros x (A & _). unfold p_end. pose proof (zlen_nonneg (snd x)). lia. }
      assert (H : 0 <= hole_start ps 0 p <= p /\ Forall (fun x => p_end x <= p -> p_end x <= hole_start ps 0 p) ps).
      { clear E N Ha Hi. induction ps as [|y r IH]; cbn [hole_start fold_right]; [split; [lia|constructor]|].
        fold (hole_start r 0 p). inversion P0 as [|? ? Py Pr]; subst. destruct (IH Pr) as [B F].
        destruct (Z.leb_spec (p_end y) p).
        - split; [lia|]. constructor; [lia|]. eapply Forall_impl; [|exact F]. cbn beta. intros x Hx Q. specialize (Hx Q). lia.
        - split; [lia|]. constructor; [lia|exact F]. }
      destruct H as [B F]. exists (hole_start ps 0 p). split; [apply hole_start_is|]. split; [lia|]. split.
      * intros x I Q. rewrite Forall_forall in F. specialize (F x I). lia.
      * apply byte_hole; [|apply hole_start_is|lia|exact F]. apply Forall_forall. intros x I. specialize (N x I). unfold covers. lia.
Qed.

(** C41.  [ps] are the blocks with their positions ([placed]): filters undone, chunks where
    their index says, in any order, and the blocks of other data one after the other. *)
Theorem C41_data_plus_fill : forall f d bl ps,
  zlen f < 2 ^ 63 -> fits d bl -> d_fill d <> [] -> placed f d 0 bl ps -> apart ps -> inside (total d) ps ->
  (bl = [] -> d_btree d = 0) ->
  exists out, newRecordReader f d bl None = Ok (out, total d, bl) /\ data_plus_fill (d_fill d) ps (total d) out.
Proof.
  intros f d bl ps Hf Hfit Hp Hpl Ha Hi Hb. exists (stream (d_fill d) ps 0 (total d)).
  split; [apply whole_stream; assumption|]. apply stream_spec; try assumption. exact (proj2 (size_total _ _ Hfit)).
Qed.

(** The blocks of chunked data come from an index in the file. *)
Theorem C41_from_index : forall f d t ps,
  zlen f < 2 ^ 63 -> fits d [] -> indexed_whole f d t -> placed f d 0 (map (index_block d) (ichunks t)) ps -> d_fill d <> [] ->
  exists out bl, newRecordReader f d [] None = Ok (out, total d, bl) /\ data_plus_fill (d_fill d) ps (total d) out.
Proof.
  intros f d t ps Hf Hfit Hix Hpl Hp.
  destruct (wh_reader f d t Hf Hfit Hix ps Hpl None (or_introl eq_refl) Hp) as (bl & E & _).
  exists (stream (d_fill d) ps 0 (total d)), bl. split; [exact E|]. apply stream_spec.
  - exact (proj2 (size_total _ _ Hfit)).
  - exact (wh_apart f d t Hfit Hix ps Hpl).
  - exact (wh_inside f d t Hfit Hix ps Hpl).
Qed.

(** *** Files for the examples *)

Definition plain : block -> bytes -> res bytes := fun _ x => Ok x.
Definition no_heap : Z -> Z -> res (option bytes) := fun _ _ => Ok None.

(** 3 by 2 numbers of 16 bits, contiguous *)
Definition fA : bytes := [0; 0; 0; 0; 1; 0; 2; 0; 3; 0; 4; 0; 5; 0; 6; 0; 9].
Definition dA : dset := mkDset [3; 2] [] (DFixed 2 true false) 0 0 0 0 [0; 0] plain true.
Definition blA : list block := [mkBlock 4 12 12 0 [] None].
Definition psA : list piece := [(0, [1; 0; 2; 0; 3; 0; 4; 0; 5; 0; 6; 0])].

(** 2 by 4 numbers of 8 bits in chunks of 1 by 2, two of which are stored *)
Definition tB : itree := ILeaf [(mkKey 2 0 [1; 2], 6); (mkKey 2 0 [0; 0], 4)] (mkKey 0 0 [2; 0]).
Definition fB : bytes := [0; 0; 0; 0; 11; 12; 13; 14] ++
  node_bytes 0 (2 ^ 64 - 1) (2 ^ 64 - 1) [(mkKey 2 0 [1; 2], 6); (mkKey 2 0 [0; 0], 4)] (mkKey 0 0 [2; 0]).
Definition dB : dset := mkDset [2; 4] [1; 2] (DFixed 1 true false) 8 1 2 3 [7] plain true.
Definition psB : list piece := [(6, [13; 14]); (0, [11; 12])].

(** 3 numbers of 8 bits in chunks of 2 *)
Definition tC : itree := ILeaf [(mkKey 2 0 [0], 4); (mkKey 2 0 [2], 6)] (mkKey 0 0 [4]).
Definition fC : bytes := [0; 0; 0; 0; 1; 2; 3; 99] ++
  node_bytes 0 (2 ^ 64 - 1) (2 ^ 64 - 1) [(mkKey 2 0 [0], 4); (mkKey 2 0 [2], 6)] (mkKey 0 0 [4]).
Definition dC : dset := mkDset [3] [2] (DFixed 1 true false) 8 1 2 2 [7] plain true.
Definition psC : list piece := [(0, [1; 2]); (2, [3; 99])].

Ltac at_ pre post := exists pre, post; split; vm_compute; reflexivity.

Lemma fits_A : fits dA blA.
Proof.
  split; [repeat constructor; (discriminate || reflexivity)|]. split; [reflexivity|]. split; [vm_compute; reflexivity|]. exact I.
Qed.
Lemma placed_A : placed fA dA 0 blA psA.
Proof.
  constructor; [|constructor]. split; [reflexivity|]. split; [discriminate|].
  exists [1; 0; 2; 0; 3; 0; 4; 0; 5; 0; 6; 0], []. split; [at_ [0; 0; 0; 0] [9]|].
  split; [reflexivity|]. split; [discriminate|]. split; [reflexivity|]. intros _. exists []. reflexivity.
Qed.
Lemma inside_A : inside (total dA) psA.
Proof. repeat constructor; (discriminate || (cbn; lia)). Qed.

Lemma fits_B bl : bl = [] \/ bl = map (index_block dB) (ichunks tB) -> fits dB bl.
Proof.
  intros H. split; [repeat constructor; (discriminate || reflexivity)|]. split; [reflexivity|]. split; [vm_compute; reflexivity|].
  split; [discriminate|]. split; [repeat constructor; discriminate|]. destruct H as [-> | ->]; [constructor|].
  repeat constructor; cbn; lia.
Qed.
Lemma placed_B : placed fB dB 0 (map (index_block dB) (ichunks tB)) psB.
Proof.
  assert (B : forall a k data pre post, zlen data = 2 -> fB = pre ++ data ++ post -> zlen pre = a -> block_data fB dB (index_block dB (mkKey 2 0 k, a)) data).
  { intros a k data pre post L E Z. split; [rewrite L; reflexivity|]. assert (N : data <> []) by (intros ->; discriminate L).
    split; [exact N|]. cbn [b_raw index_block]. exists data, []. split; [exists pre, post; split; assumption|]. split; [rewrite L; reflexivity|].
    split; [exact N|]. split; [cbn; rewrite app_nil_r; reflexivity|]. intros _. exists []. rewrite app_nil_r. reflexivity. }
  change psB with [(chunk_pos dB (index_block dB (mkKey 2 0 [1; 2], 6)), [13; 14]); (chunk_pos dB (index_block dB (mkKey 2 0 [0; 0], 4)), [11; 12])].
  apply (placed_cons fB dB); [apply (B 6 [1; 2] [13; 14] [0; 0; 0; 0; 11; 12] (zdrop 8 fB)); vm_compute; reflexivity|].
  apply (placed_cons fB dB); [apply (B 4 [0; 0] [11; 12] [0; 0; 0; 0] (zdrop 6 fB)); vm_compute; reflexivity|]. constructor.
Qed.
Lemma indexed_B : indexed fB dB tB.
Proof.
  split; [reflexivity|]. split; [reflexivity|]. split; [reflexivity|]. split; [reflexivity|].
  split; [constructor; constructor; reflexivity|]. split; [discriminate|]. split.
  { apply (stored_leaf fB 2 true 8 (2 ^ 64 - 1) (2 ^ 64 - 1)).
    - intros _. split; reflexivity.
    - split; [reflexivity|]. split; [split; [discriminate|reflexivity]|]. split; [split; [discriminate|reflexivity]|].
      split; [repeat constructor; (discriminate || reflexivity)|repeat constructor; (discriminate || reflexivity)].
    - exists [0; 0; 0; 0; 11; 12; 13; 14], []. split; [rewrite app_nil_r; reflexivity|reflexivity]. }
  split.
  { constructor. repeat constructor; (discriminate || reflexivity). }
  split; [cbn; lia|]. repeat constructor; cbn; intuition congruence.
Qed.
Lemma whole_B : indexed_whole fB dB tB.
Proof.
  destruct indexed_B as (A & B & C & D & _ & E & F & _ & G & _).
  repeat (split; [assumption || discriminate|]). split.
  - constructor. repeat constructor; (discriminate || reflexivity).
  - split; [exact G|]. repeat constructor; cbn; intuition congruence.
Qed.
Lemma fits_C : fits dC [].
Proof.
  split; [repeat constructor; (discriminate || reflexivity)|]. split; [reflexivity|]. split; [vm_compute; reflexivity|].
  split; [discriminate|]. split; [repeat constructor; discriminate|constructor].
Qed.
Lemma placed_C : placed fC dC 0 (map (index_block dC) (ichunks tC)) psC.
Proof.
  assert (B : forall a k data pre post, zlen data = 2 -> fC = pre ++ data ++ post -> zlen pre = a -> block_data fC dC (index_block dC (mkKey 2 0 k, a)) data).
  { intros a k data pre post L E Z. split; [rewrite L; reflexivity|]. assert (N : data <> []) by (intros ->; discriminate L).
    split; [exact N|]. cbn [b_raw index_block]. exists data, []. split; [exists pre, post; split; assumption|]. split; [rewrite L; reflexivity|].
    split; [exact N|]. split; [cbn; rewrite app_nil_r; reflexivity|]. intros _. exists []. rewrite app_nil_r. reflexivity. }
  change psC with [(chunk_pos dC (index_block dC (mkKey 2 0 [0], 4)), [1; 2]); (chunk_pos dC (index_block dC (mkKey 2 0 [2], 6)), [3; 99])].
  apply (placed_cons fC dC); [apply (B 4 [0] [1; 2] [0; 0; 0; 0] (zdrop 6 fC)); vm_compute; reflexivity|].
  apply (placed_cons fC dC); [apply (B 6 [2] [3; 99] [0; 0; 0; 0; 1; 2] (zdrop 8 fC)); vm_compute; reflexivity|]. constructor.
Qed.
Lemma whole_C : indexed_whole fC dC tC.
Proof.
  split; [reflexivity|]. split; [reflexivity|]. split; [reflexivity|]. split; [reflexivity|].
  split; [discriminate|]. split; [discriminate|]. split.
  { apply (stored_leaf fC 1 true 8 (2 ^ 64 - 1) (2 ^ 64 - 1)).
    - intros _. split; reflexivity.
    - split; [reflexivity|]. split; [split; [discriminate|reflexivity]|]. split; [split; [discriminate|reflexivity]|].
      split; [repeat constructor; (discriminate || reflexivity)|repeat constructor; (discriminate || reflexivity)].
    - exists [0; 0; 0; 0; 1; 2; 3; 99], []. split; [rewrite app_nil_r; reflexivity|reflexivity]. }
  split.
  { constructor. repeat constructor; (discriminate || reflexivity). }
  split; [cbn; lia|]. repeat constructor; cbn; intuition congruence.
Qed.

Definition i8s (l : list Z) : hval := HSlice (TNum I8) (map (HNum I8) l).
Definition i16s (l : list Z) : hval := HSlice (TNum I16) (map (HNum I16) l).

(** Chunks stored out of order, with holes *)
Example C41_example :
  exists bl, newRecordReader fB dB [] None = Ok ([11; 12; 7; 7; 7; 7; 13; 14], 8, bl) /\
  fst (vstep fB no_heap dB VGet (opened dB [])) = Ok (HSlice (TSlice (TNum I8)) [i8s [11; 12; 7; 7]; i8s [7; 7; 13; 14]]).
Proof. exists (map (index_block dB) (ichunks tB)). split; vm_compute; reflexivity. Qed.

(** ** C42 *)

(** The walk of the index finds exactly the chunks that have a byte in the range.  [indexed]:
    chunks are runs, keys are ordered, the index is in the file. *)
Theorem C42_pruning : forall f d t ps first last,
  zlen f < 2 ^ 63 -> fits d [] -> indexed f d t -> placed f d 0 (map (index_block d) (ichunks t)) ps ->
  readBTreeNode f d first last =
  Ok (map (index_block d) (touching (d_dims d) (d_length d) (volume (d_layout d)) first last (ichunks t))).
Proof. intros f d t ps first last Hf Hfit Hix Hpl. exact (ru_walk f d t Hf Hfit Hix first last). Qed.

(** Hence none is lost. *)
Theorem C42_nothing_lost : forall f d t ps first last bl k a p,
  zlen f < 2 ^ 63 -> fits d [] -> indexed f d t -> placed f d 0 (map (index_block d) (ichunks t)) ps ->
  readBTreeNode f d first last = Ok bl -> In (k, a) (ichunks t) ->
  first <= p < last -> offset (d_dims d) (k_index k) * d_length d <= p < (offset (d_dims d) (k_index k) + volume (d_layout d)) * d_length d ->
  In (index_block d (k, a)) bl.
Proof.
  intros f d t ps first last bl k a p Hf Hfit Hix Hpl E I P1 P2. rewrite (C42_pruning _ _ _ _ first last Hf Hfit Hix Hpl) in E.
  assert (bl = map (index_block d) (touching (d_dims d) (d_length d) (volume (d_layout d)) first last (ichunks t))) by congruence.
  subst bl. apply in_map. apply filter_In. split; [exact I|]. cbn [fst]. unfold chunk_first.
  rewrite Z.mul_add_distr_r in P2. apply andb_true_intro. split; apply Z.ltb_lt; lia.
Qed.

(** Chunks are runs exactly if the reader does not reassemble them. *)
Theorem C42_runs : forall dims layout, layout <> [] -> Forall (fun l => 0 < l) layout -> List.length dims = List.length layout ->
  needsLayoutReader dims layout = false <-> runs dims layout.
Proof. exact needs_runs. Qed.

Example C42_example :
  indexed fB dB tB /\ readBTreeNode fB dB 0 4 = Ok [index_block dB (mkKey 2 0 [0; 0], 4)] /\
  readBTreeNode fB dB 4 8 = Ok [index_block dB (mkKey 2 0 [1; 2], 6)] /\ readBTreeNode fB dB 2 6 = Ok [].
Proof. split; [exact indexed_B|]. vm_compute. split; [reflexivity|]. split; reflexivity. Qed.

(** ** C43 *)

(** C43.  Full statement: calls return the same whatever slices were asked for before.
    Missing here: types that are arrays; GetVariable after a slice; chunked data after
    GetVariable.  For these it is false, see below.  Proved: Values, GetSlice and GetSliceMD
    return the same after every history, with GetVariable in it if the data are not chunked. *)
Theorem C43_slices_partial : forall f heap d bl cs c,
  match d_ty d with DArray _ _ _ => False | _ => True end -> d_dims d <> [] ->
  (bl <> [] \/ d_btree d = 0 \/ ~ In VGet cs) -> c <> VGet ->
  fst (vstep f heap d c (vrun f heap d cs (opened d bl))) = fst (vstep f heap d c (opened d bl)).
Proof.
  intros f heap d bl cs c Hn Hd Hb Hc. apply slices_independent; try assumption.
  destruct Hb as [Hb|[Hb|Hb]]; [left; left; exact Hb|left; right; exact Hb|right; exact Hb].
Qed.

(** GetVariable again and again, also of chunked data *)
Theorem C43_get_partial : forall f heap d bl cs,
  match d_ty d with DArray _ _ _ => False | _ => True end -> Forall (fun c => c = VGet) cs ->
  fst (vstep f heap d VGet (vrun f heap d cs (opened d bl))) = fst (vstep f heap d VGet (opened d bl)).
Proof. intros f heap d bl cs Hn Hc. apply gets_repeat; assumption. Qed.

Example C43_example :
  let st := vrun fA no_heap dA [VSlice 0 1; VGet; VSliceMD [2; 0] [3; 1]; VSlice 2 1] (opened dA blA) in
  fst (vstep fA no_heap dA (VSlice 1 3) st) = Ok (HSlice (TSlice (TNum I16)) [i16s [3; 4]; i16s [5; 6]]).
Proof. vm_compute. reflexivity. Qed.

(** GetVariable returns what the last slice asked for. *)
Theorem C43_refuted : exists f heap d bl cs,
  Forall (fun c => exists b e, c = VSlice b e) cs /\
  fst (vstep f heap d VGet (opened d bl)) = Ok (HSlice (TSlice (TNum I16)) [i16s [1; 2]; i16s [3; 4]; i16s [5; 6]]) /\
  fst (vstep f heap d VGet (vrun f heap d cs (opened d bl))) = Ok (HSlice (TSlice (TNum I16)) [i16s [3; 4]]).
Proof.
  exists fA, no_heap, dA, blA, [VSlice 1 2]. split; [repeat constructor; exists 1, 2; reflexivity|]. split; vm_compute; reflexivity.
Qed.

(** After a slice and GetVariable, the other chunks of a variable are missing. *)
Theorem C43_chunks_refuted : exists f heap d cs,
  fst (vstep f heap d (VSlice 1 2) (opened d [])) = Ok (HSlice (TSlice (TNum I8)) [i8s [7; 7; 13; 14]]) /\
  fst (vstep f heap d (VSlice 1 2) (vrun f heap d cs (opened d []))) = Ok (HSlice (TSlice (TNum I8)) [i8s [7; 7; 7; 7]]).
Proof. exists fB, no_heap, dB, [VSlice 0 1; VGet]. split; vm_compute; reflexivity. Qed.

(** Arrays are read with more dimensions each time: a variable of 1 element of type array of
    2 numbers. *)
Definition dArr : dset := mkDset [1] [] (DArray 4 [2] (DFixed 2 true false)) 0 0 0 0 [0; 0; 0; 0] plain true.
Theorem C43_arrays_refuted : exists f heap d bl,
  fst (vstep f heap d VGet (opened d bl)) = Ok (HSlice (TSlice (TNum I16)) [i16s [1; 2]]) /\
  fst (vstep f heap d VGet (vrun f heap d [VGet] (opened d bl))) =
  Ok (HSlice (TSlice (TSlice (TNum I16))) [HSlice (TSlice (TNum I16)) [i16s [1; 2]]]).
Proof. exists fA, no_heap, dArr, [mkBlock 4 4 4 0 [] None]. split; vm_compute; reflexivity. Qed.

(** ** C44 *)

Lemma fits_nonneg d bl : fits d bl -> Forall (fun n => 0 <= n) (d_dims d).
Proof. intros H. eapply Forall_impl; [|exact (proj1 H)]. cbn beta. lia. Qed.

(** C44.  Full statement: GetSlice(b,e) is Values()\[b:e\] for every contiguous variable.
    Missing here: empty slices of sequences of variable length, sequences of compounds, opaque
    values and sequences, characters with NUL among them, for all of which it is false, see
    below; characters in more dimensions, which cannot be read at all (C77).  The fill pattern
    fits the elements and the block ends with an element. *)
Theorem C44_slice_partial : forall f heap d bl ps n ds b e v st,
  zlen f < 2 ^ 63 -> sliceable d v -> d_layout d = [] -> d_dims d = n :: ds -> fits d bl ->
  0 < zlen (d_fill d) -> d_length d mod zlen (d_fill d) = 0 -> Forall (fun x => p_end x mod zlen (d_fill d) = 0) ps ->
  placed f d 0 bl ps -> inside (total d) ps -> (bl = [] -> d_btree d = 0) ->
  vstep f heap d VGet (opened d bl) = (Ok v, st) ->
  fst (vstep f heap d VValues (opened d bl)) = Ok v /\
  (0 <= b <= e -> e <= n -> b < e \/ ~ sequence (d_ty d) ->
   exists v', fst (vstep f heap d (VSlice b e) (opened d bl)) = Ok v' /\ vpart v b e = Some v').
Proof.
  intros f heap d bl ps n ds b e v st Hf Hs El Ed Hfit Hp Hm Hef Hpl Hin Hbt H. split.
  - assert (Hd : Forall (fun n => 0 <= n < 2 ^ 63) (n :: ds)) by (rewrite <- Ed; apply Hfit). inversion Hd as [|? ? Hn _]; subst x l.
    pose proof (sliceable_whole f heap d bl n ds v st Hs Ed (fits_nonneg d bl Hfit) H) as Hw.
    destruct (contiguous_slices f heap d bl ps n ds 0 n v st Hf Hw El Ed Hfit Hp Hm Hef Hpl Hin Hbt ltac:(lia) ltac:(lia) H) as (v' & E & _ & W).
    rewrite (W eq_refl eq_refl) in E. cbn [vstep]. unfold varLen. rewrite Ed, i64_small by lia. exact E.
  - intros Hb He Hq. pose proof (sliceable_part d v n ds b e Hs Ed Hq) as Hw.
    destruct (contiguous_slices f heap d bl ps n ds b e v st Hf Hw El Ed Hfit Hp Hm Hef Hpl Hin Hbt Hb He H) as (v' & E & P & _).
    exists v'. split; assumption.
Qed.

Example C44_example :
  (fits dA blA /\ placed fA dA 0 blA psA /\ inside (total dA) psA /\ sized (d_ty dA)) /\
  fst (vstep fA no_heap dA (VSlice 1 3) (opened dA blA)) = Ok (HSlice (TSlice (TNum I16)) [i16s [3; 4]; i16s [5; 6]]) /\
  fst (vstep fA no_heap dA (VSlice 2 2) (opened dA blA)) = Ok (HSlice (TSlice (TNum I16)) []).
Proof.
  split; [|split; vm_compute; reflexivity]. split; [exact fits_A|]. split; [exact placed_A|]. split; [exact inside_A|].
  apply (sized_fixed 2 true false I16). reflexivity.
Qed.

(** Empty slices of a variable of sequences crash. *)
Definition dSeq : dset := mkDset [2] [] (DVlen 16 false (DFixed 1 true false)) 0 0 0 0 [0] plain true.
Definition fSeq : bytes := [0; 0; 0; 0] ++ zrep 32 0.
Theorem C44_refuted : exists f heap d bl v,
  fst (vstep f heap d VValues (opened d bl)) = Ok v /\ vpart v 1 1 <> None /\
  fst (vstep f heap d (VSlice 1 1) (opened d bl)) = Panic.
Proof.
  exists fSeq, no_heap, dSeq, [mkBlock 4 32 32 0 [] None], (HSlice (TSlice (TNum I8)) [i8s []; i8s []]).
  split; [vm_compute; reflexivity|]. split; [vm_compute; discriminate|]. vm_compute. reflexivity.
Qed.

(** Sequences and characters *)
Definition dRows : dset := mkDset [3] [] (DVlen 16 false (DFixed 1 true false)) 0 0 0 0 [0] plain true.
Definition descr (n i : Z) : bytes := le 4 n ++ le 8 500 ++ le 4 i.
Definition hRows (a i : Z) : res (option bytes) :=
  if (a =? 500) && (i =? 1) then Ok (Some [5; 6]) else if (a =? 500) && (i =? 2) then Ok (Some [7]) else Ok None.
Definition rRows : bytes := descr 2 1 ++ descr 0 0 ++ descr 1 2.
Definition fRows : bytes := [0; 0; 0; 0] ++ rRows.
Definition blRows : list block := [mkBlock 4 48 48 0 [] None].
Definition vRows : hval := HSlice (TSlice (TNum I8)) [i8s [5; 6]; i8s []; i8s [7]].
Definition dChars : dset := mkDset [5] [] (DString 1) 0 0 0 0 [0] plain true.
Definition fChars : bytes := [0; 0; 0; 0; 97; 98; 99; 100; 101].
Definition blChars : list block := [mkBlock 4 5 5 0 [] None].

Example C44_sequences_example :
  (sliceable dRows vRows /\ fits dRows blRows /\ inside (total dRows) [(0, rRows)]) /\
  fst (vstep fRows hRows dRows VValues (opened dRows blRows)) = Ok vRows /\
  fst (vstep fRows hRows dRows (VSlice 1 3) (opened dRows blRows)) = Ok (HSlice (TSlice (TNum I8)) [i8s []; i8s [7]]) /\
  (sliceable dChars (HStr [97; 98; 99; 100; 101]) /\ fits dChars blChars) /\
  fst (vstep fChars no_heap dChars VValues (opened dChars blChars)) = Ok (HStr [97; 98; 99; 100; 101]) /\
  fst (vstep fChars no_heap dChars (VSlice 3 5) (opened dChars blChars)) = Ok (HStr [100; 101]).
Proof.
  split; [|split; [vm_compute; reflexivity|split; [vm_compute; reflexivity|split; [|split; vm_compute; reflexivity]]]].
  - split; [right; left; constructor; exact I|]. split; [|repeat constructor; vm_compute; discriminate].
    split; [repeat constructor; (discriminate || reflexivity)|]. split; [reflexivity|]. split; [vm_compute; reflexivity|]. exact I.
  - split; [right; right; split; [reflexivity|]; exists [97; 98; 99; 100; 101]; split; reflexivity|].
    split; [repeat constructor; (discriminate || reflexivity)|]. split; [reflexivity|]. split; [vm_compute; reflexivity|]. exact I.
Qed.

(** Characters with a NUL among them: what Values() gives ends there, what slices give does not. *)
Theorem C44_characters_refuted : exists f heap d bl v,
  fst (vstep f heap d VValues (opened d bl)) = Ok (HStr [97; 98]) /\ vpart (HStr [97; 98]) 3 5 = None /\
  d_dims d = [5] /\ fst (vstep f heap d (VSlice 3 5) (opened d bl)) = Ok v.
Proof.
  exists [0; 0; 0; 0; 97; 98; 0; 99; 100], no_heap, dChars, blChars, (HStr [99; 100]).
  split; [vm_compute; reflexivity|]. split; [vm_compute; reflexivity|]. split; [reflexivity|]. vm_compute. reflexivity.
Qed.

(** Sequences of compounds: empty ones have another type in a slice without others. *)
Theorem C44_compounds_refuted : exists f heap d bl v v1 v2,
  fst (vstep f heap d VValues (opened d bl)) = Ok v /\ vpart v 1 2 = Some v1 /\
  fst (vstep f heap d (VSlice 1 2) (opened d bl)) = Ok v2 /\ htype v1 <> htype v2.
Proof.
  exists fRows, hRows, (mkDset [3] [] (DVlen 16 false (DComp 1 [(bs "a", 0, [], DFixed 1 true false)])) 0 0 0 0 [0] plain true), blRows.
  exists (HSlice (TSlice TComp) [HSlice TComp [HComp [(bs "a", HNum I8 5)]; HComp [(bs "a", HNum I8 6)]];
             HSlice TComp []; HSlice TComp [HComp [(bs "a", HNum I8 7)]]]).
  exists (HSlice (TSlice TComp) [HSlice TComp []]), (HSlice (TSlice TOther) [HSlice TOther []]).
  split; [vm_compute; reflexivity|]. split; [vm_compute; reflexivity|]. split; [vm_compute; reflexivity|]. discriminate.
Qed.

(** ** C63: chunks that are runs *)

(** C63.  As C44 for chunked data whose chunks are runs of the row-major order.  The same
    types are missing. *)
Theorem C63_run_slices_partial : forall f heap d t ps n ds b e v st,
  zlen f < 2 ^ 63 -> fits d [] -> indexed f d t -> placed f d 0 (map (index_block d) (ichunks t)) ps ->
  sliceable d v -> d_dims d = n :: ds -> 0 < zlen (d_fill d) -> d_length d mod zlen (d_fill d) = 0 ->
  vstep f heap d VGet (opened d []) = (Ok v, st) ->
  fst (vstep f heap d VValues (opened d [])) = Ok v /\
  (0 <= b <= e -> e <= n -> b < e \/ ~ sequence (d_ty d) ->
   exists v', fst (vstep f heap d (VSlice b e) (opened d [])) = Ok v' /\ vpart v b e = Some v').
Proof.
  intros f heap d t ps n ds b e v st Hf Hfit Hix Hpl Hs Ed Hp Hm H. split.
  - assert (Hd : Forall (fun n => 0 <= n < 2 ^ 63) (n :: ds)) by (rewrite <- Ed; apply Hfit). inversion Hd as [|? ? Hn _]; subst x l.
    pose proof (sliceable_whole f heap d [] n ds v st Hs Ed (fits_nonneg d [] Hfit) H) as Hw.
    destruct (run_slices f d t ps Hf Hfit Hix Hpl heap n ds 0 n v st Hw Ed Hp Hm ltac:(lia) ltac:(lia) H) as (v' & E & _ & W).
    rewrite (W eq_refl eq_refl) in E. cbn [vstep]. unfold varLen. rewrite Ed, i64_small by lia. exact E.
  - intros Hb He Hq. pose proof (sliceable_part d v n ds b e Hs Ed Hq) as Hw.
    destruct (run_slices f d t ps Hf Hfit Hix Hpl heap n ds b e v st Hw Ed Hp Hm Hb He H) as (v' & E & P & _).
    exists v'. split; assumption.
Qed.

Example C63_example :
  (fits dB [] /\ indexed fB dB tB /\ placed fB dB 0 (map (index_block dB) (ichunks tB)) psB /\ sized (d_ty dB)) /\
  fst (vstep fB no_heap dB (VSlice 1 2) (opened dB [])) = Ok (HSlice (TSlice (TNum I8)) [i8s [7; 7; 13; 14]]).
Proof.
  split; [|vm_compute; reflexivity]. split; [apply fits_B; left; reflexivity|]. split; [exact indexed_B|]. split; [exact placed_B|].
  apply (sized_fixed 1 true false I8). reflexivity.
Qed.

(** Empty slices of sequences crash here too: two empty sequences in chunks of one. *)
Definition cSeq : list (key * Z) := [(mkKey 16 0 [0], 4); (mkKey 16 0 [1], 20)].
Definition fSeqC : bytes := fSeq ++ node_bytes 0 (2 ^ 64 - 1) (2 ^ 64 - 1) cSeq (mkKey 0 0 [2]).
Definition dSeqC : dset := mkDset [2] [1] (DVlen 16 false (DFixed 1 true false)) 36 16 1 2 [0] plain true.
Theorem C63_refuted : exists f heap d v,
  runs (d_dims d) (d_layout d) /\
  fst (vstep f heap d VValues (opened d [])) = Ok v /\ vpart v 1 1 <> None /\
  fst (vstep f heap d (VSlice 1 1) (opened d [])) = Panic.
Proof.
  exists fSeqC, no_heap, dSeqC, (HSlice (TSlice (TNum I8)) [i8s []; i8s []]).
  split; [constructor; reflexivity|]. split; [vm_compute; reflexivity|]. split; [vm_compute; discriminate|]. vm_compute. reflexivity.
Qed.

(** ** C45 and C64: chunks that need reassembly *)

(** C64.  The values of a chunked variable are those of the dataset in row-major order, holes
    filled with the pattern, for every type the reader knows ([laid]).  Missing: chunk shapes
    that are not [orderly] (see C39). *)
Theorem C64_values_partial : forall f heap d t ps,
  zlen f < 2 ^ 63 -> fits d [] -> indexed_whole f d t -> placed f d 0 (map (index_block d) (ichunks t)) ps ->
  d_fill d <> [] -> orderly (d_dims d) (d_layout d) -> needsLayoutReader (d_dims d) (d_layout d) = true -> laid (d_ty d) ->
  exists chunks, data_plus_fill (d_fill d) ps (total d) chunks /\
    fst (vstep f heap d VGet (opened d [])) =
    let* (v, _) := alloc heap (d_ty d) (d_dims d) (dataset (d_dims d) (d_layout d) (d_length d) chunks) in Ok v.
Proof.
  intros f heap d t ps Hf Hfit Hix Hpl Hp Ho Hn Hs. exists (stream (d_fill d) ps 0 (total d)). split.
  - apply stream_spec.
    + exact (proj2 (size_total _ _ Hfit)).
    + exact (wh_apart f d t Hfit Hix ps Hpl).
    + exact (wh_inside f d t Hfit Hix ps Hpl).
  - exact (chunked_values f d t ps Hf Hfit Hix Hpl Hp Ho Hn heap Hs).
Qed.

Example C64_example :
  (fits dC [] /\ indexed_whole fC dC tC /\ placed fC dC 0 (map (index_block dC) (ichunks tC)) psC /\
   orderly (d_dims dC) (d_layout dC) /\ needsLayoutReader (d_dims dC) (d_layout dC) = true) /\
  fst (vstep fC no_heap dC VGet (opened dC [])) = Ok (i8s [1; 2; 3]).
Proof.
  split; [|vm_compute; reflexivity]. split; [exact fits_C|]. split; [exact whole_C|]. split; [exact placed_C|]. split; [constructor|reflexivity].
Qed.

(** 2 by 2 by 1 numbers in chunks of 2 by 1 by 1, which are not [orderly]: 1 2 3 4 is read as 1 3 2 4. *)
Definition cD : list (key * Z) := [(mkKey 2 0 [0; 0; 0], 4); (mkKey 2 0 [0; 1; 0], 6)].
Definition tD : itree := ILeaf cD (mkKey 0 0 [2; 0; 0]).
Definition fD : bytes := [0; 0; 0; 0; 1; 3; 2; 4] ++ node_bytes 0 (2 ^ 64 - 1) (2 ^ 64 - 1) cD (mkKey 0 0 [2; 0; 0]).
Definition dD : dset := mkDset [2; 2; 1] [2; 1; 1] (DFixed 1 true false) 8 1 2 4 [7] plain true.
Definition psD : list piece := [(0, [1; 3]); (2, [2; 4])].
Lemma fits_D : fits dD [].
Proof.
  split; [repeat constructor; (discriminate || reflexivity)|]. split; [reflexivity|]. split; [vm_compute; reflexivity|].
  split; [discriminate|]. split; [repeat constructor; discriminate|constructor].
Qed.
Lemma placed_D : placed fD dD 0 (map (index_block dD) (ichunks tD)) psD.
Proof.
  assert (B : forall a k data pre post, zlen data = 2 -> fD = pre ++ data ++ post -> zlen pre = a -> block_data fD dD (index_block dD (mkKey 2 0 k, a)) data).
  { intros a k data pre post L E Z. split; [rewrite L; reflexivity|]. assert (N : data <> []) by (intros ->; discriminate L).
    split; [exact N|]. cbn [b_raw index_block]. exists data, []. split; [exists pre, post; split; assumption|]. split; [rewrite L; reflexivity|].
    split; [exact N|]. split; [cbn; rewrite app_nil_r; reflexivity|]. intros _. exists []. rewrite app_nil_r. reflexivity. }
  change psD with [(chunk_pos dD (index_block dD (mkKey 2 0 [0; 0; 0], 4)), [1; 3]); (chunk_pos dD (index_block dD (mkKey 2 0 [0; 1; 0], 6)), [2; 4])].
  apply (placed_cons fD dD); [apply (B 4 [0; 0; 0] [1; 3] [0; 0; 0; 0] (zdrop 6 fD)); vm_compute; reflexivity|].
  apply (placed_cons fD dD); [apply (B 6 [0; 1; 0] [2; 4] [0; 0; 0; 0; 1; 3] (zdrop 8 fD)); vm_compute; reflexivity|]. constructor.
Qed.
Lemma whole_D : indexed_whole fD dD tD.
Proof.
  split; [reflexivity|]. split; [reflexivity|]. split; [reflexivity|]. split; [reflexivity|].
  split; [discriminate|]. split; [discriminate|]. split.
  { apply (stored_leaf fD 3 true 8 (2 ^ 64 - 1) (2 ^ 64 - 1)).
    - intros _. split; reflexivity.
    - split; [reflexivity|]. split; [split; [discriminate|reflexivity]|]. split; [split; [discriminate|reflexivity]|].
      split; [repeat constructor; (discriminate || reflexivity)|repeat constructor; (discriminate || reflexivity)].
    - exists [0; 0; 0; 0; 1; 3; 2; 4], []. split; [rewrite app_nil_r; reflexivity|reflexivity]. }
  split.
  { constructor. repeat constructor; (discriminate || reflexivity). }
  split; [cbn; lia|]. repeat constructor; cbn; intuition congruence.
Qed.
Theorem C64_refuted : exists f heap d t ps chunks v w,
  fits d [] /\ indexed_whole f d t /\ placed f d 0 (map (index_block d) (ichunks t)) ps /\ laid (d_ty d) /\
  data_plus_fill (d_fill d) ps (total d) chunks /\
  alloc heap (d_ty d) (d_dims d) (dataset (d_dims d) (d_layout d) (d_length d) chunks) = Ok (v, []) /\
  fst (vstep f heap d VGet (opened d [])) = Ok w /\ v <> w.
Proof.
  exists fD, no_heap, dD, tD, psD, (stream (d_fill dD) psD 0 (total dD)).
  exists (HSlice (TSlice (TSlice (TNum I8))) [HSlice (TSlice (TNum I8)) [i8s [1]; i8s [2]]; HSlice (TSlice (TNum I8)) [i8s [3]; i8s [4]]]).
  exists (HSlice (TSlice (TSlice (TNum I8))) [HSlice (TSlice (TNum I8)) [i8s [1]; i8s [3]]; HSlice (TSlice (TNum I8)) [i8s [2]; i8s [4]]]).
  split; [exact fits_D|]. split; [exact whole_D|]. split; [exact placed_D|].
  split; [apply laid_sized, (sized_fixed 1 true false I8); reflexivity|]. split.
  { apply stream_spec.
    - exact (proj2 (size_total _ _ fits_D)).
    - exact (wh_apart fD dD tD fits_D whole_D psD placed_D).
    - exact (wh_inside fD dD tD fits_D whole_D psD placed_D). }
  split; [vm_compute; reflexivity|]. split; [vm_compute; reflexivity|]. vm_compute. discriminate.
Qed.

(** C45.  Full statement: GetSlice(b,e) is Values()\[b:e\].  Missing here: slices that do not
    start at 0, for which it is false; and what C64 leaves out. *)
Theorem C45_from_start_partial : forall f heap d t ps n ds e v st,
  zlen f < 2 ^ 63 -> fits d [] -> indexed_whole f d t -> placed f d 0 (map (index_block d) (ichunks t)) ps ->
  d_fill d <> [] -> orderly (d_dims d) (d_layout d) -> needsLayoutReader (d_dims d) (d_layout d) = true -> sliceable d v ->
  d_dims d = n :: ds -> vstep f heap d VGet (opened d []) = (Ok v, st) ->
  fst (vstep f heap d VValues (opened d [])) = Ok v /\
  (0 <= e <= n -> 0 < e \/ ~ sequence (d_ty d) ->
   exists v', fst (vstep f heap d (VSlice 0 e) (opened d [])) = Ok v' /\ vpart v 0 e = Some v').
Proof.
  intros f heap d t ps n ds e v st Hf Hfit Hix Hpl Hp Ho Hn Hs Ed H. split.
  - assert (Hd : Forall (fun n => 0 <= n < 2 ^ 63) (n :: ds)) by (rewrite <- Ed; apply Hfit). inversion Hd as [|? ? Hk _]; subst x l.
    pose proof (sliceable_whole f heap d [] n ds v st Hs Ed (fits_nonneg d [] Hfit) H) as Hw.
    destruct (chunked_from_start f d t ps Hf Hfit Hix Hpl Hp Ho Hn heap n ds n v st Hw Ed ltac:(lia) H) as (v' & E & _ & W).
    rewrite (W eq_refl) in E. cbn [vstep]. unfold varLen. rewrite Ed, i64_small by lia. exact E.
  - intros He Hq. pose proof (sliceable_part d v n ds 0 e Hs Ed Hq) as Hw.
    destruct (chunked_from_start f d t ps Hf Hfit Hix Hpl Hp Ho Hn heap n ds e v st Hw Ed He H) as (v' & E & P & _).
    exists v'. split; assumption.
Qed.

(** GetSlice(1,2) of 1, 2, 3 in chunks of 2 is the first element. *)
Theorem C45_refuted : exists f heap d v,
  needsLayoutReader (d_dims d) (d_layout d) = true /\
  fst (vstep f heap d VValues (opened d [])) = Ok (i8s [1; 2; 3]) /\ vpart (i8s [1; 2; 3]) 1 2 = Some (i8s [2]) /\
  fst (vstep f heap d (VSlice 1 2) (opened d [])) = Ok v /\ v = i8s [1].
Proof. exists fC, no_heap, dC, (i8s [1]). repeat split; vm_compute; reflexivity. Qed.

(** ** C65: slices in all dimensions *)

(** C65.  GetSliceMD is GetVariable restricted to the bounds, in contiguous data and chunks
    that are runs.  [vat v idx] is v\[i\]\[j\]...  Missing: enumerations, for which it is
    false; sequences where C44 leaves them out, and characters; data that need reassembly. *)
Definition whole_slices (t : dty) (b e : Z) : Prop := sized t /\ no_enum t \/ sequence t /\ b < e.
Lemma whole_sliced t n ds v b e : whole_slices t b e -> sliced t n ds v b e.
Proof. intros [[H _]|H]; [left; exact H|right; left; exact H]. Qed.
Lemma whole_shaped heap t b e : whole_slices t b e -> forall ds s v r, Forall (fun n => 0 <= n) ds -> alloc heap t ds s = Ok (v, r) -> shaped ds v.
Proof.
  intros [[H1 H2]|[H _]] ds s v r Hd E; [exact (sized_shaped heap t H1 H2 ds s v r Hd E)|exact (sequence_shaped heap t ds s v r H Hd E)].
Qed.
Theorem C65_contiguous_partial : forall f heap d bl ps n ds b br e er v st,
  zlen f < 2 ^ 63 -> whole_slices (d_ty d) b e -> d_layout d = [] -> d_dims d = n :: ds -> fits d bl ->
  0 < zlen (d_fill d) -> d_length d mod zlen (d_fill d) = 0 -> Forall (fun x => p_end x mod zlen (d_fill d) = 0) ps ->
  placed f d 0 bl ps -> inside (total d) ps -> (bl = [] -> d_btree d = 0) ->
  bounds (d_dims d) (b :: br) (e :: er) ->
  vstep f heap d VGet (opened d bl) = (Ok v, st) ->
  exists v', fst (vstep f heap d (VSliceMD (b :: br) (e :: er)) (opened d bl)) = Ok v' /\
    shaped (vsub (e :: er) (b :: br)) v' /\
    forall idx, in_shape (vsub (e :: er) (b :: br)) idx -> vat v' idx = vat v (vadd (b :: br) idx).
Proof.
  intros f heap d bl ps n ds b br e er v st Hf Hs El Ed Hfit Hp Hm Hef Hpl Hin Hbt Hbo H. rewrite Ed in Hbo.
  inversion Hbo as [|? ? ? ? ? ? B1 B2 B3]; subst.
  destruct (contiguous_slices f heap d bl ps n ds b e v st Hf (whole_sliced _ n ds v b e Hs) El Ed Hfit Hp Hm Hef Hpl Hin Hbt B1 B2 H) as (v1 & E & P & _).
  apply (slices_md f heap d bl n ds (b :: br) (e :: er) b br e er v v1); try reflexivity; try assumption.
  - apply Hfit.
  - cbn [vstep] in H. unfold getData, opened in H. cbn [v_slice v_blocks v_ty] in H.
    destruct (dataBytes f d bl None) as [[data bl']| |]; try discriminate. apply (f_equal fst) in H. cbn [fst sliceDims] in H.
    destruct (alloc heap (d_ty d) (d_dims d) data) as [[w r]| |] eqn:Ea; cbn [rbind] in H; try discriminate.
    assert (w = v) by congruence. subst w. rewrite Ed in Ea.
    apply (whole_shaped heap (d_ty d) b e Hs (n :: ds) data v r); [|exact Ea].
    rewrite <- Ed. eapply Forall_impl; [|exact (proj1 Hfit)]. cbn beta. lia.
Qed.

Theorem C65_runs_partial : forall f heap d t ps n ds b br e er v st,
  zlen f < 2 ^ 63 -> fits d [] -> indexed f d t -> placed f d 0 (map (index_block d) (ichunks t)) ps ->
  whole_slices (d_ty d) b e -> d_dims d = n :: ds -> 0 < zlen (d_fill d) -> d_length d mod zlen (d_fill d) = 0 ->
  bounds (d_dims d) (b :: br) (e :: er) ->
  vstep f heap d VGet (opened d []) = (Ok v, st) ->
  exists v', fst (vstep f heap d (VSliceMD (b :: br) (e :: er)) (opened d [])) = Ok v' /\
    shaped (vsub (e :: er) (b :: br)) v' /\
    forall idx, in_shape (vsub (e :: er) (b :: br)) idx -> vat v' idx = vat v (vadd (b :: br) idx).
Proof.
  intros f heap d t ps n ds b br e er v st Hf Hfit Hix Hpl Hs Ed Hp Hm Hbo H. rewrite Ed in Hbo.
  inversion Hbo as [|? ? ? ? ? ? B1 B2 B3]; subst.
  destruct (run_slices f d t ps Hf Hfit Hix Hpl heap n ds b e v st (whole_sliced _ n ds v b e Hs) Ed Hp Hm B1 B2 H) as (v1 & E & P & _).
  apply (slices_md f heap d [] n ds (b :: br) (e :: er) b br e er v v1); try reflexivity; try assumption.
  - apply Hfit.
  - cbn [vstep] in H. unfold getData, opened in H. cbn [v_slice v_blocks v_ty] in H.
    destruct (dataBytes f d [] None) as [[data bl']| |]; try discriminate. apply (f_equal fst) in H. cbn [fst sliceDims] in H.
    destruct (alloc heap (d_ty d) (d_dims d) data) as [[w r]| |] eqn:Ea; cbn [rbind] in H; try discriminate.
    assert (w = v) by congruence. subst w. rewrite Ed in Ea.
    apply (whole_shaped heap (d_ty d) b e Hs (n :: ds) data v r); [|exact Ea].
    rewrite <- Ed. eapply Forall_impl; [|exact (proj1 Hfit)]. cbn beta. lia.
Qed.

Example C65_example :
  fst (vstep fA no_heap dA (VSliceMD [1; 1] [3; 2]) (opened dA blA)) = Ok (HSlice (TSlice (TNum I16)) [i16s [4]; i16s [6]]) /\
  fst (vstep fB no_heap dB (VSliceMD [0; 1] [2; 3]) (opened dB [])) = Ok (HSlice (TSlice (TNum I8)) [i8s [12; 7]; i8s [7; 13]]).
Proof. split; vm_compute; reflexivity. Qed.

(** Of an enumeration the bounds behind the first are ignored. *)
Definition dEnum : dset := mkDset [3; 2] [] (DEnum 2 2 true false [bs "A"] [HNum I16 1]) 0 0 0 0 [0; 0] plain true.
Theorem C65_refuted : exists f heap d bl v,
  fst (vstep f heap d (VSliceMD [1; 1] [3; 2]) (opened d bl)) = Ok (HEnum v [bs "A"] [HNum I16 1]) /\
  bounds (d_dims d) [1; 1] [3; 2] /\ v = HSlice (TSlice (TNum I16)) [i16s [3; 4]; i16s [5; 6]].
Proof.
  exists fA, no_heap, dEnum, blA, (HSlice (TSlice (TNum I16)) [i16s [3; 4]; i16s [5; 6]]).
  split; [vm_compute; reflexivity|]. split; [repeat constructor; (discriminate || lia)|reflexivity].
Qed.

(** ** C14, HDF5 *)

(** C14.  Proved: bounds in the wrong order, and a wrong number of them, whatever was asked
    before.  Missing: ranges outside of the variable, see below. *)
Theorem C14_hdf5_reversed_partial : forall f heap d b e st, e < b -> vstep f heap d (VSlice b e) st = (Err EInvalidSlice, st).
Proof.
  intros f heap d b e st H. cbn [vstep]. unfold getSlice.
  replace ((b =? 0) && (e =? 1)) with false by lia. cbn [andb]. replace (e <? b) with true by lia. reflexivity.
Qed.
Theorem C14_hdf5_reversed_md_partial : forall f heap d bs_ es st i b e,
  List.length bs_ = List.length (d_dims d) -> List.length es = List.length (d_dims d) ->
  nth_error bs_ i = Some b -> nth_error es i = Some e -> e < b ->
  vstep f heap d (VSliceMD bs_ es) st = (Err EInvalidSlice, st).
Proof.
  intros f heap d bs_ es st i b e L1 L2 N1 N2 H. cbn [vstep]. unfold getSliceMD. rewrite L1, L2, Nat.eqb_refl. cbn [negb orb].
  assert (O : ordered bs_ es = false); [|rewrite O; reflexivity].
  clear L1 L2. revert es i N1 N2. induction bs_ as [|x bs_ IH]; intros es [|i] N1 N2; try discriminate; destruct es as [|y es]; try discriminate; cbn [nth_error ordered] in *.
  - injection N1 as ->. injection N2 as ->. replace (b <=? e) with false by lia. reflexivity.
  - rewrite (IH es i N1 N2). apply andb_false_r.
Qed.
Theorem C14_hdf5_rank : forall f heap d bs_ es st,
  List.length bs_ <> List.length (d_dims d) \/ List.length es <> List.length (d_dims d) ->
  vstep f heap d (VSliceMD bs_ es) st = (Err EDimensionality, st).
Proof.
  intros f heap d bs_ es st H. cbn [vstep]. unfold getSliceMD.
  destruct (Nat.eqb_spec (List.length bs_) (List.length (d_dims d))), (Nat.eqb_spec (List.length es) (List.length (d_dims d))); cbn [negb orb]; try reflexivity.
  destruct H; contradiction.
Qed.

(** Rows behind the end read as fill values. *)
Theorem C14_hdf5_refuted : exists f heap d bl b e v,
  varLen d = 3 /\ 3 < e /\ b <= e /\ fst (vstep f heap d (VSlice b e) (opened d bl)) = Ok v /\
  v = HSlice (TSlice (TNum I16)) [i16s [5; 6]; i16s [0; 0]].
Proof.
  exists fA, no_heap, dA, blA, 2, 4, (HSlice (TSlice (TNum I16)) [i16s [5; 6]; i16s [0; 0]]).
  repeat split; vm_compute; reflexivity || discriminate.
Qed.

Print Assumptions C41_data_plus_fill.
Print Assumptions C41_from_index.
Print Assumptions C42_pruning.
Print Assumptions C42_nothing_lost.
Print Assumptions C42_runs.
Print Assumptions C43_slices_partial.
Print Assumptions C43_get_partial.
Print Assumptions C43_refuted.
Print Assumptions C43_chunks_refuted.
Print Assumptions C43_arrays_refuted.
Print Assumptions C44_slice_partial.
Print Assumptions C44_refuted.
Print Assumptions C44_characters_refuted.
Print Assumptions C44_compounds_refuted.
Print Assumptions C63_refuted.
Print Assumptions C64_refuted.
Print Assumptions C63_run_slices_partial.
Print Assumptions C64_values_partial.
Print Assumptions C45_from_start_partial.
Print Assumptions C45_refuted.
Print Assumptions C65_contiguous_partial.
Print Assumptions C65_runs_partial.
Print Assumptions C65_refuted.
Print Assumptions C14_hdf5_reversed_partial.
Print Assumptions C14_hdf5_reversed_md_partial.
Print Assumptions C14_hdf5_rank.
Print Assumptions C14_hdf5_refuted.
