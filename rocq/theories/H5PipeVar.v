(** Lemmas: a variable of a file of another writer whose chunks went through filters has the value
    that is stored. *)
From Coq Require Import Lia ZifyBool ZifyNat Permutation.
From Verif Require Import Prelude BaseLemmas GoVal ArraySpec H5Base H5MetaRead H5Value H5TypeRead H5RecordModel ChunkSpec
  MetaSpec RecordSpec DenseSpec ForeignSpec ForeignTypeSpec ForeignMsgSpec ForeignDataSpec ForeignValueSpec FilterSpec ForeignFilterSpec
  H5PathModel H5FileRead H5PipeModel H5PipeProofs H5ForeignTree H5ForeignType H5ForeignValue H5ForeignData H5ForeignVar H5ChunkProofs.

Section Piped.
  Variable deflated : bytes -> bytes -> Prop.
  Variable inflate : bytes -> res bytes.
  Hypothesis inflates : forall d s, deflated d s -> inflate s = Ok d.
  Notation kinds := (map (fun d => (fd_id d, fd_vals d))).

  (** The chunks are there once the filters are undone *)
  Lemma chunk_blocks f i dims t fs shape cs xs : ri_layout i = shape -> ri_elem i = dlen t -> ri_filters i = kinds fs -> zlen fs < 2 ^ 8 ->
    0 < volume shape * dlen t -> zlen f < 2 ^ 63 -> Forall2 (chunk_is deflated f fs shape (dlen t)) cs xs ->
    let d := piped_dset inflate i dims t in Forall2 (fun c x => block_data f d (index_block d c) x) cs xs.
  Proof.
    intros K1 K3 Hfs Hn PP Hf Hx d. unfold d. clear d.
    induction Hx as [|c x cs xs (C1 & C2 & tr & s & C3 & C4 & C5 & C6 & C7) Hx IH]; constructor; [|exact IH].
    assert (LS : zlen s <= zlen f).
    { destruct C5 as (pre & post & -> & _). rewrite !zlen_app. pose proof (zlen_nonneg pre). pose proof (zlen_nonneg post). lia. }
    unfold block_data. cbn [index_block b_ds b_raw b_addr b_length piped_dset d_layout d_elem d_filter d_seek]. rewrite K1, K3.
    split; [exact C1|]. split; [intros ->; cbn in C1; lia|]. exists s, []. split; [exact C5|]. split; [exact C6|]. split; [exact C7|].
    rewrite app_nil_r. rewrite Hfs. split.
    + apply (filters_undone deflated inflate inflates fs _ x tr s); cbn [b_mask b_ds b_length].
      * exact C3.
      * exact C4.
      * lia.
      * lia.
      * cbn [index_block b_ds d_layout d_elem piped_dset]. rewrite ?K1, ?K3. symmetry. exact C1.
      * symmetry. exact C6.
    + intros Hk. eapply unfiltered_prefix; [exact inflates|exact C3|exact Hk].
  Qed.

  Theorem filtered_bytes f i dims t fill fs p b : zlen f < 2 ^ 63 -> Forall (fun n => 0 <= n < 2 ^ 63) dims -> 0 < dlen t < 2 ^ 32 ->
    repeats (dlen t) (fillOf i t) fill -> ri_filters i = kinds fs -> zlen fs < 2 ^ 8 ->
    filtered_as deflated f fs dims (dlen t) fill p b -> keeps p i ->
    exists rest bl, dataBytes f (piped_dset inflate i dims t) (ri_blocks i) None = Ok (b ++ rest, bl).
  Proof.
    intros Hf Hd Ht Hpat Hfs Hn H K. destruct H as [shape b Hc Ho Hfl|a shape it b Hc Ho Hix (Hz & xs & Hx & He)]; cbn [keeps] in K.
    - destruct K as (K1 & -> & K2).
      destruct (no_chunks f i dims t fill Hf Hd Ht Hpat (undoFilters inflate (ri_filters i)) (canSeek (ri_filters i)) _ _ K1 K2 Hc Ho Hfl) as [rest E].
      exists rest, []. exact E.
    - destruct K as (K1 & -> & K2 & K3 & K4 & K5).
      apply (all_chunks f i dims t fill Hf Hd Ht Hpat (undoFilters inflate (ri_filters i)) (canSeek (ri_filters i)) a shape it xs b); try assumption.
      pose proof (layout_pos _ _ (chunks_ext dims t Hd _ Hc)) as PV.
      assert (PP : 0 < volume shape * dlen t) by (apply Z.mul_pos_pos; lia).
      exact (chunk_blocks f i dims t fs shape _ _ K1 K3 Hfs Hn PP Hf Hx).
  Qed.

  Theorem filtered_value f i dims t p fill fs b v : zlen f < 2 ^ 63 -> Forall (fun n => 0 <= n < 2 ^ 63) dims -> 0 < fsize t < 2 ^ 32 ->
    keeps p i -> repeats (fsize t) (fillOf i (H5ForeignType.told t)) fill -> ri_filters i = kinds fs -> zlen fs < 2 ^ 8 ->
    filtered_as deflated f fs dims (fsize t) fill p b -> array_is (in_global_heap f) t dims b v ->
    let d := piped_dset inflate i dims (H5ForeignType.told t) in
    fst (getData f (readGlobalHeap f) d true (opened d (ri_blocks i))) = Ok v.
  Proof.
    intros Hf Hd Hs Hk Hr Hfs Hn Hst Hv d. pose proof (dlen_told t) as DT.
    assert (Hheap : forall addr idx data, in_global_heap f addr idx data -> readGlobalHeap f addr idx = Ok (Some data))
      by (intros addr idx data H; apply global_heap_read; assumption).
    rewrite <- DT in *.
    destruct (filtered_bytes f i dims (H5ForeignType.told t) fill fs p b Hf Hd Hs Hr Hfs Hn Hst Hk) as (rest & bl & E). fold d in E.
    unfold getData, opened. cbn [v_blocks v_slice v_ty]. rewrite E. cbn [fst sliceDims].
    change (d_ty d) with (H5ForeignType.told t). change (d_dims d) with dims.
    rewrite (value_read (readGlobalHeap f) (in_global_heap f) Hheap _ _ _ _ rest Hv). reflexivity.
  Qed.

  Theorem filtered_variable f root h name o a dims t p fill fs b v : zlen f < 2 ^ 63 -> findVariable h name = Some o -> came f name a (FData dims) o ->
    filtered_at f alone a fs dims t p fill -> Forall (fun n => n < 2 ^ 63) dims ->
    filtered_as deflated f fs dims (fsize t) fill p b -> array_is (in_global_heap f) t dims b v ->
    getVariablePiped inflate f root h name = with_attrs f root (r_attrs o) v.
  Proof.
    intros Hf Hfind Hc Hda Hdm Hst Hv. destruct (came_filtered f name a o fs dims t p fill Hf Hc Hda) as (E1 & E2 & E3 & E4 & E5 & E6).
    assert (Hs : 0 < fsize t < 2 ^ 32 /\ zlen fs < 2 ^ 8).
    { destruct Hda as (c & l & sb & _ & _ & _ & _ & _ & ? & ? & ? & ? & ? & ? & ? & ? & _ & _ & _ & _ & _ & _ & Hff & _ & Ht & _).
      split; [exact (type_size _ _ _ Ht)|]. destruct Hff; assumption. }
    destruct Hs as [Hs Hn].
    assert (Hd : Forall (fun n => 0 <= n < 2 ^ 63) dims).
    { destruct Hda as (c & l & sb & _ & _ & _ & (flags & most & pad & _ & W & _) & _).
      rewrite Forall_forall in *. intros n Hi. specialize (W n Hi). specialize (Hdm n Hi). unfold word in W. lia. }
    unfold getVariablePiped. rewrite Hfind, E1, E2, E5. cbn [rbind]. cbv zeta.
    rewrite (filtered_value f (r_info o) dims t p fill fs b v Hf Hd Hs E3 E4 E6 Hn Hst Hv). reflexivity.
  Qed.
End Piped.

(** Without filters it is the reading of C77 *)
Lemma piped_without inflate f root h name : (forall o, findVariable h name = Some o -> ri_dims (r_info o) <> None -> data_modelled (r_info o) = true) ->
  getVariablePiped inflate f root h name = getVariable f root h name.
Proof.
  intros H. unfold getVariablePiped, getVariable. destruct (findVariable h name) as [o|]; [|reflexivity]. specialize (H o eq_refl).
  destruct (ri_dims (r_info o)) as [dims|]; [|reflexivity]. specialize (H ltac:(discriminate)). rewrite H. cbn [negb].
  assert (E : fill_usable (r_info o) = true /\ ri_filters (r_info o) = []).
  { unfold data_modelled in H. unfold fill_usable. destruct (ri_filters (r_info o)); [|discriminate]. split; [|reflexivity].
    destruct (ri_fill (r_info o)); [reflexivity|]. destruct (ri_fillOld (r_info o)) as [[|]|]; [discriminate| |]; reflexivity. }
  destruct E as [-> E]. cbn [rbind].
  assert (D : forall t, piped_dset inflate (r_info o) dims t = dset_of (r_info o) dims t).
  { intros t. unfold piped_dset, dset_of. rewrite E. reflexivity. }
  destruct (ri_ty (r_info o)) as [t|]; [|reflexivity]. cbv zeta. rewrite D. reflexivity.
Qed.
