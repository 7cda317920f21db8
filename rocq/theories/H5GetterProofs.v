(** Lemmas: parts of variables of files of other writers. *)
From Coq Require Import Lia ZifyBool ZifyNat Permutation.
From Verif Require Import Prelude BaseLemmas GoVal ArraySpec H5Base H5MetaRead H5LayoutModel H5Value H5TypeRead H5RecordModel ChunkSpec
  MetaSpec RecordSpec DenseSpec ForeignSpec ForeignTypeSpec ForeignMsgSpec ForeignDataSpec ForeignValueSpec FilterSpec ForeignFilterSpec ForeignSliceSpec
  H5PathModel H5FileRead H5PipeModel H5GetterModel H5RecordProofs H5SliceProofs H5RunProofs H5ChunkedProofs H5CallProofs
  H5ForeignTree H5ForeignType H5ForeignValue H5ObjectProofs H5ForeignData H5ForeignVar H5ChunkProofs H5PipeProofs H5PipeVar.

Lemma runs_orderly ds ls : runs ds ls -> orderly ds ls.
Proof. induction 1 as [d l|d ds ls _ IH]; [apply ord_last|apply ord_one, IH]. Qed.

Lemma fixed_sized uses t tb : type_is uses t tb -> fixed t -> sized (H5ForeignType.told t).
Proof.
  intros Ht Hf. revert tb Ht. induction Hf as [n sg big|n big|n N1|n|n ms| |n sg big names vals|t|dims t Ha Hf IH]; intros tb Ht; inversion Ht; subst; cbn [H5ForeignType.told].
  - match goal with H : int_size _ |- _ => destruct H as [->|[->|[->| ->]]] end; destruct sg; eapply sized_fixed; reflexivity.
  - apply sized_float4.
  - apply sized_float8.
  - apply sized_string; lia.
  - apply sized_opaque; lia.
  - apply sized_comp; lia.
  - apply sized_ref.
  - match goal with H : type_is _ (FInt _ _ _) _ |- _ => inversion H; subst end.
    match goal with H : int_size _ |- _ => destruct H as [->|[->|[->| ->]]] end; destruct sg; eapply sized_enum; reflexivity.
  - apply sized_vstr.
  - assert (E : fsize (FArray dims t) = volume dims * dlen (H5ForeignType.told t)).
    { rewrite dlen_told. cbn [fsize]. rewrite fold_right_volume. reflexivity. }
    rewrite E. apply sized_array.
    + eapply Forall_impl; [|match goal with H : Forall (word 32) _ |- _ => exact H end]. unfold word. intros x Hx. lia.
    + destruct t; cbn in Ha |- *; try exact I. discriminate.
    + eapply IH. eassumption.
Qed.

(** ** Slices in the first dimension *)
Section Slices.
  Variables (f : bytes) (i : rinfo) (dims : list Z) (t : dty) (fill : option bytes).
  Hypothesis Hf : zlen f < 2 ^ 63.
  Hypothesis Hd : Forall (fun n => 0 <= n < 2 ^ 63) dims.
  Hypothesis Ht : 0 < dlen t < 2 ^ 32.
  Hypothesis Hdiv : dlen t mod zlen (fillOf i t) = 0.
  Variables (flt : block -> bytes -> res bytes) (sk : bool) (heap : Z -> Z -> res (option bytes)).
  Notation d := (dset_through i dims t flt sk).

  Lemma fill_pos : 0 < zlen (fillOf i t).
  Proof. clear flt. destruct (fillOf i t) as [|c l] eqn:E; [exfalso; exact (fillOf_some i t E)|]. rewrite zlen_cons. pose proof (zlen_nonneg l). lia. Qed.

  (** One block *)
  Lemma block_slices blk bt v st' n ds b e : sliced t n ds v b e -> ri_layout i = [] -> zlen bt = volume dims * dlen t -> zlen bt < 2 ^ 63 ->
    (bt <> [] -> block_data f d blk bt) -> dims = n :: ds -> 0 <= b <= e -> e <= n ->
    getData f heap d true (opened d [blk]) = (Ok v, st') ->
    exists v', fst (getSlice f heap d b e (opened d [blk])) = Ok v' /\ vpart v b e = Some v' /\ (b = 0 -> e = n -> v' = v).
  Proof.
    intros Hsz Hl Hz Hb Hblk Ed Hbe He H. pose proof fill_pos as Fp. pose proof Hb as Hb'. rewrite Hz in Hb'.
    destruct (fits_flat i dims t Hd Ht flt sk [blk] Hl Hb') as [Hfit Et].
    destruct (Z.eq_dec (zlen bt) 0) as [E0|N0].
    - destruct (fits_flat i dims t Hd Ht flt sk [] Hl Hb') as [Hfit0 _].
      assert (T0 : total d = 0) by lia.
      assert (Hnl : needsLayoutReader (d_dims d) (d_layout d) = false) by (cbn [dset_through d_layout d_dims]; rewrite Hl; destruct dims; reflexivity).
      assert (Et2 : total d = n * (volume ds * d_length d)) by (rewrite Et, Ed, volume_cons; unfold d_length; cbn [dset_through d_ty]; ring).
      destruct (slice_bytes f d [blk] [] [] n ds b e Hf Hfit0 Ed Et2 Hnl Fp Hdiv) as (bl2 & W2 & _); try assumption; try constructor.
      + constructor.
      + intros N. contradiction.
      + refine (slice_value f heap d [blk] bl2 [blk] (d_fill d) [] n ds b e _ v st' Hsz Ed (proj1 Hfit) Hbe He _ W2 H eq_refl).
        rewrite (one_block f i dims t Hf Hd Ht flt sk blk bt Hl Hz Hb Hblk). rewrite <- Et2, T0, (zlen_zero bt E0). reflexivity.
    - assert (Nb : bt <> []) by (intros ->; apply N0; reflexivity).
      apply (contiguous_slices f heap d [blk] [(0, bt)] n ds b e v st' Hf Hsz Hl Ed Hfit Fp Hdiv); try assumption.
      + constructor; [|constructor]. unfold p_end. cbn [fst snd]. rewrite Z.add_0_l, Hz. apply div_mod_0; [|exact Hdiv]. exact Fp.
      + pose proof (placed_cons f d 0 blk [] bt []) as P. assert (El : d_layout d = []) by exact Hl. rewrite El in P.
        apply P; [exact (Hblk Nb)|apply placed_nil].
      + constructor; [|constructor]. unfold p_end. cbn [fst snd]. split; [lia|]. split; [lia|exact Nb].
      + discriminate.
  Qed.

  (** No block *)
  Lemma fill_slices v st' n ds b e : sliced t n ds v b e -> ri_btree i = 0 -> fits d [] -> total d = volume dims * dlen t ->
    needsLayoutReader dims (ri_layout i) = false -> dims = n :: ds -> 0 <= b <= e -> e <= n ->
    getData f heap d true (opened d []) = (Ok v, st') ->
    exists v', fst (getSlice f heap d b e (opened d [])) = Ok v' /\ vpart v b e = Some v' /\ (b = 0 -> e = n -> v' = v).
  Proof.
    intros Hsz Hbt Hfit Et Hnl Ed Hbe He H. pose proof fill_pos as Fp.
    assert (Np : d_fill d <> []) by apply fillOf_some.
    destruct (size_total _ _ Hfit) as [Es Pt]. assert (T63 : total d < 2 ^ 63) by apply Hfit.
    assert (Et2 : total d = n * (volume ds * d_length d)) by (rewrite Et, Ed, volume_cons; unfold d_length; cbn [dset_through d_ty]; ring).
    destruct (slice_bytes f d [] [] [] n ds b e Hf Hfit Ed Et2 Hnl Fp Hdiv) as (bl2 & W2 & _); try assumption; try constructor.
    - constructor.
    - intros _. unfold resolve. cbn [dset_through d_btree]. rewrite Hbt. reflexivity.
    - pose proof (whole_stream f d [] [] Hf Hfit Np (placed_nil _ _ _) ltac:(constructor) ltac:(constructor) (fun _ => Hbt)) as W.
      pose proof (whole_bytes _ _ _ _ _ W Es ltac:(lia) Hnl) as W1.
      rewrite stream_aligned in W1; [|exact Fp|apply Z.mod_0_l; cbn [dset_through d_fill]; lia|constructor]. rewrite Et2 in W1.
      exact (slice_value f heap d [] bl2 [] (d_fill d) [] n ds b e _ v st' Hsz Ed (proj1 Hfit) Hbe He W1 W2 H eq_refl).
  Qed.

  (** Chunks *)
  Section Index.
    Variables (a : Z) (shape : list Z) (it : itree) (xs : list bytes).
    Hypothesis Hl : ri_layout i = shape.
    Hypothesis Hbt : ri_btree i = a.
    Hypothesis Hel : ri_elem i = dlen t.
    Hypothesis Hnu : ri_number i = u64 (fold_left Z.mul shape 1).
    Hypothesis Hrk : ri_rank i = zlen shape + 1.
    Hypothesis Hc : chunks_fit dims shape (dlen t).
    Hypothesis Hix : index_is f a dims shape it.
    Hypothesis Hth : Forall2 (fun c x => block_data f d (index_block d c) x) (ichunks it) xs.

    Lemma chunk_run_slices v st' n ds b e : sliced t n ds v b e -> runs dims shape -> iordered dims shape (dlen t) it ->
      dims = n :: ds -> 0 <= b <= e -> e <= n -> getData f heap d true (opened d []) = (Ok v, st') ->
      exists v', fst (getSlice f heap d b e (opened d [])) = Ok v' /\ vpart v b e = Some v' /\ (b = 0 -> e = n -> v' = v).
    Proof.
      intros Hsz Hr Ho Ed Hbe He H. destruct (fits_chunks i dims t Hd Ht flt sk _ Hl Hc) as (Hfit & ET & N).
      pose proof (index_known f i dims t Hd Ht flt sk _ _ _ Hl Hbt Hel Hnu Hrk Hc Hix) as (I1 & I2 & I3 & I4 & I5 & I6 & I7 & I8 & I9 & I10).
      assert (HI : indexed f d it).
      { unfold indexed. cbn [dset_through d_layout d_dims d_ty d_elem d_number d_rank d_btree] in *. rewrite Hl in *. rewrite Hel in *.
        split; [exact I1|]. split; [exact I2|]. split; [exact I3|]. split; [exact I4|]. split; [exact Hr|]. split; [exact I6|]. split; [exact I7|].
        split; [exact Ho|]. split; [exact I9|]. apply (NoDup_map_inv (chunk_of shape)). rewrite map_map. exact I10. }
      apply (run_slices f d it (chunk_pieces dims t shape it xs) Hf Hfit HI (chunks_placed f i dims t flt sk _ _ _ Hl N Hth) heap n ds b e v st' Hsz Ed fill_pos Hdiv Hbe He H).
    Qed.

    Lemma chunk_start_slices v st' n ds e : sliced t n ds v 0 e -> orderly dims shape -> ~ runs dims shape -> dims = n :: ds -> 0 <= e <= n ->
      getData f heap d true (opened d []) = (Ok v, st') ->
      exists v', fst (getSlice f heap d 0 e (opened d [])) = Ok v' /\ vpart v 0 e = Some v' /\ (e = n -> v' = v).
    Proof.
      intros Hsz Ho Hr Ed He H. destruct (fits_chunks i dims t Hd Ht flt sk _ Hl Hc) as (Hfit & ET & N).
      pose proof (index_known f i dims t Hd Ht flt sk _ _ _ Hl Hbt Hel Hnu Hrk Hc Hix) as HI.
      assert (Hn : needsLayoutReader dims (ri_layout i) = true).
      { rewrite Hl. destruct (needsLayoutReader dims shape) eqn:E; [reflexivity|]. exfalso. apply Hr. apply needs_runs; try assumption.
        - destruct Hc as (_ & _ & P & _). eapply Forall_impl; [|exact P]. cbn beta. lia.
        - destruct Hc as (P & _). symmetry. exact P. }
      apply (chunked_from_start f d it (chunk_pieces dims t shape it xs) Hf Hfit HI (chunks_placed f i dims t flt sk _ _ _ Hl N Hth) (fillOf_some i t)) with (ds := ds) (st' := st'); try assumption.
      cbn [dset_through d_dims d_layout]. rewrite Hl. exact Ho.
    Qed.
  End Index.
End Slices.

(** ** Variables *)
Section Getter.
  Variable deflated : bytes -> bytes -> Prop.
  Variable inflate : bytes -> res bytes.
  Hypothesis inflates : forall d s, deflated d s -> inflate s = Ok d.
  Notation kinds := (map (fun d => (fd_id d, fd_vals d))).

  Lemma rows_filtered f fs dims dt fill a shape b : by_rows deflated f fs dims dt fill (Chunked a shape dt) b ->
    filtered_as deflated f fs dims dt fill (Chunked a shape dt) b.
  Proof.
    intros H. inversion H; subst.
    - apply as_no_filtered; try assumption. apply runs_orderly. assumption.
    - eapply as_filtered; try eassumption. apply runs_orderly. assumption.
  Qed.

  Section One.
    Variables (f : bytes) (i : rinfo) (dims : list Z) (t : fty) (fill : option bytes) (fs : list filter_desc) (p : place) (bt : bytes) (v : hval).
    Hypothesis Hf : zlen f < 2 ^ 63.
    Hypothesis Hd : Forall (fun n => 0 <= n < 2 ^ 63) dims.
    Hypothesis Ht : 0 < fsize t < 2 ^ 32.
    Hypothesis Hk : keeps p i.
    Hypothesis Hr : repeats (fsize t) (fillOf i (H5ForeignType.told t)) fill.
    Hypothesis Hfs : ri_filters i = kinds fs.
    Hypothesis Hn : zlen fs < 2 ^ 8.
    Hypothesis Hv : array_is (in_global_heap f) t dims bt v.
    Hypothesis Hb : zlen bt < 2 ^ 63.
    Notation d := (piped_dset inflate i dims (H5ForeignType.told t)).
    Notation heap := (readGlobalHeap f).

    Lemma bare_dset : fs = [] -> d = dset_of i dims (H5ForeignType.told t).
    Proof. intros ->. unfold piped_dset, dset_of. rewrite Hfs. reflexivity. Qed.

    Lemma rows_value : by_rows deflated f fs dims (fsize t) fill p bt ->
      fst (getData f heap d true (opened d (ri_blocks i))) = Ok v.
    Proof.
      intros H. destruct p as [raw|oa size|oa shape elem] eqn:Ep.
      - assert (E : fs = [] /\ raw = bt) by (inversion H; split; congruence). destruct E as [E ->]. rewrite (bare_dset E).
        apply (data_value f i dims t (Compact bt) fill bt v); try assumption. apply as_compact.
      - assert (E : fs = []) by (inversion H; assumption). rewrite (bare_dset E).
        apply (data_value f i dims t (Contiguous oa size) fill bt v); try assumption.
        inversion H; subst; [apply as_contiguous|apply as_nothing]; assumption.
      - assert (E : elem = fsize t) by (inversion H; reflexivity). subst elem.
        apply (filtered_value deflated inflate inflates f i dims t (Chunked oa shape (fsize t)) fill fs bt v); try assumption. apply rows_filtered. exact H.
    Qed.

    Lemma rows_sliced n ds b e : by_rows deflated f fs dims (fsize t) fill p bt -> sliced (H5ForeignType.told t) n ds v b e ->
      dims = n :: ds -> 0 <= b <= e -> e <= n ->
      exists v', fst (getSlice f heap d b e (opened d (ri_blocks i))) = Ok v' /\ vpart v b e = Some v' /\ (b = 0 -> e = n -> v' = v).
    Proof.
      intros H Hs Ed Hbe He. pose proof (rows_value H) as W. destruct (getData f heap d true (opened d (ri_blocks i))) as [r st'] eqn:G. cbn [fst] in W. subst r.
      pose proof (dlen_told t) as DT.
      assert (Hheap : forall addr idx data, in_global_heap f addr idx data -> heap addr idx = Ok (Some data))
        by (intros addr idx data Hh; apply global_heap_read; assumption).
      pose proof (value_size heap (in_global_heap f) Hheap _ _ _ _ Hv) as Hz. rewrite fold_right_volume in Hz. clear Hheap.
      destruct Hr as [_ Hdiv]. rewrite <- DT in *.
      change d with (dset_through i dims (H5ForeignType.told t) (undoFilters inflate (ri_filters i)) (canSeek (ri_filters i))) in *.
      inversion H as [b0 E|a b0 E Hat|size b0 E Hfl|shape b0 Hc Hru Hfl|a shape it b0 Hc Hru Hix Hio (Hz2 & xs & Hx & _)]; subst p; try subst b0; cbn [keeps] in Hk.
      - destruct Hk as [K1 K2]. rewrite K2 in *. refine (block_slices f i dims _ Hf Hd Ht Hdiv _ _ heap _ bt v st' n ds b e Hs K1 Hz Hb _ Ed Hbe He G).
        intros Nb. split; [reflexivity|]. split; [exact Nb|]. cbn [b_raw]. split; [exists []; rewrite app_nil_r; reflexivity|].
        rewrite Hfs, E. reflexivity.
      - destruct Hk as [K1 K2]. rewrite K2 in *. refine (block_slices f i dims _ Hf Hd Ht Hdiv _ _ heap _ bt v st' n ds b e Hs K1 Hz Hb _ Ed Hbe He G).
        intros Nb. split; [reflexivity|]. split; [exact Nb|]. cbn [b_raw b_addr b_length]. exists bt, [].
        split; [exact Hat|]. split; [reflexivity|]. split; [exact Nb|]. rewrite app_nil_r. rewrite Hfs, E. split; [reflexivity|].
        intros _. exists []. rewrite app_nil_r. reflexivity.
      - destruct Hk as (K1 & K2 & K3). rewrite K2 in *. destruct (fits_flat i dims _ Hd Ht (undoFilters inflate (ri_filters i)) (canSeek (ri_filters i)) [] K1 ltac:(lia)) as [Hfit Et].
        refine (fill_slices f i dims _ Hf Hdiv _ _ heap v st' n ds b e Hs K3 Hfit Et _ Ed Hbe He G).
        rewrite K1. destruct dims; reflexivity.
      - destruct Hk as (K1 & K2 & K3). rewrite K2 in *. destruct (fits_chunks i dims _ Hd Ht (undoFilters inflate (ri_filters i)) (canSeek (ri_filters i)) _ K1 Hc) as (Hfit & Et & N).
        rewrite (proj1 (runs_grid _ _ Hru)) in Et.
        refine (fill_slices f i dims _ Hf Hdiv _ _ heap v st' n ds b e Hs K3 Hfit Et _ Ed Hbe He G).
        rewrite K1. destruct (runs_pos _ _ Hru) as (R1 & R2 & R3). apply needs_runs; assumption.
      - destruct Hk as (K1 & K2 & K3 & K4 & K5 & K6). rewrite K2 in *.
        pose proof (layout_pos _ _ (chunks_ext dims _ Hd _ Hc)) as PV.
        assert (PP : 0 < volume shape * dlen (H5ForeignType.told t)) by (apply Z.mul_pos_pos; lia).
        pose proof (chunk_blocks deflated inflate inflates f i dims _ fs shape _ _ K1 K4 Hfs Hn PP Hf Hx) as Hth.
        exact (chunk_run_slices f i dims _ Hf Hd Ht Hdiv _ _ heap a shape it xs K1 K3 K4 K5 K6 Hc Hix Hth v st' n ds b e Hs Hru Hio Ed Hbe He G).
    Qed.

    Lemma chunks_sliced n ds e : by_chunks deflated f fs dims (fsize t) fill p bt -> sliced (H5ForeignType.told t) n ds v 0 e ->
      dims = n :: ds -> 0 <= e <= n ->
      exists v', fst (getSlice f heap d 0 e (opened d (ri_blocks i))) = Ok v' /\ vpart v 0 e = Some v' /\ (e = n -> v' = v).
    Proof.
      intros H Hs Ed He. inversion H as [a shape it b0 Hc Ho Hnr Hix Hin]; subst b0.
      assert (W : fst (getData f heap d true (opened d (ri_blocks i))) = Ok v).
      { apply (filtered_value deflated inflate inflates f i dims t p fill fs bt v); try assumption. subst p. eapply as_filtered; eassumption. }
      destruct Hin as (Hz2 & xs & Hx & _).
      destruct (getData f heap d true (opened d (ri_blocks i))) as [r st'] eqn:G. cbn [fst] in W. subst r p.
      pose proof (dlen_told t) as DT. destruct Hr as [_ Hdiv]. rewrite <- DT in *.
      change d with (dset_through i dims (H5ForeignType.told t) (undoFilters inflate (ri_filters i)) (canSeek (ri_filters i))) in *.
      cbn [keeps] in Hk. destruct Hk as (K1 & K2 & K3 & K4 & K5 & K6). rewrite K2 in *.
      pose proof (layout_pos _ _ (chunks_ext dims _ Hd _ Hc)) as PV.
      assert (PP : 0 < volume shape * dlen (H5ForeignType.told t)) by (apply Z.mul_pos_pos; lia).
      pose proof (chunk_blocks deflated inflate inflates f i dims _ fs shape _ _ K1 K4 Hfs Hn PP Hf Hx) as Hth.
      exact (chunk_start_slices f i dims _ Hf Hd Ht _ _ heap a shape it xs K1 K3 K4 K5 K6 Hc Hix Hth v st' n ds e Hs Ho Hnr Ed He G).
    Qed.

    (** The value has the shape of the dimensions *)
    Lemma value_shaped : sized (H5ForeignType.told t) /\ no_enum (H5ForeignType.told t) \/ sequence (H5ForeignType.told t) -> shaped dims v.
    Proof.
      intros Hs. assert (Hheap : forall addr idx data, in_global_heap f addr idx data -> heap addr idx = Ok (Some data))
        by (intros addr idx data Hh; apply global_heap_read; assumption).
      assert (Hd' : Forall (fun n => 0 <= n) dims) by (eapply Forall_impl; [|exact Hd]; cbn beta; lia).
      pose proof (value_read heap (in_global_heap f) Hheap _ _ _ _ [] Hv) as R.
      destruct Hs as [[Hs Hne]|Hs]; [exact (sized_shaped heap _ Hs Hne dims (bt ++ []) v [] Hd' R)|exact (sequence_shaped heap _ dims (bt ++ []) v [] Hs Hd' R)].
    Qed.

    (** No dimension of sequences is empty *)
    Lemma sequence_dims n ds : sequence (H5ForeignType.told t) -> dims = n :: ds -> 0 < n.
    Proof.
      intros Hs Ed. assert (Hheap : forall addr idx data, in_global_heap f addr idx data -> heap addr idx = Ok (Some data))
        by (intros addr idx data Hh; apply global_heap_read; assumption).
      pose proof (value_read heap (in_global_heap f) Hheap _ _ _ _ [] Hv) as R. rewrite Ed in R, Hd.
      inversion Hd as [|? ? Hn0 _]; subst x l. destruct (Z.eq_dec n 0) as [->|N]; [exfalso|lia].
      exact (sequence_some heap _ ds _ _ _ Hs R).
    Qed.
  End One.
End Getter.
