(** Variables with filters and an old fill value of no bytes: lemmas for C84. *)
From Coq Require Import Lia ZifyBool ZifyNat Permutation.
From Verif Require Import Prelude BaseLemmas GoVal ArraySpec H5Base H5MetaWrite H5MetaRead H5Value H5TypeRead H5LayoutModel H5RecordModel ChunkSpec RecordSpec
  MetaSpec DenseSpec FilterSpec ForeignSpec ForeignTypeSpec ForeignMsgSpec ForeignDataSpec ForeignValueSpec ForeignFilterSpec EmptyFillSpec EmptyFilterSpec
  H5PathModel H5FileRead H5PipeModel H5PipeProofs H5MetaProofs H5RecordProofs H5ObjectProofs H5ForeignProofs H5ForeignTree H5ForeignMsg P_H5Foreign
  H5ForeignType P_H5ForeignType H5ForeignValue H5ForeignData H5ForeignVar H5ChunkProofs H5ChunkedProofs H5PipeVar H5EmptyFill.

Lemma came_unfilled_filtered f name a o fs dims t p : zlen f < 2 ^ 63 -> came f name a (FData dims) o -> unfilled_filtered_at f alone a fs dims t p ->
  let i := r_info o in
  ri_dims i = Some dims /\ ri_ty i = Some (H5ForeignType.told t) /\ keeps p i /\ ri_fill i = None /\ ri_fillOld i = Some [] /\
  ri_filters i = map (fun d => (fd_id d, fd_vals d)) fs /\ 0 < fsize t < 2 ^ 32 /\ zlen fs < 2 ^ 8.
Proof.
  intros Hf Hc (c & l & b & Hm & Hl & H1 & Hb & Ha & l1 & l2 & tb & tpad & pb & ppad & fb & fpad & pad & El & T1 & T2 & P1 & P2 & H11 & Hfs & Hkn & H5 & H4 & Ht & Hfm & Hop & Hpl) i.
  destruct (came_parts f name a o dims c l b Hf Hc Hm Hl H1 Hb Ha) as (E1 & i0 & S0 & E4).
  destruct (place_kept l1 l2 tb tpad pb ppad t p i0 T1 T2 P1 P2 Ht Hfm Hop Hpl S0) as [K1 K2]. rewrite <- El in K1, K2.
  unfold stuff in S0. injection S0 as _ _ _ _ _ _ _ S8 _ S10.
  destruct (empty_kept l i0 pad S8 H5 H4) as [F1 F2].
  destruct (stuff_parts _ _ E4) as (Q1 & Q2 & _ & _ & _ & Q5).
  unfold stuff in E4. injection E4 as _ _ _ _ _ _ _ R8 R9 R10.
  split; [exact E1|]. split; [rewrite <- K1; exact Q1|]. split; [apply Q2, K2|]. split; [rewrite <- F1; exact R8|].
  split; [rewrite <- F2; exact R9|]. split; [|split; [exact (type_size _ _ _ Ht)|destruct Hfs; assumption]].
  unfold i. rewrite R10. destruct (of_type_one _ _ _ H11) as (la & m & lb & El' & M1 & M2 & A1 & A2).
  rewrite El', own_all_app, own_all_cons, (untouched _ _ filters_untouched _ _ (only A2)), M1, M2.
  unfold own. cbn [Z.eqb Pos.eqb]. unfold got. rewrite (C76_filters_partial _ _ _ Hfs Hkn). cbn [add_filters ri_filters].
  rewrite (untouched _ _ filters_untouched _ _ (only A1)), S10. reflexivity.
Qed.

Section Piped.
  Variable deflated : bytes -> bytes -> Prop.
  Variable inflate : bytes -> res bytes.
  Hypothesis inflates : forall d s, deflated d s -> inflate s = Ok d.

  (** Chunks that are there once the filters are undone *)
  Lemma piped_asks f i dims t fs a shape it xs : zlen f < 2 ^ 63 -> Forall (fun n => 0 <= n < 2 ^ 63) dims -> 0 < dlen t < 2 ^ 32 ->
    ri_filters i = map (fun d => (fd_id d, fd_vals d)) fs -> zlen fs < 2 ^ 8 ->
    keeps (Chunked (Some a) shape (dlen t)) i -> chunks_fit dims shape (dlen t) -> index_is f a dims shape it ->
    Forall2 (chunk_is deflated f fs shape (dlen t)) (ichunks it) xs -> volume (chunk_grid dims shape) * volume shape * dlen t <> 0 ->
    asksFill f (piped_dset inflate i dims t) (ri_blocks i) =
      Ok (negb (zlen (ichunks it) =? volume (chunk_grid dims shape)) || (volume dims <? volume (chunk_grid dims shape) * volume shape)).
  Proof.
    intros Hf Hd Ht Hfs Hn K Hc Hix Hth Hz. cbn [keeps] in K. destruct K as (K1 & -> & K2 & K3 & K4 & K5).
    pose proof (chunks_ext dims t Hd _ Hc) as Hext. pose proof (layout_pos _ _ Hext) as PV.
    assert (PP : 0 < volume shape * dlen t) by (apply Z.mul_pos_pos; lia).
    set (flt := undoFilters inflate (ri_filters i)). set (sk := canSeek (ri_filters i)).
    destruct (fits_chunks i dims t Hd Ht flt sk shape K1 Hc) as (F & Et & N).
    pose proof (index_known f i dims t Hd Ht flt sk a shape it K1 K2 K3 K4 K5 Hc Hix) as Hw.
    pose proof (chunk_blocks deflated inflate inflates f i dims t fs shape _ _ K1 K3 Hfs Hn PP Hf Hth) as Hbl. cbv zeta in Hbl.
    pose proof (chunks_placed f i dims t flt sk shape it _ K1 N Hbl) as Hpl.
    pose proof (chunks_asked f (piped_dset inflate i dims t) it Hf F Hw _ Hpl) as CA.
    assert (D1 : d_dims (piped_dset inflate i dims t) = dims) by reflexivity. assert (D2 : d_layout (piped_dset inflate i dims t) = shape) by exact K1.
    rewrite D1, D2 in CA. apply CA. change (piped_dset inflate i dims t) with (dset_through i dims t flt sk). rewrite Et. exact Hz.
  Qed.

  Theorem filtered_stored f root h name o a fs dims t p b v : zlen f < 2 ^ 63 -> findVariable h name = Some o -> came f name a (FData dims) o ->
    unfilled_filtered_at f alone a fs dims t p -> Forall (fun n => 0 <= n < 2 ^ 63) dims -> all_filtered deflated f fs dims (fsize t) p b ->
    array_is (in_global_heap f) t dims b v ->
    getVariablePiped inflate f root h name = with_attrs f root (r_attrs o) v.
  Proof.
    intros Hf Hfind Hc Hu Hd (a' & shape & it & -> & C1 & C2 & C3 & C4 & C5 & C6) Hv.
    destruct (came_unfilled_filtered f name a o fs dims t _ Hf Hc Hu) as (E1 & E2 & E3 & E4 & E5 & E6 & Hs & Hn).
    unfold getVariablePiped. rewrite Hfind, E1, E2. cbv zeta.
    assert (Hr : repeats (fsize t) (fillOf (r_info o) (H5ForeignType.told t)) None).
    { unfold fillOf. rewrite E4, E5. split; [intros w [=]|apply Z.mod_1_r]. }
    assert (Hst : filtered_as deflated f fs dims (fsize t) None (Chunked (Some a') shape (fsize t)) b)
      by exact (as_filtered deflated f fs dims (fsize t) None a' shape it b C1 C2 C3 C4).
    assert (Hlen := dlen_told t).
    pose proof (filtered_value deflated inflate inflates f (r_info o) dims t _ None fs b v Hf Hd Hs E3 Hr E6 Hn Hst Hv) as FV. cbv zeta in FV.
    assert (EA : asksFill f (piped_dset inflate (r_info o) dims (H5ForeignType.told t)) (ri_blocks (r_info o)) = Ok false).
    { destruct C4 as (Hz & xs & Hx & He). rewrite <- Hlen in E3, C1, Hx, Hs. destruct (Z.eq_dec (volume dims) 0) as [V0|V0].
      - set (flt := undoFilters inflate (ri_filters (r_info o))). set (sk := canSeek (ri_filters (r_info o))).
        destruct (fits_chunks (r_info o) dims _ Hd Hs flt sk shape (proj1 E3) C1) as (F & Et & _).
        destruct (size_total _ _ F) as [Es _]. rewrite Et, <- C6, V0 in Es.
        change (dset_through (r_info o) dims (H5ForeignType.told t) flt sk) with (piped_dset inflate (r_info o) dims (H5ForeignType.told t)) in Es.
        unfold asksFill. cbv zeta. rewrite Es. reflexivity.
      - rewrite (piped_asks f (r_info o) dims _ fs a' shape it xs Hf Hd Hs E6 Hn E3 C1 C3 Hx).
        + rewrite C5, C6, Z.eqb_refl, Z.ltb_irrefl. reflexivity.
        + rewrite <- C6. intros E0. apply Z.mul_eq_0 in E0. destruct E0 as [E0|E0]; [exact (V0 E0)|]. clear -E0 Hs. lia. }
    unfold fill_usable. rewrite E4, E5, EA. cbn [rbind]. rewrite FV. reflexivity.
  Qed.

  Theorem filtered_not_stored f root h name o a fs dims t p : zlen f < 2 ^ 63 -> findVariable h name = Some o -> came f name a (FData dims) o ->
    unfilled_filtered_at f alone a fs dims t p -> Forall (fun n => 0 < n < 2 ^ 63) dims -> filtered_missing deflated f fs dims (fsize t) p ->
    getVariablePiped inflate f root h name = Panic.
  Proof.
    intros Hf Hfind Hc Hu Hd Hp. destruct (came_unfilled_filtered f name a o fs dims t p Hf Hc Hu) as (E1 & E2 & E3 & E4 & E5 & E6 & Hs & Hn).
    unfold getVariablePiped. rewrite Hfind, E1, E2. cbv zeta.
    unfold fill_usable. rewrite E4, E5.
    set (d := piped_dset inflate (r_info o) dims (H5ForeignType.told t)).
    assert (Hlen := dlen_told t).
    assert (Hd0 : Forall (fun n => 0 <= n < 2 ^ 63) dims) by (eapply Forall_impl; [|exact Hd]; cbn beta; intros; lia).
    assert (V : 0 < volume dims) by (clear -Hd; induction Hd as [|n l H Hd IH]; cbn [volume]; [lia|apply Z.mul_pos_pos; lia]).
    destruct Hp as [(shape & -> & Hfit)|(a' & shape & it & xs & -> & C1 & C2 & C3 & C4)].
    - cbn [keeps] in E3; destruct E3 as (K1 & K2 & K3). rewrite <- Hlen in Hfit.
      set (flt := undoFilters inflate (ri_filters (r_info o))). set (sk := canSeek (ri_filters (r_info o))).
      destruct (fits_chunks (r_info o) dims _ Hd0 ltac:(rewrite Hlen; exact Hs) flt sk shape K1 Hfit) as (F & Et & _).
      change (dset_through (r_info o) dims (H5ForeignType.told t) flt sk) with d in F, Et.
      destruct (size_total _ _ F) as [Es _].
      pose proof (chunks_ext dims (H5ForeignType.told t) Hd0 _ Hfit) as Hext. pose proof (grid_covers _ _ Hext) as PG.
      assert (0 < volume (chunk_grid dims shape) * volume shape * fsize t) by (apply Z.mul_pos_pos; lia).
      rewrite K2. unfold asksFill. cbv zeta. destruct (Z.eqb_spec (d_size d) 0) as [X|_]; [exfalso; rewrite Es, Et, Hlen in X; lia|].
      change (d_btree d) with (ri_btree (r_info o)). rewrite K3. reflexivity.
    - rewrite <- Hlen in E3, C1, C3, Hs. pose proof (chunks_ext dims (H5ForeignType.told t) Hd0 _ C1) as Hext.
      pose proof (grid_covers _ _ Hext) as PG. unfold d. rewrite (piped_asks f (r_info o) dims _ fs a' shape it xs Hf Hd0 Hs E6 Hn E3 C1 C2 C3).
      + cbn [rbind]. assert (B : negb (zlen (ichunks it) =? volume (chunk_grid dims shape)) || (volume dims <? volume (chunk_grid dims shape) * volume shape) = true).
        { destruct C4 as [C4|C4]; apply Bool.orb_true_iff; [left; apply Bool.negb_true_iff, Z.eqb_neq; lia|right; apply Z.ltb_lt; exact C4]. }
        rewrite B. reflexivity.
      + intros E0. apply Z.mul_eq_0 in E0. destruct E0 as [E0|E0]; clear -E0 V PG Hs; lia.
  Qed.
End Piped.
