(** Variables with an old fill value of no bytes: lemmas for C84. *)
From Coq Require Import Lia ZifyBool ZifyNat Permutation.
From Verif Require Import Prelude BaseLemmas GoVal ArraySpec H5Base H5MetaWrite H5MetaRead H5Value H5TypeRead H5LayoutModel H5RecordModel ChunkSpec RecordSpec
  MetaSpec DenseSpec ForeignSpec ForeignTypeSpec ForeignMsgSpec ForeignDataSpec ForeignValueSpec EmptyFillSpec
  H5PathModel H5FileRead H5PipeModel H5MetaProofs H5RecordProofs H5ObjectProofs H5ForeignProofs H5ForeignTree H5ForeignMsg P_H5Foreign
  H5ForeignType P_H5ForeignType H5ForeignValue H5ForeignData H5ForeignVar H5ChunkProofs H5ChunkedProofs.

Lemma empty_kept l i pad : ri_fill i = None -> of_type 5 l = [] -> of_type 4 l = [[0; 0; 0; 0] ++ zrep pad 0] ->
  ri_fill (own_all l i) = None /\ ri_fillOld (own_all l i) = Some [].
Proof.
  intros H1 E5 E4. destruct (of_type_one _ _ _ E4) as (l1 & m & l2 & El & M1 & M2 & A1 & A2).
  split; [rewrite (untouched _ _ fill_untouched _ _ (only E5)); exact H1|].
  rewrite El, own_all_app, own_all_cons, (untouched _ _ fillOld_untouched _ _ (only A2)). rewrite M1, M2.
  unfold own. cbn [Z.eqb Pos.eqb]. unfold got.
  change ([0; 0; 0; 0] ++ zrep pad 0) with ((le 4 (zlen (@nil Z)) ++ []) ++ zrep pad 0). rewrite (rd_exact []) by reflexivity. reflexivity.
Qed.

Lemma came_unfilled f name a o dims t p : zlen f < 2 ^ 63 -> came f name a (FData dims) o -> unfilled_at f alone a dims t p ->
  let i := r_info o in
  ri_dims i = Some dims /\ ri_ty i = Some (H5ForeignType.told t) /\ keeps p i /\ ri_fill i = None /\ ri_fillOld i = Some [] /\
  ri_filters i = [] /\ 0 < fsize t < 2 ^ 32.
Proof.
  intros Hf Hc (c & l & b & Hm & Hl & H1 & Hb & Ha & l1 & l2 & tb & tpad & pb & ppad & pad & El & T1 & T2 & P1 & P2 & H11 & H5 & H4 & Ht & Hfm & Hop & Hpl) i.
  destruct (came_parts f name a o dims c l b Hf Hc Hm Hl H1 Hb Ha) as (E1 & i0 & S0 & E4).
  destruct (place_kept l1 l2 tb tpad pb ppad t p i0 T1 T2 P1 P2 Ht Hfm Hop Hpl S0) as [K1 K2]. rewrite <- El in K1, K2.
  unfold stuff in S0. injection S0 as _ _ _ _ _ _ _ S8 _ S10.
  destruct (empty_kept l i0 pad S8 H5 H4) as [F1 F2].
  destruct (stuff_parts _ _ E4) as (Q1 & Q2 & _ & _ & _ & Q5).
  unfold stuff in E4. injection E4 as _ _ _ _ _ _ _ R8 R9 R10.
  split; [exact E1|]. split; [rewrite <- K1; exact Q1|]. split; [apply Q2, K2|]. split; [rewrite <- F1; exact R8|].
  split; [rewrite <- F2; exact R9|]. split; [|exact (type_size _ _ _ Ht)].
  unfold i. rewrite R10, (untouched _ _ filters_untouched _ _ (only H11)). exact S10.
Qed.

Lemma bare_dset inflate i dims t : ri_filters i = [] -> piped_dset inflate i dims t = dset_of i dims t.
Proof. intros E. unfold piped_dset, dset_of. rewrite E. reflexivity. Qed.

(** One block with all the data asks for no fill value *)
Lemma one_asks f i dims t blk b : zlen f < 2 ^ 63 -> Forall (fun n => 0 <= n < 2 ^ 63) dims -> 0 < dlen t < 2 ^ 32 ->
  ri_layout i = [] -> zlen b = volume dims * dlen t -> zlen b < 2 ^ 63 ->
  (b <> [] -> block_data f (dset_of i dims t) blk b) -> asksFill f (dset_of i dims t) [blk] = Ok false.
Proof.
  intros Hf Hd Ht Hl Hz Hb Hblk. set (d := dset_of i dims t) in *.
  pose proof Hb as Hb'. rewrite Hz in Hb'.
  destruct (fits_flat i dims t Hd Ht (fun _ b => Ok b) true [blk] Hl Hb') as [Hfit Et].
  change (dset_through i dims t (fun _ b => Ok b) true) with d in Hfit, Et.
  destruct (size_total _ _ Hfit) as [Es Pt]. pose proof (zlen_nonneg b) as Z0.
  unfold asksFill. cbv zeta. rewrite Es, Et, <- Hz. destruct (Z.eqb_spec (zlen b) 0) as [E0|N0]; [reflexivity|].
  cbn [rbind]. assert (Nb : b <> []) by (intros ->; apply N0; reflexivity).
  assert (Ll : d_layout d = []) by exact Hl.
  assert (Hpl : placed f d 0 [blk] [(0, b)]).
  { pose proof (placed_cons f d 0 blk [] b []) as P. rewrite Ll in P. apply P; [exact (Hblk Nb)|apply placed_nil]. }
  destruct (readBlocks_ok f d 0 (zlen b) Hf ltac:(lia) Hb [blk] 0 [(0, b)] Hpl) as (segs & E & G1 & G2).
  { intros N. exfalso. exact (N Ll). }
  { constructor; [|constructor]. unfold p_end. cbn [fst snd]. lia. }
  { left. constructor; constructor. }
  rewrite E. cbn [rbind].
  assert (T : touches 0 (zlen b) (0, b) = true) by (unfold touches, p_end; cbn [fst snd]; lia).
  cbn [filter] in G1. rewrite T in G1. cbn [map] in G1.
  destruct segs as [|s [|s' segs]]; try discriminate G1. injection G1 as G1a G1b.
  inversion G2 as [|? ? [L1 L2] _]; subst. cbn [sortSegs fold_right insertSeg joinSegs hasHole].
  assert (S0 : s_off s = 0) by (rewrite G1a; cbn [fst]; lia).
  assert (S1 : s_len s = zlen b).
  { rewrite L2. cbn [seg_piece snd]. rewrite G1b. unfold p_end. cbn [fst snd]. rewrite zlen_part by lia. lia. }
  rewrite S0, S1, Z.ltb_irrefl. cbn [orb]. rewrite Z.add_0_l, u64_small by lia. rewrite Z.ltb_irrefl.
  assert (NL : needsLayoutReader (d_dims d) (d_layout d) = false) by (rewrite Ll; destruct (d_dims d); reflexivity).
  rewrite NL, Z.ltb_irrefl. reflexivity.
Qed.

(** ** How much is stored *)
Definition seg_sum (l : list segment) : Z := fold_right (fun s a => s_len s + a) 0 l.
Definition piece_sum (l : list piece) : Z := fold_right (fun x a => zlen (snd x) + a) 0 l.

Lemma row_sum l : forall lo hi, in_row lo hi l -> seg_sum l <= hi - lo.
Proof. induction l as [|s r IH]; cbn [in_row seg_sum fold_right]; intros lo hi H; [lia|]. destruct H as (A & B & C). specialize (IH _ _ C). unfold seg_sum in IH. lia. Qed.
Lemma row_full pat l : forall lo hi, 0 <= lo -> hi < 2 ^ 63 -> in_row lo hi l ->
  hasHole l lo || (snd (joinSegs pat l lo) <? hi) = negb (seg_sum l =? hi - lo).
Proof.
  induction l as [|s r IH]; cbn [in_row seg_sum fold_right hasHole joinSegs]; intros lo hi Hlo Hhi H; [cbn [snd orb]; lia|].
  destruct H as (A & B & C). pose proof (row_sum _ _ _ C) as D. pose proof (in_row_le _ _ _ C) as L. fold (seg_sum r) in *.
  destruct (Z.ltb_spec lo (s_off s)) as [H|H].
  - cbn [orb]. symmetry. apply Bool.negb_true_iff, Z.eqb_neq. lia.
  - assert (s_off s = lo) as E by lia. rewrite E in C, D, L. rewrite (u64_small (lo + s_len s)) by lia.
    destruct (joinSegs pat r (lo + s_len s)) as [b off] eqn:J. cbn [snd orb].
    assert (S0 : 0 <= lo + s_len s) by lia. specialize (IH _ _ S0 Hhi C). rewrite J in IH. cbn [snd] in IH. rewrite IH. lia.
Qed.
Lemma seg_sum_perm l l' : Permutation l l' -> seg_sum l = seg_sum l'.
Proof. induction 1; cbn [seg_sum fold_right] in *; unfold seg_sum in *; lia. Qed.
Lemma segs_pieces l : Forall (fun s => s_len s <= zlen (s_data s) /\ s_len s = zlen (snd (seg_piece s))) l -> seg_sum l = piece_sum (map seg_piece l).
Proof. induction 1 as [|s l [_ H] _ IH]; [reflexivity|]. cbn [map]. change (s_len s + seg_sum l = zlen (snd (seg_piece s)) + piece_sum (map seg_piece l)). lia. Qed.
Lemma inside_clipped t ps : inside t ps -> filter (touches 0 t) ps = ps /\ piece_sum (map (clip 0 t) ps) = piece_sum ps.
Proof.
  induction 1 as [|x l (A & B & C) _ [IH1 IH2]]; [split; reflexivity|]. pose proof (nonempty_len _ C) as P.
  assert (T : touches 0 t x = true) by (unfold touches, p_end in *; lia).
  cbn [filter map piece_sum fold_right]. rewrite T, IH1. split; [reflexivity|]. unfold piece_sum in IH2. rewrite IH2. f_equal.
  clear -A B P. unfold clip, p_end in *. destruct x as [o b]. cbn [fst snd] in *. rewrite zlen_part; lia.
Qed.

(** The segments of pieces apart, in a row *)
Lemma blocks_asked f d last_ bl ps : zlen f < 2 ^ 63 -> 0 < last_ -> last_ < 2 ^ 63 ->
  placed f d 0 bl ps ->
  (d_layout d <> [] -> Forall (fun b => calculateFlatOffset (b_offsets b) (d_dims d) (d_layout d) (d_length d) = chunk_pos d b) bl) ->
  RecordSpec.apart ps -> RecordSpec.inside last_ ps ->
  exists segs, readBlocks f d 0 last_ bl 0 = Ok segs /\
    hasHole (sortSegs segs) 0 || (snd (joinSegs (d_fill d) (sortSegs segs) 0) <? last_) = negb (piece_sum ps =? last_).
Proof.
  intros Hf H0 Hl Hpl Hpos Ha Hin. set (first := 0). assert (Hr : 0 <= first <= last_) by (unfold first; lia).
  assert (Hin' : Forall (fun x => 0 <= fst x /\ p_end x < 2 ^ 63) ps) by (eapply Forall_impl; [|exact Hin]; cbn beta; intros x (A & B & C); lia).
  assert (Hord : ascending ps \/ Forall (fun x => fst x < last_) ps).
  { right. eapply Forall_impl; [|exact Hin]. cbn beta. intros x (A & B & C). pose proof (nonempty_len _ C). unfold p_end in B. lia. }
  destruct (readBlocks_ok f d first last_ Hf Hr Hl bl 0 ps Hpl Hpos Hin' Hord) as (segs & E & G1 & G2).
  exists segs. split; [exact E|]. pose proof (sortSegs_perm segs) as Pm. pose proof (sortSegs_sorted segs) as Ss.
  assert (A1 : RecordSpec.apart (map seg_piece (sortSegs segs))).
  { eapply apart_perm; [apply Permutation_map, Permutation_sym, Pm|]. rewrite G1. apply apart_clip; [lia|exact Ha]. }
  assert (G3 : Forall (fun s => s_len s <= zlen (s_data s) /\ s_len s = zlen (snd (seg_piece s)) /\
                   first <= s_off s /\ s_off s + s_len s <= last_) segs /\ Forall (fun s => 0 < s_len s) segs).
  { assert (X : Forall (fun s => (s_len s <= zlen (s_data s) /\ s_len s = zlen (snd (seg_piece s)) /\
                   first <= s_off s /\ s_off s + s_len s <= last_) /\ 0 < s_len s) segs).
    { apply Forall_forall. intros s Hs. rewrite Forall_forall in G2. destruct (G2 s Hs) as [L1 L2].
      assert (I : In (seg_piece s) (map seg_piece segs)) by (apply in_map; exact Hs).
      rewrite G1 in I. apply in_map_iff in I. destruct I as (x & Ex & Ix). apply filter_In in Ix. destruct Ix as [Ix Tx].
      pose proof (clip_end first last_ x ltac:(lia) Tx) as Ce. rewrite Ex in Ce. unfold p_end in Ce at 1. rewrite <- L2 in Ce.
      unfold inside in Hin. rewrite Forall_forall in Hin. destruct (Hin x Ix) as (B1 & B2 & B3). pose proof (nonempty_len _ B3).
      apply (f_equal fst) in Ex. cbn [clip fst seg_piece] in Ex, Ce. unfold touches, p_end in *. lia. }
    split; (eapply Forall_impl; [|exact X]); cbn beta; tauto. }
  destruct G3 as [G3 G4].
  assert (Row : in_row first last_ (sortSegs segs)).
  { apply sorted_row; [lia|exact Ss|exact A1| |].
    - eapply Forall_perm; [apply Permutation_sym; exact Pm|exact G3].
    - left. eapply Forall_perm; [apply Permutation_sym; exact Pm|exact G4]. }
  rewrite (row_full (d_fill d) _ first last_ ltac:(lia) Hl Row). f_equal. unfold first. rewrite Z.sub_0_r. f_equal.
  rewrite (seg_sum_perm _ _ Pm), (segs_pieces _ G2), G1. unfold first. destruct (inside_clipped _ _ Hin) as [-> ->]. reflexivity.
Qed.

(** Chunks that fit in the dataset without a rest need no reader of layouts because of it *)
Lemma exact_volume dims shape : ext_ok dims shape -> existsb (fun b => b) (zip (fun d l => negb (d mod l =? 0)) dims shape) = false ->
  volume dims = volume (chunk_grid dims shape) * volume shape.
Proof.
  induction 1 as [|d l ds ls (Hd & Hl & Hs) _ IH]; cbn [zip existsb chunk_grid volume]; intros H; [reflexivity|].
  apply Bool.orb_false_iff in H. destruct H as [H1 H2]. rewrite (IH H2).
  assert (M : d mod l = 0) by lia. assert (E : (d + l - 1) / l * l = d).
  { apply Z.div_exact in M; [|lia]. rewrite M at 1. replace (l * (d / l) + l - 1) with (l - 1 + d / l * l) by ring.
    rewrite Z.div_add by lia. rewrite (Z.div_small (l - 1)) by lia. lia. }
  rewrite <- E at 1. ring.
Qed.

Section Chunks.
Variables (f : bytes) (d : dset) (t : itree).
Hypothesis Hf : zlen f < 2 ^ 63.
Hypothesis Hfit : fits d [].
Hypothesis Hix : indexed_whole f d t.
Variable ps : list piece.
Hypothesis Hpl : placed f d 0 (map (index_block d) (ichunks t)) ps.

Lemma pieces_sum : piece_sum ps = zlen (ichunks t) * (volume (d_layout d) * d_length d).
Proof.
  pose proof (wh_pieces f d t Hix ps Hpl) as P. revert P. generalize (ichunks t) ps. intros cs0 qs0 P. induction P as [|c x cs qs (A & B & C) P IH]; [reflexivity|].
  change (zlen (snd x) + piece_sum qs = zlen (c :: cs) * (volume (d_layout d) * d_length d)). rewrite IH, zlen_cons.
  transitivity (volume (d_layout d) * d_length d + zlen cs * (volume (d_layout d) * d_length d)); [apply Z.add_cancel_r; exact B|]. ring.
Qed.

(** No fill value is asked for where all chunks are there, and they do not go beyond the dataset *)
Lemma chunks_asked : total d <> 0 ->
  asksFill f d [] = Ok (negb (zlen (ichunks t) =? volume (chunk_grid (d_dims d) (d_layout d))) ||
                        (volume (d_dims d) <? volume (chunk_grid (d_dims d) (d_layout d)) * volume (d_layout d))).
Proof.
  intros Z0. destruct (size_total _ _ Hfit) as [Es Pt]. assert (NB : d_btree d <> 0) by apply Hix.
  assert (Ht : total d < 2 ^ 63) by apply Hfit.
  pose proof (wh_apart f d t Hfit Hix ps Hpl) as Ap. pose proof (wh_inside f d t Hfit Hix ps Hpl) as Ins.
  pose proof (wh_dt d Hfit) as Pd. pose proof (wh_n f d t Hfit Hix) as Pn.
  pose proof (wh_total f d t Hix) as ET. pose proof (wh_ext f d t Hfit Hix) as Hext. pose proof (grid_covers _ _ Hext) as GC.
  set (G := volume (chunk_grid (d_dims d) (d_layout d))) in *. set (n := volume (d_layout d)) in *. set (dt := d_length d) in *.
  unfold asksFill. cbv zeta. rewrite Es. destruct (Z.eqb_spec (total d) 0) as [X|_]; [contradiction|].
  replace (d_btree d =? 0) with false by lia. rewrite (wh_index f d t Hf Hfit Hix). cbn [rbind].
  assert (PS := pieces_sum). fold n dt in PS.
  assert (PG : 0 < G) by nia.
  destruct (map (index_block d) (ichunks t)) as [|b0 br] eqn:EB.
  - assert (EC : ichunks t = []) by (destruct (ichunks t); [reflexivity|discriminate]). rewrite EC.
    change (zlen (@nil (key * Z))) with 0. destruct (Z.eqb_spec 0 G) as [X|_]; [exfalso; lia|]. reflexivity.
  - destruct (blocks_asked f d (total d) (b0 :: br) ps Hf ltac:(lia) Ht) as (segs & E & K).
    + exact Hpl.
    + intros _. rewrite <- EB. apply (chunk_places d); [exact (wh_fits f d t Hfit Hix)|exact (wh_layout f d t Hix)].
    + exact Ap.
    + exact Ins.
    + rewrite E. cbn [rbind]. destruct (joinSegs (d_fill d) (sortSegs segs) 0) as [data off]. cbn [snd] in K. rewrite K. do 2 f_equal.
      * f_equal. rewrite PS, ET. replace (G * n * dt) with (G * (n * dt)) by ring.
        destruct (Z.eqb_spec (zlen (ichunks t)) G) as [->|NE]; [apply Z.eqb_refl|]. apply Z.eqb_neq. intros Q. apply NE.
        apply Z.mul_cancel_r in Q; [exact Q|]. nia.
      * assert (VD : 0 <= volume (d_dims d)) by (apply volume_nonneg; eapply Forall_impl; [|exact (proj1 Hfit)]; cbn beta; lia).
        unfold calcDataSize. rewrite prod64_volume, u64_mul_l. fold dt.
        assert (B : volume (d_dims d) * dt <= G * n * dt) by (apply Z.mul_le_mono_nonneg_r; lia).
        assert (B0 : 0 <= volume (d_dims d) * dt) by (apply Z.mul_nonneg_nonneg; lia).
        rewrite u64_small by lia. rewrite !i64_small by lia.
        destruct (needsLayoutReader (d_dims d) (d_layout d)) eqn:NL.
        -- rewrite ET. destruct (Z.ltb_spec (volume (d_dims d)) (G * n)) as [L|L].
           ++ apply Z.ltb_lt. apply Z.mul_lt_mono_pos_r; lia.
           ++ apply Z.ltb_ge. apply Z.mul_le_mono_nonneg_r; lia.
        -- rewrite Z.ltb_irrefl. symmetry. apply Z.ltb_ge.
           unfold needsLayoutReader in NL. pose proof (wh_layout f d t Hix) as Nl. destruct (d_layout d) as [|l0 lr] eqn:El; [contradiction|].
           apply Bool.orb_false_iff in NL. rewrite (exact_volume _ _ Hext (proj1 NL)). unfold G, n. lia.
Qed.
End Chunks.

(** Chunks without filters that are there *)
Lemma there_asks f i dims t a shape it : zlen f < 2 ^ 63 -> Forall (fun n => 0 <= n < 2 ^ 63) dims -> 0 < dlen t < 2 ^ 32 ->
  keeps (Chunked (Some a) shape (dlen t)) i -> chunks_fit dims shape (dlen t) -> index_is f a dims shape it ->
  Forall (chunk_there f shape (dlen t)) (ichunks it) -> volume (chunk_grid dims shape) * volume shape * dlen t <> 0 ->
  asksFill f (dset_of i dims t) (ri_blocks i) =
    Ok (negb (zlen (ichunks it) =? volume (chunk_grid dims shape)) || (volume dims <? volume (chunk_grid dims shape) * volume shape)).
Proof.
  intros Hf Hd Ht K Hc Hix Hth Hz. cbn [keeps] in K. destruct K as (K1 & -> & K2 & K3 & K4 & K5).
  pose proof (chunks_ext dims t Hd _ Hc) as Hext. pose proof (layout_pos _ _ Hext) as PV.
  assert (PP : 0 < volume shape * dlen t) by (apply Z.mul_pos_pos; lia).
  destruct (fits_chunks i dims t Hd Ht (fun _ b => Ok b) true shape K1 Hc) as (F & Et & N).
  pose proof (index_known f i dims t Hd Ht (fun _ b => Ok b) true a shape it K1 K2 K3 K4 K5 Hc Hix) as Hw.
  assert (FF : forall (A B : Type) (R : A -> B -> Prop) (g : A -> B) l, Forall (fun a => R a (g a)) l -> Forall2 R l (map g l))
    by (intros A B R g l H; induction H; constructor; assumption).
  assert (Hbl : Forall2 (fun c x => block_data f (dset_of i dims t) (index_block (dset_of i dims t) c) x) (ichunks it) (map (body_of f (dlen t) shape) (ichunks it))).
  { apply FF. eapply Forall_impl; [|exact Hth]. cbn beta. intros c (Q1 & Q2 & Q3).
    assert (PL' : zlen (body_of f (dlen t) shape c) = volume shape * dlen t) by (unfold body_of; rewrite zlen_ztake; [reflexivity|lia|]; rewrite zlen_zdrop by lia; lia).
    unfold block_data. change (dset_of i dims t) with (dset_through i dims t (fun _ b => Ok b) true).
    cbn [index_block b_ds b_raw b_addr b_length dset_through d_layout d_elem d_filter d_seek]. rewrite K1, K3.
    split; [exact PL'|]. split; [intros E0; rewrite E0 in PL'; cbn in PL'; lia|].
    exists (body_of f (dlen t) shape c), [].
    split.
    { unfold body_of. exists (ztake (snd c) f), (zdrop (volume shape * dlen t) (zdrop (snd c) f)).
      rewrite (ztake_zdrop (volume shape * dlen t)), ztake_zdrop. split; [reflexivity|]. apply zlen_ztake; lia. }
    split; [rewrite Q1; exact PL'|]. split; [intros E0; rewrite E0 in PL'; cbn in PL'; lia|].
    rewrite app_nil_r. split; [reflexivity|]. intros _. exists []. rewrite app_nil_r. reflexivity. }
  pose proof (chunks_placed f i dims t (fun _ b => Ok b) true shape it _ K1 N Hbl) as Hpl.
  pose proof (chunks_asked f (dset_of i dims t) it Hf F Hw _ Hpl) as CA.
  assert (D1 : d_dims (dset_of i dims t) = dims) by reflexivity. assert (D2 : d_layout (dset_of i dims t) = shape) by exact K1.
  rewrite D1, D2 in CA. apply CA. change (dset_of i dims t) with (dset_through i dims t (fun _ b => Ok b) true). rewrite Et. exact Hz.
Qed.

Theorem unfilled_stored inflate f root h name o a dims t p b v : zlen f < 2 ^ 63 -> findVariable h name = Some o -> came f name a (FData dims) o ->
  unfilled_at f alone a dims t p -> Forall (fun n => 0 <= n < 2 ^ 63) dims -> all_stored f dims (fsize t) p b ->
  array_is (in_global_heap f) t dims b v -> zlen b < 2 ^ 63 ->
  getVariablePiped inflate f root h name = with_attrs f root (r_attrs o) v.
Proof.
  intros Hf Hfind Hc Hu Hd Hp Hv Hb. destruct (came_unfilled f name a o dims t p Hf Hc Hu) as (E1 & E2 & E3 & E4 & E5 & E6 & Hs).
  assert (Hheap : forall addr idx data, in_global_heap f addr idx data -> readGlobalHeap f addr idx = Ok (Some data))
    by (intros addr idx data H; apply global_heap_read; assumption).
  pose proof (value_size (readGlobalHeap f) (in_global_heap f) Hheap _ _ _ _ Hv) as Hz. rewrite fold_right_volume in Hz.
  unfold getVariablePiped. rewrite Hfind, E1, E2. cbv zeta. rewrite (bare_dset _ _ _ _ E6).
  assert (Hr : repeats (fsize t) (fillOf (r_info o) (H5ForeignType.told t)) None).
  { unfold fillOf. rewrite E4, E5. split; [intros w [=]|apply Z.mod_1_r]. }
  assert (Hst : stored_as f dims (fsize t) None p b).
  { destruct Hp as [[->|(a' & -> & Ha')]|(a' & shape & it & -> & C1 & C2 & C3 & C4 & _)]; [constructor|constructor; exact Ha'|].
    exact (as_chunks f dims (fsize t) None a' shape it b C1 C2 C3 C4). }
  assert (Hlen := dlen_told t).
  assert (EA : asksFill f (dset_of (r_info o) dims (H5ForeignType.told t)) (ri_blocks (r_info o)) = Ok false).
  { destruct Hp as [Hp|(a' & shape & it & -> & C1 & C2 & C3 & C4 & C5 & C6)].
    2: { rewrite <- Hlen in E3, C1, C4, Hs. destruct (Z.eq_dec (volume dims) 0) as [V0|V0].
         - destruct (fits_chunks (r_info o) dims _ Hd Hs (fun _ b => Ok b) true shape (proj1 E3) C1) as (F & Et & _).
           destruct (size_total _ _ F) as [Es _]. rewrite Et, <- C6, V0 in Es.
           change (dset_through (r_info o) dims (H5ForeignType.told t) (fun _ b => Ok b) true) with (dset_of (r_info o) dims (H5ForeignType.told t)) in Es.
           unfold asksFill. cbv zeta. rewrite Es. reflexivity.
         - rewrite (there_asks f (r_info o) dims _ a' shape it Hf Hd Hs E3 C1 C3 (proj1 C4)).
           + rewrite C5, C6, Z.eqb_refl, Z.ltb_irrefl. reflexivity.
           + rewrite <- C6. intros E0. apply Z.mul_eq_0 in E0. destruct E0 as [E0|E0]; [exact (V0 E0)|]. clear -E0 Hs. lia. }
    destruct Hp as [->|(a' & -> & Ha')]; cbn [keeps] in E3; destruct E3 as [K1 ->];
      (apply (one_asks f (r_info o) dims (H5ForeignType.told t) _ b); try assumption; [rewrite Hlen; exact Hs|rewrite Hlen; exact Hz|]); intros Nb.
    - split; [reflexivity|]. split; [exact Nb|]. cbn [b_raw]. split; [exists []; rewrite app_nil_r; reflexivity|reflexivity].
    - split; [reflexivity|]. split; [exact Nb|]. cbn [b_raw b_addr b_length]. exists b, [].
      split; [exact Ha'|]. split; [reflexivity|]. split; [exact Nb|]. split; [rewrite app_nil_r; reflexivity|].
      intros _. exists []. rewrite app_nil_r. reflexivity. }
  unfold fill_usable. rewrite E4, E5, EA. cbn [rbind].
  rewrite (data_value f (r_info o) dims t p None b v Hf Hd Hs E3 Hr Hst Hv Hb). reflexivity.
Qed.

Theorem unfilled_missing inflate f root h name o a dims t p : zlen f < 2 ^ 63 -> findVariable h name = Some o -> came f name a (FData dims) o ->
  unfilled_at f alone a dims t p -> Forall (fun n => 0 < n < 2 ^ 63) dims -> some_missing f dims (fsize t) p ->
  volume dims * fsize t < 2 ^ 63 ->
  getVariablePiped inflate f root h name = Panic.
Proof.
  intros Hf Hfind Hc Hu Hd Hp Hv. destruct (came_unfilled f name a o dims t p Hf Hc Hu) as (E1 & E2 & E3 & E4 & E5 & E6 & Hs).
  unfold getVariablePiped. rewrite Hfind, E1, E2. cbv zeta. rewrite (bare_dset _ _ _ _ E6).
  unfold fill_usable. rewrite E4, E5.
  set (d := dset_of (r_info o) dims (H5ForeignType.told t)).
  assert (Hlen := dlen_told t).
  assert (Hd0 : Forall (fun n => 0 <= n < 2 ^ 63) dims) by (eapply Forall_impl; [|exact Hd]; cbn beta; intros; lia).
  assert (V : 0 < volume dims) by (clear -Hd; induction Hd as [|n l H Hd IH]; cbn [volume]; [lia|apply Z.mul_pos_pos; lia]).
  destruct Hp as [Hp|(a' & shape & it & -> & C1 & C2 & C3 & C4)].
  2: { rewrite <- Hlen in E3, C1, C3, Hs. pose proof (chunks_ext dims (H5ForeignType.told t) Hd0 _ C1) as Hext.
       pose proof (grid_covers _ _ Hext) as PG. unfold d. rewrite (there_asks f (r_info o) dims _ a' shape it Hf Hd0 Hs E3 C1 C2 C3).
       - cbn [rbind]. assert (B : negb (zlen (ichunks it) =? volume (chunk_grid dims shape)) || (volume dims <? volume (chunk_grid dims shape) * volume shape) = true).
         { destruct C4 as [C4|C4]; apply Bool.orb_true_iff; [left; apply Bool.negb_true_iff, Z.eqb_neq; lia|right; apply Z.ltb_lt; exact C4]. }
         rewrite B. reflexivity.
       - intros E0. apply Z.mul_eq_0 in E0. destruct E0 as [E0|E0]; clear -E0 V PG Hs; lia. }
  assert (Hsz : d_size d <> 0 /\ ri_blocks (r_info o) = [] /\ ri_btree (r_info o) = 0).
  { destruct Hp as [(size & ->)|(shape & -> & Hfit)]; cbn [keeps] in E3; destruct E3 as (K1 & K2 & K3); (split; [|split; assumption]).
    - assert (Hv' : volume dims * dlen (H5ForeignType.told t) < 2 ^ 63) by (rewrite Hlen; exact Hv).
      destruct (fits_flat (r_info o) dims _ Hd0 ltac:(rewrite Hlen; exact Hs) (fun _ b => Ok b) true [] K1 Hv') as [F Et].
      change (dset_through (r_info o) dims (H5ForeignType.told t) (fun _ b => Ok b) true) with d in F, Et.
      destruct (size_total _ _ F) as [Es _]. rewrite Es, Et, Hlen. assert (0 < volume dims * fsize t) by (apply Z.mul_pos_pos; lia). lia.
    - rewrite <- Hlen in Hfit.
      destruct (fits_chunks (r_info o) dims _ Hd0 ltac:(rewrite Hlen; exact Hs) (fun _ b => Ok b) true shape K1 Hfit) as (F & Et & _).
      change (dset_through (r_info o) dims (H5ForeignType.told t) (fun _ b => Ok b) true) with d in F, Et.
      destruct (size_total _ _ F) as [Es _]. rewrite Es, Et, Hlen.
      pose proof (chunks_ext dims (H5ForeignType.told t) Hd0 _ Hfit) as Hext. 
      pose proof (grid_covers _ _ Hext) as PG.
      assert (0 < volume (chunk_grid dims shape) * volume shape * fsize t) by (apply Z.mul_pos_pos; lia). lia. }
  destruct Hsz as (N & B1 & B2). rewrite B1. unfold asksFill. cbv zeta.
  destruct (Z.eqb_spec (d_size d) 0) as [X|_]; [exfalso; exact (N X)|].
  change (d_btree d) with (ri_btree (r_info o)). rewrite B2. reflexivity.
Qed.
