(** Ranges of contiguous data and of data in chunks that are runs of the row-major order. *)
From Coq Require Import ZifyBool ZifyNat Permutation.
From Verif Require Import Prelude BaseLemmas GoVal FillModel FillProofs ArraySpec IndexProofs H5Base H5MetaRead
  H5ChecksumProofs H5LayoutModel H5Value H5TypeRead H5RecordModel ChunkSpec H5ChunkProofs MetaSpec H5MetaProofs
  RecordSpec H5RecordProofs H5IndexProofs H5SliceProofs.

(** ** Chunks that are runs *)

Lemma needs_runs dims layout : layout <> [] -> Forall (fun l => 0 < l) layout -> List.length dims = List.length layout ->
  needsLayoutReader dims layout = false <-> runs dims layout.
Proof.
  intros Hn Hp. revert dims. induction layout as [|l ls IH]; [contradiction|]. intros dims Hl.
  destruct dims as [|d ds]; [discriminate|]. inversion Hp as [|? ? Hl0 Hls]; subst. clear Hn.
  destruct ls as [|l2 ls].
  - destruct ds; [|discriminate]. unfold needsLayoutReader. cbn [zip existsb removelast]. rewrite !orb_false_r.
    rewrite negb_false_iff. split.
    + intros H. apply runs_last; [exact Hl0|]. lia.
    + intros H. inversion H; subst; lia.
  - assert (Hl' : List.length ds = List.length (l2 :: ls)) by (cbn [List.length] in *; lia).
    specialize (IH ltac:(discriminate) Hls ds Hl').
    assert (E : needsLayoutReader (d :: ds) (l :: l2 :: ls) = negb (d mod l =? 0) || negb (l =? 1) || needsLayoutReader ds (l2 :: ls)).
    { unfold needsLayoutReader. destruct ds as [|d2 ds]; [discriminate|].
      change (removelast (l :: l2 :: ls)) with (l :: removelast (l2 :: ls)).
      cbn [zip]. cbn [existsb].
      destruct (negb (d mod l =? 0)), (negb (l =? 1)), (negb (d2 mod l2 =? 0)), (existsb (fun b => b) (zip (fun d l => negb (d mod l =? 0)) ds ls)), (existsb (fun l => negb (l =? 1)) (removelast (l2 :: ls))); reflexivity. }
    rewrite E. split.
    + intros H. apply orb_false_iff in H. destruct H as [H1 H2]. assert (l = 1) by lia. subst l. apply runs_one, IH, H2.
    + intros H. inversion H; subst. rewrite (proj2 IH) by assumption. rewrite Z.mod_1_r. reflexivity.
Qed.

Lemma runs_pos ds ls : runs ds ls -> Forall (fun l => 0 < l) ls /\ ls <> [] /\ List.length ds = List.length ls.
Proof.
  induction 1 as [d l Hl Hm|d ds ls Hr (I1 & I2 & I3)]; (split; [|split]); try discriminate.
  - constructor; [exact Hl|constructor].
  - reflexivity.
  - constructor; [lia|exact I1].
  - cbn [List.length]. lia.
Qed.

Lemma exact_div d l : 0 < l -> d mod l = 0 -> (d + l - 1) / l = d / l /\ d / l * l = d.
Proof.
  intros Hl Hm. apply Z.mod_divide in Hm; [|lia]. destruct Hm as [q ->]. rewrite Z.div_mul by lia.
  split; [|lia]. symmetry. apply (Z.div_unique _ _ _ (l - 1)); lia.
Qed.

Lemma runs_grid ds ls : runs ds ls ->
  volume (chunk_grid ds ls) * volume ls = volume ds /\
  forall idx, in_shape ds idx -> aligned ls idx ->
    in_shape (chunk_grid ds ls) (chunk_of ls idx) /\ offset (chunk_grid ds ls) (chunk_of ls idx) * volume ls = offset ds idx.
Proof.
  induction 1 as [d l Hl Hm|d ds ls Hr [IV IO]].
  - destruct (exact_div d l Hl Hm) as [E1 E2]. cbn [chunk_grid]. rewrite E1. split; [cbn [volume]; lia|].
    intros idx I A. inversion I as [|? x ? r Hx I']; subst. inversion I'; subst. inversion A as [|? ? ? ? Ax _]; subst.
    destruct (exact_div x l Hl Ax) as [_ E3]. cbn [chunk_of offset volume]. split; [|lia].
    constructor; [|constructor]. nia.
  - cbn [chunk_grid]. replace ((d + 1 - 1) / 1) with d by (rewrite Z.div_1_r; lia). cbn [volume]. split; [lia|].
    intros idx I A. inversion I as [|? x ? r Hx I']; subst. inversion A as [|? ? ? ? _ A']; subst.
    destruct (IO _ I' A') as [O1 O2]. cbn [chunk_of offset]. rewrite Z.div_1_r. split; [constructor; assumption|].
    rewrite !Z.mul_1_l. rewrite Z.mul_add_distr_r, O2. rewrite <- Z.mul_assoc, IV. reflexivity.
Qed.

Lemma offset_inj ds : forall a b, in_shape ds a -> in_shape ds b -> offset ds a = offset ds b -> a = b.
Proof.
  induction ds as [|d ds IH]; intros a b Ia Ib E; inversion Ia as [|? x ? r Hx Ir]; inversion Ib as [|? y ? s Hy Is]; subst; [reflexivity|].
  cbn [offset] in E. pose proof (offset_range _ _ Ir). pose proof (offset_range _ _ Is).
  assert (x = y) by nia. subst y. f_equal. apply IH; try assumption. lia.
Qed.

(** ** Blocks of an index *)

Lemma placed_filter f d (g : block -> bool) (h : piece -> bool) : d_layout d <> [] -> forall bl o ps, placed f d o bl ps ->
  Forall (fun b => forall data : bytes, zlen data = b_ds b -> g b = h (chunk_pos d b, data)) bl -> forall o', placed f d o' (filter g bl) (filter h ps).
Proof.
  intros Hl. destruct (d_layout d) as [|l0 ls0] eqn:El; [contradiction|]. clear Hl.
  induction bl as [|b bl IH]; intros o ps H F o'; inversion H as [|? ? ? data qs H1 H2]; subst; cbn [filter].
  - constructor.
  - inversion F as [|? ? F1 F2]; subst. rewrite El. rewrite <- (F1 data (proj1 H1)). destruct (g b).
    + pose proof (placed_cons f d o' b (filter g bl) data (filter h qs) H1 (IH _ _ H2 F2 _)) as Q. rewrite El in Q. exact Q.
    + exact (IH _ _ H2 F2 _).
Qed.

Lemma placed_positions f d : d_layout d <> [] -> forall bl o ps, placed f d o bl ps ->
  Forall2 (fun b (x : piece) => fst x = chunk_pos d b /\ zlen (snd x) = b_ds b /\ snd x <> []) bl ps.
Proof.
  intros Hl. destruct (d_layout d) as [|l0 ls0] eqn:El; [contradiction|].
  induction 1 as [|o b bl data ps H1 _ IH]; constructor; [|exact IH]. rewrite El. cbn [fst snd]. destruct H1 as (A & B & _).
  repeat split; assumption.
Qed.

Lemma placed_contiguous f d : d_layout d = [] -> forall bl o ps, placed f d o bl ps ->
  ascending ps /\ apart ps /\ Forall (fun x => o <= fst x) ps.
Proof.
  intros El. induction 1 as [o|o b bl data ps H1 H2 (I1 & I2 & I3)]; [repeat split; constructor|].
  rewrite El. destruct H1 as (Hz & Hne & _). pose proof (nonempty_len _ Hne).
  assert (F : Forall (fun y : piece => p_end (o, data) <= fst y) ps).
  { eapply Forall_impl; [|exact I3]. cbn beta. intros y Hy. unfold p_end. cbn [fst snd]. lia. }
  split; [|split].
  - constructor; assumption.
  - constructor; [|assumption]. eapply Forall_impl; [|exact F]. cbn beta. tauto.
  - constructor; [cbn [fst]; lia|]. eapply Forall_impl; [|exact I3]. cbn beta. intros y Hy. lia.
Qed.

(** ** Values *)

Lemma part_all {A} (l : list A) n : zlen l = n -> part l 0 n = l.
Proof. intros H. unfold part. rewrite zdrop_0, ztake_all by lia. reflexivity. Qed.

Lemma slice_value f heap d bl1 bl2 bl pat ps n ds b e st v st' :
  sliced (d_ty d) n ds v b e -> d_dims d = n :: ds -> Forall (fun n => 0 <= n < 2 ^ 63) (d_dims d) -> 0 <= b <= e -> e <= n ->
  let row := volume ds * d_length d in
  dataBytes f d bl None = Ok (astream pat ps 0 (n * row), bl1) ->
  dataBytes f d bl (Some (b, e)) = Ok (astream pat ps (b * row) (e * row), bl2) ->
  getData f heap d true (opened d bl) = (Ok v, st') -> st = opened d bl ->
  exists v', fst (getSlice f heap d b e st) = Ok v' /\ vpart v b e = Some v' /\ (b = 0 -> e = n -> v' = v).
Proof.
  intros Hs Ed Hd Hb He row E1 E2 H ->. rewrite Ed in Hd.
  assert (Hd' : Forall (fun n => 0 <= n) (n :: ds)) by (eapply Forall_impl; [|exact Hd]; cbn beta; lia).
  inversion Hd as [|? ? Hn _]; subst x l. inversion Hd' as [|? ? _ Hds']; subst x l.
  pose proof (laid_pos _ (sliced_laid _ _ _ _ _ _ Hs)) as Pl. pose proof (volume_nonneg _ Hds') as Pv.
  assert (Hrow : 0 <= row) by (apply Z.mul_nonneg_nonneg; [exact Pv|exact Pl]).
  assert (Bb : 0 <= b * row <= e * row) by (split; [apply Z.mul_nonneg_nonneg; lia|apply Z.mul_le_mono_nonneg_r; lia]).
  assert (Be : e * row <= n * row) by (apply Z.mul_le_mono_nonneg_r; lia).
  unfold getData, opened in H. cbn [v_slice v_blocks v_ty] in H. rewrite E1 in H. cbn [sliceDims] in H.
  apply (f_equal fst) in H. cbn [fst] in H. rewrite Ed in H.
  destruct (alloc heap (d_ty d) (n :: ds) (astream pat ps 0 (n * row))) as [[w r]| |] eqn:Ea; cbn [rbind] in H; try discriminate.
  assert (w = v) by congruence. subst w.
  assert (Ez : volume (n :: ds) * dlen (d_ty d) <= zlen (astream pat ps 0 (n * row))).
  { rewrite zlen_astream, volume_cons. unfold row, d_length in *. lia. }
  destruct (any_part heap _ _ _ _ _ _ b e Hs Hd' Ea Ez Hb He) as (v' & A1 & A2).
  exists v'. split; [|split; [exact A2|]].
  - unfold getSlice. rewrite Ed. rewrite andb_false_r. replace (e <? b) with false by lia.
    unfold getData, opened. cbn [v_slice v_blocks v_ty]. rewrite E2. cbn [fst]. rewrite Ed. cbn [sliceDims].
    rewrite u64_small by lia.
    fold (d_length d) in A1. fold row in A1. replace ((e - b) * row) with (e * row - b * row) in A1 by ring.
    rewrite part_astream in A1 by lia. rewrite A1. reflexivity.
  - intros -> ->.
    assert (EA : part (astream pat ps 0 (n * row)) (0 * (volume ds * dlen (d_ty d))) ((n - 0) * (volume ds * dlen (d_ty d))) = astream pat ps 0 (n * row)).
    { apply part_all. rewrite zlen_astream. unfold row, d_length in *. lia. }
    change (0 * (volume ds * dlen (d_ty d))) with 0 in EA. change (0 * (volume ds * dlen (d_ty d))) with 0 in A1.
    rewrite EA in A1. replace (n - 0) with n in A1 by lia. congruence.
Qed.

(** What [sliceable] gives for the whole and for a part. *)
Lemma sliceable_whole f heap d bl n ds v st : sliceable d v -> d_dims d = n :: ds -> Forall (fun n => 0 <= n) (d_dims d) ->
  getData f heap d true (opened d bl) = (Ok v, st) -> sliced (d_ty d) n ds v 0 n.
Proof.
  intros [H|[H|(E & s & -> & Ed')]] Ed Hd G.
  - left. exact H.
  - right. left. split; [exact H|]. rewrite Ed in Hd. inversion Hd as [|? ? Hn _]; subst x l.
    destruct (Z.eq_dec n 0) as [->|N]; [exfalso|lia].
    unfold getData, opened in G. cbn [v_slice v_blocks v_ty] in G.
    destruct (dataBytes f d bl None) as [[x b2]| |]; try (apply (f_equal fst) in G; cbn [fst] in G; discriminate).
    apply (f_equal fst) in G. cbn [fst sliceDims] in G. rewrite Ed in G.
    destruct (alloc heap (d_ty d) (0 :: ds) x) as [[w r]| |] eqn:E; cbn [rbind] in G; try discriminate.
    exact (sequence_some heap _ ds x w r H E).
  - right. right. split; [exact E|]. rewrite Ed' in Ed. injection Ed as <- <-. split; [reflexivity|]. exists s. split; reflexivity.
Qed.
Lemma sliceable_part d v n ds b e : sliceable d v -> d_dims d = n :: ds -> (b < e \/ ~ sequence (d_ty d)) -> sliced (d_ty d) n ds v b e.
Proof.
  intros [H|[H|(E & s & -> & Ed')]] Ed G.
  - left. exact H.
  - right. left. split; [exact H|]. destruct G as [G|G]; [exact G|contradiction].
  - right. right. split; [exact E|]. rewrite Ed' in Ed. injection Ed as <- <-. split; [reflexivity|]. exists s. split; reflexivity.
Qed.

(** ** Contiguous data *)

Lemma whole_bytes f d bl ps bl' : newRecordReader f d bl None = Ok (stream (d_fill d) ps 0 (total d), total d, bl') ->
  d_size d = total d -> 0 <= total d < 2 ^ 63 -> needsLayoutReader (d_dims d) (d_layout d) = false ->
  dataBytes f d bl None = Ok (stream (d_fill d) ps 0 (total d), bl').
Proof.
  intros E Es Ht Hn. unfold dataBytes. cbv zeta. rewrite E, Es, Hn. cbn [rbind].
  rewrite (i64_small (total d)) by lia. rewrite Z.ltb_irrefl.
  rewrite ztake_all by (rewrite zlen_stream; lia). reflexivity.
Qed.

Theorem contiguous_slices f heap d bl ps n ds b e v st' :
  zlen f < 2 ^ 63 -> sliced (d_ty d) n ds v b e -> d_layout d = [] -> d_dims d = n :: ds -> fits d bl ->
  0 < zlen (d_fill d) -> d_length d mod zlen (d_fill d) = 0 -> ends_fit (d_fill d) ps ->
  placed f d 0 bl ps -> inside (total d) ps -> (bl = [] -> d_btree d = 0) -> 0 <= b <= e -> e <= n ->
  getData f heap d true (opened d bl) = (Ok v, st') ->
  exists v', fst (getSlice f heap d b e (opened d bl)) = Ok v' /\ vpart v b e = Some v' /\ (b = 0 -> e = n -> v' = v).
Proof.
  intros Hf Hs El Ed Hfit Hp Hm Hef Hpl Hin Hbt Hb He H.
  destruct (placed_contiguous _ _ El _ _ _ Hpl) as (Asc & Ap & _).
  assert (Np : d_fill d <> []) by (intros E0; rewrite E0 in Hp; cbn in Hp; lia).
  destruct (size_total _ _ Hfit) as [Es Pt]. assert (Ht : total d < 2 ^ 63) by apply Hfit.
  assert (Hnl : needsLayoutReader (d_dims d) (d_layout d) = false) by (rewrite El; reflexivity).
  assert (Et : total d = n * (volume ds * d_length d)).
  { unfold total. rewrite El, Ed, volume_cons. ring. }
  pose proof (whole_stream f d bl ps Hf Hfit Np Hpl Ap Hin Hbt) as W.
  pose proof (whole_bytes _ _ _ _ _ W Es ltac:(lia) Hnl) as W1.
  rewrite stream_aligned in W1 by (assumption || (apply Z.mod_0_l; lia)).
  rewrite Et in W1.
  destruct (slice_bytes f d bl bl ps n ds b e Hf Hfit Ed Et Hnl Hp Hm Hef Hpl Ap Hin Hb He (or_introl Asc)) as (bl2 & W2 & _).
  { intros _. unfold resolve. destruct bl; [rewrite (Hbt eq_refl)|]; reflexivity. }
  exact (slice_value f heap d bl bl2 bl (d_fill d) ps n ds b e _ v st' Hs Ed (proj1 Hfit) Hb He W1 W2 H eq_refl).
Qed.

(** ** Chunks that are runs *)

Lemma apart_filter h ps : apart ps -> apart (filter h ps).
Proof.
  induction 1 as [|x r F _ IH]; [constructor|]. cbn [filter]. destruct (h x); [|exact IH]. constructor; [|exact IH].
  rewrite Forall_forall in *. intros y Hy. apply filter_In in Hy. apply F, Hy.
Qed.
Lemma Forall_filter {A} (Q : A -> Prop) h l : Forall Q l -> Forall Q (filter h l).
Proof. intros F. rewrite Forall_forall in *. intros y Hy. apply filter_In in Hy. apply F, Hy. Qed.

Lemma find_filter {A} (g h : A -> bool) l : (forall x, In x l -> g x = true -> h x = true) -> find g (filter h l) = find g l.
Proof.
  induction l as [|x l IH]; intros H; [reflexivity|]. cbn [filter find].
  destruct (h x) eqn:E; cbn [find].
  - rewrite IH by (intros y Hy; apply H; right; exact Hy). reflexivity.
  - destruct (g x) eqn:G; [rewrite (H x (or_introl eq_refl) G) in E; discriminate|].
    apply IH. intros y Hy. apply H. right. exact Hy.
Qed.

Definition hits (first last_ : Z) (x : piece) : bool := (fst x <? last_) && (first <? p_end x).

Lemma astream_hits pat ps lo hi : astream pat (filter (hits lo hi) ps) lo hi = astream pat ps lo hi.
Proof.
  unfold astream. apply map_ext_in. intros i Hi. apply in_seq in Hi. unfold abyte. rewrite find_filter; [reflexivity|].
  intros x _ C. unfold covers in C. unfold hits. lia.
Qed.

Section Runs.
Variables (f : bytes) (d : dset) (t : itree) (ps : list piece).
Notation dims := (d_dims d). Notation ls := (d_layout d). Notation n := (volume ls). Notation dt := (d_length d).
Hypothesis Hf : zlen f < 2 ^ 63.
Hypothesis Hfit : fits d [].
Hypothesis Hix : indexed f d t.
Hypothesis Hpl : placed f d 0 (map (index_block d) (ichunks t)) ps.

Lemma ru_elem : d_elem d = dt. Proof. apply Hix. Qed.
Lemma ru_runs : runs dims ls. Proof. apply Hix. Qed.
Lemma ru_layout : ls <> []. Proof. exact (proj1 (proj2 (runs_pos _ _ ru_runs))). Qed.
Lemma ru_n : 0 < n. Proof. exact (proj2 (runs_volume _ _ ru_runs)). Qed.
Lemma ru_dt : 0 < dt. Proof. apply Hfit. Qed.
Lemma ru_dims : Forall (fun x => 0 <= x) dims.
Proof. eapply Forall_impl; [|exact (proj1 Hfit)]. cbn beta. lia. Qed.
Lemma ru_total : total d = volume dims * dt.
Proof.
  unfold total. pose proof ru_layout. destruct ls as [|l0 l1] eqn:E; [contradiction|]. rewrite <- E.
  rewrite (proj1 (runs_grid _ _ ru_runs)). reflexivity.
Qed.
Lemma ru_vol : volume dims * dt < 2 ^ 63.
Proof. rewrite <- ru_total. apply Hfit. Qed.

Lemma ru_keys : Forall (fun c => chunk_key dims ls (fst c)) (ichunks t).
Proof. destruct Hix as (_ & _ & _ & _ & _ & _ & _ & O & D & _). exact (all_chunk_keys d ls _ t D O). Qed.

Lemma ru_pos c : chunk_key dims ls (fst c) -> chunk_pos d (index_block d c) = chunk_first dims (fst c) * dt.
Proof.
  intros [I A]. unfold chunk_pos, index_block. cbn [b_offsets].
  destruct (proj2 (runs_grid _ _ ru_runs) _ I A) as [_ E]. unfold chunk_first. rewrite <- E. ring.
Qed.

Lemma ru_small : dt < 2 ^ 64.
Proof. destruct Hix as (_ & H & _). unfold d_length. lia. Qed.

Lemma ru_fits cs : Forall (fun c => chunk_key dims ls (fst c)) cs -> fits d (map (index_block d) cs).
Proof.
  intros K. destruct Hfit as (F1 & F2 & F3 & F4). split; [exact F1|]. split; [exact F2|]. split; [exact F3|].
  pose proof ru_layout as NL. pose proof ru_runs as R. destruct ls as [|l0 l1] eqn:E; [exact I|]. destruct F4 as (G1 & G2 & _).
  split; [exact G1|]. split; [exact G2|]. rewrite Forall_map. eapply Forall_impl; [|exact K]. cbn beta. intros c [I A].
  cbn [index_block b_offsets]. split; [symmetry; exact (in_shape_length _ _ I)|].
  exact (proj1 (proj2 (runs_grid _ _ R) _ I A)).
Qed.

Lemma ru_pieces : Forall2 (fun c (x : piece) => fst x = chunk_first dims (fst c) * dt /\ zlen (snd x) = n * dt /\ snd x <> []) (ichunks t) ps.
Proof.
  pose proof (placed_positions _ _ ru_layout _ _ _ Hpl) as P. pose proof ru_keys as K. revert P K. generalize (ichunks t) ps.
  intros cs. induction cs as [|c cs IH]; intros qs P K; inversion P as [|? y ? l' Q1 Q2]; subst; constructor.
  - inversion K; subst. rewrite ru_pos in Q1 by assumption. cbn [index_block b_ds] in Q1. rewrite ru_elem in Q1. exact Q1.
  - inversion K; subst. apply IH; assumption.
Qed.

Lemma ru_piece x : In x ps -> exists c, In c (ichunks t) /\ chunk_key dims ls (fst c) /\
  fst x = chunk_first dims (fst c) * dt /\ p_end x = (chunk_first dims (fst c) + n) * dt /\ snd x <> [].
Proof.
  pose proof ru_pieces as P. pose proof ru_keys as K. revert P K. generalize (ichunks t) ps.
  intros cs qs P. induction P as [|c y cs qs H P IH]; intros K I; [contradiction|]. inversion K; subst. destruct I as [-> |I].
  - exists c. split; [left; reflexivity|]. split; [assumption|]. destruct H as (A & B & C). unfold p_end. split; [exact A|]. split; [lia|exact C].
  - destruct (IH ltac:(assumption) I) as (c' & I' & R). exists c'. split; [right; exact I'|exact R].
Qed.

Lemma ru_inside : inside (total d) ps.
Proof.
  apply Forall_forall. intros x I. destruct (ru_piece x I) as (c & _ & K & E1 & E2 & E3).
  destruct (chunk_room d ls ru_runs _ K) as [R1 R2]. rewrite E1, E2, ru_total. pose proof ru_dt.
  split; [apply Z.mul_nonneg_nonneg; lia|]. split; [apply Z.mul_le_mono_nonneg_r; lia|exact E3].
Qed.

Lemma ru_apart : apart ps.
Proof.
  assert (ND : NoDup (map (fun c => k_index (fst c)) (ichunks t))) by apply Hix.
  pose proof ru_pieces as P. pose proof ru_keys as K. revert ND K P. generalize (ichunks t) ps.
  intros cs0 qs0 ND K P. revert ND K. induction P as [|c x cs qs H P IH]; intros ND K; [constructor|].
  cbn [map] in ND. inversion ND as [|? ? N1 N2]; subst. inversion K as [|? ? K1 K2]; subst. constructor; [|apply IH; assumption].
  clear IH ND K N2. revert N1 K2. induction P as [|c' y cs qs H' P IH]; intros N1 K2; constructor.
  - inversion K2 as [|? ? K3 K4]; subst. destruct H as (A & B & C). destruct H' as (A' & B' & C'). unfold p_end.
    rewrite A, B, A', B', <- !Z.mul_add_distr_r. pose proof ru_dt as Pd. pose proof ru_n as Pn.
    destruct (runs_mod _ _ ru_runs) as [_ M]. pose proof (M _ (proj1 K1) (proj2 K1)) as M1. pose proof (M _ (proj1 K3) (proj2 K3)) as M2.
    destruct (Z.lt_trichotomy (chunk_first dims (fst c)) (chunk_first dims (fst c'))) as [L|[L|L]].
    + left. apply Z.mul_le_mono_nonneg_r; [lia|]. exact (mult_gap _ _ _ Pn M1 M2 L).
    + exfalso. apply N1. left. symmetry. exact (offset_inj _ _ _ (proj1 K1) (proj1 K3) L).
    + right. apply Z.mul_le_mono_nonneg_r; [lia|]. exact (mult_gap _ _ _ Pn M2 M1 L).
  - inversion K2; subst. apply IH; [|assumption]. intros Q. apply N1. right. exact Q.
Qed.

Lemma ru_ends : dt mod zlen (d_fill d) = 0 -> 0 < zlen (d_fill d) -> ends_fit (d_fill d) ps.
Proof.
  intros M Hp. apply Forall_forall. intros x I. destruct (ru_piece x I) as (c & _ & _ & _ & E2 & _). rewrite E2.
  apply div_mod_0; assumption.
Qed.

Lemma ru_walk first last_ : readBTreeNode f d first last_ = Ok (map (index_block d) (touching dims dt n first last_ (ichunks t))).
Proof.
  destruct Hix as (E1 & _ & E2 & E3 & E4 & E5 & E6 & E7 & E8 & E9). fold (d_length d) in E1.
  unfold readBTreeNode. rewrite E1 in E7.
  pose proof (walk_ok f d ls first last_ Hf E3 E2) as W. rewrite E1 in W.
  rewrite (W ru_dt ru_small E4 ru_dims ru_vol _ t _ true E6 E7 E8). f_equal.
Qed.

Lemma ru_touching first last_ : placed f d 0 (map (index_block d) (touching dims dt n first last_ (ichunks t))) (filter (hits first last_) ps).
Proof.
  set (g := fun b => (chunk_pos d b <? last_) && (first <? chunk_pos d b + b_ds b)).
  assert (E : map (index_block d) (touching dims dt n first last_ (ichunks t)) = filter g (map (index_block d) (ichunks t))).
  { pose proof ru_keys as K. revert K. generalize (ichunks t). intros cs K. induction K as [|c cs K1 _ IH]; [reflexivity|].
    cbn [map touching filter]. cbv zeta. unfold g at 1. rewrite (ru_pos _ K1). cbn [index_block b_ds]. rewrite ru_elem.
    unfold touching in IH. destruct ((chunk_first dims (fst c) * dt <? last_) && (first <? chunk_first dims (fst c) * dt + n * dt)); cbn [map]; rewrite IH; reflexivity. }
  rewrite E. apply (placed_filter f d g (hits first last_) ru_layout _ 0 ps Hpl).
  apply Forall_forall. intros b _ data Hz. unfold g, hits, p_end. cbn [fst snd]. rewrite Hz. reflexivity.
Qed.

Lemma ru_all : touching dims dt n 0 (total d) (ichunks t) = ichunks t.
Proof.
  pose proof ru_keys as K. revert K. generalize (ichunks t). intros cs K. induction K as [|c cs K1 _ IH]; [reflexivity|].
  cbn [touching filter]. cbv zeta. destruct (chunk_room d ls ru_runs _ K1) as [R1 R2]. pose proof ru_dt as Pd. pose proof ru_n as Pn.
  assert (0 <= chunk_first dims (fst c) * dt) by (apply Z.mul_nonneg_nonneg; lia).
  assert (0 < n * dt) by (apply Z.mul_pos_pos; lia).
  assert ((chunk_first dims (fst c) + n) * dt <= volume dims * dt) by (apply Z.mul_le_mono_nonneg_r; lia).
  rewrite ru_total. rewrite Z.mul_add_distr_r in *.
  replace ((chunk_first dims (fst c) * dt <? volume dims * dt) && (0 <? chunk_first dims (fst c) * dt + n * dt)) with true by lia.
  rewrite <- ru_total. unfold touching in IH. rewrite IH. reflexivity.
Qed.

Lemma ru_needs : needsLayoutReader dims ls = false.
Proof. destruct (runs_pos _ _ ru_runs) as (A & B & C). apply needs_runs; try assumption. exact ru_runs. Qed.

Lemma whole_from_index : d_fill d <> [] ->
  exists bl, newRecordReader f d [] None = Ok (stream (d_fill d) ps 0 (total d), total d, bl) /\
             (total d <> 0 -> bl = map (index_block d) (ichunks t)).
Proof.
  intros Np. pose proof (ru_fits _ ru_keys) as F2. destruct (size_total _ _ Hfit) as [Es Pt].
  assert (Ht : total d < 2 ^ 63) by apply Hfit.
  assert (NB : d_btree d <> 0) by apply Hix.
  destruct (Z.eq_dec (total d) 0) as [Z0|Z0].
  - exists []. split; [|contradiction]. unfold newRecordReader. rewrite Es, Z0. reflexivity.
  - exists (map (index_block d) (ichunks t)). split; [|reflexivity].
    pose proof (ru_walk 0 (total d)) as W. rewrite ru_all in W. pose proof ru_apart as Ap. pose proof ru_inside as Ins.
    pose proof Hpl as Hpl'. revert Hpl' W F2. generalize (map (index_block d) (ichunks t)). intros bl Hpl' W F2.
    destruct bl as [|b0 br].
    + inversion Hpl'. unfold newRecordReader. rewrite Es. replace (total d =? 0) with false by lia.
      replace (d_btree d =? 0) with false by lia. rewrite W. cbn [rbind]. rewrite (i64_small (total d)) by lia.
      rewrite stream_fill by (assumption || lia). rewrite Z.sub_0_r. reflexivity.
    + rewrite <- (whole_stream f d (b0 :: br) ps Hf F2 Np Hpl' Ap Ins ltac:(discriminate)).
      unfold newRecordReader. rewrite Es. replace (total d =? 0) with false by lia.
      replace (d_btree d =? 0) with false by lia. rewrite W. reflexivity.
Qed.

Theorem run_slices heap k ds b e v st' :
  sliced (d_ty d) k ds v b e -> dims = k :: ds -> 0 < zlen (d_fill d) -> dt mod zlen (d_fill d) = 0 ->
  0 <= b <= e -> e <= k -> getData f heap d true (opened d []) = (Ok v, st') ->
  exists v', fst (getSlice f heap d b e (opened d [])) = Ok v' /\ vpart v b e = Some v' /\ (b = 0 -> e = k -> v' = v).
Proof.
  intros Hs Ed Hp Hm Hb He H.
  assert (Np : d_fill d <> []) by (intros E0; rewrite E0 in Hp; cbn in Hp; lia).
  destruct (size_total _ _ Hfit) as [Es Pt]. assert (Ht : total d < 2 ^ 63) by apply Hfit.
  assert (Et : total d = k * (volume ds * dt)) by (rewrite ru_total, Ed, volume_cons; ring).
  destruct (whole_from_index Np) as (bl1 & W & _).
  pose proof (whole_bytes _ _ _ _ _ W Es ltac:(lia) ru_needs) as W1.
  rewrite stream_aligned in W1; [|exact Hp|apply Z.mod_0_l; lia|exact (ru_ends Hm Hp)]. rewrite Et in W1.
  set (row := volume ds * dt) in *.
  destruct (slice_bytes f d [] (map (index_block d) (touching dims dt n (b * row) (e * row) (ichunks t)))
              (filter (hits (b * row) (e * row)) ps) k ds b e Hf) as (bl2 & W2 & _); try assumption.
  - apply ru_fits. apply Forall_filter, ru_keys.
  - exact ru_needs.
  - apply Forall_filter. exact (ru_ends Hm Hp).
  - apply ru_touching.
  - apply apart_filter, ru_apart.
  - apply Forall_filter, ru_inside.
  - right. fold row. apply Forall_forall. intros x Hx. apply filter_In in Hx. destruct Hx as [_ Hx]. unfold hits in Hx. lia.
  - intros _. unfold resolve. fold row. assert (NB : d_btree d <> 0) by apply Hix. replace (d_btree d =? 0) with false by lia. apply ru_walk.
  - fold row in W2. rewrite astream_hits in W2.
    exact (slice_value f heap d bl1 bl2 [] (d_fill d) ps k ds b e _ v st' Hs Ed (proj1 Hfit) Hb He W1 W2 H eq_refl).
Qed.
End Runs.
