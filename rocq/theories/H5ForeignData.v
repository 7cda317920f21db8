(** Lemmas: the data of datasets of other writers are read as they are stored. *)
From Coq Require Import Lia ZifyBool ZifyNat Permutation.
From Verif Require Import Prelude BaseLemmas GoVal FillModel FillProofs ArraySpec IndexProofs H5Base H5MetaRead
  H5ChecksumProofs H5LayoutModel H5Value H5TypeRead H5RecordModel ChunkSpec H5ChunkProofs H5LayoutRead MetaSpec H5MetaProofs
  RecordSpec H5RecordProofs H5IndexProofs H5SliceProofs H5RunProofs H5ChunkedProofs P_H5Record DenseSpec ForeignSpec
  ForeignTypeSpec ForeignMsgSpec ForeignDataSpec H5FileRead H5ObjectProofs.

(** ** Elements in row-major order *)

Lemma zseq_app a b : 0 <= a -> 0 <= b -> zseq (a + b) = zseq a ++ map (Z.add a) (zseq b).
Proof.
  intros Ha Hb. unfold zseq. rewrite Z2Nat.inj_add by lia. rewrite seq_app, map_app. f_equal.
  cbn [Nat.add]. rewrite map_map. rewrite <- (Nat.add_0_r (Z.to_nat a)) at 1. generalize 0%nat.
  induction (Z.to_nat b) as [|n IH]; intros k; [reflexivity|]. cbn [seq map]. rewrite <- IH.
  f_equal; [lia|]. rewrite Nat.add_succ_r. reflexivity.
Qed.
Lemma offsets ds : Forall (fun d => 0 <= d) ds -> map (offset ds) (indices ds) = zseq (volume ds).
Proof.
  induction 1 as [|d ds Hd Hr IH]; [reflexivity|]. cbn [indices volume]. fold (zseq d).
  pose proof (ArrayProofs.volume_nonneg _ Hr) as V. rewrite <- (Z2Nat.id d Hd) at 2 3.
  induction (Z.to_nat d) as [|n IHn]; [reflexivity|].
  replace (Z.of_nat (S n)) with (Z.of_nat n + 1) by lia. rewrite zseq_S by lia.
  rewrite flat_map_app, map_app, IHn. cbn [flat_map]. rewrite app_nil_r, map_map. cbn [offset].
  replace ((Z.of_nat n + 1) * volume ds) with (Z.of_nat n * volume ds + volume ds) by ring.
  rewrite zseq_app by nia. f_equal. rewrite <- IH, map_map. reflexivity.
Qed.
Lemma elements dt b n : 0 <= dt -> zlen b = Z.of_nat n * dt -> flat_map (element dt b) (zseq (Z.of_nat n)) = b.
Proof.
  intros Hdt. revert b. induction n as [|n IH]; intros b Hb.
  - cbn in Hb. apply zlen_zero in Hb. subst b. reflexivity.
  - replace (Z.of_nat (S n)) with (Z.of_nat n + 1) in * by lia. rewrite zseq_S by lia. rewrite flat_map_app.
    cbn [flat_map]. rewrite app_nil_r. unfold element at 2.
    rewrite (ztake_all dt) by (rewrite zlen_zdrop by nia; lia).
    rewrite <- (ztake_zdrop (Z.of_nat n * dt) b) at 3. f_equal.
    rewrite <- (IH (ztake (Z.of_nat n * dt) b)) by (rewrite zlen_ztake; nia).
    rewrite !flat_map_concat_map. f_equal. apply map_ext_in. intros i Hi. apply In_zseq in Hi. unfold element.
    apply znth_ext.
    + rewrite !zlen_ztake_min, !zlen_zdrop by (rewrite ?zlen_ztake; nia). rewrite zlen_ztake by nia. nia.
    + intros p Hp. rewrite zlen_ztake_min in Hp. rewrite !znth_take by lia. rewrite !znth_drop by nia.
      rewrite znth_take by nia. reflexivity.
Qed.

Lemma assembled dims ls dt s b : Forall (fun d => 0 <= d) dims -> 0 <= dt -> zlen b = volume dims * dt ->
  (forall idx, in_shape dims idx -> chunk_elem dims ls dt s idx = element dt b (offset dims idx)) -> dataset dims ls dt s = b.
Proof.
  intros Hd Hdt Hb H. unfold dataset. pose proof (ArrayProofs.volume_nonneg _ Hd) as V.
  assert (E : flat_map (element dt b) (zseq (Z.of_nat (Z.to_nat (volume dims)))) = b)
    by (apply elements; [exact Hdt|rewrite Hb; f_equal; lia]).
  rewrite Z2Nat.id, <- offsets in E by assumption. rewrite <- E. rewrite !flat_map_concat_map, map_map. f_equal.
  apply map_ext_in. intros idx Hi. apply In_indices in Hi. apply H, Hi.
Qed.
Lemma runs_place ds ls : runs ds ls -> forall idx, in_shape ds idx ->
  offset (chunk_grid ds ls) (chunk_of ls idx) * volume ls + offset ls (within ls idx) = offset ds idx.
Proof.
  induction 1 as [d l Hl Hm|d ds ls Hr IH]; intros idx I; inversion I as [|? x ? r Hx I']; subst.
  - inversion I'; subst. cbn [chunk_grid chunk_of within offset volume]. pose proof (Z.div_mod x l ltac:(lia)). lia.
  - cbn [chunk_grid chunk_of within offset volume]. rewrite Z.div_1_r, Z.mod_1_r. specialize (IH _ I').
    destruct (runs_grid _ _ Hr) as [V _]. rewrite <- V, <- IH. ring.
Qed.
Lemma runs_dataset ds ls dt s : Forall (fun d => 0 <= d) ds -> 0 <= dt -> runs ds ls -> zlen s = volume ds * dt -> dataset ds ls dt s = s.
Proof.
  intros Hd Hdt Hr Hz. apply assembled; try assumption. intros idx I. unfold chunk_elem. cbv zeta.
  rewrite (runs_place _ _ Hr _ I). reflexivity.
Qed.

(** ** From the stream of chunks to the data *)

Lemma stream_bytes f d bl bl' s b : newRecordReader f d bl None = Ok (s, total d, bl') -> fits d [] -> d_layout d <> [] ->
  orderly (d_dims d) (d_layout d) -> zlen s = total d -> dataset (d_dims d) (d_layout d) (d_length d) s = b ->
  exists rest, dataBytes f d bl None = Ok (b ++ rest, bl').
Proof.
  intros E Hfit Hl Ho Hs Hb. destruct (size_total _ _ Hfit) as [Es Pt]. pose proof Hfit as (Hd & Hdt & Ht & He).
  assert (He' : ext_ok (d_dims d) (d_layout d)) by (destruct (d_layout d); [congruence|apply He]). 
  assert (Hne : d_dims d <> []) by (destruct (d_layout d); [congruence|apply He]). clear He.
  assert (Hd' : Forall (fun n => 0 <= n) (d_dims d)) by (eapply Forall_impl; [|exact Hd]; cbn beta; lia).
  assert (ET : total d = volume (chunk_grid (d_dims d) (d_layout d)) * volume (d_layout d) * d_length d)
    by (unfold total; destruct (d_layout d); [congruence|reflexivity]).
  assert (Hpos : Forall (fun l => 0 < l) (d_layout d)) by (clear -He'; induction He' as [|? ? ? ? (_ & A & _)]; constructor; [lia|assumption]).
  assert (Hll : List.length (d_dims d) = List.length (d_layout d)) by (clear -He'; induction He'; cbn [List.length]; congruence).
  pose proof (zlen_dataset (d_dims d) (d_layout d) (d_length d) s He' ltac:(lia) ltac:(lia)) as ZD. rewrite Hb in ZD.
  unfold dataBytes. cbv zeta. rewrite E, Es. cbn [rbind]. rewrite (i64_small (total d)) by lia.
  destruct (needsLayoutReader (d_dims d) (d_layout d)) eqn:En.
  - rewrite (take_dataset _ _ _ _ (total d)) by (assumption || lia). cbn [rbind]. rewrite Hb.
    match goal with |- context [if ?c then ztake (total d) (_ ++ ?F) else _] =>
      pose proof (cut_bytes b F (total d) (total d) (zlen b) c) as C end.
    cbv zeta in C. destruct C as [C1 C2].
    { pose proof (zlen_nonneg b). split; [lia|]. rewrite ZD, ET. apply Z.mul_le_mono_nonneg_r; [lia|]. apply grid_covers. exact He'. }
    { lia. }
    { rewrite ZD, ET. apply Z.mul_le_mono_nonneg_r; [lia|]. apply grid_covers. exact He'. }
    eexists. do 2 f_equal. rewrite (ztake_all (zlen b) b) in C1 by lia.
    match type of C1 with ztake _ ?r = _ => rewrite <- (ztake_zdrop (zlen b) r) end. rewrite C1. reflexivity.
  - apply (needs_runs _ _ Hl Hpos Hll) in En. cbn [rbind].
    assert (Eb : b = s).
    { rewrite <- Hb. apply runs_dataset; [exact Hd'|lia|exact En|]. rewrite Hs, ET. rewrite (proj1 (runs_grid _ _ En)). reflexivity. }
    exists []. rewrite Z.ltb_irrefl. rewrite ztake_all by lia. rewrite app_nil_r, Eb. reflexivity.
Qed.

(** ** Chunks *)

Lemma znth_at f a b p : has_at f a b -> 0 <= p < zlen b -> znth f (a + p) = znth b p.
Proof.
  intros (pre & post & -> & <-) H. pose proof (zlen_nonneg pre). rewrite znth_app_r by lia.
  replace (zlen pre + p - zlen pre) with p by lia. apply znth_app_l. exact H.
Qed.

Section Chunks.
  Variables (dims shape : list Z) (dt : Z) (fill : option bytes) (pat : bytes).
  Hypothesis Hext : ext_ok dims shape.
  Hypothesis Hdt : 1 <= dt.
  Hypothesis Hpat : pat <> [].
  Hypothesis Hfill : forall v, fill = Some v -> zlen v = dt ->
    dt mod zlen pat = 0 /\ forall p, 0 <= p < dt -> znth v p = znth pat (p mod zlen pat).
  Notation G := (chunk_grid dims shape).
  Notation V := (volume shape).

  (** A chunk with its first element and its data *)
  Definition piece_of (c : list Z * bytes) : piece :=
    (offset G (chunk_of shape (fst c)) * (V * dt), snd c).

  Lemma within_in : forall dims shape, ext_ok dims shape -> forall idx, in_shape dims idx -> in_shape shape (within shape idx).
  Proof.
    clear. intros ds ls He. induction He as [|d l ds ls (A & B & C) _ IH]; intros idx I; inversion I as [|? x ? r Hx I']; subst; cbn [within]; constructor.
    - apply Z.mod_pos_bound. lia.
    - apply IH, I'.
  Qed.

  Lemma chunk_element (cs : list (list Z * bytes)) b total s idx : total = volume G * V * dt ->
    Forall (fun c => zlen (snd c) = V * dt) cs -> Forall (fun c => in_shape dims (fst c)) cs ->
    data_plus_fill pat (map piece_of cs) total s ->
    in_shape dims idx -> zlen (element dt b (offset dims idx)) = dt ->
    (forall k x, In (k, x) cs -> chunk_of shape k = chunk_of shape idx ->
       element dt x (offset shape (within shape idx)) = element dt b (offset dims idx)) ->
    ((forall k x, In (k, x) cs -> chunk_of shape k <> chunk_of shape idx) ->
       exists v, fill = Some v /\ zlen v = dt /\ element dt b (offset dims idx) = v) ->
    chunk_elem dims shape dt s idx = element dt b (offset dims idx).
  Proof.
    intros -> Hthere Hin (Hz & Hs) I HL Hyes Hno. pose proof (layout_pos _ _ Hext) as PV.
    set (e := element dt b (offset dims idx)) in *. unfold chunk_elem. cbv zeta.
    set (q := offset G (chunk_of shape idx)). set (w := offset shape (within shape idx)).
    pose proof (offset_range _ _ (chunk_in_grid _ _ Hext _ I)) as Rq. fold q in Rq.
    pose proof (offset_range _ _ (within_in _ _ Hext _ I)) as Rw. fold w in Rw.
    assert (Rp : 0 <= (q * V + w) * dt /\ (q * V + w + 1) * dt <= volume G * V * dt).
    { split; [nia|]. apply Z.mul_le_mono_nonneg_r; [lia|]. nia. }
    apply znth_ext.
    { rewrite HL. rewrite zlen_ztake; [reflexivity|lia|]. rewrite zlen_zdrop by lia. lia. }
    rewrite zlen_ztake by (rewrite ?zlen_zdrop by lia; lia). intros p Hp. rewrite znth_take by lia. rewrite znth_drop by lia.
    set (P := (q * V + w) * dt + p) in *.
    assert (HP : 0 <= P < volume G * V * dt) by (unfold P; lia).
    destruct (Hs P HP) as [Hc Hh].
    destruct (find (fun c => if list_eq_dec Z.eq_dec (chunk_of shape (fst c)) (chunk_of shape idx) then true else false) cs)
      as [[k x]|] eqn:Ef.
    - apply find_some in Ef. destruct Ef as [Hi Ef]. cbn [fst] in Ef.
      destruct (list_eq_dec Z.eq_dec (chunk_of shape k) (chunk_of shape idx)) as [Ek|]; [|discriminate].
      rewrite Forall_forall in Hthere. pose proof (Hthere _ Hi) as PL. cbn [snd] in PL.
      assert (EP : fst (piece_of (k, x)) = q * (V * dt)) by (cbn [piece_of fst]; rewrite Ek; reflexivity).
      unfold znth at 1. rewrite (Hc (piece_of (k, x)) (in_map _ _ _ Hi)).
      2:{ unfold p_end. rewrite EP. cbn [piece_of snd]. rewrite PL. unfold P. split; [nia|].
          assert ((w + 1) * dt <= V * dt) by (apply Z.mul_le_mono_nonneg_r; lia). nia. }
      change (znth (snd (piece_of (k, x))) (P - fst (piece_of (k, x))) = znth e p).
      rewrite EP. cbn [piece_of snd].
      assert (EQ : P - q * (V * dt) = w * dt + p) by (unfold P; ring). rewrite EQ.
      rewrite <- (Hyes k x Hi Ek). fold w. unfold element. rewrite znth_take by lia. rewrite znth_drop by nia. reflexivity.
    - assert (Hnone : forall k x, In (k, x) cs -> chunk_of shape k <> chunk_of shape idx).
      { intros k x Hi Ek. pose proof (find_none _ _ Ef _ Hi) as N. cbn [fst] in N.
        destruct (list_eq_dec Z.eq_dec (chunk_of shape k) (chunk_of shape idx)); [discriminate|contradiction]. }
      destruct (Hno Hnone) as (v & Ev & Lv & Ee). destruct (Hfill v Ev Lv) as [Hm Hv].
      destruct Hh as (h & Hh1 & Hh2 & _ & Hn).
      { intros x Hx. apply in_map_iff in Hx. destruct Hx as ([k y] & <- & Hi).
        rewrite Forall_forall in Hthere, Hin. pose proof (Hthere _ Hi) as PL. cbn [snd] in PL. unfold p_end. cbn [piece_of fst snd]. rewrite PL.
        set (q' := offset G (chunk_of shape k)).
        intros HH. assert (q' = q).
        { assert ((w + 1) * dt <= V * dt) by (apply Z.mul_le_mono_nonneg_r; lia).
          assert (q' * (V * dt) < (q + 1) * (V * dt)) by (unfold P in HH; nia).
          assert (q * (V * dt) < (q' + 1) * (V * dt)) by (unfold P in HH; nia).
          match goal with A : q' * (V * dt) < _, B : q * (V * dt) < _ |- _ =>
            assert (HV : 0 < V * dt) by nia; apply Z.mul_lt_mono_pos_r in A, B; [|exact HV..]; clear -A B; lia end. }
        apply (Hnone k y Hi). apply (IndexProofs.offset_inj G); [|apply chunk_in_grid; assumption|assumption].
        apply chunk_in_grid; [exact Hext|]. exact (Hin _ Hi). }
      unfold znth at 1. rewrite Hn. rewrite Ee, Hv by lia. unfold znth. do 2 f_equal.
      assert (Hz0 : 0 < zlen pat) by (destruct pat as [|x l]; [congruence|rewrite zlen_cons; pose proof (zlen_nonneg l); lia]).
      assert (Hq : exists r, h = r * dt).
      { destruct Hh1 as [->|(x & Hx & <-)]; [exists 0; lia|]. apply in_map_iff in Hx. destruct Hx as ([k y] & <- & Hi).
        rewrite Forall_forall in Hthere. pose proof (Hthere _ Hi) as PL. cbn [snd] in PL. unfold p_end. cbn [piece_of fst snd]. rewrite PL.
        exists ((offset G (chunk_of shape k) + 1) * V). ring. }
      destruct Hq as [r ->]. apply Z.mod_divide in Hm; [|lia]. destruct Hm as [m ->].
      unfold P. replace ((q * V + w) * (m * zlen pat) + p - r * (m * zlen pat)) with (p + ((q * V + w - r) * m) * zlen pat) by ring.
      apply Z.mod_add. lia.
  Qed.
End Chunks.

(** ** All ways to store data *)

(** What the reader keeps of a layout *)
Definition keeps (p : place) (i : rinfo) : Prop :=
  match p with
  | Compact data => ri_layout i = [] /\ ri_blocks i = [mkBlock 0 (zlen data) (zlen data) 0 [] (Some data)]
  | Contiguous (Some a) size => ri_layout i = [] /\ ri_blocks i = [mkBlock a size size 0 [] None]
  | Contiguous None _ => ri_layout i = [] /\ ri_blocks i = [] /\ ri_btree i = 0
  | Chunked None shape _ => ri_layout i = shape /\ ri_blocks i = [] /\ ri_btree i = 0
  | Chunked (Some a) shape elem =>
      ri_layout i = shape /\ ri_blocks i = [] /\ ri_btree i = a /\ ri_elem i = elem /\
      ri_number i = u64 (fold_left Z.mul shape 1) /\ ri_rank i = zlen shape + 1
  end.
(** The fill value is the pattern repeated; elements are filled with whole patterns *)
Definition repeats (dt : Z) (pat : bytes) (fill : option bytes) : Prop :=
  (forall v, fill = Some v -> zlen v = dt -> dt mod zlen pat = 0 /\ forall p, 0 <= p < dt -> znth v p = znth pat (p mod zlen pat)) /\
  dt mod zlen pat = 0.

Lemma fold_volume l : forall a, fold_left Z.mul l a = a * volume l.
Proof. induction l as [|x l IH]; intros a; cbn [fold_left volume]; [ring|]. rewrite IH. ring. Qed.

Section Stored.
  Variables (f : bytes) (i : rinfo) (dims : list Z) (t : dty) (fill : option bytes).
  Hypothesis Hf : zlen f < 2 ^ 63.
  Hypothesis Hd : Forall (fun n => 0 <= n < 2 ^ 63) dims.
  Hypothesis Ht : 0 < dlen t < 2 ^ 32.
  Hypothesis Hpat : repeats (dlen t) (fillOf i t) fill.
  Variables (flt : block -> bytes -> res bytes) (sk : bool).
  Definition dset_through : dset :=
    mkDset dims (ri_layout i) t (ri_btree i) (ri_elem i) (ri_number i) (ri_rank i) (fillOf i t) flt sk.
  Notation d := dset_through.

  Lemma Hd0 : Forall (fun n => 0 <= n) dims.
  Proof. clear flt. eapply Forall_impl; [|exact Hd]. cbn beta. lia. Qed.
  Lemma no_layout : ri_layout i = [] -> needsLayoutReader (d_dims d) (d_layout d) = false.
  Proof. intros Hl. cbn [dset_through d_layout d_dims]. rewrite Hl. destruct dims; reflexivity. Qed.
  Lemma fits_flat bl : ri_layout i = [] -> volume dims * dlen t < 2 ^ 63 -> fits d bl /\ total d = volume dims * dlen t.
  Proof.
    intros Hl Hv. assert (E : total d = volume dims * dlen t) by (unfold total; cbn [dset_through d_layout d_dims]; rewrite Hl; reflexivity).
    split; [|exact E]. unfold fits. rewrite E. split; [exact Hd|]. split; [apply Ht|]. split; [exact Hv|].
    cbn [dset_through d_layout]. rewrite Hl. exact I.
  Qed.

  Lemma flat_bytes b s bl bl' : ri_layout i = [] -> zlen b = volume dims * dlen t -> zlen b < 2 ^ 63 ->
    newRecordReader f d bl None = Ok (s, total d, bl') -> s = b -> dataBytes f d bl None = Ok (b, bl').
  Proof.
    intros Hl Hz Hb E ->. rewrite Hz in Hb. destruct (fits_flat bl Hl Hb) as [Hfit Et]. destruct (size_total _ _ Hfit) as [Es Pt].
    unfold dataBytes. cbv zeta. rewrite E, Es. cbn [rbind]. rewrite (no_layout Hl). cbn [rbind].
    rewrite (i64_small (total d)) by lia. rewrite Z.ltb_irrefl. rewrite ztake_all by lia. reflexivity.
  Qed.

  Lemma one_block blk b : ri_layout i = [] -> zlen b = volume dims * dlen t -> zlen b < 2 ^ 63 ->
    (b <> [] -> block_data f d blk b) -> dataBytes f d [blk] None = Ok (b, [blk]).
  Proof.
    intros Hl Hz Hb Hblk. pose proof Hb as Hb'. rewrite Hz in Hb'. destruct (fits_flat [blk] Hl Hb') as [Hfit Et].
    destruct (size_total _ _ Hfit) as [Es Pt]. pose proof (zlen_nonneg b) as Z0.
    assert (E : newRecordReader f d [blk] None = Ok (b, total d, [blk])); [|exact (flat_bytes _ _ _ _ Hl Hz Hb E eq_refl)].
    destruct (Z.eq_dec (zlen b) 0) as [E0|N0].
    - unfold newRecordReader. rewrite Es, Et, <- Hz, E0. cbn [Z.eqb]. rewrite (zlen_zero b E0). reflexivity.
    - assert (Nb : b <> []) by (intros ->; apply N0; reflexivity).
      assert (Hpl : placed f d 0 [blk] [(0, b)]).
      { pose proof (placed_cons f d 0 blk [] b []) as P. assert (El : d_layout d = []) by exact Hl. rewrite El in P.
        apply P; [exact (Hblk Nb)|apply placed_nil]. }
      assert (Hin : inside (total d) [(0, b)]).
      { constructor; [|constructor]. unfold p_end. cbn [fst snd]. split; [lia|]. split; [lia|exact Nb]. }
      assert (Np : d_fill d <> []) by apply fillOf_some.
      rewrite (whole_stream f d _ [(0, b)] Hf Hfit); try assumption; [|constructor; constructor|discriminate].
      do 2 f_equal. f_equal. rewrite Et, <- Hz.
      etransitivity; [apply (stream_cons (d_fill d) 0 b [] 0 (zlen b)); try assumption; try lia; constructor|].
      rewrite stream_fill by (assumption || lia). rewrite !(zlen_zero (fillBytes _ _)) by (rewrite zlen_fill by exact Np; lia).
      apply app_nil_r.
  Qed.

  Lemma only_fill b : ri_layout i = [] -> ri_btree i = 0 -> filled dims (dlen t) fill b -> zlen b < 2 ^ 63 ->
    dataBytes f d [] None = Ok (b, []).
  Proof.
    intros Hl Hbt (v & Ev & Lv & Hz & He) Hb. pose proof Hb as Hb'. rewrite Hz in Hb'. destruct (fits_flat [] Hl Hb') as [Hfit Et].
    destruct (size_total _ _ Hfit) as [Es Pt]. assert (Np : d_fill d <> []) by apply fillOf_some.
    assert (S := stream_spec (d_fill d) [] (total d) Pt ltac:(constructor) ltac:(constructor)). 
    assert (W := whole_stream f d [] [] Hf Hfit Np (placed_nil _ _ _) ltac:(constructor) ltac:(constructor) (fun _ => Hbt)).
    apply (flat_bytes _ _ _ _ Hl Hz Hb W). destruct S as [S1 S2]. apply znth_ext; [lia|]. rewrite S1. intros p Hp.
    destruct (S2 p Hp) as [_ S3]. destruct (S3 ltac:(intros x [])) as (h & [->|(x & [] & _)] & _ & _ & E).
    unfold znth at 1. rewrite E, Z.sub_0_r. destruct (proj1 Hpat v Ev Lv) as [Hm Hv].
    pose proof (Z.div_mod p (dlen t) ltac:(lia)) as D. pose proof (Z.mod_pos_bound p (dlen t) ltac:(lia)) as M.
    assert (Q : 0 <= p / dlen t < volume dims).
    { split; [apply Z.div_pos; lia|]. apply Z.div_lt_upper_bound; [lia|]. rewrite Z.mul_comm. lia. }
    assert (EE : znth b p = znth v (p mod dlen t)).
    { rewrite <- (He _ Q). unfold element. rewrite znth_take by exact M.
      rewrite znth_drop by (exact (proj1 M) || (apply Z.mul_nonneg_nonneg; [exact (proj1 Q)|clear -M; lia])). f_equal. rewrite D at 1. ring. }
    rewrite EE, Hv by (exact M || (clear -M; lia)). unfold znth. do 2 f_equal. cbn [dset_through d_fill].
    set (z := zlen (fillOf i t)) in *.
    assert (Hz0 : 0 < z) by (unfold z; destruct (fillOf i t) as [|c l] eqn:Ef; [exfalso; exact (fillOf_some i t Ef)|rewrite zlen_cons; pose proof (zlen_nonneg l); lia]).
    apply Z.mod_divide in Hm; [|lia]. destruct Hm as [m Em].
    rewrite D at 1. rewrite Em at 1.
    replace (m * z * (p / dlen t) + p mod dlen t) with (p mod dlen t + (m * (p / dlen t)) * z) by ring. apply Z.mod_add. lia.
  Qed.

  (** Chunks *)
  Lemma chunks_ext shape : chunks_fit dims shape (dlen t) -> ext_ok dims shape.
  Proof.
    clear flt. intros (A & _ & B & C & _). pose proof Hd0 as D. clear Hd Hpat. revert B D. induction C as [|x l xs ls H C IH]; intros B D; constructor.
    - inversion B; inversion D; subst. lia.
    - inversion B; inversion D; subst. apply IH; [cbn in A; lia|assumption|assumption].
  Qed.
  Lemma fits_chunks shape : ri_layout i = shape -> chunks_fit dims shape (dlen t) -> fits d [] /\
    total d = volume (chunk_grid dims shape) * volume shape * dlen t /\ shape <> [].
  Proof.
    intros Hl Hc. pose proof (chunks_ext _ Hc) as He. destruct Hc as (A & B & C & D & E & F).
    assert (N : shape <> []) by (intros ->; destruct dims; [congruence|discriminate]).
    assert (ET : total d = volume (chunk_grid dims shape) * volume shape * dlen t).
    { unfold total. cbn [dset_through d_layout d_dims]. rewrite Hl. destruct shape; [congruence|reflexivity]. }
    split; [|split; assumption]. unfold fits. rewrite ET. cbn [dset_through d_layout d_dims d_length d_ty]. rewrite Hl.
    split; [exact Hd|]. split; [apply Ht|]. split; [exact F|]. destruct shape as [|l shape]; [congruence|].
    split; [exact B|]. split; [exact He|constructor].
  Qed.

  Lemma element_len b idx : zlen b = volume dims * dlen t -> in_shape dims idx -> zlen (element (dlen t) b (offset dims idx)) = dlen t.
  Proof.
    clear flt. intros Hz I. pose proof (offset_range _ _ I) as R. unfold element. rewrite zlen_ztake; [reflexivity|lia|]. rewrite zlen_zdrop by nia. nia.
  Qed.

  Lemma no_chunks shape b : ri_layout i = shape -> ri_btree i = 0 -> chunks_fit dims shape (dlen t) -> orderly dims shape ->
    filled dims (dlen t) fill b -> exists rest, dataBytes f d [] None = Ok (b ++ rest, []).
  Proof.
    intros Hl Hbt Hc Ho (v & Ev & Lv & Hz & He). destruct (fits_chunks _ Hl Hc) as (Hfit & ET & N).
    pose proof (chunks_ext _ Hc) as Hext.
    destruct (size_total _ _ Hfit) as [Es Pt]. assert (Np : d_fill d <> []) by apply fillOf_some.
    assert (S := stream_spec (d_fill d) [] (total d) Pt ltac:(constructor) ltac:(constructor)).
    assert (W := whole_stream f d [] [] Hf Hfit Np (placed_nil _ _ _) ltac:(constructor) ltac:(constructor) (fun _ => Hbt)).
    apply (stream_bytes _ _ _ _ _ b W Hfit).
    - cbn [dset_through d_layout]. rewrite Hl. exact N.
    - cbn [dset_through d_layout d_dims]. rewrite Hl. exact Ho.
    - rewrite zlen_stream. lia.
    - change (d_length d) with (dlen t). cbn [dset_through d_layout d_dims]. rewrite Hl.
      apply assembled; [exact Hd0|lia|exact Hz|]. intros idx I.
      apply (chunk_element dims shape (dlen t) fill (fillOf i t) Hext ltac:(lia) (fillOf_some i t) (proj1 Hpat) [] b (total d)); try assumption.
      + constructor.
      + constructor.
      + apply element_len; assumption.
      + intros k x [].
      + intros _. exists v. split; [exact Ev|]. split; [exact Lv|]. apply He. apply offset_range, I.
  Qed.

  Lemma index_known a shape it : ri_layout i = shape -> ri_btree i = a -> ri_elem i = dlen t ->
    ri_number i = u64 (fold_left Z.mul shape 1) -> ri_rank i = zlen shape + 1 ->
    chunks_fit dims shape (dlen t) -> index_is f a dims shape it -> indexed_whole f d it.
  Proof.
    intros Hl Hbt Hel Hnu Hrk Hc (Ha & Hst & Hk & Hdp & Hnd). destruct (fits_chunks _ Hl Hc) as (Hfit & ET & N).
    pose proof (layout_pos _ _ (chunks_ext _ Hc)) as PV.
    unfold indexed_whole. cbn [dset_through d_layout d_dims d_length d_ty d_elem d_number d_rank d_btree]. rewrite Hl, Hbt, Hel, Hnu, Hrk.
    split; [reflexivity|]. split; [lia|]. split.
    { rewrite fold_volume, Z.mul_1_l. unfold u64. rewrite Z.mod_small; [reflexivity|]. split; [lia|]. apply Hc. }
    split; [destruct Hc as (A & _); unfold zlen; rewrite A; reflexivity|].
    split; [exact N|]. split; [lia|]. split; [exact Hst|]. split; [exact Hk|]. split; [exact Hdp|exact Hnd].
  Qed.
  Definition chunk_pieces (shape : list Z) (it : itree) (xs : list bytes) : list piece :=
    map (piece_of dims shape (dlen t)) (map (fun cx : (key * Z) * bytes => (k_index (fst (fst cx)), snd cx)) (combine (ichunks it) xs)).
  Lemma chunks_placed shape it xs : ri_layout i = shape -> shape <> [] ->
    Forall2 (fun c x => block_data f d (index_block d c) x) (ichunks it) xs ->
    placed f d 0 (map (index_block d) (ichunks it)) (chunk_pieces shape it xs).
  Proof.
    intros Hl N Hth. unfold chunk_pieces. generalize 0. clear -Hth Hl N. induction Hth as [|c x l xs Hc Hcs IH]; intros o; [constructor|]. cbn [combine map fst snd].
    assert (E : piece_of dims shape (dlen t) (k_index (fst c), x) =
      (match d_layout d with [] => o | _ => chunk_pos d (index_block d c) end, x)).
    { cbn [dset_through d_layout]. rewrite Hl. destruct shape as [|l' sh] eqn:Es; [congruence|]. rewrite <- Es in *.
      unfold chunk_pos. cbn [index_block b_offsets dset_through d_layout d_dims d_length d_ty]. rewrite Hl. reflexivity. }
    rewrite E. apply placed_cons; [exact Hc|apply IH].
  Qed.

  Lemma all_chunks a shape it xs b : ri_layout i = shape -> ri_btree i = a -> ri_elem i = dlen t ->
    ri_number i = u64 (fold_left Z.mul shape 1) -> ri_rank i = zlen shape + 1 ->
    chunks_fit dims shape (dlen t) -> orderly dims shape -> index_is f a dims shape it ->
    Forall2 (fun c x => block_data f d (index_block d c) x) (ichunks it) xs -> zlen b = volume dims * dlen t ->
    (forall idx, in_shape dims idx ->
      (forall c x, In (c, x) (combine (ichunks it) xs) -> chunk_of shape (k_index (fst c)) = chunk_of shape idx ->
         element (dlen t) x (offset shape (within shape idx)) = element (dlen t) b (offset dims idx)) /\
      ((forall addr, ~ chunk_has shape it idx addr) ->
         exists v, fill = Some v /\ zlen v = dlen t /\ element (dlen t) b (offset dims idx) = v)) ->
    exists rest bl, dataBytes f d [] None = Ok (b ++ rest, bl).
  Proof.
    intros Hl Hbt Hel Hnu Hrk Hc Ho Hii Hth Hz He. pose proof (index_known _ _ _ Hl Hbt Hel Hnu Hrk Hc Hii) as Hix.
    destruct (fits_chunks _ Hl Hc) as (Hfit & ET & N).
    pose proof (chunks_ext _ Hc) as Hext. pose proof (layout_pos _ _ Hext) as PV.
    destruct (size_total _ _ Hfit) as [Es Pt]. assert (Np : d_fill d <> []) by apply fillOf_some.
    set (cs := map (fun cx : (key * Z) * bytes => (k_index (fst (fst cx)), snd cx)) (combine (ichunks it) xs)).
    pose proof (chunks_placed _ _ _ Hl N Hth) as Hpl. unfold chunk_pieces in Hpl. fold cs in Hpl.
    set (ps := map (piece_of dims shape (dlen t)) cs) in *.
    destruct (wh_reader f d it Hf Hfit Hix ps Hpl None (or_introl eq_refl) Np) as (bl & W & _).
    pose proof (stream_spec (d_fill d) ps (total d) Pt (wh_apart f d it Hfit Hix ps Hpl) (wh_inside f d it Hfit Hix ps Hpl)) as S.
    pose proof (wh_all f d it Hix) as Hall.
    assert (Hcs : forall k x, In (k, x) cs <-> exists c, In (c, x) (combine (ichunks it) xs) /\ k = k_index (fst c)).
    { intros k x. unfold cs. rewrite in_map_iff. split.
      - intros ([c y] & E & Hi). cbn [fst snd] in E. injection E as <- <-. exists c. split; [exact Hi|reflexivity].
      - intros (c & Hi & ->). exists (c, x). split; [reflexivity|exact Hi]. }
    destruct (stream_bytes _ _ _ _ _ b W Hfit) as [rest E]; [| | | |exists rest, bl; exact E].
    - cbn [dset_through d_layout]. rewrite Hl. exact N.
    - cbn [dset_through d_layout d_dims]. rewrite Hl. exact Ho.
    - rewrite zlen_stream. lia.
    - change (d_length d) with (dlen t). cbn [dset_through d_layout d_dims]. rewrite Hl.
      apply assembled; [exact Hd0|lia|exact Hz|]. intros idx I. destruct (He idx I) as [He1 He2].
      apply (chunk_element dims shape (dlen t) fill (fillOf i t) Hext ltac:(lia) (fillOf_some i t) (proj1 Hpat) cs b (total d)); try assumption.
      + apply Forall_forall. intros [k x] Hi. cbn [snd]. apply Hcs in Hi. destruct Hi as (c & Hi & ->).
        clear -Hth Hi Hl Hel. induction Hth as [|c' x' l xs Hc Hcs IH]; [destruct Hi|]. destruct Hi as [E|Hi]; [|exact (IH Hi)].
        injection E as -> ->. destruct Hc as (Hc & _). cbn [index_block b_ds dset_through d_layout d_elem] in Hc. rewrite Hl, Hel in Hc. exact Hc.
      + apply Forall_forall. intros [k x] Hi. cbn [fst]. apply Hcs in Hi. destruct Hi as (c & Hi & ->). apply in_combine_l in Hi.
        rewrite Forall_forall in Hall. exact (Hall _ Hi).
      + apply element_len; assumption.
      + intros k x Hi Ek. apply Hcs in Hi. destruct Hi as (c & Hi & ->). exact (He1 c x Hi Ek).
      + intros Hno. apply He2. intros addr (k & Hi & Ek).
        assert (Hx : exists x, In ((k, addr), x) (combine (ichunks it) xs)).
        { clear -Hth Hi. induction Hth as [|c' x' l xs Hc Hcs IH]; [destruct Hi|]. destruct Hi as [E|Hi].
          - exists x'. left. rewrite E. reflexivity.
          - destruct (IH Hi) as [x Hx]. exists x. right. exact Hx. }
        destruct Hx as [x Hx]. apply (Hno (k_index k) x); [|exact Ek]. apply Hcs. exists (k, addr). split; [exact Hx|reflexivity].
  Qed.
End Stored.

Section Bare.
  Variables (f : bytes) (i : rinfo) (dims : list Z) (t : dty) (fill : option bytes).
  Hypothesis Hf : zlen f < 2 ^ 63.
  Hypothesis Hd : Forall (fun n => 0 <= n < 2 ^ 63) dims.
  Hypothesis Ht : 0 < dlen t < 2 ^ 32.
  Hypothesis Hpat : repeats (dlen t) (fillOf i t) fill.
  Notation d := (dset_of i dims t).

  (** Chunks without filters *)
  Definition body_of (dt : Z) (shape : list Z) (c : key * Z) : bytes := ztake (volume shape * dt) (zdrop (snd c) f).
  Lemma bare_chunks a shape it b : ri_layout i = shape -> ri_btree i = a -> ri_elem i = dlen t ->
    ri_number i = u64 (fold_left Z.mul shape 1) -> ri_rank i = zlen shape + 1 ->
    chunks_fit dims shape (dlen t) -> orderly dims shape -> index_is f a dims shape it ->
    in_chunks f dims shape (dlen t) fill it b -> exists rest bl, dataBytes f d [] None = Ok (b ++ rest, bl).
  Proof.
    intros Hl Hbt Hel Hnu Hrk Hc Ho Hix (Hth & Hz & He).
    pose proof (chunks_ext dims t Hd _ Hc) as Hext. pose proof (layout_pos _ _ Hext) as PV.
    assert (PP : 0 < volume shape * dlen t) by (apply Z.mul_pos_pos; lia).
    assert (PL : forall c, chunk_there f shape (dlen t) c -> zlen (body_of (dlen t) shape c) = volume shape * dlen t).
    { intros c (K1 & K2 & K3). unfold body_of. rewrite zlen_ztake; [reflexivity|lia|]. rewrite zlen_zdrop by lia. lia. }
    assert (FF : forall (A B : Type) (R : A -> B -> Prop) (g : A -> B) l, Forall (fun a => R a (g a)) l -> Forall2 R l (map g l))
      by (intros A B R g l H; induction H; constructor; assumption).
    apply (all_chunks f i dims t fill Hf Hd Ht Hpat (fun _ b => Ok b) true a shape it (map (body_of (dlen t) shape) (ichunks it)) b); try assumption.
    - apply FF. eapply Forall_impl; [|exact Hth]. cbn beta. intros c Hth'. pose proof (PL c Hth') as PL'. destruct Hth' as (K1 & K2 & K3).
      unfold block_data. cbn [index_block b_ds b_raw b_addr b_length dset_through d_layout d_elem d_filter d_seek]. rewrite Hl, Hel.
      split; [exact PL'|]. split; [intros E0; rewrite E0 in PL'; cbn in PL'; lia|].
      exists (body_of (dlen t) shape c), [].
      split.
      { unfold body_of. exists (ztake (snd c) f), (zdrop (volume shape * dlen t) (zdrop (snd c) f)).
        rewrite (ztake_zdrop (volume shape * dlen t)), ztake_zdrop. split; [reflexivity|]. apply zlen_ztake; lia. }
      split; [rewrite K1; exact PL'|]. split; [intros E0; rewrite E0 in PL'; cbn in PL'; lia|].
      rewrite app_nil_r. split; [reflexivity|]. intros _. exists []. rewrite app_nil_r. reflexivity.
    - intros idx I. destruct (He idx I) as [He1 He2]. split; [|exact He2]. intros c x Hi Ek.
      assert (E : In c (ichunks it) /\ x = body_of (dlen t) shape c).
      { clear -Hi. induction (ichunks it) as [|c' l IH]; [destruct Hi|]. destruct Hi as [E|Hi].
        - injection E as -> <-. split; [left; reflexivity|reflexivity].
        - destruct (IH Hi) as [A B]. split; [right; exact A|exact B]. }
      destruct E as [Hc' ->]. rewrite Forall_forall in Hth. destruct (Hth _ Hc') as (K1 & K2 & K3).
      specialize (He1 (snd c)). pose proof (offset_range _ _ (within_in _ _ Hext _ I)) as Rw.
      set (w := offset shape (within shape idx)) in *.
      assert (LW : (w + 1) * dlen t <= volume shape * dlen t) by (apply Z.mul_le_mono_nonneg_r; lia).
      assert (He3 : has_at f (snd c + w * dlen t) (element (dlen t) b (offset dims idx))).
      { apply He1. exists (fst c). split; [destruct c; exact Hc'|exact Ek]. }
      pose proof (element_len dims t Ht b idx Hz I) as EL.
      apply znth_ext.
      { rewrite EL. unfold element at 1, body_of. rewrite zlen_ztake; [reflexivity|lia|]. rewrite zlen_zdrop, zlen_ztake by (rewrite ?zlen_zdrop by lia; lia). lia. }
      assert (EL2 : zlen (element (dlen t) (body_of (dlen t) shape c) w) = dlen t).
      { unfold element, body_of. rewrite zlen_ztake; [reflexivity|lia|]. rewrite zlen_zdrop, zlen_ztake by (rewrite ?zlen_zdrop by lia; lia). lia. }
      rewrite EL2. intros p Hp. rewrite <- (znth_at _ _ _ p He3) by lia. unfold element at 1, body_of.
      rewrite znth_take by lia. rewrite znth_drop by nia. rewrite znth_take by nia. rewrite znth_drop by nia. f_equal. lia.
  Qed.

  Theorem stored_bytes p b : stored_as f dims (dlen t) fill p b -> keeps p i -> zlen b = volume dims * dlen t -> zlen b < 2 ^ 63 ->
    exists rest bl, dataBytes f d (ri_blocks i) None = Ok (b ++ rest, bl).
  Proof.
    intros H K Hz Hb. destruct H as [b|a b Hat|size b Hfl|shape b Hc Ho Hfl|a shape it b Hc Ho Hix Hin]; cbn [keeps] in K.
    - destruct K as [K1 ->]. eexists [], _. rewrite app_nil_r. apply (one_block f i dims t Hf Hd Ht (fun _ b => Ok b) true); try assumption.
      intros Nb. split; [reflexivity|]. split; [exact Nb|]. cbn [b_raw]. split; [exists []; rewrite app_nil_r; reflexivity|reflexivity].
    - destruct K as [K1 ->]. eexists [], _. rewrite app_nil_r. apply (one_block f i dims t Hf Hd Ht (fun _ b => Ok b) true); try assumption.
      intros Nb. split; [reflexivity|]. split; [exact Nb|]. cbn [b_raw b_addr b_length]. exists b, [].
      split; [exact Hat|]. split; [reflexivity|]. split; [exact Nb|]. split; [rewrite app_nil_r; reflexivity|].
      intros _. exists []. rewrite app_nil_r. reflexivity.
    - destruct K as (K1 & -> & K2). exists [], []. rewrite app_nil_r. apply (only_fill f i dims t fill Hf Hd Ht Hpat (fun _ b => Ok b) true); assumption.
    - destruct K as (K1 & -> & K2). destruct (no_chunks f i dims t fill Hf Hd Ht Hpat (fun _ b => Ok b) true _ _ K1 K2 Hc Ho Hfl) as [rest E]. exists rest, []. exact E.
    - destruct K as (K1 & -> & K2 & K3 & K4 & K5). exact (bare_chunks _ _ _ _ K1 K2 K3 K4 K5 Hc Ho Hix Hin).
  Qed.
End Bare.
