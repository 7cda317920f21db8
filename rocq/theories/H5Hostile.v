(** Opening arbitrary bytes as HDF5: lemmas for C86. *)
From Coq Require Import Lia ZifyBool ZifyNat.
From Verif Require Import Prelude BaseLemmas H5Base H5ChecksumModel H5ChecksumProofs H5MetaWrite H5MetaRead ArraySpec ChunkSpec RecordSpec MetaSpec DenseSpec ForeignSpec
  ForeignTypeSpec ForeignMsgSpec ForeignDataSpec HostileSpec H5MetaProofs H5PathModel H5Value H5TypeRead H5LayoutModel H5RecordModel H5FileRead H5DenseProofs
  H5ForeignProofs H5ForeignTree H5ForeignOpen H5ForeignType H5ForeignValue H5ForeignData H5ForeignVar H5RecordProofs H5IndexProofs H5ChunkProofs H5ChunkedProofs.

(** ** The superblock *)
Definition calm {A} (p : P A) : Prop := forall s, p s <> Panic.
Lemma calm_bind {A B} (p : P A) (k : A -> P B) : calm p -> (forall a, calm (k a)) -> calm (pbind p k).
Proof. intros H K s. unfold pbind. specialize (H s). destruct (p s) as [[a r]| |]; cbn [rbind]; [apply K|discriminate|contradiction]. Qed.
Lemma calm_ret {A} (a : A) : calm (pret a).
Proof. intros s. discriminate. Qed.
Lemma calm_rd n : calm (rd n).
Proof. intros s. unfold rd. destruct (n <=? zlen s); discriminate. Qed.
Lemma calm_read8 : calm read8.
Proof. apply calm_bind; [apply calm_rd|intros; apply calm_ret]. Qed.
Lemma calm_read16 : calm read16.
Proof. apply calm_bind; [apply calm_rd|intros; apply calm_ret]. Qed.
Lemma calm_read32 : calm read32.
Proof. apply calm_bind; [apply calm_rd|intros; apply calm_ret]. Qed.
Lemma calm_read64 : calm read64.
Proof. apply calm_bind; [apply calm_rd|intros; apply calm_ret]. Qed.
Lemma calm_assert b e : calm (passert b e).
Proof. intros s. unfold passert. destruct b; discriminate. Qed.
Lemma calm_val a b : calm (checkVal a b).
Proof. apply calm_assert. Qed.
Lemma calm_magic m : calm (checkMagic m).
Proof. apply calm_bind; [apply calm_rd|intros; apply calm_assert]. Qed.
Lemma newSeek_calm f a n : newSeek f a n <> Panic.
Proof. unfold newSeek. cbv zeta. destruct (_ <=? _); [|discriminate]. destruct (_ <? _); discriminate. Qed.
Lemma sum44_calm f : checkChecksum f 0 44 <> Panic.
Proof.
  unfold checkChecksum. pose proof (newSeek_calm f 0 (44 + 4)) as N. destruct (newSeek f 0 (44 + 4)) as [bf| |]; cbn [rbind]; [|discriminate|contradiction].
  unfold computeChecksumStream. cbv zeta. change (0 <? 44 mod 4) with false. cbv iota. unfold pbind, pret.
  pose proof (calm_rd (4 * (44 / 4)) bf) as R. destruct (rd (4 * (44 / 4)) bf) as [[b r]| |]; cbn [rbind]; [|discriminate|contradiction].
  destruct (hashInts_ok (words (Z.to_nat (44 / 4)) b) (u32 44)) as [h ->].
  { change (u32 44) with 44. unfold zlen. rewrite words_length. change (Z.of_nat (Z.to_nat (44 / 4))) with 11. lia. }
  cbn [rbind]. pose proof (calm_read32 r) as R2. destruct (read32 r) as [[s r']| |]; cbn [rbind]; [destruct (h =? s); discriminate|discriminate|contradiction].
Qed.

Ltac calm_step :=
  first [ apply calm_bind; [|intros ?] | apply calm_ret | apply calm_rd | apply calm_read8 | apply calm_read16 | apply calm_read32 | apply calm_read64
        | apply calm_assert | apply calm_val | apply calm_magic
        | match goal with |- calm (if ?c then _ else _) => destruct c end ].

Theorem superblock_calm ext f : (forall a, ext a <> Panic) -> readSuperblock ext f <> Panic.
Proof.
  intros He. unfold readSuperblock. destruct (negb (48 <=? zlen f)); [discriminate|].
  pose proof (newSeek_calm f 0 48) as N0. destruct (newSeek f 0 48) as [b0| |]; cbn [rbind]; [|discriminate|contradiction].
  pose proof (calm_magic h5_magic b0) as N1. destruct (checkMagic h5_magic b0) as [[u b1]| |]; cbn [rbind]; [|discriminate|contradiction].
  pose proof (calm_read8 b1) as N2. destruct (read8 b1) as [[version b2]| |]; cbn [rbind]; [|discriminate|contradiction].
  match goal with |- rbind ?x _ <> _ => assert (N3 : x <> Panic) end.
  { destruct (version =? 0); [apply newSeek_calm|]. destruct (version =? 1); [apply newSeek_calm|]. destruct ((version =? 2) || (version =? 3)); discriminate. }
  match goal with |- rbind ?x _ <> _ => destruct x as [b3| |]; cbn [rbind]; [|discriminate|contradiction] end.
  match goal with |- context [rbind (?p b3) _] => assert (C : calm p) end.
  { repeat calm_step. intros s. cbn beta. pose proof (sum44_calm f) as C. destruct (checkChecksum f 0 44) as [x| |]; cbn [rbind]; [discriminate|discriminate|contradiction]. }
  cbv zeta. match goal with |- rbind ?x _ <> _ => specialize (C b3); destruct x as [[[root e] b4]| |]; cbn [rbind]; [|discriminate|contradiction] end.
  destruct (e =? invalidAddress); [discriminate|]. specialize (He e). destruct (ext e) as [x| |]; cbn [rbind]; [discriminate|discriminate|contradiction].
Qed.

(** ** Continuation messages in a circle *)
Lemma goes_on_fails x flags o n rest st fu e : 0 <= o < 2 ^ 64 -> 0 <= n < 2 ^ 64 -> e_more x o n st = Err e ->
  readMessages (handle x) (S fu) 1 0 st (goes_on flags o n ++ rest) = Err e.
Proof.
  intros Ho Hn E. unfold goes_on. rewrite <- !app_assoc. cbn [readMessages].
  pose proof (zlen_nonneg rest) as P.
  match goal with |- context [zlen ?s <? 3] => assert (L : zlen s = 24 + zlen rest) end.
  { rewrite !zlen_app, !zlen_le. change (zlen [flags; 0; 0; 0]) with 4. lia. }
  rewrite L. replace (24 + zlen rest <? 3) with false by lia. change (1 =? 1) with true. cbv iota.
  rewrite read16_le by lia. cbn [rbind]. rewrite read16_le by lia. cbn [rbind].
  change (16 =? 0) with false. cbn [andb]. 
  assert (L2 : zlen ([flags; 0; 0; 0] ++ le 8 o ++ le 8 n ++ rest) = 20 + zlen rest).
  { rewrite !zlen_app, !zlen_le. change (zlen [flags; 0; 0; 0]) with 4. lia. }
  rewrite L2. replace (20 + zlen rest =? 0) with false by lia. cbn [app]. rewrite read8_cons. cbn [rbind].
  change (0 :: 0 :: 0 :: le 8 o ++ le 8 n ++ rest) with (zrep 3 0 ++ le 8 o ++ le 8 n ++ rest). rewrite checkZeroes_zrep by reflexivity. cbn [rbind].
  change (hasFlag8 0 2) with false. cbn [andb]. cbn [rbind].
  change (1 <? 1) with false. cbv iota.
  assert (L3 : zlen (le 8 o ++ le 8 n ++ rest) = 16 + zlen rest) by (rewrite !zlen_app, !zlen_le; lia).
  rewrite L3. replace (16 + zlen rest <? 16) with false by lia. cbv iota.
  replace (20 + zlen rest <? 16) with false by lia.
  rewrite app_assoc, (ztake_app_exact 16 (le 8 o ++ le 8 n)) by (rewrite zlen_app, !zlen_le; reflexivity).
  unfold handle. cbn [Z.eqb Pos.eqb]. rewrite read64_le by exact Ho. cbn [rbind].
  rewrite <- (app_nil_r (le 8 n)), read64_le by exact Hn. cbn [rbind]. rewrite E. reflexivity.
Qed.

Lemma common_fails x flags o n rest st e b c : 0 <= o < 2 ^ 64 -> 0 <= n < 2 ^ 64 -> e_more x o n st = Err e ->
  b = goes_on flags o n ++ rest -> c = zlen b -> readCommon (handle x) 1 0 st b c = Err e.
Proof.
  intros Ho Hn E -> ->. unfold readCommon. cbv zeta.
  rewrite ztake_all by lia. rewrite (goes_on_fails x flags o n rest st _ e Ho Hn E). reflexivity.
Qed.

Lemma goes_on_len flags o n : zlen (goes_on flags o n) = 24.
Proof. unfold goes_on. rewrite !zlen_app, !zlen_le. reflexivity. Qed.

(** No depth of calls is enough *)
Theorem circle_endless f o n : zlen f < 2 ^ 63 -> circle f o n -> forall fuel st, readAny fuel f (JMore 1 0 o n) st = Err ENotModelled.
Proof.
  intros Hf (H0 & flags & rest & Hat & Hn) fuel. pose proof (has_at_bound _ _ _ Hat) as [_ B]. rewrite Hn in B.
  assert (Pn : 24 <= n) by (rewrite zlen_app, goes_on_len in Hn; pose proof (zlen_nonneg rest); lia).
  induction fuel as [|fu IH]; intros st; [reflexivity|]. cbn [readAny]. unfold readContinuation.
  rewrite i64_small by lia. rewrite (newSeek_at f o _ n Hat) by lia. cbn [rbind]. change (1 <? 1) with false. cbv iota.
  apply (common_fails _ flags o n rest); [lia|lia|cbn [e_more fst snd]; apply IH|reflexivity|symmetry; exact Hn].
Qed.

Theorem circle_header f a o n flags rest : zlen f < 2 ^ 63 -> 0 < a -> header_v1 f a [0; 0; 0; 0] (goes_on flags o n ++ rest) -> circle f o n ->
  forall fuel st, readAny fuel f (JHeader a) st = Err ENotModelled.
Proof.
  intros Hf Ha (count & refs & W1 & W2 & W3 & _ & Hat) Hc fuel st. destruct fuel as [|fu]; [reflexivity|]. cbn [readAny].
  set (b := goes_on flags o n ++ rest) in *. unfold word in *.
  assert (Lb : 24 <= zlen b) by (unfold b; rewrite zlen_app, goes_on_len; pose proof (zlen_nonneg rest); lia).
  pose proof (has_at_bound _ _ _ Hat) as [_ B].
  assert (Hm : isMagic f (bs "OHDR") a = Ok false).
  { eapply (isMagic_not f a 1); [exact Hat| |discriminate|exact Ha|exact Hf].
    cbn [app]. repeat (rewrite zlen_cons || rewrite zlen_app || rewrite zlen_le). change (zlen (@nil Z)) with 0. lia. }
  assert (HK : headerKind f a = (1, 0)).
  { unfold headerKind. rewrite Hm. rewrite (byteAt_in f a 1 _ Hat). reflexivity. }
  rewrite HK. unfold readObjectHeader. rewrite Hm. cbn [rbind].
  set (p := [1; 0] ++ le 2 count ++ le 4 refs ++ le 4 (zlen b) ++ [0; 0; 0; 0]).
  assert (Hp : has_at f a (p ++ b)) by (unfold p; rewrite <- !app_assoc; exact Hat).
  assert (Lp : zlen p = 16) by (unfold p; rewrite !zlen_app, !zlen_le; reflexivity).
  unfold readObjectHeaderV1. rewrite (newSeek_at f a p 16 (has_at_app_l _ _ _ _ Hp)) by lia. cbn [rbind].
  unfold p. cbn [app]. rewrite read8_cons. cbn [rbind]. change (negb ((1 =? 1) || (1 =? 0))) with false. cbv iota.
  rewrite read8_cons. cbn [rbind]. rewrite checkVal_same. cbn [rbind]. rewrite read16_le by lia. cbn [rbind].
  rewrite read32_le by (unfold w32, Lookup3Spec.M32; lia). cbn [rbind]. rewrite read32_le by (unfold w32, Lookup3Spec.M32; lia). cbn [rbind].
  change [0; 0; 0; 0] with (zrep 4 0 ++ []). rewrite checkZeroes_zrep by reflexivity. cbn [rbind].
  pose proof (has_at_app_r _ _ _ _ Hp) as Hb. rewrite Lp in Hb. pose proof (has_at_bound _ _ _ Hb) as [_ B2].
  rewrite u64_small by lia. rewrite (newSeek_at f (a + 16) b (zlen b) Hb) by lia. cbn [rbind].
  assert (Ho : 0 <= o < 2 ^ 64 /\ 0 <= n < 2 ^ 64).
  { destruct Hc as (H0 & fl & r & Hc & Hn). pose proof (has_at_bound _ _ _ Hc) as [_ B3]. rewrite Hn in B3. pose proof (zlen_nonneg (goes_on fl o n ++ r)). lia. }
  apply (common_fails _ flags o n rest); [apply Ho|apply Ho|cbn [e_more fst snd]; apply circle_endless; assumption|reflexivity|reflexivity].
Qed.

(** ** Padding *)
Theorem padding_fatal f a padding b : zlen f < 2 ^ 63 -> 0 < a -> header_v1 f a padding b -> Exists (fun x => x <> 0) padding ->
  forall fuel st, readAny (S fuel) f (JHeader a) st = Panic.
Proof.
  intros Hf Ha (count & refs & W1 & W2 & W3 & L4 & Hat) Hx fuel st. cbn [readAny]. unfold word in *.
  pose proof (has_at_bound _ _ _ Hat) as [_ B]. pose proof (zlen_nonneg b).
  assert (Hm : isMagic f (bs "OHDR") a = Ok false).
  { eapply (isMagic_not f a 1); [exact Hat| |discriminate|exact Ha|exact Hf].
    cbn [app]. rewrite !zlen_cons, !zlen_app, !zlen_le. change (zlen (@nil Z)) with 0. lia. }
  unfold readObjectHeader. rewrite Hm. cbn [rbind].
  set (p := [1; 0] ++ le 2 count ++ le 4 refs ++ le 4 (zlen b) ++ padding).
  assert (Hp : has_at f a (p ++ b)) by (unfold p; rewrite <- !app_assoc; exact Hat).
  assert (Lp : zlen p = 16) by (unfold p; rewrite !zlen_app, !zlen_le, L4; reflexivity).
  unfold readObjectHeaderV1. rewrite (newSeek_at f a p 16 (has_at_app_l _ _ _ _ Hp)) by lia. cbn [rbind].
  unfold p. cbn [app]. rewrite read8_cons. cbn [rbind]. change (negb ((1 =? 1) || (1 =? 0))) with false. cbv iota.
  rewrite read8_cons. cbn [rbind]. rewrite checkVal_same. cbn [rbind]. rewrite read16_le by lia. cbn [rbind].
  rewrite read32_le by (unfold w32, Lookup3Spec.M32; lia). cbn [rbind]. rewrite read32_le by (unfold w32, Lookup3Spec.M32; lia). cbn [rbind].
  rewrite <- L4, checkZeroes_all.
  replace (forallb (Z.eqb 0) padding) with false; [reflexivity|]. symmetry. clear -Hx.
  induction Hx as [x l Hx|x l _ IH]; cbn [forallb]; [replace (0 =? x) with false by lia; reflexivity|rewrite IH; apply Bool.andb_false_r].
Qed.

(** ** Indexes in a circle *)
Lemma key_zero offs dims dt : Forall (eq 0) offs -> calculateFlatOffsetFromKeys offs dims dt = 0.
Proof.
  unfold calculateFlatOffsetFromKeys. intros H. revert dims. induction H as [|o os <- H IH]; intros dims; cbn [keyOffset]; [reflexivity|].
  destruct dims as [|d ds]; [reflexivity|]. specialize (IH ds). destruct (keyOffset os ds dt) as [x y]. cbn [fst] in *. rewrite IH. reflexivity.
Qed.
Theorem index_endless f d a rank last_ : zlen f < 2 ^ 63 -> d_rank d = Z.of_nat rank + 1 -> 0 < last_ -> circular_index f a rank ->
  forall fuel top, readBTreeNodeAny fuel f d a top 0 last_ = Err ENotModelled.
Proof.
  intros Hf Hr Hl (level & k & es & lk & Hlv & Hk & Hfit & Hat) fuel. induction fuel as [|fu IH]; intros top; [reflexivity|].
  rewrite (node_read f d a rank top 0 last_ fu level undefined undefined ((k, a) :: es) lk Hf Hr ltac:(lia) ltac:(intros _; split; reflexivity) Hfit Hat).
  cbn [map walkEntries fst snd]. cbn [entry_of e_offsets]. rewrite Hk, key_zero.
  2: { clear. induction rank as [|n IH]; cbn [repeat]; constructor; [reflexivity|exact IH]. }
  replace (last_ <=? 0) with false by lia. replace (level =? 0) with false by lia. cbv zeta. cbn [orb].
  match goal with |- (if ?c then _ else _) = _ => replace c with false by lia end.
  replace (0 <? level) with true by lia. cbn [e_addr]. rewrite IH. reflexivity.
Qed.
Theorem index_variable f root h name o a dims t ia shape fill : zlen f < 2 ^ 63 -> findVariable h name = Some o -> came f name a (FData dims) o ->
  dataset_at f alone a dims t (Chunked (Some ia) shape (fsize t)) fill -> Forall (fun n => 0 < n < 2 ^ 63) dims -> chunks_fit dims shape (fsize t) ->
  0 < ia -> circular_index f ia (List.length dims) -> getVariable f root h name = Err ENotModelled.
Proof.
  intros Hf Hfind Hc Hda Hd Hfit Hia Hci. destruct (came_data f name a o dims t _ fill Hf Hc Hda) as (E1 & E2 & E3 & E4 & E5).
  assert (Hs : 0 < fsize t < 2 ^ 32).
  { destruct Hda as (? & ? & ? & _ & _ & _ & _ & _ & ? & ? & ? & ? & ? & ? & _ & _ & _ & _ & _ & _ & Ht & _). exact (type_size _ _ _ Ht). }
  unfold getVariable. rewrite Hfind, E1, E5, E2. cbn [negb]. cbv zeta.
  cbn [keeps] in E3. destruct E3 as (K1 & K2 & K3 & K4 & K5 & K6).
  assert (Hd0 : Forall (fun n => 0 <= n < 2 ^ 63) dims) by (eapply Forall_impl; [|exact Hd]; cbn beta; intros; lia).
  assert (V : 0 < volume dims) by (clear -Hd; induction Hd as [|n l H Hd IH]; cbn [volume]; [lia|apply Z.mul_pos_pos; lia]).
  pose proof (dlen_told t) as DT. pose proof Hfit as Hfit'. rewrite <- DT in Hfit', Hs.
  destruct (fits_chunks (r_info o) dims _ Hd0 Hs (fun _ b => Ok b) true shape K1 Hfit') as (F & Et & _).
  destruct (size_total _ _ F) as [Es Pt]. pose proof (chunks_ext dims (H5ForeignType.told t) Hd0 _ Hfit') as Hext. pose proof (grid_covers _ _ Hext) as PG.
  assert (T0 : 0 < volume (chunk_grid dims shape) * volume shape * dlen (H5ForeignType.told t)) by (apply Z.mul_pos_pos; lia).
  change (dset_through (r_info o) dims (H5ForeignType.told t) (fun _ b => Ok b) true) with (dset_of (r_info o) dims (H5ForeignType.told t)) in Es, Et.
  set (d := dset_of (r_info o) dims (H5ForeignType.told t)) in *.
  assert (L : List.length dims = List.length shape) by (symmetry; exact (proj1 Hfit)).
  unfold getData, opened. cbn [v_blocks v_slice]. unfold dataBytes, newRecordReader. cbv zeta.
  rewrite K2, Es. replace (total d =? 0) with false by lia.
  assert (B : d_btree d = ia) by exact K3. rewrite B. replace (ia =? 0) with false by lia.
  unfold readBTreeNode. rewrite B.
  rewrite (index_endless f d ia (List.length dims) (total d) Hf ltac:(change (d_rank d) with (ri_rank (r_info o)); rewrite K6; unfold zlen; lia) ltac:(lia) Hci).
  reflexivity.
Qed.
