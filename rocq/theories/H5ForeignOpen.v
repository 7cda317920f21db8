(** Opening a file written by another program: the superblock, and the tree below the root group. *)
From Verif Require Import Prelude GoVal BaseLemmas H5Base H5ChecksumModel Lookup3Spec H5ChecksumProofs H5MetaWrite
  H5MetaRead MetaSpec H5MetaProofs H5DenseRead DenseSpec H5DenseProofs H5BTreeProofs H5SymbolProofs
  ForeignSpec H5Value H5TypeRead H5PathModel H5RecordModel H5FileRead H5ForeignProofs H5ForeignTree.
From Coq Require Import Lia ZifyBool ZifyNat Permutation.

Lemma scratch_read s : zlen s = 16 -> (do* _ := read64 in do* _ := read64 in pret tt) s = Ok (tt, zdrop 8 (zdrop 8 s)).
Proof.
  intros H. unfold pbind, read64, pbind, rd, pret. replace (8 <=? zlen s) with true by lia. cbn [rbind].
  rewrite zlen_zdrop. replace (8 <=? Z.max 0 (zlen s - Z.max 8 0)) with true by lia. reflexivity.
Qed.

Lemma superblock_read f root ext : superblock_is f root -> root <> undefined -> zlen f < 2 ^ 63 ->
  readSuperblock ext f = Ok root.
Proof.
  intros [Hr (eof & He & Hle & [H|H])] Hne Hf.
  - destruct H as (version & free & k & flags & k2 & driver & name & cache & scratch & Hv & H1 & H2 & H3 & H4 & H5 &
      H6 & H7 & Hc & Hs & HA).
    unfold word in *.
    pose proof (has_at_bound _ _ _ HA) as [_ HB].
    assert (HL : 96 <= zlen f).
    { rewrite !zlen_app, !zlen_le in HB. rewrite Hs in HB.
      change (zlen h5_signature) with 8 in HB. change (zlen [version; free; 0; 0; 0; 8; 8; 0]) with 8 in HB.
      match type of HB with context[zlen (if ?c then ?x else ?y)] => pose proof (zlen_nonneg (if c then x else y)) end.
      lia. }
    unfold readSuperblock. replace (48 <=? zlen f) with true by lia. cbn [negb].
    set (b := [free; 0; 0; 0; 8; 8; 0] ++ le 2 4 ++ le 2 k ++ le 4 flags ++
                  (if version =? 1 then le 2 k2 ++ [0; 0] else []) ++
                  le 8 0 ++ le 8 undefined ++ le 8 eof ++ le 8 driver ++
                  le 8 name ++ le 8 root ++ le 4 cache ++ le 4 0 ++ scratch).
    assert (HA1 : has_at f 0 ((h5_signature ++ [version]) ++ b)).
    { rewrite <- app_assoc. exact HA. }
    assert (HA2 : has_at f 9 b).
    { pose proof (has_at_app_r _ _ _ _ HA1) as Q. exact Q. }
    assert (Lb : zlen b = 87 + 4 * version).
    { unfold b. rewrite !zlen_app, !zlen_le. rewrite Hs.
      destruct Hv as [-> | ->]; reflexivity. }
    rewrite (newSeek_part f 0 (h5_signature ++ [version]) b 48 HA1);
      [|change (zlen (h5_signature ++ [version])) with 9; lia|lia|exact Hf].
    cbn [rbind]. change h5_signature with h5_magic. rewrite <- app_assoc. rewrite checkMagic_app. cbn [rbind app].
    rewrite read8_cons. cbn [rbind].
    replace (newSeek f 9 (96 - 9)) with (if version =? 0 then Ok b else newSeek f 9 (96 - 9)).
    2:{ destruct (version =? 0) eqn:Ev; [|reflexivity]. symmetry.
        apply (newSeek_at f 9 b); [exact HA2|lia|lia|exact Hf]. }
    replace (newSeek f 9 (100 - 9)) with (if version =? 1 then Ok b else newSeek f 9 (100 - 9)).
    2:{ destruct (version =? 1) eqn:Ev; [|reflexivity]. symmetry.
        apply (newSeek_at f 9 b); [exact HA2|lia|lia|exact Hf]. }
    unfold b. clear HA HA1 HA2 Lb b HB.
    assert (Hev : eof <=? zlen f = true) by lia.
    destruct Hv as [-> | ->].
    + change (0 =? 0) with true. change (0 =? 1) with false. change (0 <? 2) with true. cbv iota. cbn [rbind app].
      do 2 pstep. rewrite read8_cons. cbn [rbind].
      do 1 pstep. rewrite read8_cons. cbn [rbind]. pstep. rewrite checkVal_same. cbn [rbind].
      do 1 pstep. rewrite read8_cons. cbn [rbind]. pstep. rewrite checkVal_same. cbn [rbind].
      do 1 pstep. rewrite read8_cons. cbn [rbind]. rewrite checkVal_same. cbn [rbind].
      do 1 pstep. rewrite read8_cons. cbn [rbind].
      do 1 pstep. change (8 =? 8) with true. rewrite passert_true. cbn [rbind].
      do 1 pstep. rewrite read8_cons. cbn [rbind].
      do 1 pstep. rewrite checkVal_same. cbn [rbind].
      do 2 pstep. rewrite read8_cons. cbn [rbind]. pstep. rewrite checkVal_same. cbn [rbind].
      do 1 pstep. rewrite read16_le by lia. cbn [rbind]. pstep. change (4 =? 4) with true. rewrite passert_true. cbn [rbind].
      do 1 pstep. rewrite read16_le by lia. cbn [rbind].
      do 1 pstep. rewrite read32_le' by lia. cbn [rbind]. unfold pret at 1. cbn [rbind].
      do 1 pstep. rewrite read64_le by (split; [discriminate|reflexivity]). cbn [rbind].
      do 1 pstep. rewrite checkVal_same. cbn [rbind].
      do 1 pstep. rewrite read64_le by (split; [discriminate|reflexivity]). cbn [rbind].
      do 2 pstep. change undefined with invalidAddress. rewrite checkVal_same. cbn [rbind]. unfold pret at 1. cbn [rbind].
      do 1 pstep. rewrite read64_le by exact He. cbn [rbind].
      do 1 pstep. rewrite Hev, passert_true. cbn [rbind].
      do 1 pstep. rewrite read64_le by lia. cbn [rbind].
      do 1 pstep. rewrite read64_le by lia. cbn [rbind].
      do 1 pstep. rewrite read64_le by lia. cbn [rbind].
      do 1 pstep. rewrite read32_le' by (destruct Hc as [-> | ->]; split; [discriminate|reflexivity|discriminate|reflexivity]). cbn [rbind].
      do 1 pstep. rewrite read32_le' by (split; [discriminate|reflexivity]). cbn [rbind].
      do 1 pstep. rewrite checkVal_same. cbn [rbind]. pstep.
      destruct Hc as [-> | ->]; [reflexivity|]. change (1 =? 1) with true. cbv iota.
      rewrite scratch_read by exact Hs. reflexivity.
    + change (1 =? 0) with false. change (1 =? 1) with true. change (1 <? 2) with true. cbv iota. cbn [rbind app].
      do 2 pstep. rewrite read8_cons. cbn [rbind].
      do 1 pstep. rewrite read8_cons. cbn [rbind]. pstep. rewrite checkVal_same. cbn [rbind].
      do 1 pstep. rewrite read8_cons. cbn [rbind]. pstep. rewrite checkVal_same. cbn [rbind].
      do 1 pstep. rewrite read8_cons. cbn [rbind]. rewrite checkVal_same. cbn [rbind].
      do 1 pstep. rewrite read8_cons. cbn [rbind].
      do 1 pstep. change (8 =? 8) with true. rewrite passert_true. cbn [rbind].
      do 1 pstep. rewrite read8_cons. cbn [rbind].
      do 1 pstep. rewrite checkVal_same. cbn [rbind].
      do 2 pstep. rewrite read8_cons. cbn [rbind]. pstep. rewrite checkVal_same. cbn [rbind].
      do 1 pstep. rewrite read16_le by lia. cbn [rbind]. pstep. change (4 =? 4) with true. rewrite passert_true. cbn [rbind].
      do 1 pstep. rewrite read16_le by lia. cbn [rbind].
      do 1 pstep. rewrite read32_le' by lia. cbn [rbind]. pstep. rewrite <- app_assoc. rewrite read16_le by lia. cbn [rbind]. pstep. replace (0 <? k2) with true by lia. rewrite passert_true. cbn [rbind].
      do 1 pstep. change [0; 0] with (le 2 0). rewrite read16_le by lia. cbn [rbind]. rewrite checkVal_same. cbn [rbind].
      do 1 pstep. rewrite read64_le by (split; [discriminate|reflexivity]). cbn [rbind].
      do 1 pstep. rewrite checkVal_same. cbn [rbind].
      do 1 pstep. rewrite read64_le by (split; [discriminate|reflexivity]). cbn [rbind].
      do 2 pstep. change undefined with invalidAddress. rewrite checkVal_same. cbn [rbind]. unfold pret at 1. cbn [rbind].
      do 1 pstep. rewrite read64_le by exact He. cbn [rbind].
      do 1 pstep. rewrite Hev, passert_true. cbn [rbind].
      do 1 pstep. rewrite read64_le by lia. cbn [rbind].
      do 1 pstep. rewrite read64_le by lia. cbn [rbind].
      do 1 pstep. rewrite read64_le by lia. cbn [rbind].
      do 1 pstep. rewrite read32_le' by (destruct Hc as [-> | ->]; split; [discriminate|reflexivity|discriminate|reflexivity]). cbn [rbind].
      do 1 pstep. rewrite read32_le' by (split; [discriminate|reflexivity]). cbn [rbind].
      do 1 pstep. rewrite checkVal_same. cbn [rbind]. pstep.
      destruct Hc as [-> | ->]; [reflexivity|]. change (1 =? 1) with true. cbv iota.
      rewrite scratch_read by exact Hs. reflexivity.
  - destruct H as (version & flags & Hv & H1 & HA). unfold word in *.
    set (hd := h5_signature ++ [version; 8; 8; flags] ++ le 8 0 ++ le 8 undefined ++ le 8 eof ++ le 8 root) in *.
    assert (L : zlen hd = 44) by reflexivity.
    pose proof (has_at_bound _ _ _ HA) as [_ HB]. rewrite zlen_sealed, L in HB.
    unfold readSuperblock. replace (48 <=? zlen f) with true by lia. cbn [negb].
    rewrite (newSeek_at f 0 (sealed hd) 48 HA) by (rewrite ?zlen_sealed; lia).
    pose proof (sealed_sum f 0 hd HA Hf ltac:(lia)) as EC. rewrite L in EC.
    cbn [rbind]. unfold sealed. set (ck := le 4 _). clearbody ck. unfold hd. change h5_signature with h5_magic.
    rewrite <- !app_assoc. rewrite checkMagic_app. cbn [rbind app]. rewrite read8_cons. cbn [rbind].
    replace (version =? 0) with false by lia. replace (version =? 1) with false by lia.
    replace ((version =? 2) || (version =? 3)) with true by lia. replace (version <? 2) with false by lia.
    cbv iota. cbn [rbind].
    do 1 pstep. unfold pret at 1. cbn [rbind].
    do 1 pstep. rewrite read8_cons. cbn [rbind].
    do 1 pstep. change (8 =? 8) with true. rewrite passert_true. cbn [rbind].
    do 1 pstep. rewrite read8_cons. cbn [rbind].
    do 1 pstep. rewrite checkVal_same. cbn [rbind].
    do 1 pstep. do 1 pstep. rewrite read8_cons. cbn [rbind]. unfold pret at 1. cbn [rbind].
    do 1 pstep. rewrite read64_le by (split; [discriminate|reflexivity]). cbn [rbind].
    do 1 pstep. rewrite checkVal_same. cbn [rbind].
    do 1 pstep. rewrite read64_le by (split; [discriminate|reflexivity]). cbn [rbind].
    do 1 pstep. unfold pret at 1. cbn [rbind].
    do 1 pstep. rewrite read64_le by exact He. cbn [rbind].
    do 1 pstep. replace (eof <=? zlen f) with true by lia. rewrite passert_true. cbn [rbind].
    do 1 pstep. rewrite read64_le by exact Hr. cbn [rbind].
    rewrite EC. reflexivity.
Qed.

Lemma root_opened f n c k root l ls stored xs kids : superblock_is f root ->
  messages_are f c root l -> (c + k < n)%nat -> Forall2 (group_msg f alone) l ls -> stored_links f l stored -> attrs_stored f alone l xs ->
  of_type 2 l ++ of_type 17 l <> [] -> Permutation (List.concat ls ++ stored) (map fst kids) -> NoDup (map fst (map fst kids)) ->
  kids_are f alone k kids -> NoDup (below (FGroup kids)) -> (n <= List.length f)%nat -> zlen f < 2 ^ 63 ->
  exists o, openFile f = Ok o /\ shows f (FGroup kids) o /\ attributed l xs (newObject [] 0) (r_info o).
Proof.
  intros HS Hm Hlt Hg Hl Ha Hk HP Hnd Hkids HN Hn Hf.
  assert (Hrd : Forall (fun k' => reads f k (k_addr k') (k_tree k')) kids).
  { clear - Hkids Hf. induction Hkids as [|n name a t kids Ho Hks IH]; [apply Forall_nil|].
    apply Forall_cons; [|exact IH]. apply objects_read; assumption. }
  destruct (group_parts f Hf c k root l ls stored xs kids Hm Hg Hl Ha Hk HP Hnd Hrd (newObject [] 0) [])
    as (st1 & st' & A1 & A2 & A3 & A4 & _ & A6).
  { repeat split. }
  { intros x _ []. }
  { exact HN. }
  exists (RObj (rs_info st') (rs_children st')). split; [|split; [exact A4|exact A6]].
  assert (Hroot : 0 < root < zlen f).
  { destruct Hm as (H0 & v & ms & Hh & _). split; [exact H0|]. destruct Hh as (gap & _ & Hh). cbv zeta in Hh.
    assert (B : 0 <= root < zlen f); [|lia].
    destruct v as [|track].
    - destruct Hh as (number & refs & _ & _ & _ & HA). apply has_at_bound in HA. rewrite zlen_app in HA.
      match type of HA with _ /\ root + (zlen [1; 0] + zlen ?x) <= _ => pose proof (zlen_nonneg x) end.
      change (zlen [1; 0]) with 2 in HA. lia.
    - destruct Hh as (flags & times & phase & _ & _ & _ & _ & _ & _ & HA). apply has_at_bound in HA.
      rewrite zlen_sealed in HA.
      match type of HA with _ /\ root + (zlen ?x + 4) <= _ => pose proof (zlen_nonneg x) end. lia. }
  unfold openFile. rewrite (superblock_read f root _ HS).
  2:{ change undefined with (2 ^ 64 - 1). lia. }
  2:{ exact Hf. }
  cbn [rbind]. replace (root =? invalidAddress) with false.
  2:{ symmetry. apply Z.eqb_neq. change invalidAddress with (2 ^ 64 - 1). lia. }
  rewrite A1 by lia. cbn [rbind].
  replace (with_info st1 (set_group true (rs_info st1))) with st1.
  - rewrite A3 by lia. reflexivity.
  - destruct st1 as [i1 c1 a1]. destruct i1. cbn in *. subst. reflexivity.
Qed.

Theorem file_opened f n root kids : superblock_is f root -> object_is f alone n root (FGroup kids) ->
  NoDup (below (FGroup kids)) -> (n <= List.length f)%nat -> zlen f < 2 ^ 63 ->
  exists o, openFile f = Ok o /\ shows f (FGroup kids) o.
Proof.
  intros HS HO HN Hn Hf. inversion HO as [n' c k a l ls stored kids' Hm Hlt Hg Hl Ha Hk HP Hnd Hkids| |]; subst.
  destruct (attrs_listed f alone l Ha) as [xs Hx].
  destruct (root_opened f n c k root l ls stored xs kids HS Hm Hlt Hg Hl Hx Hk HP Hnd Hkids HN Hn Hf) as (o & E & S & _).
  exists o. split; assumption.
Qed.
