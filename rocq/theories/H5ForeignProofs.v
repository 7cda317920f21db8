(** Lemmas: object headers of any writer, as ForeignSpec has them, are read message by message. *)
From Verif Require Import Prelude GoVal BaseLemmas H5Base H5ChecksumModel Lookup3Spec H5ChecksumProofs H5MetaWrite
  H5MetaRead MetaSpec H5MetaProofs H5DenseRead DenseSpec H5DenseProofs H5BTreeProofs H5SymbolProofs
  ForeignSpec H5Value H5TypeRead H5PathModel H5RecordModel H5FileRead.
From Coq Require Import Lia ZifyBool ZifyNat Permutation.

(** What is delivered: all messages that have data *)
Definition data_of (m : fmsg) : list (Z * bytes) :=
  match fm_data m with [] => [] | _ => [(fm_type m, fm_data m)] end.
Definition all_data (ms : list fmsg) : list (Z * bytes) := flat_map data_of ms.

(** The version and the flags under which such messages are read *)
Definition kind_of (v : hversion) (k : Z * Z) : Prop :=
  match v with HV1 => k = (1, 0) | HV2 track => fst k = 2 /\ hasFlag8 (snd k) 2 = track end.

Section Chunks.
  Context {S : Type} (h : Z -> bytes -> S -> res (S * bytes)).

  Lemma step1 fuel m r st : fmsg_ok HV1 m -> fm_data m <> [] ->
    readMessages h (Datatypes.S fuel) 1 0 st (fmsg_bytes HV1 m ++ r) =
    match h (fm_type m) (fm_data m) st with
    | Ok (st', rest) => if forallb (Z.eqb 0) rest then readMessages h fuel 1 0 st' r else Panic
    | Err e => Err e
    | Panic => Panic
    end.
  Proof.
    intros (Hfl & Ho & Hd & Hz & Ht & Hm) Hne. cbn [readMessages]. unfold fmsg_bytes.
    assert (L0 : 0 < zlen (fm_data m)).
    { destruct (fm_data m) as [|x d]; [congruence|]. rewrite zlen_cons. pose proof (zlen_nonneg d). lia. }
    pose proof (zlen_nonneg r). rewrite <- !app_assoc.
    rewrite !zlen_app, !zlen_le. change (zlen [fm_flags m; 0; 0; 0]) with 4.
    replace (_ <? 3) with false by lia. change (1 =? 1) with true. cbv iota.
    rewrite read16_le by exact Ht. cbn [rbind]. rewrite read16_le by (split; [lia|exact Hd]). cbn [rbind].
    replace (zlen (fm_data m) =? 0) with false by lia. cbn [andb].
    rewrite zlen_app. change (zlen [fm_flags m; 0; 0; 0]) with 4. rewrite zlen_app.
    replace (4 + _ =? 0) with false by lia. cbn [app]. rewrite read8_cons. cbn [rbind].
    change (0 :: 0 :: 0 :: ?x) with (zrep 3 0 ++ x).
    rewrite (checkZeroes_zrep 3 3) by reflexivity. cbn [rbind].
    change (hasFlag8 0 2) with false. cbn [andb]. cbv iota. cbn [rbind].
    rewrite zlen_app. replace (_ <? zlen (fm_data m)) with false by lia.
    change (1 <? 1) with false. cbv iota.
    replace (_ <? zlen (fm_data m)) with false by lia.
    rewrite ztake_app_exact, zdrop_app_exact by lia. cbn [orb].
    destruct (h _ _ _) as [[st' rest]| |]; cbn [rbind]; [|reflexivity|reflexivity].
    rewrite checkZeroes_all. destruct (forallb _ rest); reflexivity.
  Qed.

  Lemma skip1 fuel m r st : fmsg_ok HV1 m -> fm_data m = [] ->
    readMessages h (Datatypes.S (Datatypes.S fuel)) 1 0 st (fmsg_bytes HV1 m ++ r) = readMessages h fuel 1 0 st r.
  Proof.
    intros (Hfl & Ho & Hd & Hz & Ht & Hm) He. unfold fmsg_bytes. rewrite He. change (zlen (@nil Z)) with 0.
    pose proof (zlen_nonneg r). rewrite <- !app_assoc. cbn [app].
    remember (Datatypes.S fuel) as f1 eqn:E1. cbn [readMessages].
    rewrite !zlen_app, !zlen_le, !zlen_cons.
    replace (_ <? 3) with false by lia. change (1 =? 1) with true. cbv iota.
    rewrite read16_le by exact Ht. cbn [rbind]. rewrite read16_le by lia. cbn [rbind].
    change ((0 =? 0) && true) with true. cbv iota. subst f1. cbn [readMessages].
    rewrite !zlen_cons. replace (_ <? 3) with false by lia. change (1 =? 1) with true. cbv iota.
    assert (E : forall x, fm_flags m :: 0 :: x = le 2 (fm_flags m) ++ x).
    { intros x. cbn [le app]. unfold word in Hfl. rewrite Z.mod_small by lia. rewrite Z.div_small by lia. reflexivity. }
    rewrite E. rewrite read16_le by (unfold word in Hfl; lia). cbn [rbind].
    change (0 :: 0 :: r) with (le 2 0 ++ r). rewrite read16_le by lia. reflexivity.
  Qed.

  Lemma step2 fuel fl track m r st : fmsg_ok (HV2 track) m -> hasFlag8 fl 2 = track ->
    readMessages h (Datatypes.S fuel) 2 fl st (fmsg_bytes (HV2 track) m ++ r) =
    if zlen (fm_data m) =? 0 then readMessages h fuel 2 fl st r
    else
    match h (fm_type m) (fm_data m) st with
    | Ok (st', rest) => if forallb (Z.eqb 0) rest then readMessages h fuel 2 fl st' r else Panic
    | Err e => Err e
    | Panic => Panic
    end.
  Proof.
    intros (Hfl & Ho & Hd & Hz & Ht) Hk. cbn [readMessages]. unfold fmsg_bytes.
    pose proof (zlen_nonneg (fm_data m)). pose proof (zlen_nonneg r).
    rewrite <- !app_assoc.
    assert (E0 : forall (t : bool) (s : bytes), hasFlag8 fl 2 && (zlen (if t then le 2 (fm_order m) ++ s else s) <? 2) =
      if t then false else hasFlag8 fl 2 && (zlen s <? 2)).
    { intros [] s; [|reflexivity]. rewrite zlen_app, zlen_le. pose proof (zlen_nonneg s).
      replace (_ <? 2) with false by lia. apply andb_false_r. }
    replace ((if track then le 2 (fm_order m) else []) ++ fm_data m ++ r) with
      (if track then le 2 (fm_order m) ++ fm_data m ++ r else fm_data m ++ r) by (destruct track; reflexivity).
    set (tail := if track then _ else _).
    assert (LT : zlen (fm_data m) + zlen r <= zlen tail).
    { unfold tail. destruct track; rewrite ?zlen_app, ?zlen_le; lia. }
    rewrite !zlen_app, !zlen_le. change (zlen [fm_flags m]) with 1. change (zlen [fm_type m]) with 1.
    replace (_ <? 3) with false by lia. change (2 =? 1) with false. cbv iota. cbn [app].
    rewrite read8_cons. cbn [rbind]. rewrite read16_le by (split; [lia|exact Hd]). cbn [rbind].
    rewrite andb_false_r.
    rewrite zlen_cons. replace (1 + zlen tail =? 0) with false by lia. rewrite read8_cons. cbn [rbind].
    change (1 <? 2) with true. cbv iota. rewrite andb_true_r.
    unfold tail. rewrite E0.
    replace (if track then false else hasFlag8 fl 2 && (zlen (fm_data m ++ r) <? 2)) with false
      by (rewrite Hk; destruct track; reflexivity).
    assert (EO : (if hasFlag8 fl 2 then read16 tail else Ok (0, tail)) =
                 Ok (if track then fm_order m else 0, fm_data m ++ r)).
    { unfold tail. rewrite Hk. destruct track; [rewrite read16_le by exact Ho|]; reflexivity. }
    match goal with |- rbind ?X _ = _ => replace X with (Ok (if track then fm_order m else 0, fm_data m ++ r)) by
      (symmetry; exact EO) end. cbn [rbind].
    destruct (zlen (fm_data m) =? 0) eqn:E.
    { destruct (fm_data m) as [|x d]; [reflexivity|]. rewrite zlen_cons in E. pose proof (zlen_nonneg d). lia. }
    cbn [andb]. rewrite zlen_app. replace (_ <? zlen (fm_data m)) with false by lia.
    rewrite ztake_app_exact, zdrop_app_exact by lia. change (2 =? 2) with true. cbn [orb].
    destruct (h _ _ _) as [[st' rest]| |]; cbn [rbind]; [|reflexivity|reflexivity].
    rewrite checkZeroes_all. destruct (forallb _ rest); reflexivity.
  Qed.

  Lemma gap_end fuel v k gap st : kind_of v k -> chunk_ok v [] gap -> 
    (let* (st, _) := readMessages h (Datatypes.S fuel) (fst k) (snd k) st (zrep gap 0) in Ok st) = Ok st.
  Proof.
    intros Hk (_ & Hg). destruct v as [|track].
    { unfold kind_of in Hk. subst gap k. reflexivity. }
    destruct Hk as [E1 E2]. rewrite E1. 
    assert (Hc : gap = 0 \/ gap = 1 \/ gap = 2 \/ gap = 3 \/ (track = true /\ (gap = 4 \/ gap = 5)))
      by (destruct track; lia).
    destruct Hc as [->|[->|[->|[->|(-> & [->| ->])]]]]; try reflexivity; cbn [readMessages zrep Z.to_nat Pos.to_nat Pos.iter_op Nat.add repeat];
      unfold zrep; cbn; rewrite ?E2; cbn; reflexivity.
  Qed.

  Lemma chunk_read v k ms gap : kind_of v k -> forall fuel st, chunk_ok v ms gap ->
    (List.length (chunk v ms gap) < fuel)%nat ->
    (let* (st, _) := readMessages h fuel (fst k) (snd k) st (chunk v ms gap) in Ok st) =
    deliver h (all_data ms) st.
  Proof.
    intros Hk. induction ms as [|m ms IH]; intros fuel st Hok Hfu.
    - destruct fuel as [|fuel]; [lia|]. unfold chunk. cbn [flat_map app all_data deliver].
      apply (gap_end fuel v k gap st Hk Hok).
    - destruct Hok as [Hm Hg]. inversion Hm as [|m' ms' H1 H2 E]; subst m' ms'.
      assert (Hok : chunk_ok v ms gap) by (split; assumption).
      assert (Ec : chunk v (m :: ms) gap = fmsg_bytes v m ++ chunk v ms gap)
        by (unfold chunk; cbn [flat_map]; apply eq_sym, app_assoc).
      rewrite Ec in *. rewrite app_length in Hfu.
      unfold all_data. cbn [flat_map]. fold (all_data ms). unfold data_of at 1.
      destruct v as [|track].
      + unfold kind_of in Hk. subst k. cbn [fst snd] in *.
        assert (L : (8 <= List.length (fmsg_bytes HV1 m))%nat)
          by (unfold fmsg_bytes; rewrite !app_length, !le_length; cbn [List.length]; lia).
        destruct (fm_data m) as [|x d] eqn:Ed.
        * destruct fuel as [|[|fuel]]; [lia|lia|]. rewrite skip1 by assumption. cbn [app]. apply IH; [exact Hok|lia].
        * destruct fuel as [|fuel]; [lia|]. rewrite step1 by (assumption || congruence). rewrite Ed.
          cbn [app deliver]. destruct (h _ _ _) as [[st' rest]| |]; [|reflexivity|reflexivity].
          destruct (forallb _ rest); [|reflexivity]. apply IH; [exact Hok|lia].
      + destruct Hk as [Ek1 Ek2]. rewrite Ek1 in *.
        assert (L : (4 <= List.length (fmsg_bytes (HV2 track) m))%nat)
          by (unfold fmsg_bytes; rewrite !app_length, !le_length; cbn [List.length]; lia).
        destruct fuel as [|fuel]; [lia|]. rewrite (step2 fuel (snd k) track) by assumption.
        destruct (fm_data m) as [|x d] eqn:Ed.
        * change (zlen (@nil Z) =? 0) with true. cbv iota. cbn [app]. apply IH; [exact Hok|lia].
        * replace (zlen (x :: d) =? 0) with false by (rewrite zlen_cons; pose proof (zlen_nonneg d); lia).
          cbn [app deliver]. destruct (h _ _ _) as [[st' rest]| |]; [|reflexivity|reflexivity].
          destruct (forallb _ rest); [|reflexivity]. apply IH; [exact Hok|lia].
  Qed.

  Lemma chunk_common v k ms gap tl st : kind_of v k -> chunk_ok v ms gap ->
    readCommon h (fst k) (snd k) st (chunk v ms gap ++ tl) (zlen (chunk v ms gap)) = deliver h (all_data ms) st.
  Proof.
    intros Hk Hok. unfold readCommon. cbv zeta. rewrite ztake_app_exact by reflexivity.
    apply chunk_read; [exact Hk|exact Hok|lia].
  Qed.

  Lemma block_read f a size v k ms st : kind_of v k -> block_is f a size v ms -> word 31 size -> zlen f < 2 ^ 63 ->
    readContinuation h f (fst k) (snd k) a size st = deliver h (all_data ms) st.
  Proof.
    intros Hk (gap & Hok & H) Hs Hf. unfold readContinuation. unfold word in Hs.
    rewrite (i64_small size) by lia. cbv zeta in H. destruct v as [|track].
    - destruct H as [Es Hat]. destruct (newSeek_any f a _ size Hat Es Hf) as [tl ->]. cbn [rbind].
      replace (1 <? fst k) with false by (unfold kind_of in Hk; subst k; reflexivity).
      rewrite Es. apply (chunk_common HV1); assumption.
    - destruct H as [Es Hat]. pose proof Hk as [Ek1 Ek2].
      destruct (newSeek_any f a _ size Hat Es Hf) as [tl ->]. cbn [rbind].
      rewrite Ek1. change (1 <? 2) with true. cbv iota. unfold sealed. rewrite <- !app_assoc.
      rewrite checkMagic_app. cbn [rbind].
      set (c := chunk (HV2 track) ms gap) in *.
      assert (Ez : size = 4 + zlen c + 4).
      { rewrite Es. unfold sealed. rewrite !zlen_app, zlen_le. change (zlen (bs "OCHK")) with 4. lia. }
      pose proof (zlen_nonneg c). rewrite (u64_small (size - 8)) by lia. rewrite !i64_small by lia.
      replace (size - 8) with (zlen c) by lia. rewrite <- Ek1. unfold c at 1 2. rewrite (chunk_common (HV2 track)) by assumption.
      replace (size - 4) with (zlen (bs "OCHK" ++ c)) by (rewrite zlen_app; change (zlen (bs "OCHK")) with 4; lia).
      rewrite (sealed_sum f a (bs "OCHK" ++ c) Hat Hf) by (rewrite zlen_app; change (zlen (bs "OCHK")) with 4; lia).
      cbn [rbind]. destruct (deliver _ _ _); reflexivity.
  Qed.
End Chunks.

(** ** Whole headers *)
Lemma shift3 flags : Z.shiftl 1 (Z.land flags 3) = 2 ^ (flags mod 4).
Proof.
  change 3 with (Z.ones 2). rewrite Z.land_ones by lia. change (2 ^ 2) with 4.
  rewrite Z.shiftl_mul_pow2 by (apply Z.mod_pos_bound; lia). apply Z.mul_1_l.
Qed.
Lemma mod4 flags : flags mod 4 = 0 \/ flags mod 4 = 1 \/ flags mod 4 = 2 \/ flags mod 4 = 3.
Proof. pose proof (Z.mod_pos_bound flags 4 eq_refl). lia. Qed.
Lemma high_bits flags : word 6 flags -> Z.land flags 192 = 0.
Proof.
  intros H. unfold word in H.
  assert (E : forallb (fun n => Z.land (Z.of_nat n) 192 =? 0) (seq 0 64) = true) by (vm_compute; reflexivity).
  rewrite forallb_forall in E. specialize (E (Z.to_nat flags)). rewrite Z2Nat.id in E by lia.
  assert (I : In (Z.to_nat flags) (seq 0 64)) by (apply in_seq; lia). specialize (E I). lia.
Qed.
Lemma readEnc_le flags z r : 0 <= z < 2 ^ (8 * 2 ^ (flags mod 4)) ->
  readEnc (2 ^ (flags mod 4)) (le (Z.to_nat (2 ^ (flags mod 4))) z ++ r) = Ok (z, r).
Proof.
  intros H. destruct (mod4 flags) as [E|[E|[E|E]]]; rewrite E in *.
  - change (readEnc (2 ^ 0)) with read8. change (Z.to_nat (2 ^ 0)) with 1%nat. cbn [le app].
    rewrite Z.mod_small by (change (2 ^ (8 * 2 ^ 0)) with 256 in H; lia). apply read8_cons.
  - change (readEnc (2 ^ 1)) with read16. change (Z.to_nat (2 ^ 1)) with 2%nat. apply read16_le. exact H.
  - change (readEnc (2 ^ 2)) with read32. change (Z.to_nat (2 ^ 2)) with 4%nat. apply read32_le'. exact H.
  - change (readEnc (2 ^ 3)) with read64. change (Z.to_nat (2 ^ 3)) with 8%nat. apply read64_le. exact H.
Qed.
Lemma byteAt_in f a x r : has_at f a (x :: r) -> byteAt f a = x.
Proof.
  intros (pre & post & -> & <-). unfold byteAt. unfold zlen. rewrite Nat2Z.id. rewrite app_nth2 by lia.
  rewrite Nat.sub_diag. reflexivity.
Qed.
Lemma isMagic_not f a x r m : has_at f a (x :: r) -> 3 <= zlen r -> hd 0 m <> x -> 0 < a -> zlen f < 2 ^ 63 ->
  isMagic f m a = Ok false.
Proof.
  intros H Hr Hm Ha Hf. pose proof (has_at_bound _ _ _ H) as [H0 H1]. rewrite zlen_cons in H1.
  pose proof (zlen_nonneg r). unfold isMagic.
  unfold invalidAddress. replace ((a =? 0) || (a =? 2 ^ 64 - 1)) with false by lia.
  rewrite (u64_small (a + 4)) by lia. replace (zlen f <? a + 4) with false by lia.
  rewrite i64_small by lia. replace (a <? 0) with false by lia.
  destruct H as (pre & post & -> & E). rewrite zdrop_app_exact by lia.
  cbn [app]. unfold ztake. change (Z.to_nat 4) with 4%nat. cbn [firstn].
  destruct m as [|y m]; cbn [beqb]; [reflexivity|]. cbn [hd] in Hm.
  replace (x =? y) with false by lia. reflexivity.
Qed.

Lemma foreign_header f a v ms : header_is f a v ms -> 0 < a -> zlen f < 2 ^ 63 ->
  kind_of v (headerKind f a) /\
  forall S (h : Z -> bytes -> S -> res (S * bytes)) st, readObjectHeader h f a st = deliver h (all_data ms) st.
Proof.
  intros (gap & Hok & H) Ha Hf. cbv zeta in H. set (c := chunk v ms gap) in *. pose proof (zlen_nonneg c) as Hc.
  destruct v as [|track].
  - destruct H as (number & refs & Hn & Hr & Hs & Hat).
    pose proof (has_at_bound _ _ _ Hat) as [B0 B1]. rewrite !zlen_app, !zlen_le, zlen_zrep in B1.
    change (zlen [1; 0]) with 2 in B1.
    assert (EM : isMagic f (bs "OHDR") a = Ok false).
    { apply (isMagic_not f a 1 ([0] ++ le 2 number ++ le 4 refs ++ le 4 (zlen c) ++ zrep 4 0 ++ c));
        [exact Hat| |intros Ex; vm_compute in Ex; discriminate Ex|exact Ha|exact Hf].
      rewrite !zlen_app, !zlen_le, zlen_zrep. change (zlen [0]) with 1. lia. }
    split.
    { unfold headerKind. rewrite EM. unfold kind_of. f_equal. eapply byteAt_in. exact Hat. }
    intros S h st. unfold readObjectHeader. rewrite EM. cbn [rbind]. unfold readObjectHeaderV1.
    assert (Hat1 : has_at f a ([1; 0] ++ le 2 number ++ le 4 refs ++ le 4 (zlen c) ++ zrep 4 0)).
    { apply (has_at_app_l f a _ c). rewrite <- !app_assoc. exact Hat. }
    rewrite (newSeek_at f a _ 16 Hat1) by
      (exact Hf || (rewrite ?zlen_app, ?zlen_le, ?zlen_zrep; change (zlen [1; 0]) with 2; lia)).
    cbn [rbind]. cbn [app]. rewrite read8_cons. cbn [rbind].
    change (negb ((1 =? 1) || (1 =? 0))) with false. cbv iota. rewrite read8_cons. cbn [rbind].
    rewrite checkVal_same. cbn [rbind]. rewrite read16_le by exact Hn. cbn [rbind].
    rewrite read32_le' by exact Hr. cbn [rbind]. rewrite read32_le' by lia. cbn [rbind].
    rewrite <- (app_nil_r (zrep 4 0)). rewrite checkZeroes_zrep by reflexivity. cbn [rbind].
    rewrite (u64_small (a + 16)) by lia.
    assert (Hat2 : has_at f (a + 16) c).
    { replace (a + 16) with (a + zlen ([1; 0] ++ le 2 number ++ le 4 refs ++ le 4 (zlen c) ++ zrep 4 0)) by
        (rewrite ?zlen_app, ?zlen_le, ?zlen_zrep; change (zlen [1; 0]) with 2; lia).
      apply has_at_app_r. rewrite <- !app_assoc. exact Hat. }
    destruct (newSeek_any f (a + 16) c (zlen c) Hat2 eq_refl Hf) as [tl ->]. cbn [rbind].
    unfold c. change 1 with (fst (1, 0)) at 1. change 0 with (snd (1, 0)) at 1.
    apply (chunk_common h HV1); [reflexivity|exact Hok].
  - destruct H as (flags & times & phase & Hfl & Htr & Ht & Hp & Hs & Hs' & Hat).
    unfold sealed in Hat.
    assert (Hw : 0 < 2 ^ (flags mod 4) <= 8) by (destruct (mod4 flags) as [E|[E|[E|E]]]; rewrite E; lia).
    set (w := 2 ^ (flags mod 4)) in *.
    assert (Hk : hasFlag8 flags 2 = track) by (rewrite Htr; unfold hasFlag8; symmetry; apply Z.testbit_odd).
    pose proof (has_at_bound _ _ _ Hat) as [B0 B1]. rewrite !zlen_app, !zlen_le in B1.
    change (zlen (bs "OHDR")) with 4 in B1. change (zlen [2; flags]) with 2 in B1.
    assert (Hat1 : has_at f a (bs "OHDR")) by (do 2 apply has_at_app_l in Hat; exact Hat).
    pose proof (isMagic_at f a (bs "OHDR") Hat1 eq_refl ltac:(lia) Hf) as EM.
    split.
    { unfold headerKind. rewrite EM. unfold kind_of. cbn [fst snd]. split; [reflexivity|].
      replace (byteAt f (a + 5)) with flags; [exact Hk|]. symmetry.
      apply (byteAt_in f (a + 5) flags (times ++ phase ++ le (Z.to_nat w) (zlen c) ++ c)).
      apply (has_at_app_r f a (bs "OHDR" ++ [2])). apply has_at_app_l in Hat. exact Hat. }
    intros S h st. unfold readObjectHeader. rewrite EM. cbn [rbind]. unfold readObjectHeaderV2.
    assert (Hat6 : has_at f a (bs "OHDR" ++ [2; flags])).
    { apply has_at_app_l in Hat. rewrite app_assoc in Hat. apply has_at_app_l in Hat. exact Hat. }
    rewrite (newSeek_at f a (bs "OHDR" ++ [2; flags]) 6 Hat6 eq_refl eq_refl Hf). cbn [rbind].
    rewrite checkMagic_app. cbn [rbind]. rewrite read8_cons. cbn [rbind].
    rewrite checkVal_same. cbn [rbind]. rewrite read8_cons. cbn [rbind].
    rewrite (high_bits flags Hfl). change (negb (0 =? 0)) with false. cbv iota.
    assert (Lt : 0 <= zlen times) by apply zlen_nonneg. assert (Lp : 0 <= zlen phase) by apply zlen_nonneg.
    rewrite (u64_small (a + 6)) by lia.
    assert (HatT : has_at f (a + 6) (times ++ phase ++ le (Z.to_nat w) (zlen c) ++ c)).
    { apply (has_at_app_r f a (bs "OHDR" ++ [2; flags])). apply has_at_app_l in Hat. exact Hat. }
    assert (ET : (if hasFlag8 flags 5 then
                    let* bf := newSeek f (a + 6) 16 in let* (_, _) := rd 16 bf in Ok (u64 (a + 6 + 16))
                  else Ok (a + 6)) = Ok (a + 6 + zlen times)).
    { unfold hasFlag8. rewrite <- Z.testbit_odd. unfold optional in Ht.
      destruct (Z.testbit flags 5).
      - rewrite (newSeek_at f (a + 6) times 16 (has_at_app_l _ _ _ _ HatT)) by (lia || exact Hf).
        cbn [rbind]. rewrite <- (app_nil_r times) at 1. rewrite rd_app by lia. cbn [rbind].
        rewrite u64_small by lia. rewrite Ht. reflexivity.
      - rewrite Ht. change (zlen (@nil Z)) with 0. f_equal. lia. }
    match goal with |- context [rbind (if hasFlag8 flags 5 then ?x else ?y) ?k] =>
      replace (if hasFlag8 flags 5 then x else y) with (Ok (a + 6 + zlen times) : res Z) by (symmetry; exact ET) end.
    cbn [rbind].
    pose proof (has_at_app_r _ _ _ _ HatT) as HatP.
    assert (EP : (if hasFlag8 flags 4 then
                    let* bf := newSeek f (a + 6 + zlen times) 4 in
                    let* (_, _) := rd 4 bf in Ok (u64 (a + 6 + zlen times + 4))
                  else Ok (a + 6 + zlen times)) = Ok (a + 6 + zlen times + zlen phase)).
    { unfold hasFlag8. rewrite <- Z.testbit_odd. unfold optional in Hp.
      destruct (Z.testbit flags 4).
      - rewrite (newSeek_at f (a + 6 + zlen times) phase 4 (has_at_app_l _ _ _ _ HatP)) by (lia || exact Hf).
        cbn [rbind]. rewrite <- (app_nil_r phase) at 1. rewrite rd_app by lia. cbn [rbind].
        rewrite u64_small by lia. rewrite Hp. reflexivity.
      - rewrite Hp. change (zlen (@nil Z)) with 0. f_equal. lia. }
    match goal with |- context [rbind (if hasFlag8 flags 4 then ?x else ?y) ?k] =>
      replace (if hasFlag8 flags 4 then x else y) with (Ok (a + 6 + zlen times + zlen phase) : res Z)
        by (symmetry; exact EP) end.
    cbn [rbind]. rewrite shift3. fold w.
    pose proof (has_at_app_r _ _ _ _ HatP) as HatS.
    set (p := a + 6 + zlen times + zlen phase) in *.
    assert (Lw : zlen (le (Z.to_nat w) (zlen c)) = w) by (rewrite zlen_le; lia).
    rewrite (newSeek_at f p (le (Z.to_nat w) (zlen c)) w (has_at_app_l _ _ _ _ HatS)) by (lia || exact Hf).
    cbn [rbind].
    rewrite <- (app_nil_r (le (Z.to_nat w) (zlen c))). unfold w at 1 2. rewrite readEnc_le by (fold w; lia). cbn [rbind].
    pose proof (has_at_app_r _ _ _ _ HatS) as HatC. rewrite Lw in HatC.
    rewrite (u64_small (p + w)) by lia. rewrite (i64_small (zlen c)) by lia.
    destruct (newSeek_any f (p + w) c (zlen c) HatC eq_refl Hf) as [tl ->]. cbn [rbind].
    unfold c at 1 2. change 2 with (fst (2, flags)) at 1. change flags with (snd (2, flags)) at 1.
    rewrite (chunk_common h (HV2 track)); [|split; [reflexivity|exact Hk]|exact Hok].
    rewrite (u64_small (p + w + zlen c)) by lia. rewrite (i64_small (p + w + zlen c - a)) by lia.
    replace (p + w + zlen c - a) with
      (zlen (bs "OHDR" ++ [2; flags] ++ times ++ phase ++ le (Z.to_nat w) (zlen c) ++ c)) by
      (rewrite !zlen_app, Lw; change (zlen (bs "OHDR")) with 4; change (zlen [2; flags]) with 2; unfold p; lia).
    rewrite (sealed_sum f a _ Hat Hf) by
      (rewrite !zlen_app, Lw; change (zlen (bs "OHDR")) with 4; change (zlen [2; flags]) with 2;
       unfold optional in *; destruct (Z.testbit flags 5), (Z.testbit flags 4); rewrite ?Ht, ?Hp in *;
       change (zlen (@nil Z)) with 0 in *; lia).
    cbn [rbind]. destruct (deliver _ _ _); reflexivity.
Qed.

(** ** Continuation blocks *)

(** Handling these messages one after the other, in the surroundings of a header of kind [k] and
    with nesting left for [n] levels or more, leads from one state to the other *)
Inductive taken (f : bytes) (n : nat) (k : Z * Z) : list (Z * bytes) -> rstate -> rstate -> Prop :=
| taken_nil st : taken f n k [] st st
| taken_cons t b rest l st st1 st' :
    (forall fu, (n <= fu)%nat -> handle (envAt fu f k) t b st = Ok (st1, rest)) -> forallb (Z.eqb 0) rest = true ->
    taken f n k l st1 st' -> taken f n k ((t, b) :: l) st st'.

Lemma taken_app f n k l1 l2 : forall st st', taken f n k (l1 ++ l2) st st' ->
  exists st1, taken f n k l1 st st1 /\ taken f n k l2 st1 st'.
Proof.
  induction l1 as [|[t b] l1 IH]; intros st st' H; cbn [app] in H.
  - exists st. split; [apply taken_nil|exact H].
  - inversion H as [|t' b' rest l' s1 s2 s3 H1 H2 H3]; subst.
    destruct (IH _ _ H3) as (sm & A1 & A2). exists sm. split; [|exact A2].
    eapply taken_cons; eassumption.
Qed.
Lemma taken_join f n k l1 l2 st st1 st' : taken f n k l1 st st1 -> taken f n k l2 st1 st' ->
  taken f n k (l1 ++ l2) st st'.
Proof.
  induction 1 as [|t b rest l s s1 s2 H1 H2 H3 IH]; intros H; [exact H|]. cbn [app].
  eapply taken_cons; [exact H1|exact H2|apply IH; exact H].
Qed.
Lemma all_data_app l1 l2 : all_data (l1 ++ l2) = all_data l1 ++ all_data l2.
Proof. apply flat_map_app. Qed.
Lemma all_data_cons m l : all_data (m :: l) = data_of m ++ all_data l.
Proof. reflexivity. Qed.

Lemma more_handled x off size st : word 64 off -> word 31 size ->
  handle x 16 (le 8 off ++ le 8 size) st = let* st := e_more x off size st in Ok (st, []).
Proof.
  intros H1 H2. unfold handle. cbn [Z.eqb Pos.eqb]. rewrite read64_le by exact H1. cbn [rbind].
  rewrite <- (app_nil_r (le 8 size)). rewrite read64_le by (unfold word in H2; lia). reflexivity.
Qed.
Lemma more_env fu f k off size st :
  e_more (envAt (S fu) f k) off size st =
  readContinuation (handle (envAt fu f k)) f (fst k) (snd k) off size st.
Proof. destruct k as [vn fl]. reflexivity. Qed.

Lemma held_read f v k n0 : kind_of v k -> zlen f < 2 ^ 63 -> forall n ms l, held f v n ms l ->
  forall st st' fu, taken f n0 k (all_data l) st st' -> (n0 + n <= fu)%nat ->
  deliver (handle (envAt fu f k)) (all_data ms) st = Ok st'.
Proof.
  intros Hk Hf n ms l H.
  induction H as [n|n m ms l Ht H IH|n m ms off size inner li l Ht Ho Hs Hd Hb Hi IHi H IH]; intros st st' fu HT Hfu.
  - inversion HT; subst. reflexivity.
  - rewrite all_data_cons in *. destruct (taken_app _ _ _ _ _ _ _ HT) as (s1 & T1 & T2).
    rewrite deliver_app. unfold data_of in *. destruct (fm_data m) as [|x d].
    + inversion T1; subst. cbn [deliver rbind]. apply IH; assumption.
    + inversion T1 as [|t' b' rest l' q1 q2 q3 H1 H2 H3]; subst. inversion H3; subst.
      cbn [deliver]. rewrite H1 by lia. rewrite H2. cbn [rbind]. apply IH; assumption.
  - rewrite all_data_app in HT. destruct (taken_app _ _ _ _ _ _ _ HT) as (s1 & T1 & T2).
    rewrite all_data_cons. unfold data_of. rewrite Hd.
    assert (E : forall y, match le 8 off ++ le 8 size with [] => [] | _ :: _ => y end = y :> list (Z * bytes)).
    { intros y. reflexivity. }
    rewrite E. rewrite Ht. cbn [app deliver]. rewrite more_handled by assumption.
    destruct fu as [|fu]; [lia|]. rewrite more_env.
    rewrite (block_read _ f off size v k inner st Hk Hb Hs Hf).
    rewrite (IHi _ _ fu T1) by lia. cbn [rbind forallb]. apply IH; assumption.
Qed.

(** All messages of an object header are handled, in the order in which the header and its
    continuation blocks have them. *)
Lemma object_messages f n n0 a l st st' : messages_are f n a l -> zlen f < 2 ^ 63 ->
  taken f n0 (headerKind f a) (all_data l) st st' ->
  forall fu, (n0 + n < fu)%nat -> readAny fu f (JHeader a) st = Ok st'.
Proof.
  intros (Ha & v & ms & Hh & Hd) Hf HT fu Hfu.
  destruct (foreign_header f a v ms Hh Ha Hf) as [Hk Hr].
  destruct fu as [|fu]; [lia|]. cbn [readAny].
  change (mkEnv f (fun a0 => readAny fu f (JObject a0))
            (fun o n => readAny fu f (JMore (fst (headerKind f a)) (snd (headerKind f a)) o n)))
    with (envAt fu f (headerKind f a)).
  rewrite Hr. eapply held_read; [exact Hk|exact Hf|exact Hd|exact HT|lia].
Qed.
