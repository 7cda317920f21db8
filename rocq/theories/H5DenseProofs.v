(** The reader finds in a fractal heap what the format puts there, and goes through all records
    of a version-2 B-tree. *)
From Verif Require Import Prelude GoVal BaseLemmas H5Base H5ChecksumModel Lookup3Spec H5ChecksumProofs H5MetaWrite
  H5MetaRead MetaSpec H5MetaProofs H5DenseRead DenseSpec.
From Coq Require Import Lia ZifyBool ZifyNat Permutation.
Ltac Zify.zify_post_hook ::= Z.div_mod_to_equations.

(** ** Stored structures *)
Lemma sealed_sum f a b : has_at f a (sealed b) -> zlen f < 2 ^ 63 -> zlen b < 2 ^ 32 ->
  checkChecksum f a (zlen b) = Ok tt.
Proof.
  intros H Hf Hb. eapply checkChecksum_at; [exact H|apply checksum_lookup3; exact Hb|exact Hf].
Qed.
Lemma zlen_sealed b : zlen (sealed b) = zlen b + 4.
Proof. unfold sealed. rewrite zlen_app, zlen_le. reflexivity. Qed.

Lemma newSeek_part f a b c n : has_at f a (b ++ c) -> zlen b <= n <= zlen b + zlen c -> 0 < n ->
  zlen f < 2 ^ 63 -> newSeek f a n = Ok (b ++ ztake (n - zlen b) c).
Proof.
  intros H Hn H0 Hf. pose proof (has_at_bound _ _ _ H) as [Ha Hb]. rewrite zlen_app in Hb.
  rewrite newSeek_in by lia. f_equal.
  destruct H as (pre & post & -> & <-). rewrite zdrop_app_exact by reflexivity.
  rewrite <- app_assoc. rewrite ztake_app_r by lia. f_equal. apply ztake_app_l. lia.
Qed.

Lemma zlen_flat_le8 l : zlen (flat_map (le 8) l) = 8 * zlen l.
Proof.
  induction l as [|x l IH]; [reflexivity|]. cbn [flat_map]. rewrite zlen_app, zlen_le, zlen_cons, IH. lia.
Qed.

Ltac rstep := first [rewrite read8_cons|rewrite read16_le by assumption|rewrite read32_le' by assumption
  |rewrite read64_le by assumption|rewrite checkVal_same]; cbn [rbind].

(** ** Fractal heaps *)
Section Sizes.
  Context (b : Z) (Hb : 0 <= b).

  (** the size of entry [e] and where it starts *)
  Definition entry_size (e : Z) : Z := row_size (2 ^ b) (e / 4).
  Definition entry_start (e : Z) : Z := row_start (2 ^ b) (e / 4) + e mod 4 * row_size (2 ^ b) (e / 4).

  Lemma row_size_pow r : 0 <= r -> row_size (2 ^ b) r = 2 ^ (b + Z.max 0 (r - 1)).
  Proof.
    intros H. unfold row_size. destruct (r =? 0) eqn:E.
    - replace (b + Z.max 0 (r - 1)) with b by lia. reflexivity.
    - replace (Z.max 0 (r - 1)) with (r - 1) by lia. rewrite Z.pow_add_r by lia. reflexivity.
  Qed.
  Lemma row_size_pos r : 0 <= r -> 0 < row_size (2 ^ b) r.
  Proof. intros H. rewrite row_size_pow by exact H. apply Z.pow_pos_nonneg; lia. Qed.
  Lemma row_next r : 0 <= r -> row_start (2 ^ b) (r + 1) = row_start (2 ^ b) r + 4 * row_size (2 ^ b) r.
  Proof.
    intros H. unfold row_start, row_size. replace (r + 1 =? 0) with false by lia.
    destruct (r =? 0) eqn:E.
    - replace (r + 1 - 1) with 0 by lia. change (2 ^ 0) with 1. lia.
    - replace (r + 1 - 1) with (Z.succ (r - 1)) by lia. rewrite Z.pow_succ_r by lia. lia.
  Qed.
  Lemma entry_next e : 0 <= e -> entry_start (e + 1) = entry_start e + entry_size e.
  Proof.
    intros H. unfold entry_start, entry_size.
    destruct (Z.eq_dec (e mod 4) 3) as [E|E].
    - replace ((e + 1) / 4) with (e / 4 + 1) by lia. replace ((e + 1) mod 4) with 0 by lia.
      rewrite row_next by lia. lia.
    - replace ((e + 1) / 4) with (e / 4) by lia. replace ((e + 1) mod 4) with (e mod 4 + 1) by lia. lia.
  Qed.
  Lemma entry_size_pos e : 0 <= e -> 0 < entry_size e.
  Proof. intros H. apply row_size_pos. lia. Qed.
  Lemma entry_start_mono e e' : 0 <= e -> e <= e' -> entry_start e <= entry_start e'.
  Proof.
    intros H H'. replace e' with (e + Z.of_nat (Z.to_nat (e' - e))) by lia.
    induction (Z.to_nat (e' - e)) as [|n IH]; [replace (e + Z.of_nat 0) with e by lia; lia|].
    replace (e + Z.of_nat (S n)) with (e + Z.of_nat n + 1) by lia.
    rewrite entry_next by lia. pose proof (entry_size_pos (e + Z.of_nat n)). lia.
  Qed.
  Lemma entry_start_0 : entry_start 0 = 0.
  Proof. reflexivity. Qed.

  Context (m : Z) (Hm : b <= m).
  Let K := m - b + 2.

  Lemma direct_iff r : 0 <= r -> (row_size (2 ^ b) r <= 2 ^ m <-> r < K).
  Proof.
    intros H. rewrite row_size_pow by exact H. rewrite <- Z.pow_le_mono_r_iff by lia. unfold K. lia.
  Qed.

  (** the value of blockSize before entry [e] *)
  Definition direct_size (e : Z) : Z := if e / 4 <? K then entry_size e else 2 ^ m.

  Lemma direct_size_next e : 0 <= e -> m < 64 -> e / 4 < K ->
    (if (1 <=? e / 4) && (e mod 4 =? 3) && (direct_size e <? 2 ^ m) then u64 (direct_size e * 2) else direct_size e) =
    direct_size (e + 1).
  Proof.
    intros H H64 Hk. unfold direct_size. replace (e / 4 <? K) with true by lia. unfold entry_size.
    rewrite row_size_pow by lia.
    destruct (Z.eq_dec (e mod 4) 3) as [E|E].
    - replace ((e + 1) / 4) with (e / 4 + 1) by lia. replace (e mod 4 =? 3) with true by lia.
      destruct (Z_lt_le_dec (e / 4 + 1) K) as [L|L].
      + replace (e / 4 + 1 <? K) with true by lia. rewrite row_size_pow by lia.
        destruct (Z_lt_le_dec (e / 4) 1) as [L1|L1].
        * replace (1 <=? e / 4) with false by lia. cbn [andb]. f_equal. lia.
        * replace (1 <=? e / 4) with true by lia.
          assert (P : 2 ^ (b + Z.max 0 (e / 4 - 1)) < 2 ^ m).
          { apply Z.pow_lt_mono_r; unfold K in L; lia. }
          replace (2 ^ (b + Z.max 0 (e / 4 - 1)) <? 2 ^ m) with true by lia. cbn [andb].
          replace (b + Z.max 0 (e / 4 + 1 - 1)) with (Z.succ (b + Z.max 0 (e / 4 - 1))) by lia.
          rewrite Z.pow_succ_r by lia. rewrite u64_small; [lia|].
          assert (Q : 2 ^ Z.succ (b + Z.max 0 (e / 4 - 1)) < 2 ^ 64).
          { apply Z.pow_lt_mono_r; unfold K in L; lia. }
          rewrite Z.pow_succ_r in Q by lia. pose proof (Z.pow_pos_nonneg 2 (b + Z.max 0 (e / 4 - 1))). lia.
      + replace (e / 4 + 1 <? K) with false by lia.
        assert (Em : b + Z.max 0 (e / 4 - 1) = m) by (unfold K in *; lia). rewrite Em.
        replace (2 ^ m <? 2 ^ m) with false by lia. rewrite andb_false_r. reflexivity.
    - replace ((e + 1) / 4) with (e / 4) by lia. replace (e mod 4 =? 3) with false by lia.
      rewrite andb_false_r. cbn [andb]. replace (e / 4 <? K) with true by lia.
      rewrite row_size_pow by lia. reflexivity.
  Qed.

  Lemma tryDirect_found l : forall e off j a, 0 <= e -> e <= j -> m < 64 -> e + zlen l <= 4 * K ->
    nth_error l (Z.to_nat (j - e)) = Some a -> a <> invalidAddress ->
    entry_start j <= off < entry_start (j + 1) -> off < 2 ^ 64 ->
    tryDirect (2 ^ m) l e (off - entry_start e) (direct_size e) = (Some a, off - entry_start j, direct_size j).
  Proof.
    induction l as [|x l IH]; intros e off j a H0 Hj H64 Hk Hn Ha Ho Hoff.
    - destruct (Z.to_nat (j - e)); discriminate.
    - cbn [tryDirect]. rewrite zlen_cons in Hk. pose proof (zlen_nonneg l) as Hl.
      assert (Es : direct_size e = entry_size e) by (unfold direct_size; replace (e / 4 <? K) with true by lia; reflexivity).
      assert (Ee : entry_start e <= entry_start j) by (apply entry_start_mono; lia).
      destruct (Z.eq_dec j e) as [->|N].
      + replace (Z.to_nat (e - e)) with O in Hn by lia. injection Hn as ->.
        rewrite entry_next in Ho by lia.
        replace (off - entry_start e <? direct_size e) with true by lia.
        replace (a =? invalidAddress) with false by lia. cbn [negb andb]. reflexivity.
      + assert (L : entry_start (e + 1) <= entry_start j) by (apply entry_start_mono; lia).
        rewrite entry_next in L by lia.
        replace (off - entry_start e <? direct_size e) with false by lia. cbn [andb].
        rewrite direct_size_next by lia.
        pose proof (entry_start_mono 0 e ltac:(lia) H0) as S0. rewrite entry_start_0 in S0.
        pose proof (entry_size_pos e H0) as S1.
        rewrite u64_small by lia. rewrite Es.
        replace (off - entry_start e - entry_size e) with (off - entry_start (e + 1)) by (rewrite entry_next; lia).
        apply IH; try assumption; try lia.
        replace (Z.to_nat (j - e)) with (S (Z.to_nat (j - (e + 1)))) in Hn by lia. exact Hn.
  Qed.

  Lemma tryDirect_past l : forall e off, 0 <= e -> m < 64 -> e + zlen l <= 4 * K ->
    entry_start (e + zlen l) <= off -> off < 2 ^ 64 ->
    tryDirect (2 ^ m) l e (off - entry_start e) (direct_size e) =
      (None, off - entry_start (e + zlen l), direct_size (e + zlen l)).
  Proof.
    induction l as [|x l IH]; intros e off H0 H64 Hk Ho Hoff.
    - change (zlen (@nil Z)) with 0. rewrite !Z.add_0_r. reflexivity.
    - cbn [tryDirect]. rewrite zlen_cons in *. pose proof (zlen_nonneg l) as Hl.
      assert (Es : direct_size e = entry_size e) by (unfold direct_size; replace (e / 4 <? K) with true by lia; reflexivity).
      assert (L : entry_start (e + 1) <= entry_start (e + (1 + zlen l))) by (apply entry_start_mono; lia).
      rewrite entry_next in L by lia.
      replace (off - entry_start e <? direct_size e) with false by lia. cbn [andb].
      rewrite direct_size_next by lia.
      pose proof (entry_start_mono 0 e ltac:(lia) H0) as S0. rewrite entry_start_0 in S0.
      pose proof (entry_size_pos e H0) as S1.
      rewrite u64_small by lia. rewrite Es.
      replace (off - entry_start e - entry_size e) with (off - entry_start (e + 1)) by (rewrite entry_next; lia).
      replace (e + (1 + zlen l)) with (e + 1 + zlen l) in * by lia. apply IH; try assumption; lia.
  Qed.

  Lemma tryIndirect_found l : forall e off j a, 0 <= e -> e <= j -> entry_size (4 * K + j) < 2 ^ 64 ->
    nth_error l (Z.to_nat (j - e)) = Some a -> a <> invalidAddress ->
    entry_start (4 * K + j) <= off < entry_start (4 * K + j + 1) -> off < 2 ^ 64 ->
    tryIndirect l e (off - entry_start (4 * K + e)) (entry_size (4 * K + e)) =
      (Some a, off - entry_start (4 * K + j), entry_size (4 * K + j)).
  Proof.
    induction l as [|x l IH]; intros e off j a H0 Hj H64 Hn Ha Ho Hoff.
    - destruct (Z.to_nat (j - e)); discriminate.
    - cbn [tryIndirect]. set (g := 4 * K) in *. assert (G0 : 0 <= g) by (unfold g, K; lia).
      assert (Ee : entry_start (g + e) <= entry_start (g + j)) by (apply entry_start_mono; lia).
      destruct (Z.eq_dec j e) as [->|N].
      + replace (Z.to_nat (e - e)) with O in Hn by lia. injection Hn as ->.
        rewrite entry_next in Ho by lia.
        replace (off - entry_start (g + e) <? entry_size (g + e)) with true by lia.
        replace (a =? invalidAddress) with false by lia. cbn [negb andb]. reflexivity.
      + assert (L : entry_start (g + e + 1) <= entry_start (g + j)) by (apply entry_start_mono; lia).
        rewrite entry_next in L by lia.
        replace (off - entry_start (g + e) <? entry_size (g + e)) with false by lia. cbn [andb].
        pose proof (entry_start_mono 0 (g + e) ltac:(lia) ltac:(lia)) as S0. rewrite entry_start_0 in S0.
        pose proof (entry_size_pos (g + e) ltac:(lia)) as S1.
        rewrite u64_small by lia.
        replace (off - entry_start (g + e) - entry_size (g + e)) with (off - entry_start (g + (e + 1)))
          by (rewrite Z.add_assoc, entry_next; lia).
        assert (Esz : (if e mod 4 =? 3 then u64 (entry_size (g + e) * 2) else entry_size (g + e)) = entry_size (g + (e + 1))).
        { unfold entry_size. assert (K2 : 2 <= K) by (unfold K; lia).
          destruct (Z.eq_dec (e mod 4) 3) as [E3|E3].
          - replace (e mod 4 =? 3) with true by lia.
            replace ((g + (e + 1)) / 4) with ((g + e) / 4 + 1) by (unfold g; lia).
            rewrite !row_size_pow by lia.
            replace (b + Z.max 0 ((g + e) / 4 + 1 - 1)) with (Z.succ (b + Z.max 0 ((g + e) / 4 - 1))) by (unfold g; lia).
            rewrite Z.pow_succ_r by lia. rewrite u64_small; [lia|].
            unfold entry_size in H64. rewrite row_size_pow in H64 by lia.
            assert (Q : 2 ^ Z.succ (b + Z.max 0 ((g + e) / 4 - 1)) <= 2 ^ (b + Z.max 0 ((g + j) / 4 - 1))).
            { apply Z.pow_le_mono_r; [lia|]. unfold g in *. lia. }
            rewrite Z.pow_succ_r in Q by lia. pose proof (Z.pow_pos_nonneg 2 (b + Z.max 0 ((g + e) / 4 - 1))). lia.
          - replace (e mod 4 =? 3) with false by lia. f_equal. unfold g. lia. }
        rewrite Esz. apply IH; try assumption; try lia.
        replace (Z.to_nat (j - e)) with (S (Z.to_nat (j - (e + 1)))) in Hn by lia. exact Hn.
  Qed.
End Sizes.

Lemma word_le w z n : word w z -> w = 8 * Z.of_nat n -> of_le (le n z) = z.
Proof.
  intros [H1 H2] ->. rewrite of_le_le. apply Z.mod_small. split; [exact H1|].
  change 256 with (2 ^ 8). rewrite <- Z.pow_mul_r by lia. exact H2.
Qed.

Lemma read32_any z r : read32 (le 4 z ++ r) = Ok (of_le (le 4 z), r).
Proof. unfold read32, pbind. rewrite rd_app by (rewrite zlen_le; reflexivity). reflexivity. Qed.
Lemma le5 z : le 5 z = le 4 z ++ [z / 256 / 256 / 256 / 256 mod 256].
Proof. reflexivity. Qed.

Lemma rootblock_read f B M bits a es n : indirect_at f bits a es -> zlen es = 4 * n -> n < 2000 ->
  bits = 32 \/ bits = 40 -> zlen f < 2 ^ 63 -> 0 <= glog2 M - glog2 B + 2 ->
  readRootBlock f B M bits a n =
    Ok (ztake (4 * (glog2 M - glog2 B + 2)) es, zdrop (4 * (glog2 M - glog2 B + 2)) es).
Proof.
  intros (heap & off & Hh & Ho & He & Hat) Hn Hn2 Hbits Hf HK.
  pose proof (zlen_nonneg es) as He0.
  unfold readRootBlock. cbv zeta.
  replace (u16 (n * 4 * 8)) with (n * 4 * 8) by (symmetry; apply Z.mod_small; lia).
  set (body := bs "FHIB" ++ [0] ++ le 8 heap ++ le (Z.to_nat (bits / 8)) off ++ flat_map (le 8) es) in Hat.
  assert (Hz : zlen body = 4 + 1 + 8 + bits / 8 + n * 4 * 8).
  { unfold body. rewrite !zlen_app, !zlen_le, zlen_flat_le8. change (zlen (bs "FHIB")) with 4.
    change (zlen [0]) with 1. destruct Hbits as [->| ->]; lia. }
  rewrite (newSeek_at f a (sealed body)); [|exact Hat|rewrite zlen_sealed; lia|lia|exact Hf].
  cbn [rbind]. replace (4 + 1 + 8 + bits / 8 + n * 4 * 8 + 4 - 4) with (zlen body) by lia.
  rewrite (sealed_sum f a body Hat Hf) by lia.
  unfold sealed, body. rewrite <- !app_assoc. rewrite checkMagic_app. cbn [rbind app].
  rstep. rstep. rewrite read64_le by exact Hh. cbn [rbind].
  replace ((u16 (glog2 M - glog2 B + 2) <=? n) && (glog2 M - glog2 B + 2 <? 0)) with false by lia.
  fold body. generalize (le 4 (lookup3 body)). intros tl.
  replace (Z.to_nat (n * 4)) with (List.length es) by (unfold zlen in Hn; lia).
  destruct Hbits as [->| ->].
  - change (Z.to_nat (32 / 8)) with 4%nat. rewrite read32_le' by exact Ho. cbn [rbind].
    change (32 =? 40) with false. cbn [rbind]. rewrite read_n_le8 by exact He. reflexivity.
  - change (Z.to_nat (40 / 8)) with 5%nat.
    rewrite le5. rewrite <- app_assoc. rewrite read32_any. cbn [rbind app].
    change (40 =? 40) with true. cbv iota. rewrite read8_cons. cbn [rbind]. rewrite read_n_le8 by exact He. reflexivity.
Qed.

Lemma glog2_pow k : 0 <= k -> glog2 (2 ^ k) = k.
Proof.
  intros H. unfold glog2. pose proof (Z.pow_pos_nonneg 2 k). replace (2 ^ k <=? 0) with false by lia.
  apply Z.log2_pow2. exact H.
Qed.
Lemma undefined_invalid : undefined = invalidAddress.
Proof. reflexivity. Qed.

Lemma nth_ztake {A} (l : list A) n i x : nth_error l i = Some x -> Z.of_nat i < n -> nth_error (ztake n l) i = Some x.
Proof. intros H Hi. unfold ztake. rewrite nth_error_firstn_lt by lia. exact H. Qed.
Lemma nth_zdrop {A} (l : list A) n i x : 0 <= n -> nth_error l i = Some x -> n <= Z.of_nat i ->
  nth_error (zdrop n l) (Z.to_nat (Z.of_nat i - n)) = Some x.
Proof. intros H0 H Hi. unfold zdrop. rewrite nth_error_skipn_add. rewrite <- H. f_equal. lia. Qed.

Lemma rows_of_row b r : 0 <= b -> 1 <= r -> rows_of (2 ^ b) (row_size (2 ^ b) r) = r - 2.
Proof.
  intros Hb Hr. unfold rows_of. rewrite row_size_pow by lia.
  replace (4 * 2 ^ b) with (2 ^ (b + 2)) by (rewrite Z.pow_add_r by lia; change (2 ^ 2) with 4; lia).
  rewrite !Z.log2_pow2 by lia. lia.
Qed.
Lemma rows_go b r : 0 <= b -> 1 <= r -> b < 40 ->
  glog2 (row_size (2 ^ b) r) - glog2 (u64 (2 ^ b * 4)) + 1 = r - 2.
Proof.
  intros Hb Hr H40. rewrite row_size_pow by lia. assert (Q : 2 ^ b <= 2 ^ 40) by (apply Z.pow_le_mono_r; lia).
  pose proof (Z.pow_pos_nonneg 2 b) as P0. 
  replace (2 ^ b * 4) with (2 ^ (b + 2)) by (rewrite Z.pow_add_r by lia; change (2 ^ 2) with 4; lia).
  rewrite u64_small.
  - rewrite !glog2_pow by lia. lia.
  - split; [apply Z.pow_nonneg; lia|apply Z.pow_lt_mono_r; lia].
Qed.

Theorem heap_lookup f b m bits : 0 <= b <= m -> m < 64 -> bits = 32 \/ bits = 40 -> zlen f < 2 ^ 63 ->
  let K := m - b + 2 in
  forall es off addr, byte_at f (2 ^ b) (2 ^ m) bits es off addr ->
  forall n fuel, zlen es = 4 * n -> (0 < n -> 4 * 2 ^ b * 2 ^ (n - 1) <= 2 ^ bits) -> (Z.to_nat n < fuel)%nat ->
  exists blk o, doDoubling fuel f (mkFheap (ztake (4 * K) es) (zdrop (4 * K) es) (2 ^ b) (2 ^ m) bits) off = Ok (blk, o) /\
    blk + o = addr.
Proof.
  intros [Hb Hm] H64 Hbits Hf K es off addr H.
  assert (Pb : 2 ^ bits <= 2 ^ 40) by (destruct Hbits as [->| ->]; lia).
  assert (ES : forall r c, 0 <= r -> 0 <= c < 4 -> entry_start b (4 * r + c) = row_start (2 ^ b) r + c * row_size (2 ^ b) r).
  { intros r c Hr Hc. unfold entry_start. replace ((4 * r + c) / 4) with r by lia.
    replace ((4 * r + c) mod 4) with c by lia. reflexivity. }
  assert (EN : forall r c, 0 <= r -> 0 <= c < 4 ->
      entry_start b (4 * r + c + 1) = row_start (2 ^ b) r + (c + 1) * row_size (2 ^ b) r).
  { intros r c Hr Hc. rewrite entry_next by lia. rewrite ES by lia. unfold entry_size.
    replace ((4 * r + c) / 4) with r by lia. lia. }
  assert (FIT : forall (es : list Z) n r c (a : Z), 0 <= r -> 0 <= c < 4 ->
      nth_error es (Z.to_nat (4 * r + c)) = Some a -> zlen es = 4 * n ->
      (0 < n -> 4 * 2 ^ b * 2 ^ (n - 1) <= 2 ^ bits) -> r < n /\ b + Z.max 0 (r - 1) < 40 /\
      row_start (2 ^ b) r + (c + 1) * row_size (2 ^ b) r <= 2 ^ 41).
  { clear - Hb Pb. intros es n r c a Hr Hc Hnth Hn Hfit.
    assert (L : (Z.to_nat (4 * r + c) < List.length es)%nat) by (apply nth_error_Some; congruence).
    unfold zlen in Hn. assert (Hrn : r < n) by lia. split; [exact Hrn|].
    specialize (Hfit ltac:(lia)).
    replace (4 * 2 ^ b * 2 ^ (n - 1)) with (2 ^ (b + 2 + (n - 1))) in Hfit
      by (rewrite !Z.pow_add_r by lia; change (2 ^ 2) with 4; lia).
    assert (P1 : 2 ^ (b + 2 + (n - 1)) <= 2 ^ 40) by lia.
    apply Z.pow_le_mono_r_iff in P1; [|lia|lia].
    split; [lia|].
    assert (P2 : 2 ^ (b + Z.max 0 (r - 1)) <= 2 ^ 38) by (apply Z.pow_le_mono_r; lia).
    rewrite row_size_pow by lia. unfold row_start. destruct (r =? 0) eqn:E0.
    - nia.
    - assert (P3 : 2 ^ (b + (r - 1)) <= 2 ^ 38) by (apply Z.pow_le_mono_r; lia).
      rewrite Z.pow_add_r in P3 by lia. nia. }
  induction H as [es off r c a Hr Hc Hnth Ha Hd Ho|es off r c a es' addr Hr Hc Hnth Ha Hd Ho Hind Hlen Hby IH];
    intros n fuel Hn Hfit Hfuel.
  - destruct (FIT es n r c a Hr Hc Hnth Hn Hfit) as (F1 & F2 & F3).
    apply (proj1 (direct_iff b Hb m Hm r Hr)) in Hd. fold K in Hd.
    destruct fuel as [|fu]; [lia|]. cbn [doDoubling fh_max fh_direct fh_start].
    pose proof (tryDirect_found b Hb m Hm (ztake (4 * K) es) 0 off (4 * r + c) a) as T.
    rewrite entry_start_0, !Z.sub_0_r in T.
    replace (direct_size b m 0) with (2 ^ b) in T.
    2:{ unfold direct_size, entry_size. change (0 / 4) with 0. replace (0 <? m - b + 2) with true by lia. reflexivity. }
    rewrite ES, EN in T by lia. rewrite T.
    + eexists _, _. split; [reflexivity|]. lia.
    + lia.
    + lia.
    + lia.
    + rewrite zlen_ztake_min. fold K. lia.
    + apply nth_ztake; [exact Hnth|lia].
    + exact Ha.
    + exact Ho.
    + lia.
  - destruct (FIT es n r c a Hr Hc Hnth Hn Hfit) as (F1 & F2 & F3).
    assert (HrK : K <= r).
    { destruct (Z_lt_le_dec r K) as [L|L]; [|exact L]. apply (proj2 (direct_iff b Hb m Hm r Hr)) in L. lia. }
    destruct fuel as [|fu]; [lia|]. cbn [doDoubling fh_max fh_direct fh_start fh_indirect fh_bits].
    assert (K2 : 2 <= K) by (unfold K; lia).
    assert (Hlt : zlen (ztake (4 * K) es) = 4 * K) by (apply zlen_ztake; lia).
    assert (Past : entry_start b (4 * K) <= off).
    { pose proof (entry_start_mono b Hb (4 * K) (4 * r + c) ltac:(lia) ltac:(lia)) as P. rewrite ES in P by lia. lia. }
    pose proof (tryDirect_past b Hb m Hm (ztake (4 * K) es) 0 off) as T.
    rewrite entry_start_0, !Z.sub_0_r in T.
    replace (direct_size b m 0) with (2 ^ b) in T.
    2:{ unfold direct_size, entry_size. change (0 / 4) with 0. replace (0 <? m - b + 2) with true by lia. reflexivity. }
    rewrite Hlt, Z.add_0_l in T. fold K in T. rewrite T by lia. clear T.
    assert (Ed : u64 (direct_size b m (4 * K) * 2) = entry_size b (4 * K)).
    { unfold direct_size. fold K. replace (4 * K / 4 <? K) with false by lia. unfold entry_size.
      replace (4 * K / 4) with K by lia. rewrite row_size_pow by lia.
      replace (b + Z.max 0 (K - 1)) with (Z.succ m) by (unfold K; lia). rewrite Z.pow_succ_r by lia.
      rewrite u64_small; [lia|].
      assert (Q : 2 ^ m <= 2 ^ 40) by (apply Z.pow_le_mono_r; unfold K in *; lia).
      pose proof (Z.pow_pos_nonneg 2 m). lia. }
    rewrite Ed. clear Ed.
    pose proof (tryIndirect_found b Hb m Hm (zdrop (4 * K) es) 0 off (4 * r + c - 4 * K) a) as T.
    fold K in T. rewrite Z.add_0_r, !Z.sub_0_r in T.
    replace (4 * K + (4 * r + c - 4 * K)) with (4 * r + c) in T by lia.
    rewrite ES, EN in T by lia.
    assert (Er : entry_size b (4 * r + c) = row_size (2 ^ b) r).
    { unfold entry_size. replace ((4 * r + c) / 4) with r by lia. reflexivity. }
    rewrite Er in T.
    assert (Hsz : row_size (2 ^ b) r < 2 ^ 64).
    { rewrite row_size_pow by lia. apply Z.pow_lt_mono_r; lia. }
    rewrite T; try assumption; try lia.
    2:{ replace (4 * r + c - 4 * K) with (Z.of_nat (Z.to_nat (4 * r + c)) - 4 * K) by lia.
        apply nth_zdrop; [lia|exact Hnth|lia]. }
    clear T.
    assert (Hr1 : 1 <= r) by (clear - HrK K2; lia).
    assert (Hb40 : b < 40) by (clear - F2; lia).
    pose proof (rows_of_row b r Hb Hr1) as Hrows. pose proof (rows_go b r Hb Hr1 Hb40) as Hg.
    rewrite Hg. rewrite Hrows in Hlen.
    assert (Hu : u16 (r - 2) = r - 2) by (clear - HrK K2 F2 Hb; unfold u16; apply Z.mod_small; lia). rewrite Hu.
    clear Past Hlt Hsz Er ES EN FIT F3 Hnth Ha Ho Hd Pb Hrows Hg Hn.
    rewrite (rootblock_read f (2 ^ b) (2 ^ m) bits a es' (r - 2) Hind Hlen);
      [|lia|exact Hbits|exact Hf|rewrite !glog2_pow by lia; lia].
    cbn [rbind]. rewrite !glog2_pow by lia. fold K.
    apply IH with (n := r - 2); [exact Hlen| |lia].
    intros Hr2. specialize (Hfit ltac:(lia)). etransitivity; [|exact Hfit].
    apply Z.mul_le_mono_nonneg_l; [pose proof (Z.pow_pos_nonneg 2 b); lia|]. apply Z.pow_le_mono_r; lia.
Qed.

Lemma rows_bound b n bits : 0 <= b -> 0 < n -> 4 * 2 ^ b * 2 ^ (n - 1) <= 2 ^ bits -> bits = 32 \/ bits = 40 -> n < 40.
Proof.
  intros Hb Hn H Hbits. assert (P : 4 * 2 ^ b * 2 ^ (n - 1) <= 2 ^ 40) by (destruct Hbits as [->| ->]; lia).
  replace (4 * 2 ^ b * 2 ^ (n - 1)) with (2 ^ (b + 2 + (n - 1))) in P
    by (rewrite !Z.pow_add_r by lia; change (2 ^ 2) with 4; lia).
  apply Z.pow_le_mono_r_iff in P; lia.
Qed.

(** The header of a heap, and the root block if that is an indirect one *)
Lemma heap_header f B M bits a root rows : heap_at f B M bits a root rows -> zlen f < 2 ^ 63 ->
  readHeap f a =
    if 0 <? rows then
      let* (d, i) := readRootBlock f B M bits root rows in Ok (mkFheap d i B M bits)
    else Ok (mkFheap [root] [] B M bits).
Proof.
  intros ((Hbits & b & m & Hb & Hm & HB & HM) & Hr & Hrows & _ & idLen & flags & maxO & twelve & startR &
    H1 & H2 & H3 & H4 & H5 & H6 & Hat) Hf.
  match type of Hat with has_at _ _ (sealed ?x) => set (body := x) in Hat end.
  assert (Hz : zlen body = 142).
  { unfold body. rewrite !zlen_app, !zlen_le, zlen_flat_le8, H5. reflexivity. }
  assert (Hsum := sealed_sum f a body Hat Hf ltac:(lia)). rewrite Hz in Hsum.
  assert (HwB : word 64 B).
  { unfold word. rewrite HB. split; [apply Z.pow_nonneg; lia|apply Z.pow_lt_mono_r; lia]. }
  assert (HwM : word 64 M).
  { unfold word. rewrite HM. split; [apply Z.pow_nonneg; lia|apply Z.pow_lt_mono_r; lia]. }
  unfold readHeap. unfold sealed in Hat.
  rewrite (newSeek_part f a body _ 144 Hat) by (rewrite ?zlen_le; lia). cbn [rbind].
  generalize (ztake (144 - zlen body) (le 4 (lookup3 body))). intros tl. clear Hat. unfold body.
  rewrite <- !app_assoc. rewrite checkMagic_app. cbn [rbind app].
  rewrite read8_cons. cbn [rbind]. rewrite read16_le by exact H1. cbn [rbind].
  rewrite read16_le by lia. cbn [rbind]. rewrite checkVal_same. cbn [rbind].
  rewrite read8_cons. cbn [rbind]. rewrite read32_le' by exact H3. cbn [rbind].
  replace 12%nat with (List.length twelve) by (unfold zlen in H5; lia).
  rewrite read_n_le8 by exact H4. cbn [rbind].
  rewrite read16_le by lia. cbn [rbind]. rewrite checkVal_same. cbn [rbind].
  rewrite read64_le by exact HwB. cbn [rbind]. rewrite read64_le by exact HwM. cbn [rbind].
  rewrite read16_le by (destruct Hbits as [->| ->]; lia). cbn [rbind].
  replace ((bits =? 32) || (bits =? 40)) with true by (destruct Hbits as [->| ->]; reflexivity).
  rewrite passert_true. cbn [rbind].
  rewrite read16_le by exact H6. cbn [rbind]. rewrite read64_le by exact Hr. cbn [rbind].
  rewrite read16_le by exact Hrows. cbn [rbind]. rewrite Hsum. reflexivity.
Qed.

Lemma direct_first fu f h off b o s : tryDirect (fh_max h) (fh_direct h) 0 off (fh_start h) = (Some b, o, s) ->
  doDoubling (S fu) f h off = Ok (b, o).
Proof. intros E. cbn [doDoubling]. rewrite E. reflexivity. Qed.

Theorem heap_found f a off addr : in_heap f a off addr -> zlen f < 2 ^ 63 ->
  exists h blk o, readHeap f a = Ok h /\ doDoubling 70 f h off = Ok (blk, o) /\ blk + o = addr.
Proof.
  intros (B & M & bits & root & rows & Hh & Hin) Hf. pose proof (heap_header _ _ _ _ _ _ _ Hh Hf) as E.
  destruct Hh as ((Hbits & b & m & Hb & Hm & -> & ->) & Hr & Hrows & Hfit & _).
  unfold word in Hrows.
  destruct (rows =? 0) eqn:E0.
  - destruct Hin as (Hu & Ho & ->). replace (0 <? rows) with false in E by lia.
    exists (mkFheap [root] [] (2 ^ b) (2 ^ m) bits), root, off. split; [exact E|]. split; [|lia].
    apply (direct_first 69 f _ _ _ _ (2 ^ b)). cbn [fh_max fh_direct fh_start tryDirect].
    replace (off <? 2 ^ b) with true by lia.
    replace (root =? invalidAddress) with false by (unfold undefined, invalidAddress in *; lia). reflexivity.
  - destruct Hin as (es & Hi & Hlen & Hby). replace (0 <? rows) with true in E by lia.
    specialize (Hfit ltac:(lia)).
    pose proof (rows_bound b rows bits ltac:(lia) ltac:(lia) Hfit Hbits) as Hn.
    rewrite (rootblock_read f (2 ^ b) (2 ^ m) bits root es rows Hi Hlen) in E;
      [|lia|exact Hbits|exact Hf|rewrite !glog2_pow by lia; lia].
    rewrite !glog2_pow in E by lia. cbn [rbind] in E.
    destruct (heap_lookup f b m bits Hb Hm Hbits Hf es off addr Hby rows 70 Hlen) as (blk & o & E1 & E2).
    + intros _. exact Hfit.
    + lia.
    + eexists _, blk, o. split; [exact E|]. split; [exact E1|exact E2].
Qed.
