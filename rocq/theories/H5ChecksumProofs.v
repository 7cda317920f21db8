(** Proofs about the metadata checksum. *)
From Coq Require Import ZifyBool ZifyNat.
From Verif Require Import Prelude GoVal BaseLemmas H5Base H5ChecksumModel Lookup3Spec.
Ltac Zify.zify_post_hook ::= Z.div_mod_to_equations.

Definition w32 (x : Z) : Prop := 0 <= x < M32.

Lemma w32_mod x : w32 (x mod M32).
Proof. unfold w32, M32. apply Z.mod_pos_bound. reflexivity. Qed.

Lemma lxor_w32 x y : w32 x -> w32 y -> w32 (Z.lxor x y).
Proof.
  unfold w32, M32. intros [Hx Hx'] [Hy Hy']. split.
  - apply Z.lxor_nonneg. lia.
  - destruct (Z.eq_dec (Z.lxor x y) 0) as [E|E]; [rewrite E; reflexivity|].
    assert (0 <= Z.lxor x y) by (apply Z.lxor_nonneg; lia).
    apply Z.log2_lt_pow2; [lia|].
    eapply Z.le_lt_trans; [apply Z.log2_lxor; lia|].
    apply Z.max_lub_lt.
    + destruct (Z.eq_dec x 0) as [->|]; [reflexivity|]. apply Z.log2_lt_pow2; lia.
    + destruct (Z.eq_dec y 0) as [->|]; [reflexivity|]. apply Z.log2_lt_pow2; lia.
Qed.

Lemma lor_plus a b k : 0 <= k -> a mod 2 ^ k = 0 -> 0 <= b < 2 ^ k -> Z.lor a b = a + b.
Proof.
  intros Hk Ha Hb.
  assert (D : Z.land a b = 0).
  { apply Z.bits_inj'. intros n Hn. rewrite Z.land_spec, Z.bits_0.
    destruct (Z_lt_le_dec n k) as [L|L].
    - assert (Z.testbit a n = false) as ->; [|reflexivity].
      rewrite <- (Z.mod_pow2_bits_low a k n) by exact L. rewrite Ha. apply Z.bits_0.
    - assert (Z.testbit b n = false) as ->; [|apply andb_false_r].
      rewrite <- (Z.mod_small b (2 ^ k)) by exact Hb.
      apply Z.mod_pow2_bits_high. lia. }
  rewrite <- (Z.lxor_lor _ _ D). symmetry. apply Z.add_nocarry_lxor. exact D.
Qed.

Lemma rot_rotl x k : w32 x -> 0 < k < 32 -> rot x k = rotl x k.
Proof.
  unfold w32, M32. intros Hx Hk. unfold rot, rotl, u32, M32.
  rewrite Z.shiftl_mul_pow2, Z.shiftr_div_pow2 by lia.
  assert (P0 : 0 < 2 ^ k) by (apply Z.pow_pos_nonneg; lia).
  assert (P1 : 0 < 2 ^ (32 - k)) by (apply Z.pow_pos_nonneg; lia).
  assert (E : 2 ^ 32 = 2 ^ (32 - k) * 2 ^ k) by (rewrite <- Z.pow_add_r by lia; f_equal; lia).
  apply lor_plus with (k := k); [lia| |].
  - rewrite E. rewrite Z.mul_mod_distr_r by lia. apply Z.mod_mul. lia.
  - split; [apply Z.div_pos; lia|]. apply Z.div_lt_upper_bound; [lia|]. lia.
Qed.

Lemma rotl_w32 x k : w32 x -> 0 < k < 32 -> w32 (rotl x k).
Proof.
  intros Hx Hk. unfold w32, rotl, M32 in *.
  assert (P0 : 0 < 2 ^ k) by (apply Z.pow_pos_nonneg; lia).
  assert (P1 : 0 < 2 ^ (32 - k)) by (apply Z.pow_pos_nonneg; lia).
  assert (E : 2 ^ 32 = 2 ^ (32 - k) * 2 ^ k) by (rewrite <- Z.pow_add_r by lia; f_equal; lia).
  assert (H1 : 0 <= x / 2 ^ (32 - k)) by (apply Z.div_pos; lia).
  assert (H2 : x / 2 ^ (32 - k) < 2 ^ k) by (apply Z.div_lt_upper_bound; lia).
  rewrite E at 1 2. rewrite Z.mul_mod_distr_r by lia.
  assert (H3 := Z.mod_pos_bound x (2 ^ (32 - k)) P1).
  rewrite E. split; [nia|]. nia.
Qed.

(** One round of the Go mix *)
Definition go_round (s : Z * Z * Z) (k : Z) : Z * Z * Z :=
  let '(x, y, z) := s in (y, u32 (z + y), Z.lxor (u32 (x - z)) (rot z k)).

Lemma mix_rounds a b c : mix a b c = fold_left go_round [4; 6; 8; 16; 19; 4] (a, b, c).
Proof. reflexivity. Qed.

Definition w3 (s : Z * Z * Z) : Prop := w32 (fst (fst s)) /\ w32 (snd (fst s)) /\ w32 (snd s).

Lemma go_round_spec s k : w3 s -> 0 < k < 32 -> go_round s k = mix_round s k /\ w3 (go_round s k).
Proof.
  destruct s as [[x y] z]. intros (Hx & Hy & Hz) Hk. cbn [fst snd] in *.
  unfold go_round, mix_round. rewrite rot_rotl by assumption. split; [reflexivity|].
  unfold w3. cbn [fst snd]. split; [exact Hy|]. split; [apply w32_mod|].
  apply lxor_w32; [apply w32_mod|]. apply rotl_w32; assumption.
Qed.

Lemma rounds_spec l : forall s, w3 s -> Forall (fun k => 0 < k < 32) l ->
  fold_left go_round l s = fold_left mix_round l s /\ w3 (fold_left go_round l s).
Proof.
  induction l as [|k l IH]; intros s Hs Hl; cbn [fold_left]; [split; [reflexivity|exact Hs]|].
  inversion Hl as [|? ? Hk Hl']; subst.
  destruct (go_round_spec s k Hs Hk) as [E W]. rewrite <- E. apply IH; assumption.
Qed.

Lemma mix_spec_ok a b c : w32 a -> w32 b -> w32 c ->
  mix a b c = mix_spec (a, b, c) /\ w3 (mix a b c).
Proof.
  intros. rewrite mix_rounds. unfold mix_spec. apply rounds_spec.
  - unfold w3; cbn [fst snd]; auto.
  - repeat (constructor; [lia|]). constructor.
Qed.

Definition go_fin (s : Z * Z * Z) (k : Z) : Z * Z * Z :=
  let '(x, y, w) := s in (w, u32 (Z.lxor x y - rot y k), y).

Lemma final_rounds a b c :
  final a b c = snd (fst (fold_left go_fin [14; 11; 25; 16; 4; 14; 24] (c, b, a))).
Proof. reflexivity. Qed.

Lemma fin_rounds_spec l : forall s, w3 s -> Forall (fun k => 0 < k < 32) l ->
  fold_left go_fin l s = fold_left fin_round l s.
Proof.
  induction l as [|k l IH]; intros s Hs Hl; cbn [fold_left]; [reflexivity|].
  inversion Hl as [|? ? Hk Hl']; subst. destruct s as [[x y] w].
  destruct Hs as (Hx & Hy & Hw). cbn [fst snd] in *.
  unfold go_fin at 2, fin_round at 2. rewrite rot_rotl by assumption. apply IH; [|assumption].
  unfold w3; cbn [fst snd]. split; [exact Hw|]. split; [apply w32_mod|exact Hy].
Qed.

Lemma final_spec_ok a b c : w32 a -> w32 b -> w32 c -> final a b c = fin_spec (a, b, c).
Proof.
  intros. rewrite final_rounds, fin_rounds_spec.
  - unfold fin_spec. destruct (fold_left _ _ _) as [[? ?] ?]. reflexivity.
  - unfold w3; cbn [fst snd]; auto.
  - repeat (constructor; [lia|]). constructor.
Qed.

(** The words the Go code sees: whole words, then a zero-padded one *)
Definition all_words (d : bytes) : list Z :=
  let n := zlen d in
  let whole := words (Z.to_nat (n / 4)) d in
  if 0 <? n mod 4 then whole ++ [pad_word (zdrop (n - n mod 4) d)] else whole.

Lemma checksum_eq d : checksum d = hashInts (all_words d) (u32 (zlen d)).
Proof. reflexivity. Qed.

Lemma words_length n : forall d, List.length (words n d) = n.
Proof. induction n; intros d; cbn [words List.length]; [reflexivity|]. now rewrite IHn. Qed.

Lemma zlen_all_words d : zlen (all_words d) = (zlen d + 3) / 4.
Proof.
  unfold all_words. pose proof (zlen_nonneg d).
  destruct (0 <? zlen d mod 4) eqn:E.
  - rewrite zlen_app. unfold zlen at 1. rewrite words_length. rewrite zlen_cons, zlen_nil. lia.
  - unfold zlen at 1. rewrite words_length. lia.
Qed.

Lemma all_words_cons b0 b1 b2 b3 d :
  all_words (b0 :: b1 :: b2 :: b3 :: d) = of_le [b0; b1; b2; b3] :: all_words d.
Proof.
  unfold all_words. rewrite !zlen_cons. pose proof (zlen_nonneg d).
  replace ((1 + (1 + (1 + (1 + zlen d)))) mod 4) with (zlen d mod 4) by lia.
  replace (Z.to_nat ((1 + (1 + (1 + (1 + zlen d)))) / 4)) with (S (Z.to_nat (zlen d / 4))) by lia.
  cbn [words firstn skipn].
  destruct (0 <? zlen d mod 4) eqn:E; [|reflexivity].
  cbn [app]. do 4 f_equal.
  unfold zdrop.
  replace (Z.to_nat (1 + (1 + (1 + (1 + zlen d))) - zlen d mod 4))
    with (S (S (S (S (Z.to_nat (zlen d - zlen d mod 4)))))) by lia.
  reflexivity.
Qed.

Lemma all_words_1 x : all_words [x] = [pad_word [x]].
Proof. reflexivity. Qed.
Lemma all_words_2 x y : all_words [x; y] = [pad_word [x; y]].
Proof. reflexivity. Qed.
Lemma all_words_3 x y z : all_words [x; y; z] = [pad_word [x; y; z]].
Proof. reflexivity. Qed.

Lemma all_words_nil : all_words [] = [].
Proof. reflexivity. Qed.

Lemma of_le4 a b c d : of_le [a; b; c; d] = a + 2 ^ 8 * b + 2 ^ 16 * c + 2 ^ 24 * d.
Proof. cbn [of_le]. lia. Qed.

Lemma add_word a x0 x1 x2 x3 :
  u32 (a + of_le [x0; x1; x2; x3]) =
  (a + x0 * 2 ^ (8 * 0) + x1 * 2 ^ (8 * 1) + x2 * 2 ^ (8 * 2) + x3 * 2 ^ (8 * 3)) mod M32.
Proof.
  rewrite of_le4. unfold u32, M32. f_equal.
  change (2 ^ (8 * 0)) with 1. change (2 ^ (8 * 1)) with (2 ^ 8).
  change (2 ^ (8 * 2)) with (2 ^ 16). change (2 ^ (8 * 3)) with (2 ^ 24). lia.
Qed.

Lemma w32_zero a : w32 a -> (a + 0 + 0 + 0 + 0) mod M32 = a.
Proof. unfold w32. intros. rewrite !Z.add_0_r. apply Z.mod_small. exact H. Qed.

(** A list of more than twelve elements *)
Lemma long12 {A} (d : list A) : 12 < zlen d ->
  exists x0 x1 x2 x3 x4 x5 x6 x7 x8 x9 x10 x11 r,
  d = x0 :: x1 :: x2 :: x3 :: x4 :: x5 :: x6 :: x7 :: x8 :: x9 :: x10 :: x11 :: r /\ r <> [].
Proof.
  intros H.
  do 13 (destruct d as [|? d]; [rewrite ?zlen_cons, zlen_nil in H; exfalso; lia|]).
  do 13 eexists. split; [reflexivity|discriminate].
Qed.

Definition tail_hash (vals : list Z) (n a b c : Z) : res Z :=
  if 9 <=? n then
    match vals with
    | v0 :: v1 :: v2 :: _ => Ok (final (u32 (a + v0)) (u32 (b + v1)) (u32 (c + v2)))
    | _ => Panic
    end
  else if 5 <=? n then
    match vals with
    | v0 :: v1 :: _ => Ok (final (u32 (a + v0)) (u32 (b + v1)) c)
    | _ => Panic
    end
  else if 1 <=? n then
    match vals with
    | v0 :: _ => Ok (final (u32 (a + v0)) b c)
    | _ => Panic
    end
  else Ok c.

Definition hash_from (fuel : nat) (vals : list Z) (n a b c : Z) : res Z :=
  let* r := hash_loop fuel vals n a b c in
  let '(vals, n, (a, b, c)) := r in tail_hash vals n a b c.

Lemma hash_tail d a b c : w32 a -> w32 b -> w32 c -> 0 <= zlen d <= 12 ->
  tail_hash (all_words d) (zlen d) a b c =
  Ok (if zlen d =? 0 then c else fin_spec (add_block (a, b, c) d)).
Proof.
  intros Ha Hb Hc Hd.
  assert (W : forall x, w32 (u32 x)) by (intros; apply w32_mod).
  assert (Z0 : forall i x, x = 0 -> x * 2 ^ i = 0) by (intros; subst; apply Z.mul_0_l).
  destruct d as [|x0 [|x1 [|x2 [|x3 [|x4 [|x5 [|x6 [|x7 [|x8 [|x9 [|x10 [|x11 [|x12 d]]]]]]]]]]]]];
    try (rewrite !zlen_cons in Hd; pose proof (zlen_nonneg d); exfalso; lia);
    rewrite ?all_words_cons, ?all_words_nil, ?all_words_1, ?all_words_2, ?all_words_3.
  all: match goal with |- tail_hash _ ?n _ _ _ = _ =>
         let v := eval vm_compute in n in change n with v end.
  all: unfold tail_hash; cbn [Z.leb Z.compare Pos.compare Pos.compare_cont Z.eqb].
  1: reflexivity.
  all: f_equal; rewrite final_spec_ok by (assumption || apply W); f_equal;
    unfold add_block, at_byte, pad_word; cbn [nth];
    change (Z.of_nat (0 mod 4)) with 0; change (Z.of_nat (1 mod 4)) with 1;
    change (Z.of_nat (2 mod 4)) with 2; change (Z.of_nat (3 mod 4)) with 3;
    change (Z.of_nat (4 mod 4)) with 0; change (Z.of_nat (5 mod 4)) with 1;
    change (Z.of_nat (6 mod 4)) with 2; change (Z.of_nat (7 mod 4)) with 3;
    change (Z.of_nat (8 mod 4)) with 0; change (Z.of_nat (9 mod 4)) with 1;
    change (Z.of_nat (10 mod 4)) with 2; change (Z.of_nat (11 mod 4)) with 3;
    cbn [app List.length zrep repeat]; rewrite ?zlen_cons, ?zlen_nil;
    repeat match goal with |- context [zrep ?n 0] =>
      let v := eval vm_compute in (@zrep Z n 0) in change (@zrep Z n 0) with v end;
    cbn [app]; rewrite ?add_word, ?Z.mul_0_l; rewrite ?w32_zero by assumption; reflexivity.
Qed.

Lemma hash_from_spec fuel : forall d a b c f2, w32 a -> w32 b -> w32 c ->
  (List.length (all_words d) <= fuel)%nat -> (List.length d < f2)%nat ->
  hash_from fuel (all_words d) (zlen d) a b c = Ok (lookup3_from f2 (a, b, c) d).
Proof.
  induction fuel as [|fuel IH]; intros d a b c f2 Ha Hb Hc Hf H2; pose proof (zlen_nonneg d) as Hd.
  - destruct f2 as [|f2]; [lia|].
    assert (Hz : zlen d = 0) by (pose proof (zlen_all_words d); unfold zlen in *; lia).
    apply zlen_zero in Hz. subst d. reflexivity.
  - destruct f2 as [|f2]; [lia|]. unfold hash_from. cbn [hash_loop lookup3_from].
    destruct (zlen d <=? 12) eqn:E12.
    + cbn [rbind]. replace (12 <? zlen d) with false by lia. rewrite hash_tail by (assumption || lia).
      cbn [snd]. destruct (zlen d =? 0); reflexivity.
    + replace (12 <? zlen d) with true by lia.
      destruct (long12 d ltac:(lia)) as (x0&x1&x2&x3&x4&x5&x6&x7&x8&x9&x10&x11&r&->&Hr).
      rewrite !all_words_cons in Hf |- *. cbn [List.length] in Hf.
      rewrite !zlen_cons. cbn [firstn skipn].
      set (A := u32 (a + of_le [x0; x1; x2; x3])).
      set (B := u32 (b + of_le [x4; x5; x6; x7])).
      set (C := u32 (c + of_le [x8; x9; x10; x11])).
      destruct (mix_spec_ok A B C) as [EM WM]; [apply w32_mod|apply w32_mod|apply w32_mod|].
      assert (EB : add_block (a, b, c) [x0; x1; x2; x3; x4; x5; x6; x7; x8; x9; x10; x11] = (A, B, C)).
      { unfold add_block, at_byte, A, B, C. cbn [nth]. rewrite !add_word. reflexivity. }
      rewrite EB, <- EM. destruct (mix A B C) as [[a' b'] c'] eqn:EE.
      destruct WM as (Wa & Wb & Wc). cbn [fst snd] in *.
      match goal with |- context [hash_loop fuel _ ?n _ _ _] => replace n with (zlen r) by lia end.
      cbn [List.length] in H2.
      exact (IH r a' b' c' f2 Wa Wb Wc ltac:(lia) ltac:(lia)).
Qed.

Lemma hashInts_from vals n : hashInts vals n =
  let n := if n =? 0 then u32 (4 * zlen vals) else n in
  let a := u32 (0xdeadbeef + n) in hash_from (List.length vals) vals n a a a.
Proof.
  unfold hashInts, hash_from. cbv zeta. destruct (hash_loop _ _ _ _ _ _) as [[[? ?] [[? ?] ?]]| |]; reflexivity.
Qed.

Theorem checksum_lookup3 d : zlen d < 2 ^ 32 -> checksum d = Ok (lookup3 d).
Proof.
  intros H. rewrite checksum_eq, hashInts_from. cbv zeta. pose proof (zlen_nonneg d).
  assert (EN : (if u32 (zlen d) =? 0 then u32 (4 * zlen (all_words d)) else u32 (zlen d)) = zlen d).
  { unfold u32. rewrite Z.mod_small by lia. destruct (zlen d =? 0) eqn:E; [|reflexivity].
    rewrite zlen_all_words. replace (zlen d) with 0 by lia. reflexivity. }
  rewrite EN. unfold lookup3.
  apply hash_from_spec; try apply w32_mod; [apply le_n|lia].
Qed.

(** The hash never panics: enough words are there. *)
Lemma hash_loop_ok fuel : forall vals n a b c, n <= 4 * zlen vals -> (List.length vals <= fuel)%nat ->
  exists vals' n' s, hash_loop fuel vals n a b c = Ok (vals', n', s) /\ n' <= 12 /\ n' <= 4 * zlen vals'.
Proof.
  induction fuel as [|fuel IH]; intros vals n a b c H Hf; cbn [hash_loop].
  - destruct (n <=? 12) eqn:E; [do 3 eexists; split; [reflexivity|]; lia|].
    exfalso. unfold zlen in H. lia.
  - destruct (n <=? 12) eqn:E; [do 3 eexists; split; [reflexivity|]; lia|].
    destruct vals as [|v0 [|v1 [|v2 r]]]; rewrite ?zlen_cons, ?(@zlen_nil Z) in H; try (exfalso; lia).
    destruct (mix _ _ _) as [[? ?] ?]. apply IH; cbn [List.length] in Hf; lia.
Qed.

Lemma hashInts_ok vals n : n <= 4 * zlen vals -> exists h, hashInts vals n = Ok h.
Proof.
  intros H. rewrite hashInts_from. cbv zeta.
  set (n' := if n =? 0 then u32 (4 * zlen vals) else n). set (a := u32 _).
  assert (Hn : n' <= 4 * zlen vals).
  { unfold n'. destruct (n =? 0); [|exact H]. pose proof (zlen_nonneg vals). unfold u32. lia. }
  clearbody a n'. unfold hash_from.
  destruct (hash_loop_ok (List.length vals) vals n' a a a Hn (le_n _)) as (v & m & [[x y] z] & -> & Hm & Hv).
  cbn [rbind]. unfold tail_hash.
  destruct v as [|v0 [|v1 [|v2 r]]]; rewrite ?zlen_cons, ?(@zlen_nil Z) in Hv.
  - replace (9 <=? m) with false by lia. replace (5 <=? m) with false by lia.
    replace (1 <=? m) with false by lia. eexists; reflexivity.
  - replace (9 <=? m) with false by lia. replace (5 <=? m) with false by lia.
    destruct (1 <=? m); eexists; reflexivity.
  - replace (9 <=? m) with false by lia. destruct (5 <=? m); [|destruct (1 <=? m)]; eexists; reflexivity.
  - destruct (9 <=? m); [|destruct (5 <=? m); [|destruct (1 <=? m)]]; eexists; reflexivity.
Qed.

Lemma checksum_ok d : exists h, checksum d = Ok h.
Proof.
  rewrite checksum_eq. apply hashInts_ok. rewrite zlen_all_words. pose proof (zlen_nonneg d).
  unfold u32. lia.
Qed.

Lemma words_app n : forall d e, zlen d = 4 * Z.of_nat n -> words n (d ++ e) = words n d.
Proof.
  induction n as [|n IH]; intros d e H; [reflexivity|].
  destruct d as [|x0 [|x1 [|x2 [|x3 d]]]]; rewrite ?zlen_cons, ?(@zlen_nil Z) in H; try lia.
  cbn [words app firstn skipn]. f_equal. apply IH. lia.
Qed.

Lemma compute_stream d r : computeChecksumStream (zlen d) (d ++ r) = let* h := checksum d in Ok (h, r).
Proof.
  pose proof (zlen_nonneg d) as Hd. unfold computeChecksumStream, pbind, pret, rd.
  pose proof (zlen_nonneg r) as Hr. rewrite !zlen_app.
  replace (4 * (zlen d / 4) <=? zlen d + zlen r) with true by lia. cbn [rbind].
  rewrite ztake_app_l by lia. rewrite zdrop_app_l by lia.
  assert (EW : words (Z.to_nat (zlen d / 4)) (ztake (4 * (zlen d / 4)) d) = words (Z.to_nat (zlen d / 4)) d).
  { transitivity (words (Z.to_nat (zlen d / 4)) (ztake (4 * (zlen d / 4)) d ++ zdrop (4 * (zlen d / 4)) d)).
    - symmetry. apply words_app. rewrite zlen_ztake by lia. lia.
    - f_equal. apply ztake_zdrop. }
  rewrite EW, checksum_eq. unfold all_words.
  destruct (0 <? zlen d mod 4) eqn:E.
  - cbn [rbind]. rewrite zlen_app.
    replace (zlen d mod 4 <=? zlen (zdrop (4 * (zlen d / 4)) d) + zlen r) with true
      by (rewrite zlen_zdrop; lia).
    cbn [rbind].
    rewrite ztake_app_exact, zdrop_app_exact by (rewrite zlen_zdrop; lia).
    replace (zlen d - zlen d mod 4) with (4 * (zlen d / 4)) by lia. reflexivity.
  - cbn [rbind]. rewrite (zdrop_all _ d) by lia. reflexivity.
Qed.

Lemma newSeek_in f a n : 0 <= a -> 0 < n -> a + n <= zlen f -> zlen f < 2 ^ 63 ->
  newSeek f a n = Ok (ztake n (zdrop a f)).
Proof.
  intros Ha Hn H Hf. unfold newSeek. cbv zeta. rewrite (i64_small a), (i64_small (a + n)) by lia.
  replace (a + n <=? zlen f) with true by lia. replace (a <? 0) with false by lia.
  replace (n =? 0) with false by lia. reflexivity.
Qed.

Lemma read32_le z r : w32 z -> read32 (le 4 z ++ r) = Ok (z, r).
Proof.
  intros H. unfold read32, pbind, rd, pret. pose proof (zlen_nonneg r).
  rewrite zlen_app, zlen_le. replace (4 <=? Z.of_nat 4 + zlen r) with true by lia. cbn [rbind].
  rewrite ztake_app_exact, zdrop_app_exact by (rewrite zlen_le; reflexivity).
  rewrite of_le_le. change (256 ^ Z.of_nat 4) with M32. rewrite Z.mod_small by exact H. reflexivity.
Qed.

Lemma u32_w32 x : w32 (u32 x).
Proof. apply w32_mod. Qed.

Lemma hashInts_w32 vals n h : hashInts vals n = Ok h -> w32 h.
Proof.
  rewrite hashInts_from. cbv zeta.
  set (n' := if n =? 0 then _ else n). unfold hash_from.
  assert (L : forall fuel vals n a b c v m s, w32 a -> w32 b -> w32 c ->
    hash_loop fuel vals n a b c = Ok (v, m, s) -> w3 s).
  { clear. induction fuel as [|fuel IH]; intros vals n a b c v m s Ha Hb Hc; cbn [hash_loop].
    - destruct (n <=? 12); [|discriminate]. intros [= <- <- <-]. unfold w3; cbn [fst snd]; auto.
    - destruct (n <=? 12). { intros [= <- <- <-]. unfold w3; cbn [fst snd]; auto. }
      destruct vals as [|v0 [|v1 [|v2 r]]]; try discriminate.
      destruct (mix_spec_ok (u32 (a + v0)) (u32 (b + v1)) (u32 (c + v2))) as [_ W];
        try apply u32_w32.
      destruct (mix _ _ _) as [[a' b'] c']. destruct W as (? & ? & ?). apply IH; assumption. }
  destruct (hash_loop _ _ _ _ _ _) as [[[v m] s]| |] eqn:E; try discriminate.
  apply L in E; try apply u32_w32. destruct s as [[a b] c]. destruct E as (Wa & Wb & Wc). cbn [fst snd] in *.
  cbn [rbind]. unfold tail_hash.
  assert (F : forall a b c, w32 (final a b c)) by (intros; unfold final; apply u32_w32).
  destruct (9 <=? m); [|destruct (5 <=? m); [|destruct (1 <=? m)]].
  all: try (destruct v as [|v0 [|v1 [|v2 r]]]; try discriminate; intros [= <-]; first [apply F|assumption]).
Qed.

(** What checkChecksum does on a block anywhere in a file *)
Theorem check_block pre d s post : zlen (pre ++ d ++ le 4 s ++ post) < 2 ^ 63 -> w32 s ->
  checkChecksum (pre ++ d ++ le 4 s ++ post) (zlen pre) (zlen d) =
  let* h := checksum d in if h =? s then Ok tt else Err EInternal.
Proof.
  intros Hf Hs. unfold checkChecksum. rewrite !zlen_app, zlen_le in Hf.
  pose proof (zlen_nonneg pre). pose proof (zlen_nonneg d). pose proof (zlen_nonneg post).
  rewrite newSeek_in by (rewrite ?zlen_app, ?zlen_le; lia). cbn [rbind].
  rewrite zdrop_app_exact by reflexivity.
  rewrite app_assoc. rewrite ztake_app_exact by (rewrite zlen_app, zlen_le; lia).
  rewrite compute_stream. destruct (checksum_ok d) as [h Eh]. rewrite Eh. cbn [rbind].
  rewrite <- (app_nil_r (le 4 s)), read32_le by exact Hs. reflexivity.
Qed.
