(** Lemmas: a crash of the reader of headers has a place in the file. *)
From Coq Require Import Lia ZifyBool ZifyNat.
From Verif Require Import Prelude BaseLemmas GoVal OrderedMapModel ArraySpec CdfFormat CrashSpec CdfWriterModel CdfReaderModel CdfCodec.

Definition known_ver (ver : Z) : Prop := ver = 1 \/ ver = 2 \/ ver = 5.

Lemma uint_told k s x r : are_bytes s -> read_uint (Z.of_nat k) s = Ok (x, r) ->
  s = be k x ++ r /\ 0 <= x < 256 ^ Z.of_nat k /\ are_bytes r.
Proof.
  intros Hs. unfold read_uint. destruct (Z.ltb_spec (zlen s) (Z.of_nat k)) as [L|L]; [discriminate|].
  intros E. assert (Ex : of_be (ztake (Z.of_nat k) s) = x) by congruence. assert (Er : zdrop (Z.of_nat k) s = r) by congruence. clear E. subst x r.
  pose proof (ztake_zdrop (Z.of_nat k) s) as J. unfold are_bytes in Hs. rewrite <- J in Hs. apply Forall_app in Hs. destruct Hs as [H1 H2].
  assert (Ln : List.length (ztake (Z.of_nat k) s) = k).
  { pose proof (zlen_ztake (Z.of_nat k) s ltac:(lia) L) as Z1. unfold zlen in Z1. lia. }
  split; [|split; [|exact H2]].
  - pose proof (be_of_be _ H1) as B. rewrite Ln in B. rewrite B. symmetry. exact J.
  - pose proof (be_of_be _ H1) as B. rewrite Ln in B. pose proof (of_be_be k (of_be (ztake (Z.of_nat k) s))) as B2.
    rewrite B in B2. rewrite B2. apply Z.mod_pos_bound. apply Z.pow_pos_nonneg; lia.
Qed.
Lemma uint_calm n s : read_uint n s <> Panic.
Proof. unfold read_uint. destruct (zlen s <? n); discriminate. Qed.

Lemma word_told s x r : are_bytes s -> read32 s = Ok (x, r) -> s = be 4 x ++ r /\ 0 <= x < 2 ^ 32 /\ are_bytes r.
Proof. intros Hs E. exact (uint_told 4 s x r Hs E). Qed.
Lemma long_told s x r : are_bytes s -> read64 s = Ok (x, r) -> s = be 8 x ++ r /\ 0 <= x < 2 ^ 64 /\ are_bytes r.
Proof. intros Hs E. exact (uint_told 8 s x r Hs E). Qed.

Lemma number_told ver s x r : known_ver ver -> are_bytes s -> read_number ver s = Ok (x, r) ->
  exists n, number ver n /\ x = counted ver n /\ s = non_neg ver n ++ r /\ are_bytes r.
Proof.
  intros Hv Hs. unfold read_number, number, numbers, counted, non_neg. destruct (Z.ltb_spec ver 5) as [L|L].
  - destruct (read32 s) as [[n r']| |] eqn:E; cbn [rbind]; try discriminate. intros X.
    assert (Ex : u64 (i32 n) = x) by congruence. assert (Er : r' = r) by congruence. clear X. subst x r'.
    destruct (word_told _ _ _ Hs E) as (H1 & H2 & H3). exists n. replace (ver =? 5) with false by lia. cbn [orb].
    split; [exact H2|]. split; [|split; [exact H1|exact H3]].
    unfold i32, signed, u64. rewrite (Z.mod_small n) by lia. change (2 ^ (32 - 1)) with (2 ^ 31).
    destruct (Z.ltb_spec n (2 ^ 31)) as [A|A]; [rewrite Z.mod_small by lia; reflexivity|].
    replace (n - 2 ^ 32) with (n + (2 ^ 64 - 2 ^ 32) + (-1) * 2 ^ 64) by lia. rewrite Z_mod_plus_full. apply Z.mod_small. lia.
  - intros E. assert (ver = 5) as -> by (destruct Hv as [H|[H|H]]; lia). destruct (long_told _ _ _ Hs E) as (H1 & H2 & H3).
    exists x. cbn [Z.eqb Pos.eqb orb]. split; [exact H2|]. split; [reflexivity|]. split; [exact H1|exact H3].
Qed.
Lemma number_calm ver s : read_number ver s <> Panic.
Proof.
  unfold read_number. destruct (ver <? 5); [|apply uint_calm]. pose proof (uint_calm 4 s) as C. unfold read32.
  destruct (read_uint 4 s) as [[n r]| |]; cbn [rbind]; try discriminate. exact C.
Qed.
Lemma counted_range ver n : known_ver ver -> number ver n -> 0 <= counted ver n < 2 ^ 64.
Proof.
  unfold number, numbers, counted. intros Hv. destruct (Z.eqb_spec ver 5) as [->|N]; cbn [orb]; [lia|]. destruct (Z.ltb_spec n (2 ^ 31)); lia.
Qed.
Lemma counted_zero ver n : known_ver ver -> number ver n -> counted ver n = 0 -> n = 0.
Proof.
  unfold number, numbers, counted. intros Hv. destruct (Z.eqb_spec ver 5) as [->|N]; cbn [orb]; [lia|]. destruct (Z.ltb_spec n (2 ^ 31)); lia.
Qed.
(** Small numbers are what they are *)
Lemma counted_small ver n m : known_ver ver -> number ver n -> m <= 2 ^ 31 -> (counted ver n < m <-> n < m) /\ (n < m -> counted ver n = n).
Proof.
  unfold number, numbers, counted. intros Hv Hn Hm. destruct (Z.eqb_spec ver 5) as [->|N]; cbn [orb]; [lia|]. destruct (Z.ltb_spec n (2 ^ 31)); lia.
Qed.

Lemma pad_round n : pad_size n = round4 n.
Proof. unfold pad_size, round4. pose proof (Z.div_mod (n + 3) 4 ltac:(lia)). pose proof (Z.mod_pos_bound (n + 3) 4 ltac:(lia)). pose proof (Z.mod_pos_bound (- n) 4 ltac:(lia)). pose proof (Z.div_mod (- n) 4 ltac:(lia)). lia. Qed.
Lemma pad_more n : n <= pad_size n < n + 4.
Proof. rewrite pad_round. apply round4_bounds. Qed.

Lemma bytes_told n s b r : read_bytes n s = Ok (b, r) -> 0 <= n <= memory /\ s = b ++ r /\ zlen b = n.
Proof.
  unfold read_bytes, go_make, memory. destruct ((n <? 0) || (2 ^ 48 <? n * 1)) eqn:E; cbn [rbind]; [discriminate|].
  destruct (Z.ltb_spec (zlen s) n) as [L|L]; [discriminate|]. intros X. assert (Eb : ztake n s = b) by congruence. assert (Er : zdrop n s = r) by congruence.
  subst b r. split; [lia|]. split; [symmetry; apply ztake_zdrop|apply zlen_ztake; lia].
Qed.
Lemma bytes_crash n s : 0 <= n -> read_bytes n s = Panic -> memory < n.
Proof.
  intros Hn. unfold read_bytes, go_make, memory. destruct ((n <? 0) || (2 ^ 48 <? n * 1)) eqn:E; cbn [rbind]; [lia|].
  destruct (zlen s <? n); discriminate.
Qed.
Lemma nums_told k n s l r : read_nums k n s = Ok (l, r) -> 0 <= n /\ n * ksize k <= memory /\ exists b, s = b ++ r /\ zlen b = n * ksize k.
Proof.
  unfold read_nums, go_make, memory. destruct ((n <? 0) || (2 ^ 48 <? n * ksize k)) eqn:E; cbn [rbind]; [discriminate|].
  destruct (Z.ltb_spec (zlen s) (n * ksize k)) as [L|L]; [discriminate|]. intros X. assert (Er : zdrop (n * ksize k) s = r) by congruence. subst r.
  split; [lia|]. split; [lia|]. exists (ztake (n * ksize k) s). split; [symmetry; apply ztake_zdrop|].
  assert (0 <= n * ksize k) by (apply Z.mul_nonneg_nonneg; [lia|destruct k; cbn; lia]). apply zlen_ztake; lia.
Qed.
Lemma nums_crash k n s : 0 <= n -> read_nums k n s = Panic -> memory < n * ksize k.
Proof.
  intros Hn. unfold read_nums, go_make, memory. destruct ((n <? 0) || (2 ^ 48 <? n * ksize k)) eqn:E; cbn [rbind]; [lia|].
  destruct (zlen s <? n * ksize k); discriminate.
Qed.
Lemma pad_told n s r : read_pad n s = Ok (tt, r) -> exists b, s = b ++ r /\ zlen b = pad_size n - n.
Proof.
  unfold read_pad. cbv zeta. rewrite <- pad_round. pose proof (pad_more n) as P. destruct (Z.ltb_spec (zlen s) (pad_size n - n)) as [L|L]; [discriminate|].
  intros X. assert (Er : zdrop (pad_size n - n) s = r) by congruence. subst r. exists (ztake (pad_size n - n) s).
  split; [symmetry; apply ztake_zdrop|apply zlen_ztake; lia].
Qed.
Lemma pad_calm n s : read_pad n s <> Panic.
Proof. unfold read_pad. cbv zeta. destruct (zlen s <? round4 n - n); discriminate. Qed.

Lemma scan_calm b : forall n, n <= zlen b -> name_scan b n <> Panic.
Proof.
  induction b as [|c b IH]; intros n Hn; cbn [name_scan].
  - change (zlen (@nil Z)) with 0 in Hn. replace (n <=? 0) with true by lia. discriminate.
  - rewrite zlen_cons in Hn. destruct (n <=? 0); [discriminate|]. destruct (c =? 0); [discriminate|].
    specialize (IH (n - 1) ltac:(lia)). destruct (name_scan b (n - 1)); cbn [rbind]; try discriminate. exact IH.
Qed.
Lemma round_pad n : 0 <= n < 2 ^ 64 -> round32 n = pad_size n /\ n <= 2 ^ 64 - 4 \/ round32 n = 0 /\ 2 ^ 64 - 4 < n.
Proof.
  intros H. rewrite pad_round. unfold round32, round4, u64. cbv zeta. destruct (Z_le_gt_dec n (2 ^ 64 - 4)) as [L|L].
  - left. split; [|exact L]. rewrite (Z.mod_small (n + 3)) by lia. pose proof (Z.div_mod (n + 3) 4 ltac:(lia)). lia.
  - right. split; [|lia]. assert (E : n = 2 ^ 64 - 3 \/ n = 2 ^ 64 - 2 \/ n = 2 ^ 64 - 1) by lia. destruct E as [->|[->| ->]]; reflexivity.
Qed.
Lemma name_told ver s nm r : known_ver ver -> are_bytes s -> read_name ver s = Ok (nm, r) ->
  exists b, any_name ver b /\ s = b ++ r /\ are_bytes r.
Proof.
  intros Hv Hs. unfold read_name. destruct (read_number ver s) as [[n s1]| |] eqn:E1; cbn [rbind]; try discriminate.
  destruct (number_told _ _ _ _ Hv Hs E1) as (m & Hm & -> & Es & Hs1).
  destruct (read_bytes (round32 (counted ver m)) s1) as [[b s2]| |] eqn:E2; cbn [rbind]; try discriminate.
  destruct (bytes_told _ _ _ _ E2) as (B1 & B2 & B3).
  destruct (name_scan b (counted ver m)) as [nm'| |] eqn:E3; cbn [rbind]; try discriminate. intros X. assert (Er : s2 = r) by congruence. subst s2.
  pose proof (counted_range ver m Hv Hm) as Cr.
  destruct (round_pad _ Cr) as [[R1 R2]|[R1 R2]].
  - exists (non_neg ver m ++ b). split; [|split].
    + exists m, b. split; [exact Hm|]. split; [lia|]. split; [lia|reflexivity].
    + rewrite Es, B2, app_assoc. reflexivity.
    + unfold are_bytes in Hs1. rewrite B2 in Hs1. apply Forall_app in Hs1. apply Hs1.
  - exfalso. rewrite R1 in B3. destruct b as [|c b]; [|rewrite zlen_cons in B3; pose proof (zlen_nonneg b); lia].
    cbn [name_scan] in E3. replace (counted ver m <=? 0) with false in E3 by lia. discriminate.
Qed.
Lemma name_crash ver s : known_ver ver -> are_bytes s -> read_name ver s = Panic -> long_name ver s.
Proof.
  intros Hv Hs. unfold read_name. destruct (read_number ver s) as [[n s1]| |] eqn:E1; cbn [rbind]; try discriminate;
    [|intros _; destruct (number_calm _ _ E1)].
  destruct (number_told _ _ _ _ Hv Hs E1) as (m & Hm & -> & Es & Hs1). pose proof (counted_range ver m Hv Hm) as Cr.
  intros X. exists m, s1. split; [exact Hm|]. split; [|exact Es].
  pose proof (pad_more (counted ver m)) as PM.
  destruct (round_pad _ Cr) as [[R1 R2]|[R1 R2]]; [|unfold memory; lia].
  destruct (read_bytes (round32 (counted ver m)) s1) as [[b s2]| |] eqn:E2; cbn [rbind] in X; try discriminate.
  - exfalso. destruct (bytes_told _ _ _ _ E2) as (B1 & B2 & B3). pose proof (scan_calm b (counted ver m) ltac:(lia)) as C.
    destruct (name_scan b (counted ver m)); cbn [rbind] in X; [discriminate|discriminate|]. apply C. reflexivity.
  - rewrite <- R1. apply (bytes_crash _ s1); [lia|exact E2].
Qed.

Lemma code_told vt t : ty_of_code vt = Some t -> exists e, vt = type_code e /\ elt_size e = match t with TChar => 1 | TNum k => ksize k end.
Proof.
  intros H. destruct (Z_le_gt_dec vt 0) as [L|L]; [exfalso; destruct vt; cbn in H; discriminate || lia|].
  destruct (Z_le_gt_dec vt 11) as [L2|L2].
  - assert (C : vt = 1 \/ vt = 2 \/ vt = 3 \/ vt = 4 \/ vt = 5 \/ vt = 6 \/ vt = 7 \/ vt = 8 \/ vt = 9 \/ vt = 10 \/ vt = 11) by lia.
    repeat (destruct C as [->|C]; [injection H as <-; first
      [exists EChar; split; reflexivity|exists (ENum I8); split; reflexivity|exists (ENum I16); split; reflexivity|exists (ENum I32); split; reflexivity
      |exists (ENum F32); split; reflexivity|exists (ENum F64); split; reflexivity|exists (ENum U8); split; reflexivity|exists (ENum U16); split; reflexivity
      |exists (ENum U32); split; reflexivity|exists (ENum I64); split; reflexivity]|]). subst vt. injection H as <-. exists (ENum U64). split; reflexivity.
  - exfalso. destruct vt as [|p|p]; try lia. do 4 (destruct p as [p|p|]; try lia; cbn in H; try discriminate).
Qed.

Lemma att_told ver s a r : known_ver ver -> are_bytes s -> get_attr ver s = Ok (a, r) -> exists b, any_att ver b /\ s = b ++ r /\ are_bytes r.
Proof.
  intros Hv Hs. unfold get_attr. destruct (read_name ver s) as [[nm s1]| |] eqn:E1; cbn [rbind]; try discriminate.
  destruct (name_told _ _ _ _ Hv Hs E1) as (b1 & N1 & -> & H1).
  destruct (read32 s1) as [[vt s2]| |] eqn:E2; cbn [rbind]; try discriminate. destruct (word_told _ _ _ H1 E2) as (-> & _ & H2).
  destruct (read_number ver s2) as [[n s3]| |] eqn:E3; cbn [rbind]; try discriminate.
  destruct (number_told _ _ _ _ Hv H2 E3) as (m & Hm & -> & -> & H3).
  destruct (ty_of_code vt) as [t|] eqn:Et; [|discriminate]. destruct (code_told _ _ Et) as (e & -> & Ee).
  assert (Fin : forall p q r', s3 = (p ++ q) ++ r' -> zlen p = counted ver m * elt_size e -> zlen q = pad_size (counted ver m * elt_size e) - counted ver m * elt_size e ->
            counted ver m * elt_size e <= memory -> r' = r ->
            exists b, any_att ver b /\ b1 ++ be 4 (type_code e) ++ non_neg ver m ++ s3 = b ++ r /\ are_bytes r).
  { intros p q r' Es Hp Hq Hmem ->. exists (b1 ++ be 4 (type_code e) ++ non_neg ver m ++ p ++ q). split; [|split].
    - exists b1, e, m, (p ++ q). split; [exact N1|]. split; [exact Hm|]. split; [rewrite zlen_app; lia|]. split; [exact Hmem|reflexivity].
    - rewrite Es, <- !app_assoc. reflexivity.
    - unfold are_bytes in H3. rewrite Es in H3. apply Forall_app in H3. apply H3. }
  destruct t as [|k]; cycle 1.
  - destruct (check_version ver k); cbn [rbind]; try discriminate.
    destruct (read_nums k (counted ver m) s3) as [[zs s4]| |] eqn:E4; cbn [rbind]; try discriminate.
    destruct (nums_told _ _ _ _ _ E4) as (_ & L4 & p & Ep & Lp).
    destruct (read_pad (counted ver m * ksize k) s4) as [[[] s5]| |] eqn:E5; cbn [rbind]; try discriminate.
    destruct (pad_told _ _ _ E5) as (q & Eq & Lq). intros X. assert (Er : s5 = r) by congruence.
    rewrite Ee in Fin. apply (Fin p q s5); [rewrite Ep, Eq, app_assoc; reflexivity|exact Lp|exact Lq|exact L4|exact Er].
  - destruct (read_bytes (counted ver m) s3) as [[p s4]| |] eqn:E4; cbn [rbind]; try discriminate.
    destruct (bytes_told _ _ _ _ E4) as (L4 & Ep & Lp).
    destruct (read_pad (counted ver m) s4) as [[[] s5]| |] eqn:E5; cbn [rbind]; try discriminate.
    destruct (pad_told _ _ _ E5) as (q & Eq & Lq). intros X. assert (Er : s5 = r) by congruence.
    rewrite Ee, Z.mul_1_r in Fin. apply (Fin p q s5); [rewrite Ep, Eq, app_assoc; reflexivity|exact Lp|exact Lq|lia|exact Er].
Qed.
Lemma att_crash ver s : known_ver ver -> are_bytes s -> get_attr ver s = Panic -> long_att ver s.
Proof.
  intros Hv Hs. unfold get_attr. destruct (read_name ver s) as [[nm s1]| |] eqn:E1; cbn [rbind]; try discriminate;
    [|intros _; left; exact (name_crash _ _ Hv Hs E1)].
  destruct (name_told _ _ _ _ Hv Hs E1) as (b1 & N1 & -> & H1).
  destruct (read32 s1) as [[vt s2]| |] eqn:E2; cbn [rbind]; try discriminate; [|intros _; destruct (uint_calm _ _ E2)].
  destruct (word_told _ _ _ H1 E2) as (-> & _ & H2).
  destruct (read_number ver s2) as [[n s3]| |] eqn:E3; cbn [rbind]; try discriminate; [|intros _; destruct (number_calm _ _ E3)].
  destruct (number_told _ _ _ _ Hv H2 E3) as (m & Hm & -> & -> & H3). pose proof (counted_range ver m Hv Hm) as Cr.
  destruct (ty_of_code vt) as [t|] eqn:Et; [|discriminate]. destruct (code_told _ _ Et) as (e & -> & Ee).
  intros X. right. exists b1, e, m, s3. split; [exact N1|]. split; [exact Hm|]. split; [|reflexivity]. rewrite Ee.
  destruct t as [|k]; cycle 1.
  - destruct (check_version ver k) eqn:Ec; cbn [rbind] in X; try discriminate.
    + destruct (read_nums k (counted ver m) s3) as [[zs s4]| |] eqn:E4; cbn [rbind] in X; try discriminate.
      * exfalso. pose proof (pad_calm (counted ver m * ksize k) s4) as C. destruct (read_pad (counted ver m * ksize k) s4) as [[[] s5]| |]; cbn [rbind] in X; try discriminate. apply C. reflexivity.
      * apply (nums_crash k _ s3); [lia|exact E4].
    + exfalso. unfold check_version in Ec. destruct (v5kind k && (ver <? 5)); discriminate.
  - destruct (read_bytes (counted ver m) s3) as [[p s4]| |] eqn:E4; cbn [rbind] in X; try discriminate.
    + exfalso. pose proof (pad_calm (counted ver m) s4) as C. destruct (read_pad (counted ver m) s4) as [[[] s5]| |]; cbn [rbind] in X; try discriminate. apply C. reflexivity.
    + rewrite Z.mul_1_r. apply (bytes_crash _ s3); [lia|exact E4].
Qed.

Lemma nelems_told ver tag s n r : known_ver ver -> 0 < tag -> are_bytes s -> get_nelems ver tag s = Ok (n, r) ->
  exists t k, (t = tag \/ t = 0 /\ k = 0) /\ number ver k /\ n = counted ver k /\ s = be 4 t ++ non_neg ver k ++ r /\ are_bytes r.
Proof.
  intros Hv Ht Hs. unfold get_nelems. destruct (read32 s) as [[ft s1]| |] eqn:E1; cbn [rbind]; try discriminate.
  destruct (word_told _ _ _ Hs E1) as (-> & _ & H1). destruct (read_number ver s1) as [[m s2]| |] eqn:E2; cbn [rbind]; try discriminate.
  destruct (number_told _ _ _ _ Hv H1 E2) as (k & Hk & -> & -> & H2).
  intros X. exists ft, k. destruct (Z.eqb_spec ft 0) as [F0|F0].
  - destruct (Z.eqb_spec (counted ver k) 0) as [C0|C0]; [|discriminate]. pose proof (counted_zero ver k Hv Hk C0) as K0.
    split; [right; split; assumption|]. split; [exact Hk|]. split; [congruence|]. assert (E : s2 = r) by congruence. subst s2. split; [reflexivity|exact H2].
  - destruct (Z.eqb_spec ft tag) as [F|F]; [|discriminate]. split; [left; exact F|]. split; [exact Hk|]. split; [congruence|].
    assert (E : s2 = r) by congruence. subst s2. split; [reflexivity|exact H2].
Qed.
Lemma nelems_calm ver tag s : get_nelems ver tag s <> Panic.
Proof.
  unfold get_nelems. pose proof (uint_calm 4 s) as C. unfold read32. destruct (read_uint 4 s) as [[ft s1]| |]; cbn [rbind]; try discriminate; [|exact C].
  pose proof (number_calm ver s1) as C1. destruct (read_number ver s1) as [[m s2]| |]; cbn [rbind]; try discriminate; [|exact C1].
  destruct (ft =? 0); [destruct (m =? 0); discriminate|]. destruct (ft =? tag); discriminate.
Qed.

Lemma atts_loop_told ver : known_ver ver -> forall fuel n s l r, are_bytes s -> get_attrs_loop ver fuel n s = Ok (l, r) ->
  exists bs, Forall (any_att ver) bs /\ zlen bs = Z.max 0 n /\ s = List.concat bs ++ r /\ are_bytes r.
Proof.
  intros Hv. induction fuel as [|fu IH]; intros n s l r Hs; cbn [get_attrs_loop]; (destruct (Z.leb_spec n 0) as [L|L];
    [intros X; assert (E : s = r) by congruence; subst r; exists []; split; [constructor|]; split; [change (zlen (@nil bytes)) with 0; lia|]; split; [reflexivity|exact Hs]|]); [discriminate|].
  destruct (get_attr ver s) as [[a s1]| |] eqn:E1; cbn [rbind]; try discriminate. destruct (att_told _ _ _ _ Hv Hs E1) as (b & Hb & -> & H1).
  destruct (get_attrs_loop ver fu (n - 1) s1) as [[l' s2]| |] eqn:E2; cbn [rbind]; try discriminate. intros X. assert (E : s2 = r) by congruence. subst s2.
  destruct (IH _ _ _ _ H1 E2) as (bl & F & Z1 & -> & H2). exists (b :: bl). split; [constructor; assumption|]. split; [rewrite zlen_cons; lia|].
  split; [cbn [List.concat]; rewrite app_assoc; reflexivity|exact H2].
Qed.
Lemma atts_loop_crash ver : known_ver ver -> forall fuel n s, are_bytes s -> get_attrs_loop ver fuel n s = Panic ->
  exists bs rest, Forall (any_att ver) bs /\ zlen bs < n /\ s = List.concat bs ++ rest /\ long_att ver rest.
Proof.
  intros Hv. induction fuel as [|fu IH]; intros n s Hs; cbn [get_attrs_loop]; (destruct (Z.leb_spec n 0) as [L|L]; [discriminate|]); [discriminate|].
  destruct (get_attr ver s) as [[a s1]| |] eqn:E1; cbn [rbind]; try discriminate.
  - destruct (att_told _ _ _ _ Hv Hs E1) as (b & Hb & -> & H1).
    destruct (get_attrs_loop ver fu (n - 1) s1) as [[l' s2]| |] eqn:E2; cbn [rbind]; try discriminate. intros _.
    destruct (IH _ _ H1 E2) as (bl & rest & F & Z1 & -> & H2). exists (b :: bl), rest. split; [constructor; assumption|]. split; [rewrite zlen_cons; lia|].
    split; [cbn [List.concat]; rewrite app_assoc; reflexivity|exact H2].
  - intros _. exists [], s. split; [constructor|]. split; [exact L|]. split; [reflexivity|exact (att_crash _ _ Hv Hs E1)].
Qed.
Lemma atts_told ver s m r : known_ver ver -> are_bytes s -> get_attr_list ver s = Ok (m, r) -> exists b, any_atts ver b /\ s = b ++ r /\ are_bytes r.
Proof.
  intros Hv Hs. unfold get_attr_list. destruct (get_nelems ver fieldAttribute s) as [[n s1]| |] eqn:E1; cbn [rbind]; try discriminate.
  destruct (nelems_told ver 12 _ _ _ Hv ltac:(lia) Hs E1) as (t & k & Ht & Hk & -> & -> & H1).
  destruct (get_attrs_loop ver (S (List.length s1)) (counted ver k) s1) as [[l s2]| |] eqn:E2; cbn [rbind]; try discriminate.
  destruct (atts_loop_told ver Hv _ _ _ _ _ H1 E2) as (bl & F & Z1 & Ec & H2).
  destruct (new_ordered_map (map fst l) (build_map l)); cbn [rbind]; try discriminate. intros X. assert (E : s2 = r) by congruence. subst s2.
  pose proof (counted_range ver k Hv Hk). exists (be 4 t ++ non_neg ver k ++ List.concat bl). split; [|split; [|exact H2]].
  - exists t, k, bl. split; [exact Ht|]. split; [exact Hk|]. split; [exact F|]. split; [lia|reflexivity].
  - rewrite Ec, <- !app_assoc. reflexivity.
Qed.
Lemma atts_crash ver s : known_ver ver -> are_bytes s -> get_attr_list ver s = Panic -> bad_atts ver s.
Proof.
  intros Hv Hs. unfold get_attr_list. destruct (get_nelems ver fieldAttribute s) as [[n s1]| |] eqn:E1; cbn [rbind]; try discriminate;
    [|intros _; destruct (nelems_calm _ _ _ E1)].
  destruct (nelems_told ver 12 _ _ _ Hv ltac:(lia) Hs E1) as (t & k & Ht & Hk & -> & -> & H1).
  destruct (get_attrs_loop ver (S (List.length s1)) (counted ver k) s1) as [[l s2]| |] eqn:E2; cbn [rbind]; try discriminate.
  - intros X. exfalso. unfold new_ordered_map in X. destruct (negb (zlen (map fst l) =? zlen (build_map l))); [discriminate|].
    destruct (negb (keys_eqb (bsort (map fst (build_map l))) (bsort (map fst l)))); discriminate.
  - intros _. destruct (atts_loop_crash ver Hv _ _ _ H1 E2) as (bl & rest & F & Z1 & Ec & Hl). pose proof (zlen_nonneg bl) as ZN.
    assert (t = 12) as -> by (destruct Ht as [Ht|[_ K0]]; [exact Ht|exfalso; subst k; unfold counted in Z1; cbn in Z1; destruct (ver =? 5); cbn in Z1; lia]).
    exists k, bl, rest. split; [exact Hk|]. split; [exact F|]. split; [exact Z1|]. split; [exact Hl|]. rewrite Ec. reflexivity.
Qed.

Lemma dims_told ver : known_ver ver -> forall n s l r, are_bytes s -> get_dims ver n s = Ok (l, r) ->
  exists bs, Forall2 (any_dim ver) (map d_len l) bs /\ List.length l = n /\ s = List.concat bs ++ r /\ are_bytes r.
Proof.
  intros Hv. induction n as [|n IH]; intros s l r Hs; cbn [get_dims].
  { intros X. assert (E : s = r) by congruence. assert (El : [] = l) by congruence. subst r l. exists []. split; [constructor|]. split; [reflexivity|]. split; [reflexivity|exact Hs]. }
  destruct (read_name ver s) as [[nm s1]| |] eqn:E1; cbn [rbind]; try discriminate. destruct (name_told _ _ _ _ Hv Hs E1) as (b & Hb & -> & H1).
  destruct (read_number ver s1) as [[len s2]| |] eqn:E2; cbn [rbind]; try discriminate.
  destruct (number_told _ _ _ _ Hv H1 E2) as (m & Hm & -> & -> & H2).
  destruct (get_dims ver n s2) as [[l' s3]| |] eqn:E3; cbn [rbind]; try discriminate. intros X.
  assert (E : s3 = r) by congruence. assert (El : mkDim nm (counted ver m) :: l' = l) by congruence. subst s3 l.
  destruct (IH _ _ _ H2 E3) as (bl & F & Ln & Ec & H3). exists ((b ++ non_neg ver m) :: bl). cbn [map d_len List.length List.concat].
  split; [constructor; [|exact F]; exists b, m; split; [exact Hb|]; split; [exact Hm|]; split; reflexivity|]. split; [lia|].
  split; [rewrite Ec, <- !app_assoc; reflexivity|exact H3].
Qed.
Lemma dims_crash ver : known_ver ver -> forall n s, are_bytes s -> get_dims ver n s = Panic ->
  exists lens bs rest, Forall2 (any_dim ver) lens bs /\ zlen bs < Z.of_nat n /\ s = List.concat bs ++ rest /\ long_name ver rest.
Proof.
  intros Hv. induction n as [|n IH]; intros s Hs; cbn [get_dims]; [discriminate|].
  destruct (read_name ver s) as [[nm s1]| |] eqn:E1; cbn [rbind]; try discriminate;
    [|intros _; exists [], [], s; split; [constructor|]; split; [change (zlen (@nil bytes)) with 0; lia|]; split; [reflexivity|exact (name_crash _ _ Hv Hs E1)]].
  destruct (name_told _ _ _ _ Hv Hs E1) as (b & Hb & -> & H1).
  destruct (read_number ver s1) as [[len s2]| |] eqn:E2; cbn [rbind]; try discriminate; [|intros _; destruct (number_calm _ _ E2)].
  destruct (number_told _ _ _ _ Hv H1 E2) as (m & Hm & -> & -> & H2).
  destruct (get_dims ver n s2) as [[l' s3]| |] eqn:E3; cbn [rbind]; try discriminate. intros _.
  destruct (IH _ H2 E3) as (lens & bl & rest & F & Ln & Ec & H3). exists (counted ver m :: lens), ((b ++ non_neg ver m) :: bl), rest. cbn [List.concat].
  split; [constructor; [|exact F]; exists b, m; split; [exact Hb|]; split; [exact Hm|]; split; reflexivity|]. split; [rewrite zlen_cons; lia|].
  split; [rewrite Ec, <- !app_assoc; reflexivity|exact H3].
Qed.

Lemma numbers_told ver : known_ver ver -> forall n s l r, are_bytes s -> read_numbers ver n s = Ok (l, r) ->
  exists ids, Forall (number ver) ids /\ List.length ids = n /\ l = map (counted ver) ids /\ s = flat_map (non_neg ver) ids ++ r /\ are_bytes r.
Proof.
  intros Hv. induction n as [|n IH]; intros s l r Hs; cbn [read_numbers].
  { intros X. assert (E : s = r) by congruence. assert (El : [] = l) by congruence. subst r l. exists []. split; [constructor|]. split; [reflexivity|]. split; [reflexivity|]. split; [reflexivity|exact Hs]. }
  destruct (read_number ver s) as [[x s1]| |] eqn:E1; cbn [rbind]; try discriminate. destruct (number_told _ _ _ _ Hv Hs E1) as (m & Hm & -> & -> & H1).
  destruct (read_numbers ver n s1) as [[l' s2]| |] eqn:E2; cbn [rbind]; try discriminate. intros X.
  assert (E : s2 = r) by congruence. assert (El : counted ver m :: l' = l) by congruence. subst s2 l.
  destruct (IH _ _ _ H1 E2) as (ids & F & Ln & -> & -> & H2). exists (m :: ids). cbn [map List.length flat_map].
  split; [constructor; assumption|]. split; [lia|]. split; [reflexivity|]. split; [rewrite <- !app_assoc; reflexivity|exact H2].
Qed.
Lemma numbers_calm ver : forall n s, read_numbers ver n s <> Panic.
Proof.
  induction n as [|n IH]; intros s; cbn [read_numbers]; [discriminate|]. pose proof (number_calm ver s) as C.
  destruct (read_number ver s) as [[x s1]| |]; cbn [rbind]; try discriminate; [|contradiction]. specialize (IH s1).
  destruct (read_numbers ver n s1) as [[l s2]| |]; cbn [rbind]; try discriminate. exact IH.
Qed.

(** Dimension ids *)
Lemma dim_at_crash ver dims i : known_ver ver -> zlen dims <= 1024 -> number ver i -> dim_at dims (counted ver i) = Panic -> zlen dims <= i.
Proof.
  intros Hv Hd Hi. destruct (counted_small ver i (zlen dims) Hv Hi ltac:(lia)) as [C1 C2]. unfold dim_at.
  destruct (Z.ltb_spec (counted ver i) (zlen dims)) as [L|L]; [|lia]. intros X. exfalso.
  assert (E : nth_error dims (Z.to_nat (counted ver i)) = None) by (destruct (nth_error dims (Z.to_nat (counted ver i))); [discriminate|reflexivity]).
  apply nth_error_None in E. pose proof (counted_range ver i Hv Hi). unfold zlen in L. lia.
Qed.
Lemma dim_at_told ver dims i d : known_ver ver -> zlen dims <= 1024 -> number ver i -> dim_at dims (counted ver i) = Ok d ->
  nth_error (map d_len dims) (Z.to_nat i) = Some (d_len d).
Proof.
  intros Hv Hd Hi. destruct (counted_small ver i (zlen dims) Hv Hi ltac:(lia)) as [C1 C2]. unfold dim_at.
  destruct (Z.ltb_spec (counted ver i) (zlen dims)) as [L|L]; [|discriminate]. rewrite C2 by lia.
  destruct (nth_error dims (Z.to_nat i)) as [d'|] eqn:E; [|discriminate]. intros X. assert (d' = d) as -> by congruence.
  rewrite nth_error_map, E. reflexivity.
Qed.
Lemma prod_crash ver dims ids : known_ver ver -> zlen dims <= 1024 -> Forall (number ver) ids -> forall acc,
  dims_prod dims (map (counted ver) ids) acc = Panic -> Exists (fun j => zlen dims <= j) ids.
Proof.
  intros Hv Hd. induction 1 as [|i ids Hi _ IH]; intros acc; cbn [map dims_prod]; [discriminate|].
  destruct (dim_at dims (counted ver i)) as [d| |] eqn:E; cbn [rbind]; try discriminate.
  - intros X. right. exact (IH _ X).
  - intros _. left. exact (dim_at_crash ver dims i Hv Hd Hi E).
Qed.

Lemma var_told ver dims rs s v rs' r : known_ver ver -> are_bytes s -> get_var ver dims rs s = Ok ((v, rs'), r) ->
  exists b, any_var ver b /\ s = b ++ r /\ are_bytes r /\ has_unlimited dims (v_ids v) <> Panic.
Proof.
  intros Hv Hs. unfold get_var. destruct (read_name ver s) as [[nm s1]| |] eqn:E1; cbn [rbind]; try discriminate.
  destruct (name_told _ _ _ _ Hv Hs E1) as (b & Hb & -> & H1).
  destruct (read_number ver s1) as [[nd s2]| |] eqn:E2; cbn [rbind]; try discriminate.
  destruct (number_told _ _ _ _ Hv H1 E2) as (m & Hm & -> & -> & H2).
  destruct (Z.ltb_spec maxDimensions (counted ver m)) as [L|L]; [discriminate|]. unfold maxDimensions in L.
  destruct (read_numbers ver (Z.to_nat (counted ver m)) s2) as [[l s3]| |] eqn:E3; cbn [rbind]; try discriminate.
  destruct (numbers_told ver Hv _ _ _ _ H2 E3) as (ids & F & Ln & -> & -> & H3).
  destruct (get_attr_list ver s3) as [[at_ s4]| |] eqn:E4; cbn [rbind]; try discriminate. destruct (atts_told _ _ _ _ Hv H3 E4) as (a & Ha & -> & H4).
  destruct (read32 s4) as [[vt s5]| |] eqn:E5; cbn [rbind]; try discriminate. destruct (word_told _ _ _ H4 E5) as (-> & Ht & H5).
  destruct (read_number ver s5) as [[vs s6]| |] eqn:E6; cbn [rbind]; try discriminate.
  destruct (number_told _ _ _ _ Hv H5 E6) as (sz & Hsz & -> & -> & H6).
  destruct (has_unlimited dims (map (counted ver) ids)) as [unl| |] eqn:E7; cbn [rbind]; try discriminate.
  match goal with |- context [rbind ?x _] => destruct x as [[used rsz]| |]; cbn [rbind]; try discriminate end.
  match goal with |- context [rbind ?x _] => destruct x as [[off s7]| |] eqn:E8; cbn [rbind]; try discriminate end.
  intros X. assert (Er : s7 = r) by congruence. assert (Ev : map (counted ver) ids = v_ids v) by (injection X as X1 _ _; rewrite <- X1; reflexivity). subst s7.
  assert (Eo : s6 = offs ver off ++ r /\ are_bytes r).
  { unfold offs. destruct (ver =? 1).
    - destruct (word_told _ _ _ H6 E8) as (-> & _ & H7). split; [reflexivity|exact H7].
    - destruct (long_told _ _ _ H6 E8) as (-> & _ & H7). split; [reflexivity|exact H7]. }
  destruct Eo as [Eo H7].
  destruct (counted_small ver m 1025 Hv Hm ltac:(lia)) as [C1 C2]. assert (Cm : counted ver m = m) by (apply C2; lia). rewrite Cm in Ln, L. clear C1 C2.
  assert (Em : zlen ids = m) by (unfold zlen; unfold number in Hm; lia).
  exists (b ++ non_neg ver m ++ flat_map (non_neg ver) ids ++ a ++ be 4 vt ++ non_neg ver sz ++ offs ver off).
  split; [|split; [rewrite Eo, <- !app_assoc; reflexivity|split; [exact H7|rewrite <- Ev, E7; discriminate]]].
  exists b, ids, a, vt, sz, off. split; [exact Hb|]. split; [lia|]. split; [exact F|]. split; [exact Ha|]. split; [exact Ht|]. split; [exact Hsz|].
  rewrite Em. reflexivity.
Qed.
Lemma var_crash ver dims rs s : known_ver ver -> zlen dims <= 1024 -> are_bytes s -> get_var ver dims rs s = Panic -> bad_var ver (map d_len dims) s.
Proof.
  intros Hv Hd Hs. unfold get_var. destruct (read_name ver s) as [[nm s1]| |] eqn:E1; cbn [rbind]; try discriminate;
    [|intros _; left; exact (name_crash _ _ Hv Hs E1)].
  destruct (name_told _ _ _ _ Hv Hs E1) as (b & Hb & -> & H1).
  destruct (read_number ver s1) as [[nd s2]| |] eqn:E2; cbn [rbind]; try discriminate; [|intros _; destruct (number_calm _ _ E2)].
  destruct (number_told _ _ _ _ Hv H1 E2) as (m & Hm & -> & -> & H2).
  destruct (Z.ltb_spec maxDimensions (counted ver m)) as [L|L]; [discriminate|]. unfold maxDimensions in L.
  destruct (read_numbers ver (Z.to_nat (counted ver m)) s2) as [[l s3]| |] eqn:E3; cbn [rbind]; try discriminate;
    [|intros _; destruct (numbers_calm _ _ _ E3)].
  destruct (numbers_told ver Hv _ _ _ _ H2 E3) as (ids & F & Ln & -> & -> & H3).
  destruct (counted_small ver m 1025 Hv Hm ltac:(lia)) as [C1 C2]. assert (Cm : counted ver m = m) by (apply C2; lia). rewrite Cm in Ln, L. clear C1 C2.
  assert (Em : zlen ids = m) by (unfold zlen; unfold number in Hm; lia). rewrite <- Em in L |- *. clear Ln E3.
  intros X. right. exists b, ids, s3. split; [exact Hb|]. split; [lia|]. split; [exact F|]. split; [reflexivity|].
  destruct (get_attr_list ver s3) as [[at_ s4]| |] eqn:E4; cbn [rbind] in X; try discriminate; [|left; exact (atts_crash _ _ Hv H3 E4)].
  right. destruct (atts_told _ _ _ _ Hv H3 E4) as (a & Ha & -> & H4).
  destruct (read32 s4) as [[vt s5]| |] eqn:E5; cbn [rbind] in X; try discriminate; [|destruct (uint_calm _ _ E5)].
  destruct (word_told _ _ _ H4 E5) as (-> & Ht & H5).
  destruct (read_number ver s5) as [[vs s6]| |] eqn:E6; cbn [rbind] in X; try discriminate; [|destruct (number_calm _ _ E6)].
  destruct (number_told _ _ _ _ Hv H5 E6) as (sz & Hsz & -> & -> & H6).
  exists a, vt, sz, s6. split; [exact Ha|]. split; [exact Ht|]. split; [exact Hsz|]. split; [|reflexivity].
  assert (Ez : zlen (map d_len dims) = zlen dims) by (unfold zlen; rewrite map_length; reflexivity). unfold bad_ids. rewrite Ez.
  destruct ids as [|i r].
  - exfalso. cbn [map has_unlimited rbind] in X. destruct (ver =? 1).
    + pose proof (uint_calm 4 s6) as C. unfold read32 in X. destruct (read_uint 4 s6) as [[? ?]| |]; cbn [rbind] in X; try discriminate. contradiction.
    + pose proof (uint_calm 8 s6) as C. unfold read64 in X. destruct (read_uint 8 s6) as [[? ?]| |]; cbn [rbind] in X; try discriminate. contradiction.
  - exists i, r. split; [reflexivity|]. inversion F as [|? ? Hi Hr]; subst. cbn [map has_unlimited tl] in X.
    destruct (dim_at dims (counted ver i)) as [d| |] eqn:E7; cbn [rbind] in X; try discriminate; [|left; exact (dim_at_crash ver dims i Hv Hd Hi E7)].
    right. destruct (Z.eqb_spec (d_len d) 0) as [D0|D0].
    + split; [rewrite <- D0; exact (dim_at_told ver dims i d Hv Hd Hi E7)|].
      destruct (dims_prod dims (map (counted ver) r) 1) as [n| |] eqn:E8; cbn [rbind] in X; try discriminate; [|exact (prod_crash ver dims r Hv Hd Hr 1 E8)].
      exfalso. destruct (ty_of_code vt); cbn [rbind] in X; try discriminate. destruct (ver =? 1).
      * pose proof (uint_calm 4 s6) as C. unfold read32 in X. destruct (read_uint 4 s6) as [[? ?]| |]; cbn [rbind] in X; try discriminate. contradiction.
      * pose proof (uint_calm 8 s6) as C. unfold read64 in X. destruct (read_uint 8 s6) as [[? ?]| |]; cbn [rbind] in X; try discriminate. contradiction.
    + exfalso. cbn [rbind] in X. destruct (ver =? 1).
      * pose proof (uint_calm 4 s6) as C. unfold read32 in X. destruct (read_uint 4 s6) as [[? ?]| |]; cbn [rbind] in X; try discriminate. contradiction.
      * pose proof (uint_calm 8 s6) as C. unfold read64 in X. destruct (read_uint 8 s6) as [[? ?]| |]; cbn [rbind] in X; try discriminate. contradiction.
Qed.

Lemma vars_loop_crash ver dims : known_ver ver -> zlen dims <= 1024 -> forall fuel n st s, are_bytes s -> get_vars_loop ver dims fuel n st s = Panic ->
  exists bs rest, Forall (any_var ver) bs /\ zlen bs < n /\ s = List.concat bs ++ rest /\ bad_var ver (map d_len dims) rest.
Proof.
  intros Hv Hd. induction fuel as [|fu IH]; intros n st s Hs; cbn [get_vars_loop]; (destruct (Z.leb_spec n 0) as [L|L]; [discriminate|]); [discriminate|].
  destruct (get_var ver dims (vl_rec st) s) as [[[v rs] s1]| |] eqn:E1; cbn [rbind]; try discriminate;
    [|intros _; exists [], s; split; [constructor|]; split; [exact L|]; split; [reflexivity|exact (var_crash _ _ _ _ Hv Hd Hs E1)]].
  destruct (var_told _ _ _ _ _ _ _ Hv Hs E1) as (b & Hb & -> & H1 & Hu).
  destruct (om_get (vl_vars st) (v_name v)); [discriminate|].
  destruct (has_unlimited dims (v_ids v)) as [unl| |]; cbn [rbind]; try discriminate; [|contradiction].
  cbv zeta. intros X. destruct (IH _ _ _ H1 X) as (bl & rest & F & Z1 & -> & H2).
  exists (b :: bl), rest. split; [constructor; assumption|]. split; [rewrite zlen_cons; lia|].
  split; [cbn [List.concat]; rewrite app_assoc; reflexivity|exact H2].
Qed.

Theorem header_crash f : are_bytes f -> cdf_open f = Panic -> bad_header f.
Proof.
  intros Hf. unfold cdf_open, read_header. destruct (read_bytes 4 f) as [[m s0]| |] eqn:E0; cbn [rbind]; try discriminate;
    [|intros _; pose proof (bytes_crash 4 f ltac:(lia) E0) as M; unfold memory in M; lia].
  destruct (bytes_told _ _ _ _ E0) as (_ & -> & L0).
  destruct (beqb (ztake 3 m) (bs "CDF")) eqn:Em; cbn [negb]; [|discriminate]. apply beqb_eq in Em.
  destruct m as [|m0 [|m1 [|m2 [|ver [|m4 m]]]]]; try discriminate L0;
    [|exfalso; rewrite !zlen_cons in L0; pose proof (zlen_nonneg m); lia].
  change (nth 3 [m0; m1; m2; ver] 0) with ver. change (ztake 3 [m0; m1; m2; ver]) with [m0; m1; m2] in Em.
  change [m0; m1; m2; ver] with ([m0; m1; m2] ++ [ver]). rewrite Em.
  destruct ((ver =? 1) || (ver =? 2) || (ver =? 5)) eqn:Ever; cbn [negb]; [|discriminate].
  assert (Hv : known_ver ver) by (unfold known_ver; lia).
  assert (H0 : are_bytes s0) by (unfold are_bytes in Hf; apply Forall_app in Hf; apply Hf).
  destruct (read_number ver s0) as [[nr s1]| |] eqn:E1; cbn [rbind]; try discriminate; [|intros _; destruct (number_calm _ _ E1)].
  destruct (number_told _ _ _ _ Hv H0 E1) as (k & Hk & -> & -> & H1).
  destruct (counted ver k =? 2 ^ 64 - 1); [discriminate|].
  intros X. exists ver, k, s1. split; [exact Hv|]. split; [exact Hk|]. split; [rewrite <- app_assoc; reflexivity|].
  destruct (get_nelems ver fieldDimension s1) as [[nd s2]| |] eqn:E2; cbn [rbind] in X; try discriminate; [|destruct (nelems_calm _ _ _ E2)].
  destruct (nelems_told ver 10 _ _ _ Hv ltac:(lia) H1 E2) as (t & d & Ht & Hd & -> & -> & H2).
  destruct (Z.ltb_spec maxDimensions (counted ver d)) as [L|L]; [discriminate|]. unfold maxDimensions in L.
  destruct (counted_small ver d 1025 Hv Hd ltac:(lia)) as [C1 C2]. assert (Cd : counted ver d = d) by (apply C2; lia). rewrite Cd in X, L. clear C1 C2.
  assert (D0 : 0 <= d) by (unfold number in Hd; lia).
  destruct (get_dims ver (Z.to_nat d) s2) as [[dims s3]| |] eqn:E3; cbn [rbind] in X; try discriminate.
  2:{ left. destruct (dims_crash ver Hv _ _ H2 E3) as (lens & bl & rest & F & Z1 & -> & Hl). pose proof (zlen_nonneg bl) as ZN.
      exists d, lens, bl, rest. split; [exact L|]. split; [exact Hd|]. split; [exact F|]. split; [lia|]. split; [exact Hl|].
      destruct Ht as [->|[_ D1]]; [reflexivity|exfalso; lia]. }
  right. destruct (dims_told ver Hv _ _ _ _ H2 E3) as (bl & F & Ln & -> & H3).
  assert (Ez : zlen (map d_len dims) = d) by (unfold zlen; rewrite map_length; lia). assert (Hd' : zlen dims <= 1024) by (unfold zlen; lia).
  exists t, (map d_len dims), bl, s3. split.
  { destruct Ht as [Ht|[Ht D1]]; [left; exact Ht|right; split; [exact Ht|]]. destruct dims as [|x dims]; [reflexivity|cbn [List.length] in Ln; lia]. }
  split; [lia|]. split; [exact F|]. split; [rewrite Ez; reflexivity|].
  destruct (get_attr_list ver s3) as [[ga s4]| |] eqn:E4; cbn [rbind] in X; try discriminate; [|left; exact (atts_crash _ _ Hv H3 E4)].
  right. destruct (atts_told _ _ _ _ Hv H3 E4) as (a & Ha & -> & H4). exists a, s4. split; [exact Ha|]. split; [|reflexivity].
  destruct (get_nelems ver fieldVariable s4) as [[nv s5]| |] eqn:E5; cbn [rbind] in X; try discriminate; [|destruct (nelems_calm _ _ _ E5)].
  destruct (nelems_told ver 11 _ _ _ Hv ltac:(lia) H4 E5) as (t' & n & Ht' & Hn & -> & -> & H5).
  destruct (get_vars_loop ver dims (S (List.length s5)) (counted ver n) (mkVl 0 empty_om 0 None) s5) as [[vl s6]| |] eqn:E6; cbn [rbind] in X; try discriminate.
  - destruct (finish_rec vl). discriminate.
  - destruct (vars_loop_crash ver dims Hv Hd' _ _ _ _ H5 E6) as (bl' & rest & F' & Z1 & -> & Hb). pose proof (zlen_nonneg bl') as ZN.
    assert (t' = 11) as -> by (destruct Ht' as [Ht'|[_ K0]]; [exact Ht'|exfalso; subst n; unfold counted in Z1; cbn in Z1; destruct (ver =? 5); cbn in Z1; lia]).
    exists n, bl', rest. split; [exact Hn|]. split; [exact F'|]. split; [exact Z1|]. split; [exact Hb|reflexivity].
Qed.
