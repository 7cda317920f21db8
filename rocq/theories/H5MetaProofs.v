(** Proofs about the HDF5 metadata codecs (H5MetaWrite, H5MetaRead). *)
From Verif Require Import Prelude GoVal H5Base H5ChecksumModel H5MetaWrite H5MetaRead MetaSpec
  BaseLemmas H5ChecksumProofs.
From Coq Require Import ZifyBool ZifyNat.
Ltac Zify.zify_post_hook ::= Z.div_mod_to_equations.

(** ** Primitives *)
Lemma rd_app b r n : n = zlen b -> rd n (b ++ r) = Ok (b, r).
Proof.
  intros ->. unfold rd. pose proof (zlen_nonneg r). rewrite zlen_app.
  replace (zlen b <=? zlen b + zlen r) with true by lia.
  rewrite ztake_app_exact, zdrop_app_exact by reflexivity. reflexivity.
Qed.

Lemma read8_cons x r : read8 (x :: r) = Ok (x, r).
Proof.
  unfold read8, pbind. change (x :: r) with ([x] ++ r). rewrite rd_app by reflexivity.
  cbn [rbind of_le]. unfold pret. rewrite Z.mul_0_r, Z.add_0_r. reflexivity.
Qed.

Lemma read16_le z r : 0 <= z < 2 ^ 16 -> read16 (le 2 z ++ r) = Ok (z, r).
Proof.
  intros H. unfold read16, pbind. rewrite rd_app by reflexivity. cbn [rbind]. unfold pret.
  rewrite of_le_le. change (256 ^ Z.of_nat 2) with (2 ^ 16). rewrite Z.mod_small by exact H. reflexivity.
Qed.

Lemma read32_le' z r : 0 <= z < 2 ^ 32 -> read32 (le 4 z ++ r) = Ok (z, r).
Proof. intros H. apply read32_le. exact H. Qed.

Lemma read64_le z r : 0 <= z < 2 ^ 64 -> read64 (le 8 z ++ r) = Ok (z, r).
Proof.
  intros H. unfold read64, pbind. rewrite rd_app by reflexivity. cbn [rbind]. unfold pret.
  rewrite of_le_le. change (256 ^ Z.of_nat 8) with (2 ^ 64). rewrite Z.mod_small by exact H. reflexivity.
Qed.

Lemma checkVal_same a s : checkVal a a s = Ok (tt, s).
Proof. unfold checkVal, passert. rewrite Z.eqb_refl. reflexivity. Qed.

Lemma passert_true e s : passert true e s = Ok (tt, s).
Proof. reflexivity. Qed.

Lemma checkMagic_app m r : checkMagic m (m ++ r) = Ok (tt, r).
Proof.
  unfold checkMagic, pbind. rewrite rd_app by reflexivity. cbn [rbind].
  rewrite beqb_refl. reflexivity.
Qed.

Lemma zrep_forallb n : forallb (fun x => x =? 0) (zrep n 0) = true.
Proof. unfold zrep. induction (Z.to_nat n) as [|m IH]; cbn [repeat forallb]; [reflexivity|exact IH]. Qed.

Lemma zrep_cons {A} n (x : A) : 0 < n -> zrep n x = x :: zrep (n - 1) x.
Proof.
  intros H. unfold zrep. destruct (Z.to_nat n) as [|m] eqn:E; [lia|].
  cbn [repeat]. f_equal. f_equal. lia.
Qed.

Lemma checkZeroes_zrep n k r : n = Z.max k 0 -> checkZeroes n (zrep k 0 ++ r) = Ok (tt, r).
Proof.
  intros ->. unfold checkZeroes, pbind. rewrite rd_app by (rewrite zlen_zrep; lia).
  cbn [rbind]. rewrite zrep_forallb. reflexivity.
Qed.

Lemma checkZeroes_le0 n s : n <= 0 -> checkZeroes n s = Ok (tt, s).
Proof.
  intros H. change s with ([] ++ s) at 1. rewrite <- (zrep_le0 n 0) by exact H.
  unfold checkZeroes, pbind. rewrite rd_app by (rewrite zlen_zrep; reflexivity).
  cbn [rbind]. rewrite zrep_forallb. reflexivity.
Qed.

Lemma checkZeroes_nil : checkZeroes 0 [] = Ok (tt, []).
Proof. reflexivity. Qed.

Lemma has_at_app_l f a b c : has_at f a (b ++ c) -> has_at f a b.
Proof.
  intros (pre & post & -> & E). exists pre, (c ++ post). rewrite <- app_assoc. auto.
Qed.
Lemma has_at_app_r f a b c : has_at f a (b ++ c) -> has_at f (a + zlen b) c.
Proof.
  intros (pre & post & -> & E). exists (pre ++ b), post. rewrite zlen_app, <- !app_assoc.
  split; [reflexivity|lia].
Qed.
Lemma has_at_bound f a b : has_at f a b -> 0 <= a /\ a + zlen b <= zlen f.
Proof.
  intros (pre & post & -> & E). rewrite !zlen_app. pose proof (zlen_nonneg pre).
  pose proof (zlen_nonneg post). lia.
Qed.
Lemma has_at_extend f g a b : has_at f a b -> has_at (f ++ g) a b.
Proof.
  intros (pre & post & -> & E). exists pre, (post ++ g). rewrite <- !app_assoc. auto.
Qed.
Lemma has_at_take f a b : has_at f a b -> ztake (zlen b) (zdrop a f) = b.
Proof.
  intros (pre & post & -> & E). rewrite zdrop_app_exact by lia.
  apply ztake_app_exact. reflexivity.
Qed.

Lemma newSeek_at f a b n : has_at f a b -> n = zlen b -> 0 < n -> zlen f < 2 ^ 63 ->
  newSeek f a n = Ok b.
Proof.
  intros H -> Hn Hf. pose proof (has_at_bound _ _ _ H).
  rewrite newSeek_in by lia. rewrite (has_at_take _ _ _ H). reflexivity.
Qed.

Lemma checksum_w32 d h : checksum d = Ok h -> w32 h.
Proof. unfold checksum. cbv zeta. apply hashInts_w32. Qed.

Lemma checkChecksum_at f a d h : has_at f a (d ++ le 4 h) -> checksum d = Ok h ->
  zlen f < 2 ^ 63 -> checkChecksum f a (zlen d) = Ok tt.
Proof.
  intros (pre & post & -> & <-) Eh Hf. rewrite <- app_assoc.
  rewrite check_block.
  - rewrite Eh. cbn [rbind]. rewrite Z.eqb_refl. reflexivity.
  - rewrite app_assoc in Hf. rewrite app_assoc, app_assoc.
    rewrite <- !app_assoc in *. exact Hf.
  - exact (checksum_w32 _ _ Eh).
Qed.

(** ** Superblock *)
Definition sb_head (eof root : Z) : bytes :=
  h5_magic ++ [2; 8; 8; 0] ++ le 8 0 ++ le 8 invalidAddress ++ le 8 eof ++ le 8 root.

Lemma zlen_sb_head e r : zlen (sb_head e r) = 44.
Proof. reflexivity. Qed.

Lemma put_at_mid (a old b c : bytes) off : off = zlen a -> zlen old = zlen b ->
  put_at off b (a ++ old ++ c) = Ok (a ++ b ++ c).
Proof.
  intros -> E. unfold put_at. rewrite !zlen_app. pose proof (zlen_nonneg c).
  replace (zlen a + zlen b <=? zlen a + (zlen old + zlen c)) with true by lia.
  rewrite ztake_app_exact by reflexivity.
  rewrite (app_assoc a old c). rewrite zdrop_app_exact by (rewrite zlen_app; lia). reflexivity.
Qed.

Lemma finalize_parts (A z1 z2 z3 body : bytes) root h :
  zlen A = 28 -> zlen z1 = 8 -> zlen z2 = 8 -> zlen z3 = 4 ->
  let data := A ++ z1 ++ z2 ++ z3 ++ body in
  let head := A ++ le 8 (u64 (zlen data)) ++ le 8 root in
  checksum head = Ok h -> finalize data root = Ok (head ++ le 4 h ++ body).
Proof.
  intros HA H1 H2 H3 data head Eh. unfold finalize. cbv zeta.
  set (e := u64 (zlen data)) in *. clearbody e. unfold data.
  rewrite (put_at_mid A z1 (le 8 e) (z2 ++ z3 ++ body)) by (rewrite ?zlen_le; lia). cbn [rbind].
  rewrite (app_assoc A (le 8 e)).
  rewrite (put_at_mid (A ++ le 8 e) z2 (le 8 root) (z3 ++ body)) by (rewrite ?zlen_app, ?zlen_le; lia).
  cbn [rbind]. rewrite <- (app_assoc A (le 8 e)).
  replace (A ++ le 8 e ++ le 8 root ++ z3 ++ body) with (head ++ z3 ++ body)
    by (unfold head; rewrite <- !app_assoc; reflexivity).
  assert (LH : zlen head = 44) by (unfold head; rewrite !zlen_app, !zlen_le; lia).
  rewrite (ztake_app_exact 44 head) by lia. rewrite Eh. cbn [rbind].
  apply put_at_mid; [lia|rewrite zlen_le; lia].
Qed.

Lemma finalize_eq body root : zlen body + 48 < 2 ^ 63 -> exists h,
  checksum (sb_head (48 + zlen body) root) = Ok h /\ 0 <= h < 2 ^ 32 /\
  finalize (superblockV2 ++ body) root = Ok (sb_head (48 + zlen body) root ++ le 4 h ++ body).
Proof.
  intros H. pose proof (zlen_nonneg body).
  destruct (checksum_ok (sb_head (48 + zlen body) root)) as [h Eh]. exists h.
  split; [exact Eh|]. split. { exact (checksum_w32 _ _ Eh). }
  pose proof (finalize_parts (h5_magic ++ [2; 8; 8; 0] ++ le 8 0 ++ le 8 invalidAddress)
    (le 8 0) (le 8 0) (le 4 0) body root h eq_refl eq_refl eq_refl eq_refl) as F.
  cbv zeta in F.
  replace (u64 (zlen ((h5_magic ++ [2; 8; 8; 0] ++ le 8 0 ++ le 8 invalidAddress) ++
             le 8 0 ++ le 8 0 ++ le 4 0 ++ body))) with (48 + zlen body) in F.
  2:{ symmetry. rewrite !zlen_app, !zlen_le. change (zlen h5_magic) with 8.
      change (zlen [2; 8; 8; 0]) with 4. rewrite u64_small by lia. lia. }
  assert (E1 : (h5_magic ++ [2; 8; 8; 0] ++ le 8 0 ++ le 8 invalidAddress) ++
               le 8 (48 + zlen body) ++ le 8 root = sb_head (48 + zlen body) root)
    by (unfold sb_head; rewrite <- !app_assoc; reflexivity).
  rewrite E1 in F. specialize (F Eh). rewrite <- F.
  unfold superblockV2. rewrite <- !app_assoc. reflexivity.
Qed.

Lemma of_le_cat a b : of_le (a ++ b) = of_le a + 256 ^ zlen a * of_le b.
Proof.
  induction a as [|x a IH]; cbn [app of_le].
  - change (zlen (@nil Z)) with 0. lia.
  - rewrite zlen_cons, IH, Z.pow_add_r by (pose proof (zlen_nonneg a); lia). lia.
Qed.

Ltac pstep := unfold pbind at 1.

(** What the reader does with such a superblock at the start of any file *)
Lemma readSuperblock_head ext e root h tail : 0 <= e < 2 ^ 64 -> 0 <= root < 2 ^ 64 ->
  checksum (sb_head e root) = Ok h -> 0 <= h < 2 ^ 32 ->
  zlen (sb_head e root ++ le 4 h ++ tail) < 2 ^ 63 ->
  readSuperblock ext (sb_head e root ++ le 4 h ++ tail) =
    if e <=? zlen (sb_head e root ++ le 4 h ++ tail) then Ok root else Err ETruncated.
Proof.
  intros He Hr Eh Hh Hf. set (f := sb_head e root ++ le 4 h ++ tail) in *.
  assert (L48 : zlen f = 48 + zlen tail).
  { unfold f. rewrite !zlen_app, zlen_sb_head, zlen_le. lia. }
  pose proof (zlen_nonneg tail).
  unfold readSuperblock.
  replace (48 <=? zlen f) with true by lia. cbn [negb].
  rewrite (newSeek_at f 0 (sb_head e root ++ le 4 h)); [|exists [], tail|reflexivity|reflexivity|lia].
  2:{ unfold f. cbn [app]. rewrite <- app_assoc. split; reflexivity. }
  cbn [rbind]. unfold sb_head. rewrite <- !app_assoc. rewrite checkMagic_app. cbn [rbind app].
  rewrite read8_cons. cbn [rbind].
  change (2 =? 0) with false. change (2 =? 1) with false.
  change ((2 =? 2) || (2 =? 3)) with true. change (2 <? 2) with false. cbv iota. cbn [rbind].
  do 1 pstep. unfold pret at 1. cbn [rbind].
  do 1 pstep. rewrite read8_cons. cbn [rbind].
  do 1 pstep. change (8 =? 8) with true. rewrite passert_true. cbn [rbind].
  do 1 pstep. rewrite read8_cons. cbn [rbind].
  do 1 pstep. rewrite checkVal_same. cbn [rbind].
  do 1 pstep. do 1 pstep. rewrite read8_cons. cbn [rbind]. unfold pret at 1. cbn [rbind].
  do 1 pstep. rewrite read64_le by (split; [discriminate|reflexivity]). cbn [rbind].
  do 1 pstep. rewrite checkVal_same. cbn [rbind].
  do 1 pstep. rewrite read64_le by (split; [discriminate|reflexivity]). cbn [rbind].
  do 1 pstep. unfold pret at 1. cbn [rbind].
  do 1 pstep. rewrite read64_le by exact He. cbn [rbind].
  do 1 pstep. unfold passert at 1.
  destruct (e <=? zlen f) eqn:EF; cbn [rbind]; [|reflexivity].
  do 1 pstep. rewrite read64_le by exact Hr. cbn [rbind].
  change 44 with (zlen (sb_head e root)).
  rewrite (checkChecksum_at f 0 (sb_head e root) h).
  - cbn [rbind]. rewrite Z.eqb_refl. reflexivity.
  - exists [], tail. unfold f. cbn [app]. rewrite <- app_assoc. split; reflexivity.
  - exact Eh.
  - exact Hf.
Qed.

(** ** Object headers *)
Lemma forallb_eqb l : forallb (fun x => x =? 0) l = forallb (Z.eqb 0) l.
Proof. induction l as [|x l IH]; cbn [forallb]; [reflexivity|]. rewrite IH, Z.eqb_sym. reflexivity. Qed.

Lemma checkZeroes_all l : checkZeroes (zlen l) l =
  if forallb (Z.eqb 0) l then Ok (tt, []) else Panic.
Proof.
  unfold checkZeroes, pbind. rewrite Z.max_l by apply zlen_nonneg.
  rewrite <- (app_nil_r l) at 2. rewrite rd_app by reflexivity. cbn [rbind].
  rewrite forallb_eqb. destruct (forallb _ l); reflexivity.
Qed.

Lemma msg_bytes_eq m r : msg_ok m ->
  msg_bytes m ++ r = m_type m :: le 2 (zlen (m_data m)) ++ m_flags m :: m_data m ++ r.
Proof.
  intros [Ht Hd]. unfold msg_bytes, u8, u16. pose proof (zlen_nonneg (m_data m)).
  rewrite !Z.mod_small by lia. cbn [app]. rewrite <- !app_assoc. reflexivity.
Qed.

Lemma length_msg_bytes m : (4 <= List.length (msg_bytes m))%nat.
Proof. unfold msg_bytes. cbn [List.length]. rewrite app_length, le_length. cbn [List.length]. lia. Qed.

Definition pad_content (len : Z) : list (Z * bytes) :=
  let remainder := len mod 8 in
  if remainder =? 0 then []
  else
    let pad := 8 - remainder in
    let pad := if pad <? 4 then pad + 8 else pad in
    if pad =? 4 then [] else [(0, zrep (pad - 4) 0)].

Lemma pad_content_ok len : is_padding (pad_content len).
Proof.
  unfold pad_content. cbv zeta. pose proof (Z.mod_pos_bound len 8 eq_refl).
  destruct (len mod 8 =? 0) eqn:E0; [left; reflexivity|].
  destruct (8 - len mod 8 <? 4) eqn:E1.
  - destruct (_ =? 4) eqn:E2; [left; reflexivity|]. right. eexists. split; [|reflexivity]. lia.
  - destruct (_ =? 4) eqn:E2; [left; reflexivity|]. right. eexists. split; [|reflexivity]. lia.
Qed.

Lemma objectHeader_eq ms : exists h, objectHeaderV2 ms =
    Ok ((bs "OHDR" ++ [2; 2] ++ le 4 (u32 (zlen (ohdr_body ms))) ++ ohdr_body ms) ++ le 4 h) /\
  checksum (bs "OHDR" ++ [2; 2] ++ le 4 (u32 (zlen (ohdr_body ms))) ++ ohdr_body ms) = Ok h.
Proof.
  unfold objectHeaderV2. cbv zeta.
  destruct (checksum_ok (bs "OHDR" ++ [2; 2] ++ le 4 (u32 (zlen (ohdr_body ms))) ++ ohdr_body ms)) as [h Eh].
  exists h. rewrite Eh. split; reflexivity.
Qed.

Lemma newSeek_any f a b n : has_at f a b -> n = zlen b -> zlen f < 2 ^ 63 ->
  exists tl, newSeek f a n = Ok (b ++ tl).
Proof.
  intros H -> Hf. pose proof (has_at_bound _ _ _ H) as [H0 H1].
  destruct (Z.eq_dec (zlen b) 0) as [E|E].
  - apply zlen_zero in E. subst b. change (zlen (@nil Z)) with 0 in *.
    unfold newSeek. cbv zeta. rewrite (i64_small a), (i64_small (a + 0)) by lia.
    replace (a + 0 <=? zlen f) with true by lia. replace (a <? 0) with false by lia.
    change (0 =? 0) with true. cbv iota. eexists. reflexivity.
  - exists []. rewrite app_nil_r. apply newSeek_at; [exact H|reflexivity|pose proof (zlen_nonneg b); lia|exact Hf].
Qed.

Lemma isMagic_at f a m : has_at f a m -> zlen m = 4 -> a <> 0 -> zlen f < 2 ^ 63 -> isMagic f m a = Ok true.
Proof.
  intros H Hm Ha Hf. pose proof (has_at_bound _ _ _ H) as [H0 H1]. unfold isMagic.
  unfold invalidAddress. replace ((a =? 0) || (a =? 2 ^ 64 - 1)) with false by lia.
  rewrite (u64_small (a + 4)) by lia. replace (zlen f <? a + 4) with false by lia.
  rewrite i64_small by lia. replace (a <? 0) with false by lia.
  rewrite <- Hm, (has_at_take _ _ _ H), beqb_refl. reflexivity.
Qed.


Section Header.
  Context {S : Type} (handle : Z -> bytes -> S -> res (S * bytes)).

  (** One message at the front of what a version 2 header has left *)
  Lemma readMessages_step fuel t n fl b r st : 0 <= n < 2 ^ 16 -> zlen b = n ->
    readMessages handle (Datatypes.S fuel) 2 2 st (t :: le 2 n ++ fl :: b ++ r) =
    (if n =? 0 then readMessages handle fuel 2 2 st r
     else match handle t b st with
          | Ok (st', rest) => if forallb (Z.eqb 0) rest then readMessages handle fuel 2 2 st' r else Panic
          | Err e => Err e
          | Panic => Panic
          end).
  Proof.
    intros Hn Hb. cbn [readMessages].
    pose proof (zlen_nonneg b). pose proof (zlen_nonneg r).
    assert (L : zlen (t :: le 2 n ++ fl :: b ++ r) = 4 + n + zlen r)
      by (rewrite zlen_cons, zlen_app, zlen_le, zlen_cons, zlen_app; lia).
    rewrite L. replace (4 + n + zlen r <? 3) with false by lia.
    change (2 =? 1) with false. change (1 <? 2) with true. change (2 =? 2) with true.
    change (hasFlag8 2 2) with false. cbv iota. cbn [orb andb].
    rewrite read8_cons. cbn [rbind]. rewrite read16_le by exact Hn. cbn [rbind].
    rewrite andb_false_r, andb_true_r.
    rewrite zlen_cons, zlen_app. replace (1 + (zlen b + zlen r) =? 0) with false by lia.
    rewrite read8_cons. cbn [rbind].
    destruct (n =? 0) eqn:E.
    { destruct b; [|rewrite zlen_cons in Hb; pose proof (zlen_nonneg b); lia]. reflexivity. }
    rewrite zlen_app. replace (zlen b + zlen r <? n) with false by lia.
    rewrite ztake_app_exact, zdrop_app_exact by lia.
    destruct (handle t b st) as [[st' rest]| |]; cbn [rbind]; [|reflexivity|reflexivity].
    rewrite checkZeroes_all. destruct (forallb _ rest); reflexivity.
  Qed.

  Lemma readMessages_end fuel st : readMessages handle (Datatypes.S fuel) 2 2 st [] = Ok (st, []).
  Proof. reflexivity. Qed.

  Lemma read_pad len fuel st : 0 <= len -> (List.length (null_pad len) < fuel)%nat ->
    (let* (st, _) := readMessages handle fuel 2 2 st (null_pad len) in Ok st) =
    deliver handle (pad_content len) st.
  Proof.
    intros Hl. unfold null_pad, pad_content. cbv zeta.
    pose proof (Z.mod_pos_bound len 8 eq_refl) as B.
    destruct (len mod 8 =? 0) eqn:E0; [destruct fuel as [|fuel]; [cbn [List.length]; lia|reflexivity]|].
    cbn [List.length]. rewrite app_length, le_length. intros Hf.
    destruct fuel as [|[|fuel]]; [lia|lia|]. clear Hf.
    set (pad := if 8 - len mod 8 <? 4 then _ else _).
    assert (Hp : 4 <= pad <= 11) by (unfold pad; destruct (8 - len mod 8 <? 4) eqn:E1; lia).
    clearbody pad. rewrite <- (app_nil_r (zrep (pad - 4) 0)) at 1.
    rewrite readMessages_step by (rewrite ?zlen_zrep; lia).
    replace (pad =? 4) with (pad - 4 =? 0) by lia.
    destruct (pad - 4 =? 0) eqn:E2; [reflexivity|]. cbn [deliver].
    destruct (handle _ _ _) as [[st' rest]| |]; [|reflexivity|reflexivity].
    destruct (forallb _ rest); reflexivity.
  Qed.

  Lemma deliver_app ms1 : forall ms2 st,
    deliver handle (ms1 ++ ms2) st = let* st := deliver handle ms1 st in deliver handle ms2 st.
  Proof.
    induction ms1 as [|[t b] ms1 IH]; intros ms2 st; [reflexivity|]. cbn [app deliver].
    destruct (handle t b st) as [[st' rest]| |]; [|reflexivity|reflexivity].
    destruct (forallb _ rest); [apply IH|reflexivity].
  Qed.

  Lemma read_body ms : forall fuel len st, Forall msg_ok ms -> 0 <= len ->
    (List.length (flat_map msg_bytes ms) + List.length (null_pad len) < fuel)%nat ->
    (let* (st, _) := readMessages handle fuel 2 2 st (flat_map msg_bytes ms ++ null_pad len) in Ok st) =
    deliver handle (contents ms ++ pad_content len) st.
  Proof.
    induction ms as [|m ms IH]; intros fuel len st Hms Hl Hfu.
    - cbn [flat_map contents map filter app]. apply read_pad; [exact Hl|cbn [flat_map List.length] in Hfu; lia].
    - inversion Hms as [|m' ms' Hm Hms' E]; subst m' ms'.
      cbn [flat_map] in Hfu |- *. rewrite app_length in Hfu. pose proof (length_msg_bytes m).
      rewrite <- app_assoc, msg_bytes_eq by exact Hm.
      destruct fuel as [|fuel]; [lia|]. destruct Hm as [Ht Hd]. pose proof (zlen_nonneg (m_data m)).
      rewrite readMessages_step by (lia || reflexivity).
      unfold contents. cbn [map filter]. cbn [snd].
      destruct (m_data m) as [|x d] eqn:Ed.
      + change (zlen (@nil Z) =? 0) with true. cbv iota. cbn [negb]. apply IH; [exact Hms'|exact Hl|lia].
      + replace (zlen (x :: d) =? 0) with false by (rewrite zlen_cons; pose proof (zlen_nonneg d); lia).
        cbn [negb app deliver].
        destruct (handle _ _ _) as [[st' rest]| |]; [|reflexivity|reflexivity].
        destruct (forallb _ rest); [|reflexivity]. apply IH; [exact Hms'|exact Hl|lia].
  Qed.

  Lemma header_read ms f a b st : Forall msg_ok ms -> zlen (ohdr_body ms) < 2 ^ 32 ->
    objectHeaderV2 ms = Ok b -> has_at f a b -> a <> 0 -> zlen f < 2 ^ 63 ->
    readObjectHeader handle f a st =
    deliver handle (contents ms ++ pad_content (zlen (flat_map msg_bytes ms))) st.
  Proof.
    intros Hms Hlen Eb Hat Ha Hf.
    destruct (objectHeader_eq ms) as (h & Eo & Eh). rewrite Eo in Eb.
    assert (E2 : b = (bs "OHDR" ++ [2; 2] ++ le 4 (u32 (zlen (ohdr_body ms))) ++ ohdr_body ms) ++ le 4 h)
      by congruence.
    clear Eo Eb. subst b.
    set (body := ohdr_body ms) in *. pose proof (zlen_nonneg body) as Hb0.
    assert (EU : u32 (zlen body) = zlen body) by (unfold u32; apply Z.mod_small; lia).
    rewrite EU in *. 
    unfold readObjectHeader.
    assert (Hat1 : has_at f a (bs "OHDR")) by
      (do 2 apply has_at_app_l in Hat; exact Hat).
    rewrite (isMagic_at f a (bs "OHDR") Hat1 eq_refl Ha Hf). cbn [rbind].
    pose proof (has_at_bound _ _ _ Hat) as [B0 B1]. rewrite !zlen_app in B1.
    change (zlen (bs "OHDR")) with 4 in B1. change (zlen [2; 2]) with 2 in B1. rewrite !zlen_le in B1.
    unfold readObjectHeaderV2. cbv zeta.
    assert (Hat6 : has_at f a (bs "OHDR" ++ [2; 2])).
    { apply has_at_app_l in Hat. rewrite app_assoc in Hat. apply has_at_app_l in Hat. exact Hat. }
    rewrite (newSeek_at f a (bs "OHDR" ++ [2; 2]) 6 Hat6 eq_refl eq_refl Hf). cbn [rbind].
    rewrite checkMagic_app. cbn [rbind]. rewrite read8_cons. cbn [rbind].
    rewrite checkVal_same. cbn [rbind]. rewrite read8_cons. cbn [rbind].
    change (negb (Z.land 2 192 =? 0)) with false. cbv iota.
    change (hasFlag8 2 5) with false. change (hasFlag8 2 4) with false. cbv iota. cbn [rbind].
    change (Z.shiftl 1 (Z.land 2 3)) with 4.
    rewrite (u64_small (a + 6)) by lia.
    assert (Hat7 : has_at f (a + 6) (le 4 (zlen body) ++ body)).
    { apply has_at_app_l in Hat. rewrite app_assoc in Hat. apply has_at_app_r in Hat. exact Hat. }
    rewrite (newSeek_at f (a + 6) (le 4 (zlen body)) 4 (has_at_app_l _ _ _ _ Hat7) eq_refl eq_refl Hf).
    cbn [rbind]. change (readEnc 4) with read32.
    rewrite <- (app_nil_r (le 4 (zlen body))), read32_le' by lia. cbn [rbind].
    rewrite (u64_small (a + 6 + 4)) by lia.
    pose proof (has_at_app_r _ _ _ _ Hat7) as Hat8. rewrite zlen_le in Hat8.
    change (Z.of_nat 4) with 4 in Hat8.
    rewrite (i64_small (zlen body)) by lia.
    destruct (newSeek_any f (a + 6 + 4) body (zlen body) Hat8 eq_refl Hf) as [tl ->]. cbn [rbind].
    unfold readCommon. cbv zeta. rewrite ztake_app_exact by reflexivity.
    unfold body at 1 2. unfold ohdr_body. cbv zeta.
    match goal with |- rbind ?X ?K = _ => change (rbind X K) with
      (rbind (rbind (readMessages handle (Datatypes.S (List.length (flat_map msg_bytes ms ++ null_pad (zlen (flat_map msg_bytes ms))))) 2 2 st
        (flat_map msg_bytes ms ++ null_pad (zlen (flat_map msg_bytes ms)))) (fun '(st, _) => Ok st)) K) end.
    pose proof (zlen_nonneg (flat_map msg_bytes ms)) as Hfl.
    assert (EC : checkChecksum f a (i64 (u64 (a + 6 + 4 + zlen body) - a)) = Ok tt).
    { rewrite (u64_small (a + 6 + 4 + zlen body)) by lia.
      rewrite (i64_small (a + 6 + 4 + zlen body - a)) by lia.
      replace (a + 6 + 4 + zlen body - a) with
        (zlen (bs "OHDR" ++ [2; 2] ++ le 4 (zlen body) ++ body)).
      - apply (checkChecksum_at f a _ h Hat Eh Hf).
      - rewrite !zlen_app, zlen_le. change (zlen (bs "OHDR")) with 4. change (zlen [2; 2]) with 2. lia. }
    rewrite EC. 
    rewrite read_body; [|exact Hms|exact Hfl|rewrite app_length; lia].
    destruct (deliver _ _ _); reflexivity.
  Qed.
End Header.

(** ** Links, dataspaces, layouts *)
Lemma readEnc1 x r : readEnc 1 (x :: r) = Ok (x, r).
Proof. change (readEnc 1) with read8. apply read8_cons. Qed.

Lemma link_read name addr : zlen name < 256 -> 0 <= addr < 2 ^ 64 ->
  readLink (m_data (buildLinkMessage name addr)) = Ok ((name, addr, 0), []).
Proof.
  intros Hn Ha. pose proof (zlen_nonneg name) as H0. unfold buildLinkMessage, msg. cbn [m_data app].
  unfold u8. rewrite Z.mod_small by (change (2 ^ 8) with 256; lia).
  unfold readLink.
  do 1 pstep. rewrite read8_cons. cbn [rbind].
  do 1 pstep. rewrite checkVal_same. cbn [rbind].
  do 1 pstep. rewrite read8_cons. cbn [rbind].
  change (hasFlag8 0 3) with false. change (hasFlag8 0 2) with false. change (hasFlag8 0 4) with false.
  cbv iota. do 3 (do 1 pstep; unfold pret at 1; cbn [rbind]).
  do 1 pstep. change ((0 =? 0) || (0 =? 1)) with true. rewrite passert_true. cbn [rbind].
  do 1 pstep. change (Z.shiftl 1 (Z.land 0 3)) with 1. rewrite readEnc1. cbn [rbind].
  replace (2 ^ 48 <? zlen name) with false by lia.
  do 1 pstep. rewrite rd_app by reflexivity. cbn [rbind].
  do 1 pstep. rewrite <- (app_nil_r (le 8 addr)), read64_le by exact Ha. cbn [rbind].
  reflexivity.
Qed.

Lemma read_n_le8 dims r : Forall (fun d => 0 <= d < 2 ^ 64) dims ->
  read_n (List.length dims) read64 (flat_map (le 8) dims ++ r) = Ok (dims, r).
Proof.
  induction dims as [|d dims IH]; intros H; [reflexivity|].
  inversion H as [|d' dims' Hd Hds E]; subst. cbn [List.length read_n flat_map].
  rewrite <- app_assoc.
  do 1 pstep. rewrite read64_le by exact Hd. cbn [rbind].
  do 1 pstep. rewrite IH by exact Hds. reflexivity.
Qed.

Lemma dataspace_read dims r : Forall (fun d => 0 <= d < 2 ^ 64) dims -> zlen dims < 256 ->
  readDataspace (buildDataspaceMessage dims ++ r) = Ok (dims, r).
Proof.
  intros Hd Hl. pose proof (zlen_nonneg dims) as H0. unfold buildDataspaceMessage, readDataspace, u8.
  rewrite Z.mod_small by (change (2 ^ 8) with 256; lia). rewrite <- !app_assoc. cbn [app].
  do 1 pstep. rewrite read8_cons. cbn [rbind].
  do 1 pstep. change ((1 =? 1) || (1 =? 2)) with true. rewrite passert_true. cbn [rbind].
  do 3 (do 1 pstep; rewrite read8_cons; cbn [rbind]).
  do 1 pstep. change (1 =? 1) with true. cbv iota.
  do 1 pstep. rewrite checkVal_same. cbn [rbind].
  do 1 pstep. change (zrep 4 0) with (le 4 0). rewrite read32_le' by (split; [discriminate|reflexivity]).
  cbn [rbind]. do 1 pstep. rewrite checkVal_same. cbn [rbind]. unfold pret at 1. cbn [rbind].
  do 1 pstep. change (1 <=? 2) with true. rewrite passert_true. cbn [rbind].
  do 1 pstep. unfold zlen. rewrite Nat2Z.id. rewrite read_n_le8 by exact Hd. cbn [rbind].
  reflexivity.
Qed.

Lemma layout_read addr size : 0 <= addr < invalidAddress -> 0 <= size < 2 ^ 64 ->
  readDataLayout (buildLayoutMessageV2 addr size) = Ok (LContiguous addr size, []).
Proof.
  intros Ha Hs. unfold buildLayoutMessageV2, readDataLayout, invalidAddress in *. cbn [app].
  do 1 pstep. rewrite read8_cons. cbn [rbind].
  do 1 pstep. change ((3 =? 3) || (3 =? 4)) with true. rewrite passert_true. cbn [rbind].
  do 1 pstep. rewrite read8_cons. cbn [rbind].
  change (1 =? 0) with false. change (1 =? 1) with true. cbv iota.
  do 1 pstep. rewrite read64_le by lia. cbn [rbind].
  do 1 pstep. rewrite <- (app_nil_r (le 8 size)), read64_le by exact Hs. cbn [rbind].
  replace (addr =? 2 ^ 64 - 1) with false by lia. reflexivity.
Qed.

Lemma linkInfo_read : readLinkInfo (m_data buildLinkInfoMessage) = Ok ((invalidAddress, invalidAddress), []).
Proof. vm_compute. reflexivity. Qed.
Lemma groupInfo_read : readGroupInfo (m_data groupInfoMessage) = Ok (tt, []).
Proof. vm_compute. reflexivity. Qed.

(** ** The global heap *)
Lemma zlen_pad8 n : zlen (pad8 n) = (8 - n mod 8) mod 8.
Proof. unfold pad8. rewrite zlen_zrep. lia. Qed.

Lemma skip_app b r n : n = zlen b -> skip n (b ++ r) = Ok (tt, r).
Proof.
  intros ->. unfold skip. rewrite zlen_app. pose proof (zlen_nonneg r).
  replace (zlen b <=? zlen b + zlen r) with true by lia.
  rewrite zdrop_app_exact by reflexivity. reflexivity.
Qed.

Definition heap_entry (n i : Z) (o : bytes) : bytes :=
  (le 2 (u16 (i + 1)) ++ le 2 0 ++ le 4 0 ++ le 8 (zlen o) ++ o) ++ pad8 (n + 16 + zlen o).

Lemma zlen_heap_entry n i o : zlen (heap_entry n i o) = 16 + zlen o + zlen (pad8 (n + 16 + zlen o)).
Proof. unfold heap_entry. rewrite !zlen_app, !zlen_le. lia. Qed.

Lemma heap_objects_cons n i o r :
  heap_objects n i (o :: r) = heap_entry n i o ++ heap_objects (n + zlen (heap_entry n i o)) (i + 1) r.
Proof.
  cbn [heap_objects]. cbv zeta. unfold heap_entry.
  replace (zlen (le 2 (u16 (i + 1)) ++ le 2 0 ++ le 4 0 ++ le 8 (zlen o) ++ o)) with (16 + zlen o)
    by (rewrite !zlen_app, !zlen_le; lia).
  rewrite Z.add_assoc. reflexivity.
Qed.

Fixpoint heap_result (i : Z) (objs : list bytes) (cache : list (Z * bytes)) : list (Z * bytes) :=
  match objs with
  | [] => cache
  | o :: r => heap_result (i + 1) r (if zlen o =? 0 then cache else (i + 1, o) :: cache)
  end.

Lemma heap_loop_read objs : forall n i cache fuel csize K rest,
  n mod 8 = 0 -> 0 <= i -> i + zlen objs <= 65535 -> 16 <= K ->
  csize = zlen (heap_objects n i objs) + K -> csize < 2 ^ 64 ->
  (List.length objs < fuel)%nat ->
  heap_loop fuel csize cache (heap_objects n i objs ++ le 2 0 ++ rest) = Ok (heap_result i objs cache).
Proof.
  induction objs as [|o objs IH]; intros n i cache fuel csize K rest Hn Hi Hmax HK Hc Hc2 Hfu.
  - destruct fuel as [|fuel]; [lia|]. cbn [heap_objects app] in *. cbn [heap_loop].
    change (zlen (@nil Z)) with 0 in Hc.
    replace (csize <? 16) with false by lia. rewrite read16_le by (split; [discriminate|reflexivity]).
    cbn [rbind]. reflexivity.
  - destruct fuel as [|fuel]; [cbn [List.length] in Hfu; lia|]. cbn [List.length] in Hfu.
    rewrite heap_objects_cons in *. rewrite zlen_app in Hc. rewrite zlen_cons in Hmax.
    set (E := heap_entry n i o) in *. 
    assert (LE : zlen E = 16 + zlen o + zlen (pad8 (n + 16 + zlen o))) by apply zlen_heap_entry.
    rewrite zlen_pad8 in LE.
    pose proof (zlen_nonneg o) as Ho. pose proof (zlen_nonneg objs) as Hob.
    pose proof (zlen_nonneg (heap_objects (n + zlen E) (i + 1) objs)) as HR.
    unfold E at 1. unfold heap_entry. rewrite <- !app_assoc.
    cbn [heap_loop]. replace (csize <? 16) with false by lia.
    assert (EU : u16 (i + 1) = i + 1) by (unfold u16; apply Z.mod_small; lia).
    rewrite EU. rewrite read16_le by lia. cbn [rbind].
    replace (i + 1 =? 0) with false by lia.
    rewrite read16_le by (split; [discriminate|reflexivity]). cbn [rbind].
    rewrite checkVal_same. cbn [rbind].
    rewrite read32_le' by (split; [discriminate|reflexivity]). cbn [rbind].
    rewrite checkVal_same. cbn [rbind].
    rewrite read64_le by lia. cbn [rbind].
    replace (csize - 16 <? zlen o) with false by lia.
    assert (HP : (8 - zlen o mod 8) mod 8 = (8 - (n + 16 + zlen o) mod 8) mod 8) by lia.
    assert (IHE : forall cache', heap_loop fuel (csize - zlen E) cache'
        (heap_objects (n + zlen E) (i + 1) objs ++ le 2 0 ++ rest) = Ok (heap_result (i + 1) objs cache')).
    { intros cache'. apply (IH (n + zlen E) (i + 1) cache' fuel _ K); lia. }
    destruct (zlen o =? 0) eqn:E0.
    + apply Z.eqb_eq in E0. assert (Eo : o = []) by (apply zlen_zero; exact E0).
      assert (LE' : zlen E = 16) by lia.
      assert (EP : pad8 (n + 16 + zlen o) = []) by (apply zlen_zero; rewrite zlen_pad8; lia).
      rewrite EP, Eo. cbn [app]. cbn [heap_result]. change (zlen (@nil Z) =? 0) with true. cbv iota.
      rewrite <- IHE. rewrite LE'. reflexivity.
    + replace (csize - 16 <? zlen o + (8 - zlen o mod 8) mod 8) with false by lia.
      rewrite rd_app by reflexivity. cbn [rbind].
      rewrite skip_app by (rewrite zlen_pad8; lia). cbn [rbind].
      cbn [heap_result]. rewrite E0. rewrite <- IHE. f_equal. lia.
Qed.

Lemma heap_result_lookup objs : forall i cache k,
  zassoc k (heap_result i objs cache) =
  match nth_error objs (Z.to_nat (k - i - 1)) with
  | Some (x :: o) => if i <? k then Some (x :: o) else zassoc k cache
  | _ => zassoc k cache
  end.
Proof.
  induction objs as [|o objs IH]; intros i cache k; cbn [heap_result].
  - destruct (Z.to_nat (k - i - 1)); reflexivity.
  - rewrite IH.
    destruct (i <? k) eqn:Eik.
    + destruct (k =? i + 1) eqn:Ek.
      * replace (Z.to_nat (k - i - 1)) with O by lia.
        replace (i + 1 <? k) with false by lia.
        assert (EA : zassoc k (if zlen o =? 0 then cache else (i + 1, o) :: cache) =
                     match o with [] => zassoc k cache | x :: o' => Some (x :: o') end).
        { destruct o as [|x o]; [reflexivity|].
          replace (zlen (x :: o) =? 0) with false by (rewrite zlen_cons; pose proof (zlen_nonneg o); lia).
          cbn [zassoc]. rewrite Ek. reflexivity. }
        rewrite EA. cbn [nth_error].
        destruct (nth_error objs _) as [[|y o']|]; destruct o; reflexivity.
      * replace (Z.to_nat (k - i - 1)) with (S (Z.to_nat (k - (i + 1) - 1))) by lia.
        cbn [nth_error]. replace (i + 1 <? k) with true by lia.
        assert (EA : zassoc k (if zlen o =? 0 then cache else (i + 1, o) :: cache) = zassoc k cache).
        { destruct (zlen o =? 0); [reflexivity|]. cbn [zassoc]. rewrite Ek. reflexivity. }
        rewrite EA. reflexivity.
    + replace (i + 1 <? k) with false by lia.
      assert (EA : zassoc k (if zlen o =? 0 then cache else (i + 1, o) :: cache) = zassoc k cache).
      { destruct (zlen o =? 0); [reflexivity|]. cbn [zassoc].
        replace (k =? i + 1) with false by lia. reflexivity. }
      rewrite EA.
      destruct (nth_error (o :: objs) _) as [[|y o']|], (nth_error objs _) as [[|z o'']|]; reflexivity.
Qed.

Lemma length_heap_objects objs : forall n i, (List.length objs <= List.length (heap_objects n i objs))%nat.
Proof.
  induction objs as [|o objs IH]; intros n i; [cbn; lia|].
  rewrite heap_objects_cons, app_length. cbn [List.length].
  specialize (IH (n + zlen (heap_entry n i o)) (i + 1)).
  pose proof (zlen_heap_entry n i o) as H. unfold zlen at 1 in H.
  pose proof (zlen_nonneg o). pose proof (zlen_nonneg (pad8 (n + 16 + zlen o))). lia.
Qed.

Lemma heap_read n objs f addr b : globalHeap n objs = (addr, b) -> has_at f n b -> zlen f < 2 ^ 63 ->
  zlen objs <= 65535 -> forall k, 1 <= k ->
  readGlobalHeap f addr k =
  Ok (match nth_error objs (Z.to_nat (k - 1)) with Some (x :: o) => Some (x :: o) | _ => None end).
Proof.
  intros EG Hat Hf Hm k Hk. unfold globalHeap in EG. cbv zeta in EG.
  set (A := n + zlen (pad8 n)) in *.
  set (O := heap_objects (A + 16) 0 objs) in *.
  set (F := (if 16 + zlen O + 16 <? 4096 then 4096 else 16 + zlen O + 16) - (16 + zlen O)) in *.
  assert (HF : 16 <= F) by (unfold F; destruct (_ <? 4096) eqn:E; lia).
  set (fr := le 2 0 ++ le 2 0 ++ le 4 0 ++ le 8 F ++ zrep (F - 16) 0) in *.
  assert (LF : zlen fr = F) by (unfold fr; rewrite !zlen_app, !zlen_le, zlen_zrep; lia).
  assert (EA : addr = A) by congruence.
  assert (EB : b = pad8 n ++ bs "GCOL" ++ [1; 0; 0; 0] ++ le 8 (16 + zlen O + zlen fr) ++ O ++ fr)
    by congruence.
  clear EG. subst addr b. rewrite LF in *. pose proof (has_at_bound _ _ _ Hat) as [B0 B1].
  apply has_at_app_r in Hat. fold A in Hat.
  assert (HA8 : A mod 8 = 0) by (unfold A; rewrite zlen_pad8; lia).
  pose proof (has_at_bound _ _ _ Hat) as [B2 B3]. rewrite !zlen_app, LF, zlen_le in B3.
  change (zlen (bs "GCOL")) with 4 in B3. change (zlen [1; 0; 0; 0]) with 4 in B3.
  pose proof (zlen_nonneg O) as HO.
  unfold readGlobalHeap, readHeapCollection.
  set (H16 := bs "GCOL" ++ [1; 0; 0; 0] ++ le 8 (16 + zlen O + F)).
  assert (E16 : bs "GCOL" ++ [1; 0; 0; 0] ++ le 8 (16 + zlen O + F) ++ O ++ fr = H16 ++ (O ++ fr))
    by (unfold H16; rewrite <- !app_assoc; reflexivity).
  rewrite E16 in Hat.
  rewrite (newSeek_at f A H16 16 (has_at_app_l _ _ _ _ Hat) eq_refl eq_refl Hf). cbn [rbind].
  unfold H16 at 1. rewrite checkMagic_app. cbn [rbind app].
  rewrite read8_cons. cbn [rbind]. rewrite checkVal_same. cbn [rbind].
  change (0 :: 0 :: 0 :: le 8 (16 + zlen O + F)) with (zrep 3 0 ++ le 8 (16 + zlen O + F)).
  rewrite checkZeroes_zrep by reflexivity. cbn [rbind].
  rewrite <- (app_nil_r (le 8 (16 + zlen O + F))), read64_le by lia. cbn [rbind].
  rewrite (u64_small (16 + zlen O + F - 16)) by lia. rewrite (u64_small (A + 16)) by lia.
  rewrite (i64_small (16 + zlen O + F - 16)) by lia.
  apply has_at_app_r in Hat. change (zlen H16) with 16 in Hat.
  rewrite (newSeek_at f (A + 16) (O ++ fr) _ Hat) by (rewrite ?zlen_app; lia). cbn [rbind].
  assert (ER : heap_loop (S (List.length (O ++ fr))) (16 + zlen O + F - 16) [] (O ++ fr) =
               Ok (heap_result 0 objs [])).
  { unfold fr. apply (heap_loop_read objs (A + 16) 0 [] _ _ F); try lia.
    - fold O. lia.
    - rewrite app_length. pose proof (length_heap_objects objs (A + 16) 0). fold O in H. lia. }
  rewrite ER. cbn [rbind]. rewrite heap_result_lookup. replace (0 <? k) with true by lia.
  replace (k - 0 - 1) with (k - 1) by lia.
  destruct (nth_error objs _) as [[|x o]|]; reflexivity.
Qed.
