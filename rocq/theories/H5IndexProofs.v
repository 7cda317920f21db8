(** The walk over the index of chunks finds the chunks that are asked for. *)
From Coq Require Import ZifyBool ZifyNat.
From Verif Require Import Prelude BaseLemmas GoVal ArraySpec ChunkSpec H5Base H5MetaWrite H5MetaRead
  H5ChecksumProofs H5LayoutModel H5ChunkProofs H5Value H5TypeRead H5RecordModel MetaSpec H5MetaProofs RecordSpec.

(** ** Positions *)

Lemma keyOffset_eq dt : 0 <= dt < 2 ^ 64 -> forall os ds, List.length os = List.length ds ->
  keyOffset os ds dt = (u64 (offset ds os * dt), u64 (volume ds * dt)).
Proof.
  intros Hdt. induction os as [|o os IH]; intros [|d ds] E; try discriminate; cbn [keyOffset offset volume].
  - rewrite Z.mul_0_l, Z.mul_1_l, (u64_small dt) by exact Hdt. reflexivity.
  - rewrite IH by (cbn [List.length] in E; lia). f_equal.
    + rewrite u64_mul_r, u64_add_l, u64_add_r. f_equal. ring.
    + rewrite u64_mul_l. f_equal. ring.
Qed.

Lemma runs_volume ds ls : runs ds ls -> volume ls = last ls 0 /\ 0 < volume ls.
Proof.
  induction 1 as [d l Hl Hm|d ds ls Hr [E P]]; [cbn; lia|].
  inversion Hr; subst; cbn [volume last] in *; lia.
Qed.

Lemma mod_plus k L x y : 0 < L -> x mod L = 0 -> y mod L = 0 -> (k * x + y) mod L = 0.
Proof.
  intros HL Hx Hy. apply Z.mod_divide in Hx; [|lia]. apply Z.mod_divide in Hy; [|lia]. apply Z.mod_divide; [lia|].
  apply Z.divide_add_r; [|exact Hy]. apply Z.divide_mul_r. exact Hx.
Qed.
Lemma mult_gap L a b : 0 < L -> a mod L = 0 -> b mod L = 0 -> a < b -> a + L <= b.
Proof.
  intros HL Ha Hb H. apply Z.mod_divide in Ha; [|lia]. apply Z.mod_divide in Hb; [|lia].
  destruct Ha as [x ->]. destruct Hb as [y ->].
  assert (x < y) by nia.
  assert ((x + 1) * L <= y * L) by (apply Z.mul_le_mono_nonneg_r; lia). lia.
Qed.

Lemma runs_mod ds ls : runs ds ls ->
  volume ds mod volume ls = 0 /\ (forall a, in_shape ds a -> aligned ls a -> offset ds a mod volume ls = 0).
Proof.
  induction 1 as [d l Hl Hm|d ds ls Hr [IV IO]].
  - cbn [volume]. rewrite !Z.mul_1_r. split; [exact Hm|]. intros a _ A. inversion A as [|? x ? r Hx A']; subst.
    inversion A'; subst. cbn [offset volume]. rewrite Z.mul_1_r, Z.add_0_r. exact Hx.
  - pose proof (proj2 (runs_volume _ _ Hr)) as P.
    change (volume (1 :: ls)) with (1 * volume ls). rewrite Z.mul_1_l. split.
    + cbn [volume]. pose proof (mod_plus d _ _ 0 P IV (Z.mod_0_l (volume ls) ltac:(lia))) as Q. rewrite Z.add_0_r in Q. exact Q.
    + intros a I A. inversion I as [|? x ? r Hx I']; subst. inversion A as [|? ? ? ? _ A']; subst. cbn [offset].
      apply mod_plus; [exact P|exact IV|]. exact (IO _ I' A').
Qed.

Lemma lex_gap ds ls a b : runs ds ls -> in_shape ds a -> aligned ls a -> in_shape ds b -> aligned ls b ->
  lex_lt a b -> offset ds a + volume ls <= offset ds b.
Proof.
  intros R Ia Aa Ib Ab H. pose proof (runs_mod _ _ R) as [_ M]. pose proof (proj2 (runs_volume _ _ R)) as P.
  apply mult_gap; [exact P|exact (M _ Ia Aa)|exact (M _ Ib Ab)|].
  pose proof (offset_lex _ _ _ Ia Ib H). lia.
Qed.

Lemma past_gap ds ls : runs ds ls -> Forall (fun d => 0 <= d) ds -> forall a b,
  Forall2 (fun x l => fst x + l <= snd x) (combine a b) ls -> List.length a = List.length ds -> List.length b = List.length ds ->
  offset ds a + volume ls <= offset ds b.
Proof.
  induction 1 as [d l Hl Hm|d ds ls Hr IH]; intros N a b F La Lb.
  - destruct a as [|x [|]]; try discriminate. destruct b as [|y [|]]; try discriminate.
    cbn [combine] in F. inversion F; subst. cbn [fst snd offset volume] in *. lia.
  - destruct a as [|x a]; try discriminate. destruct b as [|y b]; try discriminate. inversion N; subst.
    cbn [combine] in F. inversion F as [|? ? ? ? F1 F2]; subst. cbn [fst snd] in F1.
    specialize (IH ltac:(assumption) a b F2 ltac:(cbn [List.length] in *; lia) ltac:(cbn [List.length] in *; lia)).
    cbn [offset volume]. rewrite Z.mul_1_l.
    assert (0 <= volume ds).
    { clear -H2. induction H2; cbn [volume]; [lia|]. apply Z.mul_nonneg_nonneg; assumption. }
    assert (x * volume ds + volume ds <= y * volume ds).
    { replace (x * volume ds + volume ds) with ((x + 1) * volume ds) by ring. apply Z.mul_le_mono_nonneg_r; lia. }
    lia.
Qed.

Lemma follows_gap ds ls c next : runs ds ls -> Forall (fun d => 0 <= d) ds -> chunk_key ds ls c ->
  follows ds ls c next -> chunk_first ds c + volume ls <= chunk_first ds next.
Proof.
  intros R N [Ic Ac] [[[In An] L]|[F Ln]]; unfold chunk_first.
  - exact (lex_gap _ _ _ _ R Ic Ac In An L).
  - apply past_gap; try assumption. symmetry. exact (in_shape_length _ _ Ic).
Qed.

Lemma not_before ds k c : in_shape ds k -> in_shape ds c -> k = c \/ lex_lt k c -> offset ds k <= offset ds c.
Proof. intros Ik Ic [->|L]; [lia|]. pose proof (offset_lex _ _ _ Ik Ic L). lia. Qed.

(** ** Reading a node *)

Definition entry_of (k : key) (a : Z) : entry := mkEntry (k_size k) (k_mask k) (k_index k) a.

Lemma repeatP_S {A} (p : P A) n s : repeatP p (S n) s = let* (x, s) := p s in let* (r, s) := repeatP p n s in Ok (x :: r, s).
Proof. reflexivity. Qed.

Lemma repeatP_read64 l r : Forall (fun i => 0 <= i < 2 ^ 64) l ->
  repeatP read64 (List.length l) (List.concat (map (le 8) l) ++ r) = Ok (l, r).
Proof.
  induction 1 as [|x l Hx _ IH]; [reflexivity|]. cbn [List.length map List.concat].
  rewrite repeatP_S, <- app_assoc, read64_le by exact Hx. cbn [rbind]. rewrite IH. reflexivity.
Qed.

Lemma readKey_ok rank k r : key_fits rank k -> readKey (Z.of_nat rank + 1) (key_bytes k ++ r) = Ok (entry_of k 0, r).
Proof.
  intros (Hs & Hm & Hl & Hi). unfold readKey, key_bytes, pbind, pret. rewrite <- !app_assoc.
  rewrite read32_le' by exact Hs. cbn [rbind]. rewrite read32_le' by exact Hm. cbn [rbind].
  replace (Z.to_nat (Z.of_nat rank + 1 - 1)) with (List.length (k_index k)) by lia.
  rewrite repeatP_read64 by exact Hi. cbn [rbind]. rewrite read64_le by lia. reflexivity.
Qed.

Lemma readEntry_ok rank k a r : key_fits rank k -> 0 <= a < 2 ^ 64 ->
  readEntry (Z.of_nat rank + 1) (key_bytes k ++ le 8 a ++ r) = Ok (entry_of k a, r).
Proof.
  intros Hk Ha. unfold readEntry, pbind, pret. rewrite readKey_ok by exact Hk. cbn [rbind].
  rewrite read64_le by exact Ha. reflexivity.
Qed.

Lemma readEntries_ok rank es r : Forall (fun e => key_fits rank (fst e) /\ 0 <= snd e < 2 ^ 64) es ->
  repeatP (readEntry (Z.of_nat rank + 1)) (List.length es)
    (List.concat (map (fun e : key * Z => key_bytes (fst e) ++ le 8 (snd e)) es) ++ r)
  = Ok (map (fun e => entry_of (fst e) (snd e)) es, r).
Proof.
  induction 1 as [|e es [Hk Ha] _ IH]; [reflexivity|]. cbn [List.length map List.concat].
  rewrite repeatP_S, <- !app_assoc, readEntry_ok by assumption. cbn [rbind]. rewrite IH. reflexivity.
Qed.

Lemma zlen_concat_le8 l : zlen (List.concat (map (le 8) l)) = 8 * zlen l.
Proof. induction l as [|x r IH]; [reflexivity|]. cbn [map List.concat]. rewrite zlen_app, zlen_le, zlen_cons, IH. lia. Qed.
Lemma zlen_key rank k : key_fits rank k -> zlen (key_bytes k) = 16 + 8 * Z.of_nat rank.
Proof.
  intros (_ & _ & Hl & _). unfold key_bytes. rewrite !zlen_app, !zlen_le, zlen_concat_le8. unfold zlen. lia.
Qed.
Lemma zlen_entries rank es : Forall (fun e => key_fits rank (fst e) /\ 0 <= snd e < 2 ^ 64) es ->
  zlen (List.concat (map (fun e : key * Z => key_bytes (fst e) ++ le 8 (snd e)) es)) = zlen es * (24 + 8 * Z.of_nat rank).
Proof.
  induction 1 as [|e es [Hk _] _ IH]; [reflexivity|]. cbn [map List.concat].
  rewrite !zlen_app, zlen_le, (zlen_key _ _ Hk), zlen_cons, IH. lia.
Qed.

Lemma node_read f d a rank top first last_ fu level left right es k :
  zlen f < 2 ^ 63 -> d_rank d = Z.of_nat rank + 1 -> 0 <= level < 256 ->
  (top = true -> left = 2 ^ 64 - 1 /\ right = 2 ^ 64 - 1) ->
  node_fits rank level left right es k -> has_at f a (node_bytes level left right es k) ->
  readBTreeNodeAny (S fu) f d a top first last_ =
  walkEntries (fun a => readBTreeNodeAny fu f d a false first last_)
    (fun e => calculateFlatOffsetFromKeys (e_offsets e) (d_dims d) (d_elem d))
    level (u64 (d_number d * d_elem d)) (entry_of k 0) first last_ (map (fun e => entry_of (fst e) (snd e)) es).
Proof.
  intros Hf Hr Hlv Htop (Hn & Hl & Hr' & He & Hk) Hat. cbn [readBTreeNodeAny].
  set (head := bs "TREE" ++ le 1 1 ++ le 1 level ++ le 2 (zlen es) ++ le 8 left ++ le 8 right).
  set (body := List.concat (map (fun e : key * Z => key_bytes (fst e) ++ le 8 (snd e)) es) ++ key_bytes k).
  assert (E : node_bytes level left right es k = head ++ body) by (unfold node_bytes, head, body; rewrite <- !app_assoc; reflexivity).
  rewrite E in Hat. pose proof (has_at_app_l _ _ _ _ Hat) as H1. pose proof (has_at_app_r _ _ _ _ Hat) as H2.
  assert (Lh : zlen head = 24) by (unfold head; rewrite !zlen_app, !zlen_le; reflexivity).
  pose proof (zlen_nonneg es) as Pn.
  rewrite (newSeek_at _ _ _ _ H1) by lia. cbn [rbind]. unfold head. rewrite checkMagic_app. cbn [rbind].
  assert (R8 : forall z r, 0 <= z < 256 -> read8 (le 1 z ++ r) = Ok (z, r)).
  { intros z r Hz. cbn [le app]. rewrite Z.mod_small by lia. apply read8_cons. }
  rewrite R8 by lia. cbn [rbind]. rewrite checkVal_same. cbn [rbind]. rewrite R8 by lia. cbn [rbind].
  rewrite read16_le by lia. cbn [rbind]. rewrite read64_le by lia. cbn [rbind].
  rewrite <- (app_nil_r (le 8 right)), read64_le by lia. cbn [rbind].
  replace ((negb (left =? invalidAddress) || negb (right =? invalidAddress)) && top) with false.
  2: { destruct top; [|rewrite andb_false_r; reflexivity]. destruct (Htop eq_refl) as [-> ->]. reflexivity. }
  rewrite Hr. replace ((Z.of_nat rank + 1 <=? 0) || (zlen es =? 65535)) with false by lia. cbv zeta.
  assert (Lb : zlen body = zlen es * (24 + 8 * Z.of_nat rank) + 16 + 8 * Z.of_nat rank).
  { unfold body. rewrite zlen_app, (zlen_entries rank), (zlen_key rank) by assumption. lia. }
  replace (zlen es * (24 + 8 * (Z.of_nat rank + 1 - 1)) + 16 + 8 * (Z.of_nat rank + 1 - 1)) with (zlen body) by lia.
  rewrite Lh in H2. pose proof (has_at_bound _ _ _ H2). assert (0 < zlen body).
  { rewrite Lb. pose proof (Z.mul_nonneg_nonneg (zlen es) (24 + 8 * Z.of_nat rank)). lia. }
  rewrite u64_small by lia. rewrite (newSeek_at _ _ _ _ H2) by lia. cbn [rbind].
  replace (Z.to_nat (zlen es)) with (List.length es) by (unfold zlen; lia).
  unfold body. rewrite readEntries_ok by exact He. cbn [rbind].
  rewrite <- (app_nil_r (key_bytes k)), readKey_ok by exact Hk. reflexivity.
Qed.

(** ** The walk *)

Lemma ichunks_node level es last : ichunks (INode level es last) = flat_map (fun e => ichunks (snd e)) es.
Proof.
  cbn [ichunks]. induction es as [|[[k a] t] r IH]; [reflexivity|]. cbn [flat_map snd]. rewrite IH. reflexivity.
Qed.
Lemma idepth_node level es last m : (idepth (INode level es last) <= S m)%nat -> Forall (fun e => idepth (snd e) <= m)%nat es.
Proof.
  cbn [idepth]. intros H. apply le_S_n in H. induction es as [|[[k a] t] r IH]; constructor; cbn [snd].
  - lia.
  - apply IH. lia.
Qed.

Section Walk.
Variables (f : bytes) (d : dset) (ls : list Z) (first last_ : Z).
Notation dims := (d_dims d). Notation dt := (d_elem d). Notation n := (volume ls).
Hypothesis Hf : zlen f < 2 ^ 63.
Hypothesis Hrank : d_rank d = Z.of_nat (List.length dims) + 1.
Hypothesis Hnum : d_number d = n.
Hypothesis Hdt : 0 < dt.
Hypothesis Hdt2 : dt < 2 ^ 64.
Hypothesis Hruns : runs dims ls.
Hypothesis Hpos : Forall (fun x => 0 <= x) dims.
Hypothesis Hvol : volume dims * dt < 2 ^ 63.

Definition chunk_block (c : key * Z) : block :=
  mkBlock (snd c) (k_size (fst c)) (n * dt) (k_mask (fst c)) (k_index (fst c)) None.
Definition flat (e : entry) : Z := calculateFlatOffsetFromKeys (e_offsets e) dims dt.

Lemma chunk_room k : chunk_key dims ls k -> 0 <= chunk_first dims k /\ chunk_first dims k + n <= volume dims.
Proof.
  intros [I A]. destruct (offset_range _ _ I) as [R1 R2]. destruct (runs_mod _ _ Hruns) as [MV MO].
  unfold chunk_first. split; [exact R1|].
  apply mult_gap; [exact (proj2 (runs_volume _ _ Hruns))|exact (MO _ I A)|exact MV|lia].
Qed.

Lemma flat_of k a : List.length (k_index k) = List.length dims -> flat (entry_of k a) = u64 (chunk_first dims k * dt).
Proof.
  intros L. unfold flat, calculateFlatOffsetFromKeys, entry_of. cbn [e_offsets].
  rewrite keyOffset_eq by (lia || exact L). reflexivity.
Qed.

Lemma scale a b : a <= b -> a * dt <= b * dt.
Proof. intros H. apply Z.mul_le_mono_nonneg_r; lia. Qed.

Lemma flat_chunk k a : chunk_key dims ls k -> flat (entry_of k a) = chunk_first dims k * dt.
Proof.
  intros H. rewrite flat_of by (symmetry; exact (in_shape_length _ _ (proj1 H))). apply u64_small.
  destruct (chunk_room _ H) as [R1 R2]. pose proof (proj2 (runs_volume _ _ Hruns)).
  pose proof (scale 0 _ R1). pose proof (scale (chunk_first dims k) (volume dims)). lia.
Qed.

Lemma walk_leaf descend e es : Forall (fun c => chunk_key dims ls (fst c)) es ->
  walkEntries descend flat 0 (u64 (d_number d * dt)) e first last_ (map (fun e => entry_of (fst e) (snd e)) es)
  = Ok (map chunk_block (touching dims dt n first last_ es)).
Proof.
  induction 1 as [|[k a] es Hk _ IH]; [reflexivity|].
  cbn [map walkEntries fst snd]. fold (walkEntries descend flat 0 (u64 (d_number d * dt)) e first last_).
  cbn [fst] in Hk. destruct (chunk_room _ Hk) as [R1 R2]. pose proof (proj2 (runs_volume _ _ Hruns)) as Pn.
  pose proof (scale 0 _ R1). pose proof (scale _ _ R2).
  assert (0 < n * dt) by (apply Z.mul_pos_pos; assumption).
  rewrite Z.mul_add_distr_r in *.
  rewrite (flat_chunk _ _ Hk). change (0 =? 0) with true. change (0 <? 0) with false. cbv iota.
  rewrite Hnum, (u64_small (n * dt)) by lia. rewrite u64_small by lia.
  rewrite Hnum, (u64_small (n * dt)) in IH by lia.
  rewrite IH. cbn [touching filter fst snd]. cbv zeta.
  destruct (Z.leb_spec last_ (chunk_first dims k * dt)) as [L|L].
  - replace (chunk_first dims k * dt <? last_) with false by lia. reflexivity.
  - replace (chunk_first dims k * dt <? last_) with true by lia. cbn [orb andb].
    replace (0 <? chunk_first dims k * dt + n * dt) with true by lia. cbn [andb].
    destruct (Z.leb_spec (chunk_first dims k * dt + n * dt) first) as [M|M].
    + replace (first <? chunk_first dims k * dt + n * dt) with false by lia. reflexivity.
    + replace (first <? chunk_first dims k * dt + n * dt) with true by lia. reflexivity.
Qed.

Lemma touching_app a b : touching dims dt n first last_ (a ++ b) = touching dims dt n first last_ a ++ touching dims dt n first last_ b.
Proof. apply filter_app. Qed.
Lemma touching_none cs : Forall (fun c => last_ <= chunk_first dims (fst c) * dt \/ chunk_first dims (fst c) * dt + n * dt <= first) cs ->
  touching dims dt n first last_ cs = [].
Proof.
  induction 1 as [|c r H _ IH]; [reflexivity|]. cbn [touching filter]. cbv zeta.
  replace ((chunk_first dims (fst c) * dt <? last_) && (first <? chunk_first dims (fst c) * dt + n * dt)) with false by lia.
  exact IH.
Qed.

Lemma all_chunk_keys m : forall t, (idepth t <= m)%nat -> iordered dims ls dt t -> Forall (fun c => chunk_key dims ls (fst c)) (ichunks t).
Proof.
  induction m as [|m IH]; intros t D O; [destruct t; cbn [idepth] in D; lia|].
  destruct O as [es last H|level es last H _ _]; [exact H|].
  apply idepth_node in D. rewrite ichunks_node. apply Forall_flat_map. revert H D. clear -IH.
  induction es as [|e r IHr]; intros H D; constructor.
  - inversion H as [|? ? [H1 _] _]; inversion D; subst. apply IH; assumption.
  - inversion H; inversion D; subst. apply IHr; assumption.
Qed.

Lemma walk_node descend level lastk es : 0 < level ->
  List.length (k_index lastk) = List.length dims -> 0 <= chunk_first dims lastk -> chunk_first dims lastk * dt < 2 ^ 64 ->
  Forall (fun e => chunk_key dims ls (fst (fst e))) es ->
  Forall (fun e => Forall (fun c => chunk_key dims ls (fst c)) (ichunks (snd e))) es ->
  Forall (fun e => descend (snd (fst e)) = Ok (map chunk_block (touching dims dt n first last_ (ichunks (snd e))))) es ->
  Forall2 (fun e next =>
       Forall (fun c => (k_index (fst (fst e)) = k_index (fst c) \/
                         lex_lt (k_index (fst (fst e))) (k_index (fst c))) /\
                        follows dims ls (fst c) next) (ichunks (snd e)))
      es (tl (map (fun e => fst (fst e)) es ++ [lastk])) ->
  walkEntries descend flat level (u64 (d_number d * dt)) (entry_of lastk 0) first last_
    (map (fun e => entry_of (fst e) (snd e)) (map fst es))
  = Ok (map chunk_block (touching dims dt n first last_ (flat_map (fun e : key * Z * itree => ichunks (snd e)) es))).
Proof.
  intros Hlv Ll Ln Lb HK HC HD HF. rewrite map_map.
  induction es as [|[[k a] t] r IH]; [reflexivity|].
  inversion HK as [|? ? K1 K2]; subst. inversion HC as [|? ? C1 C2]; subst. inversion HD as [|? ? D1 D2]; subst.
  cbn [map tl app] in HF. cbn [fst snd] in K1, C1, D1.
  assert (HT : exists next more, map (fun e : key * Z * itree => fst (fst e)) r ++ [lastk] = next :: more /\
     (chunk_key dims ls next \/ next = lastk) /\ (forall b, exists a, match map (fun x : key * Z * itree => entry_of (fst (fst x)) (snd (fst x))) r with y :: _ => y | [] => entry_of lastk b end = entry_of next a)
     /\ more = tl (map (fun e : key * Z * itree => fst (fst e)) r ++ [lastk])).
  { destruct r as [|[[k' a'] t'] r']; cbn [map app].
    - exists lastk, []. repeat split; [right; reflexivity|]. intros b. exists b. reflexivity.
    - inversion K2; subst. eexists _, _. repeat split; [left; assumption|]. intros b. exists a'. reflexivity. }
  destruct HT as (next & more & ET & HN & HE & EM). rewrite ET in HF.
  inversion HF as [|? ? ? ? F1 F2]; subst x y l l'. cbn [fst snd] in F1.
  rewrite EM in F2. specialize (IH K2 C2 D2 F2).
  cbn [map walkEntries fst snd]. fold (walkEntries descend flat level (u64 (d_number d * dt)) (entry_of lastk 0) first last_).
  destruct (HE 0) as [a' HE']. rewrite HE', IH. clear HE HE'.
  cbn [flat_map]. rewrite touching_app, map_app. cbn [snd].
  replace (level =? 0) with false by lia. replace (0 <? level) with true by lia.
  rewrite (flat_chunk _ _ K1).
  assert (EN : flat (entry_of next a') = chunk_first dims next * dt).
  { destruct HN as [HN|HN]; [apply flat_chunk; exact HN|]. subst next. rewrite flat_of by exact Ll.
    apply u64_small. pose proof (scale _ _ Ln). lia. }
  change (e_addr (entry_of k a)) with a. rewrite EN, D1.
  assert (HB : Forall (fun c => chunk_first dims k * dt <= chunk_first dims (fst c) * dt /\
                          chunk_first dims (fst c) * dt + n * dt <= chunk_first dims next * dt) (ichunks t)).
  { clear -Hruns Hpos Hdt K1 C1 F1. revert C1 F1. generalize (ichunks t). intros cs C1 F1.
    induction cs as [|c cs IH]; constructor; inversion C1 as [|? ? X1 X2]; inversion F1 as [|? ? [Y1 Y2] Y3]; subst.
    - rewrite <- Z.mul_add_distr_r. split; apply scale; try assumption.
      + exact (not_before _ _ _ (proj1 K1) (proj1 X1) Y1).
      + exact (follows_gap _ _ _ _ Hruns Hpos X1 Y2).
    - apply IH; assumption. }
  cbv iota.
  destruct (Z.leb_spec last_ (chunk_first dims k * dt)) as [L|L].
  - rewrite (touching_none (ichunks t)); [reflexivity|].
    eapply Forall_impl; [|exact HB]. cbn beta. intros c [B1 B2]. left. lia.
  - cbn [orb]. destruct ((0 <? chunk_first dims next * dt) && (chunk_first dims next * dt <=? first)) eqn:E.
    + rewrite (touching_none (ichunks t)); [reflexivity|].
      eapply Forall_impl; [|exact HB]. cbn beta. intros c [B1 B2]. right. lia.
    + reflexivity.
Qed.

Lemma nonneg_offset ds : Forall (fun x => 0 <= x) ds -> forall os, Forall (fun i => 0 <= i < 2 ^ 64) os -> 0 <= offset ds os.
Proof.
  induction 1 as [|x ds Hx Hds IH]; intros os H; destruct os as [|o os]; cbn [offset]; try lia.
  inversion H; subst. specialize (IH os ltac:(assumption)).
  assert (0 <= volume ds).
  { clear -Hds. induction Hds; cbn [volume]; [lia|]. apply Z.mul_nonneg_nonneg; assumption. }
  assert (0 <= o * volume ds) by (apply Z.mul_nonneg_nonneg; lia). lia.
Qed.

Lemma walk_ok fu : forall t a top, stored f (List.length dims) top a t -> iordered dims ls dt t -> (idepth t <= fu)%nat ->
  readBTreeNodeAny fu f d a top first last_ = Ok (map chunk_block (touching dims dt n first last_ (ichunks t))).
Proof.
  induction fu as [|fu IH]; intros t a top HS HO HD; [destruct t; cbn [idepth] in HD; lia|].
  inversion HS as [top' a' left0 right0 es lastk HT HN HA|top' a' left0 right0 level es lastk HT HL HN HA HC]; subst top' a' t.
  - rewrite (node_read _ _ _ _ _ _ _ _ 0 _ _ _ _ Hf Hrank ltac:(lia) HT HN HA).
    inversion HO; subst. apply walk_leaf. assumption.
  - assert (HL' : 0 <= level < 256) by lia.
    rewrite (node_read _ _ _ _ _ _ _ _ level _ _ _ _ Hf Hrank HL' HT HN HA).
    inversion HO as [|? ? ? O1 O2 O3]; subst. rewrite ichunks_node. pose proof (idepth_node _ _ _ _ HD) as D.
    destruct HN as (_ & _ & _ & _ & (_ & _ & KL & KI)).
    apply walk_node; try assumption; [lia| | | |].
    + apply nonneg_offset; assumption.
    + eapply Forall_impl; [|exact O1]. cbn beta. tauto.
    + rewrite Forall_forall in *. intros e He. eapply all_chunk_keys; [exact (D e He)|exact (proj1 (O1 e He))].
    + rewrite Forall_forall in *. intros e He. apply IH; [exact (HC e He)|exact (proj1 (O1 e He))|exact (D e He)].
Qed.
End Walk.
