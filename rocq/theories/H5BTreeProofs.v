(** Every record of a stored version-2 B-tree is visited once. *)
From Verif Require Import Prelude GoVal BaseLemmas H5Base H5ChecksumModel Lookup3Spec H5ChecksumProofs H5MetaWrite
  H5MetaRead MetaSpec H5MetaProofs H5DenseRead DenseSpec H5DenseProofs.
From Coq Require Import Lia ZifyBool ZifyNat Permutation.
Ltac Zify.zify_post_hook ::= Z.div_mod_to_equations.

(** The order in which the reader comes by the records: a node's own first *)
Fixpoint visit (t : btree) : list brec :=
  match t with BLeaf rs => rs | BNode rs cs => rs ++ flat_map visit cs end.

Fixpoint weave (rs : list brec) (cs : list btree) : list brec :=
  match cs with
  | [] => rs
  | c :: cs' => all c ++ match rs with [] => weave [] cs' | r :: rs' => r :: weave rs' cs' end
  end.
Lemma all_node rs cs : all (BNode rs cs) = weave rs cs.
Proof.
  cbn [all]. revert rs. induction cs as [|c cs IH]; intros rs; [reflexivity|].
  destruct rs; cbn [weave]; f_equal.
Qed.

Fixpoint btree_ind' (P : btree -> Prop) (HL : forall rs, P (BLeaf rs))
  (HN : forall rs cs, Forall P cs -> P (BNode rs cs)) (t : btree) : P t :=
  match t with
  | BLeaf rs => HL rs
  | BNode rs cs => HN rs cs ((fix go (cs : list btree) : Forall P cs :=
      match cs with [] => Forall_nil _ | c :: r => Forall_cons c (btree_ind' P HL HN c) (go r) end) cs)
  end.

Lemma visit_all t : Permutation (visit t) (all t).
Proof.
  induction t as [rs|rs cs IH] using btree_ind'; [apply Permutation_refl|].
  rewrite all_node. cbn [visit]. revert rs. induction IH as [|c cs Hc _ IHcs]; intros rs; cbn [flat_map weave].
  - rewrite app_nil_r. apply Permutation_refl.
  - destruct rs as [|r rs].
    + cbn [app]. apply Permutation_app; [exact Hc|]. apply (IHcs []).
    + rewrite app_assoc. cbn [app]. etransitivity; [|apply Permutation_middle]. apply perm_skip.
      etransitivity; [apply Permutation_app_tail, Permutation_app_comm|]. rewrite <- app_assoc.
      apply Permutation_app; [exact Hc|apply IHcs].
Qed.

Lemma rfold_app {S A} (g : A -> S -> res S) l1 l2 st :
  rfold g (l1 ++ l2) st = let* st' := rfold g l1 st in rfold g l2 st'.
Proof.
  revert st. induction l1 as [|x l1 IH]; intros st; [reflexivity|]. cbn [app rfold].
  destruct (g x st); cbn [rbind]; [apply IH|reflexivity|reflexivity].
Qed.
Lemma rfold_ext {S A} (g h : A -> S -> res S) l : Forall (fun x => forall st, g x st = h x st) l ->
  forall st, rfold g l st = rfold h l st.
Proof.
  induction 1 as [|x l Hx _ IH]; intros st; [reflexivity|]. cbn [rfold]. rewrite Hx.
  destruct (h x st); [apply IH|reflexivity|reflexivity].
Qed.

Section BTree.
  Context {S : Type} (f : bytes) (onLink onAttr : Z -> Z -> Z -> S -> res S) (lh ah : option fheap).
  Context (ty : Z) (rec_bytes : brec -> bytes) (bits N R : Z).
  (** what reading a record does *)
  Context (run : brec -> S -> res S).
  Hypothesis Hf : zlen f < 2 ^ 63.
  Hypothesis HN : word 32 N.
  Hypothesis HR : 0 < R < 2 ^ 16.
  Hypothesis Hlen : forall r, zlen (rec_bytes r) = R.
  Hypothesis Hrun : forall r tl st, brec_ok bits r ->
    readRecord f onLink onAttr lh ah ty (rec_bytes r ++ tl) st = let* st := run r st in Ok (st, tl).

  Lemma zlen_recs rs : zlen (flat_map rec_bytes rs) = zlen rs * R.
  Proof.
    induction rs as [|r rs IH]; [reflexivity|]. cbn [flat_map]. rewrite zlen_app, zlen_cons, IH, Hlen. lia.
  Qed.

  Lemma records_read rs : Forall (brec_ok bits) rs -> forall tl st,
    readRecords f onLink onAttr lh ah (List.length rs) ty (flat_map rec_bytes rs ++ tl) st =
      let* st := rfold run rs st in Ok (st, tl).
  Proof.
    induction 1 as [|r rs Hr _ IH]; intros tl st; [reflexivity|]. cbn [List.length readRecords flat_map rfold].
    rewrite <- app_assoc, Hrun by exact Hr. destruct (run r st) as [st'| |]; cbn [rbind]; [apply IH|reflexivity|reflexivity].
  Qed.

  Lemma numRecords_ok rs tl n : n = zlen rs -> numRecords n (flat_map rec_bytes rs ++ tl) = List.length rs.
  Proof.
    intros ->. unfold numRecords. rewrite zlen_app, zlen_recs. pose proof (zlen_nonneg tl). pose proof (zlen_nonneg rs).
    unfold zlen at 1. unfold zlen in H0 at 1. assert (Z.of_nat (List.length rs) <= zlen rs * R) by (unfold zlen; nia).
    lia.
  Qed.

  Lemma leaf_read a rs st : tree_at f ty rec_bytes bits N R O a (BLeaf rs) ->
    readBTreeLeaf f onLink onAttr lh ah a (zlen rs) R st = rfold run rs st.
  Proof.
    intros H. inversion H as [a' rs' Hok Hne Hsz Hat|]; subst a' rs'.
    rewrite zlen_sealed in Hsz. unfold word in HN.
    assert (Hz : zlen (leaf_bytes ty rec_bytes rs) = 6 + zlen rs * R).
    { unfold leaf_bytes. rewrite !zlen_app, zlen_recs. change (zlen (bs "BTLF")) with 4. change (zlen [0; ty]) with 2. lia. }
    pose proof (zlen_nonneg rs) as H0.
    assert (Hs : zlen rs <= zlen rs * R) by nia.
    unfold readBTreeLeaf. cbv zeta. rewrite (i64_small (zlen rs)) by lia.
    rewrite i64_small by lia. rewrite <- Hz.
    rewrite (sealed_sum f a _ Hat Hf) by lia. unfold sealed in Hat.
    rewrite (newSeek_at f a (leaf_bytes ty rec_bytes rs)); [|exact (has_at_app_l _ _ _ _ Hat)|reflexivity|lia|exact Hf].
    cbn [rbind]. unfold leaf_bytes. rewrite checkMagic_app. cbn [rbind app].
    rewrite read8_cons. cbn [rbind]. rewrite read8_cons. cbn [rbind].
    rewrite <- (app_nil_r (flat_map rec_bytes rs)). rewrite numRecords_ok by reflexivity.
    rewrite records_read by exact Hok. destruct (rfold run rs st); reflexivity.
  Qed.

  Lemma max_leaf_small : count_width N R = 1 -> max_leaf N R < 256.
  Proof.
    unfold count_width, width. intros H. destruct (Z_lt_le_dec (max_leaf N R) 256) as [L|L]; [exact L|].
    assert (8 <= Z.log2 (max_leaf N R)) by (change 8 with (Z.log2 256); apply Z.log2_le_mono; exact L). lia.
  Qed.

  Lemma pointer_len d p : 0 <= count_width N R -> 0 <= total_width N R d ->
    zlen (pointer_bytes N R d p) = 8 + count_width N R + total_width N R d.
  Proof.
    intros H1 H2. unfold pointer_bytes. rewrite !zlen_app, !zlen_le. lia.
  Qed.
  Lemma zlen_pointers d ps : 0 <= count_width N R -> 0 <= total_width N R d ->
    zlen (flat_map (pointer_bytes N R d) ps) = zlen ps * (8 + count_width N R + total_width N R d).
  Proof.
    intros H1 H2. induction ps as [|p ps IH]; [reflexivity|]. cbn [flat_map].
    rewrite zlen_app, zlen_cons, IH, pointer_len by assumption. lia.
  Qed.

  Lemma own_small d a t : count_width N R = 1 -> 0 <= total_width N R (pred d) ->
    tree_at f ty rec_bytes bits N R d a t -> 0 < zlen (own t) < 256.
  Proof.
    intros Hw Ht H. pose proof (max_leaf_small Hw) as Hm. unfold max_leaf in Hm.
    assert (G : zlen (own t) * R + 10 <= N /\ 0 < zlen (own t)).
    { inversion H as [a' rs Hok Hne Hsz Hat|d' a' rs ps Hok Hne Hps Hsz Hat Hall]; subst; cbn [own].
      - split; [|destruct rs; [congruence|rewrite zlen_cons; pose proof (zlen_nonneg rs); lia]].
        rewrite zlen_sealed in Hsz. unfold leaf_bytes in Hsz. rewrite !zlen_app, zlen_recs in Hsz.
        change (zlen (bs "BTLF")) with 4 in Hsz. change (zlen [0; ty]) with 2 in Hsz. lia.
      - split; [|destruct rs; [congruence|rewrite zlen_cons; pose proof (zlen_nonneg rs); lia]].
        rewrite zlen_sealed in Hsz. unfold node_bytes in Hsz. cbn [pred] in Ht.
        rewrite !zlen_app, zlen_recs, zlen_pointers in Hsz by lia.
        change (zlen (bs "BTIN")) with 4 in Hsz. change (zlen [0; ty]) with 2 in Hsz.
        assert (0 <= zlen ps * (8 + count_width N R + total_width N R d')) by (pose proof (zlen_nonneg ps); nia). lia. }
    destruct G as [G1 G2]. split; [exact G2|].
    assert (zlen (own t) <= (N - 10) / R); [|lia].
    apply Z.div_le_lower_bound; lia.
  Qed.

  Lemma read16_any z r : read16 (le 2 z ++ r) = Ok (of_le (le 2 z), r).
  Proof. unfold read16, pbind. rewrite rd_app by (rewrite zlen_le; reflexivity). reflexivity. Qed.
  Lemma le1 z : 0 <= z < 256 -> le 1 z = [z].
  Proof. intros H. cbn [le]. rewrite Z.mod_small by exact H. reflexivity. Qed.

  (** The children of a node of depth [d + 1], given how a child is read *)
  Lemma children_read d child ps : count_width N R = 1 -> total_width N R d = (match d with O => 0 | _ => 2 end) ->
    28 + R <= N ->
    Forall (fun p => word 64 (fst p) /\ 0 <= zlen (own (snd p)) < 256 /\
                     forall st, child (fst p) (zlen (own (snd p))) st = rfold run (visit (snd p)) st) ps ->
    forall st, readChildren (List.length ps) (Z.of_nat d + 1) R N child (flat_map (pointer_bytes N R d) ps) st =
      rfold run (flat_map visit (map snd ps)) st.
  Proof.
    intros Hw Ht HNR. pose proof (max_leaf_small Hw) as Hm. unfold max_leaf in Hm.
    assert (Hmax : (u32 (N - 26) / (R + 16) <? 256) = true).
    { unfold word in HN. unfold u32. rewrite Z.mod_small by lia.
      assert ((N - 26) / (R + 16) <= (N - 10) / R); [|lia].
      apply Z.div_le_lower_bound; [lia|].
      pose proof (Z.mul_div_le (N - 26) (R + 16) ltac:(lia)).
      assert (0 <= (N - 26) / (R + 16)) by (apply Z.div_pos; lia). nia. }
    induction 1 as [|p ps (H1 & H2 & H3) _ IH]; intros st; [reflexivity|].
    cbn [List.length readChildren flat_map map]. unfold pointer_bytes at 1. rewrite <- !app_assoc.
    rewrite read64_le by exact H1. cbn [rbind]. rewrite Hmax, passert_true. cbn [rbind].
    rewrite Hw. change (Z.to_nat 1) with 1%nat. rewrite le1 by exact H2. cbn [app].
    rewrite read8_cons. cbn [rbind]. rewrite H3, rfold_app.
    destruct (rfold run (visit (snd p)) st) as [st'| |]; cbn [rbind]; [|reflexivity|reflexivity].
    rewrite Ht. destruct d as [|d].
    - change (1 <? Z.of_nat 0 + 1) with false. change (Z.to_nat 0) with 0%nat. cbn [le app rbind]. apply IH.
    - replace (1 <? Z.of_nat (Datatypes.S d) + 1) with true by lia. change (Z.to_nat 2) with 2%nat.
      rewrite read16_any. cbn [rbind]. apply IH.
  Qed.

  Lemma internal_read d : forall a t st, usual_widths N R (Datatypes.S d) ->
    tree_at f ty rec_bytes bits N R (Datatypes.S d) a t ->
    readBTreeInternal f onLink onAttr lh ah d a (zlen (own t)) R N st = rfold run (visit t) st.
  Proof.
    induction d as [|d IH]; intros a t st [Hw Htw] H;
      inversion H as [|d' a' rs ps Hok Hne Hps Hsz Hat Hall]; subst d' a' t; cbn [own visit].
    - (* children are leaves *)
      set (d := 0%nat) in *.
      assert (Hn : zlen rs <> 0) by (destruct rs; [congruence|rewrite zlen_cons; pose proof (zlen_nonneg rs); lia]).
      pose proof (zlen_nonneg rs) as H0. rewrite zlen_sealed in Hsz. unfold word in HN.
      assert (Hz : zlen (node_bytes ty rec_bytes N R d rs ps) = 6 + zlen rs * R + (zlen rs + 1) * (9 + 0)).
      { unfold node_bytes. rewrite !zlen_app, zlen_recs, zlen_pointers by (rewrite ?Hw; cbn; lia).
        rewrite Hps, Hw. change (total_width N R d) with 0. change (zlen (bs "BTIN")) with 4.
        change (zlen [0; ty]) with 2. lia. }
      assert (HNR : 28 + R <= N) by (rewrite Hz in Hsz; nia).
      cbn [readBTreeInternal d]. cbv zeta. change (1 <? Z.of_nat 0 + 1) with false. cbv iota.
      rewrite <- Hz. rewrite (sealed_sum f a _ Hat Hf) by lia. unfold sealed in Hat.
      rewrite (newSeek_at f a (node_bytes ty rec_bytes N R d rs ps));
        [|exact (has_at_app_l _ _ _ _ Hat)|reflexivity|rewrite Hz; nia|exact Hf].
      cbn [rbind]. unfold node_bytes. rewrite checkMagic_app. cbn [rbind app].
      rewrite read8_cons. cbn [rbind]. rewrite checkVal_same. cbn [rbind]. rewrite read8_cons. cbn [rbind].
      rewrite numRecords_ok by reflexivity. rewrite records_read by exact Hok. rewrite rfold_app.
      destruct (rfold run rs st) as [st'| |]; cbn [rbind]; [|reflexivity|reflexivity].
      replace (Z.to_nat (zlen rs + 1)) with (List.length ps) by (unfold zlen in *; lia).
      rewrite (children_read 0 _ ps Hw eq_refl HNR).
      + destruct (rfold run (flat_map visit (map snd ps)) st'); reflexivity.
      + eapply Forall_impl; [|exact Hall]. cbv beta. intros p [P1 P2].
        pose proof (own_small 0 (fst p) (snd p) Hw ltac:(cbn; lia) P2) as P3.
        split; [exact P1|]. split; [lia|]. intros st0.
        inversion P2 as [a0 rs0 X1 X2 X3 X4 X5 X6 X7|]; subst. cbn [own visit]. apply leaf_read. rewrite X7. exact P2.
    - (* children are nodes *)
      assert (Hn : zlen rs <> 0) by (destruct rs; [congruence|rewrite zlen_cons; pose proof (zlen_nonneg rs); lia]).
      pose proof (zlen_nonneg rs) as H0. rewrite zlen_sealed in Hsz. unfold word in HN.
      assert (Ht2 : total_width N R (Datatypes.S d) = 2) by (apply Htw; lia).
      assert (Hz : zlen (node_bytes ty rec_bytes N R (Datatypes.S d) rs ps) = 6 + zlen rs * R + (zlen rs + 1) * (9 + 2)).
      { unfold node_bytes. rewrite !zlen_app, zlen_recs, zlen_pointers by (rewrite ?Hw, ?Ht2; lia).
        rewrite Hps, Hw, Ht2. change (zlen (bs "BTIN")) with 4.
        change (zlen [0; ty]) with 2. lia. }
      assert (HNR : 28 + R <= N) by (rewrite Hz in Hsz; nia).
      cbn [readBTreeInternal]. cbv zeta. replace (1 <? Z.of_nat (Datatypes.S d) + 1) with true by lia. cbv iota.
      rewrite <- Hz. rewrite (sealed_sum f a _ Hat Hf) by lia. unfold sealed in Hat.
      rewrite (newSeek_at f a (node_bytes ty rec_bytes N R (Datatypes.S d) rs ps));
        [|exact (has_at_app_l _ _ _ _ Hat)|reflexivity|rewrite Hz; nia|exact Hf].
      cbn [rbind]. unfold node_bytes. rewrite checkMagic_app. cbn [rbind app].
      rewrite read8_cons. cbn [rbind]. rewrite checkVal_same. cbn [rbind]. rewrite read8_cons. cbn [rbind].
      rewrite numRecords_ok by reflexivity. rewrite records_read by exact Hok. rewrite rfold_app.
      destruct (rfold run rs st) as [st'| |]; cbn [rbind]; [|reflexivity|reflexivity].
      replace (Z.to_nat (zlen rs + 1)) with (List.length ps) by (unfold zlen in *; lia).
      rewrite (children_read (Datatypes.S d) _ ps Hw Ht2 HNR).
      + destruct (rfold run (flat_map visit (map snd ps)) st'); reflexivity.
      + eapply Forall_impl; [|exact Hall]. cbv beta. intros p [P1 P2].
        assert (Htd : 0 <= total_width N R d).
        { destruct d as [|d']; [cbn; lia|]. rewrite Htw by lia. lia. }
        pose proof (own_small (Datatypes.S d) (fst p) (snd p) Hw Htd P2) as P3.
        split; [exact P1|]. split; [lia|]. intros st0. apply IH; [|exact P2].
        split; [exact Hw|]. intros k Hk. apply Htw. lia.
  Qed.

  Theorem tree_read a d t st : btree_at f ty rec_bytes bits N R a d t -> usual_widths N R d ->
    readBTree f onLink onAttr lh ah a st = rfold run (visit t) st.
  Proof.
    intros (_ & _ & sp & mg & root & Hsp & Hmg & Hroot & Htree & Hd & Htot & Hat) Hw.
    set (hd := bs "BTHD" ++ [0; ty] ++ le 4 N ++ le 2 R ++ le 2 (Z.of_nat d) ++
                          [sp; mg] ++ le 8 root ++ le 2 (zlen (own t)) ++ le 8 (zlen (all t))) in *.
    assert (Hhd : zlen hd = 34).
    { unfold hd. rewrite !zlen_app, !zlen_le. reflexivity. }
    unfold word in *.
    assert (Hown : 0 < zlen (own t) < 256).
    { destruct Hw as [Hw1 Hw2]. apply (own_small d root t Hw1); [|exact Htree].
      destruct d as [|[|d]]; [cbn; lia|cbn; lia|]. cbn [pred]. rewrite Hw2; lia. }
    pose proof (zlen_nonneg (all t)) as Hall0.
    unfold readBTree. pose proof (sealed_sum f a _ Hat Hf ltac:(rewrite Hhd; lia)) as Hsum. rewrite Hhd in Hsum.
    unfold sealed in Hat.
    rewrite (newSeek_part _ _ _ _ 36 Hat); [|rewrite Hhd; change (zlen (le 4 (lookup3 hd))) with 4; lia|lia|exact Hf].
    cbn [rbind]. unfold hd at 1. rewrite <- !app_assoc. rewrite checkMagic_app. cbn [rbind app].
    rewrite read8_cons. cbn [rbind]. rewrite checkVal_same. cbn [rbind]. rewrite read8_cons. cbn [rbind].
    rewrite read32_le' by exact HN. cbn [rbind]. rewrite read16_le by lia. cbn [rbind].
    rewrite read16_le by lia. cbn [rbind app]. rewrite read8_cons. cbn [rbind]. rewrite read8_cons. cbn [rbind].
    rewrite read64_le by exact Hroot. cbn [rbind]. rewrite read16_le by lia. cbn [rbind].
    rewrite read64_le by lia. cbn [rbind]. rewrite Hsum. cbn [rbind].
    destruct d as [|d].
    - change (0 <? Z.of_nat 0) with false. cbv iota.
      inversion Htree as [a0 rs X1 X2 X3 X4 X5 X6|]; subst. cbn [visit all]. apply leaf_read. exact Htree.
    - replace (0 <? Z.of_nat (Datatypes.S d)) with true by lia. cbv iota.
      replace (Z.to_nat (Z.of_nat (Datatypes.S d) - 1)) with d by lia.
      apply internal_read; assumption.
  Qed.
End BTree.

(** ** The two kinds of records *)
Lemma link_rec_len r : zlen (link_rec r) = 11.
Proof. unfold link_rec. rewrite !zlen_app, !zlen_le. reflexivity. Qed.
Lemma attr_rec_len r : zlen (attr_rec r) = 17.
Proof. unfold attr_rec. rewrite !zlen_app, !zlen_le. reflexivity. Qed.

Lemma link_record_read {S} f (onLink onAttr : Z -> Z -> Z -> S -> res S) lh ah r tl st : brec_ok 32 r ->
  readRecord f onLink onAttr lh ah 5 (link_rec r ++ tl) st =
    let* st := readLinkData f lh onLink (br_off r) (br_len r) 0 st in Ok (st, tl).
Proof.
  intros (H1 & H2 & H3 & H4 & H5). unfold word in *. unfold readRecord. change (5 =? 5) with true. cbv iota.
  unfold link_rec. rewrite <- !app_assoc. rewrite read32_le' by exact H4. cbn [rbind app].
  rewrite read8_cons. cbn [rbind]. change (Z.land (Z.shiftr 0 4) 3) with 0. rewrite checkVal_same. cbn [rbind].
  rewrite read32_le' by exact H1. cbn [rbind]. rewrite read16_le by exact H2. reflexivity.
Qed.

Lemma split5 z : 0 <= z < 2 ^ 40 -> Z.lor (of_le (le 4 z)) (Z.shiftl (z / 256 / 256 / 256 / 256 mod 256) 32) = z.
Proof.
  intros H. rewrite of_le_le. change (256 ^ Z.of_nat 4) with (2 ^ 32).
  rewrite !Z.div_div by lia. change (256 * (256 * (256 * 256))) with (2 ^ 32).
  rewrite (Z.mod_small (z / 2 ^ 32)) by lia.
  rewrite <- Z.land_ones by lia. rewrite <- Z.shiftr_div_pow2 by lia. rewrite <- Z.ldiff_ones_r by lia.
  rewrite Z.lor_comm. apply Z.lor_ldiff_and.
Qed.

Lemma attr_record_read {S} f (onLink onAttr : Z -> Z -> Z -> S -> res S) lh ah r tl st : brec_ok 40 r ->
  readRecord f onLink onAttr lh ah 8 (attr_rec r ++ tl) st =
    let* st := readLinkData f ah onAttr (br_off r) (br_len r) (br_order r) st in Ok (st, tl).
Proof.
  intros (H1 & H2 & H3 & H4 & H5). unfold word in *. unfold readRecord. change (8 =? 5) with false.
  change (8 =? 8) with true. cbv iota. unfold attr_rec. rewrite <- !app_assoc. cbn [app].
  rewrite read8_cons. cbn [rbind]. change (Z.land (Z.shiftr 0 4) 3) with 0. rewrite checkVal_same. cbn [rbind].
  rewrite le5, <- !app_assoc. rewrite read32_any. cbn [rbind app]. rewrite read8_cons. cbn [rbind].
  rewrite read16_le by exact H2. cbn [rbind app]. rewrite read8_cons. cbn [rbind].
  rewrite read32_le' by exact H3. cbn [rbind]. rewrite read32_le' by exact H4. cbn [rbind].
  rewrite split5 by exact H1. reflexivity.
Qed.

Lemma in_heap_data {S} f ha off addr h (on : Z -> Z -> Z -> S -> res S) len co st :
  in_heap f ha off addr -> zlen f < 2 ^ 63 -> readHeap f ha = Ok h ->
  readLinkData f (Some h) on off len co st = on (u64 addr) len co st.
Proof.
  intros H Hf Eh. destruct (heap_found _ _ _ _ H Hf) as (h' & b & o & E1 & E2 & E3).
  rewrite Eh in E1. injection E1 as <-. unfold readLinkData. rewrite E2. cbn [rbind]. rewrite E3. reflexivity.
Qed.

Theorem dense_links {S} f (onLink onAttr : Z -> Z -> Z -> S -> res S) ah N ha ba d t loc h st :
  zlen f < 2 ^ 63 -> btree_at f 5 link_rec 32 N 11 ba d t -> usual_widths N 11 d ->
  Forall (fun r => in_heap f ha (br_off r) (loc r)) (all t) -> readHeap f ha = Ok h ->
  readBTree f onLink onAttr (Some h) ah ba st =
    rfold (fun r st => onLink (u64 (loc r)) (br_len r) 0 st) (visit t) st.
Proof.
  intros Hf Hb Hw Hloc Eh. pose proof Hb as (HN & _).
  rewrite (tree_read f onLink onAttr (Some h) ah 5 link_rec 32 N 11
             (fun r st => readLinkData f (Some h) onLink (br_off r) (br_len r) 0 st) Hf HN ltac:(lia)
             link_rec_len (fun r tl st => link_record_read f onLink onAttr (Some h) ah r tl st) ba d t st Hb Hw).
  apply rfold_ext. eapply Permutation_Forall; [apply Permutation_sym, visit_all|].
  eapply Forall_impl; [|exact Hloc]. cbv beta. intros r Hr st'. eapply in_heap_data; eassumption.
Qed.
Theorem dense_attrs {S} f (onLink onAttr : Z -> Z -> Z -> S -> res S) lh N ha ba d t loc h st :
  zlen f < 2 ^ 63 -> btree_at f 8 attr_rec 40 N 17 ba d t -> usual_widths N 17 d ->
  Forall (fun r => in_heap f ha (br_off r) (loc r)) (all t) -> readHeap f ha = Ok h ->
  readBTree f onLink onAttr lh (Some h) ba st =
    rfold (fun r st => onAttr (u64 (loc r)) (br_len r) (br_order r) st) (visit t) st.
Proof.
  intros Hf Hb Hw Hloc Eh. pose proof Hb as (HN & _).
  rewrite (tree_read f onLink onAttr lh (Some h) 8 attr_rec 40 N 17
             (fun r st => readLinkData f (Some h) onAttr (br_off r) (br_len r) (br_order r) st) Hf HN ltac:(lia)
             attr_rec_len (fun r tl st => attr_record_read f onLink onAttr lh (Some h) r tl st) ba d t st Hb Hw).
  apply rfold_ext. eapply Permutation_Forall; [apply Permutation_sym, visit_all|].
  eapply Forall_impl; [|exact Hloc]. cbv beta. intros r Hr st'. eapply in_heap_data; eassumption.
Qed.
