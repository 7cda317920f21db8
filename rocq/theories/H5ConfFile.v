(** The whole file that the writer makes conforms to the format: H5WholeProofs and H5ConfTree put together. *)
From Verif Require Import Prelude GoVal OrderedMapModel ArraySpec H5Base H5MetaWrite H5MetaRead H5Value H5TypeRead
  H5FileWrite H5PathModel H5LayoutModel H5RecordModel H5FileRead MetaSpec TypeSpec WriterSpec FileSpec BaseLemmas
  H5MetaProofs H5ChecksumProofs H5TypeProofs H5DataProofs H5StoreProofs H5VarProofs H5AttrProofs H5ObjectProofs
  H5TreeProofs H5SizeProofs H5HeapProofs H5GoodProofs H5PlaceProofs H5PrepareProofs H5WholeProofs H5ApiProofs H5FileProofs.
From Verif Require Import Lookup3Spec DenseSpec ForeignSpec ForeignTypeSpec ForeignMsgSpec ForeignValueSpec ForeignAttrSpec FormatSpec
  H5ForeignOpen H5ConfProofs H5ConfValue H5ConfGood H5ConfTree.
From Coq Require Import Lia ZifyBool ZifyNat Permutation.

Lemma Forall2_In_l {A B} (R : A -> B -> Prop) l m : Forall2 R l m -> forall x, In x l -> exists y, In y m /\ R x y.
Proof.
  induction 1 as [|x y l m H _ IH]; intros z Hz; [contradiction|]. destruct Hz as [<-|Hz]; [exists y; split; [left; reflexivity|exact H]|].
  destruct (IH z Hz) as (w & W1 & W2). exists w. split; [right; exact W1|exact W2].
Qed.

(** ** The superblock *)
Lemma ok_inj {A} (x y : A) : Ok x = Ok y -> x = y.
Proof. intros E. injection E as E. exact E. Qed.
Lemma render_super pick t f : render false pick t = Ok f -> zlen f < 2 ^ 63 ->
  exists root, superblock_is f root /\ 0 <= root < 2 ^ 63.
Proof.
  unfold render. intros E Hf.
  destruct (prepare t) as [t1| |]; try discriminate. cbn [rbind] in E. cbv zeta in E.
  destruct (writeVars _ _ _ _ _) as [[b1 dimAddrs]| |]; try discriminate. cbn [rbind] in E.
  destruct (buildHeap _ _ _ _) as [[b2 c]| |]; try discriminate. cbn [rbind] in E.
  destruct (groupContents _ _ _ _ _) as [[[b3 va] ga]| |]; try discriminate. cbn [rbind] in E.
  destruct (groupMessages _ _ _ _ _ _) as [ms| |]; try discriminate. cbn [rbind] in E.
  destruct (objectHeaderV2 ms) as [oh| |]; try discriminate. cbn [rbind] in E.
  pose proof (finalize_len _ _ _ E) as Hl. set (body := b1 ++ b2 ++ b3 ++ oh) in *. rewrite zlen_app in Hl.
  change (zlen superblockV2) with 48 in Hl.
  destruct (finalize_eq body (48 + zlen b1 + zlen b2 + zlen b3)) as (h & Eh & _ & Ef); [lia|].
  rewrite Ef in E. set (root := 48 + zlen b1 + zlen b2 + zlen b3) in *. clear Ef.
  assert (EF : f = sb_head (48 + zlen body) root ++ le 4 h ++ body) by congruence. clear E.
  assert (Hb : zlen body = zlen b1 + zlen b2 + zlen b3 + zlen oh) by (unfold body; rewrite !zlen_app; lia).
  pose proof (zlen_nonneg b1). pose proof (zlen_nonneg b2). pose proof (zlen_nonneg b3). pose proof (zlen_nonneg oh).
  change (2 ^ 63) with 9223372036854775808 in *. assert (R : 0 <= root < 9223372036854775808) by (unfold root; lia).
  exists root. split; [|exact R]. split; [unfold word; change (2 ^ 64) with 18446744073709551616; lia|].
  exists (48 + zlen body). split; [unfold word; change (2 ^ 64) with 18446744073709551616; lia|]. split; [lia|]. right.
  exists 2, 0. split; [left; reflexivity|]. split; [unfold word; lia|].
  rewrite checksum_lookup3 in Eh by (rewrite zlen_sb_head; reflexivity). apply ok_inj in Eh. subst h.
  set (head := sb_head (48 + zlen body) root) in *.
  assert (Eb : h5_signature ++ [2; 8; 8; 0] ++ le 8 0 ++ le 8 undefined ++ le 8 (48 + zlen body) ++ le 8 root = head).
  { unfold head, sb_head. change h5_magic with h5_signature. change invalidAddress with undefined. reflexivity. }
  rewrite Eb. clearbody head. clear Eb.
  exists [], body. split; [|reflexivity]. rewrite EF. unfold sealed. rewrite <- app_assoc. apply app_nil_l.
Qed.

(** ** Paths in the tree *)
Section Shown.
Variables (f : bytes) (c : wctx).
Notation shows := (shows f c).
Definition dataset_of (v : hvar) (a : Z) : Prop :=
  dataset_as f a (dims_of v) (hv_val v) (attr_list (hv_attrs v) ++ dim_attr c v) /\ no_fill f a.
Definition group_names (g : wtree) : Prop := NoDup (map fst (w_groups g)).

Lemma shows_located p : forall a0 u0 a u t q, located a0 u0 p a u -> shows t a0 u0 -> tall (fun _ => group_names) q t ->
  (exists g, walk t p = Some g /\ shows g a u) \/
  (exists r n g v, p = r ++ [n] /\ walk t r = Some g /\ In (n, v) (w_vars g) /\ u = FData (dims_of v) /\ dataset_of v a).
Proof.
  induction p as [|name p IH]; intros a0 u0 a u t q HL Hs Ht.
  - inversion HL; subst. left. exists t. split; [reflexivity|exact Hs].
  - inversion HL as [|? kids ? a1 u1 ? ? ? Hin HL']; subst. inversion Hs as [at_ vs gs a2 vk gk Ha Hv Hg]; subst.
    apply in_app_or in Hin. destruct Hin as [Hin|Hin].
    + destruct (Forall2_In_r _ _ _ Hv _ Hin) as ([n v] & Hnv & E1 & E2 & E3). cbn [fst snd] in *. subst. right.
      inversion HL'; subst. exists [], n, (WNode at_ vs gs), v. split; [reflexivity|]. split; [reflexivity|]. split; [exact Hnv|].
      split; [reflexivity|exact E3].
    + destruct (Forall2_In_r _ _ _ Hg _ Hin) as ([n g] & Hng & E1 & E2). cbn [fst snd] in *. subst n.
      pose proof (tall_here _ _ _ Ht) as Hn. unfold group_names in Hn. cbn [w_groups] in Hn.
      destruct (proj1 (tall_eq _ _ _ _ _) Ht) as [_ Ht2]. pose proof (proj1 (talls_iff _ _ _) Ht2 _ Hng) as Ht3. cbn [fst snd] in Ht3.
      assert (Ew : forall r, walk (WNode at_ vs gs) (name :: r) = walk g r).
      { intros r. cbn [walk w_groups]. rewrite (In_assoc _ _ _ Hn Hng). reflexivity. }
      destruct (IH _ _ _ _ _ _ HL' E2 Ht3) as [(g' & W1 & W2)|(r & n & g' & v & W1 & W2 & W3 & W4 & W5)].
      * left. exists g'. rewrite Ew. auto.
      * right. exists (name :: r), n, g', v. rewrite Ew. subst p. auto.
Qed.
Lemma walk_located p : forall t a0 u0 g, shows t a0 u0 -> walk t p = Some g -> exists a u, located a0 u0 p a u /\ shows g a u.
Proof.
  induction p as [|name p IH]; intros t a0 u0 g Hs W.
  - injection W as <-. exists a0, u0. split; [constructor|exact Hs].
  - inversion Hs as [at_ vs gs a2 vk gk Ha Hv Hg]; subst. cbn [walk w_groups] in W.
    destruct (assoc name gs) as [g1|] eqn:E; [|discriminate]. apply assoc_Some_In in E.
    destruct (Forall2_In_l _ _ _ Hg _ E) as ([[n a1] u1] & Hin & E1 & E2). cbn [fst snd] in *. subst n.
    destruct (IH _ _ _ _ E2 W) as (a & u & L & Sh). exists a, u. split; [|exact Sh].
    eapply located_below; [apply in_or_app; right; exact Hin|exact L].
Qed.
Lemma located_app a0 u0 p a u : located a0 u0 p a u -> forall q b w, located a u q b w -> located a0 u0 (p ++ q) b w.
Proof. induction 1; intros q b w H'; [exact H'|]. cbn [app]. eapply located_below; [eassumption|auto]. Qed.
Lemma var_located p t a0 u0 g n v : shows t a0 u0 -> walk t p = Some g -> In (n, v) (w_vars g) ->
  exists a, located a0 u0 (p ++ [n]) a (FData (dims_of v)).
Proof.
  intros Hs W Hin. destruct (walk_located p t a0 u0 g Hs W) as (a & u & L & Sh).
  inversion Sh as [at_ vs gs a2 vk gk Ha Hv Hg]; subst. cbn [w_vars] in Hin.
  destruct (Forall2_In_l _ _ _ Hv _ Hin) as ([[m b] w] & Hk & E1 & E2 & _). cbn [fst snd] in *. subst.
  exists b. eapply located_app; [exact L|]. eapply located_below; [apply in_or_app; left; exact Hk|constructor].
Qed.
Lemma shows_attrs g a u : shows g a u -> attrs_in_header f a (attr_list (w_attrs g)) /\ exists ks, u = FGroup ks.
Proof. intros H. inversion H; subst. split; [assumption|]. eexists. reflexivity. Qed.
End Shown.

(** ** The file *)
Theorem whole_conf D S pick t f : render false pick t = Ok f -> zlen f < 2 ^ 63 -> tree_fine D S t ->
  (forall t1, prepare t = Ok t1 -> orders_ok t1 (pick t1)) ->
  exists t1 c root kids, prepare t = Ok t1 /\ superblock_is f root /\ shows f c (sort_tree t1) root (FGroup kids) /\
    NoDup (root :: below (FGroup kids)) /\ (exists n, object_is f message_is n root (FGroup kids)) /\
    tall (fun _ => group_names) [] (sort_tree t1) /\
    (forall d, dim_of t d -> exists u, In (d, addr_of c d, u) kids).
Proof.
  intros E Hf TF Ho.
  destruct (whole_facts D S pick t f E Hf TF Ho) as (t1 & addrs & n & b & c & e & hf & vas & ga & L & root & PL).
  set (o := pick t1) in *. destruct PL as [E1 HF Hst Hcount Hs Nds Hc' Hh [Hnd Hrange] HLn Hrb Sb Dim].
  set (heap := pure_heap (he_addr e) (hs_objs hf)).
  assert (Hg : heap_gives heap (he_addr e) hf).
  { apply pure_heap_gives; [|exact Hcount]. destruct Hst as [[_ ->]|(n' & b' & G1 & G2)]; [lia|].
    destruct (heap_collection f n' _ _ _ G1 G2 Hcount) as [_ B]. change (2 ^ 64) with 18446744073709551616. change (2 ^ 63) with 9223372036854775808 in Hf. lia. }
  assert (Ht : tells (in_global_heap f) heap) by (apply pure_heap_tells; assumption).
  assert (Good : tall (node_conf f c) [] (sort_tree t1)).
  { eapply tall_mono; [|exact Nds].
    cbv beta. intros p g ((A & V & G & N & C & _ & N2) & TA & TV). pose proof (zlen_nonneg (attr_list (w_attrs g))) as Z0.
    split; [|split; [exact N2|split; [|split; [|split; [exact N|clear - C Z0; unfold hattrs in *; lia]]]]].
    - apply Forall_forall. intros [k w] Hk. rewrite Forall_forall in A. destruct (A _ Hk) as [P1 P2]. cbn [fst snd] in *.
      destruct (TA k w Hk) as [T1 T2].
      eapply (attr_conf f o addrs n b c e hf heap HF Hg Ht Hs); cbn [snd].
      + right. apply (hf_heap _ _ _ _ _ _ _ HF).
      + apply (hf_aix _ _ _ _ _ _ _ HF). exact T2.
      + reflexivity.
      + exact T1.
      + exact P1.
      + exact P2.
    - apply Forall_forall. intros v Hv. rewrite Forall_forall in V. destruct (V v Hv) as (V1 & V2 & (W1 & W2 & W3 & W4 & _)).
      destruct (TV v Hv) as (T1 & T2 & T3 & T4 & T5 & T6). split; [|exact W2].
      apply (var_conf f o addrs n b c e hf heap HF Hg Ht Hs); [exact T1|exact T2|exact T3|exact T4|exact T5|exact W1|eapply Z.le_trans; [exact W2|discriminate]|exact W3|exact T6].
    - apply Forall_app. split; apply Forall_forall; intros m Hm; apply in_map_iff in Hm; destruct Hm as (x & <- & Hx).
      + rewrite Forall_forall in V. apply (V x Hx).
      + rewrite Forall_forall in G. apply (G x Hx). }
  destruct (tree_conf f c Hf (sort_tree t1) [] vas ga L root Good Hc' Hh) as (kids & K1 & K2 & K3 & K4).
  destruct (render_super pick t f E Hf) as (root' & R1 & R2).
  assert (Er : root' = root).
  { pose proof (superblock_read f root' (fun _ => Ok tt) R1) as X. rewrite (Sb (fun _ => Ok tt)) in X. symmetry. apply ok_inj. apply X; [|exact Hf].
    unfold undefined. change (2 ^ 64) with 18446744073709551616. change (2 ^ 63) with 9223372036854775808 in R2. lia. }
  subst root'. exists t1, c, root, kids. split; [exact E1|]. split; [exact R1|]. split; [exact K1|]. split.
  { rewrite K3. constructor; [|exact Hnd]. intros Hi. rewrite Forall_forall in Hrange. specialize (Hrange _ Hi). cbv beta in Hrange. lia. }
  split; [exists (Datatypes.S (List.length L)); apply K4; apply Nat.lt_succ_diag_r|]. split.
  { eapply tall_mono; [|exact Good]. cbv beta. intros p g (_ & _ & _ & _ & N & _). exact (proj1 (proj2 (app_NoDup_l _ _ N))). }
  intros d Hd. destruct (Dim d Hd) as (v & ad & _ & _ & Hva & Ead & _). rewrite Ead.
  assert (Hi : In (d, ad) (map fst kids)) by (rewrite K2; apply in_or_app; left; exact Hva).
  apply in_map_iff in Hi. destruct Hi as ([[d' ad'] u] & E3 & Hi). cbn [fst] in E3. exists u. injection E3 as -> ->. exact Hi.
Qed.
