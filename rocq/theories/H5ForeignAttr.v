(** Lemmas: the attributes of objects of files of other writers, and the names of dimensions. *)
From Coq Require Import Lia ZifyBool ZifyNat Permutation.
From Verif Require Import Prelude BaseLemmas GoVal OrderedMapModel OrderedMapProofs ArraySpec H5Base H5MetaRead H5Value H5TypeRead H5RecordModel
  MetaSpec DenseSpec PathSpec ForeignSpec ForeignTypeSpec ForeignMsgSpec ForeignDataSpec ForeignValueSpec ForeignAttrSpec
  H5FileWrite H5PathModel H5FileRead H5TreeProofs H5MetaProofs H5DenseProofs H5ObjectProofs H5PathProofs H5ApiPath H5ApiProofs H5ApiValues H5ForeignProofs H5ForeignTree
  H5ForeignOpen H5ForeignApi H5ForeignMsg H5ForeignType P_H5ForeignType H5ForeignValue H5ForeignData H5ForeignVar.

(** ** One attribute *)

(** What the reader has of an attribute *)
Definition fgives (f : bytes) (x : fattr) (a : rattr) : Prop :=
  ra_name a = fa_name x /\ attrValue f a = Ok (fa_val x) /\
  (parseAttr f a = Ok (Some (fa_val x)) \/ (parseAttr f a = Ok None /\ volume (fa_dims x) = 0)) /\
  ra_val a = (if is_text (fa_type x) then Some (fa_val x) else None).

Lemma cut_zeros b n : cut (b ++ zrep n 0) = cut b.
Proof.
  induction b as [|c b IH]; cbn [app cut]; [|rewrite IH; reflexivity].
  unfold zrep. destruct (Z.to_nat n); reflexivity.
Qed.

Lemma attr_size dims dl sz : 0 <= sz < 2 ^ 63 -> sz = volume dims * dl -> i64 (calcAttrSize dims dl) = sz.
Proof.
  intros H E. unfold calcAttrSize.
  assert (F : fold_left Z.mul dims 1 = volume dims).
  { rewrite <- fold_right_volume. apply fold_symmetric; intros; lia. }
  rewrite F, <- E. rewrite u64_small by lia. apply i64_small. lia.
Qed.

Lemma attribute_gives f b x co : zlen f < 2 ^ 63 -> zlen b < 2 ^ 63 -> attribute_holds f b x ->
  exists a, readAttribute co b = Ok a /\ fgives f x a.
Proof.
  destruct x as [name t dims v]. intros Hf Hb (b0 & pad & data & -> & Hat & Hfm & Hop & Hel & Htg & Hv). cbn [fa_name fa_type fa_dims fa_val] in *.
  destruct (attribute_read known_version co b0 name t dims data (zrep pad 0) (fun _ _ _ H => H) Hat Hfm Hop) as (tag & Tg & E).
  assert (Ld : zlen data <= zlen b0).
  { destruct Hat; rewrite !zlen_app; pose proof (zlen_nonneg data);
      repeat match goal with |- context [zlen ?y] => lazymatch y with data => fail | _ => pose proof (zlen_nonneg y); generalize dependent (zlen y); intros end end; lia. }
  rewrite zlen_app in Hb. pose proof (zlen_nonneg (zrep pad 0)). pose proof (zlen_nonneg data) as Hd0.
  rewrite E. clear E. unfold fgives. cbn [fa_name fa_type fa_dims fa_val].
  inversion Hv as [n dims' data' Hn Hz Hc|t' dims' data' v' Ht Hav]; subst.
  - cbn [H5ForeignType.told saveDf rbind is_text]. eexists. split; [reflexivity|]. cbn [ra_name ra_val parseAttr ra_df].
    unfold attrValue, parseAttr. cbn [ra_val ra_df].
    rewrite cut_getString, cut_zeros. split; [reflexivity|]. split; [reflexivity|]. split; [left; reflexivity|reflexivity].
  - assert (Hheap : forall addr idx data, in_global_heap f addr idx data -> readGlobalHeap f addr idx = Ok (Some data))
      by (intros addr idx d H1; apply global_heap_read; assumption).
    pose proof (value_size (readGlobalHeap f) (in_global_heap f) Hheap _ _ _ _ Hav) as Hz. rewrite fold_right_volume in Hz.
    assert (AL : alloc (readGlobalHeap f) (H5ForeignType.told t) dims data = Ok (v, [])).
    { pose proof (value_read (readGlobalHeap f) (in_global_heap f) Hheap _ _ _ _ [] Hav) as E. rewrite app_nil_r in E. exact E. }
    assert (Ts : 0 < fsize t < 2 ^ 32) by (destruct Hat as [? ? ? ? ? ? ? Ty|? ? ? ? ? ? ? Ty|? ? ? ? ? ? ? ? ? Ty]; exact (type_size _ _ _ Ty)).
    assert (SZ : i64 (calcAttrSize dims (dlen (H5ForeignType.told t))) = zlen data).
    { apply attr_size; [lia|]. rewrite dlen_told. exact Hz. }
    assert (AV : forall sdf, sdf = Some (data ++ zrep pad 0) \/ (sdf = None /\ data = []) ->
      attrValue f (mkRattr name dims (H5ForeignType.told t) sdf None co) = Ok v).
    { intros sdf Hs. unfold attrValue. cbn [ra_val ra_df ra_dims ra_ty]. cbv zeta. rewrite SZ. destruct Hs as [->|[-> ->]].
      - rewrite <- app_assoc. rewrite ztake_app_exact by reflexivity. rewrite AL. reflexivity.
      - change (ztake _ _) with (@nil Z). rewrite AL. reflexivity. }
    assert (FIN : forall sdf, saveDf (H5ForeignType.told t) tag (data ++ zrep pad 0) = Ok (sdf, None) ->
        (sdf = Some (data ++ zrep pad 0) \/ (sdf = None /\ data = [])) ->
        exists a, (let* (sdf, v0) := saveDf (H5ForeignType.told t) tag (data ++ zrep pad 0) in Ok (mkRattr name dims (H5ForeignType.told t) sdf v0 co)) = Ok a /\
          ra_name a = name /\ attrValue f a = Ok v /\
          (parseAttr f a = Ok (Some v) \/ (parseAttr f a = Ok None /\ volume dims = 0)) /\ ra_val a = (if is_text t then Some v else None)).
    { intros sdf -> Hs. cbn [rbind]. eexists. split; [reflexivity|]. split; [reflexivity|]. split; [apply AV; exact Hs|].
      split; [|rewrite Ht; reflexivity]. unfold parseAttr. cbn [ra_df ra_val]. destruct sdf as [d|].
      - left. rewrite AV by exact Hs. reflexivity.
      - right. split; [reflexivity|]. destruct Hs as [Hs|[_ ->]]; [discriminate|]. change (zlen (@nil Z)) with 0 in Hz. nia. }
    pose proof (zlen_app data (zrep pad 0)) as LA.
    assert (D0 : data = [] \/ fsize t <= zlen data).
    { assert (Z0 : zlen data = 0 -> data = []) by (clear; destruct data; [reflexivity|rewrite zlen_cons; pose proof (zlen_nonneg data); lia]).
      destruct (zlen data =? 0) eqn:E0; [left; apply Z0; lia|right]. clear - E0 Hz Hd0 Ts. assert (1 <= volume dims) by nia. nia. }
    assert (IF : forall (sdf : option bytes), sdf = (if dlen (H5ForeignType.told t) <=? zlen (data ++ zrep pad 0) then Some (data ++ zrep pad 0) else None) ->
      sdf = Some (data ++ zrep pad 0) \/ (sdf = None /\ data = [])).
    { intros sdf ->. rewrite dlen_told. destruct (fsize t <=? _) eqn:El; [left; reflexivity|right]. split; [reflexivity|].
      destruct D0 as [D0|D0]; [exact D0|lia]. }
    assert (IG : forall (sdf : option bytes), sdf = (if 0 <? zlen (data ++ zrep pad 0) then Some (data ++ zrep pad 0) else None) ->
      sdf = Some (data ++ zrep pad 0) \/ (sdf = None /\ data = [])).
    { intros sdf ->. destruct (0 <? _) eqn:El; [left; reflexivity|right]. split; [reflexivity|].
      destruct D0 as [D0|D0]; [exact D0|lia]. }
    destruct t as [n sg big|n big|n|n|n ms| |n sg big names vals|t|t|adims t]; try discriminate.
    + eapply FIN; [reflexivity|]. apply IF. reflexivity.
    + eapply FIN; [|left; reflexivity]. cbn [H5ForeignType.told saveDf dlen]. cbn [elements_there] in Hel.
      replace (n <=? zlen (data ++ zrep pad 0)) with true by lia. reflexivity.
    + destruct (Htg eq_refl) as (k & Hk & Hl). rewrite (Tg k Hk Hl) in *. eapply FIN; [reflexivity|]. apply IF. reflexivity.
    + eapply FIN; [reflexivity|]. apply IG. reflexivity.
    + eapply FIN; [|left; reflexivity]. cbn [H5ForeignType.told saveDf dlen]. cbn [elements_there] in Hel.
      replace (8 <=? zlen (data ++ zrep pad 0)) with true by lia. reflexivity.
    + eapply FIN; [reflexivity|]. apply IG. reflexivity.
    + eapply FIN; [reflexivity|]. apply IF. reflexivity.
    + eapply FIN; [reflexivity|]. apply IF. reflexivity.
    + eapply FIN; [reflexivity|]. apply IG. reflexivity.
Qed.

(** ** The attributes of an object *)

Lemma Forall2_in_l {A B} (R : A -> B -> Prop) l l' x : Forall2 R l l' -> In x l -> exists y, In y l' /\ R x y.
Proof. induction 1 as [|a b l l' H _ IH]; intros []; [subst; exists b; split; [left; reflexivity|assumption]|]. destruct IH as (y & I & Y); [assumption|]. exists y. split; [right; exact I|exact Y]. Qed.

Lemma name_untouched t b i : ~ In t [] -> (ri_name (own t b i), ri_addr (own t b i)) = (ri_name i, ri_addr i). Proof. revert t b i. touch. Qed.
Lemma attrs_untouched t b i : ~ In t [12] -> ri_attrs (own t b i) = ri_attrs i. Proof. revert t b i. touch. Qed.
Lemma own_named l i : (ri_name (own_all l i), ri_addr (own_all l i)) = (ri_name i, ri_addr i).
Proof. apply (untouched (fun i => (ri_name i, ri_addr i)) [] name_untouched). intros t []. Qed.
Lemma own_attrs l : Forall (fun b => exists a, readAttribute 0 b = Ok a) (of_type 12 l) -> forall i,
  exists al, ri_attrs (own_all l i) = ri_attrs i ++ al /\ Forall2 (fun b a => readAttribute 0 b = Ok a) (of_type 12 l) al.
Proof.
  induction l as [|m l IH]; intros H i; [exists []; split; [symmetry; apply app_nil_r|constructor]|].
  rewrite own_all_cons. rewrite of_type_cons in *. apply Forall_app in H. destruct H as [H1 H2].
  destruct (IH H2 (own (fm_type m) (fm_data m) i)) as (al & E & F). destruct (fm_type m =? 12) eqn:Et.
  - inversion H1 as [|? ? (a & Ha) _]; subst. exists (a :: al). split.
    + rewrite E. assert (Em : fm_type m = 12) by lia. rewrite Em. unfold own. cbn [Z.eqb Pos.eqb]. rewrite Ha. cbn [add_attr ri_attrs]. rewrite <- app_assoc. reflexivity.
    + cbn [app]. constructor; assumption.
  - exists al. cbn [app]. split; [|exact F]. rewrite E. f_equal.
    apply attrs_untouched. intros [Hi|[]]. lia.
Qed.

Definition tells (f : bytes) (attrs : list fattr) (o : robj) : Prop :=
  exists attrs', Permutation attrs attrs' /\ Forall2 (fgives f) attrs' (r_attrs o).

Lemma Forall2_impl {A B} (R S : A -> B -> Prop) l l' : (forall x y, R x y -> S x y) -> Forall2 R l l' -> Forall2 S l l'.
Proof. intros H. induction 1; constructor; auto. Qed.
Lemma Forall2_map_l {A B C} (R : B -> C -> Prop) (g : A -> B) l l' : Forall2 R (map g l) l' <-> Forall2 (fun x y => R (g x) y) l l'.
Proof.
  split.
  - revert l'. induction l as [|x l IH]; intros l' H; inversion H; subst; constructor; auto.
  - induction 1; cbn [map]; constructor; auto.
Qed.
Lemma Forall2_both {A B C} (R : A -> B -> Prop) (S : A -> C -> Prop) l : forall l1 l2, Forall2 R l l1 -> Forall2 S l l2 ->
  Forall2 (fun y z => exists x, In x l /\ R x y /\ S x z) l1 l2.
Proof.
  induction l as [|x l IH]; intros l1 l2 H1 H2; inversion H1; inversion H2; subst; constructor.
  - exists x. split; [left; reflexivity|split; assumption].
  - eapply Forall2_impl; [|apply IH; eassumption]. cbn beta. intros u w (x' & I & A'). exists x'. split; [right; exact I|exact A'].
Qed.

Lemma stored_small f other l xs : attrs_stored f other l xs -> Forall (fun x => zlen (snd x) <= zlen f) xs.
Proof.
  intros [[_ ->]|(b & heap & index & _ & _ & [[_ ->]|(_ & N & d & t & _ & _ & H)])]; [constructor|constructor|].
  induction H as [|r x rs xs (_ & a & _ & _ & _ & H & _) _ IH]; constructor; [|exact IH].
  apply has_at_bound in H. lia.
Qed.

Lemma attributed_tells f (other : Z -> bytes -> Prop) c a l xs attrs i0 i cs : zlen f < 2 ^ 63 -> messages_are f c a l -> ri_attrs i0 = [] ->
  attrs_stored f other l xs -> Forall2 (attribute_holds f) (of_type 12 l ++ map snd xs) attrs ->
  attributed l xs i0 i -> tells f attrs (RObj i cs).
Proof.
  intros Hf Hm H0 Hx Ha ((vs & E & xs' & HP & Hr) & _). apply Forall2_app_inv_l in Ha. destruct Ha as (a1 & a2 & A1 & A2 & ->).
  apply (proj1 (Forall2_map_l (attribute_holds f) (@snd Z bytes) xs a2)) in A2.
  assert (SM : Forall (fun b => zlen b < 2 ^ 63) (of_type 12 l)).
  { pose proof (messages_small f _ _ _ Hm) as S. apply Forall_forall. intros b Hb. unfold of_type in Hb. apply in_map_iff in Hb.
    destruct Hb as (m & <- & Hi). apply filter_In in Hi. rewrite Forall_forall in S. specialize (S m (proj1 Hi)). cbn beta in S. lia. }
  pose proof (stored_small _ _ _ _ Hx) as SX.
  destruct (own_attrs l) with (i := i0) as (al & El & Fl).
  { apply Forall_forall. intros b Hb. rewrite Forall_forall in SM. specialize (SM b Hb).
    destruct (Forall2_in_l _ _ _ _ A1 Hb) as (x & _ & Hxx). destruct (attribute_gives f b x 0 Hf SM Hxx) as (r & Er & _). exists r. exact Er. }
  rewrite El, H0 in E. cbn [app] in E.
  destruct (Permutation_Forall2 HP A2) as (a2' & HP2 & A2').
  exists (a1 ++ a2'). split; [apply Permutation_app_head; exact HP2|]. unfold r_attrs. cbn [r_info].
  rewrite E. apply Forall2_app.
  - pose proof (Forall2_both _ _ _ _ _ A1 Fl) as B. eapply Forall2_impl; [|exact B]. cbn beta. intros x r (b & Hb & Hh & Hr').
    rewrite Forall_forall in SM. destruct (attribute_gives f b x 0 Hf (SM b Hb) Hh) as (r' & Er & G). rewrite Er in Hr'. injection Hr' as <-. exact G.
  - pose proof (Forall2_both _ _ _ _ _ A2' Hr) as B. eapply Forall2_impl; [|exact B]. cbn beta. intros x r (b & Hb & Hh & Hr').
    rewrite Forall_forall in SX. apply (Permutation_in _ (Permutation_sym HP)) in Hb.
    assert (L : zlen (snd b) < 2 ^ 63) by (apply (Z.le_lt_trans _ (zlen f)); [exact (SX b Hb)|exact Hf]).
    destruct (attribute_gives f (snd b) x (fst b) Hf L Hh) as (r' & Er & G). rewrite Er in Hr'. injection Hr' as <-. exact G.
Qed.

(** ** What is read of an object with these attributes *)

Lemma plain_weaken (P Q : Z -> bytes -> Prop) types m : (forall t b, P t b -> Q t b) -> plain P types m -> plain Q types m.
Proof. intros W [H [H1|[H1 H2]]]; split; [exact H|left; exact H1|exact H|right; split; [exact H1|apply W, H2]]. Qed.
Lemma stored_weaken f (P Q : Z -> bytes -> Prop) l xs : (forall t b, P t b -> Q t b) -> attrs_stored f P l xs -> attrs_stored f Q l xs.
Proof.
  intros W [H|(b & heap & index & H1 & H2 & [H3|(H3 & N & d & t & H4 & H5 & H6)])]; [left; exact H| |]; right; exists b, heap, index;
    (split; [exact H1|]); (split; [exact H2|]); [left; exact H3|right]. split; [exact H3|]. exists N, d, t.
  split; [exact H4|]. split; [exact H5|]. eapply Forall2_impl; [|exact H6]. cbn beta.
  intros r x (E & a & A1 & A2 & A3 & A4 & A5). split; [exact E|]. exists a. repeat (split; [assumption|]). apply W, A5.
Qed.
Lemma group_msg_weaken f (P Q : Z -> bytes -> Prop) m ls : (forall t b, P t b -> Q t b) -> group_msg f P m ls -> group_msg f Q m ls.
Proof.
  intros W [H|[H|[[H|[H|H]] E]]]; [left; exact H|right; left; exact H| | |]; right; right; (split; [|exact E]);
    [left; exact H|right; left; exact H|right; right; eapply plain_weaken; eassumption].
Qed.

Lemma leaf_read f c a l xs name (o : robj) (t : ftree) : zlen f < 2 ^ 63 -> messages_are f c a l -> attrs_stored f alone l xs ->
  Forall (fun m => (fm_type m = 1 /\ accepted readDataspace (fm_data m)) \/
                   fm_type m = 21 \/ plain alone [0; 3; 4; 5; 8; 11; 12; 13; 14; 18; 22] m) l ->
  (of_type 1 l = [] \/ exists b, of_type 1 l = [b]) -> of_type 1 l ++ of_type 3 l <> [] ->
  came f name a t o -> exists i0 i, o = RObj i [] /\ blank name a i0 /\ attributed l xs i0 i.
Proof.
  intros Hf Hm Hx Hl H1 Hne (i & ad & n & st & (g & ->) & _ & _ & Hrd & ->).
  destruct (@stored_attrs_single f (Z * Z) l (listed_attrs _ _ _ _ Hx)) as [_ HA].
  destruct (leaf_parts f Hf c a l xs (set_group g (newObject name a)) ad Hm) as (i' & _ & _ & _ & _ & E5 & E6).
  { repeat split. }
  { exact Hx. }
  { rewrite Forall_forall in *. intros m Hi. destruct (Hl m Hi) as [Ht|[Ht|Ht]]; [left; exact Ht| |right; right; exact Ht].
    right. left. split; [exact Ht|]. apply HA. apply in_map, filter_In. split; [exact Hi|lia]. }
  { destruct H1 as [H1|H1]; [left; exact H1|right; split; [reflexivity|exact H1]]. }
  { exact Hne. }
  specialize (Hrd (Nat.max n (S c)) ltac:(lia)). rewrite (E6 (Nat.max n (S c)) ltac:(lia)) in Hrd. injection Hrd as <-.
  exists (set_group g (newObject name a)), i'. split; [reflexivity|]. split; [exists g; reflexivity|exact E5].
Qed.

Lemma kids_read f k kids : zlen f < 2 ^ 63 -> kids_are f alone k kids -> Forall (fun k' => reads f k (k_addr k') (k_tree k')) kids.
Proof.
  intros Hf H. induction H as [|n name a t kids Ho Hks IH]; [apply Forall_nil|].
  apply Forall_cons; [|exact IH]. apply objects_read; assumption.
Qed.
Lemma group_read f c k a l ls stored xs kids name (o : robj) : zlen f < 2 ^ 63 ->
  messages_are f c a l -> Forall2 (group_msg f alone) l ls -> stored_links f l stored -> attrs_stored f alone l xs ->
  of_type 2 l ++ of_type 17 l <> [] -> Permutation (List.concat ls ++ stored) (map fst kids) -> NoDup (map fst (map fst kids)) ->
  kids_are f alone k kids -> came f name a (FGroup kids) o -> exists i0, blank name a i0 /\ attributed l xs i0 (r_info o).
Proof.
  intros Hf Hm Hg Hl Hx Hk HP Hnd Hkids (i & ad & n & st & (g & ->) & Hap & Hbd & Hrd & ->).
  destruct (group_parts f Hf c k a l ls stored xs kids Hm Hg Hl Hx Hk HP Hnd (kids_read f k kids Hf Hkids) (set_group g (newObject name a)) ad)
    as (st1 & st' & A1 & _ & A3 & _ & _ & A6); [repeat split|exact Hap|exact Hbd|].
  set (fu := (n + k + c)%nat). specialize (Hrd (S fu) ltac:(unfold fu; lia)).
  rewrite read_object, A1 in Hrd by (unfold fu; lia). cbn [rbind] in Hrd. rewrite A3 in Hrd by (unfold fu; lia). injection Hrd as <-.
  exists (set_group g (newObject name a)). split; [exists g; reflexivity|exact A6].
Qed.

Lemma values_alone f t b : with_values f t b -> alone t b.
Proof. intros [H _]. apply message_alone. exact H. Qed.
Lemma values_message f t b : with_values f t b -> message_is t b.
Proof. intros [H _]. exact H. Qed.
Lemma kids_weaken f (P Q : Z -> bytes -> Prop) n kids : (forall t b, P t b -> Q t b) -> kids_are f P n kids -> kids_are f Q n kids.
Proof. intros W. apply (proj2 (object_weaken f P Q W)). Qed.

Lemma blank_attrs name a i : blank name a i -> ri_attrs i = [] /\ (ri_name i, ri_addr i) = (name, a).
Proof. intros (g & ->). split; reflexivity. Qed.
Lemma attributed_named l xs name a i0 i : blank name a i0 -> attributed l xs i0 i -> (ri_name i, ri_addr i) = (name, a).
Proof. intros B (_ & E). rewrite E, own_named. apply (blank_attrs _ _ _ B). Qed.

Lemma dataset_tells f a dims t p fill attrs name o : zlen f < 2 ^ 63 -> dataset_with f (with_values f) a dims t p fill attrs ->
  came f name a (FData dims) o -> tells f attrs o.
Proof.
  intros Hf (c & l & b & Hm & Hl & H1 & Hb & (xs & Hx & Ha) & _) Hc.
  destruct (leaf_read f c a l xs name o (FData dims) Hf Hm (stored_weaken _ _ _ _ _ (values_alone f) Hx)) as (i0 & i & -> & B & At).
  - rewrite Forall_forall in *. intros m Hi. destruct (Hl m Hi) as [Ht|[Ht|Ht]].
    + left. split; [exact Ht|]. assert (Ei : In (fm_data m) (of_type 1 l)) by (apply in_map, filter_In; split; [exact Hi|lia]).
      rewrite H1 in Ei. destruct Ei as [<-|[]]. apply (proj1 (dataspace_ok _ _ Hb)).
    + right. left. exact Ht.
    + right. right. exact (plain_weaken _ _ _ _ (values_alone f) Ht).
  - right. exists b. exact H1.
  - rewrite H1. discriminate.
  - exact Hc.
  - exact (attributed_tells f _ c a l xs attrs i0 i [] Hf Hm (proj1 (blank_attrs _ _ _ B)) Hx Ha At).
Qed.
Lemma group_tells f n a kids attrs name o : zlen f < 2 ^ 63 -> group_with f (with_values f) n a kids attrs ->
  came f name a (FGroup kids) o -> tells f attrs o.
Proof.
  intros Hf (c & k & l & ls & stored & Hm & _ & Hg & Hl & (xs & Hx & Ha) & Hk & HP & Hnd & Hkids) Hc.
  destruct (group_read f c k a l ls stored xs kids name o Hf Hm) as (i0 & B & At); try assumption.
  - eapply Forall2_impl; [|exact Hg]. intros m y. apply group_msg_weaken, values_alone.
  - exact (stored_weaken _ _ _ _ _ (values_alone f) Hx).
  - exact (kids_weaken _ _ _ _ _ (values_alone f) Hkids).
  - destruct o as [i cs]. exact (attributed_tells f _ c a l xs attrs i0 i cs Hf Hm (proj1 (blank_attrs _ _ _ B)) Hx Ha At).
Qed.
Lemma root_tells f n root kids attrs : zlen f < 2 ^ 63 -> (n <= List.length f)%nat -> superblock_is f root -> NoDup (below (FGroup kids)) ->
  group_with f (with_values f) n root kids attrs ->
  exists o, openFile f = Ok o /\ tells f attrs o.
Proof.
  intros Hf Hn HS HB (c & k & l & ls & stored & Hm & Hlt & Hg & Hl & (xs & Hx & Ha) & Hk & HP & Hnd & Hkids).
  destruct (root_opened f n c k root l ls stored xs kids HS Hm Hlt) as (o & E & _ & At); try assumption.
  - eapply Forall2_impl; [|exact Hg]. intros m y. apply group_msg_weaken, values_alone.
  - exact (stored_weaken _ _ _ _ _ (values_alone f) Hx).
  - exact (kids_weaken _ _ _ _ _ (values_alone f) Hkids).
  - exists o. split; [exact E|]. destruct o as [i cs]. exact (attributed_tells f _ c root l xs attrs (newObject [] 0) i cs Hf Hm eq_refl Hx Ha At).
Qed.

(** ** All objects of the tree *)

(** What the reference lists are *)
Definition refs_fine (attrs : list fattr) : Prop := Forall (fun x => fa_name x = bs "REFERENCE_LIST" -> back_refs x) attrs.

Lemma holds_all f l xs : Forall (fun m => fm_type m = 12 -> with_values f 12 (fm_data m)) l -> attrs_stored f (with_values f) l xs ->
  exists attrs, Forall2 (attribute_holds f) (of_type 12 l ++ map snd xs) attrs /\ refs_fine attrs.
Proof.
  intros Hl Hx.
  assert (G : Forall (fun b => with_values f 12 b) (of_type 12 l ++ map snd xs)).
  { apply Forall_app. split.
    - apply Forall_forall. intros b Hb. unfold of_type in Hb. apply in_map_iff in Hb. destruct Hb as (m & <- & Hi).
      apply filter_In in Hi. rewrite Forall_forall in Hl. apply Hl; [apply Hi|lia].
    - destruct Hx as [[_ ->]|(b & heap & index & _ & _ & [[_ ->]|(_ & N & d & t & _ & _ & H)])]; [constructor|constructor|].
      induction H as [|r x rs xs (_ & a & _ & _ & _ & _ & H) _ IH]; constructor; [exact H|exact IH]. }
  induction G as [|b bs0 (_ & H) _ (attrs & A1 & A2)]; [exists []; split; constructor|].
  destruct (H eq_refl) as (x & X1 & X2). exists (x :: attrs). split; constructor; assumption.
Qed.

Lemma back_refs_read x : back_refs x -> asRefList (Some (fa_val x)) = Ok tt.
Proof.
  intros (_ & l & E & F). rewrite E. cbn [asRefList]. replace (forallb refEntry l) with true; [reflexivity|].
  symmetry. apply forallb_forall. intros e He. rewrite Forall_forall in F. destruct (F e He) as (a & r & b & i & rest & [->| ->]); reflexivity.
Qed.
Lemma scan_fine f attrs al : Forall2 (fgives f) attrs al -> refs_fine attrs -> exists us,
  rmapM (fun a => let* v := parseAttr f a in if beqb (ra_name a) (bs "REFERENCE_LIST") then asRefList v else Ok tt) al = Ok us.
Proof.
  induction 1 as [|x a attrs al (E1 & _ & E3 & _) _ IH]; intros N; [exists []; reflexivity|]. inversion N as [|? ? N1 N2]; subst.
  destruct (IH N2) as (us & E). exists (tt :: us). cbn [rmapM]. rewrite E1.
  destruct (beqb (fa_name x) (bs "REFERENCE_LIST")) eqn:Eb.
  - apply beqb_eq in Eb. pose proof (N1 Eb) as B. pose proof (back_refs_read x B) as R.
    destruct E3 as [E3|[_ E3]]; [|destruct B as [B _]; lia]. rewrite E3. cbn [rbind]. rewrite R. cbn [rbind]. rewrite E. reflexivity.
  - destruct E3 as [E3|[E3 _]]; rewrite E3; cbn [rbind]; rewrite E; reflexivity.
Qed.
Lemma tells_scan f attrs i cs : tells f attrs (RObj i cs) -> refs_fine attrs -> (forall x, In x cs -> scanRefLists f (snd x) = Ok tt) ->
  scanRefLists f (RObj i cs) = Ok tt.
Proof.
  intros (attrs' & HP & G) N Hc. rewrite scan_eq. unfold r_attrs in G. cbn [r_info] in G.
  destruct (scan_fine f attrs' _ G) as (us & ->); [exact (Permutation_Forall HP N)|]. cbn [rbind]. apply scan_children. exact Hc.
Qed.

Lemma index_eq i cs : addrIndex (RObj i cs) = (ri_addr i, ri_name i) :: flat_map (fun c => addrIndex (snd c)) cs.
Proof.
  cbn [addrIndex]. f_equal. induction cs as [|[n c] cs IH]; [reflexivity|]. cbn [flat_map snd]. rewrite <- IH. reflexivity.
Qed.

(** What is known of an object of the tree *)
Record known (f : bytes) (name : bytes) (a : Z) (t : ftree) (o : robj) : Prop := {
  kn_scan : scanRefLists f o = Ok tt;
  kn_addrs : Permutation (map fst (addrIndex o)) (a :: below t);
  kn_here : In (a, name) (addrIndex o);
  kn_below : forall a' name', called t a' name' -> In (a', name') (addrIndex o) }.

Lemma leaf_known f name a t i attrs : zlen f < 2 ^ 63 -> tells f attrs (RObj i []) -> refs_fine attrs -> below t = [] -> is_fgroup t = false ->
  (ri_name i, ri_addr i) = (name, a) -> known f name a t (RObj i []).
Proof.
  intros Hf Ht Hr Hb Hg E. injection E as E1 E2. constructor.
  - apply (tells_scan f attrs); [exact Ht|exact Hr|]. intros x [].
  - rewrite index_eq, Hb. cbn [flat_map map fst]. rewrite E2. apply Permutation_refl.
  - rewrite index_eq, E1, E2. left. reflexivity.
  - intros a' name' (p & ks & u & F & _). inversion F; subst; discriminate.
Qed.

Lemma kids_known f kids cs os : Permutation cs os -> Forall2 (kid_shown f) kids os ->
  Forall (fun k => forall o, shows f (k_tree k) o -> came f (k_name k) (k_addr k) (k_tree k) o -> known f (k_name k) (k_addr k) (k_tree k) o) kids ->
  (forall x, In x cs -> scanRefLists f (snd x) = Ok tt) /\
  Permutation (map fst (flat_map (fun c => addrIndex (snd c)) cs)) (below (FGroup kids)) /\
  (forall a' name', called (FGroup kids) a' name' -> In (a', name') (flat_map (fun c => addrIndex (snd c)) cs)).
Proof.
  intros HP HF HK.
  assert (K : Forall2 (fun k (o : bytes * robj) => known f (k_name k) (k_addr k) (k_tree k) (snd o)) kids os).
  { clear HP. induction HF as [|k o kids os (H1 & H2 & H3) _ IH]; constructor; inversion HK as [|? ? K1 K2]; subst; [apply K1; assumption|apply IH; assumption]. }
  split; [|split].
  - intros x Hx. apply (Permutation_in _ HP) in Hx. clear - K Hx. induction K as [|k o kids os K1 _ IH]; [destruct Hx|].
    destruct Hx as [<-|Hx]; [exact (kn_scan _ _ _ _ _ K1)|apply IH; exact Hx].
  - eapply Permutation_trans; [apply Permutation_map, Permutation_flat_map, HP|]. clear - K. cbn [below].
    induction K as [|k o kids os K1 _ IH]; [apply Permutation_refl|]. cbn [flat_map]. rewrite map_app.
    change (k_addr k :: below (k_tree k) ++ flat_map (fun k => snd (fst k) :: below (snd k)) kids)
      with ((k_addr k :: below (k_tree k)) ++ flat_map (fun k => snd (fst k) :: below (snd k)) kids).
    apply Permutation_app; [exact (kn_addrs _ _ _ _ _ K1)|exact IH].
  - intros a' name' (p & ks & u & F & Hi).
    apply (Permutation_in _ (Permutation_flat_map _ (Permutation_sym HP))).
    assert (G : exists k o, In o os /\ In k kids /\ known f (k_name k) (k_addr k) (k_tree k) (snd o) /\
              ((k_name k = name' /\ k_addr k = a') \/ called (k_tree k) a' name')).
    { assert (L : forall k, In k kids -> exists o, In o os /\ known f (k_name k) (k_addr k) (k_tree k) (snd o))
        by (intros k Hk; exact (Forall2_in_l _ _ _ k K Hk)).
      inversion F as [|ks' name a t p' u' Hin F' ]; subst.
      - destruct (L _ Hi) as (o & O1 & O2). exists (name', a', u), o. split; [exact O1|]. split; [exact Hi|]. split; [exact O2|]. left. split; reflexivity.
      - destruct (L _ Hin) as (o & O1 & O2). exists (name, a, t), o. split; [exact O1|]. split; [exact Hin|]. split; [exact O2|]. right.
        exists p', ks, u. split; [exact F'|exact Hi]. }
    destruct G as (k & o & Ho & _ & Kn & [[<- <-]|C]); apply in_flat_map; exists o; (split; [exact Ho|]);
      [exact (kn_here _ _ _ _ _ Kn)|exact (kn_below _ _ _ _ _ Kn _ _ C)].
Qed.

Lemma group_known f name a kids i cs attrs : tells f attrs (RObj i cs) -> refs_fine attrs -> (ri_name i, ri_addr i) = (name, a) ->
  shows f (FGroup kids) (RObj i cs) ->
  Forall (fun k => forall o, shows f (k_tree k) o -> came f (k_name k) (k_addr k) (k_tree k) o -> known f (k_name k) (k_addr k) (k_tree k) o) kids ->
  known f name a (FGroup kids) (RObj i cs).
Proof.
  intros Ht Hr E HS HK. inversion HS as [ks i' cs' os G GD HP HF| |]; subst. injection E as E1 E2.
  destruct (kids_known f kids cs os HP HF HK) as (A1 & A2 & A3). constructor.
  - exact (tells_scan f attrs i cs Ht Hr A1).
  - rewrite index_eq. cbn [map fst]. rewrite E2. apply perm_skip. exact A2.
  - rewrite index_eq, E1, E2. left. reflexivity.
  - intros a' name' C. rewrite index_eq. right. exact (A3 _ _ C).
Qed.

Lemma group_attr_msgs f l ls : Forall2 (group_msg f (with_values f)) l ls -> Forall (fun m => fm_type m = 12 -> with_values f 12 (fm_data m)) l.
Proof.
  induction 1 as [|m y l ls H _ IH]; constructor; [|exact IH]. intros E.
  destruct H as [[H _]|[[H _]|[[H|[H|[_ [H|[_ H]]]]] _]]]; try (exfalso; lia). rewrite E in H. exact H.
Qed.
Lemma leaf_attr_msgs f types l : Forall (fun m => fm_type m = 1 \/ fm_type m = 21 \/ plain (with_values f) types m) l ->
  Forall (fun m => fm_type m = 12 -> with_values f 12 (fm_data m)) l.
Proof.
  intros H. eapply Forall_impl; [|exact H]. cbn beta. intros m Hm E.
  destruct Hm as [Hm|[Hm|[_ [Hm|[_ Hm]]]]]; try (exfalso; lia). rewrite E in Hm. exact Hm.
Qed.

Theorem objects_known f : zlen f < 2 ^ 63 ->
  (forall n a t, object_is f (with_values f) n a t -> forall name o, shows f t o -> came f name a t o -> known f name a t o) /\
  (forall n kids, kids_are f (with_values f) n kids ->
     Forall (fun k => forall o, shows f (k_tree k) o -> came f (k_name k) (k_addr k) (k_tree k) o -> known f (k_name k) (k_addr k) (k_tree k) o) kids).
Proof.
  intros Hf. apply (object_kids_ind f (with_values f)
    (fun n a t _ => forall name o, shows f t o -> came f name a t o -> known f name a t o)
    (fun n kids _ => Forall (fun k => forall o, shows f (k_tree k) o -> came f (k_name k) (k_addr k) (k_tree k) o -> known f (k_name k) (k_addr k) (k_tree k) o) kids)).
  - intros n c k a l ls stored kids Hm Hlt Hg Hl Ha Hk HP Hnd Hkids IH name o HS Hc.
    destruct (attrs_listed f _ l Ha) as [xs Hx]. destruct (holds_all f l xs (group_attr_msgs f l ls Hg) Hx) as (attrs & A1 & A2).
    assert (GW : group_with f (with_values f) n a kids attrs).
    { exists c, k, l, ls, stored. repeat (split; [assumption|]). split; [exists xs; split; assumption|]. repeat (split; [assumption|]). assumption. }
    pose proof (group_tells f n a kids attrs name o Hf GW Hc) as Ht.
    destruct (group_read f c k a l ls stored xs kids name o Hf Hm) as (i0 & B & At); try assumption.
    + eapply Forall2_impl; [|exact Hg]. intros m y. apply group_msg_weaken, values_alone.
    + exact (stored_weaken _ _ _ _ _ (values_alone f) Hx).
    + exact (kids_weaken _ _ _ _ _ (values_alone f) Hkids).
    + destruct o as [i cs]. cbn [r_info] in At. exact (group_known f name a kids i cs attrs Ht A2 (attributed_named _ _ _ _ _ _ B At) HS IH).
  - intros n c a l b dims Hm Hlt Hl H1 Hd Ha name o HS Hc.
    destruct (attrs_listed f _ l Ha) as [xs Hx]. destruct (holds_all f l xs (leaf_attr_msgs f _ l Hl) Hx) as (attrs & A1 & A2).
    destruct (leaf_read f c a l xs name o (FData dims) Hf Hm (stored_weaken _ _ _ _ _ (values_alone f) Hx)) as (i0 & i & -> & B & At).
    + rewrite Forall_forall in *. intros m Hi. destruct (Hl m Hi) as [Ht|[Ht|Ht]].
      * left. split; [exact Ht|]. assert (Ei : In (fm_data m) (of_type 1 l)) by (apply in_map, filter_In; split; [exact Hi|lia]).
        rewrite H1 in Ei. destruct Ei as [<-|[]]. apply (proj1 (dataspace_ok _ _ Hd)).
      * right. left. exact Ht.
      * right. right. exact (plain_weaken _ _ _ _ (values_alone f) Ht).
    + right. exists b. exact H1.
    + rewrite H1. discriminate.
    + exact Hc.
    + apply (leaf_known f name a (FData dims) i attrs Hf); try reflexivity; [|exact A2|exact (attributed_named _ _ _ _ _ _ B At)].
      exact (attributed_tells f _ c a l xs attrs i0 i [] Hf Hm (proj1 (blank_attrs _ _ _ B)) Hx A1 At).
  - intros n c a l Hm Hlt Hl H3 Ha name o HS Hc.
    assert (Hl' : Forall (fun m => fm_type m = 1 \/ fm_type m = 21 \/ plain (with_values f) [0; 3; 4; 5; 8; 11; 12; 13; 14; 18; 22] m) l).
    { eapply Forall_impl; [|exact Hl]. cbn beta. intros m [H|[H1 H2]]; [right; left; exact H|right; right]. split; [|exact H2]. cbn [In] in *. tauto. }
    destruct (attrs_listed f _ l Ha) as [xs Hx]. destruct (holds_all f l xs (leaf_attr_msgs f _ l Hl') Hx) as (attrs & A1 & A2).
    assert (N1 : of_type 1 l = []).
    { unfold of_type. clear - Hl. induction Hl as [|m l H _ IH]; [reflexivity|]. cbn [filter].
      assert (fm_type m <> 1) by (destruct H as [H|[H _]]; [lia|cbn [In] in H; lia]).
      replace (fm_type m =? 1) with false by lia. exact IH. }
    destruct (leaf_read f c a l xs name o FType Hf Hm (stored_weaken _ _ _ _ _ (values_alone f) Hx)) as (i0 & i & -> & B & At).
    + rewrite Forall_forall in *. intros m Hi. destruct (Hl m Hi) as [Ht|[Ht Hp]].
      * right. left. exact Ht.
      * right. right. apply (plain_weaken _ _ _ _ (values_alone f)). split; [|exact Hp]. cbn [In] in *. tauto.
    + left. exact N1.
    + rewrite N1. exact H3.
    + exact Hc.
    + apply (leaf_known f name a FType i attrs Hf); try reflexivity; [|exact A2|exact (attributed_named _ _ _ _ _ _ B At)].
      exact (attributed_tells f _ c a l xs attrs i0 i [] Hf Hm (proj1 (blank_attrs _ _ _ B)) Hx A1 At).
  - intros n. constructor.
  - intros n name a t kids _ IH1 _ IH2. constructor; [|exact IH2]. intros o. apply IH1.
Qed.

(** ** Lists of attributes *)

Lemma Forall2_flip {A B} (R : A -> B -> Prop) l l' : Forall2 R l l' -> Forall2 (fun y x => R x y) l' l.
Proof. induction 1; constructor; assumption. Qed.

Lemma fgives_names f attrs al : Forall2 (fgives f) attrs al -> map ra_name al = names_of attrs.
Proof. induction 1 as [|x a attrs al (E & _) _ IH]; [reflexivity|]. cbn [map names_of]. rewrite E, IH. reflexivity. Qed.
Lemma insert_perm a l : Permutation (insertAttr a l) (a :: l).
Proof.
  induction l as [|b l IH]; [apply Permutation_refl|]. cbn [insertAttr]. destruct (ra_co a <=? ra_co b); [apply Permutation_refl|].
  eapply Permutation_trans; [apply perm_skip, IH|apply perm_swap].
Qed.
Lemma sort_perm l : Permutation (sortAttrs l) l.
Proof.
  induction l as [|a l IH]; [apply Permutation_refl|]. unfold sortAttrs in *. cbn [fold_right].
  eapply Permutation_trans; [apply insert_perm|apply perm_skip, IH].
Qed.
Lemma fparse_all f attrs al : Forall2 (fgives f) attrs al -> exists us, rmapM (parseAttr f) al = Ok us.
Proof.
  induction 1 as [|x a attrs al (_ & _ & E & _) _ (us & IH)]; [exists []; reflexivity|].
  destruct E as [E|[E _]]; eexists; cbn [rmapM]; rewrite E; cbn [rbind]; rewrite IH; reflexivity.
Qed.
Lemma tells_sorted f attrs o : tells f attrs o -> exists attrs' al, sortAttrList f (r_attrs o) = Ok al /\ Permutation attrs attrs' /\ Forall2 (fgives f) attrs' al.
Proof.
  intros (attrs' & HP & G). destruct (fparse_all f _ _ G) as (us & E). unfold sortAttrList. rewrite E. cbn [rbind].
  destruct (Permutation_Forall2 (Permutation_sym (sort_perm (r_attrs o))) (Forall2_flip _ _ _ G)) as (attrs2 & HP2 & G2).
  exists attrs2, (sortAttrs (r_attrs o)). split; [reflexivity|]. split; [exact (Permutation_trans HP HP2)|exact (Forall2_flip _ _ _ G2)].
Qed.

(** ** The map of attributes *)

Lemma rows_shape g t d ds b v : array_is g t (d :: ds) b v ->
  (exists ty l, v = HSlice ty l) \/ (exists s, v = HStr s) \/ (exists ty l ns vs, v = HEnum (HSlice ty l) ns vs).
Proof.
  assert (L : forall t ds b v, is_array t = false -> array_is g t ds b v -> ds <> [] ->
    (exists ty l, v = HSlice ty l) \/ (exists s, v = HStr s) \/ (exists ty l ns vs, v = HEnum (HSlice ty l) ns vs)).
  { clear. intros t ds b v Ha H Hne. inversion H; subst; try congruence; try discriminate.
    - right. left. eexists. reflexivity.
    - right. right. match goal with H : array_is _ (FInt _ _ _) _ _ _ |- _ => inversion H; subst; try congruence end.
      do 4 eexists. reflexivity.
    - left. do 2 eexists. reflexivity. }
  intros H. destruct (is_array t) eqn:Ea.
  - inversion H; subst; try discriminate.
    + match goal with H : array_is _ _ ((d :: ds) ++ _) _ _ |- _ => apply (L _ _ _ _ ltac:(eassumption) H); discriminate end.
    + left. do 2 eexists. reflexivity.
  - apply (L _ _ _ _ Ea H). discriminate.
Qed.
Lemma undo_many v : of_one v = false -> undoScalarAttribute v = v.
Proof.
  induction v using hval_rect; cbn [of_one undoScalarAttribute]; intros H; try reflexivity.
  all: try (match goal with l : list _ |- _ => destruct l as [|? [|? ?]]; try discriminate; reflexivity end).
  rewrite IHv by exact H. reflexivity.
Qed.
Lemma undo_go f b x : attribute_holds f b x -> fa_dims x = [1] \/ of_one (fa_val x) = false -> undoScalarAttribute (fa_val x) = attribute_go x.
Proof.
  intros (b0 & pad & data & _ & _ & _ & _ & _ & _ & Hv) H. unfold attribute_go.
  assert (S : forall d ds, fa_dims x = d :: ds -> (exists ty l, fa_val x = HSlice ty l) \/ (exists s, fa_val x = HStr s) \/
                           (exists ty l ns vs, fa_val x = HEnum (HSlice ty l) ns vs)).
  { intros d ds E. inversion Hv as [n dims data' _ _ _ E1 E2 E3 E4|t dims data' v _ Ha E1 E2 E3 E4].
    - right. left. eexists. reflexivity.
    - rewrite E in Ha. exact (rows_shape _ _ _ _ _ _ Ha). }
  destruct (of_one (fa_val x)) eqn:Eo.
  - destruct H as [H|H]; [|discriminate]. rewrite H. destruct (S _ _ H) as [(ty & l & ->)|[(s & ->)|(ty & l & ns & vs & ->)]]; [|reflexivity|];
      destruct l as [|y [|z l]]; reflexivity.
  - rewrite undo_many by exact Eo. destruct (fa_dims x) as [|d [|e ds]] eqn:Ed; [reflexivity| |destruct d as [|[]|]; reflexivity].
    assert (W : ForeignAttrSpec.one_of (fa_val x) = fa_val x).
    { destruct (S _ _ eq_refl) as [(ty & l & E)|[(s & ->)|(ty & l & ns & vs & E)]]; [|reflexivity|]; rewrite E in *; cbn [of_one] in Eo;
        destruct l as [|y [|z l]]; try discriminate; reflexivity. }
    destruct d as [|[]|]; try reflexivity. symmetry. exact W.
Qed.

Lemma attributes_held f (other : Z -> bytes -> Prop) l attrs : attributes_are f other l attrs -> Forall (fun x => exists b, attribute_holds f b x) attrs.
Proof. intros (xs & _ & H). induction H as [|b x bs0 attrs H _ IH]; constructor; [exists b; exact H|exact IH]. Qed.

Definition is_shown (x : fattr) : bool := negb (mem (fa_name x) hiddenNames).
Definition fshown (attrs : list fattr) : list (bytes * hval) := map (fun x => (fa_name x, undoScalarAttribute (fa_val x))) (filter is_shown attrs).
Lemma filtered_all f attrs al : Forall2 (fgives f) attrs al -> forall m, NoDup (map fst m ++ map fst (fshown attrs)) ->
  filtered f al m = Ok (m ++ fshown attrs).
Proof.
  induction 1 as [|x a attrs al (E1 & E2 & _) _ IH]; intros m N.
  - cbn [filtered fshown filter map]. rewrite app_nil_r. reflexivity.
  - cbn [filtered]. rewrite E1. unfold fshown in *. cbn [filter] in *. unfold is_shown at 1. unfold is_shown at 1 in N.
    destruct (mem (fa_name x) hiddenNames) eqn:Em; cbn [negb] in *.
    + apply IH. exact N.
    + rewrite E2. cbn [rbind map fst] in *. destruct (NoDup_mid _ _ _ N) as [N1 N2].
      rewrite assoc_set_new by exact N1. rewrite IH.
      * rewrite <- app_assoc. reflexivity.
      * rewrite map_app. exact N2.
Qed.
Lemma fshown_keys attrs : map fst (fshown attrs) = names_of (filter is_shown attrs).
Proof. unfold fshown, names_of. rewrite map_map. reflexivity. Qed.
Lemma names_filter g attrs : NoDup (names_of attrs) -> NoDup (names_of (filter g attrs)).
Proof.
  induction attrs as [|x attrs IH]; intros H; [constructor|]. unfold names_of in *. cbn [map] in H. inversion H as [|? ? H1 H2]; subst.
  cbn [filter]. destruct (g x); [|apply IH; exact H2]. cbn [map]. constructor; [|apply IH; exact H2].
  intros Hi. apply H1. apply in_map_iff in Hi. destruct Hi as (y & E & Hy). apply filter_In in Hy. rewrite <- E. apply in_map, Hy.
Qed.
Lemma mem_spec k l : mem k l = true <-> In k l.
Proof.
  unfold mem. rewrite existsb_exists. split.
  - intros (y & Hy & E). apply beqb_eq in E. subst. exact Hy.
  - intros H. exists k. split; [exact H|apply beqb_refl].
Qed.
Lemma is_shown_spec x : is_shown x = true <-> ~ In (fa_name x) bookkeeping.
Proof.
  unfold is_shown. change bookkeeping with hiddenNames. rewrite <- mem_spec. destruct (mem (fa_name x) hiddenNames); cbn [negb]; split; congruence.
Qed.

Lemma attributes_given f attrs attrs' al : attrs_plain attrs -> Forall (fun x => exists b, attribute_holds f b x) attrs ->
  Permutation attrs attrs' -> Forall2 (fgives f) attrs' al ->
  exists m, getAttributes f al = Ok m /\ attributes_got attrs (om_keys_visible m) (om_get m).
Proof.
  intros [N Pl] Hh HP G. assert (N' : NoDup (names_of attrs')) by (apply (Permutation_NoDup (Permutation_map fa_name HP)); exact N).
  assert (NS : NoDup (map fst (fshown attrs'))) by (rewrite fshown_keys; apply names_filter; exact N').
  unfold getAttributes. rewrite (filtered_all _ _ _ G []) by exact NS. cbn [rbind app].
  destruct (proj2 (new_ordered_map_ok (map fst (fshown attrs')) (fshown attrs')) (Permutation_refl _)) as (om & Em).
  rewrite Em. cbn [rbind]. apply new_ordered_map_result in Em. subst om. eexists. split; [reflexivity|].
  assert (EK : om_keys_visible (om_hide (mkOM (map fst (fshown attrs')) (fshown attrs') (map fst (fshown attrs')) []) ncpKey) =
               filter (fun k => negb (beqb k ncpKey)) (map fst (fshown attrs'))).
  { unfold om_hide, om_keys_visible. cbn [om_keys om_vals om_visible om_hidden mem]. apply filter_ext. intros k.
    change (mem ncpKey []) with false. cbn iota. unfold mem. cbn [existsb]. rewrite orb_false_r. reflexivity. }
  rewrite EK. unfold om_get, om_hide. cbn [om_vals].
  assert (Ek : forall k, In k (map fst (fshown attrs')) <-> In k (names_of attrs) /\ ~ In k bookkeeping).
  { intros k. rewrite fshown_keys. unfold names_of. rewrite !in_map_iff. split.
    - intros (x & <- & Hx). apply filter_In in Hx. destruct Hx as [Hx Hs]. split; [|apply is_shown_spec; exact Hs].
      exists x. split; [reflexivity|]. exact (Permutation_in _ (Permutation_sym HP) Hx).
    - intros ((x & <- & Hx) & Hs). exists x. split; [reflexivity|]. apply filter_In. split; [exact (Permutation_in _ HP Hx)|apply is_shown_spec; exact Hs]. }
  split; [apply NoDup_filter; exact NS|]. split; [|split].
  - intros k. rewrite filter_In, Ek. change properties_name with ncpKey. rewrite negb_true_iff, beqb_neq. tauto.
  - intros x Hx Hs. assert (Ex : In (fa_name x, attribute_go x) (fshown attrs')).
    { unfold fshown. apply in_map_iff. exists x. split.
      - f_equal. rewrite Forall_forall in Hh, Pl. destruct (Hh x Hx) as (b & Hb). apply (undo_go f b x Hb).
        destruct (Pl x Hx) as [P|P]; [contradiction|exact P].
      - apply filter_In. split; [exact (Permutation_in _ HP Hx)|apply is_shown_spec; exact Hs]. }
    change (mem ncpKey []) with false. cbn iota. apply In_assoc; [exact NS|exact Ex].
  - intros k Hk. assert (Nk : ~ In k (map fst (fshown attrs'))) by (rewrite Ek; tauto).
    destruct (assoc k _) as [w|] eqn:Ea; [|reflexivity]. elim Nk. apply assoc_Some_In in Ea. apply (in_map fst _ _ Ea).
Qed.

(** ** Kinds of datasets *)
Lemma prefix_spec p : forall s, hasPrefix s p = true <-> starts_with p s.
Proof.
  unfold starts_with. induction p as [|c p IH]; intros s.
  - destruct s; cbn [hasPrefix]; (split; [intros _; eexists; reflexivity|reflexivity]).
  - destruct s as [|d s]; cbn [hasPrefix].
    + split; [discriminate|]. intros (r & E). discriminate.
    + rewrite andb_true_iff, IH, Z.eqb_eq. split.
      * intros [-> (r & ->)]. exists r. reflexivity.
      * intros (r & E). injection E as -> ->. split; [reflexivity|exists r; reflexivity].
Qed.
Section Kinds.
  Variables (f : bytes) (attrs : list fattr) (o : robj).
  Hypothesis (HT : tells f attrs o).
  Lemma tells_names k : In k (map ra_name (r_attrs o)) <-> In k (names_of attrs).
  Proof.
    destruct HT as (attrs' & HP & G). rewrite (fgives_names _ _ _ G).
    split; apply Permutation_in; [apply Permutation_sym|]; apply Permutation_map; exact HP.
  Qed.
  Lemma tells_class : hasClass (r_attrs o) = true <-> In (bs "CLASS") (names_of attrs).
  Proof. unfold hasClass. rewrite has_key. apply tells_names. Qed.
  Lemma tells_coordinates : hasCoordinates (r_attrs o) = true <-> In (bs "_Netcdf4Coordinates") (names_of attrs).
  Proof. unfold hasCoordinates. rewrite has_key. apply tells_names. Qed.
  Lemma tells_name : hasName (r_attrs o) = true <-> own_name attrs.
  Proof.
    destruct HT as (attrs' & HP & G). unfold hasName, own_name. rewrite existsb_exists. split.
    - intros (a & Ha & E). apply andb_true_iff in E. destruct E as [E1 E2]. apply beqb_eq in E1.
      destruct (Forall2_in_l _ _ _ a (Forall2_flip _ _ _ G) Ha) as (x & Hx & (G1 & _ & _ & G4)). rewrite G4 in E2.
      destruct (is_text (fa_type x)) eqn:Et; [|discriminate]. destruct (fa_val x) as [| s | | | | |] eqn:Ev; try discriminate.
      exists x, s. split; [exact (Permutation_in _ (Permutation_sym HP) Hx)|]. split; [congruence|]. split; [exact Et|]. split; [exact Ev|].
      change marker with dimMarker. rewrite <- prefix_spec. destruct (hasPrefix s dimMarker); [discriminate|congruence].
    - intros (x & s & Hx & Hn & Et & Ev & Hs). apply (Permutation_in _ HP) in Hx.
      destruct (Forall2_in_l _ _ _ x G Hx) as (a & Ha & (G1 & _ & _ & G4)). exists a. split; [exact Ha|].
      rewrite G1, Hn, beqb_refl, G4, Et, Ev. cbn [andb]. change marker with dimMarker in Hs. rewrite <- prefix_spec in Hs.
      destruct (hasPrefix s dimMarker); [elim Hs; reflexivity|reflexivity].
  Qed.
  Lemma tells_bare : isDimensionScale (r_attrs o) = true <-> is_bare attrs.
  Proof.
    unfold isDimensionScale, is_bare. rewrite !andb_true_iff, !negb_true_iff, tells_class, <- !Bool.not_true_iff_false, tells_coordinates, tells_name. tauto.
  Qed.
  Lemma tells_scale : ri_group (r_info o) = false -> isDimension o = true <-> is_scale attrs.
  Proof.
    intros Hg. unfold isDimension, is_scale. rewrite Hg. cbn [negb andb].
    rewrite andb_true_iff, orb_true_iff, negb_true_iff, tells_class, <- Bool.not_true_iff_false, tells_coordinates, tells_name. tauto.
  Qed.
End Kinds.

(** ** Names of dimensions *)
Lemma zassoc_in {V} k (v : V) m : NoDup (map fst m) -> In (k, v) m -> zassoc k m = Some v.
Proof.
  induction m as [|[k' v'] m IH]; intros N H; [destruct H|]. cbn [map fst] in N. inversion N as [|? ? N1 N2]; subst. cbn [zassoc].
  destruct H as [E|H].
  - injection E as -> ->. rewrite Z.eqb_refl. reflexivity.
  - destruct (k =? k') eqn:E; [|apply IH; assumption]. elim N1. assert (k = k') by lia. subst k'. apply (in_map fst _ _ H).
Qed.

Lemma parsed_big f x a : fgives f x a -> 0 < volume (fa_dims x) -> parseAttr f a = Ok (Some (fa_val x)).
Proof. intros (_ & _ & [E|[_ E]] & _) H; [exact E|lia]. Qed.
Lemma parsed_any f x a : fgives f x a -> exists ov, parseAttr f a = Ok ov.
Proof. intros (_ & _ & [E|[E _]] & _); eexists; exact E. Qed.

Lemma no_list f ix attrs al : Forall2 (fgives f) attrs al -> ~ In DL (names_of attrs) -> dimListNames f ix al = Ok [].
Proof.
  induction 1 as [|x a attrs al G _ IH]; intros N; [reflexivity|]. cbn [names_of map In] in N. cbn [dimListNames].
  destruct (parsed_any _ _ _ G) as (ov & ->). rewrite (proj1 G). cbn [rbind]. replace (beqb (fa_name x) (bs "DIMENSION_LIST")) with false.
  - cbn [rbind]. rewrite IH by (intros Hi; apply N; right; exact Hi). reflexivity.
  - symmetry. apply beqb_neq. intros E. apply N. left. exact E.
Qed.
Lemma refs_read v refs : refs_in v refs -> asRefs (Some v) = Ok refs.
Proof.
  intros (rows & -> & ->). cbn [asRefs]. f_equal. rewrite flat_map_concat_map, map_map. f_equal. 
  induction rows as [|r rows IH]; [reflexivity|]. cbn [map]. rewrite IH. f_equal.
  induction r as [|z r IHr]; [reflexivity|]. cbn [map flat_map app]. rewrite IHr. reflexivity.
Qed.
Lemma no_refs_read f ix attrs al : Forall2 (fgives f) attrs al -> no_refs attrs -> dimListNames f ix al = Ok [].
Proof.
  induction 1 as [|x a attrs al G _ IH]; intros N; [reflexivity|]. cbn [dimListNames].
  assert (N2 : no_refs attrs) by (intros y Hy; apply N; right; exact Hy).
  destruct (beqb (fa_name x) (bs "DIMENSION_LIST")) eqn:E.
  - apply beqb_eq in E. destruct (N x (or_introl eq_refl) E) as [Hv Hr]. rewrite (parsed_big _ _ _ G Hv), (proj1 G). cbn [rbind]. rewrite E.
    change (beqb (bs "DIMENSION_LIST") (bs "DIMENSION_LIST")) with true. cbn iota. rewrite (refs_read _ _ Hr). cbn [rbind flat_map app].
    rewrite (IH N2). reflexivity.
  - destruct (parsed_any _ _ _ G) as (ov & ->). rewrite (proj1 G). cbn [rbind]. rewrite E. cbn [rbind]. rewrite (IH N2). reflexivity.
Qed.
Lemma by_list f ix attrs al x refs names : Forall2 (fgives f) attrs al -> NoDup (names_of attrs) -> In x attrs ->
  fa_name x = DL -> 0 < volume (fa_dims x) -> refs_in (fa_val x) refs ->
  Forall2 (fun r n => n <> [] /\ zassoc r ix = Some n) refs names -> dimListNames f ix al = Ok names.
Proof.
  induction 1 as [|y a attrs al G Gs IH]; intros N Hx Hn Hv Hr Hs; [destruct Hx|]. cbn [names_of map] in N. inversion N as [|? ? N1 N2]; subst.
  cbn [dimListNames]. destruct Hx as [->|Hx].
  - rewrite (parsed_big _ _ _ G Hv), (proj1 G). cbn [rbind]. rewrite Hn. change (beqb DL (bs "DIMENSION_LIST")) with true. cbn iota.
    rewrite (refs_read _ _ Hr). cbn [rbind]. rewrite (no_list f ix attrs al Gs) by (rewrite <- Hn; exact N1). cbn [rbind]. rewrite app_nil_r. f_equal.
    clear - Hs. induction Hs as [|r n refs names [D1 D2] _ IHd]; [reflexivity|].
    cbn [flat_map]. unfold bytes in *. rewrite D2. destruct n as [|c n]; [congruence|]. cbn [app]. f_equal. exact IHd.
  - destruct (parsed_any _ _ _ G) as (ov & ->). rewrite (proj1 G). cbn [rbind]. replace (beqb (fa_name y) (bs "DIMENSION_LIST")) with false.
    + cbn [rbind]. rewrite (IH N2 Hx Hn Hv Hr Hs). reflexivity.
    + symmetry. apply beqb_neq. intros E. apply N1. rewrite E. change (bs "DIMENSION_LIST") with DL. rewrite <- Hn. apply in_map. exact Hx.
Qed.
Lemma no_name f attrs al : Forall2 (fgives f) attrs al -> ~ In NAME (names_of attrs) -> nameOfScale f al = Ok [].
Proof.
  induction 1 as [|x a attrs al G _ IH]; intros N; [reflexivity|]. cbn [names_of map In] in N. cbn [nameOfScale].
  destruct (parsed_any _ _ _ G) as (ov & ->). rewrite (proj1 G). cbn [rbind]. replace (beqb (fa_name x) (bs "NAME")) with false.
  - apply IH. intros Hi. apply N. right. exact Hi.
  - symmetry. apply beqb_neq. intros E. apply N. left. exact E.
Qed.
Lemma by_name f attrs al x s : Forall2 (fgives f) attrs al -> NoDup (names_of attrs) -> In x attrs ->
  fa_name x = NAME -> 0 < volume (fa_dims x) -> fa_val x = HStr s -> nameOfScale f al = Ok (if hasPrefix s dimMarker then [] else [s]).
Proof.
  induction 1 as [|y a attrs al G Gs IH]; intros N Hx Hn Hv Hs; [destruct Hx|]. cbn [names_of map] in N. inversion N as [|? ? N1 N2]; subst.
  cbn [nameOfScale]. destruct Hx as [->|Hx].
  - rewrite (parsed_big _ _ _ G Hv), (proj1 G). cbn [rbind]. rewrite Hn, Hs. change (beqb NAME (bs "NAME")) with true. cbn iota.
    destruct (hasPrefix s dimMarker); [|reflexivity]. apply (no_name f attrs al Gs). rewrite <- Hn. exact N1.
  - destruct (parsed_any _ _ _ G) as (ov & ->). rewrite (proj1 G). cbn [rbind]. replace (beqb (fa_name y) (bs "NAME")) with false.
    + exact (IH N2 Hx Hn Hv Hs).
    + symmetry. apply beqb_neq. intros E. apply N1. rewrite E. change (bs "NAME") with NAME. rewrite <- Hn. apply in_map. exact Hx.
Qed.

(** ** The whole file *)

Lemma zero_below f (other : Z -> bytes -> Prop) :
  (forall n a t, object_is f other n a t -> 0 < a /\ Forall (fun x => 0 < x) (below t)) /\
  (forall n kids, kids_are f other n kids -> Forall (fun x => 0 < x) (below (FGroup kids))).
Proof.
  apply (object_kids_ind f other
    (fun n a t _ => 0 < a /\ Forall (fun x => 0 < x) (below t))
    (fun n kids _ => Forall (fun x => 0 < x) (below (FGroup kids)))).
  - intros n c k a l ls stored kids Hm _ _ _ _ _ _ _ _ IH. split; [apply Hm|exact IH].
  - intros n c a l b dims Hm _ _ _ _ _. split; [apply Hm|constructor].
  - intros n c a l Hm _ _ _ _. split; [apply Hm|constructor].
  - intros n. constructor.
  - intros n name a t kids _ [I1 I2] _ IH. cbn [below flat_map fst snd]. constructor; [exact I1|]. apply Forall_app. split; [exact I2|exact IH].
Qed.

Lemma root_known f n root kids : superblock_is f root -> object_is f (with_values f) n root (FGroup kids) ->
  NoDup (below (FGroup kids)) -> (n <= List.length f)%nat -> zlen f < 2 ^ 63 ->
  exists o, openFile f = Ok o /\ shows f (FGroup kids) o /\ known f [] 0 (FGroup kids) o.
Proof.
  intros HS HO HB Hn Hf. inversion HO as [n' c k a l ls stored kids' Hm Hlt Hg Hl Ha Hk HP Hnd Hkids| |]; subst.
  destruct (attrs_listed f _ l Ha) as [xs Hx]. destruct (holds_all f l xs (group_attr_msgs f l ls Hg) Hx) as (attrs & A1 & A2).
  destruct (root_opened f n c k root l ls stored xs kids HS Hm Hlt) as (o & E & Hs & At); try assumption.
  - eapply Forall2_impl; [|exact Hg]. intros m y. apply group_msg_weaken, values_alone.
  - exact (stored_weaken _ _ _ _ _ (values_alone f) Hx).
  - exact (kids_weaken _ _ _ _ _ (values_alone f) Hkids).
  - exists o. split; [exact E|]. split; [exact Hs|]. destruct o as [i cs]. cbn [r_info] in At.
    apply (group_known f [] 0 kids i cs attrs); [|exact A2| |exact Hs|exact (proj2 (objects_known f Hf) k kids Hkids)].
    + exact (attributed_tells f _ c root l xs attrs (newObject [] 0) i cs Hf Hm eq_refl Hx A1 At).
    + destruct At as (_ & E2). rewrite E2, own_named. reflexivity.
Qed.

Lemma called_index f o kids : known f [] 0 (FGroup kids) o -> NoDup (below (FGroup kids)) -> Forall (fun x => 0 < x) (below (FGroup kids)) ->
  forall a name, called (FGroup kids) a name -> zassoc a (addrIndex o) = Some name.
Proof.
  intros K N P a name C. apply zassoc_in; [|exact (kn_below _ _ _ _ _ K _ _ C)].
  apply (Permutation_NoDup (Permutation_sym (kn_addrs _ _ _ _ _ K))). constructor; [|exact N].
  intros H. rewrite Forall_forall in P. specialize (P _ H). lia.
Qed.

Lemma dimensions_given f o tree attrs attrs' al names : scanRefLists f o = Ok tt -> plain_names tree ->
  (forall a name, called tree a name -> zassoc a (addrIndex o) = Some name) ->
  NoDup (names_of attrs) -> Permutation attrs attrs' -> Forall2 (fgives f) attrs' al -> dimensions_are tree attrs names ->
  getDimensions f o al = Ok names.
Proof.
  intros Sc PN Ix N HP G D. assert (N' : NoDup (names_of attrs')) by (apply (Permutation_NoDup (Permutation_map fa_name HP)); exact N).
  assert (Hno : forall k, ~ In k (names_of attrs) -> ~ In k (names_of attrs')).
  { intros k H H'. apply H. exact (Permutation_in _ (Permutation_sym (Permutation_map fa_name HP)) H'). }
  assert (Hnr : no_refs attrs -> no_refs attrs').
  { intros H x Hx. apply H. exact (Permutation_in _ (Permutation_sym HP) Hx). }
  unfold getDimensions. destruct D as [x refs names Hx Hn Hv Hr Hne Hc|x s Hno1 Hx Hn Hv Hs Hm|x s Hno1 Hx Hn Hv Hs Hm|Hno1 Hno2].
  - rewrite (by_list f (addrIndex o) attrs' al x refs names G N' (Permutation_in _ HP Hx) Hn Hv Hr).
    + cbn [rbind]. destruct Hc; [congruence|reflexivity].
    + eapply Forall2_impl; [|exact Hc]. intros r n C. split; [|exact (Ix _ _ C)].
      destruct C as (p & ks & t & F & Hi). apply (PN _ _ _ _ _ F Hi).
  - rewrite (no_refs_read f _ attrs' al G (Hnr Hno1)). cbn [rbind]. rewrite Sc. cbn [rbind].
    rewrite (by_name f attrs' al x s G N' (Permutation_in _ HP Hx) Hn Hv Hs).
    change marker with dimMarker in Hm. rewrite <- prefix_spec in Hm. destruct (hasPrefix s dimMarker); [elim Hm; reflexivity|reflexivity].
  - rewrite (no_refs_read f _ attrs' al G (Hnr Hno1)). cbn [rbind]. rewrite Sc. cbn [rbind].
    rewrite (by_name f attrs' al x s G N' (Permutation_in _ HP Hx) Hn Hv Hs).
    change marker with dimMarker in Hm. rewrite <- prefix_spec in Hm. rewrite Hm. reflexivity.
  - rewrite (no_refs_read f _ attrs' al G (Hnr Hno1)). cbn [rbind]. rewrite Sc. cbn [rbind]. exact (no_name f attrs' al G (Hno _ Hno2)).
Qed.

Lemma located_found a0 t p a u : located a0 t p a u -> found_at t p u.
Proof. induction 1; econstructor; eassumption. Qed.
Lemma located_came f a0 t p a u : located a0 t p a u -> forall kids o, u = FGroup kids -> shows f t o -> distinct t ->
  exists g, rfollow o p = Some g /\ ((p = [] /\ a = a0 /\ g = o) \/ exists name, came f name a u g).
Proof.
  induction 1 as [a t|a0 ks name a t p a' u Hi L IH]; intros kids [i cs] -> HS HD.
  - exists (RObj i cs). split; [|left; split; [reflexivity|split; reflexivity]]. inversion HS; subst. cbn [rfollow].
    match goal with H : ri_group i = true |- _ => rewrite H end. reflexivity.
  - inversion HS as [ks' i' cs' os G GD HP HF| |]; subst. cbn [rfollow]. rewrite G.
    destruct (in_shown _ _ _ _ HP HF _ _ _ Hi) as (o & Ho & Hs & Hc).
    assert (N : NoDup (map fst cs)).
    { apply (Permutation_NoDup (Permutation_sym (shown_keys _ _ _ _ HP HF))). apply (HD []). constructor. }
    rewrite (In_assoc _ _ _ N Ho). destruct (IH kids o eq_refl Hs) as (g & E & W).
    + intros p' ks' F'. apply (HD (name :: p')). econstructor; eassumption.
    + exists g. split; [exact E|]. right. destruct W as [(-> & -> & ->)|W]; [exists name|exact W].
      inversion L; subst. exact Hc.
Qed.

Lemma dataset_without f (other : Z -> bytes -> Prop) a dims t p fill attrs : dataset_with f other a dims t p fill attrs ->
  dataset_at f other a dims t p fill.
Proof.
  intros (c & l & b & Hm & Hl & H1 & Hb & (xs & Hx & _) & Hd). exists c, l, b. split; [exact Hm|]. split; [exact Hl|]. split; [exact H1|].
  split; [exact Hb|]. split; [|exact Hd]. destruct Hx as [[H _]|(b' & heap & index & E & H2 & H3)]; [left; exact H|right].
  exists b', heap, index. split; [exact E|]. split; [exact H2|]. destruct H3 as [[H3 _]|(H3 & N & d & u & B & U & F)]; [left; exact H3|right].
  split; [exact H3|]. exists N, d, u. split; [exact B|]. split; [exact U|]. clear - F.
  induction F as [|r x rs xs W _ IH]; constructor; [|exact IH]. destruct W as (W1 & a & W2 & W3 & W4 & W5 & W6). exists a, (snd x). auto.
Qed.
