(** The attributes and variables that the writer stores conform to the format: H5FileWrite against
    FormatSpec. *)
From Verif Require Import Prelude GoVal OrderedMapModel ArraySpec H5Base H5MetaWrite H5MetaRead H5Value H5TypeRead
  H5FileWrite H5PathModel H5LayoutModel H5RecordModel H5FileRead MetaSpec TypeSpec FileSpec BaseLemmas
  H5MetaProofs H5TypeProofs H5DataProofs H5StoreProofs H5VarProofs H5AttrProofs H5ObjectProofs
  H5TreeProofs H5HeapProofs H5AttrSeqProofs H5GoodProofs.
From Verif Require Import DenseSpec ForeignSpec ForeignTypeSpec ForeignMsgSpec ForeignValueSpec FormatSpec H5ConfProofs H5ConfValue.
From Coq Require Import Lia ZifyBool ZifyNat.

(** ** Messages *)
Lemma padded_fill8 b : padded b = fill8 b.
Proof.
  unfold padded, fill8, pad8. do 2 f_equal. pose proof (Z.mod_pos_bound (zlen b) 8 ltac:(lia)).
  Z.div_mod_to_equations. lia.
Qed.
Lemma space_format dims : zlen dims <= 255 -> Forall (word 64) dims -> space_is (buildDataspaceMessage dims) dims.
Proof.
  intros Hl Hd. unfold buildDataspaceMessage. pose proof (zlen_nonneg dims).
  replace (u8 (zlen dims)) with (zlen dims) by (unfold u8; rewrite Z.mod_small; lia).
  rewrite <- (app_nil_r (flat_map (le 8) dims)).
  change ([1; zlen dims; 0] ++ [0] ++ zrep 4 0 ++ flat_map (le 8) dims ++ [])
    with ([1; zlen dims; 0] ++ zrep 5 0 ++ flat_map (le 8) dims ++ flat_map (le 8) []).
  apply space_v1; [unfold word; lia|exact Hd|constructor|lia|reflexivity].
Qed.
Lemma attr_format name t tb dims data : text name -> type_is known_version t tb -> few_members t -> opaque_last t ->
  zlen dims <= 255 -> Forall (word 64) dims -> zlen name + zlen tb <= 65500 -> elements_there t data ->
  attribute_is known_version (attrHead name tb (buildDataspaceMessage dims) ++ data) name t dims data /\
  message_is 12 (attrHead name tb (buildDataspaceMessage dims) ++ data).
Proof.
  intros Hn Ht Hf Ho Hl Hd Hs He. pose proof (zlen_nonneg name). pose proof (zlen_nonneg tb). pose proof (zlen_nonneg dims).
  assert (A : attribute_is known_version (attrHead name tb (buildDataspaceMessage dims) ++ data) name t dims data).
  { unfold attrHead. rewrite !padded_fill8. rewrite <- !app_assoc. rewrite zlen_dataspace.
    unfold u16. rewrite !Z.mod_small by lia. rewrite <- (zlen_dataspace dims).
    apply attribute_v1; try assumption; [apply space_format; assumption|lia|lia|rewrite zlen_dataspace; lia]. }
  split; [exact A|]. exists (attrHead name tb (buildDataspaceMessage dims) ++ data), 0. split; [rewrite app_nil_r; reflexivity|].
  eapply body_attribute; eassumption.
Qed.

(** ** What is to be shown of attributes and variables *)
Section Conf.
Variables (f : bytes) (c : wctx).
Definition amsg_conf (kv : bytes * hval) (m : h5msg) : Prop :=
  m_type m = 12 /\ zlen (m_data m) < 65536 /\ m_data m <> [] /\ attribute_as f (m_data m) kv /\ message_is 12 (m_data m).
Definition aconf (x : wctx) (k : akey) (v : hval) : Prop :=
  forall m, buildAttributeMessage false (c_heap x) (snd k) v (lookup akey_eqb [] k (c_aix x)) = Ok m ->
  amsg_conf (snd k, v) m.
Definition vconf (p : path) (nv : bytes * hvar) : Prop :=
  let v := snd nv in let x := ctx_of c v in
  (exists dims t dt,
     List.length dims = List.length (hv_dims v) /\
     buildDatatypeMessage false (hv_val v) (List.length (hv_dims v)) = Ok dt /\
     type_is known_version t dt /\ few_members t /\ opaque_last t /\ dt <> [] /\ zlen dt < 65536 /\
     getDimsLimited (List.length (hv_dims v)) (hv_val v) = dims /\
     Forall (fun n => 0 <= n < 2 ^ 63) dims /\ zlen dims <= 255 /\
     forall data,
       valueBytes false (c_heap x) (hv_val v) (List.length (hv_dims v)) (lookup vkey_eqb [] (p, fst nv) (c_vix x)) = Ok data ->
       zlen data = volume dims * fsize t /\ has_value (in_global_heap f) t dims data (hv_val v)) /\
  Forall (fun kv => aconf x (p, Some (fst nv), fst kv) (snd kv)) (attr_list (hv_attrs v)) /\
  zlen (attr_list (hv_attrs v)) <= 64000 /\
  (hv_scale v = false -> hv_dims v <> [] ->
     exists e m, c_heap c = Some e /\ buildDimensionList e (c_dims c) (hv_dims v) = Some m /\
       amsg_conf (dimension_list (map (addr_of c) (hv_dims v))) m) /\
  (hv_scale v = false -> exists e, c_heap c = Some e).
End Conf.

Lemma word_dims dims : Forall (fun n => 0 <= n < 2 ^ 63) dims -> Forall (word 64) dims.
Proof. apply Forall_impl. intros n H. unfold word. change (2 ^ 63) with 9223372036854775808 in H. change (2 ^ 64) with 18446744073709551616. lia. Qed.
Lemma elements_enough t dims data : Forall (fun n => 0 < n) dims -> type_is known_version t data \/ 0 <= fsize t ->
  forall d, zlen d = volume dims * fsize t -> elements_there t d.
Proof.
  intros Hp _ d Hd. pose proof (volume_pos dims Hp). destruct t; try exact I; cbn [elements_there fsize] in *.
  - destruct (Z.le_gt_cases 0 n) as [Hn|Hn]; [nia|]. pose proof (zlen_nonneg d). lia.
  - lia.
Qed.

Section Values.
Variables (f : bytes) (o : orders) (addrs : list (bytes * Z)) (n : Z) (b : bytes) (c : wctx) (e : henv) (hf : heapst)
  (heap : Z -> Z -> res (option bytes)).
Hypothesis H : heap_facts o addrs n b c e hf.
Hypothesis Hg : heap_gives heap (he_addr e) hf.
Hypothesis Ht : tells (in_global_heap f) heap.
Hypothesis Hs : forall v s, In v (o_strings o) -> In s (strings_of v) -> no_dimref s.

Lemma seq_conf s dims v ix : var_type s -> value_of s dims v -> shape_ok s dims v -> In v (o_strings o) ->
  (exists h1 h2, hinv h1 /\ collected h1 v /\ collectVlenVar false h1 v (List.length dims) = Ok (h2, ix) /\ grow h2 hf) ->
  buildDatatypeMessage false v (List.length dims) = Ok (sdt s) /\
  forall oe data ix', heap_ok e oe -> (oe <> None -> ix' = ix) -> valueBytes false oe v (List.length dims) ix' = Ok data ->
    zlen data = volume dims * size_of s /\ has_value (in_global_heap f) (fty_of s) dims data v.
Proof.
  intros Hty Ha Hd Hin (h1 & h2 & I1 & (h0 & C1 & C2) & Hc & G2).
  destruct (variable_codec s dims v Hty Ha Hd) as [A B].
  split; [exact A|]. intros oe data ix' Ho Hx Ed.
  destruct (B h0 h1 C1 I1 C2) as (h2' & ix2 & E1 & _ & _ & _ & E5).
  rewrite Hc in E1. assert (h2' = h2) by congruence. assert (ix2 = ix) by congruence. subst h2' ix2.
  destruct (E5 hf _ _ G2 (hf_inv _ _ _ _ _ _ _ H) Hg) as (d & D1 & D2 & _).
  destruct (variable_conf (in_global_heap f) s dims v Hty Ha Hd h0 h1 h2 ix C1 I1 C2 Hc hf heap (he_addr e) G2
              (hf_inv _ _ _ _ _ _ _ H) Hg Ht) as (d' & F1 & F2).
  assert (d' = d) by congruence. subst d'.
  destruct (value_bytes e oe v _ ix ix' data Ho Hx Ed) as (rest & F).
  unfold writeDataVar in *. rewrite (writeData_ext false e (env_of (he_addr e) hf) eq_refl) in F.
  2:{ intros s' Hs'. cbn [env_of he_idx]. apply (hf_idx _ _ _ _ _ _ _ H). eapply Hs; eassumption. }
  assert (d = data) by congruence. subst d. split; [|exact F2].
  rewrite D2, volume_fold. lia.
Qed.

Lemma comp_conf fs dims v ix : writable (SComp fs) -> array_of (SComp fs) dims v -> shape_ok (SComp fs) dims v ->
  Forall (fun x => seqs_ok (SComp fs) x = true) (items (List.length dims) v) -> In v (o_strings o) -> aseq_kept hf v ix ->
  buildDatatypeMessage false v (List.length dims) = Ok (sdt (SComp fs)) /\
  forall oe data ix', heap_ok e oe -> (oe <> None -> ix' = ix) -> valueBytes false oe v (List.length dims) ix' = Ok data ->
    zlen data = volume dims * size_of (SComp fs) /\ has_value (in_global_heap f) (fty_of (SComp fs)) dims data v.
Proof.
  intros Hw Ha Hd Hq Hin (h1 & h2 & I1 & (h0 & C1 & C2) & Hc & G2).
  destruct (attr_comp_codec fs dims v Hw Ha Hd Hq) as [A B].
  split; [exact A|]. intros oe data ix' Ho Hx Ed.
  destruct (B h0 h1 C1 I1 C2) as (h2' & ix2 & E1 & _ & _ & _ & _ & E5).
  rewrite Hc in E1. assert (h2' = h2) by congruence. assert (ix2 = ix) by congruence. subst h2' ix2.
  destruct (E5 hf _ _ G2 (hf_inv _ _ _ _ _ _ _ H) Hg) as (St & d & D1 & D2 & _).
  destruct (array_conf (in_global_heap f) (SComp fs) dims v (env_of (he_addr e) hf) (fixedLenOf v) heap ix) as (d' & F1 & F2);
    try assumption; [exact I|discriminate|apply Hg|].
  unfold writeDataVar in D1.
  assert (d' = d) by congruence. subst d'.
  destruct (value_bytes e oe v _ ix ix' data Ho Hx Ed) as (rest & F).
  unfold writeDataVar in *. rewrite (writeData_ext false e (env_of (he_addr e) hf) eq_refl) in F.
  2:{ intros s' Hs'. cbn [env_of he_idx]. apply (hf_idx _ _ _ _ _ _ _ H). eapply Hs; eassumption. }
  assert (d = data) by congruence. subst d. split; [|exact F2].
  rewrite D2, volume_fold. lia.
Qed.
Lemma attr_conf_value x k v s dims ix : heap_ok e (c_heap x) -> (c_heap x <> None -> lookup akey_eqb [] k (c_aix x) = ix) ->
  (buildDatatypeMessage false v (List.length dims) = Ok (sdt s) /\
   forall oe data ix', heap_ok e oe -> (oe <> None -> ix' = ix) -> valueBytes false oe v (List.length dims) ix' = Ok data ->
     zlen data = volume dims * size_of s /\ has_value (in_global_heap f) (fty_of s) dims data v) ->
  text (snd k) -> writable s -> attrDims v = dims ->
  Forall (fun n => 0 < n) dims -> zlen dims <= 255 -> zlen (snd k) + zlen (sdt s) + 8 * zlen dims + volume dims * size_of s <= 65500 ->
  aconf f x k v.
Proof.
  intros Ho Hix [A B] Htx Hw Had Hp Hr Hsz m Em.
  pose proof (volume_pos dims Hp) as Hvol. pose proof (zlen_nonneg dims) as Hd0. pose proof (zlen_nonneg (snd k)) as Hk0.
  pose proof (zlen_nonneg (sdt s)) as Hm0. pose proof (writable_pos s Hw) as Sz.
  unfold buildAttributeMessage in Em. rewrite Had in Em. cbv zeta in Em.
  rewrite A in Em. cbn [rbind] in Em.
  destruct (valueBytes false (c_heap x) v (List.length dims) (lookup akey_eqb [] k (c_aix x))) as [data| |] eqn:Ed; try discriminate. cbn [rbind] in Em.
  destruct (B _ _ _ Ho Hix Ed) as [C D].
  assert (Hm : m = msg 12 (attrHead (snd k) (sdt s) (buildDataspaceMessage dims) ++ data)) by congruence. subst m.
  assert (Hvs : volume dims <= volume dims * size_of s) by (clear -Hvol Sz; nia).
  assert (Hd : Forall (word 64) dims).
  { apply Forall_forall. intros q Hq. rewrite Forall_forall in Hp. pose proof (Hp q Hq).
    assert (q <= volume dims); [|unfold word; change (2 ^ 64) with 18446744073709551616; lia].
    clear - Hp Hq. apply Forall_forall in Hp. induction Hp as [|y l Hy Hl IH]; [contradiction|].
    cbn [volume]. pose proof (volume_pos l Hl). destruct Hq as [<-|Hq]; [nia|]. specialize (IH Hq). nia. }
  destruct (attr_size_bound (snd k) (sdt s) dims data Hr ltac:(lia)) as [S1 S2].
  destruct (attr_format (snd k) (fty_of s) (sdt s) dims data) as [F1 F2]; try assumption.
  - apply type_of_sty. exact Hw.
  - apply few_of_sty. exact Hw.
  - apply opaque_last_of. exact Hw.
  - pose proof (zlen_nonneg data). lia.
  - eapply (elements_enough _ dims []); [exact Hp|right; rewrite fsize_of; lia|rewrite fsize_of; exact C].
  - unfold amsg_conf. cbn [msg m_type m_data]. split; [reflexivity|]. split; [exact S1|]. split; [exact S2|]. split; [|exact F2].
    exists (fty_of s), dims, data. cbn [fst snd]. split; [exact F1|]. split; [rewrite fsize_of; exact C|exact D].
Qed.

Lemma attr_conf x k v ix : heap_ok e (c_heap x) -> aseq_kept hf v ix -> (c_heap x <> None -> lookup akey_eqb [] k (c_aix x) = ix) ->
  In v (o_strings o) -> text (snd k) ->
  (exists dims, attr_value (65000 - zlen (snd k)) dims v /\ Forall (fun n => 0 < n) dims /\ zlen dims <= 255) -> aconf f x k v.
Proof.
  intros Ho HK Hix Hin Htx (dims & [(Hv & Hsz & Hst)|[(s & Hw & Hsz & Hv & Hsh & Hty)|(s & Hw & Hsz & Hv & Hsh & Hrg)]] & Hp & Hr);
    pose proof (volume_pos dims Hp) as Hvol; pose proof (zlen_nonneg dims) as Hd0; pose proof (zlen_nonneg (snd k)) as Hk0.
  - destruct (num_or_text_cases dims v Hv) as [(s & Ps & Hd & Ha & Hns)|(-> & t & -> & Htt & Htl)].
    + pose proof (plain_size s Ps) as Sz. destruct (plain_message s Ps) as [M1 M2].
      destruct (no_seq_kept hf v (List.length dims) ix) as [Eix Kept].
      { eapply array_no_seq; [apply plain_novlen; exact Ps|exact Ha]. }
      { intros h. eapply novlen_collect; [apply plain_novlen; exact Ps|exact Ha]. }
      { exact HK. }
      apply (attr_conf_value x k v s dims ix Ho Hix); try assumption.
      * apply seq_conf; [apply plain_var; exact Ps|apply plain_value; assumption|apply plain_shape; assumption|exact Hin|exact Kept].
      * apply (plain_var s Ps).
      * apply (attr_dims_value s dims v (plain_novlen s Ps) Hp). apply plain_value; assumption.
      * assert (volume dims * size_of s <= 16 * volume dims) by (clear -Sz Hvol; nia). lia.
    + intros m Em. set (jx := lookup akey_eqb [] k (c_aix x)) in *.
      unfold buildAttributeMessage in Em. cbv zeta in Em. change (attrDims (HStr t)) with (@nil Z) in Em.
      change (buildDatatypeMessage false (HStr t) (List.length (@nil Z))) with (Ok (stringDt (zlen t + 1))) in Em. cbn [rbind] in Em.
      change (List.length (@nil Z)) with 0%nat in Em.
      destruct (valueBytes false (c_heap x) (HStr t) 0 jx) as [data| |] eqn:Ed; try discriminate. cbn [rbind] in Em.
      pose proof (string_codec o e Hs t Htt Htl _ _ _ Ho Ed) as Edata. specialize (Hst t eq_refl).
      assert (Hm : m = msg 12 (attrHead (snd k) (stringDt (zlen t + 1)) (buildDataspaceMessage []) ++ data)) by congruence. subst m data.
      pose proof (zlen_nonneg t).
      assert (Hsd : zlen (stringDt (zlen t + 1)) = 8) by (unfold stringDt; rewrite zlen_app, zlen_le; reflexivity).
      destruct (attr_size_bound (snd k) (stringDt (zlen t + 1)) [] (t ++ [0])) as [S1 S2].
      * change (zlen (@nil Z)) with 0. lia.
      * change (zlen (@nil Z)) with 0. rewrite zlen_app. change (zlen [0]) with 1. lia.
      * destruct (attr_format (snd k) (FText (zlen t + 1)) (stringDt (zlen t + 1)) [] (t ++ [0])) as [F1 F2]; try exact I.
        { exact Htx. }
        { apply (is_text known_version 1 (zlen t + 1) 0 0); [apply known_1; lia|lia|lia|lia]. }
        { exact Hr. }
        { constructor. }
        { lia. }
        unfold amsg_conf. cbn [msg m_type m_data]. split; [reflexivity|]. split; [exact S1|]. split; [exact S2|]. split; [|exact F2].
        exists (FText (zlen t + 1)), [], (t ++ [0]). cbn [fst snd]. split; [exact F1|].
        split; [rewrite zlen_app; cbn [volume fsize]; change (zlen [0]) with 1; lia|]. apply scalar_holds. exact Htt.
  - pose proof (message_room s Hw) as R.
    destruct s as [| | |k' ns vs|fs|]; try contradiction; cbn [value_of] in Hv.
    + destruct (no_seq_kept hf v (List.length dims) ix (H5GoodProofs.value_no_seq (SEnum k' ns vs) dims v eq_refl Hv)
                  (fun h => value_no_seq_var (SEnum k' ns vs) dims v h eq_refl Hv) HK) as [Eix Kept].
      apply (attr_conf_value x k v (SEnum k' ns vs) dims ix Ho Hix); try assumption.
      * apply seq_conf; try assumption. split; [exact Hw|left; reflexivity].
      * exact (attr_dims_value (SEnum k' ns vs) dims v eq_refl Hp Hv).
      * lia.
    + apply (attr_conf_value x k v (SComp fs) dims ix Ho Hix); try assumption.
      * apply comp_conf; try assumption. apply Hty.
      * apply (comps_dims fs dims Hp v Hv).
      * lia.
  - pose proof (message_room _ Hw) as R. change (size_of (SVlen s)) with 16 in *.
    destruct HK as (h1 & h2 & K1 & K2 & K3 & K4).
    apply (attr_conf_value x k v (SVlen s) dims ix Ho Hix); try assumption.
    + apply seq_conf; try assumption; [split; [exact Hw|right; eauto]|].
      exists h1, h2. split; [exact K1|]. split; [exact K2|]. split; [|exact K4].
      unfold collectVlenVar. rewrite (rows_have_vlen s dims (proj1 Hsh) _ Hv), <- (ragged_collect s dims v h1 Hv Hrg). exact K3.
    + destruct (ragged_slice dims v Hrg) as (t & l & ->). exact (ragged_dims s dims _ Hv Hrg Hp).
    + change (size_of (SVlen s)) with 16. lia.
Qed.

Lemma refs_rows refs : 0 <= he_addr e < 2 ^ 64 ->
  Forall (fun x => 1 <= fst x < 2 ^ 32 /\ 0 <= snd x < 2 ^ 64 /\ heap (he_addr e) (fst x) = Ok (Some (le 8 (snd x)))) refs ->
  has_rows (in_global_heap f) (FSeq FRef) [] (flat_map (fun x => descriptor e 1 (fst x)) refs)
    (map (fun a => HSlice (TNum U64) [HNum U64 a]) (map snd refs)).
Proof.
  intros Ha. induction 1 as [|[i a] r (Hi & Hv & Hh) _ IH]; [constructor|]. cbn [flat_map map fst snd] in *.
  constructor; [|exact IH].
  apply (has_seq (in_global_heap f) FRef (he_addr e) i (le 8 a ++ []) [HNum U64 a]).
  - exact Ha.
  - unfold word. lia.
  - reflexivity.
  - constructor; [|constructor]. apply has_ref. exact Hv.
  - right. rewrite app_nil_r. apply Ht; [exact Hh|]. intros EE. apply (f_equal zlen) in EE. rewrite zlen_le in EE. discriminate.
Qed.

Lemma dimlist_conf kv : In kv (o_dims o) -> hv_scale (snd kv) = false -> hv_dims (snd kv) <> [] ->
  zlen (hv_dims (snd kv)) <= 255 ->
  Forall (fun d => d <> [] /\ exists a, assoc d addrs = Some a /\ 0 <= a < 2 ^ 64) (hv_dims (snd kv)) ->
  exists m, buildDimensionList e (c_dims c) (hv_dims (snd kv)) = Some m /\
    amsg_conf f (dimension_list (map (addr_of c) (hv_dims (snd kv)))) m.
Proof.
  intros Hin Hsc Hne Hlen Hd. set (ds := hv_dims (snd kv)) in *. rewrite (hf_dims _ _ _ _ _ _ _ H).
  assert (Hnone : existsb (fun d => beqb d [] || negb (mem d (map fst addrs))) ds = false).
  { clear - Hd. induction Hd as [|d ds (H1 & a & H2 & _) _ IH]; [reflexivity|]. cbn [existsb]. rewrite IH.
    assert (E1 : beqb d [] = false) by (destruct d; [congruence|reflexivity]).
    assert (E2 : mem d (map fst addrs) = true).
    { destruct (mem d (map fst addrs)) eqn:Em; [reflexivity|]. apply mem_nIn in Em. apply assoc_None in Em. congruence. }
    rewrite E1, E2. reflexivity. }
  unfold buildDimensionList. rewrite Hnone.
  set (refs := map (fun d => (he_idx e (dimref d), addr_of c d)) ds).
  assert (Er : flat_map (fun d => descriptor e 1 (he_idx e (dimref d))) ds = flat_map (fun x => descriptor e 1 (fst x)) refs).
  { unfold refs. clear. induction ds as [|d ds IH]; [reflexivity|]. cbn [map flat_map fst]. rewrite IH. reflexivity. }
  assert (Ez : zlen ds = zlen refs) by (unfold refs; rewrite zlen_map; reflexivity).
  assert (Ea : map (addr_of c) ds = map snd refs) by (unfold refs; rewrite map_map; reflexivity).
  rewrite Er, Ez, Ea. destruct Hg as (G1 & G2 & G3).
  assert (Hrefs : Forall (fun x => 1 <= fst x < 2 ^ 32 /\ 0 <= snd x < 2 ^ 64 /\ heap (he_addr e) (fst x) = Ok (Some (le 8 (snd x)))) refs).
  { unfold refs. apply Forall_forall. intros x Hx. apply in_map_iff in Hx. destruct Hx as (d & <- & Hd').
    rewrite Forall_forall in Hd. destruct (Hd d Hd') as (D1 & a & D2 & D3). cbn [fst snd].
    destruct (hf_refs _ _ _ _ _ _ _ H kv d a Hin Hsc Hd' D1 D2) as [R1 R2].
    split; [lia|]. assert (Ea' : addr_of c d = a) by (unfold addr_of; rewrite (hf_dims _ _ _ _ _ _ _ H), D2; reflexivity).
    rewrite Ea'. split; [exact D3|].
    specialize (G3 _ _ R2 ltac:(intros EE; apply (f_equal zlen) in EE; rewrite zlen_le in EE; discriminate)).
    rewrite Z2Nat.id in G3 by lia. replace (he_idx e (dimref d) - 1 + 1) with (he_idx e (dimref d)) in G3 by lia. exact G3. }
  set (data := flat_map (fun x : Z * Z => descriptor e 1 (fst x)) refs).
  assert (Hz : zlen data = 16 * zlen refs).
  { unfold data. generalize refs. clear. intros refs. induction refs as [|x r IH]; [reflexivity|]. cbn [flat_map].
    rewrite zlen_app, zlen_descriptor, zlen_cons, IH. lia. }
  exists (msg 12 (attrHead (bs "DIMENSION_LIST") vlenReferenceDt (buildDataspaceMessage [zlen refs]) ++ data)).
  split; [reflexivity|]. pose proof (zlen_nonneg refs) as Hr0.
  destruct (attr_size_bound (bs "DIMENSION_LIST") vlenReferenceDt [zlen refs] data) as [S1 S2].
  { change (zlen [zlen refs]) with 1. lia. }
  { change (zlen vlenReferenceDt) with 16. rewrite Hz. change (zlen (bs "DIMENSION_LIST")) with 14. change (zlen [zlen refs]) with 1. lia. }
  destruct (attr_format (bs "DIMENSION_LIST") (FSeq FRef) vlenReferenceDt [zlen refs] data) as [F1 F2]; try exact I.
  { apply text_dec. reflexivity. }
  { apply (ForeignTypeSpec.is_seq known_version 1 FRef referenceDt); [apply known_1; lia|].
    apply (is_ref known_version 1). apply known_1. lia. }
  { change (zlen [zlen refs]) with 1. lia. }
  { constructor; [|constructor]. unfold word. change (2 ^ 64) with 18446744073709551616. lia. }
  { change (zlen vlenReferenceDt) with 16. change (zlen (bs "DIMENSION_LIST")) with 14. lia. }
  unfold amsg_conf. cbn [msg m_type m_data]. split; [reflexivity|]. split; [exact S1|]. split; [exact S2|]. split; [|exact F2].
  exists (FSeq FRef), [zlen refs], data. unfold dimension_list. cbn [fst snd]. split; [exact F1|].
  split; [cbn [volume fsize]; lia|].
  replace (zlen refs) with (zlen (map (fun a => HSlice (TNum U64) [HNum U64 a]) (map snd refs))) by (rewrite !zlen_map; reflexivity).
  change (TSlice (TNum U64)) with (go_type_of (FSeq FRef) []).
  apply has_array; [reflexivity|]. apply refs_rows; assumption.
Qed.

Lemma var_conf p nv :
  In (hv_val (snd nv)) (o_strings o) -> In ((p, fst nv), snd nv) (o_dims o) -> In ((p, fst nv), snd nv) (o_vlen o) ->
  Forall (fun kv => In (snd kv) (o_strings o)) (attr_list (hv_attrs (snd nv))) ->
  Forall (fun kv => In ((p, Some (fst nv), fst kv), snd kv) (o_attrs o)) (attr_list (hv_attrs (snd nv))) ->
  (exists dims, List.length dims = List.length (hv_dims (snd nv)) /\ zlen dims <= 255 /\
     Forall (fun n => 0 <= n < 2 ^ 63) dims /\ shape_told dims /\ var_value dims (hv_val (snd nv))) ->
  zlen (attr_list (hv_attrs (snd nv))) <= 64000 ->
  Forall (fun kv => text (fst kv) /\
     exists dims, attr_value (65000 - zlen (fst kv)) dims (snd kv) /\ Forall (fun n => 0 < n) dims /\ zlen dims <= 255) (attr_list (hv_attrs (snd nv))) ->
  (hv_scale (snd nv) = false ->
   Forall (fun d => d <> [] /\ exists a, assoc d addrs = Some a /\ 0 <= a < 2 ^ 64) (hv_dims (snd nv))) ->
  vconf f c p nv.
Proof.
  destruct nv as [name v]. cbn [fst snd].
  intros Hin Hod Hov Hia Hoa (dims & Hl & Hr & Hb & Hst & Hv) Hna Hat Hdims. unfold vconf. cbn [fst snd].
  set (ix' := lookup vkey_eqb [] (p, name) (c_vix (ctx_of c v))).
  set (ix := lookup vkey_eqb [] (p, name) (c_vix c)).
  assert (Hx : heap_ok e (c_heap (ctx_of c v)) /\ (c_heap (ctx_of c v) <> None -> ix' = ix) /\
               forall k, c_heap (ctx_of c v) <> None -> lookup akey_eqb [] k (c_aix (ctx_of c v)) = lookup akey_eqb [] k (c_aix c)).
  { unfold ix', ctx_of. destruct (hv_scale v).
    - split; [left; reflexivity|]. split; [|intros k]; intros X; exfalso; apply X; reflexivity.
    - split; [right; apply (hf_heap _ _ _ _ _ _ _ H)|]. split; reflexivity. }
  destruct Hx as (X1 & X2 & X3).
  assert (Kept : exists h1 h2, hinv h1 /\ collected h1 (hv_val v) /\
            collectVlenVar false h1 (hv_val v) (List.length dims) = Ok (h2, ix) /\ grow h2 hf).
  { rewrite Hl. exact (hf_vix _ _ _ _ _ _ _ H (p, name) v Hov). }
  split; [|split; [|split; [exact Hna|split]]].
  - exists dims. rewrite <- Hl.
    assert (General : forall s, var_type s -> value_of s dims (hv_val v) -> shape_ok s dims (hv_val v) -> zlen (sdt s) < 65536 ->
      getDimsLimited (List.length dims) (hv_val v) = dims ->
      exists t dt, List.length dims = List.length dims /\
        buildDatatypeMessage false (hv_val v) (List.length dims) = Ok dt /\
        type_is known_version t dt /\ few_members t /\ opaque_last t /\ dt <> [] /\ zlen dt < 65536 /\
        getDimsLimited (List.length dims) (hv_val v) = dims /\
        Forall (fun n => 0 <= n < 2 ^ 63) dims /\ zlen dims <= 255 /\
        forall data, valueBytes false (c_heap (ctx_of c v)) (hv_val v) (List.length dims) ix' = Ok data ->
          zlen data = volume dims * fsize t /\ has_value (in_global_heap f) t dims data (hv_val v)).
    { intros s Ts Vs Ss Zs FD. pose proof (proj1 Ts) as Ws.
      destruct (seq_conf s dims (hv_val v) ix Ts Vs Ss Hin Kept) as [A B].
      exists (fty_of s), (sdt s). split; [reflexivity|]. split; [exact A|].
      split; [apply type_of_sty; exact Ws|]. split; [apply few_of_sty; exact Ws|]. split; [apply opaque_last_of; exact Ws|].
      split; [apply sdt_some|]. split; [exact Zs|]. split; [exact FD|]. split; [exact Hb|]. split; [exact Hr|].
      intros data Ed. rewrite fsize_of. apply (B _ _ _ X1 X2 Ed). }
    destruct Hv as [Hv|Hv]; [destruct (num_or_text_cases dims (hv_val v) Hv) as [(s & Ps & Hd & Ha & _)|(-> & t & Et & Htt & Htl)]|].
    + destruct (plain_message s Ps) as [M1 M2].
      apply (General s); [apply plain_var; exact Ps|apply plain_value; assumption|apply plain_shape; assumption|lia|].
      apply fine_dims; [left; exact Hv|exact Hst].
    + exists (FText (zlen t + 1)), (stringDt (zlen t + 1)). rewrite Et. pose proof (zlen_nonneg t) as Z0.
      destruct (scalar_string t Htt ltac:(lia)) as (A & _ & _).
      split; [reflexivity|]. split; [exact A|].
      split; [apply (is_text known_version 1 (zlen t + 1) 0 0); [apply known_1; lia|lia|lia|lia]|].
      split; [exact I|]. split; [exact I|]. split; [discriminate|].
      split; [unfold stringDt; rewrite zlen_app, zlen_le; change (zlen [19; 0; 0; 0]) with 4; lia|].
      split; [reflexivity|]. split; [exact Hb|]. split; [exact Hr|].
      intros data Ed. rewrite (string_codec o e Hs t Htt Htl _ _ _ X1 Ed). cbn [volume fsize].
      split; [rewrite zlen_app; change (zlen [0]) with 1; lia|]. apply scalar_holds. exact Htt.
    + pose proof (fine_dims dims (hv_val v) (or_intror Hv) Hst) as FD.
      destruct Hv as (s & Ts & Rs & Vs & Ss). pose proof (message_room s (proj1 Ts)).
      apply (General s Ts Vs Ss); [lia|exact FD].
  - apply Forall_forall. intros kv Hk. rewrite Forall_forall in Hia, Hat. destruct (Hat kv Hk) as [T1 T2].
    rewrite Forall_forall in Hoa. apply (attr_conf _ _ _ (lookup akey_eqb [] (p, Some name, fst kv) (c_aix c))).
    + exact X1.
    + apply (hf_aix _ _ _ _ _ _ _ H). apply (Hoa kv Hk).
    + apply X3.
    + apply Hia; exact Hk.
    + exact T1.
    + exact T2.
  - intros Hsc Hne. destruct (dimlist_conf ((p, name), v) Hod Hsc Hne) as (m & A1 & A2).
    + cbn [snd]. unfold zlen. rewrite <- Hl. exact Hr.
    + apply Hdims. exact Hsc.
    + exists e, m. split; [apply (hf_heap _ _ _ _ _ _ _ H)|]. split; [exact A1|exact A2].
  - intros _. exists e. apply (hf_heap _ _ _ _ _ _ _ H).
Qed.
End Values.
