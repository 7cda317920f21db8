(** The headers, the heap, the datasets and the groups that the writer stores conform to the
    format: H5FileWrite against ForeignSpec and FormatSpec. *)
From Verif Require Import Prelude GoVal OrderedMapModel ArraySpec H5Base H5MetaWrite H5MetaRead H5Value H5TypeRead
  H5FileWrite H5PathModel H5LayoutModel H5RecordModel H5FileRead MetaSpec TypeSpec FileSpec BaseLemmas
  H5MetaProofs H5ChecksumProofs H5TypeProofs H5DataProofs H5StoreProofs H5VarProofs H5AttrProofs H5ObjectProofs
  H5TreeProofs H5SizeProofs H5HeapProofs H5GoodProofs.
From Verif Require Import Lookup3Spec DenseSpec ForeignSpec ForeignTypeSpec ForeignMsgSpec ForeignValueSpec FormatSpec
  H5ConfProofs H5ConfValue H5ConfGood.
From Coq Require Import Lia ZifyBool ZifyNat Permutation.

(** ** Object headers *)
Definition fm_of (m : h5msg) : fmsg := mkFmsg (m_type m) (m_flags m) 0 (m_data m).
(** the null message at the end *)
Definition null_of (len : Z) : list fmsg :=
  let r := len mod 8 in
  if r =? 0 then []
  else let pad := 8 - r in
       let pad := if pad <? 4 then pad + 8 else pad in
       [mkFmsg 0 0 0 (zrep (pad - 4) 0)].
Definition msg_fine (m : h5msg) : Prop :=
  0 <= m_type m < 256 /\ m_type m <> 16 /\ m_flags m = 0 /\ zlen (m_data m) < 65536 /\ m_data m <> [].

Lemma msg_bytes_format m : msg_fine m -> msg_bytes m = fmsg_bytes (HV2 false) (fm_of m).
Proof.
  intros (A & _ & B & C & _). unfold msg_bytes, fmsg_bytes, fm_of. cbn [fm_type fm_flags fm_data].
  pose proof (zlen_nonneg (m_data m)). unfold u8, u16. rewrite !Z.mod_small by lia. reflexivity.
Qed.
Lemma null_format len : 0 <= len -> null_pad len = flat_map (fmsg_bytes (HV2 false)) (null_of len).
Proof.
  intros Hl. unfold null_pad, null_of. cbv zeta. destruct (len mod 8 =? 0) eqn:E; [reflexivity|].
  pose proof (Z.mod_pos_bound len 8 ltac:(lia)).
  set (pad := if 8 - len mod 8 <? 4 then 8 - len mod 8 + 8 else 8 - len mod 8).
  assert (Hp : 4 <= pad) by (unfold pad; destruct (8 - len mod 8 <? 4) eqn:E2; lia).
  cbn [flat_map fmsg_bytes fm_type fm_flags fm_data app]. rewrite zlen_zrep, Z.max_l by lia. rewrite app_nil_r. reflexivity.
Qed.
Definition chunk_of (ms : list h5msg) : list fmsg := map fm_of ms ++ null_of (zlen (flat_map msg_bytes ms)).
Lemma body_format ms : Forall msg_fine ms -> ohdr_body ms = chunk (HV2 false) (chunk_of ms) 0.
Proof.
  intros H. unfold ohdr_body, chunk, chunk_of. rewrite app_nil_r, flat_map_app.
  rewrite null_format by apply zlen_nonneg. f_equal. clear - H. induction H as [|m ms A _ IH]; [reflexivity|].
  cbn [flat_map map]. rewrite IH, msg_bytes_format by exact A. reflexivity.
Qed.
Lemma null_ok len : Forall (fun m => fmsg_ok (HV2 false) m /\ fm_type m = 0) (null_of len).
Proof.
  unfold null_of. cbv zeta. destruct (len mod 8 =? 0) eqn:E; [constructor|].
  pose proof (Z.mod_pos_bound len 8 ltac:(lia)).
  set (pad := if 8 - len mod 8 <? 4 then 8 - len mod 8 + 8 else 8 - len mod 8).
  assert (Hp : 4 <= pad <= 12) by (unfold pad; destruct (8 - len mod 8 <? 4) eqn:E2; lia).
  constructor; [|constructor]. split; [|reflexivity]. unfold fmsg_ok. cbn [fm_type fm_flags fm_order fm_data].
  unfold word. rewrite zlen_zrep. change (2 ^ 8) with 256. change (2 ^ 16) with 65536.
  split; [lia|]. split; [lia|]. split; [lia|]. split; [reflexivity|lia].
Qed.
Lemma chunk_fine ms : Forall msg_fine ms -> Forall (fmsg_ok (HV2 false)) (chunk_of ms).
Proof.
  intros H. apply Forall_app. split.
  - apply Forall_map. eapply Forall_impl; [|exact H]. intros m (A & B & C & D & E). unfold fmsg_ok, fm_of.
    cbn [fm_type fm_flags fm_order fm_data]. unfold word. change (2 ^ 8) with 256. change (2 ^ 16) with 65536.
    split; [lia|]. split; [lia|]. split; [lia|]. split; [contradiction|lia].
  - eapply Forall_impl; [|apply null_ok]. intros m [A _]. exact A.
Qed.
Lemma held_plain f v n l : Forall (fun m => fm_type m <> 16) l -> held f v n l l.
Proof. induction 1; constructor; assumption. Qed.
Lemma chunk_held ms : Forall msg_fine ms -> Forall (fun m => fm_type m <> 16) (chunk_of ms).
Proof.
  intros H. apply Forall_app. split.
  - apply Forall_map. eapply Forall_impl; [|exact H]. intros m (A & B & _). exact B.
  - eapply Forall_impl; [|apply null_ok]. intros m [_ A]. rewrite A. discriminate.
Qed.

Lemma header_format f a ms oh : Forall msg_fine ms -> zlen (ohdr_body ms) < 2 ^ 31 ->
  objectHeaderV2 ms = Ok oh -> has_at f a oh -> 0 < a -> messages_are f 0 a (chunk_of ms).
Proof.
  intros Hm Hz Eo Hat Ha. split; [exact Ha|]. exists (HV2 false), (chunk_of ms). split; [|apply held_plain, chunk_held; exact Hm].
  exists 0. split; [split; [apply chunk_fine; exact Hm|lia]|]. cbv zeta. rewrite <- (body_format ms Hm).
  exists 2, [], []. split; [unfold word; lia|]. split; [reflexivity|]. split; [reflexivity|]. split; [reflexivity|].
  pose proof (zlen_nonneg (ohdr_body ms)) as Hn. change (2 ^ 31) with 2147483648 in *.
  split; [change (2 ^ (8 * 2 ^ (2 mod 4))) with 4294967296; lia|]. split; [exact Hz|].
  change (Z.to_nat (2 ^ (2 mod 4))) with 4%nat. cbn [app].
  unfold objectHeaderV2 in Eo. cbv zeta in Eo.
  assert (Eu : u32 (zlen (ohdr_body ms)) = zlen (ohdr_body ms)) by (unfold u32; apply Z.mod_small; lia).
  rewrite Eu in Eo. set (body := ohdr_body ms) in *.
  rewrite checksum_lookup3 in Eo.
  - cbn [rbind] in Eo. injection Eo as <-. exact Hat.
  - rewrite !zlen_app, zlen_le. change (zlen (bs "OHDR")) with 4. change (zlen [2; 2]) with 2.
    change (2 ^ 32) with 4294967296. lia.
Qed.

Lemma of_type_app t a b : of_type t (a ++ b) = of_type t a ++ of_type t b.
Proof. unfold of_type. rewrite filter_app, map_app. reflexivity. Qed.
Lemma of_type_none t l : Forall (fun m => fm_type m <> t) l -> of_type t l = [].
Proof.
  unfold of_type. induction 1 as [|m l A _ IH]; [reflexivity|]. cbn [filter].
  replace (fm_type m =? t) with false by lia. exact IH.
Qed.
Lemma of_type_all t l : Forall (fun m => fm_type m = t) l -> of_type t l = map fm_data l.
Proof.
  unfold of_type. induction 1 as [|m l A _ IH]; [reflexivity|]. cbn [filter map].
  replace (fm_type m =? t) with true by lia. cbn [map]. rewrite IH. reflexivity.
Qed.
Lemma of_type_null t len : t <> 0 -> of_type t (null_of len) = [].
Proof.
  intros Ht. apply of_type_none. eapply Forall_impl; [|apply null_ok]. intros m [_ A]. rewrite A. auto.
Qed.
Lemma of_type_chunk t ms : t <> 0 -> of_type t (chunk_of ms) = of_type t (map fm_of ms).
Proof. intros Ht. unfold chunk_of. rewrite of_type_app, of_type_null by exact Ht. apply app_nil_r. Qed.

(** The size of a header *)
Lemma body_size ms B : 0 <= B -> Forall (fun m => zlen (m_data m) <= B) ms ->
  zlen (flat_map msg_bytes ms) <= (4 + B) * zlen ms.
Proof.
  intros HB. induction 1 as [|m ms A _ IH]; [change (0 <= (4 + B) * 0); lia|]. cbn [flat_map]. rewrite zlen_app, zlen_cons. unfold msg_bytes at 1.
  rewrite zlen_cons, zlen_app, zlen_le, zlen_cons. rewrite Z.mul_add_distr_l. lia.
Qed.
Lemma ohdr_body_size ms : zlen (ohdr_body ms) <= zlen (flat_map msg_bytes ms) + 12.
Proof.
  unfold ohdr_body. rewrite zlen_app. set (n := zlen (flat_map msg_bytes ms)).
  assert (zlen (null_pad n) <= 12); [|lia].
  unfold null_pad. cbv zeta. destruct (n mod 8 =? 0) eqn:E; [cbn; lia|].
  pose proof (Z.mod_pos_bound n 8 ltac:(lia)).
  rewrite zlen_cons, zlen_app, zlen_le, zlen_cons, zlen_zrep. destruct (8 - n mod 8 <? 4) eqn:E2; lia.
Qed.

(** ** The heap *)
Fixpoint heap_items (n i : Z) (objs : list bytes) : list (Z * bytes * bytes) :=
  match objs with
  | [] => []
  | o :: r => (i + 1, o, pad8 (n + (16 + zlen o))) :: heap_items (n + (16 + zlen o + zlen (pad8 (n + (16 + zlen o))))) (i + 1) r
  end.
Lemma pad8_short n : 0 <= zlen (pad8 n) < 8 /\ (n + zlen (pad8 n)) mod 8 = 0.
Proof. rewrite zlen_pad8. Z.div_mod_to_equations. lia. Qed.
Lemma heap_items_bytes objs : forall n i, 0 <= i -> i + zlen objs <= 65535 ->
  heap_objects n i objs = flat_map heap_object (heap_items n i objs).
Proof.
  induction objs as [|o r IH]; intros n i Hi Hl; [reflexivity|]. rewrite zlen_cons in Hl. pose proof (zlen_nonneg r).
  cbn [heap_objects heap_items flat_map heap_object]. cbv zeta.
  set (e := le 2 (u16 (i + 1)) ++ le 2 0 ++ le 4 0 ++ le 8 (zlen o) ++ o).
  assert (Le : zlen e = 16 + zlen o) by (unfold e; rewrite !zlen_app, !zlen_le; lia).
  rewrite zlen_app, Le. rewrite IH by lia. unfold e. unfold u16. rewrite Z.mod_small by lia. rewrite <- !app_assoc. reflexivity.
Qed.
Lemma heap_items_ok objs : forall n i, n mod 8 = 0 -> 0 <= i -> i + zlen objs <= 65535 ->
  Forall heap_object_ok (heap_items n i objs) /\ map (fun o => fst (fst o)) (heap_items n i objs) = map (fun k => i + 1 + Z.of_nat k) (seq 0 (List.length objs)).
Proof.
  induction objs as [|o r IH]; intros n i Hn Hi Hl; [split; [constructor|reflexivity]|]. rewrite zlen_cons in Hl.
  pose proof (zlen_nonneg r) as Hr. cbn [heap_items map List.length seq fst]. destruct (pad8_short (n + (16 + zlen o))) as [P1 P2].
  destruct (IH (n + (16 + zlen o + zlen (pad8 (n + (16 + zlen o))))) (i + 1)) as [I1 I2]; [|lia|lia|].
  { clear - Hn P2. Z.div_mod_to_equations. lia. }
  split.
  - constructor; [|exact I1]. unfold heap_object_ok. change (2 ^ 16) with 65536. split; [lia|]. split; [|lia].
    clear - Hn P2. Z.div_mod_to_equations. lia.
  - rewrite I2. f_equal; [lia|]. rewrite <- seq_shift, map_map. apply map_ext. intros k. lia.
Qed.
Lemma heap_items_nth objs : forall n i k b, nth_error objs k = Some b -> exists pad, In (i + 1 + Z.of_nat k, b, pad) (heap_items n i objs).
Proof.
  induction objs as [|o r IH]; intros n i k b E; [destruct k; discriminate|]. cbn [heap_items]. destruct k as [|k].
  - injection E as <-. eexists. left. rewrite Z.add_0_r. reflexivity.
  - cbn [nth_error] in E. destruct (IH (n + (16 + zlen o + zlen (pad8 (n + (16 + zlen o))))) (i + 1) k b E) as (pad & Hp).
    exists pad. right. replace (i + 1 + Z.of_nat (S k)) with (i + 1 + 1 + Z.of_nat k) by lia. exact Hp.
Qed.
Lemma heap_collection f n objs addr b : globalHeap n objs = (addr, b) -> has_at f n b -> zlen objs <= 65535 ->
  collection_at f addr (heap_items (addr + 16) 0 objs) /\ 0 <= addr < zlen f.
Proof.
  unfold globalHeap. cbv zeta. set (ad := n + zlen (pad8 n)). set (o := heap_objects (ad + 16) 0 objs).
  set (total := if 16 + zlen o + 16 <? 4096 then 4096 else 16 + zlen o + 16).
  set (fs := total - (16 + zlen o)).
  intros E Hat Hn. apply pair_equal_spec in E. destruct E as [<- <-].
  destruct (pad8_short n) as [_ P]. fold ad in P.
  assert (P16 : (ad + 16) mod 8 = 0) by (clear -P; Z.div_mod_to_equations; lia).
  assert (Eo : o = flat_map heap_object (heap_items (ad + 16) 0 objs)) by (apply heap_items_bytes; lia).
  destruct (heap_items_ok objs (ad + 16) 0 P16) as [I1 I2]; [lia|lia|].
  apply has_at_app_r in Hat. fold ad in Hat.
  set (free := le 2 0 ++ le 2 0 ++ le 4 0 ++ le 8 fs ++ zrep (fs - 16) 0) in *.
  split.
  - exists free. split; [exact I1|]. split; [|split].
    + rewrite I2. apply FinFun.Injective_map_NoDup; [intros x y; lia|apply seq_NoDup].
    + right. eexists. reflexivity.
    + rewrite <- Eo, zlen_app, Z.add_assoc. exact Hat.
  - destruct (has_at_bound _ _ _ Hat) as [B1 B2]. rewrite zlen_app in B2. change (zlen (bs "GCOL")) with 4 in B2.
    match type of B2 with _ + (4 + zlen ?x) <= _ => pose proof (zlen_nonneg x) end. lia.
Qed.

Definition pure_heap (addr : Z) (objs : list bytes) (a i : Z) : res (option bytes) :=
  if (a =? addr) && (1 <=? i) then Ok (nth_error objs (Z.to_nat (i - 1))) else Ok None.
Lemma pure_heap_gives addr hf : 0 <= addr < 2 ^ 64 -> zlen (hs_objs hf) <= 65535 -> heap_gives (pure_heap addr (hs_objs hf)) addr hf.
Proof.
  intros Ha Hn. split; [exact Ha|]. split; [change (2 ^ 32) with 4294967296; lia|]. intros i b E _. unfold pure_heap.
  rewrite Z.eqb_refl. replace (1 <=? Z.of_nat i + 1) with true by lia. cbn [andb].
  replace (Z.to_nat (Z.of_nat i + 1 - 1)) with i by lia. rewrite E. reflexivity.
Qed.
Lemma pure_heap_tells f addr objs :
  (objs = [] /\ addr = 0) \/ (exists n b, globalHeap n objs = (addr, b) /\ has_at f n b) -> zlen objs <= 65535 ->
  tells (in_global_heap f) (pure_heap addr objs).
Proof.
  intros H Hn a i b E Hb. unfold pure_heap in E. destruct (a =? addr) eqn:Ea; [|discriminate]. destruct (1 <=? i) eqn:Ei; [|discriminate].
  cbn [andb] in E. injection E as E. replace a with addr by lia. destruct H as [[-> _]|(n & bb & Hg & Hat)].
  - destruct (Z.to_nat (i - 1)); discriminate.
  - destruct (heap_collection f n objs addr bb Hg Hat Hn) as [C _].
    destruct (heap_items_nth objs (addr + 16) 0 _ _ E) as (pad & Hp). exists (heap_items (addr + 16) 0 objs), pad.
    split; [exact C|]. split; [|exact Hb]. replace (0 + 1 + Z.of_nat (Z.to_nat (i - 1))) with i in Hp by lia. exact Hp.
Qed.

(** ** Attributes and datasets *)
Lemma attr_flags big h name v ix m : buildAttributeMessage big h name v ix = Ok m -> m_flags m = 0.
Proof.
  unfold buildAttributeMessage. cbv zeta. destruct (buildDatatypeMessage _ _ _) as [dt| |]; try discriminate. cbn [rbind].
  destruct (valueBytes _ _ _ _ _) as [d| |]; try discriminate. cbn [rbind]. intros E.
  apply (f_equal (fun r => match r with Ok x => m_flags x | _ => 0 end)) in E. cbv beta iota in E. rewrite <- E. reflexivity.
Qed.
Lemma dimlist_flags e addrs ds m : buildDimensionList e addrs ds = Some m -> m_flags m = 0.
Proof. unfold buildDimensionList. destruct (existsb _ ds); [discriminate|]. intros E. injection E as <-. reflexivity. Qed.

Section Objects.
Variables (f : bytes) (c : wctx).
Hypothesis Hf : zlen f < 2 ^ 63.

Definition amsg_good (m : h5msg) : Prop := m_flags m = 0 /\ m_type m = 12 /\ zlen (m_data m) < 65536 /\ m_data m <> [] /\ message_is 12 (m_data m).
Lemma attrs_conf x p o a ms : Forall (fun kv => aconf f x (p, o, fst kv) (snd kv)) (attr_list a) ->
  attrMessages false x p o a = Ok ms ->
  Forall amsg_good ms /\ Forall2 (attribute_as f) (map m_data ms) (attr_list a) /\ zlen ms = zlen (attr_list a).
Proof.
  unfold attrMessages. intros H E. apply rmapM_inv in E. revert H. induction E as [|kv m l ms Em _ IH]; intros H.
  - split; [constructor|]. split; [constructor|reflexivity].
  - inversion H as [|? ? H1 H2]; subst x0 l0. destruct (IH H2) as (A1 & A2 & A3).
    destruct (H1 m Em) as (B1 & B2 & B3 & B4 & B5). pose proof (attr_flags _ _ _ _ _ _ Em) as B0.
    split; [constructor; [|exact A1]; repeat split; assumption|].
    split; [|rewrite !zlen_cons; lia]. cbn [map]. constructor; [|exact A2]. destruct kv as [k v]. exact B4.
Qed.
Lemma amsg_fine m : amsg_good m -> msg_fine m.
Proof. intros (A & B & C & D & _). unfold msg_fine. rewrite A, B. repeat split; try assumption; lia. Qed.
Lemma amsgs_type l t : Forall amsg_good l -> t <> 12 -> of_type t (map fm_of l) = [].
Proof.
  intros H Ht. apply of_type_none, Forall_map. eapply Forall_impl; [|exact H]. intros m (_ & A & _). cbn [fm_of fm_type]. rewrite A. auto.
Qed.
Lemma amsgs_attr l : Forall amsg_good l -> of_type 12 (map fm_of l) = map m_data l.
Proof.
  intros H. rewrite of_type_all.
  - rewrite map_map. reflexivity.
  - apply Forall_map. eapply Forall_impl; [|exact H]. intros m (_ & A & _). exact A.
Qed.
Lemma amsgs_size l : Forall amsg_good l -> zlen (flat_map msg_bytes l) <= 65539 * zlen l.
Proof.
  intros H. change 65539 with (4 + 65535). apply body_size; [lia|]. eapply Forall_impl; [|exact H]. intros m (_ & _ & A & _). lia.
Qed.

Definition dim_attr (v : hvar) : list (bytes * hval) :=
  if hv_scale v then [] else match hv_dims v with [] => [] | ds => [dimension_list (map (addr_of c) ds)] end.
Definition dims_of (v : hvar) : list Z := getDimsLimited (List.length (hv_dims v)) (hv_val v).
(** The header has no fill value message. *)
Definition no_fill (a : Z) : Prop := exists l, messages_are f 0 a l /\ of_type 5 l = [].
Lemma dataset_conf p nv na : var_at f c p nv na -> vconf f c p nv -> zlen (attr_list (hv_attrs (snd nv))) <= 30010 ->
  (dataset_as f (snd na) (dims_of (snd nv)) (hv_val (snd nv)) (attr_list (hv_attrs (snd nv)) ++ dim_attr (snd nv)) /\
   no_fill (snd na)) /\
  forall n, (0 < n)%nat -> object_is f message_is n (snd na) (FData (dims_of (snd nv))).
Proof.
  destruct nv as [name v]. intros (En & Hpos & dn & data & ms & oh & Ev & Hd & Em & Eo & Ho)
    ((dims & t & dt & Hl & Edt & Hty & Hfew & Hop & Hne & Hdt & Edims & Hdims & Hrank & Hdata) & Ha & _ & Hdim & Hheap) Hna.
  cbn [fst snd] in *. unfold dims_of. rewrite Edims. destruct (Hdata data Ev) as [Hz Hval].
  destruct (has_at_bound _ _ _ Hd) as [B1 B2]. pose proof (zlen_nonneg data) as B3.
  unfold varMessages in Em. rewrite Edt in Em. cbn [rbind] in Em.
  destruct (attrMessages false (ctx_of c v) p (Some name) (hv_attrs v)) as [atts| |] eqn:Ea; try discriminate.
  cbn [rbind] in Em. destruct (attrs_conf _ _ _ _ _ Ha Ea) as (A1 & A2 & A3).
  rewrite Edims in Em. apply (f_equal (fun r => match r with Ok x => x | _ => [] end)) in Em. cbv beta iota in Em.
  match type of Em with _ ++ _ ++ ?x = _ => set (dl := x) in Em end.
  assert (Hdl : Forall amsg_good dl /\ Forall2 (attribute_as f) (map m_data dl) (dim_attr v) /\ zlen dl <= 1).
  { unfold dl, dim_attr. unfold ctx_of. destruct (hv_scale v) eqn:Es.
    - cbn [c0 c_heap]. split; [constructor|]. split; [constructor|discriminate].
    - destruct (Hheap eq_refl) as (e & He0). rewrite He0. cbn [negb andb].
      destruct (hv_dims v) as [|d ds] eqn:Ed.
      + split; [constructor|]. split; [constructor|discriminate].
      + destruct (Hdim eq_refl ltac:(discriminate)) as (e' & m & He & Hm & M). rewrite zlen_cons. pose proof (zlen_nonneg ds).
        replace (0 <? 1 + zlen ds) with true by lia.
        destruct M as (M1 & M2 & M3 & M4 & M5). assert (e' = e) by congruence. subst e'.
        rewrite Hm. split; [constructor; [|constructor]|].
        * split; [eapply dimlist_flags; exact Hm|]. repeat split; assumption.
        * split; [constructor; [exact M4|constructor]|discriminate]. }
  destruct Hdl as (D1 & D2 & D3).
  set (sb := buildDataspaceMessage dims) in *. set (pb := buildLayoutMessageV2 dn (zlen data)) in *.
  assert (Hw : Forall (word 64) dims) by (apply word_dims; exact Hdims).
  assert (Hsp : space_is sb dims) by (apply space_format; assumption).
  change (2 ^ 63) with 9223372036854775808 in Hf.
  assert (Hpl : place_is pb (Contiguous (Some dn) (zlen data))).
  { unfold pb, buildLayoutMessageV2. apply (place_contiguous 3 (Some dn)); [left; reflexivity| |].
    - cbn [address_ok]. unfold undefined. change (2 ^ 64) with 18446744073709551616. lia.
    - unfold word. change (2 ^ 64) with 18446744073709551616. lia. }
  assert (Zs : zlen sb = 8 + 8 * zlen dims) by apply zlen_dataspace.
  assert (Zp : zlen pb = 18) by reflexivity.
  pose proof (zlen_nonneg dims) as Zd.
  assert (F3 : Forall msg_fine [msg 1 sb; msg 3 dt; msg 8 pb]).
  { constructor; [|constructor; [|constructor; [|constructor]]]; unfold msg_fine; cbn [msg m_type m_data m_flags].
    - repeat split; try lia. discriminate.
    - repeat split; try lia. exact Hne.
    - repeat split; try lia. discriminate. }
  assert (Hfine : Forall msg_fine ms).
  { rewrite <- Em. apply Forall_app. split; [exact F3|]. apply Forall_app. split; (eapply Forall_impl; [exact amsg_fine|assumption]). }
  assert (Hsize : zlen (ohdr_body ms) < 2 ^ 31).
  { pose proof (ohdr_body_size ms) as S1. rewrite <- Em in S1 at 2. rewrite !flat_map_app, !zlen_app in S1.
    pose proof (amsgs_size _ A1) as S2. pose proof (amsgs_size _ D1) as S3. rewrite A3 in S2.
    assert (S4 : zlen (flat_map msg_bytes [msg 1 sb; msg 3 dt; msg 8 pb]) <= (4 + 65535) * 3).
    { apply (body_size [msg 1 sb; msg 3 dt; msg 8 pb] 65535); [lia|]. constructor; [|constructor; [|constructor; [|constructor]]]; cbn [msg m_data]; lia. }
    change (2 ^ 31) with 2147483648. clear - S1 S2 S3 S4 D3 Hna. unfold bytes in *. lia. }
  pose proof (header_format f (snd na) ms oh Hfine Hsize Eo Ho Hpos) as HM.
  assert (OT : forall t, t <> 0 -> t <> 12 -> of_type t (chunk_of ms) = of_type t (map fm_of [msg 1 sb; msg 3 dt; msg 8 pb])).
  { intros u U1 U2. rewrite of_type_chunk by exact U1. rewrite <- Em, !map_app, !of_type_app.
    rewrite (amsgs_type _ _ A1 U2), (amsgs_type _ _ D1 U2), !app_nil_r. reflexivity. }
  assert (O12 : of_type 12 (chunk_of ms) = map m_data atts ++ map m_data dl).
  { rewrite of_type_chunk by discriminate. rewrite <- Em, !map_app, !of_type_app.
    rewrite (amsgs_attr _ A1), (amsgs_attr _ D1). reflexivity. }
  split; [split|].
  - exists 0%nat, (chunk_of ms), sb, dt, pb, t, dn, data. split; [exact HM|].
    split; [rewrite OT by discriminate; reflexivity|]. split; [exact Hsp|].
    split; [rewrite OT by discriminate; reflexivity|]. split; [exact Hty|].
    split; [rewrite OT by discriminate; reflexivity|]. split; [exact Hpl|]. split; [exact Hd|]. split; [exact Hz|]. split; [exact Hval|].
    split; [rewrite OT by discriminate; reflexivity|]. split; [rewrite OT by discriminate; reflexivity|].
    rewrite O12. apply Forall2_app; assumption.
  - exists (chunk_of ms). split; [exact HM|]. rewrite OT by discriminate. reflexivity.
  - intros n Hn. eapply (is_data f message_is n 0 (snd na) (chunk_of ms) sb dims); [exact HM|exact Hn| | | |].
    + unfold chunk_of. rewrite <- Em at 1. rewrite !map_app. apply Forall_app. split; [|eapply Forall_impl; [|apply null_ok]; intros m [_ M]; right; right; split; [rewrite M; left; reflexivity|left; exact M]].
      assert (AG : forall l, Forall amsg_good l ->
        Forall (fun m => fm_type m = 1 \/ fm_type m = 21 \/ plain message_is [0; 3; 4; 5; 8; 11; 12; 13; 14; 18; 22] m) (map fm_of l)).
      { intros l Hl'. apply Forall_map. eapply Forall_impl; [|exact Hl']. intros m (_ & M1 & _ & M3 & M4). right. right.
        split; cbn [fm_of fm_type fm_data]; rewrite M1; [cbn [In]; tauto|]. right. split; assumption. }
      apply Forall_app. split; [|apply Forall_app; split; apply AG; assumption].
      constructor; [left; reflexivity|]. constructor; [|constructor; [|constructor]]; right; right; (split; cbn [fm_of msg fm_type fm_data m_type m_data]; [cbn [In]; tauto|]; right).
      * split; [exact Hne|]. exists dt, 0. split; [rewrite app_nil_r; reflexivity|]. eapply body_type; eassumption.
      * split; [discriminate|]. exists pb, 0. split; [rewrite app_nil_r; reflexivity|]. eapply body_place; exact Hpl.
    + rewrite OT by discriminate. reflexivity.
    + exists 0, [], 0. split; [unfold word; lia|]. split; [exact Hw|]. split; [constructor|]. split; [reflexivity|].
      split; [change (2 ^ 8) with 256; lia|]. left. unfold sb, buildDataspaceMessage. unfold u8. rewrite Z.mod_small by lia.
      cbn [flat_map app zrep Z.to_nat repeat]. rewrite !app_nil_r. reflexivity.
    + left. rewrite OT by discriminate. reflexivity.
Qed.

(** ** Groups *)
Definition link_of (x : bytes * Z) : h5msg := buildLinkMessage (fst x) (snd x).
Definition link_fine (x : bytes * Z) : Prop := zlen (fst x) < 256 /\ 0 <= snd x < 2 ^ 63.
Lemma zlen_link x : zlen (m_data (link_of x)) = 11 + zlen (fst x).
Proof. unfold link_of, buildLinkMessage. cbn [msg m_data]. rewrite !zlen_app, zlen_le. change (zlen [1; 0; u8 (zlen (fst x))]) with 3. lia. Qed.
Lemma link_msg_fine x : link_fine x -> msg_fine (link_of x).
Proof.
  intros [A B]. pose proof (zlen_link x) as Zx. pose proof (zlen_nonneg (fst x)). unfold msg_fine.
  split; [cbn; lia|]. split; [discriminate|]. split; [reflexivity|]. split; [lia|]. intros E. rewrite E in Zx. change (zlen (@nil Z)) with 0 in Zx. lia.
Qed.
Lemma link_hard x : link_fine x -> hard_link (m_data (link_of x)) (fst x) (snd x).
Proof.
  intros [A B]. pose proof (zlen_nonneg (fst x)). exists 0, 0, 0, 0. change (2 ^ 63) with 9223372036854775808 in B.
  unfold word. change (2 ^ 5) with 32. change (2 ^ 64) with 18446744073709551616.
  split; [lia|]. split; [lia|]. split; [left; reflexivity|]. split; [lia|]. split; [change (2 ^ (8 * 2 ^ (0 mod 4))) with 256; lia|].
  unfold link_of, buildLinkMessage, link_bytes. cbn [msg m_data]. change (Z.to_nat (2 ^ (0 mod 4))) with 1%nat.
  unfold u8. rewrite Z.mod_small by lia. cbn [Z.testbit app zrep Z.to_nat repeat].
  rewrite app_nil_r. cbn [le app]. rewrite (Z.mod_small (zlen (fst x)) 256) by lia. reflexivity.
Qed.

Lemma group_conf p at_ vas gas a kids n k : header_at f c p at_ vas gas a ->
  Forall (fun kv => aconf f c (p, None, fst kv) (snd kv)) (attr_list at_) -> zlen (attr_list at_) <= 30001 ->
  Forall link_fine (vas ++ gas) -> zlen (vas ++ gas) <= 64000 -> NoDup (map fst (vas ++ gas)) ->
  map fst kids = vas ++ gas -> kids_are f message_is k kids -> (k < n)%nat ->
  attrs_in_header f a (attr_list at_) /\ object_is f message_is n a (FGroup kids).
Proof.
  intros (Hpos & ms & oh & Em & Eo & Ho) Ha Hna Hl Hnl Hnd Ek Hk Hn.
  unfold groupMessages in Em. destruct (attrMessages false c p None at_) as [atts| |] eqn:Ea; try discriminate. cbn [rbind] in Em.
  destruct (attrs_conf _ _ _ _ _ Ha Ea) as (A1 & A2 & A3).
  apply (f_equal (fun r => match r with Ok x => x | _ => [] end)) in Em. cbv beta iota in Em.
  change (map (fun x => buildLinkMessage (fst x) (snd x)) vas) with (map link_of vas) in Em.
  change (map (fun x => buildLinkMessage (fst x) (snd x)) gas) with (map link_of gas) in Em.
  rewrite (app_assoc (map link_of vas)), <- map_app in Em. set (ls := vas ++ gas) in *.
  assert (F2 : Forall msg_fine [buildLinkInfoMessage; groupInfoMessage]).
  { constructor; [|constructor; [|constructor]]; unfold msg_fine.
    - split; [cbn; lia|]. split; [discriminate|]. split; [reflexivity|]. split; [reflexivity|discriminate].
    - split; [cbn; lia|]. split; [discriminate|]. split; [reflexivity|]. split; [reflexivity|discriminate]. }
  assert (Hfine : Forall msg_fine ms).
  { rewrite <- Em. apply Forall_app. split; [exact F2|]. apply Forall_app. split.
    - apply Forall_map. eapply Forall_impl; [exact link_msg_fine|exact Hl].
    - eapply Forall_impl; [exact amsg_fine|exact A1]. }
  assert (Hsize : zlen (ohdr_body ms) < 2 ^ 31).
  { pose proof (ohdr_body_size ms) as S1. rewrite <- Em in S1 at 2. rewrite !flat_map_app, !zlen_app in S1.
    pose proof (amsgs_size _ A1) as S2. rewrite A3 in S2.
    assert (S3 : zlen (flat_map msg_bytes (map link_of ls)) <= (4 + 300) * zlen (map link_of ls)).
    { apply (body_size _ 300); [lia|]. apply Forall_map. eapply Forall_impl; [|exact Hl]. intros x [X _]. rewrite zlen_link. lia. }
    rewrite zlen_map in S3. change (zlen (flat_map msg_bytes [buildLinkInfoMessage; groupInfoMessage])) with 28 in S1.
    change (2 ^ 31) with 2147483648. clear - S1 S2 S3 Hna Hnl. unfold bytes in *. lia. }
  pose proof (header_format f a ms oh Hfine Hsize Eo Ho Hpos) as HM.
  assert (LT : forall t, t <> 6 -> of_type t (map fm_of (map link_of ls)) = []).
  { intros t Ht. apply of_type_none, Forall_map, Forall_map, Forall_forall. intros x _. cbn. auto. }
  assert (OT : forall t, t <> 0 -> t <> 6 -> t <> 12 -> of_type t (chunk_of ms) = of_type t (map fm_of [buildLinkInfoMessage; groupInfoMessage])).
  { intros t T1 T2 T3. rewrite of_type_chunk by exact T1. rewrite <- Em, !map_app, !of_type_app.
    rewrite (amsgs_type _ _ A1 T3), (LT t T2), !app_nil_r. reflexivity. }
  assert (O12 : of_type 12 (chunk_of ms) = map m_data atts).
  { rewrite of_type_chunk by discriminate. rewrite <- Em, !map_app, !of_type_app.
    rewrite (amsgs_attr _ A1), (LT 12) by discriminate. reflexivity. }
  split.
  - exists 0%nat, (chunk_of ms). split; [exact HM|]. split; [rewrite OT by discriminate; reflexivity|]. rewrite O12. exact A2.
  - assert (PL : forall m, fm_type m = 0 -> plain message_is [0; 10; 12; 13; 14; 18; 22] m).
    { intros m M. split; [rewrite M; left; reflexivity|left; exact M]. }
    eapply (is_group f message_is n 0 k a (chunk_of ms)
              ([[]; []] ++ map (fun x => [x]) ls ++ map (fun _ => []) atts ++ map (fun _ => []) (null_of (zlen (flat_map msg_bytes ms)))) []);
      [exact HM|exact Hn| | | | | | |exact Hk].
    + unfold chunk_of. rewrite <- Em at 1. rewrite !map_app, <- !app_assoc. apply Forall2_app; [|apply Forall2_app; [|apply Forall2_app]].
      * constructor; [|constructor; [|constructor]]; right; right; (split; [|reflexivity]).
        -- left. reflexivity.
        -- right. right. split; [cbn; tauto|]. right. split; [discriminate|]. exists [0; 0], 0. split; [reflexivity|].
           apply body_group_info. exists 0, 0, 0, 0, 0. unfold word.
           change (2 ^ 2) with 4. change (2 ^ 16) with 65536. repeat split; lia.
      * clear - Hl. induction Hl as [|x l X _ IH]; [constructor|]. cbn [map]. constructor; [|exact IH]. left. split; [reflexivity|].
        exists (fst x), (snd x). split; [apply link_hard; exact X|]. destruct x. reflexivity.
      * clear - A1. induction A1 as [|m l X _ IH]; [constructor|]. cbn [map]. constructor; [|exact IH]. right. right. split; [|reflexivity].
        right. right. destruct X as (_ & X1 & _ & X3 & X4). split; cbn [fm_of fm_type fm_data]; rewrite X1; [cbn [In]; tauto|]. right. split; assumption.
      * pose proof (null_ok (zlen (flat_map msg_bytes ms))) as N. clear - N PL. induction N as [|m l [_ X] _ IH]; [constructor|].
        cbn [map]. constructor; [|exact IH]. right. right. split; [|reflexivity]. right. right. apply PL. exact X.
    + right. exists (m_data buildLinkInfoMessage), undefined, undefined. split; [rewrite OT by discriminate; reflexivity|].
      split; [|left; split; reflexivity]. exists 0, 0, 0, 0. unfold word, undefined.
      change (2 ^ 64) with 18446744073709551616. change (2 ^ 2) with 4.
      split; [lia|]. split; [lia|]. split; [lia|]. split; [lia|]. split; [lia|]. reflexivity.
    + left. rewrite OT by discriminate. reflexivity.
    + rewrite (OT 2) by discriminate. discriminate.
    + rewrite Ek. rewrite app_nil_r, !concat_app. fold ls.
      assert (E1 : List.concat (map (fun x => [x]) ls) = ls) by (clear; induction ls as [|x l IH]; [reflexivity|cbn [map List.concat app]; rewrite IH; reflexivity]).
      assert (E2 : forall A (l : list A), List.concat (map (fun _ => []) l) = @nil (bytes * Z)) by (induction l as [|x l IH]; [reflexivity|exact IH]).
      rewrite E1, !E2, !app_nil_r. apply Permutation_refl.
    + rewrite Ek. exact Hnd.
Qed.

(** ** Trees *)
Definition shows_var (nv : bytes * hvar) (k : bytes * Z * ftree) : Prop :=
  fst (fst k) = fst nv /\ snd k = FData (dims_of (snd nv)) /\
  dataset_as f (snd (fst k)) (dims_of (snd nv)) (hv_val (snd nv)) (attr_list (hv_attrs (snd nv)) ++ dim_attr (snd nv)) /\
  no_fill (snd (fst k)).
Inductive shows : wtree -> Z -> ftree -> Prop :=
| shows_node at_ vs gs a vk gk :
    attrs_in_header f a (attr_list at_) -> Forall2 shows_var vs vk ->
    Forall2 (fun g k => fst (fst k) = fst g /\ shows (snd g) (snd (fst k)) (snd k)) gs gk ->
    shows (WNode at_ vs gs) a (FGroup (vk ++ gk)).

Definition node_conf (p : path) (g : wtree) : Prop :=
  Forall (fun kv => aconf f c (p, None, fst kv) (snd kv)) (attr_list (w_attrs g)) /\ zlen (attr_list (w_attrs g)) <= 30001 /\
  Forall (fun nv => vconf f c p nv /\ zlen (attr_list (hv_attrs (snd nv))) <= 30010) (w_vars g) /\
  Forall (fun n => zlen n < 256) (map fst (w_vars g) ++ map fst (w_groups g)) /\
  NoDup (map fst (w_vars g) ++ map fst (w_groups g)) /\ zlen (w_vars g) + zlen (w_groups g) <= 64000.

Lemma kids_app n a b : kids_are f message_is n a -> kids_are f message_is n b -> kids_are f message_is n (a ++ b).
Proof.
  induction a as [|[[x y] t] a IH]; intros A B; [exact B|]. inversion A; subst. cbn [app]. constructor; [assumption|]. apply IH; assumption.
Qed.
Lemma vars_conf p vs vas : Forall2 (var_at f c p) vs vas ->
  Forall (fun nv => vconf f c p nv /\ zlen (attr_list (hv_attrs (snd nv))) <= 30010) vs ->
  exists vk, Forall2 shows_var vs vk /\ map fst vk = vas /\ map fst vas = map fst vs /\
    flat_map (fun k => snd (fst k) :: below (snd k)) vk = map snd vas /\ Forall (fun x => 0 <= snd x < 2 ^ 63) vas /\
    forall n, (0 < n)%nat -> kids_are f message_is n vk.
Proof.
  induction 1 as [|nv na vs vas Hv _ IH]; intros Hc.
  - exists []. split; [constructor|]. split; [reflexivity|]. split; [reflexivity|]. split; [reflexivity|]. split; [constructor|]. intros; constructor.
  - inversion Hc as [|? ? [C1 C2] C3]; subst x l. destruct (IH C3) as (vk & I1 & I2 & I3 & I4 & I5 & I6).
    destruct (dataset_conf p nv na Hv C1 C2) as [D1 D2].
    assert (Hb : 0 <= snd na < 2 ^ 63).
    { destruct Hv as (_ & Hpos & dn & data & ms & oh & _ & _ & _ & _ & Ho). destruct (has_at_bound _ _ _ Ho). pose proof (zlen_nonneg oh). lia. }
    exists ((na, FData (dims_of (snd nv))) :: vk). destruct Hv as [En _].
    split; [constructor; [|exact I1]; split; [exact En|split; [reflexivity|exact D1]]|].
    split; [cbn [map fst]; rewrite I2; reflexivity|]. split; [cbn [map]; rewrite I3, En; reflexivity|].
    split; [cbn [flat_map map fst snd below app]; rewrite I4; reflexivity|]. split; [constructor; assumption|].
    intros n Hn. destruct na as [x y]. constructor; [apply D2; exact Hn|apply I6; exact Hn].
Qed.

Theorem tree_conf t : forall p vas gas L a,
  tall node_conf p t -> contents_at f c p t vas gas L -> header_at f c p (w_attrs t) vas gas a ->
  exists kids, shows t a (FGroup kids) /\ map fst kids = vas ++ gas /\ below (FGroup kids) = L /\
    forall n, (List.length L < n)%nat -> object_is f message_is n a (FGroup kids).
Proof.
  induction t as [at_ vs gs IHt] using wtree_ind'. intros p vas gas L a Ht Hc Hh.
  apply tall_eq in Ht. destruct Ht as [(G1 & G2 & G3 & G4 & G5 & G6) Hts]. cbn [w_attrs w_vars w_groups] in *.
  destruct (proj1 (contents_at_eq _ _ _ _ _ _ _ _ _) Hc) as (Hv & Ls & EL & Hgs).
  destruct (vars_conf p vs vas Hv G3) as (vk & V1 & V2 & V3 & V4 & V5 & V6).
  assert (GG : exists gk, Forall2 (fun g k => fst (fst k) = fst g /\ shows (snd g) (snd (fst k)) (snd k)) gs gk /\
            map fst gk = gas /\ map fst gas = map fst gs /\ flat_map (fun k => snd (fst k) :: below (snd k)) gk = List.concat Ls /\
            Forall (fun x => 0 <= snd x < 2 ^ 63) gas /\
            forall n, (List.length (List.concat Ls) <= n)%nat -> kids_are f message_is n gk).
  { clear - IHt Hts Hgs Hf. revert gas Ls Hgs. induction gs as [|[n g] gs IH]; intros gas Ls Hgs.
    - destruct gas as [|]; [|contradiction]. destruct Ls as [|]; [|contradiction]. exists [].
      split; [constructor|]. split; [reflexivity|]. split; [reflexivity|]. split; [reflexivity|]. split; [constructor|]. intros; constructor.
    - destruct gas as [|[n' a'] gas]; [contradiction|]. destruct Ls as [|l Ls]; [contradiction|].
      cbn [groups_at] in Hgs. destruct Hgs as (-> & (vas' & gas' & l' & El & Hc' & Hh') & Hgs).
      cbn [talls] in Hts. destruct Hts as [T1 T2]. inversion IHt as [|? ? J1 J2]; subst x l0. cbn [snd] in J1.
      destruct (J1 _ _ _ _ _ T1 Hc' Hh') as (kids & K1 & K2 & K3 & K4).
      destruct (IH J2 T2 gas Ls Hgs) as (gk & I1 & I2 & I3 & I4 & I5 & I6).
      assert (Hb : 0 <= a' < 2 ^ 63).
      { destruct Hh' as (Hpos & ms & oh & _ & _ & Ho). destruct (has_at_bound _ _ _ Ho). pose proof (zlen_nonneg oh). lia. }
      exists ((n, a', FGroup kids) :: gk).
      split; [constructor; [split; [reflexivity|exact K1]|exact I1]|]. split; [cbn [map fst]; rewrite I2; reflexivity|].
      split; [cbn [map fst]; rewrite I3; reflexivity|].
      split; [cbn [flat_map fst snd List.concat]; rewrite K3, I4, El; reflexivity|]. split; [constructor; [exact Hb|exact I5]|].
      intros k Hk. cbn [List.concat] in Hk. rewrite El, app_length in Hk. cbn [List.length] in Hk.
      constructor; [apply K4; lia|apply I6; lia]. }
  destruct GG as (gk & K1 & K2 & K3 & K4 & K5 & K6).
  assert (Ek : map fst (vk ++ gk) = vas ++ gas) by (rewrite map_app, V2, K2; reflexivity).
  assert (En : map fst (vas ++ gas) = map fst vs ++ map fst gs) by (rewrite map_app, V3, K3; reflexivity).
  assert (Hl : Forall link_fine (vas ++ gas)).
  { apply Forall_forall. intros x Hx. split.
    - rewrite <- En in G4. rewrite Forall_forall in G4. apply G4. apply in_map. exact Hx.
    - assert (Hall : Forall (fun x => 0 <= snd x < 2 ^ 63) (vas ++ gas)) by (apply Forall_app; split; assumption).
      rewrite Forall_forall in Hall. apply Hall. exact Hx. }
  assert (Hn : zlen (vas ++ gas) <= 64000).
  { assert (X : zlen (vas ++ gas) = zlen vs + zlen gs); [|rewrite X; exact G6].
    rewrite <- (zlen_map fst (vas ++ gas)), En, zlen_app, !zlen_map. reflexivity. }
  rewrite <- En in G5.
  assert (EB : below (FGroup (vk ++ gk)) = L) by (cbn [below]; rewrite flat_map_app, V4, K4; symmetry; exact EL).
  assert (Hkids : kids_are f message_is (List.length L) (vk ++ gk)).
  { apply kids_app.
    - destruct vk as [|k0 vk']; [constructor|]. apply V6. rewrite EL, <- V2. cbn [map app List.length]. lia.
    - apply K6. rewrite EL, app_length. lia. }
  assert (Q : forall n, (List.length L < n)%nat -> attrs_in_header f a (attr_list at_) /\ object_is f message_is n a (FGroup (vk ++ gk))).
  { intros n Hn'. eapply group_conf; eassumption. }
  exists (vk ++ gk). split; [|split; [exact Ek|split; [exact EB|intros n Hn'; apply (Q n Hn')]]].
  constructor; [apply (Q _ (Nat.lt_succ_diag_r _))|exact V1|exact K1].
Qed.
End Objects.
