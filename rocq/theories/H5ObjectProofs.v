(** What the reader makes of the object headers and the data that the writer writes. *)
From Verif Require Import Prelude GoVal OrderedMapModel ArraySpec H5Base H5MetaWrite H5MetaRead H5Value H5TypeRead
  H5FileWrite H5PathModel H5LayoutModel H5RecordModel H5FileRead MetaSpec TypeSpec RecordSpec BaseLemmas
  H5ChecksumProofs H5MetaProofs H5TypeProofs H5DataProofs H5StoreProofs H5VarProofs H5RecordProofs H5AttrProofs.
From Coq Require Import Lia ZifyBool ZifyNat.

(** ** Contiguous data *)
Lemma volume_fold dims : forall k, fold_left Z.mul dims k = k * volume dims.
Proof. induction dims as [|d r IH]; intros k; cbn [fold_left volume]; [lia|]. rewrite IH. lia. Qed.

Lemma undefinedFill_some t : undefinedFill t <> [].
Proof.
  assert (E : forall (big : bool) n v, (if big then rev (le (S n) v) else le (S n) v) <> []).
  { intros [|] n v H; apply (f_equal (@List.length Z)) in H; [rewrite rev_length in H|]; cbn in H; discriminate. }
  unfold undefinedFill. cbv zeta.
  repeat match goal with |- context [match ?x with _ => _ end] =>
    match type of x with dty => destruct x | Z => destruct x | positive => destruct x | bool => idtac end end;
  try discriminate; try apply E; repeat match goal with b : bool |- _ => destruct b end; try discriminate; apply (E true) || apply (E false).
Qed.
Lemma fillOf_some i t : fillOf i t <> [].
Proof.
  unfold fillOf. destruct (ri_fill i) as [[[|c v]|]|], (ri_fillOld i) as [[|c' v']|]; try discriminate; apply undefinedFill_some.
Qed.

Lemma contiguous_read f i dims t dn data : zlen f < 2 ^ 63 -> ri_layout i = [] ->
  Forall (fun n => 0 <= n < 2 ^ 63) dims -> 0 < dlen t -> zlen data = volume dims * dlen t ->
  has_at f dn data ->
  let d := dset_of i dims t in
  dataBytes f d [mkBlock dn (zlen data) (zlen data) 0 [] None] None =
    Ok (data, [mkBlock dn (zlen data) (zlen data) 0 [] None]).
Proof.
  intros Hf Hl Hd Ht Hz Hat d. destruct (has_at_bound _ _ _ Hat) as [Hdn Hb].
  pose proof (zlen_nonneg data) as Z0.
  assert (Et : total d = zlen data).
  { unfold total, d, dset_of. cbn [d_layout d_dims]. rewrite Hl. unfold d_length. cbn [d_ty]. congruence. }
  assert (Hfit : fits d [mkBlock dn (zlen data) (zlen data) 0 [] None]).
  { unfold fits. rewrite Et. split; [exact Hd|]. split; [exact Ht|]. split; [lia|].
    unfold d, dset_of. cbn [d_layout]. rewrite Hl. exact I. }
  destruct (size_total _ _ Hfit) as [Es _]. rewrite Et in Es.
  unfold dataBytes. rewrite Es. rewrite (i64_small (zlen data)) by lia.
  assert (Er : newRecordReader f d [mkBlock dn (zlen data) (zlen data) 0 [] None] None =
               Ok (data, zlen data, [mkBlock dn (zlen data) (zlen data) 0 [] None])).
  { destruct (Z.eq_dec (zlen data) 0) as [E0|N0].
    - unfold newRecordReader. rewrite Es, E0. cbn [Z.eqb]. rewrite (zlen_zero data E0). reflexivity.
    - assert (Hpl : placed f d 0 [mkBlock dn (zlen data) (zlen data) 0 [] None] [(0, data)]).
      { assert (P := placed_cons f d 0 (mkBlock dn (zlen data) (zlen data) 0 [] None) [] data []).
        assert (El : d_layout d = []) by exact Hl. rewrite El in P. apply P; [|apply placed_nil].
        unfold block_data. cbn [b_ds b_raw b_addr b_length].
        assert (Nd : data <> []) by (intros ->; apply N0; reflexivity).
        split; [reflexivity|]. split; [exact Nd|]. exists data, []. split; [exact Hat|]. split; [reflexivity|].
        split; [exact Nd|]. split; [rewrite app_nil_r; reflexivity|]. intros _. exists []. rewrite app_nil_r. reflexivity. }
      assert (Hin : inside (total d) [(0, data)]).
      { constructor; [|constructor]. cbn [fst snd]. unfold p_end. cbn [fst snd]. split; [lia|]. split; [lia|].
        intros ->. apply N0. reflexivity. }
      assert (Np : d_fill d <> []) by (unfold d, dset_of; cbn [d_fill]; apply fillOf_some).
      assert (ES : stream (d_fill d) [(0, data)] 0 (zlen data) = data).
      { assert (Nd : data <> []) by (intros ->; apply N0; reflexivity).
        etransitivity; [apply (stream_cons (d_fill d) 0 data [] 0 (zlen data)); try assumption; try lia; constructor|].
        rewrite stream_fill by (assumption || lia). rewrite !(zlen_zero (fillBytes _ _)) by (rewrite zlen_fill by exact Np; lia).
        apply app_nil_r. }
      rewrite (whole_stream f d _ [(0, data)] Hf Hfit) ; try assumption.
      + rewrite Et, ES. reflexivity.
      + constructor; constructor.
      + discriminate. }
  rewrite Er. cbn [rbind].
  assert (En : needsLayoutReader (d_dims d) (d_layout d) = false).
  { unfold d, dset_of. cbn [d_layout d_dims]. rewrite Hl. destruct dims; reflexivity. }
  rewrite En. cbn [rbind]. rewrite Z.ltb_irrefl. rewrite ztake_all by lia. reflexivity.
Qed.

Lemma contiguous_value f i dims t dn data v : zlen f < 2 ^ 63 -> ri_layout i = [] ->
  Forall (fun n => 0 <= n < 2 ^ 63) dims -> 0 < dlen t -> zlen data = volume dims * dlen t ->
  has_at f dn data -> alloc (readGlobalHeap f) t dims data = Ok (v, []) ->
  let d := dset_of i dims t in
  fst (getData f (readGlobalHeap f) d true (opened d [mkBlock dn (zlen data) (zlen data) 0 [] None])) = Ok v.
Proof.
  intros Hf Hl Hd Ht Hz Hat Ha d. unfold getData, opened. cbn [v_blocks v_slice v_ty].
  unfold d at 1. rewrite (contiguous_read f i dims t dn data Hf Hl Hd Ht Hz Hat). cbn [fst].
  unfold d, dset_of. cbn [d_dims d_ty sliceDims]. rewrite Ha. reflexivity.
Qed.

(** ** The list of dimensions *)
Lemma text_dec s : forallb (fun b => (0 <? b) && (b <? 256)) s = true -> text s.
Proof. intros H. apply Forall_forall. intros b Hb. rewrite forallb_forall in H. specialize (H b Hb). lia. Qed.
Definition DL : bytes := bs "DIMENSION_LIST".
Definition refs_value (addrs : list Z) : hval :=
  HSlice (TSlice (TNum U64)) (map (fun a => HSlice (TNum U64) [HNum U64 a]) addrs).

Lemma vlenRef_parse : parseDatatype vlenReferenceDt = Ok (DVlen 16 false (DRef 8), []).
Proof. vm_compute. reflexivity. Qed.

Lemma dimlist_message f e refs : 0 <= he_addr e < 2 ^ 64 -> refs <> [] -> zlen refs < 4000 ->
  Forall (fun x => 1 <= fst x < 2 ^ 32 /\ 0 <= snd x < 2 ^ 64 /\
                   readGlobalHeap f (he_addr e) (fst x) = Ok (Some (le 8 (snd x)))) refs ->
  exists a, readAttribute 0 (attrHead DL vlenReferenceDt (buildDataspaceMessage [zlen refs]) ++
                           flat_map (fun x => descriptor e 1 (fst x)) refs) = Ok a /\
    attr_gives f (DL, refs_value (map snd refs)) a.
Proof.
  intros He Hne Hl H.
  assert (Hz : zlen (flat_map (fun x : Z * Z => descriptor e 1 (fst x)) refs) = 16 * zlen refs).
  { clear. induction refs as [|x r IH]; [reflexivity|]. cbn [flat_map]. rewrite zlen_app, zlen_descriptor, zlen_cons, IH. lia. }
  assert (H1 : 1 <= zlen refs) by (destruct refs; [congruence|rewrite zlen_cons; pose proof (zlen_nonneg refs); lia]).
  pose proof (dimlist_alloc (readGlobalHeap f) e refs He Hne H) as Ha.
  rewrite (attr_read DL vlenReferenceDt [zlen refs] _ (DVlen 16 false (DRef 8))).
  - destruct (attr_kept f (DVlen 16 false (DRef 8)) [zlen refs] (flat_map (fun x => descriptor e 1 (fst x)) refs)
               (refs_value (map snd refs)) DL) as (_ & E2 & E3); try assumption.
    + reflexivity.
    + intros n [<-|[]]. lia.
    + cbn [dlen]. lia.
    + eapply Z.le_lt_trans; [apply Z.eq_le_incl; exact Hz|]. lia.
    + unfold refs_value. rewrite map_map. exact Ha.
    + change (8 <? zlen vlenReferenceDt) with true. rewrite E2. cbn [rbind]. eexists. split; [reflexivity|].
      split; [reflexivity|]. split; [exact E3|]. split.
      * unfold parseAttr. cbn [ra_df]. rewrite E3. reflexivity.
      * split; [reflexivity|]. cbn [fst snd]. split; [unfold refs_value; intros t E; discriminate|intros X; exfalso; apply X; reflexivity].
  - apply text_dec. reflexivity.
  - vm_compute. reflexivity.
  - exact vlenRef_parse.
  - vm_compute. reflexivity.
  - split; [constructor; [lia|constructor]|]. rewrite zlen_cons. change (zlen (@nil Z)) with 0. lia.
Qed.

(** ** Messages *)
Lemma contents_app a b : contents (a ++ b) = contents a ++ contents b.
Proof. unfold contents. rewrite map_app, filter_app. reflexivity. Qed.
Lemma contents_cons m r : m_data m <> [] -> contents (m :: r) = (m_type m, m_data m) :: contents r.
Proof. intros H. unfold contents. cbn [map filter snd]. destruct (m_data m); [congruence|reflexivity]. Qed.

Lemma deliver_join {S} (h : Z -> bytes -> S -> res (S * bytes)) l1 l2 st st' :
  deliver h l1 st = Ok st' -> deliver h (l1 ++ l2) st = deliver h l2 st'.
Proof.
  revert st. induction l1 as [|[t b] r IH]; intros st; cbn [deliver app].
  - intros E. congruence.
  - destruct (h t b st) as [[st1 rest]| |]; try discriminate. destruct (forallb _ rest); [|discriminate]. apply IH.
Qed.
Lemma deliver_cons {S} (h : Z -> bytes -> S -> res (S * bytes)) t b r st st' :
  h t b st = Ok (st', []) -> deliver h ((t, b) :: r) st = deliver h r st'.
Proof. intros E. cbn [deliver]. rewrite E. reflexivity. Qed.

Definition with_attrs (l : list rattr) (i : rinfo) : rinfo := fold_left (fun i a => add_attr a i) l i.

(** What a message must be to be read as the attribute [a] *)
Definition attr_msg (m : h5msg) (a : rattr) : Prop :=
  m_type m = 12 /\ zlen (m_data m) < 65536 /\ m_data m <> [] /\ readAttribute 0 (m_data m) = Ok a.

Lemma deliver_attrs x ms al : Forall2 attr_msg ms al -> forall st,
  deliver (handle x) (contents ms) st = Ok (with_info st (with_attrs al (rs_info st))).
Proof.
  induction 1 as [|m a ms al (Ht & _ & Hn & Hr) _ IH]; intros st.
  - destruct st. reflexivity.
  - rewrite contents_cons by exact Hn. rewrite Ht. erewrite deliver_cons.
    2:{ unfold handle. cbn [Z.eqb Pos.eqb]. rewrite Hr. reflexivity. }
    rewrite IH. reflexivity.
Qed.

Lemma deliver_padding x pad st : is_padding pad -> deliver (handle x) pad st = Ok st.
Proof. intros [->|(n & _ & ->)]; reflexivity. Qed.

Definition var_info (name : bytes) (addr : Z) (dims : list Z) (d : dty) (dn size : Z) (al : list rattr) : rinfo :=
  mkRinfo name addr false None None al (Some dims) (Some d) [] [mkBlock dn size size 0 [] None] 0 0 0 0 None None [].
Definition group_info (name : bytes) (addr : Z) (al : list rattr) : rinfo :=
  mkRinfo name addr true (Some (invalidAddress, invalidAddress)) None al None None [] [] 0 0 0 0 None None [].

Lemma with_attrs_var al : forall name addr dims d dn size al0,
  with_attrs al (var_info name addr dims d dn size al0) = var_info name addr dims d dn size (al0 ++ al).
Proof.
  induction al as [|a r IH]; intros; [rewrite app_nil_r; reflexivity|].
  change (with_attrs (a :: r) ?i) with (with_attrs r (add_attr a i)).
  change (add_attr a (var_info name addr dims d dn size al0)) with (var_info name addr dims d dn size (al0 ++ [a])).
  rewrite IH, <- app_assoc. reflexivity.
Qed.
Lemma with_attrs_group al : forall name addr al0,
  with_attrs al (group_info name addr al0) = group_info name addr (al0 ++ al).
Proof.
  induction al as [|a r IH]; intros; [rewrite app_nil_r; reflexivity|].
  change (with_attrs (a :: r) ?i) with (with_attrs r (add_attr a i)).
  change (add_attr a (group_info name addr al0)) with (group_info name addr (al0 ++ [a])).
  rewrite IH, <- app_assoc. reflexivity.
Qed.

(** The size of a header *)
Lemma zlen_body ms k : Forall (fun m => zlen (m_data m) < 65536) ms -> zlen ms <= k -> 
  zlen (ohdr_body ms) <= 65539 * k + 11.
Proof.
  intros H Hk. unfold ohdr_body. cbv zeta. rewrite zlen_app.
  assert (A : zlen (flat_map msg_bytes ms) <= 65539 * zlen ms).
  { clear Hk. induction H as [|m r Hm _ IH]; [change (zlen (@nil h5msg)) with 0; reflexivity|].
    cbn [flat_map]. rewrite zlen_app, zlen_cons.
    assert (B : zlen (msg_bytes m) <= 65539); [|lia].
    unfold msg_bytes. rewrite zlen_cons, zlen_app, zlen_le, zlen_cons. lia. }
  assert (C : zlen (null_pad (zlen (flat_map msg_bytes ms))) <= 11); [|nia].
  unfold null_pad. cbv zeta. set (r := zlen (flat_map msg_bytes ms) mod 8).
  assert (0 <= r < 8) by (apply Z.mod_pos_bound; reflexivity). clearbody r.
  destruct (r =? 0); [change (zlen (@nil Z)) with 0; lia|].
  rewrite zlen_cons, zlen_app, zlen_le, zlen_cons, zlen_zrep. destruct (8 - r <? 4) eqn:E; lia.
Qed.

Lemma read_header x f a ms oh st al : Forall (fun m => zlen (m_data m) < 65536 /\ 0 <= m_type m < 256) ms ->
  zlen ms <= 65000 -> objectHeaderV2 ms = Ok oh -> has_at f a oh -> 0 < a -> zlen f < 2 ^ 63 ->
  deliver (handle x) (contents ms) st = Ok al ->
  readObjectHeader (handle x) f a st = Ok al.
Proof.
  intros Hm Hk Ho Hat Ha Hf E.
  assert (B : zlen (ohdr_body ms) < 2 ^ 32).
  { eapply Z.le_lt_trans; [apply (zlen_body ms 65000); [|exact Hk]|lia].
    eapply Forall_impl; [|exact Hm]. intros m [A _]. exact A. }
  assert (Mo : Forall msg_ok ms).
  { eapply Forall_impl; [|exact Hm]. intros m [A1 A2]. split; [exact A2|exact A1]. }
  rewrite (header_read (handle x) ms f a oh st Mo B Ho Hat ltac:(lia) Hf).
  erewrite deliver_join by exact E. apply deliver_padding. apply pad_content_ok.
Qed.

Lemma attr_msgs_ok ms al : Forall2 attr_msg ms al -> Forall (fun m => zlen (m_data m) < 65536 /\ 0 <= m_type m < 256) ms.
Proof.
  induction 1 as [|m a ms al (Ht & Hl & _) _ IH]; constructor; [|exact IH]. split; [exact Hl|rewrite Ht; lia].
Qed.

Lemma var_header x f a ms oh name addr ad dims d dt dn size atts dl al dal :
  ms = [msg 1 (buildDataspaceMessage dims); msg 3 dt; msg 8 (buildLayoutMessageV2 dn size)] ++ atts ++ dl ->
  dims_fit dims -> parseDatatype dt = Ok (d, []) -> dt <> [] -> zlen dt < 65536 ->
  0 <= dn < 2 ^ 63 -> 0 <= size < 2 ^ 63 -> Forall2 attr_msg atts al -> Forall2 attr_msg dl dal ->
  zlen ms <= 65000 -> objectHeaderV2 ms = Ok oh -> has_at f a oh -> 0 < a -> zlen f < 2 ^ 63 ->
  readObjectHeader (handle x) f a (mkRst (newObject name addr) [] ad) =
    Ok (mkRst (var_info name addr dims d dn size (al ++ dal)) [] ad).
Proof.
  intros -> [Hd Hr] Hp Hn Hdt Hdn Hsz Ha Hda Hk Ho Hat Hpos Hf.
  eapply read_header; try eassumption.
  - cbn [app]. repeat apply Forall_cons.
    + cbn [m_data m_type msg]. rewrite zlen_dataspace. pose proof (zlen_nonneg dims). lia.
    + cbn [m_data m_type msg]. lia.
    + cbn [m_data m_type msg]. unfold buildLayoutMessageV2. rewrite !zlen_app, !zlen_le.
      change (zlen [3; 1]) with 2. lia.
    + apply Forall_app. split; [eapply attr_msgs_ok|eapply attr_msgs_ok]; eassumption.
  - rewrite !contents_app. rewrite contents_cons by discriminate. rewrite contents_cons by exact Hn.
    rewrite contents_cons by discriminate. cbn [contents map filter app m_type m_data msg].
    erewrite deliver_cons.
    2:{ unfold handle. cbn [Z.eqb Pos.eqb]. unfold onMessage.
        rewrite <- (app_nil_r (buildDataspaceMessage dims)). rewrite dataspace_read by (try exact Hd; lia). reflexivity. }
    erewrite deliver_cons.
    2:{ unfold handle. cbn [Z.eqb Pos.eqb]. unfold onMessage. rewrite Hp. reflexivity. }
    erewrite deliver_cons.
    2:{ unfold handle. cbn [Z.eqb Pos.eqb]. unfold onMessage.
        rewrite layout_read by (unfold invalidAddress; lia). reflexivity. }
    erewrite deliver_join by (apply deliver_attrs; exact Ha).
    rewrite (deliver_attrs x dl dal Hda). cbn [rbind]. unfold with_info. cbn [rs_info rs_children rs_addrs].
    match goal with |- context [with_attrs al ?i] =>
      change i with (var_info name addr dims d dn size []) end.
    rewrite !with_attrs_var. reflexivity.
Qed.

(** ** Links *)
Lemma link_step x n a st c : zlen n < 256 -> 0 <= a < 2 ^ 64 -> mem n (map fst (rs_children st)) = false ->
  ~ In a (rs_addrs st) -> e_object x a (mkRst (newObject n a) [] (rs_addrs st ++ [a])) = Ok c ->
  handle x 6 (m_data (buildLinkMessage n a)) st =
    Ok (mkRst (rs_info st) (rs_children st ++ [(n, RObj (rs_info c) (rs_children c))]) (rs_addrs c), []).
Proof.
  intros Hn Ha Hm Hi Hr. unfold handle. cbn [Z.eqb Pos.eqb]. rewrite (link_read n a Hn Ha). cbn [rbind].
  unfold followLink. rewrite Hm. assert (E : existsb (Z.eqb a) (rs_addrs st) = false).
  { apply not_true_is_false. intros E. apply existsb_exists in E. destruct E as (y & Hx & Ex).
    apply Hi. replace a with y by lia. exact Hx. }
  rewrite E, Hr. reflexivity.
Qed.

Lemma dump_var x name addr dims d dn size al cs ad :
  dumpObject x (mkRst (var_info name addr dims d dn size al) cs ad) = Ok (mkRst (var_info name addr dims d dn size al) cs ad).
Proof. reflexivity. Qed.
Lemma dump_group x name addr al cs ad :
  dumpObject x (mkRst (group_info name addr al) cs ad) = Ok (mkRst (group_info name addr al) cs ad).
Proof. reflexivity. Qed.

Lemma link_content n a r : contents (buildLinkMessage n a :: r) = (6, m_data (buildLinkMessage n a)) :: contents r.
Proof. apply contents_cons. discriminate. Qed.

Lemma link_size n a : zlen n < 256 -> zlen (m_data (buildLinkMessage n a)) < 65536 /\ 0 <= m_type (buildLinkMessage n a) < 256.
Proof.
  intros H. split; [|cbn [m_type buildLinkMessage msg]; lia]. cbn [m_data buildLinkMessage msg].
  rewrite !zlen_app, zlen_le. change (zlen [1; 0; u8 (zlen n)]) with 3. lia.
Qed.

(** A group: [las] are its links, [st'] what reading them makes of the state *)
Lemma group_header x f a ms oh name addr ad las atts al cs ad' :
  ms = [buildLinkInfoMessage; groupInfoMessage] ++ map (fun x => buildLinkMessage (fst x) (snd x)) las ++ atts ->
  Forall (fun x => zlen (fst x) < 256) las -> Forall2 attr_msg atts al ->
  zlen ms <= 65000 -> objectHeaderV2 ms = Ok oh -> has_at f a oh -> 0 < a -> zlen f < 2 ^ 63 ->
  deliver (handle x) (contents (map (fun x => buildLinkMessage (fst x) (snd x)) las))
    (mkRst (group_info name addr []) [] ad) = Ok (mkRst (group_info name addr []) cs ad') ->
  readObjectHeader (handle x) f a (mkRst (newObject name addr) [] ad) =
    Ok (mkRst (group_info name addr al) cs ad').
Proof.
  intros -> Hl Ha Hk Ho Hat Hpos Hf E. eapply read_header; try eassumption.
  - cbn [app]. apply Forall_cons; [split; [reflexivity|cbn; lia]|]. apply Forall_cons; [split; [reflexivity|cbn; lia]|].
    apply Forall_app. split; [|eapply attr_msgs_ok; eassumption].
    apply Forall_forall. intros m Hm. apply in_map_iff in Hm. destruct Hm as (y & <- & Hx).
    apply link_size. rewrite Forall_forall in Hl. apply Hl. exact Hx.
  - rewrite !contents_app. rewrite contents_cons by discriminate. rewrite contents_cons by discriminate.
    cbn [contents map filter app].
    erewrite deliver_cons.
    2:{ unfold handle. cbn [Z.eqb Pos.eqb m_type buildLinkInfoMessage msg rs_info ri_link newObject]. unfold onMessage.
        change ([0; 0] ++ le 8 invalidAddress ++ le 8 invalidAddress) with (m_data buildLinkInfoMessage).
        rewrite linkInfo_read. reflexivity. }
    erewrite deliver_cons.
    2:{ unfold handle. cbn [Z.eqb Pos.eqb m_type groupInfoMessage msg]. unfold onMessage.
        change ([0; 0]) with (m_data groupInfoMessage). rewrite groupInfo_read. reflexivity. }
    erewrite deliver_join.
    2:{ etransitivity; [|exact E]. reflexivity. }
    rewrite (deliver_attrs x atts al Ha). unfold with_info. cbn [rs_info rs_children rs_addrs].
    rewrite with_attrs_group. reflexivity.
Qed.
