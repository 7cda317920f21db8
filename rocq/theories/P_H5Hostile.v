(** C86: opening arbitrary bytes as HDF5. *)
From Coq Require Import Lia ZifyBool ZifyNat Permutation.
From Verif Require Import Prelude BaseLemmas GoVal ArraySpec H5Base H5ChecksumModel H5MetaWrite H5MetaRead H5Value H5TypeRead H5LayoutModel H5RecordModel ChunkSpec
  MetaSpec RecordSpec Lookup3Spec DenseSpec PathSpec ForeignSpec ForeignTypeSpec ForeignMsgSpec ForeignDataSpec ForeignValueSpec HostileSpec
  H5PathModel H5FileRead H5MetaProofs H5DenseRead H5DenseProofs P_H5Dense H5PathProofs H5ApiPath H5ApiProofs H5ForeignProofs H5ForeignTree H5ForeignOpen H5ForeignApi
  P_H5Foreign H5ForeignMsg H5ForeignType P_H5ForeignType H5ForeignValue H5ForeignData H5ForeignVar P_H5ForeignValue P_H5Getter P_H5EmptyFill H5Hostile.

(** Whatever the bytes, the superblock is read or refused, if the extension is ([ext] reads it): a crash is one in the
    objects.  Missing: the objects, where it is false. *)
Theorem C86_superblock_partial ext f : (forall a, ext a <> Panic) -> readSuperblock ext f <> Panic.
Proof. apply superblock_calm. Qed.

Lemma root_fine f root b : has_at f root b -> zlen f < 2 ^ 63 -> root <> undefined /\ root <> invalidAddress.
Proof. intros H Hf. pose proof (has_at_bound _ _ _ H) as [H0 H1]. pose proof (zlen_nonneg b). unfold undefined, invalidAddress. lia. Qed.

(** A file whose root object header goes on in messages that say that they go on where they are: the calls of
    readContinuation and readCommon nest without end, so that no bound on the depth is enough (hdf5.go:2054, 2132-2146). *)
Theorem C86_circle_refuted f root flags o n rest : zlen f < 2 ^ 63 -> superblock_is f root -> 0 < root ->
  header_v1 f root [0; 0; 0; 0] (goes_on flags o n ++ rest) -> circle f o n ->
  (forall depth st, readAny depth f (JHeader root) st = Err ENotModelled) /\ openFile f = Err ENotModelled.
Proof.
  intros Hf HS H0 HH HC. pose proof (circle_header f root o n flags rest Hf H0 HH HC) as E. split; [exact E|].
  destruct HH as (count & refs & _ & _ & _ & _ & Hat). destruct (root_fine _ _ _ Hat Hf) as [N1 N2].
  unfold openFile. cbv zeta. rewrite (superblock_read f root _ HS N1 Hf). cbn [rbind].
  replace (root =? invalidAddress) with false by lia. rewrite E. reflexivity.
Qed.

(** A file whose root object header, of version 1, has a byte other than 0 in its padding: opening it ends the program
    (hdf5.go:2281, assert.go:72-104). *)
Theorem C86_padding_refuted f root padding b : zlen f < 2 ^ 63 -> superblock_is f root -> 0 < root ->
  header_v1 f root padding b -> Exists (fun x => x <> 0) padding -> openFile f = Panic.
Proof.
  intros Hf HS H0 HH HX. pose proof (padding_fatal f root padding b Hf H0 HH HX) as E.
  destruct HH as (count & refs & _ & _ & _ & _ & Hat). destruct (root_fine _ _ _ Hat Hf) as [N1 N2].
  unfold openFile. cbv zeta. rewrite (superblock_read f root _ HS N1 Hf). cbn [rbind].
  replace (root =? invalidAddress) with false by lia. rewrite E. reflexivity.
Qed.

(** A file that is fine but for a variable whose index of chunks has an entry for itself: GetVariable nests readBTreeNodeAny
    without end (hdf5.go:953-1025). *)
Theorem C86_index_refuted f n root kids :
  superblock_is f root -> object_is f message_is n root (FGroup kids) -> plain_names (FGroup kids) ->
  NoDup (below (FGroup kids)) -> (n <= List.length f)%nat -> zlen f < 2 ^ 63 ->
  exists o, openFile f = Ok o /\ forall h0 path ks name a dims t ia shape fill,
    absolute path = true -> found_at (FGroup kids) (components path) (FGroup ks) -> In (name, a, FData dims) ks ->
    dataset_at f message_is a dims t (Chunked (Some ia) shape (fsize t)) fill -> Forall (fun n => 0 < n < 2 ^ 63) dims ->
    chunks_fit dims shape (fsize t) -> 0 < ia -> circular_index f ia (List.length dims) ->
    (forall d depth top last, d_rank d = zlen dims + 1 -> 0 < last -> readBTreeNodeAny depth f d ia top 0 last = Err ENotModelled) /\
    exists h, rgetGroup o h0 path = Ok h /\
      (In name (listVariables o h) -> getVariable f o h name = Err ENotModelled).
Proof.
  intros HS HO HN HB Hn Hf. destruct (variable_found f n root kids HS HO HN HB Hn Hf) as (o & E & H).
  exists o. split; [exact E|]. intros h0 path ks name a dims t ia shape fill Ha F Hi Hu Hd Hp Hia Hci. split.
  { intros d depth top last Hr Hl. exact (index_endless f d ia (List.length dims) last Hf Hr Hl Hci depth top). }
  destruct (H h0 path ks name a dims Ha F Hi) as (h & Eh & Hl). exists h. split; [exact Eh|].
  intros L. destruct (Hl L) as (ob & FV & Hc).
  exact (index_variable f o h name ob a dims t ia shape fill Hf FV Hc (dataset_weaken _ _ _ _ _ _ _ _ message_alone Hu) Hd Hp Hia Hci).
Qed.

(** ** A file of each kind *)
Definition hx_circle : bytes :=
  gx_super 112 ++ ([1; 0] ++ le 2 1 ++ le 4 1 ++ le 4 24 ++ [0; 0; 0; 0] ++ goes_on 0 88 24) ++ goes_on 0 88 24.
Definition hx_padding : bytes := gx_super 64 ++ [1; 0] ++ le 2 0 ++ le 4 1 ++ le 4 0 ++ [0; 0; 0; 1].
Example C86_example :
  superblock_is hx_circle 48 /\ header_v1 hx_circle 48 [0; 0; 0; 0] (goes_on 0 88 24 ++ []) /\ circle hx_circle 88 24 /\
  superblock_is hx_padding 48 /\ header_v1 hx_padding 48 [0; 0; 0; 1] [] /\
  openFile hx_circle = Err ENotModelled /\ openFile hx_padding = Panic /\
  (** cut short, neither does harm *)
  openFile (firstn 40 hx_circle) = Err ECorrupted /\ openFile (firstn 63 hx_padding) = Err ETruncated.
Proof.
  split; [apply (gx_super_is _ 112); [unfold word; lia|vm_compute; congruence|here]|].
  split; [exists 1, 1; split; [unfold word; lia|]; split; [unfold word; lia|]; split; [vm_compute; split; congruence|]; split; [reflexivity|here]|].
  split; [split; [lia|]; exists 0, []; split; [here|reflexivity]|].
  split; [apply (gx_super_is _ 64); [unfold word; lia|vm_compute; congruence|here]|].
  split; [exists 0, 1; split; [unfold word; lia|]; split; [unfold word; lia|]; split; [vm_compute; split; congruence|]; split; [reflexivity|here]|].
  split; [vm_compute; reflexivity|]. split; [vm_compute; reflexivity|]. split; vm_compute; reflexivity.
Qed.

(** A file with one variable of four numbers in two chunks, whose index has one node, of level 1, above itself *)
Definition jx_msgs (a : Z) : list fmsg := [fm 1 (qx_space 4); fm 3 i16le_v1; fm 8 (qx_layout a)].
Definition jx_node (a : Z) : bytes := RecordSpec.node_bytes 1 undefined undefined [(mkKey 4 0 [0], a)] (mkKey 0 0 [4]).
Definition jx_root : list fmsg := [gx_info; gx_hard (bs "k") 97].
Definition jx_file : bytes := gx_super 243 ++ fx_head2 jx_root 0 ++ fx_head2 (jx_msgs 163) 0 ++ jx_node 163.
Definition jx_kids : list (bytes * Z * ftree) := [(bs "k", 97, FData [4])].
Lemma jx_messages a : 0 < a < 2 ^ 63 ->
  Forall (fun m => fm_type m = 1 \/ fm_type m = 21 \/ ForeignSpec.plain message_is [0; 3; 4; 5; 8; 11; 12; 13; 14; 18; 22] m) (jx_msgs a).
Proof.
  intros H. apply Forall_cons; [left; reflexivity|]. repeat (apply Forall_cons; [right; right|]); [| |apply Forall_nil].
  - apply vx_message; [right; left; reflexivity|discriminate|]. apply vx_padded. apply (body_type ox_ty); [exact vx_i16_is|exact I|exact I].
  - apply vx_message; [do 4 right; left; reflexivity|discriminate|]. apply vx_padded. apply (body_place _ _ (qx_place a H)).
Qed.
Lemma jx_header : messages_are jx_file 0 97 (jx_msgs 163).
Proof.
  split; [lia|]. exists (HV2 false), (jx_msgs 163). split; [apply gx_h2; [chunk2|reflexivity|here]|].
  repeat (apply held_msg; [discriminate|]). apply held_nil.
Qed.
Lemma jx_at : dataset_at jx_file message_is 97 [4] ox_ty (Chunked (Some 163) [2] 2) (Some [0; 0]).
Proof.
  exists O, (jx_msgs 163), (qx_space 4).
  split; [exact jx_header|]. split; [apply jx_messages; lia|]. split; [reflexivity|]. split; [apply qx_space_is; unfold word; lia|]. split; [left; reflexivity|].
  exists [fm 1 (qx_space 4); fm 3 i16le_v1], [fm 8 (qx_layout 163)], i16le_v1, 0, (qx_layout 163), 0. change (zrep 0 0) with (@nil Z). rewrite !app_nil_r.
  repeat (split; [reflexivity|]). split; [exact vx_i16_is|]. split; [exact I|]. split; [exact I|]. split; [apply qx_place; lia|].
  apply (told_nothing _ ox_ty); reflexivity.
Qed.
Example C86_example_index :
  superblock_is jx_file 48 /\ object_is jx_file message_is 2 48 (FGroup jx_kids) /\ plain_names (FGroup jx_kids) /\
  NoDup (below (FGroup jx_kids)) /\ (2 <= List.length jx_file)%nat /\ zlen jx_file < 2 ^ 63 /\
  dataset_at jx_file message_is 97 [4] ox_ty (Chunked (Some 163) [2] 2) (Some [0; 0]) /\ chunks_fit [4] [2] 2 /\
  circular_index jx_file 163 1 /\
  P_H5Foreign.told jx_file (bs "/") = Ok ([], [bs "k"], []) /\ got_variable jx_file (bs "/") (bs "k") = Err ENotModelled.
Proof.
  split; [apply (gx_super_is _ 243); [unfold word; lia|vm_compute; congruence|here]|].
  split.
  { apply (is_group _ _ 2 0 1 48 jx_root [[]; [(bs "k", 97)]] []).
    + split; [lia|]. exists (HV2 false), jx_root. split.
      * apply gx_h2; [chunk2|reflexivity|here].
      * repeat (apply held_msg; [discriminate|]). apply held_nil.
    + lia.
    + apply Forall2_cons; [|apply Forall2_cons; [|apply Forall2_nil]].
      * right. right. split; [left; reflexivity|reflexivity].
      * left. split; [reflexivity|]. exists (bs "k"), 97. split; [|reflexivity]. exists 0, 0, 0, 0.
        split; [unfold word; lia|]. split; [unfold word; lia|]. split; [left; reflexivity|].
        split; [unfold word; lia|]. split; reflexivity.
    + right. exists ([0; 0] ++ le 8 undefined ++ le 8 undefined), undefined, undefined. split; [reflexivity|]. split.
      * exists 0, 0, 0, 0. unfold undefined. split; [unfold word; lia|]. split; [unfold word; lia|]. split; [unfold word; lia|].
        split; [unfold word; lia|]. split; [unfold word; lia|reflexivity].
      * left. split; reflexivity.
    + left. reflexivity.
    + discriminate.
    + apply Permutation_refl.
    + vm_compute. apply NoDup_cons; [intros []|apply NoDup_nil].
    + apply kids_cons; [|apply kids_nil].
      apply (is_data _ _ 1 0 97 (jx_msgs 163) (qx_space 4) [4] jx_header); [lia|apply jx_messages; lia|reflexivity|apply qx_space_is; unfold word; lia|left; reflexivity]. }
  split; [apply plain_group; repeat (apply Forall_cons; [cbn [fst snd]; split; [split; [discriminate|intros [E|[]]; discriminate E]|apply plain_leaf; reflexivity]|]); apply Forall_nil|].
  split; [vm_compute; apply NoDup_cons; [intros []|apply NoDup_nil]|].
  split; [apply Nat.leb_le; vm_compute; reflexivity|]. split; [vm_compute; reflexivity|].
  split; [exact jx_at|]. split; [apply qx_fit; right; reflexivity|].
  split.
  { exists 1, (mkKey 4 0 [0]), [], (mkKey 0 0 [4]). split; [lia|]. split; [reflexivity|]. split; [|here].
    split; [reflexivity|]. split; [split; [discriminate|reflexivity]|]. split; [split; [discriminate|reflexivity]|].
    split; [repeat constructor; (discriminate || reflexivity)|repeat constructor; (discriminate || reflexivity)]. }
  split; vm_compute; reflexivity.
Qed.

Print Assumptions C86_superblock_partial.
Print Assumptions C86_circle_refuted.
Print Assumptions C86_padding_refuted.
Print Assumptions C86_example.
Print Assumptions C86_index_refuted.
Print Assumptions C86_example_index.
