(** C84: variables of files of other writers with an old fill value message of no bytes. *)
From Coq Require Import Lia ZifyBool ZifyNat Permutation.
From Verif Require Import Prelude BaseLemmas GoVal ArraySpec H5Base H5ChecksumModel H5MetaWrite H5MetaRead H5Value H5TypeRead H5LayoutModel H5RecordModel ChunkSpec
  MetaSpec RecordSpec Lookup3Spec DenseSpec PathSpec ForeignSpec ForeignTypeSpec ForeignMsgSpec ForeignDataSpec ForeignValueSpec EmptyFillSpec
  H5PathModel H5FileRead H5PipeModel H5MetaProofs H5DenseRead H5DenseProofs P_H5Dense H5PathProofs H5ApiPath H5ApiProofs H5ForeignProofs H5ForeignTree H5ForeignOpen H5ForeignApi
  P_H5Foreign H5ForeignMsg H5ForeignType P_H5ForeignType H5ForeignValue H5ForeignData H5ForeignVar P_H5ForeignValue H5PipeVar P_H5ForeignFilter P_H5Getter H5EmptyFill.

Lemma unfilled_weaken f (P Q : Z -> bytes -> Prop) a dims t p : (forall t b, P t b -> Q t b) ->
  unfilled_at f P a dims t p -> unfilled_at f Q a dims t p.
Proof.
  intros W (c & l & b & Hm & Hl & H1 & Hb & Ha & Hd). exists c, l, b. split; [exact Hm|]. split.
  - eapply Forall_impl; [|exact Hl]. cbn beta. intros m [H|[H|[H2 [H3|[H3 H4]]]]]; [left; exact H|right; left; exact H| |]; right; right.
    + split; [exact H2|left; exact H3].
    + split; [exact H2|right; split; [exact H3|apply W, H4]].
  - split; [exact H1|]. split; [exact Hb|]. split; [|exact Hd].
    destruct Ha as [H|(b' & heap & index & E & H2 & H3)]; [left; exact H|right]. exists b', heap, index. split; [exact E|]. split; [exact H2|].
    destruct H3 as [H3|(H3 & N & d & u & B & U & F)]; [left; exact H3|right]. split; [exact H3|]. exists N, d, u.
    split; [exact B|]. split; [exact U|]. eapply Forall_impl; [|exact F]. cbn beta.
    intros r (a' & b0 & G1 & G2 & G3 & G4 & G5). exists a', b0. split; [exact G1|]. split; [exact G2|]. split; [exact G3|]. split; [exact G4|apply W, G5].
Qed.

(** Where the data are in one piece, in the header or elsewhere, or in chunks that are all there and do not go beyond the
    dataset, the message does not matter: the variable is read.  With filters: P_H5EmptyFilter. *)
Theorem C84_stored_partial inflate f n root kids :
  superblock_is f root -> object_is f message_is n root (FGroup kids) -> plain_names (FGroup kids) ->
  NoDup (below (FGroup kids)) -> (n <= List.length f)%nat -> zlen f < 2 ^ 63 ->
  exists o, openFile f = Ok o /\ forall h0 path ks name a dims t p b v,
    absolute path = true -> found_at (FGroup kids) (components path) (FGroup ks) -> In (name, a, FData dims) ks ->
    unfilled_at f message_is a dims t p -> Forall (fun n => 0 <= n < 2 ^ 63) dims ->
    all_stored f dims (fsize t) p b -> array_is (in_global_heap f) t dims b v -> zlen b < 2 ^ 63 ->
    exists h, rgetGroup o h0 path = Ok h /\
      (In name (listVariables o h) -> exists l, getVariablePiped inflate f o h name = with_attrs f o l v).
Proof.
  intros HS HO HN HB Hn Hf. destruct (variable_found f n root kids HS HO HN HB Hn Hf) as (o & E & H).
  exists o. split; [exact E|]. intros h0 path ks name a dims t p b v Ha F Hi Hu Hd Hp Hv Hb.
  destruct (H h0 path ks name a dims Ha F Hi) as (h & Eh & Hl). exists h. split; [exact Eh|].
  intros L. destruct (Hl L) as (ob & FV & Hc). exists (r_attrs ob).
  exact (unfilled_stored inflate f o h name ob a dims t p b v Hf FV Hc (unfilled_weaken _ _ _ _ _ _ _ message_alone Hu) Hd Hp Hv Hb).
Qed.

(** Where nothing or not all is stored, and also where all is stored but the chunks go beyond the dataset, the call ends
    the program, in every such file: makeFillValueReader asks for the first byte of the fill value (hdf5.go:2665-2671). *)
Theorem C84_missing_refuted inflate f n root kids :
  superblock_is f root -> object_is f message_is n root (FGroup kids) -> plain_names (FGroup kids) ->
  NoDup (below (FGroup kids)) -> (n <= List.length f)%nat -> zlen f < 2 ^ 63 ->
  exists o, openFile f = Ok o /\ forall h0 path ks name a dims t p,
    absolute path = true -> found_at (FGroup kids) (components path) (FGroup ks) -> In (name, a, FData dims) ks ->
    unfilled_at f message_is a dims t p -> Forall (fun n => 0 < n < 2 ^ 63) dims ->
    some_missing f dims (fsize t) p -> volume dims * fsize t < 2 ^ 63 ->
    exists h, rgetGroup o h0 path = Ok h /\
      (In name (listVariables o h) -> getVariablePiped inflate f o h name = Panic).
Proof.
  intros HS HO HN HB Hn Hf. destruct (variable_found f n root kids HS HO HN HB Hn Hf) as (o & E & H).
  exists o. split; [exact E|]. intros h0 path ks name a dims t p Ha F Hi Hu Hd Hp Hv.
  destruct (H h0 path ks name a dims Ha F Hi) as (h & Eh & Hl). exists h. split; [exact Eh|].
  intros L. destruct (Hl L) as (ob & FV & Hc).
  exact (unfilled_missing inflate f o h name ob a dims t p Hf FV Hc (unfilled_weaken _ _ _ _ _ _ _ message_alone Hu) Hd Hp Hv).
Qed.

(** ** A file with two numbers in the header and two that are not stored *)
Definition ox_space : bytes := [2; 1; 0; 1] ++ le 8 2.
Definition ox_data : bytes := le 2 10 ++ le 2 20.
Definition ox_layout_s : bytes := [3; 0] ++ le 2 4 ++ ox_data.
Definition ox_layout_e : bytes := [3; 1] ++ le 8 undefined ++ le 8 4.
Definition ox_s : list fmsg := [fm 1 ox_space; fm 3 i16le_v1; fm 4 [0; 0; 0; 0]; fm 8 ox_layout_s].
Definition ox_e : list fmsg := [fm 1 ox_space; fm 3 i16le_v1; fm 4 [0; 0; 0; 0]; fm 8 ox_layout_e].
Definition ox_root (s e : Z) : list fmsg := [gx_info; gx_hard (bs "s") s; gx_hard (bs "e") e].
Definition ox_bytes (s e n : Z) : bytes := gx_super n ++ fx_head2 (ox_root s e) 0 ++ fx_head2 ox_s 0 ++ fx_head2 ox_e 0.
Definition ox_file : bytes := ox_bytes 113 176 249.
Definition ox_kids : list (bytes * Z * ftree) := [(bs "s", 113, FData [2]); (bs "e", 176, FData [2])].
Definition ox_ty : fty := FInt 2 true false.

Lemma ox_space_is : dataspace ox_space [2].
Proof. exact vx_c_space. Qed.
Lemma ox_place_s : place_is ox_layout_s (Compact ox_data).
Proof. apply (place_compact 3 ox_data); [left; reflexivity|reflexivity]. Qed.
Lemma ox_place_e : place_is ox_layout_e (Contiguous None 4).
Proof. apply (place_contiguous 3 None 4); [left; reflexivity|exact I|unfold word; lia]. Qed.
Lemma ox_messages l p : place_is l p -> l <> [] ->
  Forall (fun m => fm_type m = 1 \/ fm_type m = 21 \/ ForeignSpec.plain message_is [0; 3; 4; 5; 8; 11; 12; 13; 14; 18; 22] m)
    [fm 1 ox_space; fm 3 i16le_v1; fm 4 [0; 0; 0; 0]; fm 8 l].
Proof.
  intros Hp Hl. apply Forall_cons; [left; reflexivity|]. repeat (apply Forall_cons; [right; right|]); [| | |apply Forall_nil].
  - apply vx_message; [right; left; reflexivity|discriminate|]. apply vx_padded. apply (body_type ox_ty); [exact vx_i16_is|exact I|exact I].
  - apply vx_message; [right; right; left; reflexivity|discriminate|]. apply vx_padded.
    apply (body_old_fill [0; 0; 0; 0] []). split; [reflexivity|reflexivity].
  - apply vx_message; [do 4 right; left; reflexivity|exact Hl|]. apply vx_padded. apply (body_place _ _ Hp).
Qed.
Lemma ox_s_header : messages_are ox_file 0 113 ox_s.
Proof.
  split; [lia|]. exists (HV2 false), ox_s. split; [apply gx_h2; [chunk2|reflexivity|here]|].
    repeat (apply held_msg; [discriminate|]). apply held_nil.
Qed.
Lemma ox_e_header : messages_are ox_file 0 176 ox_e.
Proof.
  split; [lia|]. exists (HV2 false), ox_e. split; [apply gx_h2; [chunk2|reflexivity|here]|].
    repeat (apply held_msg; [discriminate|]). apply held_nil.
Qed.
Lemma ox_at a l p : place_is l p -> l <> [] ->
  messages_are ox_file 0 a [fm 1 ox_space; fm 3 i16le_v1; fm 4 [0; 0; 0; 0]; fm 8 l] -> unfilled_at ox_file message_is a [2] ox_ty p.
Proof.
  intros Hp Hl Hm. exists O, [fm 1 ox_space; fm 3 i16le_v1; fm 4 [0; 0; 0; 0]; fm 8 l], ox_space.
  split; [exact Hm|]. split; [exact (ox_messages l p Hp Hl)|]. split; [reflexivity|]. split; [exact ox_space_is|]. split; [left; reflexivity|].
  exists [fm 1 ox_space; fm 3 i16le_v1], [fm 4 [0; 0; 0; 0]; fm 8 l], i16le_v1, 0, l, 0, 0. change (zrep 0 0) with (@nil Z). rewrite !app_nil_r.
  repeat (split; [reflexivity|]). split; [exact vx_i16_is|]. split; [exact I|]. split; [exact I|]. exact Hp.
Qed.
Lemma ox_value f : array_is (in_global_heap f) ox_ty [2] ox_data (row16 [10; 20]).
Proof.
  change [2] with [zlen [10; 20]]. unfold row16. rewrite <- (zlen_map (HNum I16)). apply (value_rows _ ox_ty []); [reflexivity|right; left; reflexivity|discriminate|].
  cbn [map]. apply (rows_cons _ _ _ (le 2 10)); [apply (value_int _ 2 true false 10); [right; left; reflexivity|change (-2 ^ 15 <= 10 < 2 ^ 15); lia]|].
  rewrite <- (app_nil_r (le 2 20)). apply rows_cons; [apply (value_int _ 2 true false 20); [right; left; reflexivity|change (-2 ^ 15 <= 20 < 2 ^ 15); lia]|]. apply rows_nil.
Qed.

(** Both are listed; the first has its value, the second ends the program *)
Example C84_example inflate :
  superblock_is ox_file 48 /\ object_is ox_file message_is 2 48 (FGroup ox_kids) /\ plain_names (FGroup ox_kids) /\
  NoDup (below (FGroup ox_kids)) /\ (2 <= List.length ox_file)%nat /\ zlen ox_file < 2 ^ 63 /\
  found_at (FGroup ox_kids) (components (bs "/")) (FGroup ox_kids) /\
  unfilled_at ox_file message_is 113 [2] ox_ty (Compact ox_data) /\ all_stored ox_file [2] (fsize ox_ty) (Compact ox_data) ox_data /\
  array_is (in_global_heap ox_file) ox_ty [2] ox_data (row16 [10; 20]) /\
  unfilled_at ox_file message_is 176 [2] ox_ty (Contiguous None 4) /\ some_missing ox_file [2] (fsize ox_ty) (Contiguous None 4) /\
  P_H5Foreign.told ox_file (bs "/") = Ok ([], [bs "s"; bs "e"], []) /\
  got_piped inflate ox_file (bs "/") (bs "s") = Ok (row16 [10; 20]) /\ got_piped inflate ox_file (bs "/") (bs "e") = Panic.
Proof.
  split; [apply (gx_super_is _ 249); [unfold word; lia|vm_compute; congruence|here]|].
  split.
  { apply (is_group _ _ 2 0 1 48 (ox_root 113 176) [[]; [(bs "s", 113)]; [(bs "e", 176)]] []).
    + split; [lia|]. exists (HV2 false), (ox_root 113 176). split.
      * apply gx_h2; [chunk2|reflexivity|here].
      * repeat (apply held_msg; [discriminate|]). apply held_nil.
    + lia.
    + apply Forall2_cons; [|apply Forall2_cons; [|apply Forall2_cons; [|apply Forall2_nil]]].
      * right. right. split; [left; reflexivity|reflexivity].
      * left. split; [reflexivity|]. exists (bs "s"), 113. split; [|reflexivity]. exists 0, 0, 0, 0.
        split; [unfold word; lia|]. split; [unfold word; lia|]. split; [left; reflexivity|].
        split; [unfold word; lia|]. split; reflexivity.
      * left. split; [reflexivity|]. exists (bs "e"), 176. split; [|reflexivity]. exists 0, 0, 0, 0.
        split; [unfold word; lia|]. split; [unfold word; lia|]. split; [left; reflexivity|].
        split; [unfold word; lia|]. split; reflexivity.
    + right. exists ([0; 0] ++ le 8 undefined ++ le 8 undefined), undefined, undefined. split; [reflexivity|]. split.
      * exists 0, 0, 0, 0. unfold undefined. split; [unfold word; lia|]. split; [unfold word; lia|]. split; [unfold word; lia|].
        split; [unfold word; lia|]. split; [unfold word; lia|reflexivity].
      * left. split; reflexivity.
    + left. reflexivity.
    + discriminate.
    + apply Permutation_refl.
    + vm_compute. apply NoDup_cons; [intros [E|[]]; discriminate E|apply NoDup_cons; [intros []|apply NoDup_nil]].
    + apply kids_cons; [|apply kids_cons; [|apply kids_nil]].
      * apply (is_data _ _ 1 0 113 ox_s ox_space [2] ox_s_header); [lia|exact (ox_messages _ _ ox_place_s ltac:(discriminate))|reflexivity|exact ox_space_is|left; reflexivity].
      * apply (is_data _ _ 1 0 176 ox_e ox_space [2] ox_e_header); [lia|exact (ox_messages _ _ ox_place_e ltac:(discriminate))|reflexivity|exact ox_space_is|left; reflexivity]. }
  split; [apply plain_group; repeat (apply Forall_cons; [cbn [fst snd]; split; [split; [discriminate|intros [E|[]]; discriminate E]|apply plain_leaf; reflexivity]|]); apply Forall_nil|].
  split; [vm_compute; apply NoDup_cons; [intros [E|[]]; discriminate E|apply NoDup_cons; [intros []|apply NoDup_nil]]|].
  split; [apply Nat.leb_le; vm_compute; reflexivity|]. split; [vm_compute; reflexivity|].
  split; [apply found_here|].
  split; [exact (ox_at 113 _ _ ox_place_s ltac:(discriminate) ox_s_header)|]. split; [left; left; reflexivity|]. split; [apply ox_value|].
  split; [exact (ox_at 176 _ _ ox_place_e ltac:(discriminate) ox_e_header)|]. split; [left; left; exists 4; reflexivity|].
  split; [vm_compute; reflexivity|]. split; vm_compute; reflexivity.
Qed.

(** ** A file with four numbers in two chunks and three numbers in two chunks *)
Definition qx_space (n : Z) : bytes := [2; 1; 0; 1] ++ le 8 n.
Definition qx_layout (a : Z) : bytes := [3; 2; 2] ++ le 8 a ++ flat_map (le 4) [2] ++ le 4 2.
Definition qx_msgs (n a : Z) : list fmsg := [fm 1 (qx_space n); fm 3 i16le_v1; fm 4 [0; 0; 0; 0]; fm 8 (qx_layout a)].
Definition qx_es (a : Z) : list (key * Z) := [(mkKey 4 0 [0], a); (mkKey 4 0 [2], a + 4)].
Definition qx_node (n a : Z) : bytes := RecordSpec.node_bytes 0 (2 ^ 64 - 1) (2 ^ 64 - 1) (qx_es a) (mkKey 0 0 [n]).
Definition qx_kdata : bytes := flat_map (le 2) [1; 2; 3; 4].
Definition qx_gdata : bytes := flat_map (le 2) [5; 6; 7; 99].
Definition qx_bytes (k g ck nk cg ng n : Z) : bytes :=
  gx_super n ++ fx_head2 [gx_info; gx_hard (bs "k") k; gx_hard (bs "g") g] 0 ++ fx_head2 (qx_msgs 4 nk) 0 ++ fx_head2 (qx_msgs 3 ng) 0 ++
  qx_kdata ++ qx_node 4 ck ++ qx_gdata ++ qx_node 3 cg.
Definition qx_file : bytes := qx_bytes 113 187 261 269 381 389 501.

Definition qx_kids : list (bytes * Z * ftree) := [(bs "k", 113, FData [4]); (bs "g", 187, FData [3])].
Definition qx_root : list fmsg := [gx_info; gx_hard (bs "k") 113; gx_hard (bs "g") 187].

Lemma qx_space_is n : word 64 n -> dataspace (qx_space n) [n].
Proof.
  intros W. exists 0, [], 0. split; [unfold word; lia|]. split; [constructor; [exact W|constructor]|]. split; [constructor|].
  split; [reflexivity|]. split; [reflexivity|]. right. exists 1. split; [lia|]. cbn [flat_map]. change (zrep 0 0) with (@nil Z). rewrite !app_nil_r. reflexivity.
Qed.
Lemma qx_place a : 0 < a < 2 ^ 63 -> place_is (qx_layout a) (Chunked (Some a) [2] 2).
Proof. intros H. apply (place_chunked (Some a) [2] 2); [cbn; unfold undefined; lia|cbn; lia|apply words32; reflexivity|unfold word; lia]. Qed.
Lemma qx_messages n a : 0 < a < 2 ^ 63 ->
  Forall (fun m => fm_type m = 1 \/ fm_type m = 21 \/ ForeignSpec.plain message_is [0; 3; 4; 5; 8; 11; 12; 13; 14; 18; 22] m) (qx_msgs n a).
Proof.
  intros H. apply Forall_cons; [left; reflexivity|]. repeat (apply Forall_cons; [right; right|]); [| | |apply Forall_nil].
  - apply vx_message; [right; left; reflexivity|discriminate|]. apply vx_padded. apply (body_type ox_ty); [exact vx_i16_is|exact I|exact I].
  - apply vx_message; [right; right; left; reflexivity|discriminate|]. apply vx_padded.
    apply (body_old_fill [0; 0; 0; 0] []). split; [reflexivity|reflexivity].
  - apply vx_message; [do 4 right; left; reflexivity|discriminate|]. apply vx_padded. apply (body_place _ _ (qx_place a H)).
Qed.
Lemma qx_k_header : messages_are qx_file 0 113 (qx_msgs 4 269).
Proof.
  split; [lia|]. exists (HV2 false), (qx_msgs 4 269). split; [apply gx_h2; [chunk2|reflexivity|here]|].
    repeat (apply held_msg; [discriminate|]). apply held_nil.
Qed.
Lemma qx_g_header : messages_are qx_file 0 187 (qx_msgs 3 389).
Proof.
  split; [lia|]. exists (HV2 false), (qx_msgs 3 389). split; [apply gx_h2; [chunk2|reflexivity|here]|].
    repeat (apply held_msg; [discriminate|]). apply held_nil.
Qed.
Lemma qx_at at_ n a : word 64 n -> 0 < a < 2 ^ 63 -> messages_are qx_file 0 at_ (qx_msgs n a) ->
  unfilled_at qx_file message_is at_ [n] ox_ty (Chunked (Some a) [2] 2).
Proof.
  intros W H Hm. exists O, (qx_msgs n a), (qx_space n).
  split; [exact Hm|]. split; [exact (qx_messages n a H)|]. split; [reflexivity|]. split; [exact (qx_space_is n W)|]. split; [left; reflexivity|].
  exists [fm 1 (qx_space n); fm 3 i16le_v1], [fm 4 [0; 0; 0; 0]; fm 8 (qx_layout a)], i16le_v1, 0, (qx_layout a), 0, 0. change (zrep 0 0) with (@nil Z). rewrite !app_nil_r.
  repeat (split; [reflexivity|]). split; [exact vx_i16_is|]. split; [exact I|]. split; [exact I|]. exact (qx_place a H).
Qed.
Lemma qx_fit n : n = 3 \/ n = 4 -> chunks_fit [n] [2] 2.
Proof.
  intros [->| ->]; (split; [reflexivity|]; split; [discriminate|]; split; [repeat constructor; lia|]; split; [repeat constructor; lia|]; split; reflexivity).
Qed.
Ltac qx_index_tac a :=
  split; [lia|]; split;
  [apply (stored_leaf qx_file 1 true a (2 ^ 64 - 1) (2 ^ 64 - 1));
    [intros _; split; reflexivity
    |split; [reflexivity|]; split; [split; [discriminate|reflexivity]|]; split; [split; [discriminate|reflexivity]|];
     split; [repeat constructor; (discriminate || reflexivity)|repeat constructor; (discriminate || reflexivity)]
    |here]
  |split; [constructor; repeat constructor; (discriminate || reflexivity)|]; split; [apply le_n_S, Nat.le_0_l|];
   vm_compute; apply NoDup_cons; [intros [E|[]]; discriminate E|apply NoDup_cons; [intros []|apply NoDup_nil]]].
Lemma qx_k_index : index_is qx_file 269 [4] [2] (ILeaf (qx_es 261) (mkKey 0 0 [4])).
Proof. qx_index_tac 269. Qed.
Lemma qx_g_index : index_is qx_file 389 [3] [2] (ILeaf (qx_es 381) (mkKey 0 0 [3])).
Proof. qx_index_tac 389. Qed.
Lemma qx_there a : a = 261 \/ a = 381 -> Forall (chunk_there qx_file [2] 2) (qx_es a).
Proof. intros [->| ->]; (apply Forall_cons; [|apply Forall_cons; [|apply Forall_nil]]); (split; [reflexivity|]); split; vm_compute; congruence. Qed.
Lemma qx_k_stored : all_stored qx_file [4] (fsize ox_ty) (Chunked (Some 269) [2] 2) qx_kdata.
Proof.
  right. exists 269, [2], (ILeaf (qx_es 261) (mkKey 0 0 [4])). split; [reflexivity|]. split; [apply qx_fit; right; reflexivity|].
  split; [apply ord_last|]. split; [exact qx_k_index|]. split; [|split; reflexivity].
  split; [apply qx_there; left; reflexivity|]. split; [reflexivity|].
  intros idx I. inversion I as [|? x ? r Hx I1]; subst. inversion I1; subst. assert (X : x = 0 \/ x = 1 \/ x = 2 \/ x = 3) by lia.
  split.
  - intros addr (k & Hk & Ek). destruct Hk as [Hk|[Hk|[]]]; injection Hk as <- <-; destruct X as [->|[->|[->| ->]]]; try discriminate Ek; here.
  - intros Hno. exfalso. destruct X as [->|[->|[->| ->]]];
      [apply (Hno 261); exists (mkKey 4 0 [0])|apply (Hno 261); exists (mkKey 4 0 [0])|apply (Hno 265); exists (mkKey 4 0 [2])|apply (Hno 265); exists (mkKey 4 0 [2])];
      (split; [(left; reflexivity) || (right; left; reflexivity)|reflexivity]).
Qed.
Lemma qx_g_missing : some_missing qx_file [3] (fsize ox_ty) (Chunked (Some 389) [2] 2).
Proof.
  right. exists 389, [2], (ILeaf (qx_es 381) (mkKey 0 0 [3])). split; [reflexivity|]. split; [apply qx_fit; left; reflexivity|].
  split; [exact qx_g_index|]. split; [apply qx_there; right; reflexivity|]. right. reflexivity.
Qed.
Lemma qx_value f l : Forall (fun z => - 2 ^ 15 <= z < 2 ^ 15) l -> array_is (in_global_heap f) ox_ty [zlen l] (flat_map (le 2) l) (row16 l).
Proof.
  intros H. unfold row16. rewrite <- (zlen_map (HNum I16) l). apply (value_rows _ ox_ty []); [reflexivity|right; left; reflexivity|discriminate|].
  induction H as [|z l Hz H IH]; [apply rows_nil|]. cbn [flat_map map]. apply rows_cons; [|exact IH].
  apply (value_int _ 2 true false z); [right; left; reflexivity|exact Hz].
Qed.

(** The first has its value; the second, though stored with all its elements, ends the program *)
Example C84_example_chunks inflate :
  superblock_is qx_file 48 /\ object_is qx_file message_is 2 48 (FGroup qx_kids) /\ plain_names (FGroup qx_kids) /\
  NoDup (below (FGroup qx_kids)) /\ (2 <= List.length qx_file)%nat /\ zlen qx_file < 2 ^ 63 /\
  unfilled_at qx_file message_is 113 [4] ox_ty (Chunked (Some 269) [2] 2) /\ all_stored qx_file [4] (fsize ox_ty) (Chunked (Some 269) [2] 2) qx_kdata /\
  array_is (in_global_heap qx_file) ox_ty [4] qx_kdata (row16 [1; 2; 3; 4]) /\
  unfilled_at qx_file message_is 187 [3] ox_ty (Chunked (Some 389) [2] 2) /\ some_missing qx_file [3] (fsize ox_ty) (Chunked (Some 389) [2] 2) /\
  P_H5Foreign.told qx_file (bs "/") = Ok ([], [bs "k"; bs "g"], []) /\
  got_piped inflate qx_file (bs "/") (bs "k") = Ok (row16 [1; 2; 3; 4]) /\ got_piped inflate qx_file (bs "/") (bs "g") = Panic.
Proof.
  split; [apply (gx_super_is _ 501); [unfold word; lia|vm_compute; congruence|here]|].
  split.
  { apply (is_group _ _ 2 0 1 48 qx_root [[]; [(bs "k", 113)]; [(bs "g", 187)]] []).
    + split; [lia|]. exists (HV2 false), qx_root. split.
      * apply gx_h2; [chunk2|reflexivity|here].
      * repeat (apply held_msg; [discriminate|]). apply held_nil.
    + lia.
    + apply Forall2_cons; [|apply Forall2_cons; [|apply Forall2_cons; [|apply Forall2_nil]]].
      * right. right. split; [left; reflexivity|reflexivity].
      * left. split; [reflexivity|]. exists (bs "k"), 113. split; [|reflexivity]. exists 0, 0, 0, 0.
        split; [unfold word; lia|]. split; [unfold word; lia|]. split; [left; reflexivity|].
        split; [unfold word; lia|]. split; reflexivity.
      * left. split; [reflexivity|]. exists (bs "g"), 187. split; [|reflexivity]. exists 0, 0, 0, 0.
        split; [unfold word; lia|]. split; [unfold word; lia|]. split; [left; reflexivity|].
        split; [unfold word; lia|]. split; reflexivity.
    + right. exists ([0; 0] ++ le 8 undefined ++ le 8 undefined), undefined, undefined. split; [reflexivity|]. split.
      * exists 0, 0, 0, 0. unfold undefined. split; [unfold word; lia|]. split; [unfold word; lia|]. split; [unfold word; lia|].
        split; [unfold word; lia|]. split; [unfold word; lia|reflexivity].
      * left. split; reflexivity.
    + left. reflexivity.
    + discriminate.
    + apply Permutation_refl.
    + vm_compute. apply NoDup_cons; [intros [E|[]]; discriminate E|apply NoDup_cons; [intros []|apply NoDup_nil]].
    + apply kids_cons; [|apply kids_cons; [|apply kids_nil]].
      * apply (is_data _ _ 1 0 113 (qx_msgs 4 269) (qx_space 4) [4] qx_k_header); [lia|apply qx_messages; lia|reflexivity|apply qx_space_is; unfold word; lia|left; reflexivity].
      * apply (is_data _ _ 1 0 187 (qx_msgs 3 389) (qx_space 3) [3] qx_g_header); [lia|apply qx_messages; lia|reflexivity|apply qx_space_is; unfold word; lia|left; reflexivity]. }
  split; [apply plain_group; repeat (apply Forall_cons; [cbn [fst snd]; split; [split; [discriminate|intros [E|[]]; discriminate E]|apply plain_leaf; reflexivity]|]); apply Forall_nil|].
  split; [vm_compute; apply NoDup_cons; [intros [E|[]]; discriminate E|apply NoDup_cons; [intros []|apply NoDup_nil]]|].
  split; [apply Nat.leb_le; vm_compute; reflexivity|]. split; [vm_compute; reflexivity|].
  split; [apply qx_at; [unfold word; lia|lia|exact qx_k_header]|]. split; [exact qx_k_stored|].
  split; [apply (qx_value _ [1; 2; 3; 4]); repeat constructor; lia|].
  split; [apply qx_at; [unfold word; lia|lia|exact qx_g_header]|]. split; [exact qx_g_missing|].
  split; [vm_compute; reflexivity|]. split; vm_compute; reflexivity.
Qed.

Print Assumptions C84_stored_partial.
Print Assumptions C84_missing_refuted.
Print Assumptions C84_example.
Print Assumptions C84_example_chunks.
