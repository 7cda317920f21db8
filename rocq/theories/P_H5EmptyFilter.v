(** C84 for variables with filters. *)
From Coq Require Import Lia ZifyBool ZifyNat Permutation.
From Verif Require Import Prelude BaseLemmas GoVal ArraySpec H5Base H5ChecksumModel H5MetaWrite H5MetaRead H5Value H5TypeRead H5LayoutModel H5RecordModel ChunkSpec
  MetaSpec RecordSpec Lookup3Spec DenseSpec PathSpec FilterSpec ForeignSpec ForeignTypeSpec ForeignMsgSpec ForeignDataSpec ForeignValueSpec ForeignFilterSpec
  EmptyFillSpec EmptyFilterSpec
  H5PathModel H5FileRead H5PipeModel H5MetaProofs H5DenseRead H5DenseProofs P_H5Dense H5PathProofs H5ApiPath H5ApiProofs H5ForeignProofs H5ForeignTree H5ForeignOpen H5ForeignApi
  P_H5Foreign H5ForeignMsg H5ForeignType P_H5ForeignType H5ForeignValue H5ForeignData H5ForeignVar P_H5ForeignValue H5PipeVar P_H5ForeignFilter P_H5Getter H5EmptyFill P_H5EmptyFill
  H5EmptyFilter.

Lemma unfilled_filtered_weaken f (P Q : Z -> bytes -> Prop) a fs dims t p : (forall t b, P t b -> Q t b) ->
  unfilled_filtered_at f P a fs dims t p -> unfilled_filtered_at f Q a fs dims t p.
Proof.
  intros W (c & l & b & Hm & Hl & H1 & Hb & Ha & Hd). exists c, l, b. split; [exact Hm|]. split.
  - eapply Forall_impl; [|exact Hl]. cbn beta. intros m [H|[H|[H2 [H3|[H3 H4]]]]]; [left; exact H|right; left; exact H| |]; right; right.
    + split; [exact H2|left; exact H3].
    + split; [exact H2|right; split; [exact H3|apply W, H4]].
  - split; [exact H1|]. split; [exact Hb|]. split; [|exact Hd].
    destruct Ha as [H|(b' & heap & index & E & H2 & H3)]; [left; exact H|right]. exists b', heap, index. split; [exact E|]. split; [exact H2|].
    destruct H3 as [H3|(H3 & N & d & u & B & U & F)]; [left; exact H3|right]. split; [exact H3|]. exists N, d, u.
    split; [exact B|]. split; [exact U|]. eapply Forall_impl; [|exact F]. cbn beta.
    intros r (a' & b0 & G1 & G2 & G3 & G4 & G5). exists a', b0. split; [exact G1|]. split; [exact G2|]. split; [exact G3|]. split; [exact G4|apply W, G5].
Qed.

(** As [C84_stored_partial], where the chunks went through filters.  Missing: pipelines that are not [undoable]. *)
Theorem C84_filtered_partial (deflated : bytes -> bytes -> Prop) inflate f n root kids :
  (forall d s, deflated d s -> inflate s = Ok d) ->
  superblock_is f root -> object_is f message_is n root (FGroup kids) -> plain_names (FGroup kids) ->
  NoDup (below (FGroup kids)) -> (n <= List.length f)%nat -> zlen f < 2 ^ 63 ->
  exists o, openFile f = Ok o /\ forall h0 path ks name a fs dims t p b v,
    absolute path = true -> found_at (FGroup kids) (components path) (FGroup ks) -> In (name, a, FData dims) ks ->
    unfilled_filtered_at f message_is a fs dims t p -> Forall (fun n => 0 <= n < 2 ^ 63) dims ->
    all_filtered deflated f fs dims (fsize t) p b -> array_is (in_global_heap f) t dims b v ->
    exists h, rgetGroup o h0 path = Ok h /\
      (In name (listVariables o h) -> exists l, getVariablePiped inflate f o h name = with_attrs f o l v).
Proof.
  intros Hinf HS HO HN HB Hn Hf. destruct (variable_found f n root kids HS HO HN HB Hn Hf) as (o & E & H).
  exists o. split; [exact E|]. intros h0 path ks name a fs dims t p b v Ha F Hi Hu Hd Hp Hv.
  destruct (H h0 path ks name a dims Ha F Hi) as (h & Eh & Hl). exists h. split; [exact Eh|].
  intros L. destruct (Hl L) as (ob & FV & Hc). exists (r_attrs ob).
  exact (filtered_stored deflated inflate Hinf f o h name ob a fs dims t p b v Hf FV Hc (unfilled_filtered_weaken _ _ _ _ _ _ _ _ message_alone Hu) Hd Hp Hv).
Qed.

(** As [C84_missing_refuted], where the chunks went through filters *)
Theorem C84_filtered_refuted (deflated : bytes -> bytes -> Prop) inflate f n root kids :
  (forall d s, deflated d s -> inflate s = Ok d) ->
  superblock_is f root -> object_is f message_is n root (FGroup kids) -> plain_names (FGroup kids) ->
  NoDup (below (FGroup kids)) -> (n <= List.length f)%nat -> zlen f < 2 ^ 63 ->
  exists o, openFile f = Ok o /\ forall h0 path ks name a fs dims t p,
    absolute path = true -> found_at (FGroup kids) (components path) (FGroup ks) -> In (name, a, FData dims) ks ->
    unfilled_filtered_at f message_is a fs dims t p -> Forall (fun n => 0 < n < 2 ^ 63) dims ->
    filtered_missing deflated f fs dims (fsize t) p ->
    exists h, rgetGroup o h0 path = Ok h /\
      (In name (listVariables o h) -> getVariablePiped inflate f o h name = Panic).
Proof.
  intros Hinf HS HO HN HB Hn Hf. destruct (variable_found f n root kids HS HO HN HB Hn Hf) as (o & E & H).
  exists o. split; [exact E|]. intros h0 path ks name a fs dims t p Ha F Hi Hu Hd Hp.
  destruct (H h0 path ks name a dims Ha F Hi) as (h & Eh & Hl). exists h. split; [exact Eh|].
  intros L. destruct (Hl L) as (ob & FV & Hc).
  exact (filtered_not_stored deflated inflate Hinf f o h name ob a fs dims t p Hf FV Hc (unfilled_filtered_weaken _ _ _ _ _ _ _ _ message_alone Hu) Hd Hp).
Qed.

(** ** The file of [C84_example_chunks] with the filters of [C79_example]: the second chunk of each is not compressed *)
Definition wx_msgs (n a : Z) : list fmsg := [fm 1 (qx_space n); fm 3 i16le_v1; fm 4 [0; 0; 0; 0]; fm 11 zx_fb; fm 8 (qx_layout a)].
Definition wx_es (a : Z) : list (key * Z) := [(mkKey 19 0 [0], a); (mkKey 8 2 [2], a + 19)].
Definition wx_node (n a : Z) : bytes := RecordSpec.node_bytes 0 (2 ^ 64 - 1) (2 ^ 64 - 1) (wx_es a) (mkKey 0 0 [n]).
Definition wx_chunks (a b : bytes) : bytes := checked (zx_stream (shuffle 2 a)) ++ checked (shuffle 2 b).
Definition wx_k1 : bytes := flat_map (le 2) [1; 2].
Definition wx_k2 : bytes := flat_map (le 2) [3; 4].
Definition wx_g1 : bytes := flat_map (le 2) [5; 6].
Definition wx_g2 : bytes := flat_map (le 2) [7; 99].
Definition wx_root : list fmsg := [gx_info; gx_hard (bs "k") 113; gx_hard (bs "g") 219].
Definition wx_file : bytes :=
  gx_super 603 ++ fx_head2 wx_root 0 ++ fx_head2 (wx_msgs 4 352) 0 ++ fx_head2 (wx_msgs 3 491) 0 ++
  wx_chunks wx_k1 wx_k2 ++ wx_node 4 325 ++ wx_chunks wx_g1 wx_g2 ++ wx_node 3 464.
Definition wx_kids : list (bytes * Z * ftree) := [(bs "k", 113, FData [4]); (bs "g", 219, FData [3])].

Lemma wx_messages n a : 0 < a < 2 ^ 63 ->
  Forall (fun m => fm_type m = 1 \/ fm_type m = 21 \/ ForeignSpec.plain message_is [0; 3; 4; 5; 8; 11; 12; 13; 14; 18; 22] m) (wx_msgs n a).
Proof.
  intros H. apply Forall_cons; [left; reflexivity|]. repeat (apply Forall_cons; [right; right|]); [| | | |apply Forall_nil].
  - apply vx_message; [right; left; reflexivity|discriminate|]. apply vx_padded. apply (body_type ox_ty); [exact vx_i16_is|exact I|exact I].
  - apply vx_message; [right; right; left; reflexivity|discriminate|]. apply vx_padded.
    apply (body_old_fill [0; 0; 0; 0] []). split; [reflexivity|reflexivity].
  - apply vx_message; [do 5 right; left; reflexivity|discriminate|]. apply vx_padded. apply (body_filters _ _ zx_filters_are zx_known).
  - apply vx_message; [do 4 right; left; reflexivity|discriminate|]. apply vx_padded. apply (body_place _ _ (qx_place a H)).
Qed.
Lemma wx_k_header : messages_are wx_file 0 113 (wx_msgs 4 352).
Proof.
  split; [lia|]. exists (HV2 false), (wx_msgs 4 352). split; [apply gx_h2; [chunk2|reflexivity|here]|].
    repeat (apply held_msg; [discriminate|]). apply held_nil.
Qed.
Lemma wx_g_header : messages_are wx_file 0 219 (wx_msgs 3 491).
Proof.
  split; [lia|]. exists (HV2 false), (wx_msgs 3 491). split; [apply gx_h2; [chunk2|reflexivity|here]|].
    repeat (apply held_msg; [discriminate|]). apply held_nil.
Qed.
Lemma wx_at at_ n a : word 64 n -> 0 < a < 2 ^ 63 -> messages_are wx_file 0 at_ (wx_msgs n a) ->
  unfilled_filtered_at wx_file message_is at_ zx_filters [n] ox_ty (Chunked (Some a) [2] 2).
Proof.
  intros W H Hm. exists O, (wx_msgs n a), (qx_space n).
  split; [exact Hm|]. split; [exact (wx_messages n a H)|]. split; [reflexivity|]. split; [exact (qx_space_is n W)|]. split; [left; reflexivity|].
  exists [fm 1 (qx_space n); fm 3 i16le_v1], [fm 4 [0; 0; 0; 0]; fm 11 zx_fb; fm 8 (qx_layout a)], i16le_v1, 0, (qx_layout a), 0, zx_fb, 0, 0.
  change (zrep 0 0) with (@nil Z). rewrite !app_nil_r.
  do 6 (split; [reflexivity|]). split; [exact zx_filters_are|]. split; [exact zx_known|]. do 2 (split; [reflexivity|]).
  split; [exact vx_i16_is|]. split; [exact I|]. split; [exact I|]. exact (qx_place a H).
Qed.
Ltac wx_index_tac a :=
  split; [lia|]; split;
  [apply (stored_leaf wx_file 1 true a (2 ^ 64 - 1) (2 ^ 64 - 1));
    [intros _; split; reflexivity
    |split; [reflexivity|]; split; [split; [discriminate|reflexivity]|]; split; [split; [discriminate|reflexivity]|];
     split; [repeat constructor; (discriminate || reflexivity)|repeat constructor; (discriminate || reflexivity)]
    |here]
  |split; [constructor; repeat constructor; (discriminate || reflexivity)|]; split; [apply le_n_S, Nat.le_0_l|];
   vm_compute; apply NoDup_cons; [intros [E|[]]; discriminate E|apply NoDup_cons; [intros []|apply NoDup_nil]]].
Lemma wx_k_index : index_is wx_file 352 [4] [2] (ILeaf (wx_es 325) (mkKey 0 0 [4])).
Proof. wx_index_tac 352. Qed.
Lemma wx_g_index : index_is wx_file 491 [3] [2] (ILeaf (wx_es 464) (mkKey 0 0 [3])).
Proof. wx_index_tac 491. Qed.
Ltac wx_chunk1_tac x :=
  split; [reflexivity|]; split; [reflexivity|];
  exists [(Shuffled 2, x); (Deflated, shuffle 2 x); (Checked, zx_stream (shuffle 2 x))], (checked (zx_stream (shuffle 2 x)));
  split;
  [apply (enc_shuffle stored_stream 0 0 _ _ _ 2 []); [reflexivity|reflexivity|reflexivity|];
   apply (enc_deflate stored_stream 0 (0 + 1) _ _ _ (zx_stream (shuffle 2 x))); [reflexivity|reflexivity|split; [reflexivity|reflexivity]|];
   apply enc_checksum; [reflexivity|reflexivity|apply small_bytes; vm_compute; reflexivity|]; apply enc_end|];
  split;
  [split; [lia|]; split; [exists 2; reflexivity|]; split; [|exact I]; split; vm_compute; discriminate|];
  split; [cbn [snd]; here|]; split; [vm_compute; reflexivity|vm_compute; discriminate].
Ltac wx_chunk2_tac x :=
  split; [reflexivity|]; split; [reflexivity|];
  exists [(Shuffled 2, x); (Checked, shuffle 2 x)], (checked (shuffle 2 x));
  split;
  [apply (enc_shuffle stored_stream 2 0 _ _ _ 2 []); [reflexivity|reflexivity|reflexivity|];
   apply enc_left_out; [reflexivity|];
   apply enc_checksum; [reflexivity|reflexivity|apply small_bytes; vm_compute; reflexivity|]; apply enc_end|];
  split;
  [split; [lia|]; split; [exists 2; reflexivity|]; split; [split; vm_compute; discriminate|]; split; [intros _; reflexivity|exact I]|];
  split; [cbn [snd]; here|]; split; [vm_compute; reflexivity|vm_compute; discriminate].
Lemma wx_k_chunks : Forall2 (chunk_is stored_stream wx_file zx_filters [2] 2) (wx_es 325) [wx_k1; wx_k2].
Proof. apply Forall2_cons; [wx_chunk1_tac wx_k1|apply Forall2_cons; [wx_chunk2_tac wx_k2|apply Forall2_nil]]. Qed.
Lemma wx_g_chunks : Forall2 (chunk_is stored_stream wx_file zx_filters [2] 2) (wx_es 464) [wx_g1; wx_g2].
Proof. apply Forall2_cons; [wx_chunk1_tac wx_g1|apply Forall2_cons; [wx_chunk2_tac wx_g2|apply Forall2_nil]]. Qed.
Lemma wx_k_stored : all_filtered stored_stream wx_file zx_filters [4] (fsize ox_ty) (Chunked (Some 352) [2] 2) qx_kdata.
Proof.
  exists 352, [2], (ILeaf (wx_es 325) (mkKey 0 0 [4])). split; [reflexivity|]. split; [apply qx_fit; right; reflexivity|].
  split; [apply ord_last|]. split; [exact wx_k_index|]. split; [|split; reflexivity].
  split; [reflexivity|]. exists [wx_k1; wx_k2]. split; [exact wx_k_chunks|].
  intros idx I. inversion I as [|? x ? r Hx I1]; subst. inversion I1; subst. assert (X : x = 0 \/ x = 1 \/ x = 2 \/ x = 3) by lia.
  split.
  - intros c b [Hk|[Hk|[]]] Ek; injection Hk as <- <-; destruct X as [->|[->|[->| ->]]]; try discriminate Ek; vm_compute; reflexivity.
  - intros Hno. exfalso. destruct X as [->|[->|[->| ->]]];
      [apply (Hno 325); exists (mkKey 19 0 [0])|apply (Hno 325); exists (mkKey 19 0 [0])|apply (Hno 344); exists (mkKey 8 2 [2])|apply (Hno 344); exists (mkKey 8 2 [2])];
      (split; [(left; reflexivity) || (right; left; reflexivity)|reflexivity]).
Qed.
Lemma wx_g_missing : filtered_missing stored_stream wx_file zx_filters [3] (fsize ox_ty) (Chunked (Some 491) [2] 2).
Proof.
  right. exists 491, [2], (ILeaf (wx_es 464) (mkKey 0 0 [3])), [wx_g1; wx_g2]. split; [reflexivity|]. split; [apply qx_fit; left; reflexivity|].
  split; [exact wx_g_index|]. split; [exact wx_g_chunks|]. right. reflexivity.
Qed.

(** The first has its value; the second, though stored with all its elements, ends the program *)
Example C84_example_filtered :
  superblock_is wx_file 48 /\ object_is wx_file message_is 2 48 (FGroup wx_kids) /\ plain_names (FGroup wx_kids) /\
  NoDup (below (FGroup wx_kids)) /\ (2 <= List.length wx_file)%nat /\ zlen wx_file < 2 ^ 63 /\
  unfilled_filtered_at wx_file message_is 113 zx_filters [4] ox_ty (Chunked (Some 352) [2] 2) /\ all_filtered stored_stream wx_file zx_filters [4] (fsize ox_ty) (Chunked (Some 352) [2] 2) qx_kdata /\
  array_is (in_global_heap wx_file) ox_ty [4] qx_kdata (row16 [1; 2; 3; 4]) /\
  unfilled_filtered_at wx_file message_is 219 zx_filters [3] ox_ty (Chunked (Some 491) [2] 2) /\ filtered_missing stored_stream wx_file zx_filters [3] (fsize ox_ty) (Chunked (Some 491) [2] 2) /\
  P_H5Foreign.told wx_file (bs "/") = Ok ([], [bs "k"; bs "g"], []) /\
  got_piped inflate_stored wx_file (bs "/") (bs "k") = Ok (row16 [1; 2; 3; 4]) /\ got_piped inflate_stored wx_file (bs "/") (bs "g") = Panic.
Proof.
  split; [apply (gx_super_is _ 603); [unfold word; lia|vm_compute; congruence|here]|].
  split.
  { apply (is_group _ _ 2 0 1 48 wx_root [[]; [(bs "k", 113)]; [(bs "g", 219)]] []).
    + split; [lia|]. exists (HV2 false), wx_root. split.
      * apply gx_h2; [chunk2|reflexivity|here].
      * repeat (apply held_msg; [discriminate|]). apply held_nil.
    + lia.
    + apply Forall2_cons; [|apply Forall2_cons; [|apply Forall2_cons; [|apply Forall2_nil]]].
      * right. right. split; [left; reflexivity|reflexivity].
      * left. split; [reflexivity|]. exists (bs "k"), 113. split; [|reflexivity]. exists 0, 0, 0, 0.
        split; [unfold word; lia|]. split; [unfold word; lia|]. split; [left; reflexivity|].
        split; [unfold word; lia|]. split; reflexivity.
      * left. split; [reflexivity|]. exists (bs "g"), 219. split; [|reflexivity]. exists 0, 0, 0, 0.
        split; [unfold word; lia|]. split; [unfold word; lia|]. split; [left; reflexivity|].
        split; [unfold word; lia|]. split; reflexivity.
    + right. exists ([0; 0] ++ le 8 undefined ++ le 8 undefined), undefined, undefined. split; [reflexivity|]. split.
      * exists 0, 0, 0, 0. unfold undefined. split; [unfold word; lia|]. split; [unfold word; lia|]. split; [unfold word; lia|].
        split; [unfold word; lia|]. split; [unfold word; lia|reflexivity].
      * left. split; reflexivity.
    + left. reflexivity.
    + discriminate.
    + apply Permutation_refl.
    + vm_compute. apply NoDup_cons; [intros [E|[]]; discriminate E|apply NoDup_cons; [intros []|apply NoDup_nil]].
    + apply kids_cons; [|apply kids_cons; [|apply kids_nil]].
      * apply (is_data _ _ 1 0 113 (wx_msgs 4 352) (qx_space 4) [4] wx_k_header); [lia|apply wx_messages; lia|reflexivity|apply qx_space_is; unfold word; lia|left; reflexivity].
      * apply (is_data _ _ 1 0 219 (wx_msgs 3 491) (qx_space 3) [3] wx_g_header); [lia|apply wx_messages; lia|reflexivity|apply qx_space_is; unfold word; lia|left; reflexivity]. }
  split; [apply plain_group; repeat (apply Forall_cons; [cbn [fst snd]; split; [split; [discriminate|intros [E|[]]; discriminate E]|apply plain_leaf; reflexivity]|]); apply Forall_nil|].
  split; [vm_compute; apply NoDup_cons; [intros [E|[]]; discriminate E|apply NoDup_cons; [intros []|apply NoDup_nil]]|].
  split; [apply Nat.leb_le; vm_compute; reflexivity|]. split; [vm_compute; reflexivity|].
  split; [apply wx_at; [unfold word; lia|lia|exact wx_k_header]|]. split; [exact wx_k_stored|].
  split; [apply (qx_value _ [1; 2; 3; 4]); repeat constructor; lia|].
  split; [apply wx_at; [unfold word; lia|lia|exact wx_g_header]|]. split; [exact wx_g_missing|].
  split; [vm_compute; reflexivity|]. split; vm_compute; reflexivity.
Qed.

Print Assumptions C84_filtered_partial.
Print Assumptions C84_filtered_refuted.
Print Assumptions C84_example_filtered.
