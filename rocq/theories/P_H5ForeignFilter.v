(** C79: variables of files of other writers whose chunks are compressed, shuffled or checked. *)
From Coq Require Import Lia ZifyBool ZifyNat Permutation.
From Verif Require Import Prelude BaseLemmas GoVal ArraySpec H5Base H5ChecksumModel H5MetaWrite H5MetaRead H5Value H5TypeRead H5LayoutModel H5RecordModel ChunkSpec
  MetaSpec RecordSpec Lookup3Spec DenseSpec PathSpec FilterSpec ForeignSpec ForeignTypeSpec ForeignMsgSpec ForeignDataSpec ForeignValueSpec ForeignFilterSpec
  H5PathModel H5FileRead H5PipeModel H5MetaProofs H5DenseRead H5DenseProofs P_H5Dense H5PathProofs H5ApiPath H5ApiProofs H5ForeignProofs H5ForeignTree H5ForeignOpen H5ForeignApi
  P_H5Foreign H5ForeignMsg H5ForeignType P_H5ForeignType H5ForeignValue H5ForeignData H5ForeignVar P_H5ForeignValue H5PipeProofs H5PipeVar.

(** A chunk that went through a pipeline of filters, of which its mask may leave some out, is read as it was, if
    zlib reads the streams that were written.  Missing: what [undoable] leaves out. *)
Theorem C79_pipeline_partial (deflated : bytes -> bytes -> Prop) inflate l b d tr s :
  (forall d s, deflated d s -> inflate s = Ok d) ->
  encoded deflated (b_mask b) 0 l d tr s -> undoable false tr -> zlen s < 2 ^ 64 -> zlen d + 4 * zlen l < 2 ^ 63 ->
  b_ds b = zlen d -> b_length b = zlen s ->
  undoFilters inflate (map (fun x => (fd_id x, fd_vals x)) l) b s = Ok d.
Proof. intros Hi. apply filters_undone. exact Hi. Qed.

Lemma filtered_weaken f (P Q : Z -> bytes -> Prop) a fs dims t p fill : (forall t b, P t b -> Q t b) ->
  filtered_at f P a fs dims t p fill -> filtered_at f Q a fs dims t p fill.
Proof.
  intros W (c & l & b & Hm & Hl & H1 & Hb & Ha & Hd). exists c, l, b. split; [exact Hm|]. split.
  - eapply Forall_impl; [|exact Hl]. cbn beta. intros m [H|[H|[H2 [H3|[H3 H4]]]]]; [left; exact H|right; left; exact H| |]; right; right.
    + split; [exact H2|left; exact H3].
    + split; [exact H2|right; split; [exact H3|apply W, H4]].
  - split; [exact H1|]. split; [exact Hb|]. split; [|exact Hd].
    destruct Ha as [H|(b' & heap & index & E & H2 & H3)]; [left; exact H|right]. exists b', heap, index. split; [exact E|]. split; [exact H2|].
    destruct H3 as [H3|(H3 & N & d & u & B & U & F)]; [left; exact H3|right]. split; [exact H3|]. exists N, d, u.
    split; [exact B|]. split; [exact U|]. eapply Forall_impl; [|exact F]. cbn beta.
    intros r (a' & b0 & G1 & G2 & G3 & G4 & G5). exists a', b0. split; [exact G1|]. split; [exact G2|]. split; [exact G3|]. split; [exact G4|apply W, G5].
Qed.

(** A file of any tree of groups and datasets opens, and a variable that is in the tree as a dataset with filters has
    the value that is stored, in chunks that need not all be there and each of which may leave out filters.
    Missing: pipelines that are not [undoable]; what is missing in C77. *)
Theorem C79_variable_partial (deflated : bytes -> bytes -> Prop) inflate f n root kids :
  (forall d s, deflated d s -> inflate s = Ok d) ->
  superblock_is f root -> object_is f message_is n root (FGroup kids) -> plain_names (FGroup kids) ->
  NoDup (below (FGroup kids)) -> (n <= List.length f)%nat -> zlen f < 2 ^ 63 ->
  exists o, openFile f = Ok o /\ forall h0 path ks name a dims t p fill fs b v,
    absolute path = true -> found_at (FGroup kids) (components path) (FGroup ks) -> In (name, a, FData dims) ks ->
    filtered_at f message_is a fs dims t p fill -> Forall (fun n => n < 2 ^ 63) dims ->
    filtered_as deflated f fs dims (fsize t) fill p b -> array_is (in_global_heap f) t dims b v ->
    exists h, rgetGroup o h0 path = Ok h /\
      (In name (listVariables o h) ->
         (forall rv, getVariablePiped inflate f o h name = Ok rv -> rv_val rv = v) /\
         exists l, getVariablePiped inflate f o h name = with_attrs f o l v).
Proof.
  intros Hinf HS HO HN HB Hn Hf. pose proof (proj1 (object_weaken f message_is alone message_alone) n root (FGroup kids) HO) as HO'.
  destruct (file_opened f n root kids HS HO' HB Hn Hf) as (o & E & Hs).
  exists o. split; [exact E|]. intros h0 path ks name a dims t p fill fs b v Ha F Hi Hda Hdm Hst Hv.
  pose proof (objects_distinct _ _ _ _ _ HO') as HD.
  rewrite (rgetGroup_follow o h0 path (or_introl Ha)). rewrite Ha.
  destruct (follow_found _ _ _ _ F ks o eq_refl Hs HD) as (g & Er & Hg). rewrite Er.
  eexists. split; [reflexivity|]. intros Hl.
  inversion Hg as [ks' i cs os G GD Hp Hk| |]; subst.
  destruct (in_shown _ _ _ _ Hp Hk _ _ _ Hi) as (ob & Ho & Hsh & Hc).
  match type of Hl with In _ (listVariables _ ?hh) => set (h := hh) in * end.
  assert (N : NoDup (map fst cs)).
  { apply (Permutation_NoDup (Permutation_sym (shown_keys _ _ _ _ Hp Hk))). apply (HD _ _ F). }
  pose proof (In_assoc _ _ _ N Ho) as Ea.
  assert (LV : listVariables o h = found h (map fst cs)).
  { apply (lv_on h (components path) eq_refl (components_clean path) (components path) o [] (RObj i cs)
             (shows_proper _ _ _ Hs HD HN) (Forall_nil _) eq_refl Er). }
  assert (FV : findVariable h name = Some ob).
  { rewrite LV in Hl. unfold found in Hl. apply in_flat_map in Hl. destruct Hl as (n' & _ & Hx).
    destruct (findVariable h n') as [o'|] eqn:Ef; [|destruct Hx]. destruct Hx as [->|[]].
    rewrite Ef. unfold findVariable in Ef. cbn [h rh_obj r_children] in Ef. rewrite Ea in Ef.
    destruct (isDimensionScale (r_attrs ob)); [discriminate|]. destruct (ri_dims (r_info ob)); [|discriminate]. symmetry. exact Ef. }
  pose proof (filtered_variable deflated inflate Hinf f o h name ob a dims t p fill fs b v Hf FV Hc (filtered_weaken _ _ _ _ _ _ _ _ _ message_alone Hda) Hdm Hst Hv) as R.
  split; [|exists (r_attrs ob); exact R]. intros rv Hrv. rewrite R in Hrv. unfold with_attrs in Hrv.
  destruct (sortAttrList f (r_attrs ob)) as [l| |]; cbn [rbind] in Hrv; try discriminate.
  destruct (getDimensions f o l) as [ds| |]; cbn [rbind] in Hrv; try discriminate.
  destruct (getAttributes f l) as [at_| |]; cbn [rbind] in Hrv; try discriminate. injection Hrv as <-. reflexivity.
Qed.

(** Where C77 says what is read, in variables without filters, this is the same function. *)
Theorem C79_unfiltered inflate f root h name :
  (forall o, findVariable h name = Some o -> ri_dims (r_info o) <> None -> data_modelled (r_info o) = true) ->
  getVariablePiped inflate f root h name = getVariable f root h name.
Proof. apply piped_without. Qed.

(** ** A file: the numbers of C77_example shuffled, compressed and checked; the second chunk is not compressed *)
Fixpoint same (a b : bytes) : bool :=
  match a, b with [], [] => true | x :: a, y :: b => (x =? y) && same a b | _, _ => false end.
(** zlib on streams of one stored block *)
Definition inflate_stored (s : bytes) : res bytes :=
  let* (h, r) := rd 3 s in
  let* (n, r) := read16 r in
  let* (_, r) := read16 r in
  let* (d, r) := rd n r in
  if same h [0x78; 0x01; 1] && same r (be 4 (adler32 d)) then Ok d else Err EInternal.
Lemma same_refl a : same a a = true.
Proof. induction a as [|x a IH]; cbn [same]; [reflexivity|]. rewrite Z.eqb_refl. exact IH. Qed.
Lemma inflates_stored d s : stored_stream d s -> inflate_stored s = Ok d.
Proof.
  intros (H & ->). pose proof (zlen_nonneg d). unfold inflate_stored.
  rewrite (rd_app [120; 1; 1]) by reflexivity. cbn [rbind].
  rewrite (read16_le (zlen d)) by lia. cbn [rbind]. rewrite (read16_le (65535 - zlen d)) by lia. cbn [rbind].
  rewrite (rd_app d) by reflexivity. cbn [rbind]. rewrite !same_refl. reflexivity.
Qed.

Definition zx_filters : list filter_desc := [mkFilter 2 0 [] [2]; mkFilter 1 1 [] [6]; mkFilter 3 0 [] []].
Definition zx_fb : bytes := [2; zlen zx_filters] ++ flat_map filter_v2 zx_filters.
Definition zx_stream (d : bytes) : bytes := [0x78; 0x01; 1] ++ le 2 (zlen d) ++ le 2 (65535 - zlen d) ++ d ++ be 4 (adler32 d).
Definition checked (d : bytes) : bytes := d ++ le 4 (fletcher32 d).
Definition zx_chunk1 : bytes := checked (zx_stream (shuffle 2 vx_chunk1)).
Definition zx_chunk2 : bytes := checked (shuffle 2 vx_chunk2).
Definition zx_layout (a : Z) : bytes := [3; 2; 3] ++ le 8 a ++ flat_map (le 4) [2; 2] ++ le 4 2.
Definition zx_k (a : Z) : list fmsg :=
  [fm 1 ([2; 2; 0; 1] ++ le 8 3 ++ le 8 3); fm 3 i16le_v1; fm 5 ex_fill; fm 11 zx_fb; fm 8 (zx_layout a)].
Definition zx_root : list fmsg := [gx_info; gx_hard (bs "k") 97].
Definition zx_es : list (key * Z) := [(mkKey 23 0 [0; 0], 219); (mkKey 12 2 [2; 0], 242)].
Definition zx_node : bytes := RecordSpec.node_bytes 0 (2 ^ 64 - 1) (2 ^ 64 - 1) zx_es vx_last.
Definition zx_file : bytes :=
  gx_super 390 ++ fx_head2 zx_root 0 ++ fx_head2 (zx_k 254) 0 ++ zx_chunk1 ++ zx_chunk2 ++ zx_node.
Definition zx_kids : list (bytes * Z * ftree) := [(bs "k", 97, FData [3; 3])].
(** GetVariable, from the file on *)
Definition got_piped (inflate : bytes -> res bytes) (f : bytes) (path name : bytes) : res hval :=
  let* o := openFile f in
  let* h := rgetGroup o (mkRh [47] o) path in
  let* v := getVariablePiped inflate f o h name in
  Ok (rv_val v).

Lemma zx_filters_are : filters_are zx_fb zx_filters.
Proof.
  apply (filters_v2 zx_filters); [reflexivity|].
  repeat (apply Forall_cons; [unfold filter_ok, word; cbn [fd_id fd_flags fd_name fd_vals];
    (split; [lia|]); (split; [lia|]); (split; [reflexivity|]); (split; [reflexivity|]); apply words32; reflexivity|]). apply Forall_nil.
Qed.
Lemma zx_known : Forall known_filter zx_filters.
Proof. repeat (apply Forall_cons; [unfold known_filter; cbn [fd_id]; lia|]). apply Forall_nil. Qed.
Lemma zx_place : place_is (zx_layout 254) (Chunked (Some 254) [2; 2] 2).
Proof. apply (place_chunked (Some 254) [2; 2] 2); [cbn; unfold undefined; lia|cbn; lia|apply words32; reflexivity|unfold word; lia]. Qed.
Lemma zx_header : messages_are zx_file 0 97 (zx_k 254).
Proof.
  split; [lia|]. exists (HV2 false), (zx_k 254). split; [apply gx_h2; [chunk2|reflexivity|here]|].
    repeat (apply held_msg; [discriminate|]). apply held_nil.
Qed.
Lemma zx_messages : Forall (fun m => fm_type m = 1 \/ fm_type m = 21 \/ ForeignSpec.plain message_is [0; 3; 4; 5; 8; 11; 12; 13; 14; 18; 22] m) (zx_k 254).
Proof.
  apply Forall_cons; [left; reflexivity|].
  apply Forall_cons; [right; right|apply Forall_cons; [right; right|apply Forall_cons; [right; right|apply Forall_cons; [right; right|apply Forall_nil]]]].
    - apply vx_message; [right; left; reflexivity|discriminate|]. apply vx_padded. apply (body_type (FInt 2 true false)); [exact vx_i16_is|exact I|exact I].
    - apply vx_message; [do 3 right; left; reflexivity|discriminate|]. apply vx_padded. apply (body_fill _ _ vx_fill).
    - apply vx_message; [do 5 right; left; reflexivity|discriminate|]. apply vx_padded. apply (body_filters _ _ zx_filters_are zx_known).
    - apply vx_message; [do 4 right; left; reflexivity|discriminate|]. apply vx_padded. apply (body_place _ _ zx_place).
Qed.
Lemma zx_at : filtered_at zx_file message_is 97 zx_filters [3; 3] (FInt 2 true false) (Chunked (Some 254) [2; 2] 2) (Some [255; 1]).
Proof.
  exists O, (zx_k 254), ([2; 2; 0; 1] ++ le 8 3 ++ le 8 3). split; [exact zx_header|]. split; [exact zx_messages|].
  split; [reflexivity|]. split; [exact vx_k_space|]. split; [left; reflexivity|].
  exists [fm 1 ([2; 2; 0; 1] ++ le 8 3 ++ le 8 3); fm 3 i16le_v1; fm 5 ex_fill; fm 11 zx_fb], [fm 8 (zx_layout 254)],
    i16le_v1, 0, (zx_layout 254), 0, zx_fb, 0.
  rewrite !app_nil_r. split; [reflexivity|]. split; [reflexivity|]. split; [reflexivity|]. split; [reflexivity|]. split; [reflexivity|].
  split; [reflexivity|]. split; [exact zx_filters_are|]. split; [exact zx_known|].
  split; [exact vx_i16_is|]. split; [exact I|]. split; [exact I|]. split; [exact zx_place|].
  apply (told_new _ _ ex_fill 0 [255; 1]); [reflexivity|exact vx_fill|reflexivity].
Qed.
Lemma zx_value : array_is (in_global_heap zx_file) (FInt 2 true false) [3; 3] vx_kdata vx_kvals.
Proof.
  assert (R : forall l, Forall (fun z => - 2 ^ 15 <= z < 2 ^ 15) l ->
    array_is (in_global_heap zx_file) (FInt 2 true false) [zlen l] (flat_map (le 2) l) (row16 l)).
  { intros l H. unfold row16. rewrite <- (zlen_map (HNum I16) l). apply (value_rows _ (FInt 2 true false) []); [reflexivity|right; left; reflexivity|discriminate|].
    induction H as [|z l Hz H IH]; [apply rows_nil|]. cbn [flat_map map]. apply rows_cons; [|exact IH].
    apply (value_int _ 2 true false z); [right; left; reflexivity|exact Hz]. }
  unfold vx_kvals. change [3; 3] with (zlen [row16 [1; 2; 511]; row16 [4; 5; 511]; row16 [7; 8; 511]] :: [3]).
  apply (value_rows _ (FInt 2 true false) [3]); [reflexivity|right; left; reflexivity|discriminate|].
  change vx_kdata with (flat_map (le 2) [1; 2; 511] ++ flat_map (le 2) [4; 5; 511] ++ flat_map (le 2) [7; 8; 511] ++ []).
  repeat (apply rows_cons; [match goal with |- array_is _ _ _ (flat_map _ ?l) _ => apply (R l) end; repeat constructor; lia|]). apply rows_nil.
Qed.
Lemma small_bytes l : forallb (fun b => (0 <=? b) && (b <? 256)) l = true -> are_bytes l.
Proof. intros H. apply Forall_forall. intros b Hb. rewrite forallb_forall in H. specialize (H b Hb). cbn beta in H. unfold is_byte. lia. Qed.
Lemma zx_chunk1_is : chunk_is stored_stream zx_file zx_filters [2; 2] 2 (mkKey 23 0 [0; 0], 219) vx_chunk1.
Proof.
  split; [reflexivity|]. split; [reflexivity|].
  exists [(Shuffled 2, vx_chunk1); (Deflated, shuffle 2 vx_chunk1); (Checked, zx_stream (shuffle 2 vx_chunk1))], zx_chunk1.
  split.
  { apply (enc_shuffle stored_stream 0 0 _ _ _ 2 []); [reflexivity|reflexivity|reflexivity|].
    apply (enc_deflate stored_stream 0 (0 + 1) _ _ _ (zx_stream (shuffle 2 vx_chunk1))); [reflexivity|reflexivity|split; [reflexivity|reflexivity]|].
    apply enc_checksum; [reflexivity|reflexivity|apply small_bytes; vm_compute; reflexivity|]. apply enc_end. }
  split.
  { split; [lia|]. split; [exists 4; reflexivity|]. split; [|exact I]. split; vm_compute; discriminate. }
  split; [cbn [snd]; here|]. split; [vm_compute; reflexivity|vm_compute; discriminate].
Qed.
Lemma zx_chunk2_is : chunk_is stored_stream zx_file zx_filters [2; 2] 2 (mkKey 12 2 [2; 0], 242) vx_chunk2.
Proof.
  split; [reflexivity|]. split; [reflexivity|].
  exists [(Shuffled 2, vx_chunk2); (Checked, shuffle 2 vx_chunk2)], zx_chunk2.
  split.
  { apply (enc_shuffle stored_stream 2 0 _ _ _ 2 []); [reflexivity|reflexivity|reflexivity|].
    apply enc_left_out; [reflexivity|].
    apply enc_checksum; [reflexivity|reflexivity|apply small_bytes; vm_compute; reflexivity|]. apply enc_end. }
  split.
  { split; [lia|]. split; [exists 4; reflexivity|]. split; [split; vm_compute; discriminate|]. split; [intros _; reflexivity|exact I]. }
  split; [cbn [snd]; here|]. split; [vm_compute; reflexivity|vm_compute; discriminate].
Qed.
Lemma zx_stored : filtered_as stored_stream zx_file zx_filters [3; 3] 2 (Some [255; 1]) (Chunked (Some 254) [2; 2] 2) vx_kdata.
Proof.
  apply (as_filtered stored_stream zx_file zx_filters [3; 3] 2 _ 254 [2; 2] (ILeaf zx_es vx_last)).
  - split; [reflexivity|]. split; [discriminate|]. split; [repeat constructor; lia|]. split; [repeat constructor; lia|]. split; reflexivity.
  - apply (ord_whole 3 2 [] [] 3 2). constructor.
  - split; [lia|]. split.
    { apply (stored_leaf zx_file 2 true 254 (2 ^ 64 - 1) (2 ^ 64 - 1)).
      - intros _. split; reflexivity.
      - split; [reflexivity|]. split; [split; [discriminate|reflexivity]|]. split; [split; [discriminate|reflexivity]|].
        split; [repeat constructor; (discriminate || reflexivity)|repeat constructor; (discriminate || reflexivity)].
      - here. }
    split; [constructor; repeat constructor; (discriminate || reflexivity)|]. split; [apply le_n_S, Nat.le_0_l|].
    vm_compute. apply NoDup_cons; [intros [E|[]]; discriminate E|apply NoDup_cons; [intros []|apply NoDup_nil]].
  - split; [reflexivity|]. exists [vx_chunk1; vx_chunk2].
    split; [apply Forall2_cons; [exact zx_chunk1_is|apply Forall2_cons; [exact zx_chunk2_is|apply Forall2_nil]]|].
    intros idx I. inversion I as [|? x ? r Hx I1]; subst. inversion I1 as [|? y ? r' Hy I2]; subst. inversion I2; subst.
    assert (X : x = 0 \/ x = 1 \/ x = 2) by lia. assert (Y : y = 0 \/ y = 1 \/ y = 2) by lia.
    split.
    + intros c b [Hk|[Hk|[]]] Ek; injection Hk as <- <-.
      * destruct X as [->|[->| ->]], Y as [->|[->| ->]]; try discriminate Ek; vm_compute; reflexivity.
      * destruct X as [->|[->| ->]], Y as [->|[->| ->]]; try discriminate Ek; vm_compute; reflexivity.
    + intros Hno. exists [255; 1]. split; [reflexivity|]. split; [reflexivity|].
      assert (H0 : forall u, u = 0 \/ u = 1 -> y = 0 \/ y = 1 -> x <> u).
      { intros u Hu Hy' ->. apply (Hno 219). exists (mkKey 23 0 [0; 0]). split; [left; reflexivity|].
        destruct Hu as [->| ->], Hy' as [->| ->]; reflexivity. }
      assert (H2 : y = 0 \/ y = 1 -> x <> 2).
      { intros Hy' ->. apply (Hno 242). exists (mkKey 12 2 [2; 0]). split; [right; left; reflexivity|].
        destruct Hy' as [->| ->]; reflexivity. }
      assert (y = 2).
      { destruct Y as [Y|[Y|Y]]; [| |exact Y]; exfalso.
        - destruct X as [X|[X|X]]; [exact (H0 0 (or_introl eq_refl) (or_introl Y) X)|exact (H0 1 (or_intror eq_refl) (or_introl Y) X)|exact (H2 (or_introl Y) X)].
        - destruct X as [X|[X|X]]; [exact (H0 0 (or_introl eq_refl) (or_intror Y) X)|exact (H0 1 (or_intror eq_refl) (or_intror Y) X)|exact (H2 (or_intror Y) X)]. }
      subst y. destruct X as [->|[->| ->]]; vm_compute; reflexivity.
Qed.
Example C79_example :
  (forall d s, stored_stream d s -> inflate_stored s = Ok d) /\
  superblock_is zx_file 48 /\ object_is zx_file message_is 2 48 (FGroup zx_kids) /\ plain_names (FGroup zx_kids) /\
  NoDup (below (FGroup zx_kids)) /\ (2 <= List.length zx_file)%nat /\ zlen zx_file < 2 ^ 63 /\
  found_at (FGroup zx_kids) (components (bs "/")) (FGroup zx_kids) /\ In (bs "k", 97, FData [3; 3]) zx_kids /\
  filtered_at zx_file message_is 97 zx_filters [3; 3] (FInt 2 true false) (Chunked (Some 254) [2; 2] 2) (Some [255; 1]) /\
  filtered_as stored_stream zx_file zx_filters [3; 3] 2 (Some [255; 1]) (Chunked (Some 254) [2; 2] 2) vx_kdata /\
  array_is (in_global_heap zx_file) (FInt 2 true false) [3; 3] vx_kdata vx_kvals /\
  got_piped inflate_stored zx_file (bs "/") (bs "k") = Ok vx_kvals.
Proof.
  split; [exact inflates_stored|].
  split; [apply (gx_super_is _ 390); [unfold word; lia|vm_compute; congruence|here]|].
  split.
  { apply (is_group _ _ 2 0 1 48 zx_root [[]; [(bs "k", 97)]] []).
    + split; [lia|]. exists (HV2 false), zx_root. split.
      * apply gx_h2; [chunk2|reflexivity|here].
      * repeat (apply held_msg; [discriminate|]). apply held_nil.
    + lia.
    + apply Forall2_cons; [|apply Forall2_cons; [|apply Forall2_nil]].
      * right. right. split; [left; reflexivity|reflexivity].
      * left. split; [reflexivity|]. exists (bs "k"), 97. split; [|reflexivity]. exists 0, 0, 0, 0.
        split; [unfold word; lia|]. split; [unfold word; lia|]. split; [left; reflexivity|].
        split; [unfold word; lia|]. split; reflexivity.
    + right. exists ([0; 0] ++ le 8 undefined ++ le 8 undefined), undefined, undefined. split; [reflexivity|]. split.
      * exists 0, 0, 0, 0. unfold undefined. split; [unfold word; lia|]. split; [unfold word; lia|]. split; [unfold word; lia|].
        split; [unfold word; lia|]. split; [unfold word; lia|reflexivity].
      * left. split; reflexivity.
    + left. reflexivity.
    + discriminate.
    + apply Permutation_refl.
    + vm_compute. apply NoDup_cons; [intros []|apply NoDup_nil].
    + apply kids_cons; [|apply kids_nil].
      apply (is_data _ _ 1 0 97 (zx_k 254) ([2; 2; 0; 1] ++ le 8 3 ++ le 8 3) [3; 3] zx_header); [lia|exact zx_messages|reflexivity|exact vx_k_space|left; reflexivity]. }
  split; [apply plain_group; repeat (apply Forall_cons; [cbn [fst snd]; split; [split; [discriminate|intros [E|[]]; discriminate E]|apply plain_leaf; reflexivity]|]); apply Forall_nil|].
  split; [vm_compute; apply NoDup_cons; [intros []|apply NoDup_nil]|].
  split; [apply Nat.leb_le; vm_compute; reflexivity|]. split; [vm_compute; reflexivity|].
  split; [apply found_here|]. split; [left; reflexivity|]. split; [exact zx_at|]. split; [exact zx_stored|]. split; [exact zx_value|].
  vm_compute. reflexivity.
Qed.

(** ** What is false *)

(** Filters may be used in any order.  Data that are compressed first and then shuffled are cut at the size that the
    data have before the compression (hdf5.go:2545-2554, 2580). *)
Theorem C79_order_refuted : exists l d tr s,
  encoded stored_stream 0 0 l d tr s /\ Forall known_filter l /\ (forall n x, In (Shuffled n, x) tr -> (n | zlen x)) /\
  undoFilters inflate_stored (map (fun x => (fd_id x, fd_vals x)) l) (mkBlock 0 (zlen s) (zlen d) 0 [] None) s = Err EEOF.
Proof.
  exists [mkFilter 1 1 [] [6]; mkFilter 2 0 [] [13]], [1; 2], [(Deflated, [1; 2]); (Shuffled 13, zx_stream [1; 2])],
    (shuffle 13 (zx_stream [1; 2])).
  split.
  { apply (enc_deflate stored_stream 0 0 _ _ _ (zx_stream [1; 2])); [reflexivity|reflexivity|split; reflexivity|].
    apply (enc_shuffle stored_stream 0 (0 + 1) _ _ _ 13 []); [reflexivity|reflexivity|reflexivity|]. apply enc_end. }
  split; [repeat (apply Forall_cons; [unfold known_filter; cbn [fd_id]; lia|]); apply Forall_nil|].
  split; [|vm_compute; reflexivity].
  intros n x [E|[E|[]]]; [discriminate E|]. injection E as <- <-. exists 1. vm_compute. reflexivity.
Qed.
(** The same for a checksum before the compression, if there was one before that (2566-2574: the size that is
    left is the one of the data). *)
Theorem C79_checksum_refuted : exists l d tr s,
  encoded stored_stream 0 0 l d tr s /\ Forall known_filter l /\ (forall x, In (Checked, x) tr -> sum_plain x) /\
  undoFilters inflate_stored (map (fun x => (fd_id x, fd_vals x)) l) (mkBlock 0 (zlen s) (zlen d) 0 [] None) s <> Ok d.
Proof.
  exists [mkFilter 1 1 [] [6]; mkFilter 3 0 [] []; mkFilter 1 1 [] [6]], [1; 2],
    [(Deflated, [1; 2]); (Checked, zx_stream [1; 2]); (Deflated, checked (zx_stream [1; 2]))],
    (zx_stream (checked (zx_stream [1; 2]))).
  split.
  { apply (enc_deflate stored_stream 0 0 _ _ _ (zx_stream [1; 2])); [reflexivity|reflexivity|split; reflexivity|].
    apply enc_checksum; [reflexivity|reflexivity|apply small_bytes; vm_compute; reflexivity|].
    apply (enc_deflate stored_stream 0 (0 + 1 + 1) _ _ _ (zx_stream (checked (zx_stream [1; 2])))); [reflexivity|reflexivity|split; reflexivity|]. apply enc_end. }
  split; [repeat (apply Forall_cons; [unfold known_filter; cbn [fd_id]; lia|]); apply Forall_nil|].
  split; [|vm_compute; discriminate].
  intros x [E|[E|[E|[]]]]; try discriminate E. injection E as <-. split; vm_compute; discriminate.
Qed.

Print Assumptions C79_pipeline_partial.
Print Assumptions C79_variable_partial.
Print Assumptions C79_unfiltered.
Print Assumptions C79_example.
Print Assumptions C79_order_refuted.
Print Assumptions C79_checksum_refuted.
