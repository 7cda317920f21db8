(** C77: the values of the variables of files of other writers are read as they are stored. *)
From Coq Require Import Lia ZifyBool ZifyNat Permutation.
From Verif Require Import Prelude BaseLemmas GoVal ArraySpec H5Base H5ChecksumModel H5MetaWrite H5MetaRead H5Value H5TypeRead H5LayoutModel H5RecordModel ChunkSpec
  MetaSpec RecordSpec Lookup3Spec DenseSpec PathSpec ForeignSpec ForeignTypeSpec ForeignMsgSpec ForeignDataSpec ForeignValueSpec
  H5PathModel H5FileRead H5MetaProofs H5DenseRead H5DenseProofs P_H5Dense H5PathProofs H5ApiPath H5ApiProofs H5ForeignProofs H5ForeignTree H5ForeignOpen H5ForeignApi
  P_H5Foreign H5ForeignMsg H5ForeignType P_H5ForeignType H5ForeignValue H5ForeignData H5ForeignVar.

(** Data of any type are decoded to the value that they are: numbers of either byte order, strings,
    opaque data, references, enumerations, arrays, compounds with anything between the members, and strings and
    sequences whose data are in global heaps. *)
Theorem C77_value_partial f t dims b v r : zlen f < 2 ^ 63 -> array_is (in_global_heap f) t dims b v ->
  alloc (readGlobalHeap f) (H5ForeignType.told t) dims (b ++ r) = Ok (v, r).
Proof.
  intros Hf. apply value_read. intros addr idx data H. apply global_heap_read; assumption.
Qed.

Lemma dataset_weaken f (P Q : Z -> bytes -> Prop) a dims t p fill : (forall t b, P t b -> Q t b) ->
  dataset_at f P a dims t p fill -> dataset_at f Q a dims t p fill.
Proof.
  intros W (c & l & b & Hm & Hl & H1 & Hb & Ha & Hd). exists c, l, b. split; [exact Hm|]. split.
  - eapply Forall_impl; [|exact Hl]. cbn beta. intros m [H|[H|[H2 [H3|[H3 H4]]]]]; [left; exact H|right; left; exact H| |]; right; right.
    + split; [exact H2|left; exact H3].
    + split; [exact H2|right; split; [exact H3|apply W, H4]].
  - split; [exact H1|]. split; [exact Hb|]. split; [|exact Hd].
    destruct Ha as [H|(b' & heap & index & E & H2 & H3)]; [left; exact H|right]. exists b', heap, index. split; [exact E|]. split; [exact H2|].
    destruct H3 as [H3|(H3 & N & d & u & B & U & F)]; [left; exact H3|right]. split; [exact H3|]. exists N, d, u.
    split; [exact B|]. split; [exact U|]. eapply Forall_impl; [|exact F]. cbn beta.
    intros r (a' & b0 & G1 & G2 & G3 & G4 & G5). exists a', b0. split; [exact G1|]. split; [exact G2|]. split; [exact G3|]. split; [exact G4|apply W, G5].
Qed.
Lemma dataset_object f P n a dims t p fill : dataset_at f P a dims t p fill -> exists c, (c < n)%nat -> object_is f P n a (FData dims).
Proof.
  intros (c & l & b & Hm & Hl & H1 & Hb & Ha & Hd). exists c. intros Hc. exact (is_data f P n c a l b dims Hm Hc Hl H1 Hb Ha).
Qed.

(** A file of any tree of groups and datasets opens, and a variable that is in the tree as a dataset has the
    value that is stored: in the header, in one block, in chunks that need not all be there, or not at all.
    What else the call gives, names of dimensions and attributes, depends on the attributes: [with_attrs].
    Missing: filters; chunks of shapes that are not orderly (C24); compounds whose members are not declared in the
    order of their offsets; characters in two dimensions; the type before the layout; what is missing in C73 and C76. *)
Theorem C77_variable_partial f n root kids :
  superblock_is f root -> object_is f message_is n root (FGroup kids) -> plain_names (FGroup kids) ->
  NoDup (below (FGroup kids)) -> (n <= List.length f)%nat -> zlen f < 2 ^ 63 ->
  exists o, openFile f = Ok o /\ forall h0 path ks name a dims t p fill b v,
    absolute path = true -> found_at (FGroup kids) (components path) (FGroup ks) -> In (name, a, FData dims) ks ->
    dataset_at f message_is a dims t p fill -> Forall (fun n => n < 2 ^ 63) dims ->
    stored_as f dims (fsize t) fill p b -> array_is (in_global_heap f) t dims b v -> zlen b < 2 ^ 63 ->
    exists h, rgetGroup o h0 path = Ok h /\
      (In name (listVariables o h) ->
         (forall rv, getVariable f o h name = Ok rv -> rv_val rv = v) /\
         exists l, getVariable f o h name = with_attrs f o l v).
Proof.
  intros HS HO HN HB Hn Hf. pose proof (proj1 (object_weaken f message_is alone message_alone) n root (FGroup kids) HO) as HO'.
  destruct (file_opened f n root kids HS HO' HB Hn Hf) as (o & E & Hs).
  exists o. split; [exact E|]. intros h0 path ks name a dims t p fill b v Ha F Hi Hda Hdm Hst Hv Hb.
  pose proof (objects_distinct _ _ _ _ _ HO') as HD.
  rewrite (rgetGroup_follow o h0 path (or_introl Ha)). rewrite Ha.
  destruct (follow_found _ _ _ _ F ks o eq_refl Hs HD) as (g & Er & Hg). rewrite Er.
  eexists. split; [reflexivity|]. intros Hl.
  inversion Hg as [ks' i cs os G GD Hp Hk| |]; subst.
  destruct (in_shown _ _ _ _ Hp Hk _ _ _ Hi) as (ob & Ho & Hsh & Hc).
  match type of Hl with In _ (listVariables _ ?hh) => set (h := hh) in * end.
  assert (N : NoDup (map fst cs)).
  { apply (Permutation_NoDup (Permutation_sym (shown_keys _ _ _ _ Hp Hk))). apply (HD _ _ F). }
  pose proof (In_assoc _ _ _ N Ho) as Ea.
  assert (LV : listVariables o h = found h (map fst cs)).
  { apply (lv_on h (components path) eq_refl (components_clean path) (components path) o [] (RObj i cs)
             (shows_proper _ _ _ Hs HD HN) (Forall_nil _) eq_refl Er). }
  assert (FV : findVariable h name = Some ob).
  { rewrite LV in Hl. unfold found in Hl. apply in_flat_map in Hl. destruct Hl as (n' & _ & Hx).
    destruct (findVariable h n') as [o'|] eqn:Ef; [|destruct Hx]. destruct Hx as [->|[]].
    rewrite Ef. unfold findVariable in Ef. cbn [h rh_obj r_children] in Ef. rewrite Ea in Ef.
    destruct (isDimensionScale (r_attrs ob)); [discriminate|]. destruct (ri_dims (r_info ob)); [|discriminate]. symmetry. exact Ef. }
  pose proof (variable_value f o h name ob a dims t p fill b v Hf FV Hc (dataset_weaken _ _ _ _ _ _ _ _ message_alone Hda) Hdm Hst Hv Hb) as R.
  split; [|exists (r_attrs ob); exact R]. intros rv Hrv. rewrite R in Hrv. unfold with_attrs in Hrv.
  destruct (sortAttrList f (r_attrs ob)) as [l| |]; cbn [rbind] in Hrv; try discriminate.
  destruct (getDimensions f o l) as [ds| |]; cbn [rbind] in Hrv; try discriminate.
  destruct (getAttributes f l) as [at_| |]; cbn [rbind] in Hrv; try discriminate. injection Hrv as <-. reflexivity.
Qed.

(** ** A file: two compounds, of a number with its bytes in the other order and a string in a heap, with unused bytes
    between; and 3 by 3 numbers in chunks of 2 by 2, of which two are stored *)
Definition vx_ty : fty := FComp 24 [(bs "n", 2, [], FInt 2 true true); (bs "s", 8, [], FString (FText 1))].
Definition vx_tb : bytes :=
  dt_head 6 3 2 24 ++ (name_bytes 3 (bs "n") ++ le (offset_width 3 24) 2 ++ [] ++ i16be_v1 ++
  (name_bytes 3 (bs "s") ++ le (offset_width 3 24) 8 ++ [] ++ vstr_b ++ [])).
Definition vx_c : list fmsg := [fm 1 ([2; 1; 0; 1] ++ le 8 2); fm 3 vx_tb; fm 8 ([3; 1] ++ le 8 298 ++ le 8 48)].
Definition vx_k : list fmsg :=
  [fm 1 ([2; 2; 0; 1] ++ le 8 3 ++ le 8 3); fm 3 i16le_v1; fm 5 ex_fill; fm 8 ([3; 2; 3] ++ le 8 434 ++ flat_map (le 4) [2; 2] ++ le 4 2)].
Definition vx_root : list fmsg := [gx_info; gx_hard (bs "c") 113; gx_hard (bs "k") 208].
Definition vx_data : bytes :=
  ([9; 9] ++ int_bytes 2 true (-2) ++ [7; 7; 7; 7] ++ descriptor_of 3 346 1) ++
  ([8; 8] ++ int_bytes 2 true 259 ++ [6; 6; 6; 6] ++ descriptor_of 0 0 0).
Definition vx_objs : list (Z * bytes * bytes) := [(2, bs "other", zrep 3 1); (1, bs "abc", zrep 5 1)].
Definition vx_heap : bytes :=
  bs "GCOL" ++ [1; 0; 0; 0] ++ le 8 (16 + zlen (flat_map heap_object vx_objs ++ zrep 8 0)) ++ flat_map heap_object vx_objs ++ zrep 8 0.
Definition vx_chunk1 : bytes := flat_map (le 2) [1; 2; 4; 5].
Definition vx_chunk2 : bytes := flat_map (le 2) [7; 8; 99; 99].
Definition vx_es : list (key * Z) := [(mkKey 8 0 [0; 0], 418); (mkKey 8 0 [2; 0], 426)].
Definition vx_last : key := mkKey 0 0 [3; 3].
Definition vx_node : bytes := RecordSpec.node_bytes 0 (2 ^ 64 - 1) (2 ^ 64 - 1) vx_es vx_last.
Definition vx_file : bytes :=
  gx_super 570 ++ fx_head2 vx_root 0 ++ fx_head2 vx_c 0 ++ fx_head2 vx_k 0 ++ vx_data ++ vx_heap ++ vx_chunk1 ++ vx_chunk2 ++ vx_node.
Definition vx_kids : list (bytes * Z * ftree) := [(bs "c", 113, FData [2]); (bs "k", 208, FData [3; 3])].
Definition vx_cval (n : Z) (s : bytes) : hval := HComp [(bs "n", HNum I16 n); (bs "s", HStr s)].
Definition vx_cvals : hval := HSlice TComp [vx_cval (-2) (bs "abc"); vx_cval 259 []].
Definition row16 (l : list Z) : hval := HSlice (TNum I16) (map (HNum I16) l).
Definition vx_kvals : hval := HSlice (TSlice (TNum I16)) [row16 [1; 2; 511]; row16 [4; 5; 511]; row16 [7; 8; 511]].
Definition vx_kdata : bytes := flat_map (le 2) [1; 2; 511; 4; 5; 511; 7; 8; 511].
(** GetVariable, from the file on *)
Definition got_variable (f : bytes) (path name : bytes) : res hval :=
  let* o := openFile f in
  let* h := rgetGroup o (mkRh [47] o) path in
  let* v := getVariable f o h name in
  Ok (rv_val v).

Lemma vx_message ty b types : In ty types -> b <> [] -> message_is ty b -> ForeignSpec.plain message_is types (fm ty b).
Proof. intros H1 H2 H3. split; [exact H1|]. right. split; assumption. Qed.
Lemma vx_tb_is : type_is known_version vx_ty vx_tb.
Proof.
  apply (is_comp known_version 3 24); [kn|lia|reflexivity|].
  apply members_cons; [apply plain_name; reflexivity|lia|split; reflexivity| |].
  { apply (is_int known_version 1 2 true true); [kn|right; left; reflexivity]. }
  apply members_cons; [apply plain_name; reflexivity|lia|split; reflexivity| |apply members_nil].
  apply (is_string known_version 1 (FText 1) (dt_head 3 1 (0 + 16 * 0) 1) 0 1); [kn| |lia|lia].
  apply (is_text known_version 1 1 0 0); [kn|lia|lia|lia].
Qed.
Lemma vx_i16_is : type_is known_version (FInt 2 true false) i16le_v1.
Proof. apply (is_int known_version 1 2 true false); [kn|right; left; reflexivity]. Qed.
Lemma vx_place_c : place_is ([3; 1] ++ le 8 298 ++ le 8 48) (Contiguous (Some 298) 48).
Proof. apply (place_contiguous 3 (Some 298) 48); [left; reflexivity|cbn; unfold undefined; lia|unfold word; lia]. Qed.
Lemma vx_place_k : place_is ([3; 2; 3] ++ le 8 434 ++ flat_map (le 4) [2; 2] ++ le 4 2) (Chunked (Some 434) [2; 2] 2).
Proof. apply (place_chunked (Some 434) [2; 2] 2); [cbn; unfold undefined; lia|cbn; lia|apply words32; reflexivity|unfold word; lia]. Qed.
Lemma vx_padded ty b : message_body ty b -> message_is ty b.
Proof. intros H. exists b, 0. split; [symmetry; apply app_nil_r|exact H]. Qed.
Lemma vx_c_header : messages_are vx_file 0 113 vx_c.
Proof.
  split; [lia|]. exists (HV2 false), vx_c. split; [apply gx_h2; [chunk2|reflexivity|here]|].
    repeat (apply held_msg; [discriminate|]). apply held_nil.
Qed.
Lemma vx_c_messages : Forall (fun m => fm_type m = 1 \/ fm_type m = 21 \/ ForeignSpec.plain message_is [0; 3; 4; 5; 8; 11; 12; 13; 14; 18; 22] m) vx_c.
Proof.
  apply Forall_cons; [left; reflexivity|]. apply Forall_cons; [right; right|apply Forall_cons; [right; right|apply Forall_nil]].
    - apply vx_message; [right; left; reflexivity|discriminate|]. apply vx_padded. apply (body_type vx_ty); [exact vx_tb_is|cbn; lia|cbn; intuition discriminate].
    - apply vx_message; [do 4 right; left; reflexivity|discriminate|]. apply vx_padded. apply (body_place _ _ vx_place_c).
Qed.
Lemma vx_c_space : dataspace ([2; 1; 0; 1] ++ le 8 2) [2].
Proof.
  exists 0, [], 0. split; [unfold word; lia|]. split; [constructor; [unfold word; lia|constructor]|]. split; [constructor|].
    split; [reflexivity|]. split; [reflexivity|]. right. exists 1. split; [lia|reflexivity].
Qed.
Lemma vx_c_at : dataset_at vx_file message_is 113 [2] vx_ty (Contiguous (Some 298) 48) (Some (ForeignDataSpec.zeros 24)).
Proof.
  exists O, vx_c, ([2; 1; 0; 1] ++ le 8 2). split; [exact vx_c_header|]. split; [exact vx_c_messages|].
  split; [reflexivity|]. split; [exact vx_c_space|]. split; [left; reflexivity|].
  exists [fm 1 ([2; 1; 0; 1] ++ le 8 2); fm 3 vx_tb], [fm 8 ([3; 1] ++ le 8 298 ++ le 8 48)], vx_tb, 0, ([3; 1] ++ le 8 298 ++ le 8 48), 0.
  rewrite !app_nil_r. split; [reflexivity|]. split; [reflexivity|]. split; [reflexivity|]. split; [reflexivity|]. split; [reflexivity|].
  split; [reflexivity|]. split; [exact vx_tb_is|]. split; [cbn; lia|]. split; [cbn; intuition discriminate|]. split; [exact vx_place_c|].
  apply told_nothing; reflexivity.
Qed.
Lemma vx_fill : fill_is ex_fill (Fill [255; 1]).
Proof. apply (fill_v3 2 1 [255; 1]); [lia|lia|reflexivity]. Qed.
Lemma vx_k_header : messages_are vx_file 0 208 vx_k.
Proof.
  split; [lia|]. exists (HV2 false), vx_k. split; [apply gx_h2; [chunk2|reflexivity|here]|].
    repeat (apply held_msg; [discriminate|]). apply held_nil.
Qed.
Lemma vx_k_messages : Forall (fun m => fm_type m = 1 \/ fm_type m = 21 \/ ForeignSpec.plain message_is [0; 3; 4; 5; 8; 11; 12; 13; 14; 18; 22] m) vx_k.
Proof.
  apply Forall_cons; [left; reflexivity|]. apply Forall_cons; [right; right|apply Forall_cons; [right; right|apply Forall_cons; [right; right|apply Forall_nil]]].
    - apply vx_message; [right; left; reflexivity|discriminate|]. apply vx_padded. apply (body_type (FInt 2 true false)); [exact vx_i16_is|exact I|exact I].
    - apply vx_message; [do 3 right; left; reflexivity|discriminate|]. apply vx_padded. apply (body_fill _ _ vx_fill).
    - apply vx_message; [do 4 right; left; reflexivity|discriminate|]. apply vx_padded. apply (body_place _ _ vx_place_k).
Qed.
Lemma vx_k_space : dataspace ([2; 2; 0; 1] ++ le 8 3 ++ le 8 3) [3; 3].
Proof.
  exists 0, [], 0. split; [unfold word; lia|]. split; [constructor; [unfold word; lia|constructor; [unfold word; lia|constructor]]|]. split; [constructor|].
    split; [reflexivity|]. split; [reflexivity|]. right. exists 1. split; [lia|reflexivity].
Qed.
Lemma vx_k_at : dataset_at vx_file message_is 208 [3; 3] (FInt 2 true false) (Chunked (Some 434) [2; 2] 2) (Some [255; 1]).
Proof.
  exists O, vx_k, ([2; 2; 0; 1] ++ le 8 3 ++ le 8 3). split; [exact vx_k_header|]. split; [exact vx_k_messages|].
  split; [reflexivity|]. split; [exact vx_k_space|]. split; [left; reflexivity|].
  exists [fm 1 ([2; 2; 0; 1] ++ le 8 3 ++ le 8 3); fm 3 i16le_v1; fm 5 ex_fill], [fm 8 ([3; 2; 3] ++ le 8 434 ++ flat_map (le 4) [2; 2] ++ le 4 2)],
    i16le_v1, 0, ([3; 2; 3] ++ le 8 434 ++ flat_map (le 4) [2; 2] ++ le 4 2), 0.
  rewrite !app_nil_r. split; [reflexivity|]. split; [reflexivity|]. split; [reflexivity|]. split; [reflexivity|]. split; [reflexivity|].
  split; [reflexivity|]. split; [exact vx_i16_is|]. split; [exact I|]. split; [exact I|]. split; [exact vx_place_k|].
  apply (told_new _ _ ex_fill 0 [255; 1]); [reflexivity|exact vx_fill|reflexivity].
Qed.
(** Of a dataset whose fill value is undefined, what is not stored is the fill value of netCDF. *)
Example C77_example_undefined : fill_told [fm 5 [3; 2 + 4 * 1 + 16]] (FInt 2 true false) (Some [1; 128]) /\
  filled [2] 2 (Some [1; 128]) [1; 128; 1; 128] /\
  readFillValue [3; 2 + 4 * 1 + 16] = Ok (Some None, []) /\
  undefinedFill (DFixed 2 true false) = [1; 128].
Proof.
  split; [|split; [|split; reflexivity]].
  - apply (told_none _ (FInt 2 true false) [3; 2 + 4 * 1 + 16] 0); [reflexivity|]. apply (fill_v3_none 2 1); lia.
  - exists [1; 128]. repeat split. intros i Hi. cbn [volume] in Hi. assert (i = 0 \/ i = 1) as [-> | ->] by lia; reflexivity.
Qed.
Lemma vx_c_value : array_is (in_global_heap vx_file) vx_ty [2] vx_data vx_cvals.
Proof.
  unfold vx_data, vx_cvals. change [2] with (zlen [vx_cval (-2) (bs "abc"); vx_cval 259 []] :: []).
  apply (value_rows (in_global_heap vx_file) vx_ty []); [reflexivity|exact I|discriminate|].
  assert (C : forall g1 g2 n d s, zlen g1 = 2 -> zlen g2 = 4 -> zlen d = 16 -> - 2 ^ 15 <= n < 2 ^ 15 -> array_is (in_global_heap vx_file) (FString (FText 1)) [] d (HStr s) ->
    array_is (in_global_heap vx_file) vx_ty [] (g1 ++ int_bytes 2 true n ++ g2 ++ d) (vx_cval n s)).
  { intros g1 g2 n d s H1 H2 H3 H4 H5. apply value_comp; [lia|].
    apply fields_cons; [lia|apply (value_int _ 2 true true n); [right; left; reflexivity|exact H4]|].
    change (2 + zlen (int_bytes 2 true n)) with 4. rewrite <- (app_nil_r d).
    apply fields_cons; [lia|exact H5|]. apply fields_nil. rewrite H3. reflexivity. }
  rewrite <- (app_nil_r ([8; 8] ++ _)).
  apply rows_cons; [|apply rows_cons; [|apply rows_nil]].
  - apply C; [reflexivity|reflexivity|reflexivity|lia|].
    apply (value_string _ (FText 1) 346 1 (bs "abc")); [unfold word; lia|unfold word; lia| |split; reflexivity].
    exists vx_objs, (zrep 5 1). split; [|split; [right; left; reflexivity|discriminate]].
    exists (zrep 8 0). split.
    { apply Forall_cons; [|apply Forall_cons; [|apply Forall_nil]]; (split; [lia|split; reflexivity]). }
    split; [apply NoDup_cons; [cbn; lia|apply NoDup_cons; [intros []|apply NoDup_nil]]|]. split; [left; reflexivity|here].
  - apply C; [reflexivity|reflexivity|reflexivity|lia|].
    apply (value_no_string _ (FText 1) 0 0); unfold word; lia.
Qed.
Lemma vx_i16_array l : Forall (fun z => - 2 ^ 15 <= z < 2 ^ 15) l ->
  array_is (in_global_heap vx_file) (FInt 2 true false) [zlen l] (flat_map (le 2) l) (row16 l).
Proof.
  intros H. unfold row16. rewrite <- (zlen_map (HNum I16) l). apply (value_rows _ (FInt 2 true false) []); [reflexivity|right; left; reflexivity|discriminate|].
  induction H as [|z l Hz H IH]; [apply rows_nil|]. cbn [flat_map map]. apply rows_cons; [|exact IH].
  apply (value_int _ 2 true false z); [right; left; reflexivity|exact Hz].
Qed.
Lemma vx_k_value : array_is (in_global_heap vx_file) (FInt 2 true false) [3; 3] vx_kdata vx_kvals.
Proof.
  unfold vx_kvals. change [3; 3] with (zlen [row16 [1; 2; 511]; row16 [4; 5; 511]; row16 [7; 8; 511]] :: [3]).
  apply (value_rows _ (FInt 2 true false) [3]); [reflexivity|right; left; reflexivity|discriminate|].
  change vx_kdata with (flat_map (le 2) [1; 2; 511] ++ flat_map (le 2) [4; 5; 511] ++ flat_map (le 2) [7; 8; 511] ++ []).
  repeat (apply rows_cons; [match goal with |- array_is _ _ _ (flat_map _ ?l) _ => apply (vx_i16_array l) end; repeat constructor; lia|]). apply rows_nil.
Qed.
Lemma vx_c_stored : stored_as vx_file [2] 24 (Some (ForeignDataSpec.zeros 24)) (Contiguous (Some 298) 48) vx_data.
Proof. apply (as_contiguous vx_file [2] 24 _ 298 vx_data). here. Qed.
Lemma vx_k_stored : stored_as vx_file [3; 3] 2 (Some [255; 1]) (Chunked (Some 434) [2; 2] 2) vx_kdata.
Proof.
  apply (as_chunks vx_file [3; 3] 2 _ 434 [2; 2] (ILeaf vx_es vx_last)).
  - split; [reflexivity|]. split; [discriminate|]. split; [repeat constructor; lia|]. split; [repeat constructor; lia|]. split; reflexivity.
  - apply (ord_whole 3 2 [] [] 3 2). constructor.
  - split; [lia|]. split.
    { apply (stored_leaf vx_file 2 true 434 (2 ^ 64 - 1) (2 ^ 64 - 1)).
      - intros _. split; reflexivity.
      - split; [reflexivity|]. split; [split; [discriminate|reflexivity]|]. split; [split; [discriminate|reflexivity]|].
        split; [repeat constructor; (discriminate || reflexivity)|repeat constructor; (discriminate || reflexivity)].
      - here. }
    split; [constructor; repeat constructor; (discriminate || reflexivity)|]. split; [apply le_n_S, Nat.le_0_l|].
    vm_compute. apply NoDup_cons; [intros [E|[]]; discriminate E|apply NoDup_cons; [intros []|apply NoDup_nil]].
  - split; [|split; [reflexivity|]].
    { apply Forall_cons; [|apply Forall_cons; [|apply Forall_nil]]; (split; [reflexivity|]); split; vm_compute; congruence. }
    intros idx I. inversion I as [|? x ? r Hx I1]; subst. inversion I1 as [|? y ? r' Hy I2]; subst. inversion I2; subst.
    assert (X : x = 0 \/ x = 1 \/ x = 2) by lia. assert (Y : y = 0 \/ y = 1 \/ y = 2) by lia.
    split.
    + intros addr (k & Hk & Ek). destruct Hk as [Hk|[Hk|[]]]; injection Hk as <- <-.
      * destruct X as [->|[->| ->]], Y as [->|[->| ->]]; try discriminate Ek; here.
      * destruct X as [->|[->| ->]], Y as [->|[->| ->]]; try discriminate Ek; here.
    + intros Hno. exists [255; 1]. split; [reflexivity|]. split; [reflexivity|].
      destruct Y as [->|[->| ->]].
      * exfalso. destruct X as [->|[->| ->]].
        { apply (Hno 418). exists (mkKey 8 0 [0; 0]). split; [left; reflexivity|reflexivity]. }
        { apply (Hno 418). exists (mkKey 8 0 [0; 0]). split; [left; reflexivity|reflexivity]. }
        { apply (Hno 426). exists (mkKey 8 0 [2; 0]). split; [right; left; reflexivity|reflexivity]. }
      * exfalso. destruct X as [->|[->| ->]].
        { apply (Hno 418). exists (mkKey 8 0 [0; 0]). split; [left; reflexivity|reflexivity]. }
        { apply (Hno 418). exists (mkKey 8 0 [0; 0]). split; [left; reflexivity|reflexivity]. }
        { apply (Hno 426). exists (mkKey 8 0 [2; 0]). split; [right; left; reflexivity|reflexivity]. }
      * destruct X as [->|[->| ->]]; vm_compute; reflexivity.
Qed.
Example C77_example :
  superblock_is vx_file 48 /\ object_is vx_file message_is 2 48 (FGroup vx_kids) /\ plain_names (FGroup vx_kids) /\
  NoDup (below (FGroup vx_kids)) /\ (2 <= List.length vx_file)%nat /\ zlen vx_file < 2 ^ 63 /\
  found_at (FGroup vx_kids) (components (bs "/")) (FGroup vx_kids) /\
  In (bs "c", 113, FData [2]) vx_kids /\ dataset_at vx_file message_is 113 [2] vx_ty (Contiguous (Some 298) 48) (Some (ForeignDataSpec.zeros 24)) /\
  stored_as vx_file [2] (fsize vx_ty) (Some (ForeignDataSpec.zeros 24)) (Contiguous (Some 298) 48) vx_data /\
  array_is (in_global_heap vx_file) vx_ty [2] vx_data vx_cvals /\
  In (bs "k", 208, FData [3; 3]) vx_kids /\ dataset_at vx_file message_is 208 [3; 3] (FInt 2 true false) (Chunked (Some 434) [2; 2] 2) (Some [255; 1]) /\
  stored_as vx_file [3; 3] 2 (Some [255; 1]) (Chunked (Some 434) [2; 2] 2) vx_kdata /\
  array_is (in_global_heap vx_file) (FInt 2 true false) [3; 3] vx_kdata vx_kvals /\
  P_H5Foreign.told vx_file (bs "/") = Ok ([], [bs "c"; bs "k"], []) /\
  got_variable vx_file (bs "/") (bs "c") = Ok vx_cvals /\ got_variable vx_file (bs "/") (bs "k") = Ok vx_kvals.
Proof.
  split; [apply (gx_super_is _ 570); [unfold word; lia|vm_compute; congruence|here]|].
  split.
  { apply (is_group _ _ 2 0 1 48 vx_root [[]; [(bs "c", 113)]; [(bs "k", 208)]] []).
    + split; [lia|]. exists (HV2 false), vx_root. split.
      * apply gx_h2; [chunk2|reflexivity|here].
      * repeat (apply held_msg; [discriminate|]). apply held_nil.
    + lia.
    + apply Forall2_cons; [|apply Forall2_cons; [|apply Forall2_cons; [|apply Forall2_nil]]].
      * right. right. split; [left; reflexivity|reflexivity].
      * left. split; [reflexivity|]. exists (bs "c"), 113. split; [|reflexivity]. exists 0, 0, 0, 0.
        split; [unfold word; lia|]. split; [unfold word; lia|]. split; [left; reflexivity|].
        split; [unfold word; lia|]. split; reflexivity.
      * left. split; [reflexivity|]. exists (bs "k"), 208. split; [|reflexivity]. exists 0, 0, 0, 0.
        split; [unfold word; lia|]. split; [unfold word; lia|]. split; [left; reflexivity|].
        split; [unfold word; lia|]. split; reflexivity.
    + right. exists ([0; 0] ++ le 8 undefined ++ le 8 undefined), undefined, undefined. split; [reflexivity|]. split.
      * exists 0, 0, 0, 0. unfold undefined. split; [unfold word; lia|]. split; [unfold word; lia|]. split; [unfold word; lia|].
        split; [unfold word; lia|]. split; [unfold word; lia|reflexivity].
      * left. split; reflexivity.
    + left. reflexivity.
    + discriminate.
    + apply Permutation_refl.
    + vm_compute. apply NoDup_cons; [intros [E|[]]; discriminate E|apply NoDup_cons; [intros []|apply NoDup_nil]].
    + apply kids_cons; [|apply kids_cons; [|apply kids_nil]].
      * apply (is_data _ _ 1 0 113 vx_c ([2; 1; 0; 1] ++ le 8 2) [2] vx_c_header); [lia|exact vx_c_messages|reflexivity|exact vx_c_space|left; reflexivity].
      * apply (is_data _ _ 1 0 208 vx_k ([2; 2; 0; 1] ++ le 8 3 ++ le 8 3) [3; 3] vx_k_header); [lia|exact vx_k_messages|reflexivity|exact vx_k_space|left; reflexivity]. }
  split; [apply plain_group; repeat (apply Forall_cons; [cbn [fst snd]; split; [split; [discriminate|intros [E|[]]; discriminate E]|apply plain_leaf; reflexivity]|]); apply Forall_nil|].
  split; [vm_compute; apply NoDup_cons; [intros [E|[]]; discriminate E|apply NoDup_cons; [intros []|apply NoDup_nil]]|].
  split; [apply Nat.leb_le; vm_compute; reflexivity|]. split; [vm_compute; reflexivity|].
  split; [apply found_here|].
  split; [left; reflexivity|]. split; [exact vx_c_at|]. split; [exact vx_c_stored|]. split; [exact vx_c_value|].
  split; [right; left; reflexivity|]. split; [exact vx_k_at|]. split; [exact vx_k_stored|]. split; [exact vx_k_value|].
  split; [vm_compute; reflexivity|]. split; vm_compute; reflexivity.
Qed.

(** ** What is false *)

(** The members of a compound may be declared in any order (IV.A.2.d, class 6: each has its own byte offset); they are
    read in the order of the declaration without going back (compound.go:172-195). *)
Theorem C77_order_refuted : exists f n ms tb b,
  type_is known_version (FComp n ms) tb /\
  Forall (fun m => match m with (_, off, _, t) => exists v, array_is (in_global_heap f) t [] (ztake (fsize t) (zdrop off b)) v end) ms /\
  zlen b = n /\ alloc (readGlobalHeap f) (H5ForeignType.told (FComp n ms)) [] b = Err EEOF.
Proof.
  exists [], 4, [(bs "b", 2, [], FInt 2 true false); (bs "a", 0, [], FInt 2 true false)],
    (dt_head 6 3 2 4 ++ (name_bytes 3 (bs "b") ++ le (offset_width 3 4) 2 ++ [] ++ i16le_v1 ++ (name_bytes 3 (bs "a") ++ le (offset_width 3 4) 0 ++ [] ++ i16le_v1 ++ []))),
    (le 2 1 ++ le 2 2).
  split; [|split; [|split; [reflexivity|vm_compute; reflexivity]]].
  - apply (is_comp known_version 3 4); [kn|lia|reflexivity|].
    apply members_cons; [apply plain_name; reflexivity|lia|split; reflexivity|exact vx_i16_is|].
    apply members_cons; [apply plain_name; reflexivity|lia|split; reflexivity|exact vx_i16_is|apply members_nil].
  - apply Forall_cons; [|apply Forall_cons; [|apply Forall_nil]].
    + exists (HNum I16 2). apply (value_int _ 2 true false 2); [right; left; reflexivity|cbn; lia].
    + exists (HNum I16 1). apply (value_int _ 2 true false 1); [right; left; reflexivity|cbn; lia].
Qed.

(** The format does not fix the order of the messages in a header.  Where the datatype of a chunked dataset comes after the
    layout, the shape of the chunks is forgotten (hdf5.go:1966-1977) and the chunks are taken for runs of elements. *)
Definition vx_k2 : list fmsg := [fm 1 ([2; 2; 0; 1] ++ le 8 3 ++ le 8 3);
  fm 8 ([3; 2; 3] ++ le 8 434 ++ flat_map (le 4) [2; 2] ++ le 4 2); fm 5 ex_fill; fm 3 i16le_v1].
Definition vx_file2 : bytes :=
  gx_super 570 ++ fx_head2 vx_root 0 ++ fx_head2 vx_c 0 ++ fx_head2 vx_k2 0 ++ vx_data ++ vx_heap ++ vx_chunk1 ++ vx_chunk2 ++ vx_node.
Lemma vx_k2_stored : stored_as vx_file2 [3; 3] 2 (Some [255; 1]) (Chunked (Some 434) [2; 2] 2) vx_kdata.
Proof.
  apply (as_chunks vx_file2 [3; 3] 2 _ 434 [2; 2] (ILeaf vx_es vx_last)).
  - split; [reflexivity|]. split; [discriminate|]. split; [repeat constructor; lia|]. split; [repeat constructor; lia|]. split; reflexivity.
  - apply (ord_whole 3 2 [] [] 3 2). constructor.
  - split; [lia|]. split.
    { apply (stored_leaf vx_file2 2 true 434 (2 ^ 64 - 1) (2 ^ 64 - 1)).
      - intros _. split; reflexivity.
      - split; [reflexivity|]. split; [split; [discriminate|reflexivity]|]. split; [split; [discriminate|reflexivity]|].
        split; [repeat constructor; (discriminate || reflexivity)|repeat constructor; (discriminate || reflexivity)].
      - here. }
    split; [constructor; repeat constructor; (discriminate || reflexivity)|]. split; [apply le_n_S, Nat.le_0_l|].
    vm_compute. apply NoDup_cons; [intros [E|[]]; discriminate E|apply NoDup_cons; [intros []|apply NoDup_nil]].
  - split; [|split; [reflexivity|]].
    { apply Forall_cons; [|apply Forall_cons; [|apply Forall_nil]]; (split; [reflexivity|]); split; vm_compute; congruence. }
    intros idx I. inversion I as [|? x ? r Hx I1]; subst. inversion I1 as [|? y ? r' Hy I2]; subst. inversion I2; subst.
    assert (X : x = 0 \/ x = 1 \/ x = 2) by lia. assert (Y : y = 0 \/ y = 1 \/ y = 2) by lia.
    split.
    + intros addr (k & Hk & Ek). destruct Hk as [Hk|[Hk|[]]]; injection Hk as <- <-.
      * destruct X as [->|[->| ->]], Y as [->|[->| ->]]; try discriminate Ek; here.
      * destruct X as [->|[->| ->]], Y as [->|[->| ->]]; try discriminate Ek; here.
    + intros Hno. exists [255; 1]. split; [reflexivity|]. split; [reflexivity|].
      destruct Y as [->|[->| ->]].
      * exfalso. destruct X as [->|[->| ->]].
        { apply (Hno 418). exists (mkKey 8 0 [0; 0]). split; [left; reflexivity|reflexivity]. }
        { apply (Hno 418). exists (mkKey 8 0 [0; 0]). split; [left; reflexivity|reflexivity]. }
        { apply (Hno 426). exists (mkKey 8 0 [2; 0]). split; [right; left; reflexivity|reflexivity]. }
      * exfalso. destruct X as [->|[->| ->]].
        { apply (Hno 418). exists (mkKey 8 0 [0; 0]). split; [left; reflexivity|reflexivity]. }
        { apply (Hno 418). exists (mkKey 8 0 [0; 0]). split; [left; reflexivity|reflexivity]. }
        { apply (Hno 426). exists (mkKey 8 0 [2; 0]). split; [right; left; reflexivity|reflexivity]. }
      * destruct X as [->|[->| ->]]; vm_compute; reflexivity.
Qed.
Theorem C77_message_order_refuted :
  Permutation vx_k2 vx_k /\ messages_are vx_file2 0 208 vx_k2 /\ messages_are vx_file 0 208 vx_k /\
  stored_as vx_file2 [3; 3] 2 (Some [255; 1]) (Chunked (Some 434) [2; 2] 2) vx_kdata /\
  got_variable vx_file (bs "/") (bs "k") = Ok vx_kvals /\
  exists v, got_variable vx_file2 (bs "/") (bs "k") = Ok v /\ v <> vx_kvals.
Proof.
  split; [unfold vx_k2, vx_k; apply perm_skip; eapply perm_trans; [apply perm_swap|]; eapply perm_trans; [apply perm_skip, perm_swap|]; eapply perm_trans; [apply perm_swap|apply Permutation_refl]|].
  split. { split; [lia|]. exists (HV2 false), vx_k2. split; [apply gx_h2; [chunk2|reflexivity|here]|]. repeat (apply held_msg; [discriminate|]). apply held_nil. }
  split; [exact vx_k_header|]. split; [exact vx_k2_stored|]. split; [vm_compute; reflexivity|].
  eexists. split; [vm_compute; reflexivity|]. vm_compute. discriminate.
Qed.

(** Characters in two dimensions are not read (string.go:51-87). *)
Theorem C77_characters_refuted : exists f b, zlen b = volume [2; 2] * fsize (FText 1) /\
  type_is known_version (FText 1) (dt_head 3 1 (0 + 16 * 0) 1) /\
  alloc (readGlobalHeap f) (H5ForeignType.told (FText 1)) [2; 2] b = Panic.
Proof.
  exists [], (bs "abcd"). split; [reflexivity|]. split; [apply (is_text known_version 1 1 0 0); [kn|lia|lia|lia]|vm_compute; reflexivity].
Qed.

(** An empty sequence of opaque values, of compounds, or of sequences has another Go type than one that is not empty,
    and an array of no sequences is not read (vlen.go:171-250). *)
Theorem C77_empty_refuted : exists f,
  alloc (readGlobalHeap f) (H5ForeignType.told (FSeq (FOpaque 2))) [] (descriptor_of 0 0 0) = Ok (HSlice (TNum U8) [], []) /\
  alloc (readGlobalHeap f) (H5ForeignType.told (FSeq (FSeq (FInt 2 true false)))) [] (descriptor_of 0 0 0) = Ok (HSlice (TNum I16) [], []) /\
  go_type_of (FOpaque 2) [] <> TNum U8 /\ go_type_of (FSeq (FInt 2 true false)) [] <> TNum I16 /\
  alloc (readGlobalHeap f) (H5ForeignType.told (FSeq (FInt 2 true false))) [0] [] = Panic.
Proof.
  exists []. split; [vm_compute; reflexivity|]. split; [vm_compute; reflexivity|]. split; [discriminate|]. split; [discriminate|vm_compute; reflexivity].
Qed.

(** A reference count that is not zero makes a heap unreadable (hdf5.go:1172); III.E says only that it counts links to the object. *)
Theorem C77_reference_count_refuted : exists f i data,
  has_at f 0 (bs "GCOL" ++ [1; 0; 0; 0] ++ le 8 40 ++ le 2 i ++ le 2 1 ++ le 4 0 ++ le 8 (zlen data) ++ data ++ zrep 5 0) /\
  0 < i < 2 ^ 16 /\ readGlobalHeap f 0 i = Err EInternal.
Proof.
  exists (bs "GCOL" ++ [1; 0; 0; 0] ++ le 8 40 ++ le 2 1 ++ le 2 1 ++ le 4 0 ++ le 8 3 ++ bs "abc" ++ zrep 5 0), 1, (bs "abc").
  split; [here|]. split; [lia|vm_compute; reflexivity].
Qed.

Print Assumptions C77_value_partial.
Print Assumptions C77_variable_partial.
Print Assumptions C77_example.
Print Assumptions C77_order_refuted.
Print Assumptions C77_message_order_refuted.
Print Assumptions C77_characters_refuted.
Print Assumptions C77_empty_refuted.
Print Assumptions C77_reference_count_refuted.
