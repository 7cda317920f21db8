(** C78: the attributes of groups and variables and the names of dimensions in files of other writers. *)
From Coq Require Import Lia ZifyBool ZifyNat Permutation.
From Verif Require Import Prelude BaseLemmas GoVal OrderedMapModel ArraySpec H5Base H5ChecksumModel H5MetaWrite H5MetaRead H5Value H5TypeRead H5LayoutModel H5RecordModel
  MetaSpec RecordSpec Lookup3Spec DenseSpec PathSpec ForeignSpec ForeignTypeSpec ForeignMsgSpec ForeignDataSpec ForeignValueSpec ForeignAttrSpec
  H5PathModel H5FileRead H5MetaProofs H5DenseRead H5DenseProofs P_H5Dense H5PathProofs H5ApiPath H5ApiProofs H5ForeignProofs H5ForeignTree H5ForeignOpen H5ForeignApi
  P_H5Foreign H5ForeignMsg H5ForeignType P_H5ForeignType H5ForeignValue H5ForeignData H5ForeignVar P_H5ForeignValue H5ForeignAttr.

(** A file of any tree of groups and datasets, with any attributes in the headers of the objects or outside of them,
    opens, and a group has the attributes that are stored: all of their names but those for bookkeeping, once each, and
    their values.  Missing: arrays of text and opaque attributes without a tag; attributes of one element that are not of one dimension
    of length 1; the order of the names; what is missing in C73 and C76. *)
Theorem C78_group_partial f n root kids :
  superblock_is f root -> object_is f (with_values f) n root (FGroup kids) -> plain_names (FGroup kids) ->
  NoDup (below (FGroup kids)) -> (n <= List.length f)%nat -> zlen f < 2 ^ 63 ->
  exists o, openFile f = Ok o /\ forall h0 path a ks attrs,
    absolute path = true -> located root (FGroup kids) (components path) a (FGroup ks) ->
    group_with f (with_values f) n a ks attrs -> attrs_plain attrs ->
    exists h m, rgetGroup o h0 path = Ok h /\ groupAttributes f h = Ok m /\ attributes_got attrs (om_keys_visible m) (om_get m).
Proof.
  intros HS HO HN HB Hn Hf. destruct (root_known f n root kids HS HO HB Hn Hf) as (o & E & Hs & K).
  exists o. split; [exact E|]. intros h0 path a ks attrs Ha L HG Hp.
  pose proof (proj1 (object_weaken f (with_values f) alone (values_alone f)) n root (FGroup kids) HO) as HO'.
  pose proof (objects_distinct _ _ _ _ _ HO') as HD.
  rewrite (rgetGroup_follow o h0 path (or_introl Ha)). rewrite Ha.
  destruct (located_came f _ _ _ _ _ L ks o eq_refl Hs HD) as (g & Er & W). rewrite Er.
  assert (T : tells f attrs g).
  { destruct W as [(Ep & -> & ->)|(name & Hc)]; [|exact (group_tells f n a ks attrs name g Hf HG Hc)].
    rewrite Ep in L. inversion L; subst.
    destruct (root_tells f n _ _ attrs Hf Hn HS HB HG) as (o' & E' & T). rewrite E in E'. injection E' as <-. exact T. }
  destruct (tells_sorted f attrs g T) as (attrs' & al & E1 & HP & G).
  assert (Hh : Forall (fun x => exists b, attribute_holds f b x) attrs).
  { destruct HG as (c & k & l & ls & stored & _ & _ & _ & _ & HA & _). exact (attributes_held f _ l attrs HA). }
  destruct (attributes_given f attrs attrs' al Hp Hh HP G) as (m & E2 & GA).
  eexists. exists m. split; [reflexivity|]. split; [|exact GA]. unfold groupAttributes. cbn [rh_obj]. rewrite E1. exact E2.
Qed.

(** So has a variable, and it has the names of the dimensions that its attributes tell; a dataset is a variable
    if it is not a scale without values, and a dimension if it is a scale.  Missing: what is missing in C77. *)
Theorem C78_variable_partial f n root kids :
  superblock_is f root -> object_is f (with_values f) n root (FGroup kids) -> plain_names (FGroup kids) ->
  NoDup (below (FGroup kids)) -> (n <= List.length f)%nat -> zlen f < 2 ^ 63 ->
  exists o, openFile f = Ok o /\ forall h0 path ks name a dims t p fill attrs b v names,
    absolute path = true -> found_at (FGroup kids) (components path) (FGroup ks) -> In (name, a, FData dims) ks ->
    dataset_with f (with_values f) a dims t p fill attrs -> Forall (fun n => n < 2 ^ 63) dims ->
    stored_as f dims (fsize t) fill p b -> array_is (in_global_heap f) t dims b v -> zlen b < 2 ^ 63 ->
    exists h, rgetGroup o h0 path = Ok h /\
      (In name (listVariables o h) <-> ~ is_bare attrs) /\
      (In name (listDimensions h) <-> is_scale attrs) /\
      (~ is_bare attrs -> attrs_plain attrs -> dimensions_are (FGroup kids) attrs names ->
         exists m, getVariable f o h name = Ok (mkRvar v names m) /\ attributes_got attrs (om_keys_visible m) (om_get m)).
Proof.
  intros HS HO HN HB Hn Hf. destruct (root_known f n root kids HS HO HB Hn Hf) as (o & E & Hs & K).
  exists o. split; [exact E|]. intros h0 path ks name a dims t p fill attrs b v names Ha F Hi Hda Hdm Hst Hv Hb.
  pose proof (proj1 (object_weaken f (with_values f) alone (values_alone f)) n root (FGroup kids) HO) as HO'.
  pose proof (objects_distinct _ _ _ _ _ HO') as HD.
  rewrite (rgetGroup_follow o h0 path (or_introl Ha)). rewrite Ha.
  destruct (follow_found _ _ _ _ F ks o eq_refl Hs HD) as (g & Er & Hg). rewrite Er.
  eexists. split; [reflexivity|].
  inversion Hg as [ks' i cs os G GD Hp Hk| |]; subst.
  destruct (in_shown _ _ _ _ Hp Hk _ _ _ Hi) as (ob & Ho & Hsh & Hc).
  match goal with |- context [listVariables _ ?hh] => set (h := hh) in * end.
  assert (N : NoDup (map fst cs)).
  { apply (Permutation_NoDup (Permutation_sym (shown_keys _ _ _ _ Hp Hk))). apply (HD _ _ F). }
  pose proof (In_assoc _ _ _ N Ho) as Ea.
  assert (LV : listVariables o h = found h (map fst cs)).
  { apply (lv_on h (components path) eq_refl (components_clean path) (components path) o [] (RObj i cs)
             (shows_proper _ _ _ Hs HD HN) (Forall_nil _) eq_refl Er). }
  pose proof (dataset_tells f a dims t p fill attrs name ob Hf Hda Hc) as T.
  inversion Hsh as [|ds i' G' D'|]; subst. cbn [r_info] in *.
  assert (FB : findVariable h name = if isDimensionScale (ri_attrs i') then None else Some (RObj i' [])).
  { unfold findVariable. cbn [h rh_obj r_children]. rewrite Ea. unfold r_attrs. cbn [r_info]. rewrite D'. reflexivity. }
  pose proof (tells_bare f attrs _ T) as TB. unfold r_attrs in TB. cbn [r_info] in TB.
  split; [|split].
  - rewrite LV. unfold found. rewrite in_flat_map, <- TB. split.
    + intros (n' & _ & Hx). destruct (findVariable h n') as [o'|] eqn:Ef; [|destruct Hx]. destruct Hx as [->|[]].
      rewrite Ef in FB. destruct (isDimensionScale (ri_attrs i')); [discriminate|congruence].
    + intros Hx. exists name. split; [apply (in_map fst _ _ Ho)|]. rewrite FB. destruct (isDimensionScale (ri_attrs i')); [elim Hx; reflexivity|left; reflexivity].
  - rewrite <- (tells_scale f attrs _ T G'). unfold listDimensions. cbn [h rh_obj r_children]. rewrite in_flat_map. split.
    + intros ((n' & o') & Ho' & Hx). cbn [fst snd] in Hx. destruct (isDimension o') eqn:Ed; [|destruct Hx]. destruct Hx as [->|[]].
      pose proof (In_assoc _ _ _ N Ho') as Ea'. rewrite Ea in Ea'. injection Ea' as <-. exact Ed.
    + intros Hd. exists (name, RObj i' []). split; [exact Ho|]. cbn [fst snd]. rewrite Hd. left. reflexivity.
  - intros Hnb Hpl Hdi. assert (FV : findVariable h name = Some (RObj i' [])).
    { rewrite FB. destruct (isDimensionScale (ri_attrs i')) eqn:Eb; [|reflexivity]. elim Hnb. apply TB. reflexivity. }
    rewrite (variable_value f o h name _ a dims t p fill b v Hf FV Hc
               (dataset_weaken _ _ _ _ _ _ _ _ (values_alone f) (dataset_without _ _ _ _ _ _ _ _ Hda)) Hdm Hst Hv Hb).
    unfold with_attrs. destruct (tells_sorted f attrs _ T) as (attrs' & al & E1 & HP & GG). rewrite E1. cbn [rbind].
    rewrite (dimensions_given f o (FGroup kids) attrs attrs' al names (kn_scan _ _ _ _ _ K) HN
               (called_index f o kids K HB (proj2 (proj1 (zero_below f (with_values f)) _ _ _ HO))) (proj1 Hpl) HP GG Hdi). cbn [rbind].
    assert (Hh : Forall (fun x => exists b, attribute_holds f b x) attrs).
    { destruct Hda as (c & l & b' & _ & _ & _ & _ & HA & _). exact (attributes_held f _ l attrs HA). }
    destruct (attributes_given f attrs attrs' al Hpl Hh HP GG) as (m & E2 & GA). rewrite E2. cbn [rbind].
    exists m. split; [reflexivity|exact GA].
Qed.

(** ** A file: a coordinate variable with a list of references to it, and a variable with a list of dimensions in a heap *)
Definition attr3 (name tb sb data : bytes) : bytes :=
  [3; 0] ++ le 2 (zlen name + 1) ++ le 2 (zlen tb) ++ le 2 (zlen sb) ++ [0] ++ name ++ [0] ++ tb ++ sb ++ data.
Definition text_tb (n : Z) : bytes := dt_head 3 1 (0 + 16 * 0) n.
Definition one_space : bytes := [2; zlen (@nil Z); 0; 0] ++ flat_map (le 8) [] ++ flat_map (le 8) [].
Definition row_space (n : Z) : bytes := [2; zlen [n]; 0; 1] ++ flat_map (le 8) [n] ++ flat_map (le 8) [].
Definition ax_ref_ty : fty := FComp 12 [(bs "dataset", 0, [], FRef); (bs "dimension", 8, [], FInt 4 false false)].
Definition ax_u32 : bytes := dt_head 0 1 (bit false + 8 * bit false) 4 ++ le 2 0 ++ le 2 (8 * 4).
Definition ax_ref : bytes := dt_head 7 1 0 8.
Definition ax_ref_tb : bytes :=
  dt_head 6 3 2 12 ++ (name_bytes 3 (bs "dataset") ++ le (offset_width 3 12) 0 ++ [] ++ ax_ref ++
  (name_bytes 3 (bs "dimension") ++ le (offset_width 3 12) 8 ++ [] ++ ax_u32 ++ [])).
Definition ax_list_tb : bytes := dt_head 9 1 0 16 ++ ax_ref.
(** the attributes *)
Definition ax_title : bytes := attr3 (bs "title") (text_tb 2) one_space (bs "hi").
Definition ax_class : bytes := attr3 (bs "CLASS") (text_tb 16) one_space (bs "DIMENSION_SCALE" ++ [0]).
Definition ax_name : bytes := attr3 (bs "NAME") (text_tb 2) one_space (bs "x" ++ [0]).
Definition ax_refs (v : Z) : bytes := attr3 (bs "REFERENCE_LIST") ax_ref_tb (row_space 1) (le 8 v ++ le 4 0).
Definition ax_dims (heap : Z) : bytes := attr3 (bs "DIMENSION_LIST") ax_list_tb (row_space 1) (descriptor_of 1 heap 1).
Definition ax_units : bytes := attr3 (bs "units") (text_tb 3) one_space (bs "m/s").
Definition ax_n : bytes := attr3 (bs "n") i16le_v1 (row_space 1) (le 2 7).
Definition ax_ns : bytes := attr3 (bs "ns") i16be_v1 (row_space 2) (int_bytes 2 true 1 ++ int_bytes 2 true 2).
Definition ax_xd (x : Z) : list fmsg :=
  [fm 1 ([2; 1; 0; 1] ++ le 8 2); fm 3 i16le_v1; fm 8 ([3; 0] ++ le 2 4 ++ (le 2 10 ++ le 2 20));
   fm 12 ax_class; fm 12 ax_name; fm 12 (ax_refs x)].
Definition ax_vd (heap : Z) : list fmsg :=
  [fm 1 ([2; 1; 0; 1] ++ le 8 2); fm 3 i16le_v1; fm 8 ([3; 0] ++ le 2 4 ++ (le 2 5 ++ le 2 6));
   fm 12 (ax_dims heap); fm 12 ax_units; fm 12 ax_n; fm 12 ax_ns].
Definition ax_root (x v : Z) : list fmsg := [gx_info; gx_hard (bs "x") x; gx_hard (bs "v") v; fm 12 ax_title].
Definition ax_objs (x : Z) : list (Z * bytes * bytes) := [(1, le 8 x, [])].
Definition ax_heap (x : Z) : bytes :=
  bs "GCOL" ++ [1; 0; 0; 0] ++ le 8 (16 + zlen (flat_map heap_object (ax_objs x) ++ zrep 8 0)) ++ flat_map heap_object (ax_objs x) ++ zrep 8 0.
Definition ax_x : list fmsg := ax_xd 380.
Definition ax_v : list fmsg := ax_vd 626.
Definition ax_file : bytes := gx_super 674 ++ fx_head2 (ax_root 146 380) 0 ++ fx_head2 ax_x 0 ++ fx_head2 ax_v 0 ++ ax_heap 146.
Definition ax_kids : list (bytes * Z * ftree) := [(bs "x", 146, FData [2]); (bs "v", 380, FData [2])].
Definition ax_of_root : list fattr := [mkFattr (bs "title") (FText 2) [] (HStr (bs "hi"))].
Definition ax_refs_attr : fattr :=
  mkFattr (bs "REFERENCE_LIST") ax_ref_ty [1] (HSlice TComp [HComp [(bs "dataset", HNum U64 380); (bs "dimension", HNum U32 0)]]).
Definition ax_of_x : list fattr :=
  [mkFattr (bs "CLASS") (FText 16) [] (HStr (bs "DIMENSION_SCALE")); mkFattr (bs "NAME") (FText 2) [] (HStr (bs "x")); ax_refs_attr].
Definition ax_list_attr : fattr :=
  mkFattr (bs "DIMENSION_LIST") (FSeq FRef) [1] (HSlice (TSlice (TNum U64)) [HSlice (TNum U64) [HNum U64 146]]).
Definition ax_of_v : list fattr :=
  [ax_list_attr; mkFattr (bs "units") (FText 3) [] (HStr (bs "m/s")); mkFattr (bs "n") (FInt 2 true false) [1] (HSlice (TNum I16) [HNum I16 7]);
   mkFattr (bs "ns") (FInt 2 true true) [2] (HSlice (TNum I16) [HNum I16 1; HNum I16 2])].
(** GetGroup and Attributes, and GetVariable, from the file on: the names and the values *)
Definition shown_attrs (m : omap hval) : list (bytes * option hval) := map (fun k => (k, om_get m k)) (om_keys_visible m).
Definition got_attributes (f : bytes) (path : bytes) : res (list (bytes * option hval)) :=
  let* o := openFile f in
  let* h := rgetGroup o (mkRh [47] o) path in
  let* m := groupAttributes f h in
  Ok (shown_attrs m).
Definition got_whole (f : bytes) (path name : bytes) : res (hval * list bytes * list (bytes * option hval)) :=
  let* o := openFile f in
  let* h := rgetGroup o (mkRh [47] o) path in
  let* v := getVariable f o h name in
  Ok (rv_val v, rv_dims v, shown_attrs (rv_attrs v)).

Lemma attr3_holds f name t tb dims sb data v : name_ok name -> type_is known_version t tb -> space_is sb dims ->
  zlen name + 1 < 2 ^ 16 -> zlen tb < 2 ^ 16 -> zlen sb < 2 ^ 16 -> few_members t -> opaque_last t -> elements_there t data ->
  is_opaque t = false \/ 8 < zlen tb -> attribute_value f t dims data v -> attribute_holds f (attr3 name tb sb data) (mkFattr name t dims v).
Proof.
  intros ? ? ? ? Hl ? ? ? ? Ho ?. exists (attr3 name tb sb data), 0, data. split; [symmetry; apply app_nil_r|]. cbn [fa_name fa_type fa_dims fa_val].
  split; [apply (attribute_v3 known_version 0); [lia|assumption..]|]. do 3 (split; [assumption|]). split; [|assumption].
  intros E. destruct Ho as [Ho|Ho]; [congruence|]. exists (zlen tb). split; [lia|].
  exists ([3; 0] ++ le 2 (zlen name + 1)), (le 2 (zlen sb) ++ [0] ++ name ++ [0] ++ tb ++ sb ++ data).
  split; [unfold attr3; rewrite <- !app_assoc; reflexivity|reflexivity].
Qed.
Lemma one_space_is : space_is one_space [].
Proof. apply (space_v2 0 0 [] []); [unfold word; lia|constructor|constructor|reflexivity|reflexivity|lia]. Qed.
Lemma row_space_is n : word 64 n -> space_is (row_space n) [n].
Proof. intros H. apply (space_v2 0 1 [n] []); [unfold word; lia|constructor; [exact H|constructor]|constructor|reflexivity|reflexivity|lia]. Qed.
Lemma text_holds f name n data s : name_ok name -> zlen name + 1 < 2 ^ 16 -> 0 < n < 2 ^ 16 -> zlen data = n -> cut data = s ->
  attribute_holds f (attr3 name (text_tb n) one_space data) (mkFattr name (FText n) [] (HStr s)).
Proof.
  intros Hn Hz Hs Hd <-. apply attr3_holds; try assumption; try exact I.
  - apply (ForeignTypeSpec.is_text known_version 1 n 0 0); [kn|lia|lia|lia].
  - exact one_space_is.
  - reflexivity.
  - reflexivity.
  - left. reflexivity.
  - apply value_one_text; [lia|cbn [volume fold_right]; lia|left; reflexivity].
Qed.
Lemma ax_title_is f : attribute_holds f ax_title (mkFattr (bs "title") (FText 2) [] (HStr (bs "hi"))).
Proof. apply text_holds; [apply plain_name; reflexivity|reflexivity|lia|reflexivity|reflexivity]. Qed.
Lemma ax_class_is f : attribute_holds f ax_class (mkFattr (bs "CLASS") (FText 16) [] (HStr (bs "DIMENSION_SCALE"))).
Proof. apply text_holds; [apply plain_name; reflexivity|reflexivity|lia|reflexivity|reflexivity]. Qed.
Lemma ax_name_is f : attribute_holds f ax_name (mkFattr (bs "NAME") (FText 2) [] (HStr (bs "x"))).
Proof. apply text_holds; [apply plain_name; reflexivity|reflexivity|lia|reflexivity|reflexivity]. Qed.
Lemma ax_units_is f : attribute_holds f ax_units (mkFattr (bs "units") (FText 3) [] (HStr (bs "m/s"))).
Proof. apply text_holds; [apply plain_name; reflexivity|reflexivity|lia|reflexivity|reflexivity]. Qed.
Lemma ax_ref_is : type_is known_version FRef ax_ref.
Proof. apply (is_ref known_version 1). kn. Qed.
Lemma ax_ref_tb_is : type_is known_version ax_ref_ty ax_ref_tb.
Proof.
  apply (is_comp known_version 3 12); [kn|lia|reflexivity|].
  apply members_cons; [apply plain_name; reflexivity|lia|split; reflexivity|exact ax_ref_is|].
  apply members_cons; [apply plain_name; reflexivity|lia|split; reflexivity| |apply members_nil].
  apply (is_int known_version 1 4 false false); [kn|right; right; left; reflexivity].
Qed.
Lemma ax_refs_is f : attribute_holds f (ax_refs 380) ax_refs_attr.
Proof.
  apply attr3_holds; [apply plain_name; reflexivity|exact ax_ref_tb_is|apply row_space_is; unfold word; lia|reflexivity|reflexivity|reflexivity|cbn; lia|cbn; intuition discriminate|exact I|left; reflexivity|].
  apply value_any; [reflexivity|].
  change [1] with (zlen [HComp [(bs "dataset", HNum U64 380); (bs "dimension", HNum U32 0)]] :: []).
  apply (value_rows _ ax_ref_ty []); [reflexivity|exact I|discriminate|].
  rewrite <- (app_nil_r (le 8 380 ++ le 4 0)). apply rows_cons; [|apply rows_nil]. apply value_comp; [lia|].
  change (le 8 380 ++ le 4 0) with ([] ++ le 8 380 ++ ([] ++ le 4 0 ++ [])).
  apply fields_cons; [reflexivity|apply value_ref; unfold word; lia|].
  apply fields_cons; [reflexivity|apply (value_int _ 4 false false 0); [right; right; left; reflexivity|cbn; lia]|]. apply fields_nil. reflexivity.
Qed.
Lemma ax_list_is : attribute_holds ax_file (ax_dims 626) ax_list_attr.
Proof.
  apply attr3_holds; [apply plain_name; reflexivity| |apply row_space_is; unfold word; lia|reflexivity|reflexivity|reflexivity|exact I|exact I|exact I|left; reflexivity|].
  { apply (ForeignTypeSpec.is_seq known_version 1 FRef); [kn|exact ax_ref_is]. }
  apply value_any; [reflexivity|].
  change [1] with (zlen [HSlice (TNum U64) [HNum U64 146]] :: []).
  apply (value_rows _ (FSeq FRef) []); [reflexivity|exact I|discriminate|].
  rewrite <- (app_nil_r (descriptor_of 1 626 1)). apply rows_cons; [|apply rows_nil].
  apply (value_seq _ FRef 626 1 (le 8 146) [HNum U64 146]); [unfold word; lia|unfold word; lia| | |split; reflexivity].
  - exists (ax_objs 146), []. split; [|split; [left; reflexivity|discriminate]].
    exists (zrep 8 0). split; [apply Forall_cons; [split; [lia|split; reflexivity]|apply Forall_nil]|].
    split; [apply NoDup_cons; [intros []|apply NoDup_nil]|]. split; [left; reflexivity|here].
  - rewrite <- (app_nil_r (le 8 146)). apply rows_cons; [apply value_ref; unfold word; lia|apply rows_nil].
Qed.
Lemma ax_n_is f : attribute_holds f ax_n (mkFattr (bs "n") (FInt 2 true false) [1] (HSlice (TNum I16) [HNum I16 7])).
Proof.
  apply attr3_holds; [apply plain_name; reflexivity|exact vx_i16_is|apply row_space_is; unfold word; lia|reflexivity|reflexivity|reflexivity|exact I|exact I|exact I|left; reflexivity|].
  apply value_any; [reflexivity|]. change [1] with (zlen [HNum I16 7] :: []).
  apply (value_rows _ (FInt 2 true false) []); [reflexivity|right; left; reflexivity|discriminate|].
  rewrite <- (app_nil_r (le 2 7)). apply rows_cons; [|apply rows_nil]. apply (value_int _ 2 true false 7); [right; left; reflexivity|cbn; lia].
Qed.
Lemma ax_ns_is f : attribute_holds f ax_ns (mkFattr (bs "ns") (FInt 2 true true) [2] (HSlice (TNum I16) [HNum I16 1; HNum I16 2])).
Proof.
  apply attr3_holds; [apply plain_name; reflexivity| |apply row_space_is; unfold word; lia|reflexivity|reflexivity|reflexivity|exact I|exact I|exact I|left; reflexivity|].
  { apply (is_int known_version 1 2 true true); [kn|right; left; reflexivity]. }
  apply value_any; [reflexivity|]. change [2] with (zlen [HNum I16 1; HNum I16 2] :: []).
  apply (value_rows _ (FInt 2 true true) []); [reflexivity|right; left; reflexivity|discriminate|].
  rewrite <- (app_nil_r (int_bytes 2 true 2)).
  repeat (apply rows_cons; [apply (value_int _ 2 true true); [right; left; reflexivity|cbn; lia]|]). apply rows_nil.
Qed.
Lemma ax_attr_msg f b x : b <> [] -> attribute_holds f b x -> (fa_name x = bs "REFERENCE_LIST" -> back_refs x) -> with_values f 12 b.
Proof.
  intros Hb H R. split; [|intros _; exists x; split; assumption].
  destruct H as (b0 & pad & data & E & H1 & H2 & H3 & H4 & _). exists b0, pad. split; [exact E|]. eapply body_attribute; eassumption.
Qed.
Lemma ax_other f ty b : message_is ty b -> ty <> 12 -> with_values f ty b.
Proof. intros H N. split; [exact H|contradiction]. Qed.
Lemma ax_plain f ty b types : In ty types -> b <> [] -> with_values f ty b -> ForeignSpec.plain (with_values f) types (fm ty b).
Proof. intros H1 H2 H3. split; [exact H1|]. right. split; assumption. Qed.
Definition data_types : list Z := [0; 3; 4; 5; 8; 11; 12; 13; 14; 18; 22].
Lemma ax_i16_msg f : ForeignSpec.plain (with_values f) data_types (fm 3 i16le_v1).
Proof.
  apply ax_plain; [right; left; reflexivity|discriminate|]. apply ax_other; [|lia]. apply vx_padded.
  apply (body_type (FInt 2 true false)); [exact vx_i16_is|exact I|exact I].
Qed.
Lemma ax_place (data : bytes) : zlen data = 4 -> place_is ([3; 0] ++ le 2 4 ++ data) (Compact data).
Proof. intros H. rewrite <- H at 1. apply place_compact; [left; reflexivity|lia]. Qed.
Lemma ax_place_msg f data : zlen data = 4 -> ForeignSpec.plain (with_values f) data_types (fm 8 ([3; 0] ++ le 2 4 ++ data)).
Proof.
  intros H. apply ax_plain; [do 4 right; left; reflexivity|discriminate|]. apply ax_other; [|lia]. apply vx_padded.
  apply (body_place _ _ (ax_place data H)).
Qed.
Lemma ax_attr f b x : b <> [] -> attribute_holds f b x -> (fa_name x = bs "REFERENCE_LIST" -> back_refs x) ->
  ForeignSpec.plain (with_values f) data_types (fm 12 b).
Proof. intros H1 H2 H3. apply ax_plain; [do 6 right; left; reflexivity|exact H1|exact (ax_attr_msg f b x H1 H2 H3)]. Qed.
Lemma ax_back : back_refs ax_refs_attr.
Proof.
  split; [reflexivity|]. eexists. split; [reflexivity|]. apply Forall_cons; [|apply Forall_nil].
  exists (bs "dataset"), 380, (bs "dimension"), 0, []. right. reflexivity.
Qed.
Lemma ax_header a l : 0 < a -> Forall (fun m => fm_type m <> 16) l -> chunk_ok (HV2 false) l 0 -> zlen (chunk (HV2 false) l 0) < 256 ->
  has_at ax_file a (fx_head2 l 0) -> messages_are ax_file 0 a l.
Proof.
  intros H1 H2 H3 H4 H5. split; [exact H1|]. exists (HV2 false), l. split; [apply gx_h2; assumption|].
  clear - H2. induction H2 as [|m l H _ IH]; [apply held_nil|apply held_msg; assumption].
Qed.
Lemma ax_x_header : messages_are ax_file 0 146 ax_x.
Proof. apply ax_header; [lia|repeat constructor; discriminate|chunk2|reflexivity|here]. Qed.
Lemma ax_v_header : messages_are ax_file 0 380 ax_v.
Proof. apply ax_header; [lia|repeat constructor; discriminate|chunk2|reflexivity|here]. Qed.
Lemma ax_root_header : messages_are ax_file 0 48 (ax_root 146 380).
Proof. apply ax_header; [lia|repeat constructor; discriminate|chunk2|reflexivity|here]. Qed.
Lemma ax_x_messages : Forall (fun m => fm_type m = 1 \/ fm_type m = 21 \/ ForeignSpec.plain (with_values ax_file) data_types m) ax_x.
Proof.
  apply Forall_cons; [left; reflexivity|]. repeat (apply Forall_cons; [right; right|]); [| | | | |apply Forall_nil].
  - apply ax_i16_msg.
  - apply ax_place_msg. reflexivity.
  - eapply ax_attr; [discriminate|apply ax_class_is|discriminate].
  - eapply ax_attr; [discriminate|apply ax_name_is|discriminate].
  - eapply ax_attr; [discriminate|apply ax_refs_is|intros _; exact ax_back].
Qed.
Lemma ax_v_messages : Forall (fun m => fm_type m = 1 \/ fm_type m = 21 \/ ForeignSpec.plain (with_values ax_file) data_types m) ax_v.
Proof.
  apply Forall_cons; [left; reflexivity|]. repeat (apply Forall_cons; [right; right|]); [| | | | | |apply Forall_nil].
  - apply ax_i16_msg.
  - apply ax_place_msg. reflexivity.
  - eapply ax_attr; [discriminate|apply ax_list_is|discriminate].
  - eapply ax_attr; [discriminate|apply ax_units_is|discriminate].
  - eapply ax_attr; [discriminate|apply ax_n_is|discriminate].
  - eapply ax_attr; [discriminate|apply ax_ns_is|discriminate].
Qed.
Lemma ax_x_with : dataset_with ax_file (with_values ax_file) 146 [2] (FInt 2 true false) (Compact (le 2 10 ++ le 2 20)) (Some (ForeignDataSpec.zeros 2)) ax_of_x.
Proof.
  exists O, ax_x, ([2; 1; 0; 1] ++ le 8 2). split; [exact ax_x_header|]. split; [exact ax_x_messages|].
  split; [reflexivity|]. split; [exact vx_c_space|]. split.
  { exists []. split; [left; split; reflexivity|]. change (of_type 12 ax_x ++ map snd (@nil (Z * bytes))) with [ax_class; ax_name; ax_refs 380].
    apply Forall2_cons; [apply ax_class_is|]. apply Forall2_cons; [apply ax_name_is|]. apply Forall2_cons; [apply ax_refs_is|apply Forall2_nil]. }
  exists [fm 1 ([2; 1; 0; 1] ++ le 8 2); fm 3 i16le_v1], (skipn 2 ax_x), i16le_v1, 0, ([3; 0] ++ le 2 4 ++ (le 2 10 ++ le 2 20)), 0.
  split; [reflexivity|]. split; [reflexivity|]. split; [reflexivity|]. split; [reflexivity|]. split; [reflexivity|].
  split; [reflexivity|]. split; [exact vx_i16_is|]. split; [exact I|]. split; [exact I|]. split; [apply ax_place; reflexivity|].
  apply told_nothing; reflexivity.
Qed.
Lemma ax_v_with : dataset_with ax_file (with_values ax_file) 380 [2] (FInt 2 true false) (Compact (le 2 5 ++ le 2 6)) (Some (ForeignDataSpec.zeros 2)) ax_of_v.
Proof.
  exists O, ax_v, ([2; 1; 0; 1] ++ le 8 2). split; [exact ax_v_header|]. split; [exact ax_v_messages|].
  split; [reflexivity|]. split; [exact vx_c_space|]. split.
  { exists []. split; [left; split; reflexivity|]. change (of_type 12 ax_v ++ map snd (@nil (Z * bytes))) with [ax_dims 626; ax_units; ax_n; ax_ns].
    apply Forall2_cons; [apply ax_list_is|]. apply Forall2_cons; [apply ax_units_is|]. apply Forall2_cons; [apply ax_n_is|]. apply Forall2_cons; [apply ax_ns_is|apply Forall2_nil]. }
  exists [fm 1 ([2; 1; 0; 1] ++ le 8 2); fm 3 i16le_v1], (skipn 2 ax_v), i16le_v1, 0, ([3; 0] ++ le 2 4 ++ (le 2 5 ++ le 2 6)), 0.
  split; [reflexivity|]. split; [reflexivity|]. split; [reflexivity|]. split; [reflexivity|]. split; [reflexivity|].
  split; [reflexivity|]. split; [exact vx_i16_is|]. split; [exact I|]. split; [exact I|]. split; [apply ax_place; reflexivity|].
  apply told_nothing; reflexivity.
Qed.
Lemma ax_kids_are : kids_are ax_file (with_values ax_file) 1 ax_kids.
Proof.
  apply kids_cons; [|apply kids_cons; [|apply kids_nil]].
  - apply (is_data _ _ 1 0 146 ax_x ([2; 1; 0; 1] ++ le 8 2) [2] ax_x_header); [lia|exact ax_x_messages|reflexivity|exact vx_c_space|left; reflexivity].
  - apply (is_data _ _ 1 0 380 ax_v ([2; 1; 0; 1] ++ le 8 2) [2] ax_v_header); [lia|exact ax_v_messages|reflexivity|exact vx_c_space|left; reflexivity].
Qed.
Lemma ax_hard name a : word 64 a -> zlen name < 256 -> group_msg ax_file (with_values ax_file) (gx_hard name a) [(name, a)].
Proof.
  intros Ha Hz. left. split; [reflexivity|]. exists name, a. split; [|reflexivity]. exists 0, 0, 0, 0.
  split; [unfold word; lia|]. split; [unfold word; lia|]. split; [left; reflexivity|].
  split; [exact Ha|]. split; [exact Hz|]. symmetry. apply app_nil_r.
Qed.
Lemma ax_root_messages : Forall2 (group_msg ax_file (with_values ax_file)) (ax_root 146 380) [[]; [(bs "x", 146)]; [(bs "v", 380)]; []].
Proof.
  apply Forall2_cons; [right; right; split; [left; reflexivity|reflexivity]|].
  apply Forall2_cons; [apply ax_hard; [unfold word; lia|reflexivity]|].
  apply Forall2_cons; [apply ax_hard; [unfold word; lia|reflexivity]|].
  apply Forall2_cons; [|apply Forall2_nil]. right. right. split; [|reflexivity]. right. right.
  apply ax_plain; [right; right; left; reflexivity|discriminate|]. eapply ax_attr_msg; [discriminate|apply ax_title_is|discriminate].
Qed.
Lemma ax_root_links : stored_links ax_file (ax_root 146 380) [].
Proof.
  right. exists ([0; 0] ++ le 8 undefined ++ le 8 undefined), undefined, undefined. split; [reflexivity|]. split.
  - exists 0, 0, 0, 0. unfold undefined. split; [unfold word; lia|]. split; [unfold word; lia|]. split; [unfold word; lia|].
    split; [unfold word; lia|]. split; [unfold word; lia|reflexivity].
  - left. split; reflexivity.
Qed.
Lemma ax_names : NoDup (map fst (map fst ax_kids)).
Proof. vm_compute. apply NoDup_cons; [intros [E|[]]; discriminate E|apply NoDup_cons; [intros []|apply NoDup_nil]]. Qed.
Lemma ax_group : group_with ax_file (with_values ax_file) 2 48 ax_kids ax_of_root.
Proof.
  exists 0%nat, 1%nat, (ax_root 146 380), [[]; [(bs "x", 146)]; [(bs "v", 380)]; []], [].
  split; [exact ax_root_header|]. split; [lia|]. split; [exact ax_root_messages|]. split; [exact ax_root_links|]. split.
  { exists []. split; [left; split; reflexivity|]. change (of_type 12 (ax_root 146 380) ++ map snd (@nil (Z * bytes))) with [ax_title].
    apply Forall2_cons; [apply ax_title_is|apply Forall2_nil]. }
  split; [discriminate|]. split; [apply Permutation_refl|]. split; [exact ax_names|exact ax_kids_are].
Qed.
Lemma ax_object : object_is ax_file (with_values ax_file) 2 48 (FGroup ax_kids).
Proof.
  apply (is_group _ _ 2 0 1 48 (ax_root 146 380) [[]; [(bs "x", 146)]; [(bs "v", 380)]; []] [] ax_kids ax_root_header);
    [lia|exact ax_root_messages|exact ax_root_links|left; reflexivity|discriminate|apply Permutation_refl|exact ax_names|exact ax_kids_are].
Qed.
Lemma ax_array x y : - 2 ^ 15 <= x < 2 ^ 15 -> - 2 ^ 15 <= y < 2 ^ 15 ->
  array_is (in_global_heap ax_file) (FInt 2 true false) [2] (le 2 x ++ le 2 y) (row16 [x; y]).
Proof.
  intros Hx Hy. change [2] with (zlen [HNum I16 x; HNum I16 y] :: []). apply (value_rows _ (FInt 2 true false) []); [reflexivity|right; left; reflexivity|discriminate|].
  rewrite <- (app_nil_r (le 2 y)).
  apply rows_cons; [apply (value_int _ 2 true false); [right; left; reflexivity|exact Hx]|].
  apply rows_cons; [apply (value_int _ 2 true false); [right; left; reflexivity|exact Hy]|apply rows_nil].
Qed.
Lemma ax_plain_v : attrs_plain ax_of_v.
Proof.
  split.
  - vm_compute. repeat (apply NoDup_cons; [cbn [In]; intuition discriminate|]). apply NoDup_nil.
  - apply Forall_cons; [left; right; right; left; reflexivity|]. apply Forall_cons; [right; right; reflexivity|].
    apply Forall_cons; [right; left; reflexivity|]. apply Forall_cons; [right; right; reflexivity|apply Forall_nil].
Qed.
Lemma ax_plain_x : attrs_plain ax_of_x.
Proof.
  split.
  - vm_compute. repeat (apply NoDup_cons; [cbn [In]; intuition discriminate|]). apply NoDup_nil.
  - apply Forall_cons; [left; do 5 right; left; reflexivity|]. apply Forall_cons; [left; do 3 right; left; reflexivity|].
    apply Forall_cons; [left; do 4 right; left; reflexivity|apply Forall_nil].
Qed.
Lemma ax_v_dims : dimensions_are (FGroup ax_kids) ax_of_v [bs "x"].
Proof.
  apply (dims_by_list _ _ ax_list_attr [146]); [left; reflexivity|reflexivity|reflexivity| |discriminate|].
  - exists [[146]]. split; reflexivity.
  - apply Forall2_cons; [|apply Forall2_nil]. exists [], ax_kids, (FData [2]). split; [apply found_here|left; reflexivity].
Qed.
Lemma ax_x_dims : dimensions_are (FGroup ax_kids) ax_of_x [bs "x"].
Proof.
  apply (dims_by_name _ _ (mkFattr (bs "NAME") (FText 2) [] (HStr (bs "x"))) (bs "x")).
  - intros y [<-|[<-|[<-|[]]]] E; vm_compute in E; discriminate E.
  - right. left. reflexivity.
  - reflexivity.
  - reflexivity.
  - reflexivity.
  - intros (r & E). discriminate E.
Qed.
Example C78_example :
  superblock_is ax_file 48 /\ object_is ax_file (with_values ax_file) 2 48 (FGroup ax_kids) /\ plain_names (FGroup ax_kids) /\
  NoDup (below (FGroup ax_kids)) /\ (2 <= List.length ax_file)%nat /\ zlen ax_file < 2 ^ 63 /\
  located 48 (FGroup ax_kids) (components (bs "/")) 48 (FGroup ax_kids) /\
  group_with ax_file (with_values ax_file) 2 48 ax_kids ax_of_root /\ attrs_plain ax_of_root /\
  got_attributes ax_file (bs "/") = Ok [(bs "title", Some (HStr (bs "hi")))] /\
  In (bs "v", 380, FData [2]) ax_kids /\
  dataset_with ax_file (with_values ax_file) 380 [2] (FInt 2 true false) (Compact (le 2 5 ++ le 2 6)) (Some (ForeignDataSpec.zeros 2)) ax_of_v /\
  stored_as ax_file [2] 2 (Some (ForeignDataSpec.zeros 2)) (Compact (le 2 5 ++ le 2 6)) (le 2 5 ++ le 2 6) /\
  array_is (in_global_heap ax_file) (FInt 2 true false) [2] (le 2 5 ++ le 2 6) (row16 [5; 6]) /\
  ~ is_bare ax_of_v /\ attrs_plain ax_of_v /\ dimensions_are (FGroup ax_kids) ax_of_v [bs "x"] /\
  got_whole ax_file (bs "/") (bs "v") = Ok (row16 [5; 6], [bs "x"], [(bs "units", Some (HStr (bs "m/s"))); (bs "n", Some (HNum I16 7));
    (bs "ns", Some (row16 [1; 2]))]) /\
  In (bs "x", 146, FData [2]) ax_kids /\
  dataset_with ax_file (with_values ax_file) 146 [2] (FInt 2 true false) (Compact (le 2 10 ++ le 2 20)) (Some (ForeignDataSpec.zeros 2)) ax_of_x /\
  array_is (in_global_heap ax_file) (FInt 2 true false) [2] (le 2 10 ++ le 2 20) (row16 [10; 20]) /\
  ~ is_bare ax_of_x /\ is_scale ax_of_x /\ attrs_plain ax_of_x /\ dimensions_are (FGroup ax_kids) ax_of_x [bs "x"] /\
  got_whole ax_file (bs "/") (bs "x") = Ok (row16 [10; 20], [bs "x"], []).
Proof.
  split; [apply (gx_super_is _ 674); [unfold word; lia|vm_compute; congruence|here]|].
  split; [exact ax_object|].
  split; [apply plain_group; repeat (apply Forall_cons; [cbn [fst snd]; split; [split; [discriminate|intros [E|[]]; discriminate E]|apply plain_leaf; reflexivity]|]); apply Forall_nil|].
  split; [vm_compute; apply NoDup_cons; [intros [E|[]]; discriminate E|apply NoDup_cons; [intros []|apply NoDup_nil]]|].
  split; [apply Nat.leb_le; vm_compute; reflexivity|]. split; [vm_compute; reflexivity|].
  split; [apply located_here|]. split; [exact ax_group|].
  split; [split; [apply NoDup_cons; [intros []|apply NoDup_nil]|apply Forall_cons; [right; right; reflexivity|apply Forall_nil]]|].
  split; [vm_compute; reflexivity|].
  split; [right; left; reflexivity|]. split; [exact ax_v_with|]. split; [apply as_compact; reflexivity|]. split; [apply ax_array; lia|].
  split; [intros (H & _); vm_compute in H; intuition discriminate|]. split; [exact ax_plain_v|]. split; [exact ax_v_dims|]. split; [vm_compute; reflexivity|].
  split; [left; reflexivity|]. split; [exact ax_x_with|]. split; [apply ax_array; lia|].
  assert (O : own_name ax_of_x).
  { exists (mkFattr (bs "NAME") (FText 2) [] (HStr (bs "x"))), (bs "x"). split; [right; left; reflexivity|]. split; [reflexivity|]. split; [reflexivity|].
    split; [reflexivity|]. intros (r & E). discriminate E. }
  split; [intros (_ & H & _); exact (H O)|]. split; [split; [left; reflexivity|left; exact O]|].
  split; [exact ax_plain_x|]. split; [exact ax_x_dims|]. vm_compute. reflexivity.
Qed.

(** ** What is false *)

Definition bx_file (b : bytes) : bytes := gx_super 48 ++ fx_head2 [gx_info; fm 12 b] 0.
Definition bx_text : bytes := attr3 (bs "t") (text_tb 2) (row_space 2) (bs "abcd").
Definition bx_row : bytes := attr3 (bs "n") i16le_v1 ([2; zlen [1; 2]; 0; 1] ++ flat_map (le 8) [1; 2] ++ flat_map (le 8) []) (le 2 7 ++ le 2 8).
Definition bx_opaque_tb : bytes := dt_head 5 1 (zlen (@nil Z) + 0) 2 ++ [] ++ zrep 0 0.
Definition bx_opaque : bytes := attr3 (bs "n") bx_opaque_tb one_space [1; 2].

(** An attribute of two strings of two bytes is read as one string of four (string.go:43-47). *)
Theorem C78_strings_refuted : exists f b,
  superblock_is f 48 /\ header_is f 48 (HV2 false) [gx_info; fm 12 b] /\
  attribute_is known_version b (bs "t") (FText 2) [2] (bs "abcd") /\
  array_is (in_global_heap f) (FText 2) [2] (bs "abcd") (HSlice TStr [HStr (bs "ab"); HStr (bs "cd")]) /\
  got_attributes f (bs "/") = Ok [(bs "t", Some (HStr (bs "abcd")))].
Proof.
  exists (bx_file bx_text), bx_text.
  split; [apply (gx_super_is _ 48); [unfold word; lia|vm_compute; congruence|here]|].
  split; [apply gx_h2; [chunk2|reflexivity|here]|]. split.
  { apply (attribute_v3 known_version 0 (bs "t") (FText 2) (text_tb 2) [2] (row_space 2)); [lia|apply plain_name; reflexivity| | |reflexivity|reflexivity|reflexivity].
    - apply (ForeignTypeSpec.is_text known_version 1 2 0 0); [kn|lia|lia|lia].
    - apply row_space_is. unfold word; lia. }
  split; [|vm_compute; reflexivity].
  apply (value_rows _ (FText 2) [] (bs "ab" ++ bs "cd" ++ []) [HStr (cut (bs "ab")); HStr (cut (bs "cd"))]); [reflexivity|exact I|discriminate|].
  repeat (apply rows_cons; [apply value_text; [lia|reflexivity]|]). apply rows_nil.
Qed.

(** An attribute of one row of two numbers is read as the row (hdf5.go:3133-3157). *)
Theorem C78_row_refuted : exists f b,
  superblock_is f 48 /\ header_is f 48 (HV2 false) [gx_info; fm 12 b] /\
  attribute_is known_version b (bs "n") (FInt 2 true false) [1; 2] (le 2 7 ++ le 2 8) /\
  array_is (in_global_heap f) (FInt 2 true false) [1; 2] (le 2 7 ++ le 2 8) (HSlice (TSlice (TNum I16)) [row16 [7; 8]]) /\
  got_attributes f (bs "/") = Ok [(bs "n", Some (row16 [7; 8]))].
Proof.
  exists (bx_file bx_row), bx_row.
  split; [apply (gx_super_is _ 48); [unfold word; lia|vm_compute; congruence|here]|].
  split; [apply gx_h2; [chunk2|reflexivity|here]|]. split.
  { apply (attribute_v3 known_version 0 (bs "n") (FInt 2 true false) i16le_v1 [1; 2]
             ([2; zlen [1; 2]; 0; 1] ++ flat_map (le 8) [1; 2] ++ flat_map (le 8) [])); [lia|apply plain_name; reflexivity|exact vx_i16_is| |reflexivity|reflexivity|reflexivity].
    apply (space_v2 0 1 [1; 2] []); [unfold word; lia|repeat (constructor; [unfold word; lia|]); constructor|constructor|reflexivity|reflexivity|lia]. }
  split; [|vm_compute; reflexivity].
  apply (value_rows _ (FInt 2 true false) [2] _ [row16 [7; 8]]); [reflexivity|right; left; reflexivity|discriminate|].
  rewrite <- (app_nil_r (le 2 7 ++ le 2 8)). apply rows_cons; [|apply rows_nil].
  change [2] with (zlen [HNum I16 7; HNum I16 8] :: []). apply (value_rows _ (FInt 2 true false) []); [reflexivity|right; left; reflexivity|discriminate|].
  rewrite <- (app_nil_r (le 2 8)).
  repeat (apply rows_cons; [apply (value_int _ 2 true false); [right; left; reflexivity|cbn; lia]|]). apply rows_nil.
Qed.

(** Opaque data without a tag are zeros in an attribute (opaque.go:46-50). *)
Theorem C78_opaque_refuted : exists f b,
  superblock_is f 48 /\ header_is f 48 (HV2 false) [gx_info; fm 12 b] /\
  attribute_is known_version b (bs "n") (FOpaque 2) [] [1; 2] /\
  array_is (in_global_heap f) (FOpaque 2) [] [1; 2] (HOpaque [1; 2]) /\
  got_attributes f (bs "/") = Ok [(bs "n", Some (HOpaque [0; 0]))].
Proof.
  exists (bx_file bx_opaque), bx_opaque.
  split; [apply (gx_super_is _ 48); [unfold word; lia|vm_compute; congruence|here]|].
  split; [apply gx_h2; [chunk2|reflexivity|here]|]. split.
  { apply (attribute_v3 known_version 0 (bs "n") (FOpaque 2) bx_opaque_tb [] one_space); [lia|apply plain_name; reflexivity| |exact one_space_is|reflexivity|reflexivity|reflexivity].
    apply (ForeignTypeSpec.is_opaque known_version 1 2 [] 0); [kn|lia|constructor|reflexivity|lia|reflexivity]. }
  split; [|vm_compute; reflexivity]. apply value_opaque; [lia|reflexivity].
Qed.

(** With a tag they are what they are. *)
Definition bx_tag_tb : bytes := dt_head 5 1 (zlen (bs "raw") + 5) 2 ++ bs "raw" ++ zrep 5 0.
Definition bx_tagged : bytes := attr3 (bs "n") bx_tag_tb one_space [1; 2].
Example C78_opaque_example :
  attribute_holds (bx_file bx_tagged) bx_tagged (mkFattr (bs "n") (FOpaque 2) [] (HOpaque [1; 2])) /\
  got_attributes (bx_file bx_tagged) (bs "/") = Ok [(bs "n", Some (HOpaque [1; 2]))].
Proof.
  split; [|vm_compute; reflexivity].
  apply attr3_holds; [apply plain_name; reflexivity| |exact one_space_is|reflexivity|reflexivity|reflexivity|exact I|exact I|exact I|right; reflexivity|].
  - apply (ForeignTypeSpec.is_opaque known_version 1 2 (bs "raw") 5); [kn|lia|apply plain_name; reflexivity|reflexivity|lia|reflexivity].
  - apply value_any; [reflexivity|]. apply value_opaque; [lia|reflexivity].
Qed.

(** A scalar attribute that is a compound of one member is no compound in Go but the struct of its member, which no value
    stands for here (hdf5.go:3133-3157). *)
Definition bx_comp_ty : fty := FComp 2 [(bs "a", 0, [], FInt 2 true false)].
Definition bx_comp_tb : bytes := dt_head 6 3 1 2 ++ (name_bytes 3 (bs "a") ++ le (offset_width 3 2) 0 ++ [] ++ i16le_v1 ++ []).
Definition bx_comp : bytes := attr3 (bs "n") bx_comp_tb one_space (le 2 7).
Theorem C78_one_member_refuted : exists f b,
  superblock_is f 48 /\ header_is f 48 (HV2 false) [gx_info; fm 12 b] /\
  attribute_holds f b (mkFattr (bs "n") (FComp 2 [(bs "a", 0, [], FInt 2 true false)]) [] (HComp [(bs "a", HNum I16 7)])) /\
  got_attributes f (bs "/") = Ok [(bs "n", Some HOther)].
Proof.
  exists (bx_file bx_comp), bx_comp.
  split; [apply (gx_super_is _ 48); [unfold word; lia|vm_compute; congruence|here]|].
  split; [apply gx_h2; [chunk2|reflexivity|here]|]. split; [|vm_compute; reflexivity].
  apply attr3_holds; [apply plain_name; reflexivity| |exact one_space_is|reflexivity|reflexivity|reflexivity|cbn; lia|cbn; intuition discriminate|exact I|left; reflexivity|].
  - apply (is_comp known_version 3 2); [kn|lia|reflexivity|].
    apply members_cons; [apply plain_name; reflexivity|lia|split; reflexivity|exact vx_i16_is|apply members_nil].
  - apply value_any; [reflexivity|]. apply value_comp; [lia|]. change (le 2 7) with ([] ++ le 2 7 ++ []).
    apply fields_cons; [reflexivity|apply (value_int _ 2 true false 7); [right; left; reflexivity|cbn; lia]|]. apply fields_nil. reflexivity.
Qed.

(** A scalar attribute that is a sequence of one element is the element. *)
Definition bx_seq : bytes := attr3 (bs "r") ax_list_tb one_space (descriptor_of 1 132 1).
Theorem C78_one_in_sequence_refuted : exists f b,
  superblock_is f 48 /\ header_is f 48 (HV2 false) [gx_info; fm 12 b] /\
  attribute_holds f b (mkFattr (bs "r") (FSeq FRef) [] (HSlice (TNum U64) [HNum U64 146])) /\
  got_attributes f (bs "/") = Ok [(bs "r", Some (HNum U64 146))].
Proof.
  exists (bx_file bx_seq ++ ax_heap 146), bx_seq.
  split; [apply (gx_super_is _ 48); [unfold word; lia|vm_compute; congruence|here]|].
  split; [apply gx_h2; [chunk2|reflexivity|here]|]. split; [|vm_compute; reflexivity].
  apply attr3_holds; [apply plain_name; reflexivity| |exact one_space_is|reflexivity|reflexivity|reflexivity|exact I|exact I|exact I|left; reflexivity|].
  - apply (ForeignTypeSpec.is_seq known_version 1 FRef); [kn|exact ax_ref_is].
  - apply value_any; [reflexivity|].
    apply (value_seq _ FRef 132 1 (le 8 146) [HNum U64 146]); [unfold word; lia|unfold word; lia| | |split; reflexivity].
    + exists (ax_objs 146), []. split; [|split; [left; reflexivity|discriminate]].
      exists (zrep 8 0). split; [apply Forall_cons; [split; [lia|split; reflexivity]|apply Forall_nil]|].
      split; [apply NoDup_cons; [intros []|apply NoDup_nil]|]. split; [left; reflexivity|here].
    + rewrite <- (app_nil_r (le 8 146)). apply rows_cons; [apply value_ref; unfold word; lia|apply rows_nil].
Qed.

(** A variable of two dimensions, the second of which has a scale: there is one name for both (hdf5.go:3191-3204). *)
Definition cx_space : bytes := [2; zlen [1; 2]; 0; 1] ++ flat_map (le 8) [1; 2] ++ flat_map (le 8) [].
Definition cx_dims (heap : Z) : bytes :=
  attr3 (bs "DIMENSION_LIST") ax_list_tb (row_space 2) (descriptor_of 0 0 0 ++ descriptor_of 1 heap 1).
Definition cx_v (heap : Z) : list fmsg :=
  [fm 1 cx_space; fm 3 i16le_v1; fm 8 ([3; 0] ++ le 2 4 ++ (le 2 5 ++ le 2 6)); fm 12 (cx_dims heap)].
Definition cx_head (heap : Z) : bytes := gx_super 146 ++ fx_head2 (ax_root 146 380) 0 ++ fx_head2 ax_x 0 ++ fx_head2 (cx_v heap) 0.
Definition cx_at : Z := Eval vm_compute in zlen (cx_head 0).
Definition cx_file : bytes := cx_head cx_at ++ ax_heap 146.
Theorem C78_scales_refuted : exists f heap,
  superblock_is f 48 /\ header_is f 48 (HV2 false) (ax_root 146 380) /\ header_is f 146 (HV2 false) ax_x /\
  header_is f 380 (HV2 false) [fm 1 cx_space; fm 3 i16le_v1; fm 8 ([3; 0] ++ le 2 4 ++ (le 2 5 ++ le 2 6)); fm 12 (cx_dims heap)] /\
  space_is cx_space [1; 2] /\
  attribute_holds f (cx_dims heap) (mkFattr (bs "DIMENSION_LIST") (FSeq FRef) [2]
    (HSlice (TSlice (TNum U64)) [HSlice (TNum U64) []; HSlice (TNum U64) [HNum U64 146]])) /\
  got_whole f (bs "/") (bs "v") = Ok (HSlice (TSlice (TNum I16)) [row16 [5; 6]], [bs "x"], []).
Proof.
  exists cx_file, cx_at.
  split; [apply (gx_super_is _ 146); [unfold word; lia|vm_compute; congruence|here]|].
  split; [apply gx_h2; [chunk2|reflexivity|here]|]. split; [apply gx_h2; [chunk2|reflexivity|here]|].
  split; [apply gx_h2; [chunk2|reflexivity|here]|]. split.
  { apply (space_v2 0 1 [1; 2] []); [unfold word; lia|repeat (constructor; [unfold word; lia|]); constructor|constructor|reflexivity|reflexivity|lia]. }
  split; [|vm_compute; reflexivity].
  apply attr3_holds; [apply plain_name; reflexivity| |apply row_space_is; unfold word; lia|reflexivity|reflexivity|reflexivity|exact I|exact I|exact I|left; reflexivity|].
  { apply (ForeignTypeSpec.is_seq known_version 1 FRef); [kn|exact ax_ref_is]. }
  apply value_any; [reflexivity|].
  change [2] with (zlen [HSlice (TNum U64) []; HSlice (TNum U64) [HNum U64 146]] :: []).
  apply (value_rows _ (FSeq FRef) []); [reflexivity|exact I|discriminate|].
  apply rows_cons; [apply (value_no_seq _ FRef); [unfold word; lia|unfold word; lia|exact I]|].
  rewrite <- (app_nil_r (descriptor_of 1 cx_at 1)). apply rows_cons; [|apply rows_nil].
  apply (value_seq _ FRef cx_at 1 (le 8 146) [HNum U64 146]); [unfold word, cx_at; lia|unfold word; lia| | |split; reflexivity].
  - exists (ax_objs 146), []. split; [|split; [left; reflexivity|discriminate]].
    exists (zrep 8 0). split; [apply Forall_cons; [split; [lia|split; reflexivity]|apply Forall_nil]|].
    split; [apply NoDup_cons; [intros []|apply NoDup_nil]|]. split; [left; reflexivity|here].
  - rewrite <- (app_nil_r (le 8 146)). apply rows_cons; [apply value_ref; unfold word; lia|apply rows_nil].
Qed.

Print Assumptions C78_group_partial.
Print Assumptions C78_variable_partial.
Print Assumptions C78_example.
Print Assumptions C78_strings_refuted.
Print Assumptions C78_row_refuted.
Print Assumptions C78_opaque_refuted.
Print Assumptions C78_one_member_refuted.
Print Assumptions C78_one_in_sequence_refuted.
Print Assumptions C78_scales_refuted.
