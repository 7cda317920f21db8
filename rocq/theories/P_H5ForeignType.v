(** C76: the messages of files of other writers: datatypes, dataspaces, fill values, layouts, filter
    pipelines and attributes, of every version of the format.  They are those of ForeignTypeSpec and
    ForeignMsgSpec, which have them from the format specification. *)
From Verif Require Import Prelude GoVal BaseLemmas H5Base H5MetaRead Lookup3Spec MetaSpec DenseSpec ForeignSpec H5DenseRead
  H5Value H5TypeRead H5PathModel H5RecordModel H5FileRead PathSpec H5DenseProofs H5BTreeProofs H5ApiPath H5ForeignProofs
  H5ForeignTree H5ForeignOpen H5ForeignApi P_H5Dense ForeignTypeSpec ForeignMsgSpec H5ForeignType H5ForeignMsg P_H5Foreign.
From Coq Require Import Lia ZifyBool ZifyNat Permutation.

(** ** Datatypes *)

(** What a datatype message says is what is read: the class, the size, the byte order and the sign
    of numbers, the names and offsets of members, the names and values of enumerations, the dimensions and the
    element types.  Zeros after it are left, unless opaque data come last.

    Missing: numbers with a fraction, strings and references of a version other than 1; offsets of
    3 bytes; more than 255 members or names; anything after opaque data in a compound.  For each of these, see below. *)
Theorem C76_type_partial t b pad :
  type_is known_version t b -> few_members t -> opaque_last t ->
  parseDatatype (b ++ zrep pad 0) = Ok (H5ForeignType.told t, if has_opaque t then [] else zrep pad 0).
Proof. intros H1 H2 H3. exact (type_read known_version t b pad (fun c v n H => H) H1 H2 H3). Qed.

(** ** Dataspaces, fill values, layouts, filters, attributes *)

Theorem C76_space b dims r : space_is b dims -> readDataspace (b ++ r) = Ok (dims, r).
Proof. exact (space_read b dims r). Qed.
(** [None]: nothing is said *)
Theorem C76_fill b x r : fill_is b x ->
  readFillValue (b ++ r) = Ok (match x with NoFill => Some None | DefaultFill => None | Fill v => Some (Some v) end, r).
Proof. exact (fill_read b x r). Qed.
Theorem C76_place b p r : place_is b p ->
  readDataLayout (b ++ r) =
    Ok (match p with
        | Compact data => LCompact data
        | Contiguous (Some a) size => LContiguous a size
        | Contiguous None _ => LNone
        | Chunked a shape elem => LChunked a shape elem
        end, r).
Proof. exact (place_read b p r). Qed.
(** Missing: filters other than compression, shuffling and checksums *)
Theorem C76_filters_partial b l r : filters_are b l -> Forall known_filter l ->
  readFilterPipeline (b ++ r) = Ok (map (fun d => (fd_id d, fd_vals d)) l, r).
Proof. exact (filters_read b l r). Qed.
(** The name, the dimensions and the type of an attribute, of each of the three versions.  Missing:
    shared types, attributes of numbers with a fraction and of references without elements, and
    what C76_type_partial leaves out. *)
Theorem C76_attribute_partial co b name t dims data pad :
  attribute_is known_version b name t dims data -> few_members t -> opaque_last t -> elements_there t data ->
  exists a, readAttribute co (b ++ zrep pad 0) = Ok a /\
    ra_name a = name /\ ra_dims a = dims /\ ra_ty a = H5ForeignType.told t /\ ra_co a = co.
Proof.
  intros Ha Hf Ho He.
  destruct (attribute_read known_version co b name t dims data (zrep pad 0) (fun _ _ _ h => h) Ha Hf Ho) as [tag [_ E]].
  rewrite E. clear E. pose proof (zlen_nonneg (zrep pad 0)).
  destruct t; cbn [H5ForeignType.told saveDf rbind dlen elements_there] in *;
    try (eexists; split; [reflexivity|]; repeat (split; [reflexivity|]); reflexivity).
  - replace (n <=? zlen (data ++ zrep pad 0)) with true by (rewrite zlen_app; lia).
    eexists; split; [reflexivity|]; repeat (split; [reflexivity|]); reflexivity.
  - replace (8 <=? zlen (data ++ zrep pad 0)) with true by (rewrite zlen_app; lia).
    eexists; split; [reflexivity|]; repeat (split; [reflexivity|]); reflexivity.
Qed.

(** ** Files *)

(** C73 with the messages of the format in the place of what the reader has no complaint about: any
    file whose datatypes, fill values, layouts, filters and attributes are such messages opens, and its groups,
    datasets and types are told as they are. *)
Theorem C76_tree_partial f n root kids :
  superblock_is f root -> object_is f message_is n root (FGroup kids) -> plain_names (FGroup kids) ->
  NoDup (below (FGroup kids)) -> (n <= List.length f)%nat -> zlen f < 2 ^ 63 ->
  exists o, openFile f = Ok o /\ forall h0 path, absolute path = true ->
    ((forall ks, ~ found_at (FGroup kids) (components path) (FGroup ks)) -> rgetGroup o h0 path = Err ENotFound) /\
    (forall ks, found_at (FGroup kids) (components path) (FGroup ks) ->
       exists h, rgetGroup o h0 path = Ok h /\ group_told o h ks).
Proof.
  intros HS HO. apply (C73_tree_partial f n root kids HS).
  exact (proj1 (object_weaken f message_is alone message_alone) n root (FGroup kids) HO).
Qed.

(** ** What is missing *)

(** The newer versions of numbers with a fraction, strings and references, which a library writes that
    is told to use the latest format *)
Definition real8_v3 : bytes := dt_head 1 3 (32 + 256 * 63) 8 ++ le 2 0 ++ le 2 64 ++ [52; 11; 0; 52] ++ le 4 1023.
Definition text_v3 : bytes := dt_head 3 3 0 5.
Definition ref_v4 : bytes := dt_head 7 4 0 8.
Theorem C76_version_refuted :
  type_is all_versions (FReal 8 false) real8_v3 /\ parseDatatype real8_v3 = Err EFloatingPoint /\
  type_is all_versions (FText 5) text_v3 /\ parseDatatype text_v3 = Err EInternal /\
  type_is all_versions FRef ref_v4 /\ parseDatatype ref_v4 = Err EUnsupportedReferenceVersion.
Proof.
  split; [apply (is_real8 all_versions 3 false); unfold all_versions; lia|]. split; [vm_compute; reflexivity|].
  split; [apply (is_text all_versions 3 5 0 0); unfold all_versions; lia|]. split; [vm_compute; reflexivity|].
  split; [apply (is_ref all_versions 4); unfold all_versions; lia|]. vm_compute; reflexivity.
Qed.

(** Of 257 members, one is read: the count is taken from one byte of the two. *)
Definition i8_v1 : bytes := dt_head 0 1 8 1 ++ le 2 0 ++ le 2 8.
Fixpoint many_members (k : nat) (off : Z) : list (bytes * Z * list Z * fty) :=
  match k with O => [] | Datatypes.S k => ([97], off, [], FInt 1 true false) :: many_members k (off + 1) end.
Fixpoint many_bytes (k : nat) (off : Z) : bytes :=
  match k with
  | O => []
  | Datatypes.S k => name_bytes 3 [97] ++ le (offset_width 3 257) off ++ [] ++ i8_v1 ++ many_bytes k (off + 1)
  end.
Lemma many_are k off : 0 <= off -> off + Z.of_nat k <= 257 ->
  members_are all_versions 3 257 (many_members k off) (many_bytes k off).
Proof.
  revert off. induction k as [|k IH]; intros off H1 H2; cbn [many_members many_bytes]; [apply members_nil|].
  apply members_cons.
  - constructor; [lia|constructor].
  - lia.
  - split; reflexivity.
  - apply (is_int all_versions 1 1 true false); [unfold all_versions; lia|left; reflexivity].
  - apply IH; lia.
Qed.
Definition ex_many : bytes := dt_head 6 3 257 257 ++ many_bytes 257 0.
Theorem C76_members_refuted :
  type_is all_versions (FComp 257 (many_members 257 0)) ex_many /\
  (let* (d, _) := parseDatatype ex_many in Ok d) = Ok (DComp 257 [([97], 0, [], DFixed 1 true false)]).
Proof.
  split; [|vm_compute; reflexivity].
  apply (is_comp all_versions 3 257 (many_members 257 0) (many_bytes 257 0)).
  - unfold all_versions; lia.
  - lia.
  - vm_compute; reflexivity.
  - apply many_are; lia.
Qed.

(** Opaque data in a compound, with a member after it *)
Definition opaque_first : bytes :=
  dt_head 6 3 2 3 ++ (name_bytes 3 [97] ++ le 1 0 ++ [] ++ (dt_head 5 1 (0 + 0) 2 ++ [] ++ zrep 0 0) ++
  (name_bytes 3 [98] ++ le 1 2 ++ [] ++ i8_v1 ++ [])).
Theorem C76_opaque_refuted :
  type_is all_versions (FComp 3 [([97], 0, [], FOpaque 2); ([98], 2, [], FInt 1 true false)]) opaque_first /\
  parseDatatype opaque_first = Err EInternal.
Proof.
  split; [|vm_compute; reflexivity].
  apply (is_comp all_versions 3 3 [([97], 0, [], FOpaque 2); ([98], 2, [], FInt 1 true false)]);
    [unfold all_versions; lia|lia|reflexivity|].
  apply (members_cons all_versions 3 3 [97] 0 [] (FOpaque 2)); [constructor; [lia|constructor]|lia|split; reflexivity| |].
  - apply (is_opaque all_versions 1 2 [] 0); [unfold all_versions; lia|lia|constructor|reflexivity|lia|reflexivity].
  - apply (members_cons all_versions 3 3 [98] 2 [] (FInt 1 true false)); [constructor; [lia|constructor]|lia|split; reflexivity| |apply members_nil].
    apply (is_int all_versions 1 1 true false); [unfold all_versions; lia|left; reflexivity].
Qed.

(** An attribute without elements (in a null dataspace, as other libraries have for an empty list), of
    numbers with a fraction *)
Definition real8_v1 : bytes := dt_head 1 1 (0 + 32 + 256 * 63) 8 ++ le 2 0 ++ le 2 64 ++ [52; 11; 0; 52] ++ le 4 1023.
Definition empty_attribute : bytes :=
  [3; 0] ++ le 2 2 ++ le 2 20 ++ le 2 4 ++ [0] ++ [97] ++ [0] ++ real8_v1 ++ [2; 0; 0; 2] ++ [].
Theorem C76_empty_attribute_refuted co :
  attribute_is known_version empty_attribute [97] (FReal 8 false) [] [] /\ readAttribute co empty_attribute = Err EInternal.
Proof.
  split; [|vm_compute; reflexivity].
  apply (attribute_v3 known_version 0 [97] (FReal 8 false) real8_v1 [] [2; 0; 0; 2] []); try lia; try reflexivity.
  - constructor; [lia|constructor].
  - apply (is_real8 known_version 1 false). split; [lia|]. split; [reflexivity|lia].
  - apply (space_v2 0 2 [] []); [unfold word; lia|constructor|constructor|reflexivity|reflexivity|lia].
Qed.

(** A named datatype of the file as the type of a dataset: C73_shared_type_refuted. *)

(** ** Examples *)

(** A compound of a big-endian number, one with a fraction, an array of an enumeration, a string and
    a string of varying length; in version 1 with dimensions for the members, and in version 3 *)
Definition ex_members (dims : list Z) (arr : fty) : list (bytes * Z * list Z * fty) :=
  [(bs "num", 0, [], FInt 2 true true); (bs "x", 8, [], FReal 8 false); (bs "e", 16, dims, arr);
   (bs "s", 20, [], FText 4); (bs "v", 24, [], FString (FText 1))].
Definition ex_enum : fty := FEnum 1 false false [bs "off"; bs "on"] [0; 200].
Definition ex_ty1 : fty := FComp 40 (ex_members [2; 2] ex_enum).
Definition ex_ty3 : fty := FComp 40 (ex_members [] (FArray [2; 2] ex_enum)).

Definition u8_v1 : bytes := dt_head 0 1 (bit false + 8 * bit false) 1 ++ le 2 0 ++ le 2 (8 * 1).
Definition i16be_v1 : bytes := dt_head 0 1 (bit true + 8 * bit true) 2 ++ le 2 0 ++ le 2 (8 * 2).
Definition enum_b (v : Z) : bytes :=
  dt_head 8 v 2 1 ++ u8_v1 ++ flat_map (name_bytes v) [bs "off"; bs "on"] ++ flat_map (int_bytes 1 false) [0; 200].
Definition array_b (v : Z) : bytes :=
  dt_head 10 v 0 4 ++ (if v <? 3 then [2; 0; 0; 0] ++ flat_map (le 4) [2; 2] ++ zrep (4 * 2) 0
                       else [2] ++ flat_map (le 4) [2; 2]) ++ enum_b v.
Definition vstr_b : bytes := dt_head 9 1 (1 + 16 * 0 + 256 * 1) 16 ++ dt_head 3 1 (0 + 16 * 0) 1.
Definition mdims (v : Z) (dims more : list Z) : bytes :=
  if v =? 1 then [zlen dims; 0; 0; 0] ++ le 4 0 ++ le 4 0 ++ flat_map (le 4) dims ++ flat_map (le 4) more else [].
Definition mem_b (v : Z) (name : bytes) (off : Z) (dims more : list Z) (b rest : bytes) : bytes :=
  name_bytes v name ++ le (offset_width v 40) off ++ mdims v dims more ++ b ++ rest.
Definition ex_bytes (v : Z) (dims more : list Z) (arr : bytes) : bytes :=
  dt_head 6 v 5 40 ++
  mem_b v (bs "num") 0 [] [0; 0; 0; 0] i16be_v1 (mem_b v (bs "x") 8 [] [0; 0; 0; 0] real8_v1
  (mem_b v (bs "e") 16 dims more arr (mem_b v (bs "s") 20 [] [0; 0; 0; 0] (dt_head 3 1 (1 + 16 * 0) 4)
  (mem_b v (bs "v") 24 [] [0; 0; 0; 0] vstr_b [])))).

Lemma known c v n : 1 <= v <= 4 -> (c = 1 \/ c = 3 \/ c = 7 -> v = 1) -> n < 2 ^ 16 -> known_version c v n.
Proof. intros H1 H2 H3. split; [exact H1|]. split; [exact H2|]. intros _. right. left. exact H3. Qed.
Lemma plain_name l : forallb (fun b => (0 <? b) && (b <? 256)) l = true -> name_ok l.
Proof. intros H. apply Forall_forall. intros b Hb. rewrite forallb_forall in H. specialize (H b Hb). cbn beta in H. lia. Qed.
Ltac kn := apply known; [lia|lia|lia].
Lemma words32 l : forallb (fun b => (0 <=? b) && (b <? 2 ^ 32)) l = true -> Forall (word 32) l.
Proof. intros H. apply Forall_forall. intros b Hb. rewrite forallb_forall in H. specialize (H b Hb). cbn beta in H. unfold word. lia. Qed.
Lemma ex_mdims v dims more : zlen dims + zlen more = 4 -> forallb (fun b => (0 <=? b) && (b <? 2 ^ 32)) (dims ++ more) = true ->
  (v <> 1 -> dims = []) -> dims_bytes v dims (mdims v dims more).
Proof.
  intros H1 H2 H3. unfold dims_bytes, mdims. destruct (v =? 1) eqn:E.
  - exists more. rewrite forallb_app in H2. apply andb_prop in H2. destruct H2 as [Ha Hb].
    split; [exact H1|]. split; [apply words32; exact Ha|]. split; [apply words32; exact Hb|reflexivity].
  - split; [apply H3; lia|reflexivity].
Qed.
Lemma ex_enum_is v : 1 <= v <= 4 -> type_is known_version ex_enum (enum_b v).
Proof.
  intros Hv. apply (is_enum known_version v 1 false false [bs "off"; bs "on"] [0; 200] u8_v1); try reflexivity; [kn| | |].
  - apply (is_int known_version 1 1 false false); [kn|left; reflexivity].
  - constructor; [|constructor; [|constructor]]; apply plain_name; reflexivity.
  - constructor; [|constructor; [|constructor]]; unfold int_in; lia.
Qed.
Lemma ex_array_is v : 2 <= v <= 4 -> type_is known_version (FArray [2; 2] ex_enum) (array_b v).
Proof.
  intros Hv. apply (is_array known_version v [2; 2] ex_enum (enum_b v)).
  - cbn [fsize fold_right ex_enum]. kn.
  - lia.
  - apply words32; reflexivity.
  - cbn. lia.
  - cbn. lia.
  - apply ex_enum_is. lia.
Qed.
Lemma ex_comp_is v dims more arr ab : 1 <= v <= 4 -> zlen dims + zlen more = 4 ->
  forallb (fun b => (0 <=? b) && (b <? 2 ^ 32)) (dims ++ more) = true -> (v <> 1 -> dims = []) ->
  type_is known_version arr ab -> type_is known_version (FComp 40 (ex_members dims arr)) (ex_bytes v dims more ab).
Proof.
  intros Hv H1 H2 H3 Ha. apply (is_comp known_version v 40 (ex_members dims arr)); [kn|lia|reflexivity|].
  assert (H0 : forall w, w <> 1 -> @nil Z = []) by reflexivity.
  unfold mem_b, ex_members.
  apply members_cons; [apply plain_name; reflexivity|lia|apply ex_mdims; [reflexivity|reflexivity|apply H0]| |].
  { apply (is_int known_version 1 2 true true); [kn|right; left; reflexivity]. }
  apply members_cons; [apply plain_name; reflexivity|lia|apply ex_mdims; [reflexivity|reflexivity|apply H0]| |].
  { apply (is_real8 known_version 1 false). kn. }
  apply members_cons; [apply plain_name; reflexivity|lia|apply ex_mdims; assumption|exact Ha|].
  apply members_cons; [apply plain_name; reflexivity|lia|apply ex_mdims; [reflexivity|reflexivity|apply H0]| |].
  { apply (is_text known_version 1 4 1 0); [kn|lia|lia|lia]. }
  apply members_cons; [apply plain_name; reflexivity|lia|apply ex_mdims; [reflexivity|reflexivity|apply H0]| |apply members_nil].
  apply (is_string known_version 1 (FText 1) (dt_head 3 1 (0 + 16 * 0) 1) 0 1); [kn| |lia|lia].
  apply (is_text known_version 1 1 0 0); [kn|lia|lia|lia].
Qed.
Definition ex_b1 : bytes := ex_bytes 1 [2; 2] [0; 0] (enum_b 1).
Definition ex_b3 : bytes := ex_bytes 3 [] [0; 0; 0; 0] (array_b 3).
Example C76_type_example :
  type_is known_version ex_ty1 ex_b1 /\ type_is known_version ex_ty3 ex_b3 /\
  few_members ex_ty1 /\ opaque_last ex_ty1 /\ few_members ex_ty3 /\ opaque_last ex_ty3 /\
  parseDatatype (ex_b3 ++ zrep 3 0) = Ok (DComp 40
    [(bs "num", 0, [], DFixed 2 true true); (bs "x", 8, [], DFloat 8 false);
     (bs "e", 16, [], DArray 4 [2; 2] (DEnum 1 1 false false [bs "off"; bs "on"] [HNum U8 0; HNum U8 200]));
     (bs "s", 20, [], DString 4); (bs "v", 24, [], DVlen 16 true (DString 1))], zrep 3 0).
Proof.
  split; [apply ex_comp_is; [lia|reflexivity|reflexivity|lia|apply ex_enum_is; lia]|].
  split; [apply ex_comp_is; [lia|reflexivity|reflexivity|reflexivity|apply ex_array_is; lia]|].
  split; [cbn; lia|]. split; [cbn; intuition discriminate|]. split; [cbn; lia|]. split; [cbn; intuition discriminate|]. vm_compute. reflexivity.
Qed.

(** A message of each of the other kinds: a dataspace with a limit, fill values, chunks, filters with
    parameters, and an attribute of two numbers *)
Definition ex_space : bytes := [1; 2; 1] ++ zrep 5 0 ++ flat_map (le 8) [3; 4] ++ flat_map (le 8) [3; undefined].
Definition ex_fill : bytes := [3; 2 + 4 * 1 + 32] ++ le 4 2 ++ [255; 1].
Definition ex_chunks : bytes := [3; 2; 3] ++ le 8 4096 ++ flat_map (le 4) [3; 2] ++ le 4 2.
Definition ex_filters : bytes :=
  [1; 2] ++ zrep 6 0 ++ flat_map filter_v1 [mkFilter 2 1 (bs "shuffle" ++ [0]) [2]; mkFilter 1 1 [] [6]].
Definition i16le_v1 : bytes := dt_head 0 1 (bit false + 8 * bit true) 2 ++ le 2 0 ++ le 2 (8 * 2).
Definition ex_attribute : bytes :=
  [1; 0] ++ le 2 (zlen (bs "range") + 1) ++ le 2 (zlen i16le_v1) ++ le 2 16 ++
  fill8 (bs "range" ++ [0]) ++ fill8 i16le_v1 ++ fill8 ([1; 1; 0] ++ zrep 5 0 ++ flat_map (le 8) [2] ++ []) ++ (le 2 7 ++ le 2 8).
Lemma words64 l : forallb (fun b => (0 <=? b) && (b <? 2 ^ 64)) l = true -> Forall (word 64) l.
Proof. intros H. apply Forall_forall. intros b Hb. rewrite forallb_forall in H. specialize (H b Hb). cbn beta in H. unfold word. lia. Qed.
Lemma ex_attribute_is : attribute_is known_version ex_attribute (bs "range") (FInt 2 true false) [2] (le 2 7 ++ le 2 8).
Proof.
  apply (attribute_v1 known_version (bs "range") (FInt 2 true false) i16le_v1 [2] ([1; 1; 0] ++ zrep 5 0 ++ flat_map (le 8) [2] ++ []));
    try reflexivity.
  - apply plain_name; reflexivity.
  - apply (is_int known_version 1 2 true false); [kn|right; left; reflexivity].
  - apply (space_v1 0 [2] []); [unfold word; lia|apply words64; reflexivity|constructor|reflexivity|reflexivity].
Qed.
Example C76_messages_example :
  space_is ex_space [3; 4] /\ readDataspace (ex_space ++ [9]) = Ok ([3; 4], [9]) /\
  fill_is ex_fill (Fill [255; 1]) /\ readFillValue (ex_fill ++ [9]) = Ok (Some (Some [255; 1]), [9]) /\
  place_is ex_chunks (Chunked (Some 4096) [3; 2] 2) /\ readDataLayout ex_chunks = Ok (LChunked (Some 4096) [3; 2] 2, []) /\
  filters_are ex_filters [mkFilter 2 1 (bs "shuffle" ++ [0]) [2]; mkFilter 1 1 [] [6]] /\
  readFilterPipeline ex_filters = Ok ([(2, [2]); (1, [6])], []) /\
  attribute_is known_version ex_attribute (bs "range") (FInt 2 true false) [2] (le 2 7 ++ le 2 8) /\
  readAttribute 5 ex_attribute = Ok (mkRattr (bs "range") [2] (DFixed 2 true false) (Some [7; 0; 8; 0]) None 5).
Proof.
  split.
  { apply (space_v1 1 [3; 4] [3; undefined]); [unfold word; lia|apply words64; reflexivity|apply words64; reflexivity|reflexivity|reflexivity]. }
  split; [vm_compute; reflexivity|]. split.
  { apply (fill_v3 2 1 [255; 1]); [lia|lia|reflexivity]. }
  split; [vm_compute; reflexivity|]. split.
  { apply (place_chunked (Some 4096) [3; 2] 2); [cbn; unfold undefined; lia|cbn; lia|apply words32; reflexivity|unfold word; lia]. }
  split; [vm_compute; reflexivity|]. split.
  { apply (filters_v1 [mkFilter 2 1 (bs "shuffle" ++ [0]) [2]; mkFilter 1 1 [] [6]]); [reflexivity|].
    apply Forall_cons; [|apply Forall_cons; [|apply Forall_nil]]; (split; [|reflexivity]); unfold filter_ok, word;
      cbn [fd_id fd_flags fd_name fd_vals]; (split; [lia|]); (split; [lia|]); (split; [reflexivity|]); (split; [reflexivity|]);
      apply words32; reflexivity. }
  split; [vm_compute; reflexivity|]. split; [exact ex_attribute_is|]. vm_compute. reflexivity.
Qed.

(** A file: a root group of one dataset with the compound as its type *)
Definition ex_data : list fmsg :=
  [fm 1 [2; 0; 0; 0]; fm 3 ex_b3; fm 5 [3; 2 + 4 * 1]; fm 8 ([4; 1] ++ le 8 undefined ++ le 8 40); fm 12 ex_attribute].
Definition ex_root : list fmsg := [gx_info; gx_hard (bs "a") 97].
Definition ex_head : bytes :=
  sealed (bs "OHDR" ++ [2; 1] ++ le 2 (zlen (chunk (HV2 false) ex_data 0)) ++ chunk (HV2 false) ex_data 0).
Definition ex_file : bytes := gx_super 97 ++ fx_head2 ex_root 0 ++ ex_head.
Example C76_file_example :
  superblock_is ex_file 48 /\ object_is ex_file message_is 2 48 (FGroup [(bs "a", 97, FData [])]) /\
  plain_names (FGroup [(bs "a", 97, FData [])]) /\ NoDup (below (FGroup [(bs "a", 97, FData [])])) /\
  (2 <= List.length ex_file)%nat /\ zlen ex_file < 2 ^ 63 /\
  P_H5Foreign.told ex_file (bs "/") = Ok ([], [bs "a"], []).
Proof.
  split; [apply (gx_super_is _ 97); [unfold word; lia|vm_compute; congruence|here]|].
  split; [|split; [|split; [|split; [|split]]]].
  - apply (is_group _ _ 2 0 1 48 ex_root [[]; [(bs "a", 97)]] []).
    + split; [lia|]. exists (HV2 false), ex_root. split.
      * apply gx_h2; [chunk2|reflexivity|here].
      * repeat (apply held_msg; [discriminate|]). apply held_nil.
    + lia.
    + apply Forall2_cons; [|apply Forall2_cons; [|apply Forall2_nil]].
      * right. right. split; [left; reflexivity|reflexivity].
      * left. split; [reflexivity|]. exists (bs "a"), 97. split; [|reflexivity]. exists 0, 0, 0, 0.
        split; [unfold word; lia|]. split; [unfold word; lia|]. split; [left; reflexivity|].
        split; [unfold word; lia|]. split; reflexivity.
    + right. exists ([0; 0] ++ le 8 undefined ++ le 8 undefined), undefined, undefined. split; [reflexivity|]. split.
      * exists 0, 0, 0, 0. unfold undefined. split; [unfold word; lia|]. split; [unfold word; lia|]. split; [unfold word; lia|].
        split; [unfold word; lia|]. split; [unfold word; lia|reflexivity].
      * left. split; reflexivity.
    + left. reflexivity.
    + discriminate.
    + apply Permutation_refl.
    + apply NoDup_cons; [intros []|apply NoDup_nil].
    + apply kids_cons; [|apply kids_nil].
      apply (is_data _ _ 1 0 97 ex_data [2; 0; 0; 0]).
      * split; [lia|]. exists (HV2 false), ex_data. split.
        -- exists 0. split; [chunk2|]. exists 1, [], [].
           split; [unfold word; lia|]. split; [reflexivity|]. split; [reflexivity|]. split; [reflexivity|].
           split; [vm_compute; reflexivity|]. split; [vm_compute; reflexivity|here].
        -- repeat (apply held_msg; [discriminate|]). apply held_nil.
      * lia.
      * assert (M : forall t b, message_body t b -> message_is t b).
        { intros t b H. exists b, 0. split; [rewrite app_nil_r; reflexivity|exact H]. }
        unfold ex_data. apply Forall_cons; [left; reflexivity|].
        repeat (apply Forall_cons; [right; right|]); [| | | |apply Forall_nil].
        -- split; [right; left; reflexivity|]. right. split; [discriminate|]. apply M. apply (body_type ex_ty3); apply C76_type_example.
        -- split; [do 3 right; left; reflexivity|]. right. split; [discriminate|]. apply M. apply (body_fill _ DefaultFill).
           apply (fill_v3_not 2 1); lia.
        -- split; [do 4 right; left; reflexivity|]. right. split; [discriminate|]. apply M. apply (body_place _ (Contiguous None 40)).
           apply (place_contiguous 4 None 40); [right; reflexivity|exact I|unfold word; lia].
        -- split; [do 6 right; left; reflexivity|]. right. split; [discriminate|]. apply M.
           apply (body_attribute _ _ _ _ _ ex_attribute_is); exact I.
      * reflexivity.
      * exists 0, [], 0. split; [unfold word; lia|]. split; [constructor|]. split; [constructor|].
        split; [reflexivity|]. split; [reflexivity|]. right. exists 0. split; [lia|reflexivity].
      * left. reflexivity.
  - apply plain_group. apply Forall_cons; [|apply Forall_nil]. cbn [fst snd].
    split; [split; [discriminate|intros [E|[]]; discriminate E]|apply plain_leaf; reflexivity].
  - apply NoDup_cons; [intros []|apply NoDup_nil].
  - vm_compute. lia.
  - vm_compute. reflexivity.
  - vm_compute. reflexivity.
Qed.

Print Assumptions C76_type_partial.
Print Assumptions C76_space.
Print Assumptions C76_fill.
Print Assumptions C76_place.
Print Assumptions C76_filters_partial.
Print Assumptions C76_attribute_partial.
Print Assumptions C76_tree_partial.
Print Assumptions C76_version_refuted.
Print Assumptions C76_members_refuted.
Print Assumptions C76_opaque_refuted.
Print Assumptions C76_empty_attribute_refuted.
Print Assumptions C76_type_example.
Print Assumptions C76_messages_example.
Print Assumptions C76_file_example.
