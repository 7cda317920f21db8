(** C80: parts of variables of files of other writers, read through a VarGetter. *)
From Coq Require Import Lia ZifyBool ZifyNat Permutation.
From Verif Require Import Prelude BaseLemmas GoVal ArraySpec H5Base H5ChecksumModel H5MetaWrite H5MetaRead H5Value H5TypeRead H5LayoutModel H5RecordModel ChunkSpec
  MetaSpec RecordSpec Lookup3Spec DenseSpec PathSpec FilterSpec ForeignSpec ForeignTypeSpec ForeignMsgSpec ForeignDataSpec ForeignValueSpec ForeignFilterSpec ForeignSliceSpec
  H5PathModel H5FileRead H5PipeModel H5GetterModel H5MetaProofs H5DenseRead H5DenseProofs P_H5Dense H5PathProofs H5ApiPath H5ApiProofs H5ForeignProofs H5ForeignTree H5ForeignOpen H5ForeignApi
  P_H5Foreign H5ForeignMsg H5ForeignType P_H5ForeignType H5ForeignValue H5ForeignData H5ForeignVar P_H5ForeignValue H5PipeProofs H5PipeVar P_H5ForeignFilter
  H5RecordProofs H5ChecksumProofs H5CallProofs H5GetterProofs.

(** A variable that is listed is the object that the tree has *)
Lemma variable_found f n root kids :
  superblock_is f root -> object_is f message_is n root (FGroup kids) -> plain_names (FGroup kids) ->
  NoDup (below (FGroup kids)) -> (n <= List.length f)%nat -> zlen f < 2 ^ 63 ->
  exists o, openFile f = Ok o /\ forall h0 path ks name a dims,
    absolute path = true -> found_at (FGroup kids) (components path) (FGroup ks) -> In (name, a, FData dims) ks ->
    exists h, rgetGroup o h0 path = Ok h /\
      (In name (listVariables o h) -> exists ob, findVariable h name = Some ob /\ came f name a (FData dims) ob).
Proof.
  intros HS HO HN HB Hn Hf. pose proof (proj1 (object_weaken f message_is alone message_alone) n root (FGroup kids) HO) as HO'.
  destruct (file_opened f n root kids HS HO' HB Hn Hf) as (o & E & Hs).
  exists o. split; [exact E|]. intros h0 path ks name a dims Ha F Hi.
  pose proof (objects_distinct _ _ _ _ _ HO') as HD.
  rewrite (rgetGroup_follow o h0 path (or_introl Ha)). rewrite Ha.
  destruct (follow_found _ _ _ _ F ks o eq_refl Hs HD) as (g & Er & Hg). rewrite Er.
  eexists. split; [reflexivity|]. intros Hl.
  inversion Hg as [ks' i cs os G GD Hp Hk| |]; subst.
  destruct (in_shown _ _ _ _ Hp Hk _ _ _ Hi) as (ob & Ho & Hsh & Hc). exists ob. split; [|exact Hc].
  match type of Hl with In _ (listVariables _ ?hh) => set (h := hh) in * end.
  assert (N : NoDup (map fst cs)).
  { apply (Permutation_NoDup (Permutation_sym (shown_keys _ _ _ _ Hp Hk))). apply (HD _ _ F). }
  pose proof (In_assoc _ _ _ N Ho) as Ea.
  assert (LV : listVariables o h = found h (map fst cs)).
  { apply (lv_on h (components path) eq_refl (components_clean path) (components path) o [] (RObj i cs)
             (shows_proper _ _ _ Hs HD HN) (Forall_nil _) eq_refl Er). }
  rewrite LV in Hl. unfold found in Hl. apply in_flat_map in Hl. destruct Hl as (n' & _ & Hx).
  destruct (findVariable h n') as [o'|] eqn:Ef; [|destruct Hx]. destruct Hx as [->|[]].
  rewrite Ef. unfold findVariable in Ef. cbn [h rh_obj r_children] in Ef. rewrite Ea in Ef.
  destruct (isDimensionScale (r_attrs ob)); [discriminate|]. destruct (ri_dims (r_info ob)); [|discriminate]. symmetry. exact Ef.
Qed.

(** What Open keeps of a variable *)
Lemma variable_kept f name a o fs dims t p fill : zlen f < 2 ^ 63 -> came f name a (FData dims) o -> variable_at f message_is a fs dims t p fill ->
  Forall (fun n => n < 2 ^ 63) dims ->
  let i := r_info o in
  ri_dims i = Some dims /\ ri_ty i = Some (H5ForeignType.told t) /\ keeps p i /\
  repeats (fsize t) (fillOf i (H5ForeignType.told t)) fill /\ fill_usable i = true /\
  ri_filters i = map (fun d => (fd_id d, fd_vals d)) fs /\ zlen fs < 2 ^ 8 /\ 0 < fsize t < 2 ^ 32 /\
  Forall (fun n => 0 <= n < 2 ^ 63) dims /\ exists tb, type_is known_version t tb.
Proof.
  intros Hf Hc [[-> Hda]|Hda] Hdm i.
  - destruct (came_data f name a o dims t p fill Hf Hc (dataset_weaken _ _ _ _ _ _ _ _ message_alone Hda)) as (E1 & E2 & E3 & E4 & E5).
    split; [exact E1|]. split; [exact E2|]. split; [exact E3|]. split; [exact E4|].
    assert (E : fill_usable i = true /\ ri_filters i = []).
    { unfold data_modelled in E5. unfold fill_usable, i. destruct (ri_filters (r_info o)); [|discriminate]. split; [|reflexivity].
      destruct (ri_fill (r_info o)); [reflexivity|]. destruct (ri_fillOld (r_info o)) as [[|]|]; [discriminate| |]; reflexivity. }
    destruct E as [E6 E7]. split; [exact E6|]. split; [exact E7|]. split; [reflexivity|].
    destruct Hda as (c & l & sb & _ & _ & _ & (flags & most & pad & _ & W & _) & _ & l1 & l2 & tb & ? & ? & ? & _ & _ & _ & _ & _ & _ & Ht & _).
    split; [exact (type_size _ _ _ Ht)|]. split; [|exists tb; exact Ht].
    rewrite Forall_forall in *. intros n Hi. specialize (W n Hi). specialize (Hdm n Hi). unfold word in W. lia.
  - destruct (came_filtered f name a o fs dims t p fill Hf Hc (filtered_weaken _ _ _ _ _ _ _ _ _ message_alone Hda)) as (E1 & E2 & E3 & E4 & E5 & E6).
    split; [exact E1|]. split; [exact E2|]. split; [exact E3|]. split; [exact E4|]. split; [exact E5|]. split; [exact E6|].
    destruct Hda as (c & l & sb & _ & _ & _ & (flags & most & pad & _ & W & _) & _ & l1 & l2 & tb & ? & ? & ? & ? & ? & _ & _ & _ & _ & _ & _ & Hff & _ & Ht & _).
    split; [destruct Hff; assumption|]. split; [exact (type_size _ _ _ Ht)|]. split; [|exists tb; exact Ht].
    rewrite Forall_forall in *. intros n Hi. specialize (W n Hi). specialize (Hdm n Hi). unfold word in W. lia.
Qed.

(** GetVarGetter succeeds if GetVariable does, and tells the same *)
Definition same_told (inflate : bytes -> res bytes) (f : bytes) (o : robj) (h : rhandle) (name : bytes) (v : hval) : Prop :=
  forall r, getVariablePiped inflate f o h name = Ok r -> rv_val r = v /\
    exists g, getVarGetter inflate f o h name = Ok g /\ rg_dims g = rv_dims r /\ rg_attrs g = rv_attrs r.

Lemma getter_told inflate f o h name ob dims t v : findVariable h name = Some ob ->
  ri_dims (r_info ob) = Some dims -> ri_ty (r_info ob) = Some t -> fill_usable (r_info ob) = true ->
  (let d := piped_dset inflate (r_info ob) dims t in fst (getData f (readGlobalHeap f) d true (opened d (ri_blocks (r_info ob)))) = Ok v) ->
  same_told inflate f o h name v /\
  forall g, getVarGetter inflate f o h name = Ok g ->
    rg_dset g = piped_dset inflate (r_info ob) dims t /\ rg_blocks g = ri_blocks (r_info ob) /\ rg_shape g = map i64 dims /\
    rg_len g = varLen (piped_dset inflate (r_info ob) dims t).
Proof.
  intros FV E1 E2 E3 V. split.
  - intros r. unfold getVariablePiped, getVarGetter. rewrite FV, E1, E2, E3. cbn [negb rbind]. cbv zeta in *. rewrite V. cbn [rbind].
    destruct (sortAttrList f (ri_attrs (r_info ob))) as [l| |]; cbn [rbind]; try discriminate.
    destruct (getDimensions f o l) as [ds| |]; cbn [rbind]; try discriminate.
    destruct (getAttributes f l) as [at_| |]; cbn [rbind]; try discriminate. intros [= <-]. split; [reflexivity|].
    eexists. split; [reflexivity|]. split; reflexivity.
  - intros g. unfold getVarGetter. rewrite FV, E1, E2, E3. cbn [negb]. cbv zeta.
    destruct (sortAttrList f (ri_attrs (r_info ob))) as [l| |]; cbn [rbind]; try discriminate.
    destruct (getDimensions f o l) as [ds| |]; cbn [rbind]; try discriminate.
    destruct (getAttributes f l) as [at_| |]; cbn [rbind]; try discriminate. intros [= <-]. repeat split.
Qed.

Lemma map_i64 dims : Forall (fun n => 0 <= n < 2 ^ 63) dims -> map i64 dims = dims.
Proof. induction 1 as [|n ds Hn _ IH]; cbn [map]; [reflexivity|]. rewrite IH, i64_small by lia. reflexivity. Qed.
Lemma told_no_array t : array_free t -> no_array (H5ForeignType.told t).
Proof. unfold array_free. destruct t; cbn; try exact (fun _ => I). discriminate. Qed.
Lemma told_no_enum t : enum_free t -> no_enum (H5ForeignType.told t).
Proof. destruct t; cbn; try exact (fun x => x). destruct t; cbn; exact (fun x => x). Qed.

Lemma listed_sequence t : listed t -> sequence (H5ForeignType.told t).
Proof. intros [t' H]. cbn [H5ForeignType.told]. constructor. destruct t'; try contradiction; exact I. Qed.
Lemma fixed_not_listed t : fixed t -> ~ listed t.
Proof. intros H L. destruct L. inversion H. Qed.
Lemma cut_part uses t tb dims v k ds b e : type_is uses t tb -> cuttable t dims v -> dims = k :: ds -> b < e \/ ~ listed t ->
  H5SliceProofs.sliced (H5ForeignType.told t) k ds v b e.
Proof.
  intros Ht [H|[H|(-> & s & -> & Es)]] Ed Hq.
  - left. exact (fixed_sized _ _ _ Ht H).
  - right. left. split; [exact (listed_sequence _ H)|]. destruct Hq as [Hq|Hq]; [exact Hq|contradiction].
  - right. right. rewrite Es in Ed. injection Ed as <- <-. split; [reflexivity|]. split; [reflexivity|]. exists s. split; reflexivity.
Qed.

(** Values, GetSlice and GetSliceMD of a variable in any tree of groups give the value that is stored and its parts, in
    any order of calls, if the rows of the variable follow each other, compressed or not; and so does Values for a
    variable without dimensions.
    Missing: chunks that are not runs (next theorem, and C80_slices_refuted); the sequences and characters that C44 leaves
    out; GetSliceMD of enumerations and characters; arrays after other calls; calls of GetVariable in between (C43); what is missing in C79. *)
Theorem C80_slices_partial (deflated : bytes -> bytes -> Prop) inflate f n root kids :
  (forall d s, deflated d s -> inflate s = Ok d) ->
  superblock_is f root -> object_is f message_is n root (FGroup kids) -> plain_names (FGroup kids) ->
  NoDup (below (FGroup kids)) -> (n <= List.length f)%nat -> zlen f < 2 ^ 63 ->
  exists o, openFile f = Ok o /\ forall h0 path ks name a dims t p fill fs b v,
    absolute path = true -> found_at (FGroup kids) (components path) (FGroup ks) -> In (name, a, FData dims) ks ->
    variable_at f message_is a fs dims t p fill -> Forall (fun n => n < 2 ^ 63) dims ->
    by_rows deflated f fs dims (fsize t) fill p b -> array_is (in_global_heap f) t dims b v -> zlen b < 2 ^ 63 ->
    exists h, rgetGroup o h0 path = Ok h /\
      (In name (listVariables o h) ->
         same_told inflate f o h name v /\
         forall g, getVarGetter inflate f o h name = Ok g ->
           rg_shape g = dims /\ rg_len g = match dims with [] => 1 | k :: _ => k end /\
           (dims = [] -> getterCall f g VValues (getterAfter f g []) = Ok v /\ getterCall f g (VSlice 0 1) (getterAfter f g []) = Ok v) /\
           (forall k ds cs, dims = k :: ds -> cuttable t dims v -> ~ In VGet cs -> cs = [] \/ array_free t ->
              let st := getterAfter f g cs in
              getterCall f g VValues st = Ok v /\
              parts_of v k (~ listed t) (fun b e => getterCall f g (VSlice b e) st) /\
              (enum_free t -> fixed t \/ listed t -> boxes_of v dims (~ listed t) (fun bs es => getterCall f g (VSliceMD bs es) st)))).
Proof.
  intros Hinf HS HO HN HB Hn Hf. destruct (variable_found f n root kids HS HO HN HB Hn Hf) as (o & E & HF).
  exists o. split; [exact E|]. intros h0 path ks name a dims t p fill fs b v Ha F Hi Hva Hdm Hst Hv Hb.
  destruct (HF h0 path ks name a dims Ha F Hi) as (h & Eh & HL). exists h. split; [exact Eh|]. intros Hl.
  destruct (HL Hl) as (ob & FV & Hc).
  destruct (variable_kept f name a ob fs dims t p fill Hf Hc Hva Hdm) as (E1 & E2 & E3 & E4 & E5 & E6 & E7 & E8 & E9 & tb & ET).
  set (i := r_info ob) in *.
  pose proof (rows_value deflated inflate Hinf f i dims t fill fs p b v Hf E9 E8 E3 E4 E6 E7 Hv Hb Hst) as V.
  destruct (getter_told inflate f o h name ob dims (H5ForeignType.told t) v FV E1 E2 E5 V) as [ST GT]. fold i in GT.
  split; [exact ST|]. intros g Hg. destruct (GT g Hg) as (G1 & G2 & G3 & G4). clear GT ST.
  unfold getterCall, getterAfter. rewrite G1, G2, G3, G4. set (d := piped_dset inflate i dims (H5ForeignType.told t)) in *.
  split; [apply map_i64; exact E9|]. split.
  { unfold varLen. cbn [d piped_dset d_dims]. destruct dims as [|k ds]; [reflexivity|]. inversion E9; subst. apply i64_small. lia. }
  split.
  { intros ->. cbn [vrun vstep]. unfold getSlice, varLen. cbn [d piped_dset d_dims Z.eqb andb]. split; exact V. }
  intros k ds cs Ed Hfx Hcs Har. cbv zeta.
  assert (Hk : 0 <= k < 2 ^ 63) by (rewrite Ed in E9; inversion E9; assumption).
  assert (Same : forall c, c <> VGet -> fst (vstep f (readGlobalHeap f) d c (vrun f (readGlobalHeap f) d cs (opened d (ri_blocks i)))) =
                                        fst (vstep f (readGlobalHeap f) d c (opened d (ri_blocks i)))).
  { intros c Hcg. destruct Har as [->|Har]; [reflexivity|].
    apply slices_independent; [exact (told_no_array _ Har)|cbn [d piped_dset d_dims]; rewrite Ed; discriminate|right; exact Hcs|exact Hcg]. }
  pose proof (fun b0 e0 Hq => rows_sliced deflated inflate Hinf f i dims t fill fs p b v Hf E9 E8 E3 E4 E6 E7 Hv Hb k ds b0 e0 Hst
                (cut_part _ _ _ _ _ _ _ b0 e0 ET Hfx Ed Hq) Ed) as SL.
  fold d in SL.
  assert (Q0 : 0 < k \/ ~ listed t).
  { destruct Hfx as [Hfx|[Hfx|(-> & _)]]; [right; exact (fixed_not_listed _ Hfx)| |right; intros L; inversion L].
    left. exact (sequence_dims deflated inflate Hinf f dims t b v Hf E9 Hv k ds (listed_sequence _ Hfx) Ed). }
  split; [|split].
  - rewrite Same by discriminate. cbn [vstep].
    assert (EL : varLen d = k) by (unfold varLen; cbn [d piped_dset d_dims]; rewrite Ed; apply i64_small; lia). rewrite EL.
    destruct (SL 0 k Q0 ltac:(lia) ltac:(lia)) as (v' & S1 & _ & S3). rewrite S1. rewrite (S3 eq_refl eq_refl). reflexivity.
  - intros b0 e0 B1 B2 Hq. rewrite Same by discriminate. cbn [vstep]. destruct (SL b0 e0 Hq B1 B2) as (v' & S1 & S2 & _). exists v'. split; assumption.
  - intros Hen Hfl bs_ es Hbd Hq. rewrite Same by discriminate. cbn [vstep].
    assert (SH : shaped dims v).
    { apply (value_shaped deflated inflate Hinf f dims t b v Hf E9 Hv). destruct Hfl as [Hfl|Hfl]; [left; split; [exact (fixed_sized _ _ _ ET Hfl)|exact (told_no_enum _ Hen)]|].
      right. exact (listed_sequence _ Hfl). }
    rewrite Ed in Hbd, SH. inversion Hbd as [|? ? b0 br e0 er B1 B2 B3]; subst bs_ es.
    cbn [hd] in Hq. destruct (SL b0 e0 Hq B1 B2) as (v' & S1 & S2 & _).
    exact (slices_md f (readGlobalHeap f) d (ri_blocks i) k ds (b0 :: br) (e0 :: er) b0 br e0 er v v' eq_refl eq_refl Ed E9 Hbd SH S1 S2).
Qed.

(** In chunks of any orderly shape, Values and the slices from the start are right. *)
Theorem C80_start_partial (deflated : bytes -> bytes -> Prop) inflate f n root kids :
  (forall d s, deflated d s -> inflate s = Ok d) ->
  superblock_is f root -> object_is f message_is n root (FGroup kids) -> plain_names (FGroup kids) ->
  NoDup (below (FGroup kids)) -> (n <= List.length f)%nat -> zlen f < 2 ^ 63 ->
  exists o, openFile f = Ok o /\ forall h0 path ks name a dims t p fill fs b v,
    absolute path = true -> found_at (FGroup kids) (components path) (FGroup ks) -> In (name, a, FData dims) ks ->
    variable_at f message_is a fs dims t p fill -> Forall (fun n => n < 2 ^ 63) dims ->
    by_chunks deflated f fs dims (fsize t) fill p b -> array_is (in_global_heap f) t dims b v ->
    exists h, rgetGroup o h0 path = Ok h /\
      (In name (listVariables o h) ->
         same_told inflate f o h name v /\
         forall g, getVarGetter inflate f o h name = Ok g ->
           rg_shape g = dims /\
           forall k ds cs, dims = k :: ds -> cuttable t dims v -> ~ In VGet cs -> cs = [] \/ array_free t ->
              let st := getterAfter f g cs in
              rg_len g = k /\ getterCall f g VValues st = Ok v /\
              forall e, 0 <= e <= k -> 0 < e \/ ~ listed t -> exists v', getterCall f g (VSlice 0 e) st = Ok v' /\ vpart v 0 e = Some v').
Proof.
  intros Hinf HS HO HN HB Hn Hf. destruct (variable_found f n root kids HS HO HN HB Hn Hf) as (o & E & HF).
  exists o. split; [exact E|]. intros h0 path ks name a dims t p fill fs b v Ha F Hi Hva Hdm Hst Hv.
  destruct (HF h0 path ks name a dims Ha F Hi) as (h & Eh & HL). exists h. split; [exact Eh|]. intros Hl.
  destruct (HL Hl) as (ob & FV & Hc).
  destruct (variable_kept f name a ob fs dims t p fill Hf Hc Hva Hdm) as (E1 & E2 & E3 & E4 & E5 & E6 & E7 & E8 & E9 & tb & ET).
  set (i := r_info ob) in *.
  assert (V : let d := piped_dset inflate i dims (H5ForeignType.told t) in fst (getData f (readGlobalHeap f) d true (opened d (ri_blocks i))) = Ok v).
  { apply (filtered_value deflated inflate Hinf f i dims t p fill fs b v Hf E9 E8 E3 E4 E6 E7); [|exact Hv].
    inversion Hst; subst. eapply as_filtered; eassumption. }
  destruct (getter_told inflate f o h name ob dims (H5ForeignType.told t) v FV E1 E2 E5 V) as [ST GT]. fold i in GT.
  split; [exact ST|]. intros g Hg. destruct (GT g Hg) as (G1 & G2 & G3 & G4). clear GT ST.
  unfold getterCall, getterAfter. rewrite G1, G2, G3, G4. set (d := piped_dset inflate i dims (H5ForeignType.told t)) in *.
  split; [apply map_i64; exact E9|]. intros k ds cs Ed Hfx Hcs Har. cbv zeta.
  assert (Hk : 0 <= k < 2 ^ 63) by (rewrite Ed in E9; inversion E9; assumption).
  assert (Same : forall c, c <> VGet -> fst (vstep f (readGlobalHeap f) d c (vrun f (readGlobalHeap f) d cs (opened d (ri_blocks i)))) =
                                        fst (vstep f (readGlobalHeap f) d c (opened d (ri_blocks i)))).
  { intros c Hcg. destruct Har as [->|Har]; [reflexivity|].
    apply slices_independent; [exact (told_no_array _ Har)|cbn [d piped_dset d_dims]; rewrite Ed; discriminate|right; exact Hcs|exact Hcg]. }
  pose proof (fun e0 Hq => chunks_sliced deflated inflate Hinf f i dims t fill fs p b v Hf E9 E8 E3 E4 E6 E7 Hv k ds e0 Hst
                (cut_part _ _ _ _ _ _ _ 0 e0 ET Hfx Ed Hq) Ed) as SL.
  fold d in SL.
  assert (Q0 : 0 < k \/ ~ listed t).
  { destruct Hfx as [Hfx|[Hfx|(-> & _)]]; [right; exact (fixed_not_listed _ Hfx)| |right; intros L; inversion L].
    left. exact (sequence_dims deflated inflate Hinf f dims t b v Hf E9 Hv k ds (listed_sequence _ Hfx) Ed). }
  assert (EL : varLen d = k) by (unfold varLen; cbn [d piped_dset d_dims]; rewrite Ed; apply i64_small; lia).
  split; [exact EL|]. split.
  - rewrite Same by discriminate. cbn [vstep]. rewrite EL.
    destruct (SL k Q0 ltac:(lia)) as (v' & S1 & _ & S3). rewrite S1. rewrite (S3 eq_refl). reflexivity.
  - intros e0 B Hq. rewrite Same by discriminate. cbn [vstep]. destruct (SL e0 Hq B) as (v' & S1 & S2 & _). exists v'. split; assumption.
Qed.

(** ** A file: a compressed variable of two rows in chunks of half rows; one chunk is not stored *)
Definition yx_c1 : bytes := flat_map (le 2) [1; 2].
Definition yx_c2 : bytes := flat_map (le 2) [3; 4].
Definition yx_c3 : bytes := flat_map (le 2) [7; 8].
Definition yx_kdata : bytes := flat_map (le 2) [1; 2; 3; 4; 511; 511; 7; 8].
Definition yx_kvals : hval := HSlice (TSlice (TNum I16)) [row16 [1; 2; 3; 4]; row16 [511; 511; 7; 8]].
Definition yx_layout (a : Z) : bytes := [3; 2; 3] ++ le 8 a ++ flat_map (le 4) [1; 2] ++ le 4 2.
Definition yx_space : bytes := [2; 2; 0; 1] ++ le 8 2 ++ le 8 4.
Definition yx_k (a : Z) : list fmsg := [fm 1 yx_space; fm 3 i16le_v1; fm 5 ex_fill; fm 11 zx_fb; fm 8 (yx_layout a)].
Definition yx_packed (c : bytes) : bytes := checked (zx_stream (shuffle 2 c)).
Definition yx_es : list (key * Z) := [(mkKey 19 0 [0; 0], 219); (mkKey 8 2 [0; 2], 238); (mkKey 19 0 [1; 2], 246)].
Definition yx_last : key := mkKey 0 0 [2; 4].
Definition yx_node : bytes := RecordSpec.node_bytes 0 (2 ^ 64 - 1) (2 ^ 64 - 1) yx_es yx_last.
Definition yx_file : bytes :=
  gx_super 441 ++ fx_head2 zx_root 0 ++ fx_head2 (yx_k 265) 0 ++ yx_packed yx_c1 ++ checked (shuffle 2 yx_c2) ++ yx_packed yx_c3 ++ yx_node.
Definition yx_kids : list (bytes * Z * ftree) := [(bs "k", 97, FData [2; 4])].
(** Calls of a getter after others, from the file on *)
Definition got_calls (inflate : bytes -> res bytes) (f : bytes) (path name : bytes) (cs : list vcall) (c : vcall) : res hval :=
  let* o := openFile f in
  let* h := rgetGroup o (mkRh [47] o) path in
  let* g := getVarGetter inflate f o h name in
  getterCall f g c (getterAfter f g cs).

Lemma yx_space_is : dataspace yx_space [2; 4].
Proof.
  exists 0, [], 0. split; [unfold word; lia|]. split; [constructor; [unfold word; lia|constructor; [unfold word; lia|constructor]]|]. split; [constructor|].
  split; [reflexivity|]. split; [reflexivity|]. right. exists 1. split; [lia|reflexivity].
Qed.
Lemma yx_place : place_is (yx_layout 265) (Chunked (Some 265) [1; 2] 2).
Proof. apply (place_chunked (Some 265) [1; 2] 2); [cbn; unfold undefined; lia|cbn; lia|apply words32; reflexivity|unfold word; lia]. Qed.
Lemma yx_header : messages_are yx_file 0 97 (yx_k 265).
Proof.
  split; [lia|]. exists (HV2 false), (yx_k 265). split; [apply gx_h2; [chunk2|reflexivity|here]|].
    repeat (apply held_msg; [discriminate|]). apply held_nil.
Qed.
Lemma yx_messages : Forall (fun m => fm_type m = 1 \/ fm_type m = 21 \/ ForeignSpec.plain message_is [0; 3; 4; 5; 8; 11; 12; 13; 14; 18; 22] m) (yx_k 265).
Proof.
  apply Forall_cons; [left; reflexivity|].
  apply Forall_cons; [right; right|apply Forall_cons; [right; right|apply Forall_cons; [right; right|apply Forall_cons; [right; right|apply Forall_nil]]]].
    - apply vx_message; [right; left; reflexivity|discriminate|]. apply vx_padded. apply (body_type (FInt 2 true false)); [exact vx_i16_is|exact I|exact I].
    - apply vx_message; [do 3 right; left; reflexivity|discriminate|]. apply vx_padded. apply (body_fill _ _ vx_fill).
    - apply vx_message; [do 5 right; left; reflexivity|discriminate|]. apply vx_padded. apply (body_filters _ _ zx_filters_are zx_known).
    - apply vx_message; [do 4 right; left; reflexivity|discriminate|]. apply vx_padded. apply (body_place _ _ yx_place).
Qed.
Lemma yx_at : filtered_at yx_file message_is 97 zx_filters [2; 4] (FInt 2 true false) (Chunked (Some 265) [1; 2] 2) (Some [255; 1]).
Proof.
  exists O, (yx_k 265), yx_space. split; [exact yx_header|]. split; [exact yx_messages|].
  split; [reflexivity|]. split; [exact yx_space_is|]. split; [left; reflexivity|].
  exists [fm 1 yx_space; fm 3 i16le_v1; fm 5 ex_fill; fm 11 zx_fb], [fm 8 (yx_layout 265)],
    i16le_v1, 0, (yx_layout 265), 0, zx_fb, 0.
  rewrite !app_nil_r. split; [reflexivity|]. split; [reflexivity|]. split; [reflexivity|]. split; [reflexivity|]. split; [reflexivity|].
  split; [reflexivity|]. split; [exact zx_filters_are|]. split; [exact zx_known|].
  split; [exact vx_i16_is|]. split; [exact I|]. split; [exact I|]. split; [exact yx_place|].
  apply (told_new _ _ ex_fill 0 [255; 1]); [reflexivity|exact vx_fill|reflexivity].
Qed.
Lemma yx_value : array_is (in_global_heap yx_file) (FInt 2 true false) [2; 4] yx_kdata yx_kvals.
Proof.
  assert (R : forall l, Forall (fun z => - 2 ^ 15 <= z < 2 ^ 15) l ->
    array_is (in_global_heap yx_file) (FInt 2 true false) [zlen l] (flat_map (le 2) l) (row16 l)).
  { intros l H. unfold row16. rewrite <- (zlen_map (HNum I16) l). apply (value_rows _ (FInt 2 true false) []); [reflexivity|right; left; reflexivity|discriminate|].
    induction H as [|z l Hz H IH]; [apply rows_nil|]. cbn [flat_map map]. apply rows_cons; [|exact IH].
    apply (value_int _ 2 true false z); [right; left; reflexivity|exact Hz]. }
  unfold yx_kvals. change [2; 4] with (zlen [row16 [1; 2; 3; 4]; row16 [511; 511; 7; 8]] :: [4]).
  apply (value_rows _ (FInt 2 true false) [4]); [reflexivity|right; left; reflexivity|discriminate|].
  change yx_kdata with (flat_map (le 2) [1; 2; 3; 4] ++ flat_map (le 2) [511; 511; 7; 8] ++ []).
  repeat (apply rows_cons; [match goal with |- array_is _ _ _ (flat_map _ ?l) _ => apply (R l) end; repeat constructor; lia|]). apply rows_nil.
Qed.
Lemma yx_packed_is idx a c : has_at yx_file a (yx_packed c) -> zlen c = 4 ->
  forallb (fun b => (0 <=? b) && (b <? 256)) (zx_stream (shuffle 2 c)) = true ->
  sum_plain (zx_stream (shuffle 2 c)) -> zlen (yx_packed c) = 19 -> zlen (shuffle 2 c) = 4 ->
  chunk_is stored_stream yx_file zx_filters [1; 2] 2 (mkKey 19 0 idx, a) c.
Proof.
  intros Ha Hz Hb Hs Hp Hl. split; [rewrite Hz; reflexivity|]. split; [rewrite Hz; reflexivity|].
  exists [(Shuffled 2, c); (Deflated, shuffle 2 c); (Checked, zx_stream (shuffle 2 c))], (yx_packed c).
  split.
  { apply (enc_shuffle stored_stream 0 0 _ _ _ 2 []); [reflexivity|reflexivity|reflexivity|].
    apply (enc_deflate stored_stream 0 (0 + 1) _ _ _ (zx_stream (shuffle 2 c))); [reflexivity|reflexivity|split; [change (Z.to_nat 2) with 2%nat; rewrite Hl; reflexivity|reflexivity]|].
    apply enc_checksum; [reflexivity|reflexivity|apply small_bytes; exact Hb|]. apply enc_end. }
  split.
  { split; [lia|]. split; [exists 2; rewrite Hz; reflexivity|]. split; [exact Hs|exact I]. }
  split; [exact Ha|]. cbn [k_size fst]. rewrite Hp. split; [reflexivity|discriminate].
Qed.
Lemma yx_c1_is : chunk_is stored_stream yx_file zx_filters [1; 2] 2 (mkKey 19 0 [0; 0], 219) yx_c1.
Proof. apply yx_packed_is; [here|reflexivity|vm_compute; reflexivity|split; vm_compute; discriminate|vm_compute; reflexivity|reflexivity]. Qed.
Lemma yx_c3_is : chunk_is stored_stream yx_file zx_filters [1; 2] 2 (mkKey 19 0 [1; 2], 246) yx_c3.
Proof. apply yx_packed_is; [here|reflexivity|vm_compute; reflexivity|split; vm_compute; discriminate|vm_compute; reflexivity|reflexivity]. Qed.
Lemma yx_c2_is : chunk_is stored_stream yx_file zx_filters [1; 2] 2 (mkKey 8 2 [0; 2], 238) yx_c2.
Proof.
  split; [reflexivity|]. split; [reflexivity|].
  exists [(Shuffled 2, yx_c2); (Checked, shuffle 2 yx_c2)], (checked (shuffle 2 yx_c2)).
  split.
  { apply (enc_shuffle stored_stream 2 0 _ _ _ 2 []); [reflexivity|reflexivity|reflexivity|].
    apply enc_left_out; [reflexivity|].
    apply enc_checksum; [reflexivity|reflexivity|apply small_bytes; vm_compute; reflexivity|]. apply enc_end. }
  split.
  { split; [lia|]. split; [exists 2; reflexivity|]. split; [split; vm_compute; discriminate|]. split; [intros _; reflexivity|exact I]. }
  split; [cbn [snd]; here|]. split; [vm_compute; reflexivity|vm_compute; discriminate].
Qed.
Lemma yx_stored : by_rows stored_stream yx_file zx_filters [2; 4] 2 (Some [255; 1]) (Chunked (Some 265) [1; 2] 2) yx_kdata.
Proof.
  apply (rows_chunks stored_stream yx_file zx_filters [2; 4] 2 _ 265 [1; 2] (ILeaf yx_es yx_last)).
  - split; [reflexivity|]. split; [discriminate|]. split; [repeat constructor; lia|]. split; [repeat constructor; lia|]. split; reflexivity.
  - apply runs_one, runs_last; [lia|reflexivity].
  - split; [lia|]. split.
    { apply (stored_leaf yx_file 2 true 265 (2 ^ 64 - 1) (2 ^ 64 - 1)).
      - intros _. split; reflexivity.
      - split; [reflexivity|]. split; [split; [discriminate|reflexivity]|]. split; [split; [discriminate|reflexivity]|].
        split; [repeat constructor; (discriminate || reflexivity)|repeat constructor; (discriminate || reflexivity)].
      - here. }
    split; [constructor; repeat constructor; (discriminate || reflexivity)|]. split; [apply le_n_S, Nat.le_0_l|].
    vm_compute. repeat (apply NoDup_cons; [intros E; repeat destruct E as [E|E]; try discriminate E; destruct E|]). apply NoDup_nil.
  - apply ordered_leaf. repeat (apply Forall_cons; [split; repeat constructor; (discriminate || reflexivity)|]). apply Forall_nil.
  - split; [reflexivity|]. exists [yx_c1; yx_c2; yx_c3].
    split; [apply Forall2_cons; [exact yx_c1_is|apply Forall2_cons; [exact yx_c2_is|apply Forall2_cons; [exact yx_c3_is|apply Forall2_nil]]]|].
    intros idx I. inversion I as [|? x ? r Hx I1]; subst. inversion I1 as [|? y ? r' Hy I2]; subst. inversion I2; subst.
    assert (X : x = 0 \/ x = 1) by lia. assert (Y : y = 0 \/ y = 1 \/ y = 2 \/ y = 3) by lia.
    split.
    + intros c b [Hk|[Hk|[Hk|[]]]] Ek; injection Hk as <- <-;
        destruct X as [->| ->], Y as [->|[->|[->| ->]]]; try discriminate Ek; vm_compute; reflexivity.
    + intros Hno. exists [255; 1]. split; [reflexivity|]. split; [reflexivity|].
      destruct X as [->| ->], Y as [->|[->|[->| ->]]]; try (vm_compute; reflexivity); exfalso.
      * apply (Hno 219). exists (mkKey 19 0 [0; 0]). split; [left; reflexivity|reflexivity].
      * apply (Hno 219). exists (mkKey 19 0 [0; 0]). split; [left; reflexivity|reflexivity].
      * apply (Hno 238). exists (mkKey 8 2 [0; 2]). split; [right; left; reflexivity|reflexivity].
      * apply (Hno 238). exists (mkKey 8 2 [0; 2]). split; [right; left; reflexivity|reflexivity].
      * apply (Hno 246). exists (mkKey 19 0 [1; 2]). split; [right; right; left; reflexivity|reflexivity].
      * apply (Hno 246). exists (mkKey 19 0 [1; 2]). split; [right; right; left; reflexivity|reflexivity].
Qed.
Example C80_example :
  superblock_is yx_file 48 /\ object_is yx_file message_is 2 48 (FGroup yx_kids) /\ plain_names (FGroup yx_kids) /\
  NoDup (below (FGroup yx_kids)) /\ (2 <= List.length yx_file)%nat /\ zlen yx_file < 2 ^ 63 /\
  found_at (FGroup yx_kids) (components (bs "/")) (FGroup yx_kids) /\ In (bs "k", 97, FData [2; 4]) yx_kids /\
  variable_at yx_file message_is 97 zx_filters [2; 4] (FInt 2 true false) (Chunked (Some 265) [1; 2] 2) (Some [255; 1]) /\
  by_rows stored_stream yx_file zx_filters [2; 4] 2 (Some [255; 1]) (Chunked (Some 265) [1; 2] 2) yx_kdata /\
  array_is (in_global_heap yx_file) (FInt 2 true false) [2; 4] yx_kdata yx_kvals /\
  fixed (FInt 2 true false) /\ array_free (FInt 2 true false) /\ enum_free (FInt 2 true false) /\
  got_piped inflate_stored yx_file (bs "/") (bs "k") = Ok yx_kvals /\
  got_calls inflate_stored yx_file (bs "/") (bs "k") [VSlice 0 1] VValues = Ok yx_kvals /\
  got_calls inflate_stored yx_file (bs "/") (bs "k") [VValues] (VSlice 1 2) = Ok (HSlice (TSlice (TNum I16)) [row16 [511; 511; 7; 8]]) /\
  got_calls inflate_stored yx_file (bs "/") (bs "k") [VSlice 1 2] (VSliceMD [0; 1] [2; 3]) = Ok (HSlice (TSlice (TNum I16)) [row16 [2; 3]; row16 [511; 7]]).
Proof.
  split; [apply (gx_super_is _ 441); [unfold word; lia|vm_compute; congruence|here]|].
  split.
  { apply (is_group _ _ 2 0 1 48 zx_root [[]; [(bs "k", 97)]] []).
    + split; [lia|]. exists (HV2 false), zx_root. split.
      * apply gx_h2; [chunk2|reflexivity|here].
      * repeat (apply held_msg; [discriminate|]). apply held_nil.
    + lia.
    + apply Forall2_cons; [|apply Forall2_cons; [|apply Forall2_nil]].
      * right. right. split; [left; reflexivity|reflexivity].
      * left. split; [reflexivity|]. exists (bs "k"), 97. split; [|reflexivity]. exists 0, 0, 0, 0.
        split; [unfold word; lia|]. split; [unfold word; lia|]. split; [left; reflexivity|].
        split; [unfold word; lia|]. split; reflexivity.
    + right. exists ([0; 0] ++ le 8 undefined ++ le 8 undefined), undefined, undefined. split; [reflexivity|]. split.
      * exists 0, 0, 0, 0. unfold undefined. split; [unfold word; lia|]. split; [unfold word; lia|]. split; [unfold word; lia|].
        split; [unfold word; lia|]. split; [unfold word; lia|reflexivity].
      * left. split; reflexivity.
    + left. reflexivity.
    + discriminate.
    + apply Permutation_refl.
    + vm_compute. apply NoDup_cons; [intros []|apply NoDup_nil].
    + apply kids_cons; [|apply kids_nil].
      apply (is_data _ _ 1 0 97 (yx_k 265) yx_space [2; 4] yx_header); [lia|exact yx_messages|reflexivity|exact yx_space_is|left; reflexivity]. }
  split; [apply plain_group; repeat (apply Forall_cons; [cbn [fst snd]; split; [split; [discriminate|intros [E|[]]; discriminate E]|apply plain_leaf; reflexivity]|]); apply Forall_nil|].
  split; [vm_compute; apply NoDup_cons; [intros []|apply NoDup_nil]|].
  split; [apply Nat.leb_le; vm_compute; reflexivity|]. split; [vm_compute; reflexivity|].
  split; [apply found_here|]. split; [left; reflexivity|]. split; [right; exact yx_at|]. split; [exact yx_stored|]. split; [exact yx_value|].
  split; [constructor|]. split; [reflexivity|]. split; [exact I|].
  split; [vm_compute; reflexivity|]. split; [vm_compute; reflexivity|]. split; vm_compute; reflexivity.
Qed.
(** The records of C77_example, without filters; the chunks of C79_example are no runs *)
Example C80_more_examples :
  variable_at vx_file message_is 113 [] [2] vx_ty (Contiguous (Some 298) 48) (Some (ForeignDataSpec.zeros 24)) /\
  by_rows stored_stream vx_file [] [2] (fsize vx_ty) (Some (ForeignDataSpec.zeros 24)) (Contiguous (Some 298) 48) vx_data /\
  fixed vx_ty /\
  got_calls inflate_stored vx_file (bs "/") (bs "c") [] (VSlice 1 2) = Ok (HSlice TComp [vx_cval 259 []]) /\
  by_chunks stored_stream zx_file zx_filters [3; 3] 2 (Some [255; 1]) (Chunked (Some 254) [2; 2] 2) vx_kdata /\
  got_calls inflate_stored zx_file (bs "/") (bs "k") [VSlice 1 3] (VSlice 0 2) = Ok (HSlice (TSlice (TNum I16)) [row16 [1; 2; 511]; row16 [4; 5; 511]]).
Proof.
  split; [left; split; [reflexivity|exact vx_c_at]|].
  split; [change 48 with (zlen vx_data); apply rows_contiguous; [reflexivity|here]|].
  split; [constructor|].
  split; [vm_compute; reflexivity|].
  split; [|vm_compute; reflexivity].
  pose proof zx_stored as H. inversion H as [|a shape it b Hc Ho Hi Hin]; subst. apply (chunks_any stored_stream zx_file zx_filters [3; 3] 2 _ 254 [2; 2] it); try assumption.
  intros R. inversion R.
Qed.

(** ** A file: three sequences of numbers, the second without any *)
Definition sx_tb : bytes := dt_head 9 1 0 16 ++ i16le_v1.
Definition sx_ty : fty := FSeq (FInt 2 true false).
Definition sx_msgs : list fmsg := [fm 1 ([2; 1; 0; 1] ++ le 8 3); fm 3 sx_tb; fm 8 ([3; 1] ++ le 8 170 ++ le 8 48)].
Definition sx_data : bytes := descriptor_of 2 218 1 ++ descriptor_of 0 0 0 ++ descriptor_of 1 218 2.
Definition sx_objs : list (Z * bytes * bytes) := [(1, flat_map (le 2) [5; 6], zrep 4 0); (2, flat_map (le 2) [7], zrep 6 0)].
Definition sx_heap : bytes :=
  bs "GCOL" ++ [1; 0; 0; 0] ++ le 8 (16 + zlen (flat_map heap_object sx_objs ++ zrep 8 0)) ++ flat_map heap_object sx_objs ++ zrep 8 0.
Definition sx_file : bytes := gx_super 290 ++ fx_head2 zx_root 0 ++ fx_head2 sx_msgs 0 ++ sx_data ++ sx_heap.
Definition sx_vals : hval := HSlice (TSlice (TNum I16)) [row16 [5; 6]; row16 []; row16 [7]].
Lemma sx_tb_is : type_is known_version sx_ty sx_tb.
Proof. apply (ForeignTypeSpec.is_seq known_version 1 (FInt 2 true false) i16le_v1); [kn|exact vx_i16_is]. Qed.
Lemma sx_place : place_is ([3; 1] ++ le 8 170 ++ le 8 48) (Contiguous (Some 170) 48).
Proof. apply (place_contiguous 3 (Some 170) 48); [left; reflexivity|cbn; unfold undefined; lia|unfold word; lia]. Qed.
Lemma sx_header : messages_are sx_file 0 97 sx_msgs.
Proof.
  split; [lia|]. exists (HV2 false), sx_msgs. split; [apply gx_h2; [chunk2|reflexivity|here]|].
    repeat (apply held_msg; [discriminate|]). apply held_nil.
Qed.
Lemma sx_messages : Forall (fun m => fm_type m = 1 \/ fm_type m = 21 \/ ForeignSpec.plain message_is [0; 3; 4; 5; 8; 11; 12; 13; 14; 18; 22] m) sx_msgs.
Proof.
  apply Forall_cons; [left; reflexivity|]. apply Forall_cons; [right; right|apply Forall_cons; [right; right|apply Forall_nil]].
    - apply vx_message; [right; left; reflexivity|discriminate|]. apply vx_padded. apply (body_type sx_ty); [exact sx_tb_is|exact I|exact I].
    - apply vx_message; [do 4 right; left; reflexivity|discriminate|]. apply vx_padded. apply (body_place _ _ sx_place).
Qed.
Lemma sx_space : dataspace ([2; 1; 0; 1] ++ le 8 3) [3].
Proof.
  exists 0, [], 0. split; [unfold word; lia|]. split; [constructor; [unfold word; lia|constructor]|]. split; [constructor|].
    split; [reflexivity|]. split; [reflexivity|]. right. exists 1. split; [lia|reflexivity].
Qed.
Lemma sx_at : dataset_at sx_file message_is 97 [3] sx_ty (Contiguous (Some 170) 48) (Some (ForeignDataSpec.zeros 16)).
Proof.
  exists O, sx_msgs, ([2; 1; 0; 1] ++ le 8 3). split; [exact sx_header|]. split; [exact sx_messages|].
  split; [reflexivity|]. split; [exact sx_space|]. split; [left; reflexivity|].
  exists [fm 1 ([2; 1; 0; 1] ++ le 8 3); fm 3 sx_tb], [fm 8 ([3; 1] ++ le 8 170 ++ le 8 48)], sx_tb, 0, ([3; 1] ++ le 8 170 ++ le 8 48), 0.
  rewrite !app_nil_r. split; [reflexivity|]. split; [reflexivity|]. split; [reflexivity|]. split; [reflexivity|]. split; [reflexivity|].
  split; [reflexivity|]. split; [exact sx_tb_is|]. split; [exact I|]. split; [exact I|]. split; [exact sx_place|].
  apply told_nothing; reflexivity.
Qed.
Lemma sx_held k data pad : In (k, data, pad) sx_objs -> data <> [] -> in_global_heap sx_file 218 k data.
Proof.
  intros Hi Hd. exists sx_objs, pad. split; [|split; [exact Hi|exact Hd]].
  exists (zrep 8 0). split.
  { apply Forall_cons; [|apply Forall_cons; [|apply Forall_nil]]; (split; [lia|split; reflexivity]). }
  split; [apply NoDup_cons; [cbn; lia|apply NoDup_cons; [intros []|apply NoDup_nil]]|]. split; [left; reflexivity|here].
Qed.
Lemma sx_row l : Forall (fun z => - 2 ^ 15 <= z < 2 ^ 15) l -> rows_are (in_global_heap sx_file) (FInt 2 true false) [] (flat_map (le 2) l) (map (HNum I16) l).
Proof.
  induction 1 as [|z l Hz H IH]; [apply rows_nil|]. cbn [flat_map map]. apply rows_cons; [|exact IH].
  apply (value_int _ 2 true false z); [right; left; reflexivity|exact Hz].
Qed.
Lemma sx_value : array_is (in_global_heap sx_file) sx_ty [3] sx_data sx_vals.
Proof.
  unfold sx_vals, sx_data. change [3] with (zlen [row16 [5; 6]; row16 []; row16 [7]] :: []). rewrite <- (app_nil_r (descriptor_of 1 218 2)).
  apply (value_rows _ sx_ty []); [reflexivity|exact I|discriminate|].
  apply rows_cons; [|apply rows_cons; [|apply rows_cons; [|apply rows_nil]]].
  - apply (value_seq _ (FInt 2 true false) 218 1 (flat_map (le 2) [5; 6]) (map (HNum I16) [5; 6])); [unfold word; lia|unfold word; lia| |apply sx_row; repeat constructor; lia|split; reflexivity].
    apply (sx_held 1 _ (zrep 4 0)); [left; reflexivity|discriminate].
  - apply (value_no_seq _ (FInt 2 true false) 0 0); [unfold word; lia|unfold word; lia|]. right; left; reflexivity.
  - apply (value_seq _ (FInt 2 true false) 218 2 (flat_map (le 2) [7]) (map (HNum I16) [7])); [unfold word; lia|unfold word; lia| |apply sx_row; repeat constructor; lia|split; reflexivity].
    apply (sx_held 2 _ (zrep 6 0)); [right; left; reflexivity|discriminate].
Qed.
Example C80_sequences_example :
  variable_at sx_file message_is 97 [] [3] sx_ty (Contiguous (Some 170) 48) (Some (ForeignDataSpec.zeros 16)) /\
  by_rows stored_stream sx_file [] [3] (fsize sx_ty) (Some (ForeignDataSpec.zeros 16)) (Contiguous (Some 170) 48) sx_data /\
  array_is (in_global_heap sx_file) sx_ty [3] sx_data sx_vals /\ cuttable sx_ty [3] sx_vals /\
  got_calls inflate_stored sx_file (bs "/") (bs "k") [VSlice 0 2] VValues = Ok sx_vals /\
  got_calls inflate_stored sx_file (bs "/") (bs "k") [] (VSlice 1 3) = Ok (HSlice (TSlice (TNum I16)) [row16 []; row16 [7]]) /\
  got_calls inflate_stored sx_file (bs "/") (bs "k") [] (VSliceMD [0] [1]) = Ok (HSlice (TSlice (TNum I16)) [row16 [5; 6]]).
Proof.
  split; [left; split; [reflexivity|exact sx_at]|].
  split; [change 48 with (zlen sx_data); apply rows_contiguous; [reflexivity|here]|].
  split; [exact sx_value|]. split; [right; left; constructor; exact I|].
  split; [vm_compute; reflexivity|]. split; vm_compute; reflexivity.
Qed.

(** ** What is false *)

(** Slices of a variable whose chunks are no runs are right: the second row of C79_example has the numbers 4, 5 and 511 *)
Theorem C80_slices_refuted :
  variable_at zx_file message_is 97 zx_filters [3; 3] (FInt 2 true false) (Chunked (Some 254) [2; 2] 2) (Some [255; 1]) /\
  by_chunks stored_stream zx_file zx_filters [3; 3] 2 (Some [255; 1]) (Chunked (Some 254) [2; 2] 2) vx_kdata /\
  array_is (in_global_heap zx_file) (FInt 2 true false) [3; 3] vx_kdata vx_kvals /\
  vpart vx_kvals 1 2 = Some (HSlice (TSlice (TNum I16)) [row16 [4; 5; 511]]) /\
  got_calls inflate_stored zx_file (bs "/") (bs "k") [] VValues = Ok vx_kvals /\
  got_calls inflate_stored zx_file (bs "/") (bs "k") [] (VSlice 1 2) <> Ok (HSlice (TSlice (TNum I16)) [row16 [4; 5; 511]]).
Proof.
  split; [right; exact zx_at|]. split; [apply C80_more_examples|]. split; [exact zx_value|]. split; [reflexivity|].
  split; [vm_compute; reflexivity|]. vm_compute. discriminate.
Qed.

Print Assumptions C80_slices_partial.
Print Assumptions C80_start_partial.
Print Assumptions C80_example.
Print Assumptions C80_more_examples.
Print Assumptions C80_sequences_example.
Print Assumptions C80_slices_refuted.
