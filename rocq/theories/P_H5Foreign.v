(** C72 to C74: files of other writers.  The headers, messages and groups are those of
    ForeignSpec, which has them from the format specification. *)
From Verif Require Import Prelude GoVal BaseLemmas H5Base H5MetaRead Lookup3Spec MetaSpec DenseSpec ForeignSpec H5DenseRead
  H5Value H5TypeRead H5PathModel H5RecordModel H5FileRead PathSpec H5PathProofs H5DenseProofs H5BTreeProofs H5ApiPath H5ForeignProofs
  H5ForeignTree H5ForeignOpen H5ForeignApi P_H5Dense.
From Coq Require Import Lia ZifyBool ZifyNat Permutation.

(** ** C72 *)

(** Every message of an object header of version 1 or 2 that has data is handed on, in order,
    with its type and its data and nothing else; and if there are continuation messages, what is
    in their blocks is taken in the place of these. *)
Theorem C72_header {S} f a v ms (h : Z -> bytes -> S -> res (S * bytes)) st :
  header_is f a v ms -> 0 < a -> zlen f < 2 ^ 63 ->
  readObjectHeader h f a st =
    deliver h (map (fun m => (fm_type m, fm_data m)) (filter (fun m => negb (zlen (fm_data m) =? 0)) ms)) st.
Proof.
  intros H Ha Hf. rewrite (proj2 (foreign_header f a v ms H Ha Hf)). f_equal. clear.
  induction ms as [|m ms IH]; [reflexivity|]. rewrite all_data_cons, IH. cbn [filter]. unfold data_of.
  destruct (fm_data m) as [|x d] eqn:E; [rewrite ?E; reflexivity|].
  assert (Hz : negb (zlen (x :: d) =? 0) = true).
  { rewrite zlen_cons. pose proof (zlen_nonneg d). lia. }
  rewrite Hz. cbn [map app]. rewrite E. reflexivity.
Qed.
Theorem C72_messages f n n0 a l st st' : messages_are f n a l -> zlen f < 2 ^ 63 ->
  taken f n0 (headerKind f a) (all_data l) st st' ->
  forall fu, (n0 + n < fu)%nat -> readAny fu f (JHeader a) st = Ok st'.
Proof. exact (object_messages f n n0 a l st st'). Qed.

(** ** C73 *)

(** A file with a superblock of version 0 to 3 and any tree of groups, datasets and named
    datatypes below the root group opens, and the groups, datasets and types are told as they
    are in the file: a group is got by its path and by no other; its subgroups are listed; what
    is listed as a variable is a dataset, and a dataset is a variable or a dimension (which of
    them, its attributes say); what is listed as a type is a named datatype.

    The links of a group may be in its header or its continuation blocks, in a symbol table, or
    in a fractal heap with a B-tree.  [alone] says that the reader has no complaint about a
    datatype, an attribute, a fill value, a layout or a filter pipeline as such.  Missing: soft and external links; two links
    to one object ([NoDup (below _)]); symbol tables of more than one level; shared messages; a
    superblock extension; files nested deeper than they are long. *)
Theorem C73_tree_partial f n root kids :
  superblock_is f root -> object_is f alone n root (FGroup kids) -> plain_names (FGroup kids) ->
  NoDup (below (FGroup kids)) -> (n <= List.length f)%nat -> zlen f < 2 ^ 63 ->
  exists o, openFile f = Ok o /\ forall h0 path, absolute path = true ->
    ((forall ks, ~ found_at (FGroup kids) (components path) (FGroup ks)) -> rgetGroup o h0 path = Err ENotFound) /\
    (forall ks, found_at (FGroup kids) (components path) (FGroup ks) ->
       exists h, rgetGroup o h0 path = Ok h /\ group_told o h ks).
Proof.
  intros HS HO HN HB Hn Hf. destruct (file_opened f n root kids HS HO HB Hn Hf) as (o & E & Hs).
  exists o. split; [exact E|]. intros h0 path Ha. pose proof (objects_distinct _ _ _ _ _ HO) as HD.
  rewrite (rgetGroup_follow o h0 path (or_introl Ha)). rewrite Ha. split.
  - intros Hno. destruct (rfollow o (components path)) as [g|] eqn:Er; [|reflexivity].
    destruct (found_follow _ _ _ _ _ Er Hs) as (ks & F). elim (Hno ks F).
  - intros ks F. destruct (follow_found _ _ _ _ F ks o eq_refl Hs HD) as (g & Er & Hg). rewrite Er.
    eexists. split; [reflexivity|].
    apply (tree_told f (FGroup kids) o (components path) ks); try assumption.
    + apply components_clean.
    + reflexivity.
Qed.

(** ** A file: a root group with a symbol table; in it a dataset whose header goes on in a
    continuation block, and a group with a header of version 2, whose links are in a heap *)
Definition fm (t : Z) (b : bytes) : fmsg := mkFmsg t 0 0 b.
Definition fx_super : bytes :=
  h5_signature ++ [0; 0; 0; 0; 0; 8; 8; 0] ++ le 2 4 ++ le 2 16 ++ le 4 0 ++
  le 8 0 ++ le 8 undefined ++ le 8 870 ++ le 8 undefined ++ le 8 0 ++ le 8 96 ++ le 4 1 ++ le 4 0 ++ le 8 280 ++ le 8 136.
Definition fx_head1 (ms : list fmsg) : bytes :=
  [1; 0] ++ le 2 (zlen ms) ++ le 4 1 ++ le 4 (zlen (chunk HV1 ms 0)) ++ zrep 4 0 ++ chunk HV1 ms 0.
Definition fx_head2 (ms : list fmsg) (gap : Z) : bytes :=
  sealed (bs "OHDR" ++ [2; 0] ++ le 1 (zlen (chunk (HV2 false) ms gap)) ++ chunk (HV2 false) ms gap).
Definition fx_root : list fmsg := [fm 17 (le 8 280 ++ le 8 136)].
Definition fx_heap : bytes :=
  (bs "HEAP" ++ [0; 0; 0; 0] ++ le 8 24 ++ le 8 0 ++ le 8 168) ++ zrep 8 0 ++ bs "lat" ++ zrep 5 0 ++ bs "inner" ++ zrep 3 0.
Definition fx_syms : list symbol := [mkSymbol 8 332 None; mkSymbol 16 460 None].
Definition fx_snod : bytes := bs "SNOD" ++ [1; 0] ++ le 2 2 ++ flat_map symbol_bytes fx_syms.
Definition fx_i16 : bytes := [16; 8; 0; 0] ++ le 4 2 ++ le 2 0 ++ le 2 16.
(** the dataset, with a continuation block *)
Definition fx_lat : list fmsg := [fm 1 ([1; 1; 0] ++ zrep 5 0 ++ le 8 3); fm 16 (le 8 396 ++ le 8 56)].
Definition fx_lat2 : list fmsg := [fm 3 (fx_i16 ++ zrep 4 0); fm 8 ([3; 1] ++ le 8 452 ++ le 8 6 ++ zrep 6 0)].
Definition fx_data : bytes := le 2 1 ++ le 2 2 ++ le 2 3 ++ zrep 2 0.
(** the group, with a continuation block *)
Definition fx_inner : list fmsg := [fm 2 ([0; 0] ++ le 8 533 ++ le 8 728); fm 16 (le 8 515 ++ le 8 18)].
Definition fx_inner2 : list fmsg := [fm 10 [0; 0]; fm 0 []].
Definition fx_ochk : bytes := sealed (bs "OCHK" ++ chunk (HV2 false) fx_inner2 0).
(** its heap of one block, with the index of the names *)
Definition fx_link1 : bytes := link_bytes 0 0 0 (bs "deep") 798.
Definition fx_link2 : bytes := link_bytes 0 0 0 (bs "t") 843.
Definition fx_block : bytes := zrep 22 0 ++ fx_link1 ++ fx_link2.
Definition fx_recs : list brec := [mkBrec 22 15 0 5 0; mkBrec 37 12 0 6 0].
Definition fx_bthd : bytes :=
  sealed (bs "BTHD" ++ [0; 5] ++ le 4 512 ++ le 2 11 ++ le 2 0 ++ [100; 40] ++ le 8 766 ++ le 2 2 ++ le 8 2).
Definition fx_leaf : bytes := sealed (leaf_bytes 5 link_rec fx_recs).
(** in it a dataset of one number, and a named datatype *)
Definition fx_deep : list fmsg := [fm 1 [2; 0; 0; 0]; fm 3 fx_i16; fm 8 ([3; 0] ++ le 2 2 ++ le 2 77)].
Definition fx_t : list fmsg := [fm 3 fx_i16].
Definition fx_file : bytes :=
  fx_super ++ fx_head1 fx_root ++ fx_heap ++ fx_snod ++ sy_node 0 192 ++ fx_head1 fx_lat ++ chunk HV1 fx_lat2 0 ++
  fx_data ++ fx_head2 fx_inner 2 ++ fx_ochk ++ hp_header 679 0 ++ fx_block ++ fx_bthd ++ fx_leaf ++
  fx_head2 fx_deep 0 ++ fx_head2 fx_t 0.

Lemma fm_ok v t b : 0 <= t < 256 -> zlen b < 2 ^ 16 -> (b = [] -> t = 0) -> zlen b mod 8 = 0 -> fmsg_ok v (fm t b).
Proof.
  intros Ht Hz Hb Hm. unfold fmsg_ok, word. cbn [fm fm_type fm_flags fm_order fm_data]. split; [lia|]. split; [lia|].
  split; [exact Hz|]. split; [exact Hb|]. destruct v; [split; [lia|exact Hm]|lia].
Qed.
Lemma fm_ok2 tr t b : 0 <= t < 256 -> zlen b < 2 ^ 16 -> (b = [] -> t = 0) -> fmsg_ok (HV2 tr) (fm t b).
Proof.
  intros Ht Hz Hb. unfold fmsg_ok, word. cbn [fm fm_type fm_flags fm_order fm_data]. split; [lia|]. split; [lia|].
  split; [exact Hz|]. split; [exact Hb|]. lia.
Qed.
Ltac each t := repeat first [apply Forall_nil | apply Forall_cons; [t|]].
Ltac chunk1 := split; [each ltac:(apply fm_ok; [lia|reflexivity|discriminate|reflexivity])|reflexivity].
Ltac chunk2 := split; [each ltac:(apply fm_ok2; [lia|reflexivity|first [discriminate|intros _; reflexivity]])|lia].
Lemma fx_h1 a ms : chunk_ok HV1 ms 0 -> zlen ms < 2 ^ 16 -> zlen (chunk HV1 ms 0) < 2 ^ 32 ->
  has_at fx_file a (fx_head1 ms) -> header_is fx_file a HV1 ms.
Proof.
  intros Hok Hn Hz Ha. exists 0. split; [exact Hok|]. exists (zlen ms), 1. pose proof (zlen_nonneg ms).
  split; [unfold word; lia|]. split; [unfold word; lia|]. split; [exact Hz|exact Ha].
Qed.
Lemma fx_h2 a ms gap : chunk_ok (HV2 false) ms gap -> zlen (chunk (HV2 false) ms gap) < 256 ->
  has_at fx_file a (fx_head2 ms gap) -> header_is fx_file a (HV2 false) ms.
Proof.
  intros Hok Hz Ha. exists gap. split; [exact Hok|]. exists 0, [], [].
  split; [unfold word; lia|]. split; [reflexivity|]. split; [reflexivity|]. split; [reflexivity|].
  split; [exact Hz|]. split; [lia|exact Ha].
Qed.
Lemma fx_plain types t b : In t types -> b <> [] -> alone t b -> plain alone types (fm t b).
Proof. intros H1 H2 H3. split; [exact H1|]. right. split; assumption. Qed.
Ltac al := vm_compute; reflexivity.

Lemma fx_super_is : superblock_is fx_file 96.
Proof.
  split; [unfold word; lia|]. exists 870. split; [unfold word; lia|]. split; [vm_compute; congruence|]. left.
  exists 0, 0, 16, 0, 1, undefined, 0, 1, (le 8 280 ++ le 8 136).
  split; [left; reflexivity|]. split; [unfold word; lia|]. split; [unfold word; lia|]. split; [unfold word; lia|].
  split; [unfold word; lia|]. split; [lia|]. split; [unfold word, undefined; lia|]. split; [unfold word; lia|].
  split; [right; reflexivity|]. split; [reflexivity|]. here.
Qed.
Lemma fx_lat_is : object_is fx_file alone 3 332 (FData [3]).
Proof.
  apply (is_data _ _ 3 1 332 (fm 1 ([1; 1; 0] ++ zrep 5 0 ++ le 8 3) :: fx_lat2 ++ []) ([1; 1; 0] ++ zrep 5 0 ++ le 8 3)).
  - split; [lia|]. exists HV1, fx_lat. split.
    + apply fx_h1; [chunk1|reflexivity|reflexivity|here].
    + apply held_msg; [discriminate|].
      apply (held_more _ _ _ _ _ 396 56 fx_lat2 fx_lat2 []); [reflexivity|unfold word; lia|unfold word; lia|reflexivity| | |apply held_nil].
      * exists 0. split; [chunk1|]. split; [reflexivity|here].
      * apply held_msg; [discriminate|]. apply held_msg; [discriminate|]. apply held_nil.
  - lia.
  - cbn [app]. apply Forall_cons; [left; reflexivity|]. apply Forall_cons; [right; right|apply Forall_cons; [right; right|apply Forall_nil]].
    + apply fx_plain; [right; left; reflexivity|discriminate|al].
    + apply fx_plain; [do 4 right; left; reflexivity|discriminate|al].
  - reflexivity.
  - exists 0, [], 0. split; [unfold word; lia|]. split; [constructor; [unfold word; lia|constructor]|]. split; [constructor|].
    split; [reflexivity|]. split; [reflexivity|]. left. reflexivity.
  - left. reflexivity.
Qed.
Lemma fx_deep_is : object_is fx_file alone 1 798 (FData []).
Proof.
  apply (is_data _ _ 1 0 798 fx_deep [2; 0; 0; 0]).
  - split; [lia|]. exists (HV2 false), fx_deep. split.
    + apply (fx_h2 _ _ 0); [chunk2|reflexivity|here].
    + repeat (apply held_msg; [discriminate|]). apply held_nil.
  - lia.
  - apply Forall_cons; [left; reflexivity|]. apply Forall_cons; [right; right|apply Forall_cons; [right; right|apply Forall_nil]].
    + apply fx_plain; [right; left; reflexivity|discriminate|al].
    + apply fx_plain; [do 4 right; left; reflexivity|discriminate|al].
  - reflexivity.
  - exists 0, [], 0. split; [unfold word; lia|]. split; [constructor|]. split; [constructor|].
    split; [reflexivity|]. split; [reflexivity|]. right. exists 0. split; [lia|reflexivity].
  - left. reflexivity.
Qed.
Lemma fx_t_is : object_is fx_file alone 1 843 FType.
Proof.
  apply (is_type _ _ 1 0 843 fx_t).
  - split; [lia|]. exists (HV2 false), fx_t. split.
    + apply (fx_h2 _ _ 0); [chunk2|reflexivity|here].
    + repeat (apply held_msg; [discriminate|]). apply held_nil.
  - lia.
  - apply Forall_cons; [right|apply Forall_nil]. apply fx_plain; [right; left; reflexivity|discriminate|al].
  - discriminate.
  - left. reflexivity.
Qed.
Definition fx_kids2 : list (bytes * Z * ftree) := [(bs "deep", 798, FData []); (bs "t", 843, FType)].
Lemma fx_dense : dense_are fx_file 533 728 [(bs "deep", 798); (bs "t", 843)].
Proof.
  exists 512, O, (BLeaf fx_recs).
  assert (Hok : Forall (brec_ok 32) fx_recs).
  { constructor; [|constructor; [|constructor]]; unfold brec_ok, word; cbn [br_off br_len br_order br_hash br_flags]; lia. }
  split.
  { split; [unfold word; lia|]. split; [intros r; apply link_rec_len|]. exists 100, 40, 766.
    split; [unfold word; lia|]. split; [unfold word; lia|]. split; [unfold word; lia|].
    split; [|split; [reflexivity|split; [reflexivity|here]]].
    apply leaf_at; [exact Hok|discriminate|vm_compute; congruence|here]. }
  split; [split; [reflexivity|intros k Hk; lia]|].
  assert (Hh : forall off, 0 <= off < 512 -> in_heap fx_file 533 off (679 + off)).
  { intros off Ho. exists 512, 1024, 32, 679, 0. split.
    - split; [|split; [|split; [|split]]].
      + split; [left; reflexivity|]. exists 9, 10. repeat apply conj; try lia; reflexivity.
      + unfold word; lia.
      + unfold word; lia.
      + intros H. lia.
      + exists 8, 0, 4096, (zrep 12 7), 1.
        split; [unfold word; lia|]. split; [unfold word; lia|]. split; [unfold word; lia|].
        split; [apply Forall_word64; reflexivity|]. split; [reflexivity|]. split; [unfold word; lia|]. here.
    - change (0 =? 0) with true. cbv iota. split; [discriminate|]. split; [exact Ho|reflexivity]. }
  cbn [all fx_recs]. apply Forall2_cons; [|apply Forall2_cons; [|apply Forall2_nil]]; cbn [br_off br_len fst snd].
  - exists 701, fx_link1. split; [exact (Hh 22 ltac:(lia))|]. split; [reflexivity|]. split; [here|].
    exists 0, 0, 0, 0. split; [unfold word; lia|]. split; [unfold word; lia|]. split; [left; reflexivity|].
    split; [unfold word; lia|]. split; reflexivity.
  - exists 716, fx_link2. split; [exact (Hh 37 ltac:(lia))|]. split; [reflexivity|]. split; [here|].
    exists 0, 0, 0, 0. split; [unfold word; lia|]. split; [unfold word; lia|]. split; [left; reflexivity|].
    split; [unfold word; lia|]. split; reflexivity.
Qed.
Lemma fx_inner_is : object_is fx_file alone 3 460 (FGroup fx_kids2).
Proof.
  apply (is_group _ _ 3 1 1 460 (fm 2 ([0; 0] ++ le 8 533 ++ le 8 728) :: fx_inner2 ++ []) [[]; []; []]
           [(bs "deep", 798); (bs "t", 843)] fx_kids2).
  - split; [lia|]. exists (HV2 false), fx_inner. split.
    + apply (fx_h2 _ _ 2); [chunk2|reflexivity|here].
    + apply held_msg; [discriminate|].
      apply (held_more _ _ _ _ _ 515 18 fx_inner2 fx_inner2 []); [reflexivity|unfold word; lia|unfold word; lia|reflexivity| | |apply held_nil].
      * exists 0. split; [chunk2|]. split; [vm_compute; reflexivity|here].
      * apply held_msg; [discriminate|]. apply held_msg; [discriminate|]. apply held_nil.
  - lia.
  - cbn [app]. apply Forall2_cons; [|apply Forall2_cons; [|apply Forall2_cons; [|apply Forall2_nil]]]; right; right; (split; [|reflexivity]).
    + left. reflexivity.
    + right. right. apply fx_plain; [right; left; reflexivity|discriminate|al].
    + right. right. split; [left; reflexivity|left; reflexivity].
  - right. exists ([0; 0] ++ le 8 533 ++ le 8 728), 533, 728. split; [reflexivity|]. split.
    + exists 0, 0, 0, 0. split; [unfold word; lia|]. split; [unfold word; lia|]. split; [unfold word; lia|].
      split; [unfold word; lia|]. split; [unfold word; lia|reflexivity].
    + right. split; [discriminate|exact fx_dense].
  - left. reflexivity.
  - discriminate.
  - apply Permutation_refl.
  - apply NoDup_cons; [intros [E|[]]; discriminate E|]. apply NoDup_cons; [intros []|apply NoDup_nil].
  - apply kids_cons; [exact fx_deep_is|]. apply kids_cons; [exact fx_t_is|apply kids_nil].
Qed.
Definition fx_kids : list (bytes * Z * ftree) := [(bs "lat", 332, FData [3]); (bs "inner", 460, FGroup fx_kids2)].

Lemma fx_root_is : object_is fx_file alone 4 96 (FGroup fx_kids).
Proof.
  apply (is_group _ _ 4 0 3 96 fx_root [[(bs "lat", 332); (bs "inner", 460)]] [] fx_kids).
  - split; [lia|]. exists HV1, fx_root. split.
    + apply fx_h1; [chunk1|reflexivity|reflexivity|here].
    + apply held_msg; [discriminate|]. apply held_nil.
  - lia.
  - apply Forall2_cons; [|apply Forall2_nil]. right. left. split; [reflexivity|]. exists 280, 136, 0.
    split; [reflexivity|]. split; [unfold word; lia|]. exists fx_syms. split; [|split; [unfold word; lia|]].
    + unfold symbol_table_at. change fx_syms with (List.concat [fx_syms]). apply (sym_leaf _ _ _ _ [0; 16] [192]).
      * split; [reflexivity|]. split; [apply Forall_word64; reflexivity|]. split; [apply Forall_word64; reflexivity|].
        split; [reflexivity|]. split; [unfold word; lia|]. split; [unfold word, undefined; lia|].
        split; [unfold word, undefined; lia|]. split; [vm_compute; congruence|here].
      * constructor; [|constructor]. split; [|split; [reflexivity|here]].
        constructor; [|constructor; [|constructor]]; (split; [cbn [sy_name]; unfold word; lia|]);
          (split; [cbn [sy_addr]; unfold word; lia|]); exact I.
    + constructor; [|constructor; [|constructor]]; (split; [|reflexivity]); exists 24, 0, 168;
      (split; [unfold word; lia|]; split; [unfold word; lia|]; split; [unfold word; lia|];
       split; [cbn; lia|]; split; [here|]; split; [vm_compute; congruence|]; split; [vm_compute; congruence|];
       split; [discriminate|]; split; [|here]; repeat (constructor; [discriminate|]); constructor).
  - left. split; reflexivity.
  - left. reflexivity.
  - discriminate.
  - apply Permutation_refl.
  - apply NoDup_cons; [intros [E|[]]; discriminate E|]. apply NoDup_cons; [intros []|apply NoDup_nil].
  - apply kids_cons; [exact fx_lat_is|apply kids_cons; [exact fx_inner_is|apply kids_nil]].
Qed.
Lemma plain_group kids : Forall (fun k => (fst (fst k) <> [] /\ ~ In 47 (fst (fst k))) /\ plain_names (snd k)) kids ->
  plain_names (FGroup kids).
Proof.
  intros H p ks name a u F Hi. rewrite Forall_forall in H. inversion F; subst.
  - exact (proj1 (H _ Hi)).
  - match goal with HI : In (?n, ?b, ?t) kids, HF : found_at ?t _ _ |- _ => exact (proj2 (H _ HI) _ _ _ _ _ HF Hi) end.
Qed.
Lemma plain_leaf t : is_fgroup t = false -> plain_names t.
Proof. intros H p ks name a u F Hi. inversion F; subst; discriminate. Qed.
Lemma fx_plain_names : plain_names (FGroup fx_kids).
Proof.
  assert (N : forall l : bytes, l <> [] -> existsb (Z.eqb 47) l = false -> l <> [] /\ ~ In 47 l).
  { intros l H1 H2. split; [exact H1|]. intros Hi. apply Bool.not_true_iff_false in H2. apply H2. apply existsb_exists.
    exists 47. split; [exact Hi|reflexivity]. }
  apply plain_group. apply Forall_cons; [|apply Forall_cons; [|apply Forall_nil]]; cbn [fst snd].
  - split; [apply N; [discriminate|reflexivity]|apply plain_leaf; reflexivity].
  - split; [apply N; [discriminate|reflexivity]|]. apply plain_group.
    apply Forall_cons; [|apply Forall_cons; [|apply Forall_nil]]; cbn [fst snd];
      (split; [apply N; [discriminate|reflexivity]|apply plain_leaf; reflexivity]).
Qed.

(** What the calls give, as a value *)
Definition told (f : bytes) (path : bytes) : res (list bytes * list bytes * list bytes) :=
  let* o := openFile f in
  let* h := rgetGroup o (mkRh [47] o) path in
  let* subs := listSubgroups o h in
  Ok (subs, listVariables o h, listTypes h).
Example C73_example :
  superblock_is fx_file 96 /\ object_is fx_file alone 4 96 (FGroup fx_kids) /\ plain_names (FGroup fx_kids) /\
  NoDup (below (FGroup fx_kids)) /\ (4 <= List.length fx_file)%nat /\ zlen fx_file < 2 ^ 63 /\
  told fx_file (bs "/") = Ok ([bs "inner"], [bs "lat"], []) /\
  told fx_file (bs "/inner") = Ok ([], [bs "deep"], [bs "t"]) /\
  told fx_file (bs "/lat") = Err ENotFound.
Proof.
  split; [exact fx_super_is|]. split; [exact fx_root_is|]. split; [exact fx_plain_names|].
  split.
  { change (below (FGroup fx_kids)) with [332; 460; 798; 843].
    repeat (apply NoDup_cons; [cbn [In]; lia|]). apply NoDup_nil. }
  split; [vm_compute; lia|]. split; [vm_compute; reflexivity|].
  split; [vm_compute; reflexivity|]. split; vm_compute; reflexivity.
Qed.
(** The header of the dataset: its messages, the last two from the continuation block *)
Example C72_example : messages_are fx_file 1 332 (fm 1 ([1; 1; 0] ++ zrep 5 0 ++ le 8 3) :: fx_lat2) /\
  header_is fx_file 332 HV1 fx_lat /\
  readObjectHeader (fun t b st => Ok (st ++ [(t, zlen b)], [])) fx_file 332 [] = Ok [(1, 16); (16, 16)] /\
  exists st, taken fx_file 0 (headerKind fx_file 332) (all_data (fm 1 ([1; 1; 0] ++ zrep 5 0 ++ le 8 3) :: fx_lat2))
    (mkRst (newObject [] 0) [] []) st /\ ri_dims (rs_info st) = Some [3] /\ ri_ty (rs_info st) <> None.
Proof.
  assert (H : header_is fx_file 332 HV1 fx_lat) by (apply fx_h1; [chunk1|reflexivity|reflexivity|here]).
  split.
  { split; [lia|]. exists HV1, fx_lat. split; [exact H|].
    apply held_msg; [discriminate|]. rewrite <- (app_nil_r fx_lat2).
    apply (held_more _ _ _ _ _ 396 56 fx_lat2 fx_lat2 []); [reflexivity|unfold word; lia|unfold word; lia|reflexivity| | |apply held_nil].
    * exists 0. split; [chunk1|]. split; [reflexivity|here].
    * apply held_msg; [discriminate|]. apply held_msg; [discriminate|]. apply held_nil. }
  split; [exact H|]. split; [vm_compute; reflexivity|].
  eexists. split.
  { cbn [all_data data_of fm fm_data fm_type app].
    eapply taken_cons; [intros fu _; vm_compute; reflexivity|reflexivity|].
    eapply taken_cons; [intros fu _; vm_compute; reflexivity|reflexivity|].
    eapply taken_cons; [intros fu _; vm_compute; reflexivity|reflexivity|]. apply taken_nil. }
  split; [reflexivity|discriminate].
Qed.

(** ** What is missing *)
Definition gx_super (eof : Z) : bytes :=
  sealed (h5_signature ++ [2; 8; 8; 0] ++ le 8 0 ++ le 8 undefined ++ le 8 eof ++ le 8 48).
Definition gx_info : fmsg := fm 2 ([0; 0] ++ le 8 undefined ++ le 8 undefined).
Definition gx_hard (name : bytes) (a : Z) : fmsg := fm 6 (link_bytes 0 0 0 name a).
(** a soft link: the name and the path *)
Definition gx_soft (name path : bytes) : fmsg := fm 6 ([1; 8; 1] ++ le 1 (zlen name) ++ name ++ le 2 (zlen path) ++ path).
Definition gx_data (ty : fmsg) : list fmsg := [fm 1 [2; 0; 0; 0]; ty; fm 8 ([3; 0] ++ le 2 2 ++ le 2 77)].
Definition gx_soft_root := [gx_info; gx_hard (bs "a") 110; gx_soft (bs "b") (bs "/a")].
Definition gx_two_root := [gx_info; gx_hard (bs "a") 113; gx_hard (bs "b") 113].
Definition gx_shared_root := [gx_info; gx_hard (bs "a") 113; gx_hard (bs "t") 156].
Definition gx_soft_file : bytes := gx_super 109 ++ fx_head2 gx_soft_root 0 ++ fx_head2 (gx_data (fm 3 fx_i16)) 0.
Definition gx_two_file : bytes := gx_super 109 ++ fx_head2 gx_two_root 0 ++ fx_head2 (gx_data (fm 3 fx_i16)) 0.
Definition gx_shared_data := gx_data (mkFmsg 3 2 0 ([3; 2] ++ le 8 156)).
Definition gx_shared_file : bytes := gx_super 109 ++ fx_head2 gx_shared_root 0 ++ fx_head2 gx_shared_data 0 ++ fx_head2 [fm 3 fx_i16] 0.
Lemma gx_h2 f a ms : chunk_ok (HV2 false) ms 0 -> zlen (chunk (HV2 false) ms 0) < 256 ->
  has_at f a (fx_head2 ms 0) -> header_is f a (HV2 false) ms.
Proof.
  intros Hok Hz Ha. exists 0. split; [exact Hok|]. exists 0, [], [].
  split; [unfold word; lia|]. split; [reflexivity|]. split; [reflexivity|]. split; [reflexivity|].
  split; [exact Hz|]. split; [lia|exact Ha].
Qed.
Lemma gx_super_is f eof : word 64 eof -> eof <= zlen f -> has_at f 0 (gx_super eof) -> superblock_is f 48.
Proof.
  intros He Hl Ha. split; [unfold word; lia|]. exists eof. split; [exact He|]. split; [exact Hl|]. right.
  exists 2, 0. split; [left; reflexivity|]. split; [unfold word; lia|exact Ha].
Qed.

(** A soft link next to a dataset (the path has its length in two bytes before it): the file does
    not open. *)
Theorem C73_soft_link_refuted : exists f,
  superblock_is f 48 /\
  header_is f 48 (HV2 false) [gx_info; gx_hard (bs "a") 110;
    fm 6 ([1; 8; 1] ++ [1] ++ bs "b" ++ le 2 (zlen (bs "/a")) ++ bs "/a")] /\
  object_is f alone 1 110 (FData []) /\ openFile f = Err EEOF.
Proof.
  exists gx_soft_file. split.
  { apply (gx_super_is _ 109); [unfold word; lia|vm_compute; congruence|here]. }
  split; [apply gx_h2; [chunk2|reflexivity|here]|]. split; [|vm_compute; reflexivity].
  apply (is_data _ _ 1 0 110 (gx_data (fm 3 fx_i16)) [2; 0; 0; 0]).
  - split; [lia|]. exists (HV2 false), (gx_data (fm 3 fx_i16)). split.
    + apply gx_h2; [chunk2|reflexivity|here].
    + repeat (apply held_msg; [discriminate|]). apply held_nil.
  - lia.
  - apply Forall_cons; [left; reflexivity|]. apply Forall_cons; [right; right|apply Forall_cons; [right; right|apply Forall_nil]].
    + apply fx_plain; [right; left; reflexivity|discriminate|al].
    + apply fx_plain; [do 4 right; left; reflexivity|discriminate|al].
  - reflexivity.
  - exists 0, [], 0. split; [unfold word; lia|]. split; [constructor|]. split; [constructor|].
    split; [reflexivity|]. split; [reflexivity|]. right. exists 0. split; [lia|reflexivity].
  - left. reflexivity.
Qed.

(** Two hard links to one dataset: only one of them is there. *)
Theorem C73_second_link_refuted : exists f kids,
  superblock_is f 48 /\ object_is f alone 2 48 (FGroup kids) /\ plain_names (FGroup kids) /\
  kids = [(bs "a", 113, FData []); (bs "b", 113, FData [])] /\ told f (bs "/") = Ok ([], [bs "a"], []).
Proof.
  exists gx_two_file, [(bs "a", 113, FData []); (bs "b", 113, FData [])]. split.
  { apply (gx_super_is _ 109); [unfold word; lia|vm_compute; congruence|here]. }
  assert (HD : object_is gx_two_file alone 1 113 (FData [])).
  { apply (is_data _ _ 1 0 113 (gx_data (fm 3 fx_i16)) [2; 0; 0; 0]).
    - split; [lia|]. exists (HV2 false), (gx_data (fm 3 fx_i16)). split.
      + apply gx_h2; [chunk2|reflexivity|here].
      + repeat (apply held_msg; [discriminate|]). apply held_nil.
    - lia.
    - apply Forall_cons; [left; reflexivity|]. apply Forall_cons; [right; right|apply Forall_cons; [right; right|apply Forall_nil]].
      + apply fx_plain; [right; left; reflexivity|discriminate|al].
      + apply fx_plain; [do 4 right; left; reflexivity|discriminate|al].
    - reflexivity.
    - exists 0, [], 0. split; [unfold word; lia|]. split; [constructor|]. split; [constructor|].
      split; [reflexivity|]. split; [reflexivity|]. right. exists 0. split; [lia|reflexivity].
    - left. reflexivity. }
  split; [|split; [|split; [reflexivity|vm_compute; reflexivity]]].
  - apply (is_group _ _ 2 0 1 48 gx_two_root [[]; [(bs "a", 113)]; [(bs "b", 113)]] []).
    + split; [lia|]. exists (HV2 false), gx_two_root. split.
      * apply gx_h2; [chunk2|reflexivity|here].
      * repeat (apply held_msg; [discriminate|]). apply held_nil.
    + lia.
    + apply Forall2_cons; [|apply Forall2_cons; [|apply Forall2_cons; [|apply Forall2_nil]]].
      * right. right. split; [left; reflexivity|reflexivity].
      * left. split; [reflexivity|]. exists (bs "a"), 113. split; [|reflexivity]. exists 0, 0, 0, 0.
        split; [unfold word; lia|]. split; [unfold word; lia|]. split; [left; reflexivity|].
        split; [unfold word; lia|]. split; reflexivity.
      * left. split; [reflexivity|]. exists (bs "b"), 113. split; [|reflexivity]. exists 0, 0, 0, 0.
        split; [unfold word; lia|]. split; [unfold word; lia|]. split; [left; reflexivity|].
        split; [unfold word; lia|]. split; reflexivity.
    + right. exists ([0; 0] ++ le 8 undefined ++ le 8 undefined), undefined, undefined. split; [reflexivity|]. split.
      * exists 0, 0, 0, 0. unfold undefined. split; [unfold word; lia|]. split; [unfold word; lia|]. split; [unfold word; lia|].
        split; [unfold word; lia|]. split; [unfold word; lia|reflexivity].
      * left. split; reflexivity.
    + left. reflexivity.
    + discriminate.
    + apply Permutation_refl.
    + apply NoDup_cons; [intros [E|[]]; discriminate E|]. apply NoDup_cons; [intros []|apply NoDup_nil].
    + apply kids_cons; [exact HD|apply kids_cons; [exact HD|apply kids_nil]].
  - apply plain_group. apply Forall_cons; [|apply Forall_cons; [|apply Forall_nil]]; cbn [fst snd];
      (split; [split; [discriminate|intros [E|[]]; discriminate E]|apply plain_leaf; reflexivity]).
Qed.

(** A dataset of a named datatype: its datatype message is flagged as shared (bit 1) and has the
    address of the type in it.  The file does not open. *)
Theorem C73_shared_type_refuted : exists f,
  superblock_is f 48 /\ header_is f 48 (HV2 false) [gx_info; gx_hard (bs "a") 113; gx_hard (bs "t") 156] /\
  header_is f 113 (HV2 false) (gx_data (mkFmsg 3 2 0 ([3; 2] ++ le 8 156))) /\
  object_is f alone 1 156 FType /\ openFile f = Err EUnsupportedDataTypeVersion.
Proof.
  exists gx_shared_file. split.
  { apply (gx_super_is _ 109); [unfold word; lia|vm_compute; congruence|here]. }
  split; [apply gx_h2; [chunk2|reflexivity|here]|]. split.
  { apply gx_h2; [|reflexivity|here]. split; [|lia].
    apply Forall_cons; [apply fm_ok2; [lia|reflexivity|discriminate]|].
    apply Forall_cons; [|apply Forall_cons; [apply fm_ok2; [lia|reflexivity|discriminate]|apply Forall_nil]].
    split; [unfold word; cbn; lia|]. split; [unfold word; cbn; lia|]. split; [reflexivity|]. split; [discriminate|].
    unfold word; cbn; lia. }
  split; [|vm_compute; reflexivity].
  apply (is_type _ _ 1 0 156 fx_t).
  - split; [lia|]. exists (HV2 false), fx_t. split.
    + apply gx_h2; [chunk2|reflexivity|here].
    + repeat (apply held_msg; [discriminate|]). apply held_nil.
  - lia.
  - apply Forall_cons; [right|apply Forall_nil]. apply fx_plain; [right; left; reflexivity|discriminate|al].
  - discriminate.
  - left. reflexivity.
Qed.

Print Assumptions C72_header.
Print Assumptions C72_messages.
Print Assumptions C73_tree_partial.
Print Assumptions C73_example.
Print Assumptions C73_soft_link_refuted.
Print Assumptions C73_second_link_refuted.
Print Assumptions C73_shared_type_refuted.
