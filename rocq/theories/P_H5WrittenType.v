(** C83: the types that the HDF5 reader tells of what the HDF5 writer wrote. *)
From Coq Require Import Lia Permutation.
From Verif Require OrderedMapProofs.
From Verif Require Import Prelude GoVal ValidNameModel BaseLemmas OrderedMapModel ArraySpec H5Base H5MetaRead H5Value H5TypeRead H5FileWrite
  H5PathModel H5FileRead H5TypeText H5AttrMapModel H5WriterModel TypeTextSpec H5ShapeSpec AttrTypeSpec ForeignAttrSpec PathSpec WriterSpec TypeSpec FileSpec
  WrittenTypeSpec ValidNameProofs H5PathProofs H5AttrProofs H5TreeProofs H5SizeProofs H5PrepareProofs H5GoodProofs H5WholeProofs H5WriterProofs
  H5ApiPath H5ApiProofs H5ApiValues H5FileProofs H5CallsProofs TypeTextProofs H5TypeTextProofs H5AttrTypeProofs H5WrittenType P_H5Types P_H5TypeText P_H5File P_H5FileEx P_H5Composed P_H5AttrType.

(** Every value that C50 speaks of is of a type. *)
Lemma var_has_type v : fine_var v -> exists s dims, List.length dims = List.length (hv_dims v) /\ var_of_type s dims (hv_val v).
Proof.
  intros ((dims & L & _ & _ & _ & [[(k & H)|[(Hd & H)|(Hd & H)]]|(s & T & _ & V & O)]) & _).
  - exists (SNum k), dims. split; [exact L|]. right. split; [split; [exact I|left; reflexivity]|]. split; [exact H|exact I].
  - exists SStr, dims. split; [exact L|]. right. split; [split; [exact I|left; reflexivity]|]. split; [exact H|exact Hd].
  - exists SStr, dims. split; [exact L|]. left. auto.
  - exists s, dims. split; [exact L|]. right. auto.
Qed.
Lemma attr_has_type kv : fine_attr kv -> exists s dims, attr_of_type s dims (snd kv).
Proof.
  intros (_ & _ & dims & [([(k & H)|[(Hd & H)|(Hd & H)]] & _)|[(s & W & _ & V & O & M)|(s & W & _ & V & O & R)]] & P & _).
  - exists (SNum k), dims. split; [exact P|]. right. split; [exact I|]. split; [exact H|]. split; exact I.
  - exists SStr, dims. split; [exact P|]. right. split; [exact I|]. split; [exact H|]. split; [exact Hd|exact I].
  - exists SStr, dims. split; [exact P|]. left. auto.
  - exists s, dims. split; [exact P|]. right. split; [exact W|]. split; [exact V|]. split; [exact O|].
    destruct s; try contradiction; [exact I|apply M].
  - exists (SVlen s), dims. split; [exact P|]. right. auto.
Qed.

Lemma not_bookkeeping k : ~ In k reserved -> ~ In k bookkeeping.
Proof. unfold reserved, bookkeeping. cbn [In]. tauto. Qed.

(** Full claim: of every variable and attribute the type of what was written is told.  Missing: attributes of variables
    and of groups other than the root (false of the code, C82_crash_refuted, C82_another_type_refuted); what is missing in C50. *)
Theorem C83_variables_partial : exists num, (forall n, number_text n (num n)) /\
  forall U pick ops s outs s1 x D S,
  ucd_ascii U -> ucd_disjoint U -> (forall t, orders_ok t (pick t)) ->
  run U false pick open_writer ops = (s, outs) -> st_closed s = false -> step U false pick s (OClose 0) = (s1, Ok x) ->
  zlen (st_file s1) < 2 ^ 63 -> calls_fine D S (events ops outs) ->
  exists root, openFile (st_file s1) = Ok root /\
  forall h0 path h, absolute path = true -> rgetGroup root h0 path = Ok h ->
  forall n v ty dims, last_var (events ops outs) (components path) n = Some v ->
  List.length dims = List.length (hv_dims v) -> var_of_type ty dims (hv_val v) ->
  forall r, variableTypes h n r <->
    r = Ok (Some (TypeTextSpec.text (CDL num) [] (type_shape ty), TypeTextSpec.text (Golang num n) [] (type_shape ty))).
Proof.
  exists decimal. split; [exact decimal_ok|].
  intros U pick ops s outs s1 x D S UA UD Hpick Hrun Hc Hclose Hf CF.
  destruct (closed_parts U pick ops s outs s1 x D S UA UD Hpick Hrun Hc Hclose Hf CF)
    as (t & t1 & c & root & DE & CV & NM & TF & CL & CO & EP & OF & RO & IX).
  set (es := events ops outs) in *. set (f := st_file s1) in *. exists root. split; [exact OF|].
  intros h0 path h Ha Hg n v ty dims Hv Hl Hty.
  pose proof (get_group f c D S t t1 root TF CL CO EP RO IX h0 path (components path) Ha eq_refl) as GG.
  set (p := components path) in *. destruct (walk t p) as [g|] eqn:W; [|congruence]. destruct GG as (o & g' & GR & W' & GO).
  assert (h = mkRh (str p) o) by congruence. subst h. destruct (node_of es t DE p g W) as (_ & _ & EV & _).
  rewrite <- EV in Hv.
  destruct (find_var f c D S t t1 root TF CL CO EP RO IX p g g' o W W' GO n v Hv) as (v' & o' & F1 & F2 & F3 & F4 & _).
  destruct F2 as (addr & dims' & d & dn & size & al & dal & E & _ & _ & _ & _ & _ & dt & B1 & B2). cbn [snd] in B1. rewrite F3, F4, <- Hl in B1.
  destruct (var_message ty dims (hv_val v) dt d Hty B1 B2) as [S1 S2].
  assert (Et : ri_ty (r_info o') = Some d) by (rewrite E; reflexivity).
  intros r. unfold variableTypes. rewrite F1, Et. cbn [rh_obj textOf]. rewrite (no_named f c g' o GO). cbn [List.length].
  rewrite (mbind_is _ _ _ (S1 [n])), (mbind_is _ _ _ (S2 n [n])). reflexivity.
Qed.

Lemma Forall2_in {A B} (R : A -> B -> Prop) l l' x : Forall2 R l l' -> In x l -> exists y, In y l' /\ R x y.
Proof. induction 1 as [|a b l l' H _ IH]; intros Hx; [contradiction|]. destruct Hx as [<-|Hx]; [exists b; split; [left; reflexivity|exact H]|].
  destruct (IH Hx) as (y & Y1 & Y2). exists y. split; [right; exact Y1|exact Y2]. Qed.

Theorem C83_attributes_partial : exists num, (forall n, number_text n (num n)) /\
  forall U pick ops s outs s1 x D S,
  ucd_ascii U -> ucd_disjoint U -> (forall t, orders_ok t (pick t)) ->
  run U false pick open_writer ops = (s, outs) -> st_closed s = false -> step U false pick s (OClose 0) = (s1, Ok x) ->
  zlen (st_file s1) < 2 ^ 63 -> calls_fine D S (events ops outs) ->
  exists root h m, openFile (st_file s1) = Ok root /\ (forall h0, rgetGroup root h0 (bs "/") = Ok h) /\
  groupAttributes (st_file s1) h = Ok m /\
  forall k v ty dims, In (k, v) (attr_list (last_attrs (events ops outs) [])) -> attr_of_type ty dims v ->
  (forall r, mapType root h m k r <-> r = Ok (Some (attribute_cdl num [] (type_shape ty) dims))) /\
  (forall r, mapGoType root h m k r <-> r = Ok (Some (attribute_in_go num k [] (type_shape ty) dims))).
Proof.
  exists decimal. split; [exact decimal_ok|].
  intros U pick ops s outs s1 x D S UA UD Hpick Hrun Hc Hclose Hf CF.
  destruct (closed_parts U pick ops s outs s1 x D S UA UD Hpick Hrun Hc Hclose Hf CF)
    as (t & t1 & c & root & DE & CV & NM & TF & CL & CO & EP & OF & RO & IX).
  set (es := events ops outs) in *. set (f := st_file s1) in *.
  destruct (group_attrs f c D S t t1 root TF CL CO EP RO IX [] t (sort_tree t1) root eq_refl eq_refl RO) as (m & GA & _).
  exists root, (mkRh (str []) root), m. split; [exact OF|]. split.
  { intros h0. pose proof (get_group f c D S t t1 root TF CL CO EP RO IX h0 (bs "/") [] eq_refl eq_refl) as GG. cbn [walk] in GG.
    destruct GG as (o & g' & GR & W' & GO). rewrite GR. f_equal. f_equal. rewrite rgetGroup_follow in GR by (left; reflexivity).
    change (absolute (bs "/")) with true in GR. change (components (bs "/")) with (@nil bytes) in GR. cbn [rfollow] in GR.
    destruct root as [ri rc]. destruct (ri_group ri); [|discriminate GR]. injection GR as GR. symmetry. exact GR. }
  split; [exact GA|]. intros k v ty dims Hk Hty.
  destruct (node_of es t DE [] t eq_refl) as (_ & EA & _). rewrite <- EA in Hk.
  destruct (children f c _ _ RO) as (_ & _ & G & _).
  destruct (the_walk f c D S t t1 root TF CL CO EP RO IX [] t (sort_tree t1) eq_refl eq_refl) as (D1 & _ & EL & _). rewrite EL in G.
  assert (FA : fine_attrs (w_attrs t)) by (rewrite EA; apply (cf_attrs _ _ _ CF)). pose proof (fine_keys _ FA) as KP.
  assert (NN : NoDup (map ra_name (r_attrs root))).
  { rewrite (gives_names f _ _ G), map_app. cbn [map]. apply OrderedMapProofs.NoDup_snoc; [exact (proj1 FA)|].
    apply plain_not; [exact KP|]. unfold reserved, ncp. cbn [In fst]. tauto. }
  destruct (Forall2_in _ _ _ (k, v) G) as (a & A1 & A2); [apply in_or_app; left; exact Hk|].
  destruct A2 as (N1 & _ & _ & _ & _ & TY). cbn [fst snd] in N1, TY.
  assert (NR : ~ In k reserved).
  { intros Hi. apply (plain_not _ k KP Hi). apply in_map_iff. exists (k, v). auto. }
  destruct TY as (T1 & dt & T2 & T3); [intros ->; apply NR; unfold reserved; cbn [In]; tauto|].
  destruct (attr_message_type ty dims v Hty) as [AD AT]. rewrite AD in T1, T2. destruct (AT dt _ T2 T3) as [S1 S2].
  assert (FI : find (fun b => beqb (ra_name b) k) (r_attrs root) = Some a).
  { apply in_root_find. apply in_split in A1. destruct A1 as (l1 & l2 & E). exists l1, l2. split; [exact E|]. split; [exact N1|].
    rewrite E in NN. rewrite <- N1. exact (own_in_root _ _ _ NN). }
  assert (HK : om_get m k <> None).
  { apply (map_of_has f root (mkRh (str []) root) (r_attrs root) m (map_group f root (mkRh (str []) root) m GA) k).
    split; [rewrite <- N1; apply in_map; exact A1|apply not_bookkeeping, NR]. }
  unfold mapType, mapGoType, globalAttrType, globalAttrGoType. destruct (om_get m k) as [w|]; [|congruence]. rewrite FI. cbn [rh_obj textOf].
  rewrite (no_named f c _ _ RO), T1. cbn [List.length]. split; apply uncaught_is; intros r.
  - rewrite (mbind_is (mbind _ _) _ (attribute_cdl decimal [] (type_shape ty) dims)).
    + rewrite ne_some; [reflexivity|]. unfold attribute_cdl. intros X. apply app_eq_nil in X. exact (cdl_ne ty (proj1 X)).
    + intros q. rewrite (mbind_is _ _ _ (S1 [])), marks_dims. reflexivity.
  - rewrite (mbind_is (mbind _ _) _ (attribute_in_go decimal k [] (type_shape ty) dims)).
    + rewrite ne_some; [reflexivity|]. unfold attribute_in_go. intros X. apply app_eq_nil in X. exact (go_ne k ty (proj2 X)).
    + intros q. rewrite (mbind_is _ _ _ (S2 k [])), marks_dims. reflexivity.
Qed.

(** ** Cases *)

(** The histories of C50 meet the hypotheses: in the group [g] three sequences of different lengths *)
Example C83_variables_example : exists s1 root h v,
  step ucd_example false in_order cx_state (OClose 0) = (s1, Ok None) /\ openFile (st_file s1) = Ok root /\
  rgetGroup root (handle_of (st_file s1)) (bs "/g") = Ok h /\
  last_var (events cx_ops cx_outs) [bs "g"] (bs "rows") = Some v /\ var_of_type (SVlen (SNum U16)) [3] (hv_val v) /\
  (forall r, variableTypes h (bs "rows") r <-> r = Ok (Some (bs "ushort(*)", bs "[]uint16"))).
Proof.
  destruct C50_composed_hypotheses as (H1 & H2 & (s1 & H3 & H4) & H5 & H6). destruct C83_variables_partial as (num & _ & H).
  destruct (H ucd_example in_order cx_ops cx_state cx_outs s1 None cx_dims cx_strings ucd_example_ascii ucd_example_disjoint H6 H1 H2 H3 H4 H5)
    as (root & OF & T). clear H.
  destruct (C50_tree_partial ucd_example in_order cx_ops cx_state cx_outs s1 None cx_dims cx_strings ucd_example_ascii ucd_example_disjoint H6 H1 H2 H3 H4 H5)
    as (root' & OF' & G). assert (root' = root) by congruence. subst root'.
  destruct (G (handle_of (st_file s1)) (bs "/g") eq_refl) as [_ G2].
  destruct G2 as (h & Hh & _).
  { rewrite cx_events_eq. right. vm_compute. auto 10. }
  destruct (last_var (events cx_ops cx_outs) [bs "g"] (bs "rows")) as [v|] eqn:Ev; [|rewrite cx_events_eq in Ev; vm_compute in Ev; discriminate Ev].
  assert (Hv : hv_val v = ex_rows /\ List.length (hv_dims v) = 1%nat).
  { rewrite cx_events_eq in Ev. vm_compute in Ev. injection Ev as <-. split; reflexivity. }
  destruct Hv as [V1 V2]. exists s1, root, h, v. split; [exact H3|]. split; [exact OF|]. split; [exact Hh|]. split; [reflexivity|].
  assert (VT : var_of_type (SVlen (SNum U16)) [3] (hv_val v)) by (rewrite V1; right; exact ex_rows_ok).
  split; [exact VT|]. exact (T _ (bs "/g") h eq_refl Hh (bs "rows") v _ [3] Ev (eq_sym V2) VT).
Qed.

(** A number, and a slice of one, which is told as a number *)
Example C83_attributes_example : exists s1 root h m,
  step ucd_example false in_order ex_state (OClose 0) = (s1, Ok None) /\ openFile (st_file s1) = Ok root /\
  (forall h0, rgetGroup root h0 (bs "/") = Ok h) /\ groupAttributes (st_file s1) h = Ok m /\
  (forall r, mapType root h m (bs "n") r <-> r = Ok (Some (bs "ubyte"))) /\
  (forall r, mapGoType root h m (bs "one") r <-> r = Ok (Some (bs "int16"))) /\
  attr_of_type (SNum I16) [1] (HSlice (TNum I16) [HNum I16 5]).
Proof.
  destruct C50_example_hypotheses as (H1 & H2 & (s1 & H3 & H4) & H5 & H6). destruct C83_attributes_partial as (num & _ & H).
  destruct (H ucd_example in_order ex_ops ex_state ex_outs s1 None ex_dims ex_strings ucd_example_ascii ucd_example_disjoint H6 H1 H2 H3 H4 H5)
    as (root & h & m & OF & G & A & T). clear H.
  assert (E : attr_list (last_attrs (events ex_ops ex_outs) []) = [(bs "n", HNum U8 3); (bs "one", HSlice (TNum I16) [HNum I16 5])])
    by (rewrite ex_events_eq; vm_compute; reflexivity).
  rewrite E in T. exists s1, root, h, m. split; [exact H3|]. split; [exact OF|]. split; [exact G|]. split; [exact A|].
  assert (T1 : attr_of_type (SNum U8) [] (HNum U8 3)).
  { split; [constructor|]. right. split; [exact I|]. split; [exists 3; split; reflexivity|]. split; exact I. }
  assert (T2 : attr_of_type (SNum I16) [1] (HSlice (TNum I16) [HNum I16 5])).
  { split; [constructor; [reflexivity|constructor]|]. right. split; [exact I|].
    split; [eexists; split; [reflexivity|]; split; [reflexivity|]; constructor; [exists 5; split; reflexivity|constructor]|]. split; exact I. }
  split; [exact (proj1 (T (bs "n") _ _ [] (or_introl eq_refl) T1))|].
  split; [exact (proj2 (T (bs "one") _ _ [1] (or_intror (or_introl eq_refl)) T2))|exact T2].
Qed.

Print Assumptions C83_variables_partial.
Print Assumptions C83_attributes_partial.
