(** What the calls on the groups of a file return, in terms of the tree that the writer was given. *)
From Verif Require Import Prelude GoVal OrderedMapModel ArraySpec H5Base H5MetaRead H5Value H5TypeRead H5FileWrite H5PathModel
  H5RecordModel H5FileRead PathSpec WriterSpec TypeSpec FileSpec BaseLemmas H5TypeProofs H5PathProofs H5AttrProofs H5ObjectProofs H5TreeProofs
  H5SizeProofs H5PrepareProofs H5WholeProofs OrderedMapProofs H5ApiPath H5ApiProofs H5ApiValues.
From Verif Require H5GoodProofs.
From Coq Require Import Lia ZifyBool ZifyNat Permutation.

Lemma nsort_names {V} (l : list (bytes * V)) : Permutation (map fst l) (map fst (nsort l)).
Proof. apply Permutation_map, nsort_perm. Qed.
Lemma walk_sort p : forall t q, tall (fun _ g => NoDup (map fst (w_groups g))) q t ->
  walk (sort_tree t) p = option_map sort_tree (walk t p).
Proof.
  induction p as [|n p IH]; intros t q H; [reflexivity|]. destruct t as [a vs gs]. rewrite tall_eq, talls_iff in H.
  destruct H as [N H]. cbn [w_groups] in N. rewrite sort_tree_eq. cbn [walk w_groups].
  rewrite assoc_nsort by (rewrite map_map; exact N).
  assert (E : assoc n (map (fun g : bytes * wtree => (fst g, sort_tree (snd g))) gs) = option_map sort_tree (assoc n gs)).
  { clear. induction gs as [|[m g] gs IH]; [reflexivity|]. cbn [map assoc fst snd]. destruct (beqb n m); [reflexivity|exact IH]. }
  rewrite E. destruct (assoc n gs) as [g|] eqn:Eg; [|reflexivity]. cbn [option_map]. apply assoc_Some_In in Eg.
  exact (IH g _ (H _ Eg)).
Qed.

Lemma simple_value s dims v : s = SStr \/ (exists k, s = SNum k) -> array_of s dims v ->
  (exists k z, v = HNum k z) \/ (exists x, v = HStr x) \/ (exists ty l, v = HSlice ty l).
Proof.
  intros Hs H. destruct dims as [|n dims]; cbn [array_of] in H.
  - destruct Hs as [->|(k & ->)]; cbn [conf] in H.
    + destruct H as (x & -> & _). eauto.
    + destruct H as (z & -> & _). eauto.
  - destruct H as (l & -> & _). eauto.
Qed.
Lemma fine_undo kv : fine_attr kv -> undoScalarAttribute (snd kv) = read_back (snd kv).
Proof.
  intros (_ & _ & dims & [(H & _)|[(s & _ & _ & H & _ & Ht)|(s & _ & _ & _ & _ & R)]] & _).
  - assert (G : (exists k z, snd kv = HNum k z) \/ (exists x, snd kv = HStr x) \/ (exists ty l, snd kv = HSlice ty l)).
    { destruct H as [(k & H)|[(_ & H)|(_ & x & H & _)]]; [eapply simple_value; [|exact H]; eauto|eapply simple_value; [|exact H]; auto|eauto]. }
    destruct G as [(k & z & ->)|[(x & ->)|(ty & l & ->)]]; reflexivity.
  - destruct s as [| | |k ns vs|fs|]; try contradiction; cbn [value_of] in H.
    + destruct H as (w & -> & H). cbn [undoScalarAttribute].
      destruct (simple_value (SNum k) dims w (or_intror (ex_intro _ k eq_refl)) H) as [(k' & z & ->)|[(x & ->)|(ty & [|x [|y l]] & ->)]]; reflexivity.
    + destruct dims as [|d ds]; cbn [array_of] in H; [|destruct H as (l & -> & _); reflexivity].
      apply (proj1 (conf_comp _ _)) in H. destruct H as (l & -> & H). cbn [read_back].
      destruct l as [|x [|y l]]; try reflexivity. exfalso. apply (proj1 Ht eq_refl).
      destruct fs as [|[nm s] [|[nm' s'] fs]]; [contradiction|reflexivity|].
      destruct x as [m x]. cbn [conf_fields] in H. tauto.
  - destruct (H5GoodProofs.ragged_slice dims (snd kv) R) as (t & l & ->). reflexivity.
Qed.

Lemma fine_keys a : fine_attrs a -> keys_plain (attr_list a).
Proof.
  intros (_ & H & _). unfold keys_plain. apply Forall_forall. intros k Hk. apply in_map_iff in Hk. destruct Hk as (kv & <- & Hk).
  rewrite Forall_forall in H. exact (proj1 (proj2 (H _ Hk))).
Qed.
Lemma plain_shown l : keys_plain l -> shown l = l.
Proof.
  intros H. unfold shown. induction l as [|[k v] l IH]; [reflexivity|]. unfold keys_plain in H. cbn [map fst] in H.
  inversion H as [|? ? H1 H2]; subst x l0. cbn [filter fst]. replace (mem k hiddenNames) with false.
  - cbn [negb]. f_equal. apply IH. exact H2.
  - symmetry. apply mem_nIn. intros Hi. apply H1. unfold reserved, hiddenNames in *. cbn [In] in *. tauto.
Qed.
Lemma scale_shown name i l : keys_plain l -> shown (scale_attrs name i ++ l) = l.
Proof. intros H. unfold shown. rewrite filter_app. fold (shown l). rewrite (plain_shown l H). reflexivity. Qed.
Lemma plain_visible l : keys_plain l -> filter (fun k => negb (beqb k ncpKey)) (map fst l) = map fst l.
Proof.
  intros H. unfold keys_plain in H. induction H as [|k ks H1 _ IH]; [reflexivity|]. cbn [filter]. 
  replace (beqb k ncpKey) with false; [cbn [negb]; f_equal; exact IH|]. symmetry. apply beqb_neq. intros ->. apply H1.
  unfold reserved. cbn [In]. tauto.
Qed.
Lemma assoc_undone k l : assoc k (undone l) = option_map undoScalarAttribute (assoc k l).
Proof. induction l as [|[x v] l IH]; [reflexivity|]. cbn [undone map assoc fst snd]. destruct (beqb k x); [reflexivity|exact IH]. Qed.
Lemma fine_attrs_as a m : fine_attrs a ->
  om_keys_visible m = filter (fun k => negb (beqb k ncpKey)) (map fst (attr_list a)) ->
  om_vals m = undone (attr_list a) -> attrs_as (attr_list a) m.
Proof.
  intros H A B. split; [rewrite A; apply plain_visible, fine_keys, H|]. intros k _. unfold om_get. rewrite B, assoc_undone.
  destruct (assoc k (attr_list a)) as [v|] eqn:E; [|reflexivity]. cbn [option_map]. f_equal. apply assoc_Some_In in E.
  destruct H as (_ & H & _). rewrite Forall_forall in H. exact (fine_undo _ (H _ E)).
Qed.

Section File.
Variables (f : bytes) (c : wctx) (D S : list bytes) (t t1 : wtree) (root : robj).
Hypothesis TF : tree_fine D S t.
Hypothesis CL : tall (fun _ g => Forall (fun x => clean (fst x)) (w_groups g)) [] t.
Hypothesis CO : forall n v, assoc n (w_vars t) = Some v -> dim_of t n -> hasPrefix n dimMarker = false.
Hypothesis EP : prepare t = Ok t1.
Hypothesis RO : group_obj f c (sort_tree t1) root.
Hypothesis IX : forall d, dim_of t d -> zassoc (addr_of c d) (addrIndex root) = Some d.

Let T := sort_tree t1.

(** ** The nodes *)
Lemma node_at p g : walk t p = Some g -> node_fine (zlen D) g.
Proof. intros H. exact (tall_here _ _ _ (walk_tall _ p t [] g (tf_nodes _ _ _ TF) H)). Qed.
Lemma var_fine g n v : node_fine (zlen D) g -> assoc n (w_vars g) = Some v ->
  n <> [] /\ fine_var v /\ hv_scale v = false.
Proof.
  intros (_ & H & _) E. apply assoc_Some_In in E. rewrite Forall_forall in H. destruct (H _ E) as (A & _ & B & C). auto.
Qed.
Lemma node_names g : node_fine (zlen D) g -> NoDup (map fst (w_vars g)) /\ NoDup (map fst (w_groups g)).
Proof. intros (_ & _ & _ & N & _). destruct (app_NoDup_l _ _ N) as (A & B & _). auto. Qed.

Lemma prepared_keys D1 vs n v : (forall n w, assoc n vs = Some w -> fine_var w) -> prepared D1 vs n v ->
  ~ In RL (map fst (attr_list (hv_attrs v))).
Proof.
  intros H P. assert (R : In RL reserved) by (unfold reserved; cbn [In]; tauto).
  destruct P as [v Ev _|v i Ev _ _|i size _ _ _].
  - apply plain_not; [|exact R]. apply fine_keys. exact (proj1 (proj2 (H _ _ Ev))).
  - cbn [coordinate hv_attrs attr_list]. rewrite map_app. intros Hi. apply in_app_or in Hi. destruct Hi as [Hi|Hi].
    + cbn [scale_attrs map fst In] in Hi. destruct Hi as [Hi|[Hi|[Hi|[]]]]; discriminate Hi.
    + revert Hi. apply plain_not; [|exact R]. apply fine_keys. exact (proj1 (proj2 (H _ _ Ev))).
  - cbn [bare hv_attrs attr_list scale_attrs map fst In]. intros [Hi|[Hi|[Hi|[]]]]; discriminate Hi.
Qed.

Lemma tall_both : tall (fun _ g => api_node g /\ no_reflist g) [] t1.
Proof.
  pose proof (prepare_nodes D S t TF t1 EP) as NO. destruct (prepare_spec D S t TF t1 EP) as (D1 & vs1 & E1 & N1 & _ & P1 & _).
  pose proof (tall_and _ _ _ _ (tf_nodes _ _ _ TF) CL) as NT.
  pose proof (node_at [] t eq_refl) as NF.
  destruct t as [a vs gs] eqn:Et. cbn [w_attrs w_vars w_groups] in *. subst t1.
  rewrite tall_eq in NO, NT |- *. destruct NO as [(_ & O2 & _ & O4 & _) _]. destruct NT as [[_ C0] NT].
  cbn [w_attrs w_vars w_groups] in *. split.
  - split.
    + split; [exact O4|]. split; [|exact C0]. apply Forall_forall. intros v Hv. rewrite Forall_forall in O2. exact (proj1 (O2 _ Hv)).
    + split.
      * cbn [attr_list w_attrs]. rewrite map_app. intros Hi. apply in_app_or in Hi. destruct Hi as [Hi|[Hi|[]]]; [|discriminate Hi].
        revert Hi. apply plain_not; [|unfold reserved; cbn [In]; tauto]. apply fine_keys. exact (proj1 NF).
      * apply Forall_forall. intros [n v] Hv. cbn [snd]. apply (prepared_keys D1 vs n).
        -- intros n' w Ew. exact (proj1 (proj2 (var_fine _ _ _ NF Ew))).
        -- apply P1. apply In_assoc; assumption.
  - rewrite talls_iff in NT |- *. intros g Hg. specialize (NT g Hg). revert NT. apply tall_mono.
    intros p g' [(A1 & A2 & _ & A4 & _) C]. split.
    + split; [exact A4|]. split; [|exact C]. eapply Forall_impl; [|exact A2]. cbv beta. intros v Hv. exact (proj1 Hv).
    + split.
      * apply plain_not; [|unfold reserved; cbn [In]; tauto]. apply fine_keys. exact A1.
      * eapply Forall_impl; [|exact A2]. cbv beta. intros v (_ & _ & (_ & Fa & _) & _).
        apply plain_not; [|unfold reserved; cbn [In]; tauto]. apply fine_keys. exact Fa.
Qed.
Lemma tall_T : tall (fun _ => api_node) [] T /\ tall (fun _ => no_reflist) [] T.
Proof.
  assert (H : tall (fun _ g => api_node g /\ no_reflist g) [] T).
  { apply tall_sort; [|exact tall_both]. intros p a vs gs gs' ((A1 & A2 & A3) & (B1 & B2)) P. cbn [w_attrs w_vars w_groups] in *.
    pose proof (nsort_perm vs) as Pv. pose proof (nsort_names vs) as Pn. split.
    - split; [|split]; cbn [w_vars w_groups].
      + eapply Permutation_NoDup; [|exact A1]. apply Permutation_app; [exact Pn|exact P].
      + apply Forall_forall. intros v Hv. apply (Permutation_in _ (Permutation_sym Pv)) in Hv. rewrite Forall_forall in A2. exact (A2 _ Hv).
      + apply Forall_forall. intros v Hv. apply (in_map fst) in Hv. apply (Permutation_in _ (Permutation_sym P)) in Hv.
        apply in_map_iff in Hv. destruct Hv as (w & E & Hw). rewrite Forall_forall in A3. rewrite <- E. exact (A3 _ Hw).
    - split; cbn [w_attrs w_vars]; [exact B1|]. apply Forall_forall. intros v Hv. apply (Permutation_in _ (Permutation_sym Pv)) in Hv.
      rewrite Forall_forall in B2. exact (B2 _ Hv). }
  split; revert H; apply tall_mono; intros p g [A B]; assumption.
Qed.
(** The node of the prepared and sorted tree at a path of the original one *)
Definition at_root (p : path) (l : list bytes) : list bytes := match p with [] => l | _ => [] end.
Lemma walk_T p : match walk t p with
  | None => walk T p = None
  | Some g => exists g' D1, walk T p = Some g' /\
      Permutation (map fst (w_groups g)) (map fst (w_groups g')) /\
      attr_list (w_attrs g') = attr_list (w_attrs g) ++ match p with [] => [ncp] | _ => [] end /\
      NoDup (map fst (w_vars g')) /\
      (forall n, In n (map fst (w_vars g')) <-> In n (map fst (w_vars g)) \/ In n (at_root p D1)) /\
      (forall n v, assoc n (w_vars g') = Some v -> prepared (at_root p D1) (w_vars g) n v) /\
      (forall d, In d D1 <-> dim_of t d)
  end.
Proof.
  destruct (prepare_spec D S t TF t1 EP) as (D1 & vs1 & E1 & N1 & M1 & P1 & X1 & _).
  assert (ES : walk T p = option_map sort_tree (walk t1 p)).
  { unfold T. apply (walk_sort p t1 []). generalize tall_both. apply tall_mono. intros _ g [(N & _) _].
    exact (proj1 (proj2 (app_NoDup_l _ _ N))). }
  destruct p as [|n p].
  - cbn [walk] in *. exists T, D1. split; [reflexivity|]. unfold T. rewrite E1, sort_tree_eq. cbn [w_groups w_vars w_attrs attr_list at_root].
    split; [pose proof (nsort_names (map (fun g : bytes * wtree => (fst g, sort_tree (snd g))) (w_groups t))) as Pm; rewrite map_map in Pm; exact Pm|].
    split; [reflexivity|]. split; [eapply Permutation_NoDup; [apply nsort_names|exact N1]|].
    split; [|split; [|exact X1]].
    + intros n. rewrite (X1 n), <- (M1 n). split; apply Permutation_in; [apply Permutation_sym|]; apply nsort_names.
    + intros n v. rewrite assoc_nsort by exact N1. apply P1.
  - assert (EW : walk t1 (n :: p) = walk t (n :: p)) by (rewrite E1; reflexivity). rewrite ES, EW.
    destruct (walk t (n :: p)) as [g|] eqn:Eg; [|reflexivity]. cbn [option_map]. exists (sort_tree g), D1.
    split; [reflexivity|]. pose proof (node_at _ _ Eg) as NF. destruct (node_names _ NF) as [NV NG].
    destruct g as [a vs gs]. rewrite sort_tree_eq. cbn [w_groups w_vars w_attrs at_root] in *.
    split; [pose proof (nsort_names (map (fun g : bytes * wtree => (fst g, sort_tree (snd g))) gs)) as Pm; rewrite map_map in Pm; exact Pm|].
    split; [rewrite app_nil_r; reflexivity|]. split; [eapply Permutation_NoDup; [apply nsort_names|exact NV]|].
    split; [|split; [|exact X1]].
    + intros m. split.
      * intros Hm. left. eapply Permutation_in; [apply Permutation_sym, nsort_names|exact Hm].
      * intros [Hm|[]]. eapply Permutation_in; [apply nsort_names|exact Hm].
    + intros m v. rewrite assoc_nsort by exact NV. intros E. apply prep_same; [exact E|intros []].
Qed.

Lemma get_group h s p : absolute s = true -> components s = p ->
  match walk t p with
  | None => rgetGroup root h s = Err ENotFound
  | Some g => exists o g', rgetGroup root h s = Ok (mkRh (str p) o) /\ walk T p = Some g' /\ group_obj f c g' o
  end.
Proof.
  intros Ha Es. rewrite rgetGroup_follow by (left; exact Ha). rewrite Ha, Es.
  pose proof (follow_walk f c p T root [] RO (proj1 tall_T)) as FW. pose proof (walk_T p) as WT.
  destruct (walk t p) as [g|].
  - destruct WT as (g' & D1 & WT & _). rewrite WT in FW. destruct FW as (o & FW & GO). rewrite FW. exists o, g'. auto.
  - rewrite WT in FW. rewrite FW. reflexivity.
Qed.

Section Group.
Variables (p : path) (g g' : wtree) (o : robj).
Hypothesis Hw : walk t p = Some g.
Hypothesis Hw' : walk T p = Some g'.
Hypothesis Ho : group_obj f c g' o.
Let h := mkRh (str p) o.

Lemma path_clean : Forall clean p.
Proof. exact (walk_clean _ _ _ _ (proj1 tall_T) Hw'). Qed.
Lemma the_walk : exists D1,
  Permutation (map fst (w_groups g)) (map fst (w_groups g')) /\
  attr_list (w_attrs g') = attr_list (w_attrs g) ++ match p with [] => [ncp] | _ => [] end /\
  NoDup (map fst (w_vars g')) /\
  (forall n, In n (map fst (w_vars g')) <-> In n (map fst (w_vars g)) \/ In n (at_root p D1)) /\
  (forall n v, assoc n (w_vars g') = Some v -> prepared (at_root p D1) (w_vars g) n v) /\
  (forall d, In d D1 <-> dim_of t d).
Proof.
  pose proof (walk_T p) as W. rewrite Hw in W. destruct W as (g2 & D1 & W1 & W). rewrite Hw' in W1.
  assert (g2 = g') by congruence. subst g2. exists D1. exact W.
Qed.
Lemma group_api : api_node g'.
Proof. exact (tall_here _ _ _ (walk_tall _ p T [] g' (proj1 tall_T) Hw')). Qed.

(** *** Which of the variables are found *)
Lemma is_coord D1 n v : (forall d, In d D1 <-> dim_of t d) -> assoc n (w_vars g) = Some v -> In n (at_root p D1) ->
  p = [] /\ dim_of t n /\ hasPrefix n dimMarker = false.
Proof.
  intros X E Hn. destruct p as [|m q]; [|contradiction]. cbn [at_root walk] in *. assert (g = t) by congruence. subst g.
  apply X in Hn. split; [reflexivity|]. split; [exact Hn|]. apply (CO n v); [exact E|exact Hn].
Qed.
Lemma note_prefix size : hasPrefix (scale_note size) dimMarker = true.
Proof. apply hasPrefix_iff. unfold scale_note. exists (bs " but not a netCDF variable." ++ dec10 size). rewrite app_assoc. reflexivity. Qed.

Lemma find_var n v : assoc n (w_vars g) = Some v -> exists v' o', findVariable h n = Some o' /\ var_obj f c (n, v') o' /\
  hv_val v' = hv_val v /\ hv_dims v' = hv_dims v /\
  ((v' = v /\ isDimension o' = false /\ ~ (p = [] /\ dim_of t n)) \/
   (exists i, v' = coordinate i n v /\ isDimension o' = true /\ (p = [] /\ dim_of t n) /\ hasPrefix n dimMarker = false /\
      NoDup (map fst (attr_list (hv_attrs v'))))).
Proof.
  intros E. destruct the_walk as (D1 & _ & _ & N & M & P & X).
  assert (Hn : In n (map fst (w_vars g'))).
  { apply M. left. apply assoc_Some_In in E. apply in_map_iff. exists (n, v). auto. }
  destruct (children f c _ _ Ho) as (_ & _ & _ & _ & C). specialize (C n).
  destruct (assoc n (w_vars g')) as [v'|] eqn:E'; [|apply assoc_None in E'; contradiction].
  destruct C as (o' & C1 & C2). specialize (P n v' E'). pose proof (node_at p g Hw) as NF.
  destruct (var_fine g n v NF E) as (_ & FV & SC). pose proof (fine_keys _ (proj1 (proj2 FV))) as KP.
  destruct (var_parts f c _ _ _ C2) as (dims & d & DM & _). unfold findVariable, h. cbn [rh_obj]. rewrite C1.
  destruct P as [w Ew Nn|w i Ew In1 Nd|i size Ew _ _].
  - assert (w = v) by congruence. subst w. exists v, o'. destruct (plain_kind f c _ _ _ C2 KP) as [K1 K2]. rewrite K1, DM.
    split; [reflexivity|]. split; [exact C2|]. split; [reflexivity|]. split; [reflexivity|]. left. split; [reflexivity|].
    split; [exact K2|]. intros [-> Hd]. apply Nn. cbn [at_root]. apply X. exact Hd.
  - assert (w = v) by congruence. subst w. exists (coordinate i n v), o'.
    destruct (is_coord D1 n v X E In1) as (Hr & Hd & Hm).
    destruct (scale_kind f c n n i (attr_list (hv_attrs v)) _ _ C2 eq_refl eq_refl KP) as [K1 K2]. rewrite K2, Hm, DM.
    split; [reflexivity|]. split; [exact C2|]. split; [reflexivity|]. split; [reflexivity|]. right. exists i. auto.
  - congruence.
Qed.
Lemma find_none n : assoc n (w_vars g) = None -> findVariable h n = None.
Proof.
  intros E. destruct the_walk as (D1 & _ & _ & N & M & P & X). unfold findVariable, h. cbn [rh_obj].
  destruct (children f c _ _ Ho) as (_ & _ & _ & _ & C). specialize (C n).
  destruct (assoc n (w_vars g')) as [v'|] eqn:E'.
  - destruct C as (o' & C1 & C2). rewrite C1. specialize (P n v' E').
    destruct P as [w Ew Nn|w i Ew In1 Nd|i size Ew Hn _]; try congruence.
    destruct (scale_kind f c n (scale_note size) i [] _ _ C2 eq_refl eq_refl ltac:(constructor)) as [K1 K2].
    rewrite K2, note_prefix. reflexivity.
  - destruct (assoc n (w_groups g')) as [gg|]; [|rewrite C; reflexivity]. destruct C as (o' & C1 & C2). rewrite C1.
    destruct (children f c _ _ C2) as (_ & C3 & _). rewrite C3. destruct (isDimensionScale (r_attrs o')); reflexivity.
Qed.

(** *** The lists *)
Lemma found_NoDup hh ns : NoDup ns -> NoDup (found hh ns).
Proof.
  unfold found. induction 1 as [|n ns H _ IH]; [constructor|]. cbn [flat_map]. destruct (findVariable hh n); [|exact IH].
  cbn [app]. constructor; [|exact IH]. intros Hi. apply H. apply in_flat_map in Hi. destruct Hi as (m & Hm & Hi).
  destruct (findVariable hh m); [|contradiction]. destruct Hi as [->|[]]. exact Hm.
Qed.
Lemma list_variables : NoDup (listVariables root h) /\
  forall n, In n (listVariables root h) <-> In n (map fst (w_vars g)).
Proof.
  assert (E : listVariables root h = found h (map fst (w_vars g') ++ map fst (w_groups g'))).
  { unfold listVariables. apply (proj2 (lv_group f c h p eq_refl path_clean T [] root RO (proj1 tall_T) (Forall_nil _)) p g' eq_refl Hw'). }
  rewrite E. split; [apply found_NoDup; exact (proj1 group_api)|]. intros n. unfold found. rewrite in_flat_map. split.
  - intros (m & _ & Hm). destruct (findVariable h m) as [o'|] eqn:Ef; [|contradiction]. destruct Hm as [->|[]].
    destruct (assoc n (w_vars g)) as [v|] eqn:Ev; [apply assoc_Some_In in Ev; apply in_map_iff; exists (n, v); auto|].
    rewrite (find_none n Ev) in Ef. discriminate.
  - intros Hn. destruct (assoc n (w_vars g)) as [v|] eqn:Ev; [|apply assoc_None in Ev; contradiction].
    destruct (find_var n v Ev) as (v' & o' & Ef & _). exists n. rewrite Ef. split; [|left; reflexivity].
    apply in_or_app. left. destruct the_walk as (D1 & _ & _ & _ & M & _). apply M. left. exact Hn.
Qed.
Lemma list_subgroups : exists l, listSubgroups root h = Ok l /\ Permutation (map fst (w_groups g)) l.
Proof.
  exists (map fst (w_groups g')). split.
  - unfold listSubgroups, h. cbn [rh_name].
    apply (proj2 (sg_group f c p path_clean T [] root RO (proj1 tall_T) (Forall_nil _)) p g' eq_refl Hw').
  - destruct the_walk as (D1 & Pm & _). exact Pm.
Qed.
Lemma list_dimensions : NoDup (listDimensions h) /\
  forall d, In d (listDimensions h) <-> p = [] /\ dim_of t d.
Proof.
  destruct the_walk as (D1 & _ & _ & N & M & P & X). pose proof group_api as (N' & _).
  destruct (children f c _ _ Ho) as (_ & _ & _ & CN & C). unfold listDimensions, h. cbn [rh_obj].
  assert (NC : NoDup (map fst (r_children o))) by (rewrite CN; exact N').
  assert (G : forall cs : list (bytes * robj), NoDup (map fst cs) -> NoDup (flat_map (fun x => if isDimension (snd x) then [fst x] else []) cs)).
  { induction cs as [|[n x] cs IH]; cbn [map fst flat_map snd]; intros H; [constructor|]. inversion H as [|? ? H1 H2]; subst x0 l.
    destruct (isDimension x); [|apply IH; exact H2]. cbn [app]. constructor; [|apply IH; exact H2]. intros Hi. apply H1.
    apply in_flat_map in Hi. destruct Hi as ([m y] & Hm & Hi). cbn [snd fst] in Hi. destruct (isDimension y); [|contradiction].
    destruct Hi as [->|[]]. apply in_map_iff. exists (n, y). auto. }
  split; [apply G; exact NC|]. intros d. rewrite in_flat_map.
  assert (K : In d (at_root p D1) <-> p = [] /\ dim_of t d).
  { rewrite <- (X d). destruct p as [|m q]; cbn [at_root]; split; auto; [intros [_ A]; exact A|intros []|intros [A _]; discriminate]. }
  rewrite <- K. clear K. pose proof (node_at p g Hw) as NF. split.
  - intros ([n x] & Hi & Hd). cbn [fst snd] in Hd. destruct (isDimension x) eqn:Ed; [|contradiction]. destruct Hd as [->|[]].
    apply (In_assoc _ _ _ NC) in Hi. specialize (C d). destruct (assoc d (w_vars g')) as [v'|] eqn:E'.
    + destruct C as (o' & C1 & C2). rewrite Hi in C1. assert (x = o') by congruence. subst o'.
      destruct (P d v' E') as [w Ew Nn|w i Ew In1 Nd|i size Ew Hn _]; [|exact In1|exact Hn].
      destruct (var_fine g d w NF Ew) as (_ & FV & _).
      destruct (plain_kind f c _ _ _ C2 (fine_keys _ (proj1 (proj2 FV)))) as [_ K2]. congruence.
    + destruct (assoc d (w_groups g')) as [gg|]; [|congruence]. destruct C as (o' & C1 & C2). rewrite Hi in C1.
      assert (x = o') by congruence. subst o'. destruct (children f c _ _ C2) as (C3 & _). unfold isDimension in Ed. rewrite C3 in Ed. discriminate.
  - intros Hd. assert (Hn : In d (map fst (w_vars g'))) by (apply M; right; exact Hd). specialize (C d).
    destruct (assoc d (w_vars g')) as [v'|] eqn:E'; [|apply assoc_None in E'; contradiction].
    destruct C as (o' & C1 & C2). exists (d, o'). split; [apply assoc_Some_In; exact C1|]. cbn [fst snd].
    assert (K : isDimension o' = true).
    { destruct (P d v' E') as [w Ew Nn|w i Ew In1 Nd|i size Ew _ _]; [contradiction| |].
      - destruct (var_fine g d w NF Ew) as (_ & FV & _).
        exact (proj1 (scale_kind f c d d i (attr_list (hv_attrs w)) _ _ C2 eq_refl eq_refl (fine_keys _ (proj1 (proj2 FV))))).
      - exact (proj1 (scale_kind f c d (scale_note size) i [] _ _ C2 eq_refl eq_refl ltac:(constructor))). }
    rewrite K. left. reflexivity.
Qed.

(** *** Variables and attributes *)
Lemma var_dims n v d : assoc n (w_vars g) = Some v -> In d (hv_dims v) -> d <> [] /\ dim_of t d.
Proof.
  intros E Hd. pose proof (node_at p g Hw) as NF. destruct (var_fine g n v NF E) as (_ & FV & SC).
  destruct FV as (_ & _ & FD). rewrite Forall_forall in FD. pose proof (proj1 (FD d Hd)) as Hne. split; [exact Hne|].
  exists ((p, n), v). split; [|auto]. apply assoc_Some_In in E.
  pose proof (tall_vars (all_vars [] t) t [] (fun x Hx => Hx)) as TV.
  exact (tall_here _ _ _ (walk_tall _ p t [] g TV Hw) (n, v) E).
Qed.
Lemma get_var n v : assoc n (w_vars g) = Some v ->
  exists ds m, getVariable f root h n = Ok (mkRvar (hv_val v) ds m) /\ attrs_as (attr_list (hv_attrs v)) m /\
    (p = [] /\ dim_of t n -> ds = [n]) /\ (~ (p = [] /\ dim_of t n) -> ds = hv_dims v).
Proof.
  intros E. pose proof (node_at p g Hw) as NF. destruct (var_fine g n v NF E) as (_ & FV & SC).
  pose proof (proj1 (proj2 FV)) as FA. pose proof (fine_keys _ FA) as KP.
  destruct (find_var n v E) as (v' & o' & Ef & VO & Ev & Ed & Hk). destruct tall_T as [_ NR].
  destruct Hk as [(-> & _ & Hk)|(i & -> & _ & Hd & Hm & Nd)].
  - destruct (get_variable f c root h n v o' Ef VO (proj1 FA) (plain_not _ DL KP ltac:(unfold reserved; cbn [In]; tauto)) (hv_dims v))
      as (m & M1 & M2 & M3).
    { apply (dims_plain f c root T [] n v o' RO NR VO SC KP). apply Forall_forall. intros d Hd.
      destruct (var_dims n v d E Hd) as [A B]. split; [exact A|exact (IX d B)]. }
    rewrite (plain_shown _ KP) in M2, M3. exists (hv_dims v), m. split; [exact M1|].
    split; [apply fine_attrs_as; assumption|]. split; [intros K; contradiction|reflexivity].
  - cbn [coordinate hv_attrs attr_list] in Nd. destruct (get_variable f c root h n (coordinate i n v) o' Ef VO Nd) with (ds := [n]) as (m & M1 & M2 & M3).
    + cbn [coordinate hv_attrs attr_list]. rewrite map_app. intros Hi. apply in_app_or in Hi. destruct Hi as [Hi|Hi].
      * cbn [scale_attrs map fst In] in Hi. destruct Hi as [Hi|[Hi|[Hi|[]]]]; discriminate Hi.
      * revert Hi. apply plain_not; [exact KP|unfold reserved; cbn [In]; tauto].
    + exact (dims_coordinate f c root T [] n n i (attr_list (hv_attrs v)) _ o' RO NR VO eq_refl eq_refl KP Hm).
    + cbn [coordinate hv_attrs attr_list hv_val] in *. rewrite (scale_shown n i _ KP) in M2, M3. exists [n], m.
      split; [exact M1|]. split; [apply fine_attrs_as; assumption|]. split; [reflexivity|intros K; contradiction].
Qed.
Lemma get_var_none n : assoc n (w_vars g) = None -> getVariable f root h n = Err ENotFound.
Proof. intros E. unfold getVariable. rewrite (find_none n E). reflexivity. Qed.

Lemma group_attrs : exists m, groupAttributes f h = Ok m /\ attrs_as (attr_list (w_attrs g)) m.
Proof.
  destruct (children f c _ _ Ho) as (_ & _ & G & _). destruct the_walk as (D1 & _ & EA & _). rewrite EA in G.
  pose proof (node_at p g Hw) as NF. pose proof (proj1 NF) as FA. pose proof (fine_keys _ FA) as KP.
  unfold groupAttributes, h. cbn [rh_obj]. rewrite (sort_all f _ _ G). cbn [rbind].
  assert (NN : NoDup (map fst (attr_list (w_attrs g) ++ match p with [] => [ncp] | _ => [] end))).
  { rewrite map_app. destruct p; cbn [map]; [|rewrite app_nil_r; exact (proj1 FA)]. apply NoDup_snoc; [exact (proj1 FA)|].
    apply plain_not; [exact KP|]. unfold reserved, ncp. cbn [In fst]. tauto. }
  destruct (get_attributes f _ _ G NN) as (m & M1 & M2 & M3). exists m. split; [exact M1|].
  assert (ES : shown (attr_list (w_attrs g) ++ match p with [] => [ncp] | _ => [] end) =
               attr_list (w_attrs g) ++ match p with [] => [ncp] | _ => [] end).
  { unfold shown. rewrite filter_app. fold (shown (attr_list (w_attrs g))). rewrite (plain_shown _ KP). destruct p; reflexivity. }
  rewrite ES in M2, M3. split.
  - rewrite M2, map_app, filter_app, (plain_visible _ KP). destruct p; cbn [map filter]; [|apply app_nil_r].
    change (beqb (fst ncp) ncpKey) with true. cbn [negb]. apply app_nil_r.
  - intros k Hk. unfold om_get. rewrite M3. unfold undone. rewrite map_app. fold (undone (attr_list (w_attrs g))).
    rewrite assoc_app, assoc_undone.
    destruct (assoc k (attr_list (w_attrs g))) as [v|] eqn:E; cbn [option_map].
    + f_equal. apply assoc_Some_In in E. destruct FA as (_ & FA & _). rewrite Forall_forall in FA. exact (fine_undo _ (FA _ E)).
    + destruct p; [|reflexivity]. cbn [map assoc fst ncp]. replace (beqb k ncpKey) with false; [reflexivity|].
      symmetry. apply beqb_neq. exact Hk.
Qed.
End Group.
End File.
