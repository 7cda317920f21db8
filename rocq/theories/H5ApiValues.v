(** Attributes, dimension names and values, as the calls on a group return them, for the tree of
    objects that is read from a file the writer wrote. *)
From Verif Require Import Prelude GoVal OrderedMapModel ArraySpec H5Base H5MetaRead H5Value H5TypeRead H5FileWrite H5PathModel
  H5RecordModel H5FileRead PathSpec WriterSpec FileSpec BaseLemmas H5PathProofs H5AttrProofs H5ObjectProofs H5TreeProofs
  H5SizeProofs H5PrepareProofs OrderedMapProofs H5ApiPath H5ApiProofs.
From Coq Require Import Lia ZifyBool ZifyNat Permutation.

Definition RL : bytes := bs "REFERENCE_LIST".
Definition CLASS : bytes := bs "CLASS".
Definition NAME : bytes := bs "NAME".
Definition COORDS : bytes := bs "_Netcdf4Coordinates".

Section Values.
Variables (f : bytes) (c : wctx).
Notation gobj := (group_obj f c).
Notation vobj := (var_obj f c).
Notation gives := (Forall2 (attr_gives f)).

(** ** Lists of attributes *)
Lemma gives_names l al : gives l al -> map ra_name al = map fst l.
Proof. induction 1 as [|[k v] a l al [E _] _ IH]; [reflexivity|]. cbn [map fst]. rewrite E, IH. reflexivity. Qed.
Lemma has_key K al : existsb (fun a => beqb (ra_name a) K) al = true <-> In K (map ra_name al).
Proof.
  rewrite existsb_exists, in_map_iff. split; intros (a & A & B); exists a.
  - apply beqb_eq in B. auto.
  - split; [exact B|]. apply beqb_eq. exact A.
Qed.
Lemma has_no_key K al : ~ In K (map ra_name al) -> existsb (fun a => beqb (ra_name a) K) al = false.
Proof. intros H. destruct (existsb _ al) eqn:E; [|reflexivity]. apply has_key in E. contradiction. Qed.
Lemma hasName_none al : ~ In NAME (map ra_name al) -> hasName al = false.
Proof.
  intros H. unfold hasName. destruct (existsb _ al) eqn:E; [|reflexivity]. apply existsb_exists in E.
  destruct E as (a & A & B). elim H. apply in_map_iff. exists a. split; [|exact A]. apply andb_true_iff in B. apply beqb_eq, B.
Qed.

Lemma parse_all l al : gives l al -> rmapM (parseAttr f) al = Ok (map (fun kv => Some (snd kv)) l).
Proof.
  induction 1 as [|[k v] a l al (_ & _ & E & _) _ IH]; [reflexivity|]. cbn [rmapM map snd]. rewrite E. cbn [rbind]. rewrite IH. reflexivity.
Qed.
Lemma sort_same l al : gives l al -> sortAttrs al = al.
Proof.
  induction 1 as [|[k v] a l al (_ & _ & _ & E & _) G IH]; [reflexivity|]. unfold sortAttrs in *. cbn [fold_right]. rewrite IH.
  destruct G as [|? b ? al (_ & _ & _ & E' & _) _]; [reflexivity|]. cbn [insertAttr]. rewrite E, E'. reflexivity.
Qed.
Lemma sort_all l al : gives l al -> sortAttrList f al = Ok al.
Proof. intros H. unfold sortAttrList. rewrite (parse_all _ _ H), (sort_same _ _ H). reflexivity. Qed.

(** ** The map of attributes *)
Definition shown (l : hattrs) : hattrs := filter (fun kv => negb (mem (fst kv) hiddenNames)) l.
Definition undone (l : hattrs) : hattrs := map (fun kv => (fst kv, undoScalarAttribute (snd kv))) l.
Lemma undone_keys l : map fst (undone l) = map fst l.
Proof. unfold undone. rewrite map_map. reflexivity. Qed.
Lemma filtered_eq l al : gives l al -> forall m, NoDup (map fst m ++ map fst (shown l)) ->
  filtered f al m = Ok (m ++ undone (shown l)).
Proof.
  induction 1 as [|[k v] a l al (E1 & E2 & _) _ IH]; intros m N.
  - cbn [filtered shown filter undone map]. rewrite app_nil_r. reflexivity.
  - cbn [filtered]. rewrite E1. cbn [shown filter fst] in *. destruct (mem k hiddenNames) eqn:Em; cbn [negb] in *.
    + apply IH. exact N.
    + rewrite E2. cbn [rbind undone map fst snd] in *. destruct (NoDup_mid _ _ _ N) as [N1 N2].
      rewrite assoc_set_new by exact N1. rewrite IH.
      * rewrite <- app_assoc. reflexivity.
      * rewrite map_app. exact N2.
Qed.
Lemma shown_NoDup l : NoDup (map fst l) -> NoDup (map fst (shown l)).
Proof.
  induction l as [|[k v] l IH]; intros H; [constructor|]. cbn [map fst] in H. inversion H as [|? ? H1 H2]; subst x l0.
  cbn [shown filter fst]. destruct (negb (mem k hiddenNames)); [|apply IH; exact H2]. cbn [map fst]. constructor; [|apply IH; exact H2].
  intros Hi. apply H1. apply in_map_iff in Hi. destruct Hi as (x & <- & Hx). apply filter_In in Hx. apply in_map, Hx.
Qed.
Lemma get_attributes l al : gives l al -> NoDup (map fst l) ->
  exists m, getAttributes f al = Ok m /\
    om_keys_visible m = filter (fun k => negb (beqb k ncpKey)) (map fst (shown l)) /\ om_vals m = undone (shown l).
Proof.
  intros H N. unfold getAttributes. rewrite (filtered_eq _ _ H []) by (apply shown_NoDup, N). cbn [rbind app].
  destruct (proj2 (new_ordered_map_ok (map fst (undone (shown l))) (undone (shown l))) (Permutation_refl _)) as (om & Em).
  rewrite Em. cbn [rbind]. apply new_ordered_map_result in Em. subst om. eexists. split; [reflexivity|].
  unfold om_hide, om_keys_visible. cbn [om_keys om_vals om_visible om_hidden mem]. split; [|reflexivity].
  rewrite undone_keys. apply filter_ext. intros k. change (mem ncpKey []) with false. cbn iota. unfold mem. cbn [existsb]. rewrite orb_false_r. reflexivity.
Qed.

(** ** Variables *)
Definition extra (v : hvar) : hattrs :=
  if negb (hv_scale v) && (0 <? zlen (hv_dims v)) then [(DL, refs_value (map (addr_of c) (hv_dims v)))] else [].
Lemma var_parts n v o : vobj (n, v) o -> exists dims d,
  ri_dims (r_info o) = Some dims /\ ri_ty (r_info o) = Some d /\ ri_group (r_info o) = false /\ r_children o = [] /\
  getDimsLimited (List.length (hv_dims v)) (hv_val v) = dims /\ List.length dims = List.length (hv_dims v) /\
  gives (attr_list (hv_attrs v) ++ extra v) (r_attrs o) /\
  (let x := dset_of (r_info o) dims d in
   fst (getData f (readGlobalHeap f) x true (opened x (ri_blocks (r_info o)))) = Ok (hv_val v)).
Proof.
  intros (addr & dims & d & dn & size & al & dal & E & El & Ed & Ha & Hd & Hv & _). cbn [fst snd] in *. exists dims, d.
  assert (G : gives (attr_list (hv_attrs v) ++ extra v) (al ++ dal)).
  { apply Forall2_app; [exact Ha|]. unfold extra. destruct (negb (hv_scale v) && (0 <? zlen (hv_dims v))).
    - destruct Hd as (a & -> & Hd). constructor; [exact Hd|constructor].
    - subst dal. constructor. }
  subst o. unfold r_attrs. cbn [r_info r_children var_info ri_dims ri_ty ri_group ri_attrs].
  repeat (split; [reflexivity|]). split; [exact Ed|]. split; [exact El|]. split; [exact G|exact Hv].
Qed.

(** What kind of variable *)
Definition keys_plain (l : hattrs) : Prop := Forall (fun k => ~ In k reserved) (map fst l).
Lemma plain_not l k : keys_plain l -> In k reserved -> ~ In k (map fst l).
Proof. intros H Hk Hi. unfold keys_plain in H. rewrite Forall_forall in H. exact (H k Hi Hk). Qed.
Lemma extra_keys v k : k <> DL -> ~ In k (map fst (extra v)).
Proof. intros H. unfold extra. destruct (_ && _); [|intros []]. intros [E|[]]. apply H. symmetry. exact E. Qed.
Lemma plain_extra v k : keys_plain (attr_list (hv_attrs v)) -> In k reserved -> k <> DL ->
  ~ In k (map fst (attr_list (hv_attrs v) ++ extra v)).
Proof.
  intros A B C Hi. rewrite map_app in Hi. apply in_app_or in Hi. destruct Hi as [Hi|Hi].
  - exact (plain_not _ _ A B Hi).
  - exact (extra_keys _ _ C Hi).
Qed.
Ltac in_reserved := unfold reserved; cbn [In]; tauto.
Lemma plain_kind n v o : vobj (n, v) o -> keys_plain (attr_list (hv_attrs v)) ->
  isDimensionScale (r_attrs o) = false /\ isDimension o = false.
Proof.
  intros H K. destruct (var_parts _ _ _ H) as (dims & d & _ & _ & _ & _ & _ & _ & G & _).
  assert (E : hasClass (r_attrs o) = false).
  { apply has_no_key. rewrite (gives_names _ _ G). apply plain_extra; [exact K|in_reserved|discriminate]. }
  unfold isDimensionScale, isDimension. rewrite E, andb_false_r. split; reflexivity.
Qed.
Lemma scale_kind n name i l v o : vobj (n, v) o -> hv_scale v = true ->
  attr_list (hv_attrs v) = scale_attrs name i ++ l -> keys_plain l ->
  isDimension o = true /\ isDimensionScale (r_attrs o) = hasPrefix name dimMarker.
Proof.
  intros H Hs El K. destruct (var_parts _ _ _ H) as (dims & d & _ & _ & Hg & _ & _ & _ & G & _).
  assert (Ex : extra v = []) by (unfold extra; rewrite Hs; reflexivity). rewrite Ex, El, app_nil_r in G.
  assert (E1 : hasClass (r_attrs o) = true).
  { apply has_key. rewrite (gives_names _ _ G). left. reflexivity. }
  assert (E2 : hasCoordinates (r_attrs o) = false).
  { apply has_no_key. rewrite (gives_names _ _ G), map_app. intros Hi. apply in_app_or in Hi. destruct Hi as [Hi|Hi].
    - cbn [scale_attrs map fst In] in Hi. destruct Hi as [Hi|[Hi|[Hi|[]]]]; discriminate Hi.
    - revert Hi. apply plain_not; [exact K|in_reserved]. }
  assert (E3 : hasName (r_attrs o) = negb (hasPrefix name dimMarker)).
  { unfold scale_attrs in G. cbn [app] in G. inversion G as [|? a1 ? l1 G1 G1']; subst x l0. clear G. rename H2 into E.
    inversion G1' as [|? a2 ? l2 G2 G2']; subst x l0 l1. inversion G2' as [|? a3 ? l3 G3 G3']; subst x l0 l2.
    destruct G1 as (N1 & _). destruct G2 as (N2 & _ & _ & _ & V2 & _). destruct G3 as (N3 & _).
    assert (E4 : hasName l3 = false).
    { apply hasName_none. rewrite (gives_names _ _ G3'). apply plain_not; [exact K|in_reserved]. }
    unfold hasName in *. cbn [existsb]. rewrite N1, N2, N3, (V2 _ eq_refl).
    change (beqb (bs "CLASS") (bs "NAME")) with false. change (beqb (bs "NAME") (bs "NAME")) with true.
    change (beqb (bs "_Netcdf4Dimid") (bs "NAME")) with false. cbn [andb orb]. rewrite E4. apply orb_false_r. }
  unfold isDimension, isDimensionScale. rewrite Hg, E1, E2, E3. cbn [negb andb]. rewrite orb_true_r. split; [reflexivity|].
  apply negb_involutive.
Qed.
(** ** Dimension names *)
Lemma dimlist_none ix l al : gives l al -> ~ In DL (map fst l) -> dimListNames f ix al = Ok [].
Proof.
  induction 1 as [|[k v] a l al (E1 & _ & E3 & _) _ IH]; intros N; [reflexivity|]. cbn [map fst In] in N. cbn [dimListNames].
  rewrite E3, E1. cbn [rbind fst snd]. replace (beqb k (bs "DIMENSION_LIST")) with false.
  - cbn [rbind]. rewrite IH by tauto. reflexivity.
  - symmetry. apply beqb_neq. intros E. apply N. left. exact E.
Qed.
Lemma asRefs_value addrs : asRefs (Some (refs_value addrs)) = Ok addrs.
Proof.
  unfold refs_value. cbn [asRefs]. f_equal. induction addrs as [|a addrs IH]; [reflexivity|]. cbn [map flat_map app]. f_equal. exact IH.
Qed.
Lemma dimlist_some ix l al a ds : gives l al -> ~ In DL (map fst l) -> attr_gives f (DL, refs_value (map (addr_of c) ds)) a ->
  Forall (fun d : bytes => d <> [] /\ zassoc (addr_of c d) ix = Some d) ds ->
  dimListNames f ix (al ++ [a]) = Ok ds.
Proof.
  intros H. induction H as [|[k v] b l al (E1 & _ & E3 & _) _ IH]; intros N Ha Hd; cbn [app dimListNames].
  - destruct Ha as (A1 & _ & A3 & _). rewrite A3, A1. cbn [rbind fst snd]. change (beqb DL (bs "DIMENSION_LIST")) with true. cbn iota.
    rewrite asRefs_value. cbn [rbind]. rewrite app_nil_r. f_equal. clear A1 A3. induction Hd as [|d ds [D1 D2] _ IHd]; [reflexivity|].
    cbn [map flat_map]. rewrite D2. destruct d as [|x d]; [congruence|]. cbn [app]. f_equal. exact IHd.
  - cbn [map fst In] in N. rewrite E3, E1. cbn [rbind fst snd]. replace (beqb k (bs "DIMENSION_LIST")) with false.
    + cbn [rbind]. rewrite IH by tauto. reflexivity.
    + symmetry. apply beqb_neq. intros E. apply N. left. exact E.
Qed.

Definition no_reflist (g : wtree) : Prop :=
  ~ In RL (map fst (attr_list (w_attrs g))) /\
  Forall (fun v => ~ In RL (map fst (attr_list (hv_attrs (snd v))))) (w_vars g).
Lemma scan_attrs l al : gives l al -> ~ In RL (map fst l) -> exists us,
  rmapM (fun a => let* v := parseAttr f a in if beqb (ra_name a) (bs "REFERENCE_LIST") then asRefList v else Ok tt) al = Ok us.
Proof.
  induction 1 as [|[k v] a l al (E1 & _ & E3 & _) _ IH]; intros N; [exists []; reflexivity|]. cbn [map fst In] in N.
  destruct IH as (us & E); [tauto|]. exists (tt :: us). cbn [rmapM]. rewrite E3, E1. cbn [rbind fst snd].
  replace (beqb k (bs "REFERENCE_LIST")) with false by (symmetry; apply beqb_neq; intros E'; apply N; left; exact E').
  cbn [rbind]. rewrite E. reflexivity.
Qed.
Definition scan_go := fix go (cs : list (bytes * robj)) : res unit :=
  match cs with [] => Ok tt | (_, c) :: r => let* _ := scanRefLists f c in go r end.
Lemma scan_eq i cs : scanRefLists f (RObj i cs) =
  let* _ := rmapM (fun a => let* v := parseAttr f a in if beqb (ra_name a) (bs "REFERENCE_LIST") then asRefList v else Ok tt) (ri_attrs i) in
  scan_go cs.
Proof. reflexivity. Qed.
Lemma scan_children cs : (forall x, In x cs -> scanRefLists f (snd x) = Ok tt) -> scan_go cs = Ok tt.
Proof.
  induction cs as [|[n o] cs IH]; intros H; [reflexivity|]. cbn [scan_go]. pose proof (H (n, o) (or_introl eq_refl)) as E.
  cbn [snd] in E. rewrite E. cbn [rbind]. apply IH. intros x Hx. apply H. right. exact Hx.
Qed.
Lemma scan_var n v o : vobj (n, v) o -> ~ In RL (map fst (attr_list (hv_attrs v))) -> scanRefLists f o = Ok tt.
Proof.
  intros H N. destruct (var_parts _ _ _ H) as (dims & d & _ & _ & _ & Hc & _ & _ & G & _). destruct o as [i cs].
  cbn [r_children] in Hc. subst cs. rewrite scan_eq. unfold r_attrs in G. cbn [r_info] in G.
  destruct (scan_attrs _ _ G) as (us & ->); [|reflexivity]. rewrite map_app. intros Hi. apply in_app_or in Hi.
  destruct Hi as [Hi|Hi]; [contradiction|]. revert Hi. apply extra_keys. discriminate.
Qed.
Lemma scan_tree t : forall p o, gobj t o -> tall (fun _ => no_reflist) p t -> scanRefLists f o = Ok tt.
Proof.
  induction t as [a vs gs IH] using wtree_ind'. intros p o H N. rewrite tall_eq, talls_iff in N. destruct N as [[N1 N2] N3].
  cbn [w_attrs w_vars] in N1, N2. destruct (children f c _ _ H) as (_ & _ & Ha & _). cbn [w_attrs] in Ha.
  destruct (gobj_parts f c _ _ _ _ H) as (i & vos & gos & -> & _ & Hv & Hg). unfold r_attrs in Ha. cbn [r_info] in Ha.
  rewrite scan_eq. destruct (scan_attrs _ _ Ha N1) as (us & ->). cbn [rbind]. apply scan_children. intros x Hx.
  apply in_app_or in Hx. destruct Hx as [Hx|Hx].
  - clear - Hv Hx N2. revert N2 Hx. induction Hv as [|[n v] no vs vos [_ V] _ IHv]; intros N2 Hx; [contradiction|].
    inversion N2 as [|? ? N2a N2b]; subst x0 l. destruct Hx as [<-|Hx]; [|apply IHv; assumption]. apply (scan_var n v); assumption.
  - destruct (gos_in f c _ _ _ Hg Hx) as (t' & T1 & T2). rewrite Forall_forall in IH. exact (IH _ T1 _ _ T2 (N3 _ T1)).
Qed.
Lemma name_none l al : gives l al -> ~ In NAME (map fst l) -> nameOfScale f al = Ok [].
Proof.
  induction 1 as [|[k v] a l al (E1 & _ & E3 & _) _ IH]; intros N; [reflexivity|]. cbn [map fst In] in N. cbn [nameOfScale].
  rewrite E3, E1. cbn [rbind fst snd]. replace (beqb k (bs "NAME")) with false.
  - apply IH. tauto.
  - symmetry. apply beqb_neq. intros E. apply N. left. exact E.
Qed.

(** ** GetVariable *)
Lemma get_variable root h n v o : findVariable h n = Some o -> vobj (n, v) o ->
  NoDup (map fst (attr_list (hv_attrs v))) -> ~ In DL (map fst (attr_list (hv_attrs v))) ->
  forall ds, getDimensions f root (r_attrs o) = Ok ds ->
  exists m, getVariable f root h n = Ok (mkRvar (hv_val v) ds m) /\
    om_keys_visible m = filter (fun k => negb (beqb k ncpKey)) (map fst (shown (attr_list (hv_attrs v)))) /\
    om_vals m = undone (shown (attr_list (hv_attrs v))).
Proof.
  intros Ef H N ND ds Ed. destruct (var_parts _ _ _ H) as (dims & d & D1 & D2 & _ & _ & _ & _ & G & V).
  assert (Em : data_modelled (r_info o) = true).
  { destruct H as (? & ? & ? & ? & ? & ? & ? & -> & _). reflexivity. }
  unfold getVariable. rewrite Ef. cbv zeta. rewrite D1, D2, Em. cbn [negb]. cbv zeta in V. rewrite V. cbn [rbind].
  change (ri_attrs (r_info o)) with (r_attrs o). rewrite (sort_all _ _ G). cbn [rbind]. rewrite Ed. cbn [rbind].
  assert (Nx : NoDup (map fst (attr_list (hv_attrs v) ++ extra v))).
  { rewrite map_app. unfold extra. destruct (_ && _); cbn [map fst]; [|rewrite app_nil_r; exact N].
    apply NoDup_snoc; assumption. }
  destruct (get_attributes _ _ G Nx) as (m & M1 & M2 & M3). rewrite M1. cbn [rbind].
  exists m. split; [reflexivity|].
  assert (Es : shown (attr_list (hv_attrs v) ++ extra v) = shown (attr_list (hv_attrs v))).
  { unfold shown. rewrite filter_app. unfold extra. destruct (_ && _); cbn [filter fst]; change (mem DL hiddenNames) with true; rewrite ?app_nil_r; reflexivity. }
  rewrite Es in M2, M3. split; assumption.
Qed.
(** A variable that is not a scale *)
Lemma dims_plain root t p n v o : gobj t root -> tall (fun _ => no_reflist) p t -> vobj (n, v) o -> hv_scale v = false ->
  keys_plain (attr_list (hv_attrs v)) ->
  Forall (fun d : bytes => d <> [] /\ zassoc (addr_of c d) (addrIndex root) = Some d) (hv_dims v) ->
  getDimensions f root (r_attrs o) = Ok (hv_dims v).
Proof.
  intros Ht Hr H Hs K Hd. destruct (var_parts _ _ _ H) as (dims & d & _ & _ & _ & _ & _ & _ & G & _).
  unfold getDimensions. assert (ND : ~ In DL (map fst (attr_list (hv_attrs v)))) by (apply plain_not; [exact K|in_reserved]).
  assert (E : dimListNames f (addrIndex root) (r_attrs o) = Ok (hv_dims v)).
  { unfold extra in G. rewrite Hs in G. cbn [negb andb] in G. destruct (hv_dims v) as [|d0 dr] eqn:Ev.
    - change (0 <? zlen (@nil bytes)) with false in G. cbn iota in G. rewrite app_nil_r in G. exact (dimlist_none _ _ _ G ND).
    - replace (0 <? zlen (d0 :: dr)) with true in G by (rewrite zlen_cons; pose proof (zlen_nonneg dr); lia).
      apply Forall2_app_inv_l in G. destruct G as (al & dal & G1 & G2 & ->).
      inversion G2 as [|? a ? l' G3 G4]; subst x l dal. inversion G4; subst l'. exact (dimlist_some _ _ _ _ (d0 :: dr) G1 ND G3 Hd). }
  rewrite E. cbn [rbind]. destruct (hv_dims v) as [|d0 dr] eqn:Ev; [|reflexivity]. rewrite (scan_tree _ _ _ Ht Hr). cbn [rbind].
  apply (name_none _ _ G). unfold extra. rewrite Ev, andb_false_r, app_nil_r. apply plain_not; [exact K|in_reserved].
Qed.
(** A coordinate variable *)
Lemma dims_coordinate root t p n name i l v o : gobj t root -> tall (fun _ => no_reflist) p t -> vobj (n, v) o ->
  hv_scale v = true -> attr_list (hv_attrs v) = scale_attrs name i ++ l -> keys_plain l -> hasPrefix name dimMarker = false ->
  getDimensions f root (r_attrs o) = Ok [name].
Proof.
  intros Ht Hr H Hs El K Hp. destruct (var_parts _ _ _ H) as (dims & d & _ & _ & _ & _ & _ & _ & G & _).
  assert (Ex : extra v = []) by (unfold extra; rewrite Hs; reflexivity). rewrite Ex, El, app_nil_r in G.
  unfold getDimensions. rewrite (dimlist_none _ _ _ G).
  - cbn [rbind]. rewrite (scan_tree _ _ _ Ht Hr). cbn [rbind]. unfold scale_attrs in G. cbn [app] in G. remember (r_attrs o) as al eqn:Eal. clear Eal.
    inversion G as [|? a1 ? l1 G1 G1' E1 E2]; subst al. inversion G1' as [|? a2 ? l2 G2 G2' E3 E4]; subst l1.
    destruct G1 as (N1 & _ & P1 & _). destruct G2 as (N2 & _ & P2 & _). cbn [nameOfScale]. rewrite P1, N1, P2, N2. cbn [rbind fst snd].
    change (beqb (bs "CLASS") (bs "NAME")) with false. change (beqb (bs "NAME") (bs "NAME")) with true. cbn iota.
    rewrite Hp. reflexivity.
  - rewrite map_app. intros Hi. apply in_app_or in Hi. destruct Hi as [Hi|Hi].
    + cbn [scale_attrs map fst In] in Hi. destruct Hi as [Hi|[Hi|[Hi|[]]]]; discriminate Hi.
    + revert Hi. apply plain_not; [exact K|in_reserved].
Qed.
End Values.
