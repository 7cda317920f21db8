(** C82: the types that the HDF5 reader tells of attributes. *)
From Coq Require Import Lia Permutation.
From Verif Require Import Prelude GoVal BaseLemmas OrderedMapModel H5Base H5Value H5TypeRead H5FileWrite H5PathModel H5FileRead H5TypeText
  H5AttrMapModel H5WriterModel TypeTextSpec H5ShapeSpec AttrTypeSpec ForeignAttrSpec TypeTextProofs H5TypeTextProofs H5TypeTextAll H5ForeignAttr
  H5AttrTypeProofs P_H5TypeText P_H5File P_H5FileEx P_H5Composed.

(** The map [m] that Attributes of a group gives, or the one that comes with a variable; [l] are the attributes of the
    group or variable. *)
Inductive map_of (f : bytes) (root : robj) (h : rhandle) : list rattr -> omap hval -> Prop :=
| map_group m : groupAttributes f h = Ok m -> map_of f root h (r_attrs (rh_obj h)) m
| map_variable name o v : findVariable h name = Some o -> getVariable f root h name = Ok v ->
    map_of f root h (r_attrs o) (rv_attrs v).

Lemma map_of_has f root h l m : map_of f root h l m -> forall k,
  om_get m k <> None <-> In k (map ra_name l) /\ ~ In k bookkeeping.
Proof.
  assert (S : forall l al, sortAttrList f l = Ok al -> forall k, In k (map ra_name al) <-> In k (map ra_name l)).
  { unfold sortAttrList. intros l0 al H k. destruct (rmapM _ l0); cbn [rbind] in H; try discriminate H. injection H as <-.
    split; apply Permutation_in, Permutation_map; [apply sort_perm|apply Permutation_sym, sort_perm]. }
  intros [m' H|name o v Ho H] k.
  - unfold groupAttributes in H. destruct (sortAttrList f _) as [al| |] eqn:E; cbn [rbind] in H; try discriminate H.
    rewrite (map_has _ _ _ H k), (S _ _ E k). reflexivity.
  - unfold getVariable in H. rewrite Ho in H. destruct (ri_dims (r_info o)) as [dims|]; [|discriminate H].
    destruct (negb (data_modelled (r_info o))); [discriminate H|].
    destruct (match ri_ty (r_info o) with Some t => _ | None => _ end) as [x| |]; cbn [rbind] in H; try discriminate H.
    destruct (sortAttrList f _) as [al| |] eqn:E; cbn [rbind] in H; try discriminate H.
    destruct (getDimensions f root al) as [ds| |]; cbn [rbind] in H; try discriminate H.
    destruct (getAttributes f al) as [a| |] eqn:G; cbn [rbind] in H; try discriminate H. injection H as <-. cbn [rv_attrs].
    rewrite (map_has _ _ _ G k), (S _ _ E k). reflexivity.
Qed.

(** An attribute of the root group of that name; where there are several, the first *)
Definition in_root (root : robj) (key : bytes) (b : rattr) : Prop :=
  exists l1 l2, r_attrs root = l1 ++ b :: l2 /\ ra_name b = key /\ Forall (fun a => ra_name a <> key) l1.
Lemma in_root_find root key b : in_root root key b -> find (fun a => beqb (ra_name a) key) (r_attrs root) = Some b.
Proof.
  intros (l1 & l2 & E & <- & H). rewrite E. clear E. induction H as [|a l1 Ha _ IH]; cbn [app find].
  - rewrite beqb_refl. reflexivity.
  - destruct (beqb (ra_name a) (ra_name b)) eqn:B; [apply beqb_eq in B; contradiction|exact IH].
Qed.
Lemma not_in_root_find root key : ~ In key (map ra_name (r_attrs root)) -> find (fun a => beqb (ra_name a) key) (r_attrs root) = None.
Proof.
  induction (r_attrs root) as [|a l IH]; intros H; [reflexivity|]. cbn [find map In] in *.
  destruct (beqb (ra_name a) key) eqn:B; [apply beqb_eq in B; exfalso; apply H; left; exact B|]. apply IH. intros X. apply H. right. exact X.
Qed.
Lemma own_in_root l1 a l2 : NoDup (map ra_name (l1 ++ a :: l2)) -> Forall (fun b => ra_name b <> ra_name a) l1.
Proof.
  rewrite map_app. cbn [map]. intros H. apply NoDup_remove_2 in H. apply Forall_forall. intros b Hb E. apply H, in_app_iff. left.
  rewrite <- E. apply in_map, Hb.
Qed.

(** ** What the types of the maps are: those that the root group's attributes of the names have.  Who asks for the type of
    another attribute is not answered but crashes; that the map has none is told of what it has not. *)
Theorem C82_told : exists num, (forall n, number_text n (num n)) /\
  forall f root h l m key, map_of f root h l m ->
  (~ In key (map ra_name l) \/ In key bookkeeping ->
     (forall r, mapType root h m key r <-> r = Ok None) /\ (forall r, mapGoType root h m key r <-> r = Ok None)) /\
  (In key (map ra_name l) -> ~ In key bookkeeping ->
     (~ In key (map ra_name (r_attrs root)) ->
        (forall r, mapType root h m key r <-> r = Panic) /\ (forall r, mapGoType root h m key r <-> r = Panic)) /\
     (forall b T, in_root root key b -> named_types (r_children (rh_obj h)) T -> no_member_dims (ra_ty b) ->
        proper_shape (shape_of (ra_ty b)) ->
        (proper_types cdl_words T ->
         forall r, mapType root h m key r <-> r = Ok (Some (attribute_cdl num T (shape_of (ra_ty b)) (ra_dims b)))) /\
        (proper_types go_words T -> (forall n s, In (n, s) T -> go_shape s) -> go_shape (shape_of (ra_ty b)) ->
         forall r, mapGoType root h m key r <-> r = Ok (Some (attribute_in_go num key T (shape_of (ra_ty b)) (ra_dims b)))))).
Proof.
  exists decimal. split; [exact decimal_ok|]. intros f root h l m key Hm. pose proof (map_of_has f root h l m Hm key) as Hk. split.
  - intros Hn. assert (om_get m key = None) as E.
    { destruct (om_get m key) as [v|]; [|reflexivity]. exfalso. assert (A : Some v <> None) by discriminate. apply Hk in A.
      destruct A as [A B]. destruct Hn; contradiction. }
    unfold mapType, mapGoType. rewrite E. split; intros r; reflexivity.
  - intros Hi Hb. assert (Hs : om_get m key <> None) by (apply Hk; split; assumption). split.
    + intros Hr. apply map_type_unknown; [exact Hs|]. apply not_in_root_find, Hr.
    + intros b T Hr HT Hd Hp. apply in_root_find in Hr. pose proof (types_table _ _ HT) as Ht. split.
      * intros Hw. apply map_type_some; assumption.
      * intros Hw Hg Hgs. apply map_go_type_some; assumption.
Qed.

(** Full claim: the type told of an attribute is its type.  Missing: maps of variables and of groups other than the root, but
    for attributes that the root group has with the same type and dimensions (else [C82_crash_refuted],
    [C82_another_type_refuted]); types outside [named_types] and [proper_types], as in C74 and C75. *)
Theorem C82_own_partial : exists num, (forall n, number_text n (num n)) /\
  forall f root h l m a T, map_of f root h l m -> In a l -> ~ In (ra_name a) bookkeeping ->
  (l = r_attrs root /\ NoDup (map ra_name l) \/ exists b, in_root root (ra_name a) b /\ ra_ty b = ra_ty a /\ ra_dims b = ra_dims a) ->
  named_types (r_children (rh_obj h)) T -> no_member_dims (ra_ty a) -> proper_shape (shape_of (ra_ty a)) ->
  (proper_types cdl_words T ->
   forall r, mapType root h m (ra_name a) r <-> r = Ok (Some (attribute_cdl num T (shape_of (ra_ty a)) (ra_dims a)))) /\
  (proper_types go_words T -> (forall n s, In (n, s) T -> go_shape s) -> go_shape (shape_of (ra_ty a)) ->
   forall r, mapGoType root h m (ra_name a) r <-> r = Ok (Some (attribute_in_go num (ra_name a) T (shape_of (ra_ty a)) (ra_dims a)))).
Proof.
  destruct C82_told as (num & Hn & H). exists num. split; [exact Hn|]. intros f root h l m a T Hm Ha Hb Hr HT Hd Hp.
  destruct (H f root h l m (ra_name a) Hm) as [_ X]. destruct (X (in_map ra_name _ _ Ha) Hb) as [_ Y].
  assert (exists b, in_root root (ra_name a) b /\ ra_ty b = ra_ty a /\ ra_dims b = ra_dims a) as (b & B1 & B2 & B3).
  { destruct Hr as [[El Hnd]|Hr]; [|exact Hr]. exists a. split; [|split; reflexivity]. apply in_split in Ha. destruct Ha as (l1 & l2 & E).
    exists l1, l2. split; [congruence|]. split; [reflexivity|]. rewrite E in Hnd. apply (own_in_root _ _ _ Hnd). }
  specialize (Y b T B1 HT). rewrite B2, B3 in Y. exact (Y Hd Hp).
Qed.

(** ** Cases *)
Definition ints3 : hval := HSlice (TNum I32) [HNum I32 5; HNum I32 6; HNum I32 7].
Definition typed_ops : list wop := [OAttrs 0 (Some [(bs "n", ints3); (bs "units", HStr (bs "m"))])].
Definition no_map : omap hval := mkOM [] [] [] [].
Definition attrs_of (ops : list wop) (h : rhandle) : omap hval :=
  match groupAttributes (written ops) h with Ok m => m | _ => no_map end.
Definition var_of (ops : list wop) (name : bytes) : rvar :=
  match getVariable (written ops) (root_of (written ops)) (handle_of (written ops)) name with Ok v => v | _ => mkRvar HOther [] no_map end.
Definition group_of (ops : list wop) (name : bytes) : rhandle :=
  match rgetGroup (root_of (written ops)) (handle_of (written ops)) name with Ok h => h | _ => handle_of (written ops) end.
Definition root_attr (ops : list wop) (name : bytes) : rattr :=
  match find (fun a => beqb (ra_name a) name) (r_attrs (root_of (written ops))) with
  | Some a => a
  | None => mkRattr [] [] (DString 0) None None 0
  end.

Lemma proper_none w : proper_types w [].
Proof. split; [constructor|split; [intros n n' s []|intros n s []]]. Qed.

Definition typed_h : rhandle := handle_of (written typed_ops).
Definition typed_root : robj := root_of (written typed_ops).
Definition typed_map : omap hval := attrs_of typed_ops typed_h.
Example C82_example :
  openFile (written typed_ops) = Ok typed_root /\ map_of (written typed_ops) typed_root typed_h (r_attrs (rh_obj typed_h)) typed_map /\
  map ra_name (r_attrs typed_root) = [bs "n"; bs "units"; bs "_NCProperties"] /\
  (forall r, mapType typed_root typed_h typed_map (bs "n") r <-> r = Ok (Some (bs "int(*)"))) /\
  (forall r, mapGoType typed_root typed_h typed_map (bs "n") r <-> r = Ok (Some (bs "[]int32"))) /\
  (forall r, mapType typed_root typed_h typed_map (bs "units") r <-> r = Ok (Some (bs "string"))).
Proof.
  split; [vm_compute; reflexivity|]. split; [apply map_group; vm_compute; reflexivity|]. split; [vm_compute; reflexivity|].
  assert (HT : type_table (typeDefs (rh_obj typed_h)) []) by (assert (typeDefs (rh_obj typed_h) = []) as -> by (vm_compute; reflexivity); constructor).
  assert (Fn : find (fun a => beqb (ra_name a) (bs "n")) (r_attrs typed_root) = Some (root_attr typed_ops (bs "n"))) by (vm_compute; reflexivity).
  assert (Fu : find (fun a => beqb (ra_name a) (bs "units")) (r_attrs typed_root) = Some (root_attr typed_ops (bs "units"))) by (vm_compute; reflexivity).
  assert (Gn : om_get typed_map (bs "n") <> None) by (vm_compute; discriminate).
  assert (Gu : om_get typed_map (bs "units") <> None) by (vm_compute; discriminate).
  assert (Tn : ra_ty (root_attr typed_ops (bs "n")) = DFixed 4 true false) by (vm_compute; reflexivity).
  assert (Dn : ra_dims (root_attr typed_ops (bs "n")) = [3]) by (vm_compute; reflexivity).
  assert (Tu : ra_ty (root_attr typed_ops (bs "units")) = DString 2) by (vm_compute; reflexivity).
  assert (Du : ra_dims (root_attr typed_ops (bs "units")) = []) by (vm_compute; reflexivity).
  split; [|split]; intros r.
  - rewrite (map_type_some typed_root typed_h [] HT _ _ _ Gn Fn (proper_none _)) by (rewrite Tn; cbn; auto). rewrite Tn, Dn. reflexivity.
  - rewrite (map_go_type_some typed_root typed_h [] HT _ _ _ Gn Fn (proper_none _)) by (rewrite ?Tn; cbn; auto; intros ? ? []). rewrite Tn, Dn. reflexivity.
  - rewrite (map_type_some typed_root typed_h [] HT _ _ _ Gu Fu (proper_none _)) by (rewrite Tu; cbn; auto). rewrite Tu, Du. reflexivity.
Qed.

(** ** Where the claim is false *)

(** A variable with an attribute that the root group has not: its type is not told, the program crashes.  The same of a
    group within the root group. *)
Definition crash_ops : list wop := [OVar 0 (bs "v") (HNum I32 5) [] (Some [(bs "units", HStr (bs "m"))]);
  OGroup 0 (bs "g"); OAttrs 1 (Some [(bs "title", HStr (bs "t"))])].
Theorem C82_crash_refuted : exists f root v g m,
  file_of crash_ops = Some f /\ openFile f = Ok root /\
  getVariable f root (handle_of f) (bs "v") = Ok v /\ om_get (rv_attrs v) (bs "units") = Some (HStr (bs "m")) /\
  (forall r, mapType root (handle_of f) (rv_attrs v) (bs "units") r <-> r = Panic) /\
  (forall r, mapGoType root (handle_of f) (rv_attrs v) (bs "units") r <-> r = Panic) /\
  rgetGroup root (handle_of f) (bs "g") = Ok g /\ groupAttributes f g = Ok m /\ om_get m (bs "title") = Some (HStr (bs "t")) /\
  (forall r, mapType root g m (bs "title") r <-> r = Panic).
Proof.
  exists (written crash_ops), (root_of (written crash_ops)), (var_of crash_ops (bs "v")), (group_of crash_ops (bs "g")),
    (attrs_of crash_ops (group_of crash_ops (bs "g"))).
  split; [vm_compute; reflexivity|]. split; [vm_compute; reflexivity|]. split; [vm_compute; reflexivity|]. split; [vm_compute; reflexivity|].
  assert (Gu : om_get (rv_attrs (var_of crash_ops (bs "v"))) (bs "units") <> None) by (vm_compute; discriminate).
  assert (Gt : om_get (attrs_of crash_ops (group_of crash_ops (bs "g"))) (bs "title") <> None) by (vm_compute; discriminate).
  assert (Fu : find (fun a => beqb (ra_name a) (bs "units")) (r_attrs (root_of (written crash_ops))) = None) by (vm_compute; reflexivity).
  assert (Ft : find (fun a => beqb (ra_name a) (bs "title")) (r_attrs (root_of (written crash_ops))) = None) by (vm_compute; reflexivity).
  destruct (map_type_unknown (root_of (written crash_ops)) (handle_of (written crash_ops)) _ _ Gu Fu) as [A B].
  split; [exact A|]. split; [exact B|]. split; [vm_compute; reflexivity|]. split; [vm_compute; reflexivity|]. split; [vm_compute; reflexivity|].
  exact (proj1 (map_type_unknown _ _ _ _ Gt Ft)).
Qed.

(** Where the root group has an attribute of the same name, its type is told instead: here of the integers that are the
    attribute "n" of the variable it is told that they are a string. *)
Definition other_ops : list wop := [OVar 0 (bs "v") (HNum I32 5) [] (Some [(bs "n", ints3)]); OAttrs 0 (Some [(bs "n", HStr (bs "m"))])].
Theorem C82_another_type_refuted : exists f root v,
  file_of other_ops = Some f /\ openFile f = Ok root /\
  getVariable f root (handle_of f) (bs "v") = Ok v /\ om_get (rv_attrs v) (bs "n") = Some ints3 /\
  (forall r, mapType root (handle_of f) (rv_attrs v) (bs "n") r <-> r = Ok (Some (bs "string"))).
Proof.
  exists (written other_ops), (root_of (written other_ops)), (var_of other_ops (bs "v")).
  split; [vm_compute; reflexivity|]. split; [vm_compute; reflexivity|]. split; [vm_compute; reflexivity|]. split; [vm_compute; reflexivity|].
  assert (Gn : om_get (rv_attrs (var_of other_ops (bs "v"))) (bs "n") <> None) by (vm_compute; discriminate).
  assert (Fn : find (fun a => beqb (ra_name a) (bs "n")) (r_attrs (root_of (written other_ops))) = Some (root_attr other_ops (bs "n"))) by (vm_compute; reflexivity).
  assert (Tn : ra_ty (root_attr other_ops (bs "n")) = DString 2) by (vm_compute; reflexivity).
  assert (Dn : ra_dims (root_attr other_ops (bs "n")) = []) by (vm_compute; reflexivity).
  assert (HT : type_table (typeDefs (rh_obj (handle_of (written other_ops)))) [])
    by (assert (typeDefs (rh_obj (handle_of (written other_ops))) = []) as -> by (vm_compute; reflexivity); constructor).
  intros r. rewrite (map_type_some _ _ [] HT _ _ _ Gn Fn (proper_none _)) by (rewrite Tn; cbn; auto). rewrite Tn, Dn. reflexivity.
Qed.

Print Assumptions C82_told.
Print Assumptions C82_own_partial.
Print Assumptions C82_crash_refuted.
Print Assumptions C82_another_type_refuted.
