(** C74, C75: the texts in which the HDF5 reader describes types.  The model gives all outcomes that
    there can be, for every order in which Go goes through the map of a group's children. *)
From Coq Require Import Lia Permutation.
From Verif Require Import Prelude GoVal BaseLemmas H5Base H5Value H5TypeRead H5FileRead H5TypeText TypeTextSpec
  H5ShapeSpec TypeTextProofs TypeTextGo H5TypeTextProofs H5TypeTextAll.

(** The types among the children of a group, with their shapes: what is no group, has no dataspace
    and is no dimension *)
Inductive named_types : list (bytes * robj) -> list (bytes * shape) -> Prop :=
| nt_nil : named_types [] []
| nt_type n o d cs T : ri_group (r_info o) = false -> isDimensionScale (r_attrs o) = false ->
    ri_dims (r_info o) = None -> ri_name (r_info o) = n -> ri_ty (r_info o) = Some d -> no_member_dims d ->
    named_types cs T -> named_types ((n, o) :: cs) ((n, shape_of d) :: T)
| nt_other n o cs T : ri_group (r_info o) = true \/ isDimensionScale (r_attrs o) = true \/
    ri_dims (r_info o) <> None -> named_types cs T -> named_types ((n, o) :: cs) T.

Lemma types_table o : forall T, named_types (r_children o) T -> type_table (typeDefs o) T.
Proof.
  unfold typeDefs, type_table. generalize (r_children o). clear o. induction 1 as [|n o d cs T H1 H2 H3 H4 H5 H6 _ IH|n o cs T H _ IH]; [constructor| |]; cbn [flat_map snd].
  - rewrite H1, H2, H3, H4, H5. cbn [orb app]. constructor; [|exact IH]. cbn [fst snd]. repeat split. exists d. auto.
  - destruct (ri_group (r_info o)) eqn:E1; [exact IH|]. destruct (isDimensionScale (r_attrs o)) eqn:E2; [exact IH|]. cbn [orb].
    destruct (ri_dims (r_info o)) eqn:E3; [exact IH|]. exfalso. destruct H as [H|[H|H]]; congruence.
Qed.

(** ** C74: CDL *)

(** The text of a type of a file, for whatever order: every part that is a type of the group is its
    name, and else it is in CDL.  [X]: names that are not to be used. *)
Theorem C74_type_text_partial : exists num, (forall n, number_text n (num n)) /\
  forall o T X d, named_types (r_children o) T -> proper_types cdl_words T -> no_member_dims d -> proper_shape (shape_of d) ->
  forall r, textOf cdlStyle o X (Some d) r <-> r = Ok (text (CDL num) (without X T) (shape_of d)).
Proof.
  exists decimal. split; [exact decimal_ok|]. intros o T X d HT Hp Hd Hs. cbn [textOf].
  apply cdl_type_text; auto. apply types_table. exact HT.
Qed.

(** Types whose texts are the same are the same. *)
Theorem C74_text_unique_partial : forall o T X d d', named_types (r_children o) T -> proper_types cdl_words T ->
  no_member_dims d -> no_member_dims d' -> proper_shape (shape_of d) -> proper_shape (shape_of d') ->
  forall s, textOf cdlStyle o X (Some d) (Ok s) -> textOf cdlStyle o X (Some d') (Ok s) -> shape_of d = shape_of d'.
Proof.
  intros o T X d d' HT Hp Hd Hd' Hs Hs' s H H'. cbn [textOf] in *. pose proof (types_table _ _ HT) as Ht.
  apply (cdl_type_text _ _ Ht Hp) in H; auto. apply (cdl_type_text _ _ Ht Hp) in H'; auto. rewrite H in H'. injection H' as H'.
  destruct Hp as (Hnd & _ & Hp). apply (cdl_text_inj decimal decimal_ok (without X T)) in H'; auto.
  - apply nodup_without. exact Hnd.
  - apply (without_names (fun n _ => type_name cdl_words n)). intros n u Hi. exact (proj1 (Hp _ _ Hi)).
Qed.

(** A type of the group, by its name *)
Theorem C74_named_type_partial : exists num, (forall n, number_text n (num n)) /\
  forall h T name o d, named_types (r_children (rh_obj h)) T -> proper_types cdl_words T ->
  assoc name (r_children (rh_obj h)) = Some o -> ri_group (r_info o) = false -> ri_dims (r_info o) = None ->
  r_attrs o = [] -> ri_ty (r_info o) = Some d -> no_member_dims d -> proper_shape (shape_of d) ->
  forall r, getType h name r <-> r = Ok (Some (text (CDL num) (without [name] T) (shape_of d))).
Proof.
  exists decimal. split; [exact decimal_ok|]. intros h T name o d HT Hp Ha Hg Hdim Hat Hty Hd Hs r. unfold getType.
  rewrite Ha, Hdim, Hg, Hat, Hty. cbn [textOf].
  rewrite (mbind_is _ _ _ (cdl_type_text _ _ (types_table _ _ HT) Hp [name] d Hd Hs)). reflexivity.
Qed.

(** An attribute of the root group: an array of several elements has a mark for every dimension. *)
Theorem C74_attribute_partial : exists num, (forall n, number_text n (num n)) /\
  forall root o T a, named_types (r_children o) T -> proper_types cdl_words T -> In a (r_attrs root) ->
  NoDup (map ra_name (r_attrs root)) -> no_member_dims (ra_ty a) -> proper_shape (shape_of (ra_ty a)) ->
  forall r, globalAttrType root o (ra_name a) r <->
    r = Ok (text (CDL num) T (shape_of (ra_ty a)) ++
            match ra_dims a with [1] => [] | dims => List.concat (repeat (bs "(*)") (List.length dims)) end).
Proof.
  exists decimal. split; [exact decimal_ok|]. intros root o T a HT Hp Ha Hnd Hd Hs r. unfold globalAttrType.
  assert (find (fun a' => beqb (ra_name a') (ra_name a)) (r_attrs root) = Some a) as ->.
  { clear -Ha Hnd. induction (r_attrs root) as [|b l IH]; [contradiction|]. cbn [find map] in *. inversion Hnd as [|? ? N1 N2]; subst.
    destruct (beqb (ra_name b) (ra_name a)) eqn:E.
    - destruct Ha as [->|Ha]; [reflexivity|]. exfalso. apply N1. apply beqb_eq in E. rewrite E. apply in_map. exact Ha.
    - destruct Ha as [->|Ha]; [rewrite beqb_refl in E; discriminate E|apply IH; assumption]. }
  cbn [textOf]. rewrite (mbind_is _ _ _ (cdl_type_text _ _ (types_table _ _ HT) Hp [] _ Hd Hs)).
  assert (without [] T = T) as -> by (unfold without; clear; induction T as [|x l IH]; [reflexivity|]; cbn [filter mem existsb negb]; f_equal; exact IH).
  assert (dimMarks (bs "(*)") (ra_dims a) = match ra_dims a with [1] => [] | dims => List.concat (repeat (bs "(*)") (List.length dims)) end) as ->; [|reflexivity].
  assert (R : forall l : list Z, List.concat (map (fun _ => bs "(*)") l) = List.concat (repeat (bs "(*)") (List.length l))) by (clear; induction l as [|x l IH]; [reflexivity|]; cbn [map List.concat List.length repeat]; rewrite IH; reflexivity).
  unfold dimMarks. rewrite R. destruct (ra_dims a) as [|z [|? ?]]; reflexivity.
Qed.

(** ** C75: Go *)
Theorem C75_type_text_partial : exists num, (forall n, number_text n (num n)) /\
  forall v o T X d, named_types (r_children o) T -> proper_types go_words T -> (forall n s, In (n, s) T -> go_shape s) ->
  no_member_dims d -> proper_shape (shape_of d) -> go_shape (shape_of d) ->
  forall r, textOf (goStyle v) o X (Some d) r <-> r = Ok (text (Golang num v) (without X T) (shape_of d)).
Proof.
  exists decimal. split; [exact decimal_ok|]. intros v o T X d HT Hp Hg Hd Hs Hgs. cbn [textOf].
  apply go_type_text; auto. apply types_table. exact HT.
Qed.
Theorem C75_text_unique_partial : forall v o T X d d', named_types (r_children o) T -> proper_types go_words T ->
  (forall n s, In (n, s) T -> go_shape s) -> no_member_dims d -> no_member_dims d' -> proper_shape (shape_of d) ->
  proper_shape (shape_of d') -> go_shape (shape_of d) -> go_shape (shape_of d') ->
  forall s, textOf (goStyle v) o X (Some d) (Ok s) -> textOf (goStyle v) o X (Some d') (Ok s) -> shape_of d = shape_of d'.
Proof.
  intros v o T X d d' HT Hp Hg Hd Hd' Hs Hs' Hgs Hgs' s H H'. cbn [textOf] in *. pose proof (types_table _ _ HT) as Ht.
  apply (go_type_text v _ _ Ht Hp Hg) in H; auto. apply (go_type_text v _ _ Ht Hp Hg) in H'; auto. rewrite H in H'. injection H' as H'.
  destruct Hp as (Hnd & _ & Hp). apply (go_text_inj decimal decimal_ok v (without X T)) in H'; auto.
  - apply nodup_without. exact Hnd.
  - apply (without_names (fun n _ => type_name go_words n)). intros n u Hi. exact (proj1 (Hp _ _ Hi)).
Qed.

(** What GetVarGetter gives of a variable *)
Theorem C75_variable_partial : exists num, (forall n, number_text n (num n)) /\
  forall h T name o d, named_types (r_children (rh_obj h)) T -> proper_types cdl_words T -> proper_types go_words T ->
  (forall n s, In (n, s) T -> go_shape s) -> findVariable h name = Some o -> ri_ty (r_info o) = Some d ->
  no_member_dims d -> proper_shape (shape_of d) -> go_shape (shape_of d) ->
  forall r, variableTypes h name r <->
    r = Ok (Some (text (CDL num) (without [name] T) (shape_of d), text (Golang num name) (without [name] T) (shape_of d))).
Proof.
  exists decimal. split; [exact decimal_ok|]. intros h T name o d HT Hp Hp' Hg Hv Hty Hd Hs Hgs r. unfold variableTypes.
  rewrite Hv, Hty. cbn [textOf]. pose proof (types_table _ _ HT) as Ht.
  rewrite (mbind_is _ _ _ (cdl_type_text _ _ Ht Hp [name] d Hd Hs)).
  rewrite (mbind_is _ _ _ (go_type_text name _ _ Ht Hp' Hg [name] d Hd Hs Hgs)). reflexivity.
Qed.

(** ** A case *)
Definition an_object (name : bytes) (ty : dty) (dims : option (list Z)) : robj :=
  RObj (mkRinfo name 0 false None None [] dims (Some ty) [] [] 0 0 0 0 None None []) [].
Definition a_group (cs : list (bytes * robj)) : rhandle :=
  mkRh (bs "/") (RObj (mkRinfo [] 0 true None None [] None None [] [] 0 0 0 0 None None []) cs).
Definition i32 : dty := DFixed 4 true false.
Definition point : dty := DComp 8 [(bs "x", 0, [], DFloat 4 false); (bs "y", 4, [], DFloat 4 false)].
Definition colour : dty := DEnum 1 1 false false [bs "red"; bs "green"] [HNum U8 0; HNum U8 10].
Definition thing : dty :=
  DComp 52 [(bs "p", 0, [], point); (bs "c", 8, [], colour); (bs "k", 12, [], DOpaque 4);
            (bs "n", 16, [], DArray 24 [2; 3] i32); (bs "s", 40, [], DVlen 16 false point)].
Definition sample : rhandle :=
  a_group [(bs "v", an_object (bs "v") thing (Some [2])); (bs "point", an_object (bs "point") point None);
           (bs "key", an_object (bs "key") (DOpaque 4) None); (bs "colour", an_object (bs "colour") colour None)].
Definition sample_types : list (bytes * shape) :=
  [(bs "point", shape_of point); (bs "key", SOpaque 4); (bs "colour", shape_of colour)].

Ltac not_in := let H := fresh in intros H; vm_compute in H;
  repeat match type of H with _ \/ _ => destruct H as [H|H]; [discriminate H|] end; exact H.
Ltac each_result H := vm_compute in H;
  repeat match type of H with _ \/ _ => destruct H as [H|H]; [subst; vm_compute; reflexivity|] end; destruct H.
Ltac plain := unfold plain_name, plain_char; repeat constructor; lia || discriminate.
Lemma sample_named : named_types (r_children (rh_obj sample)) sample_types.
Proof.
  apply nt_other; [right; right; discriminate|].
  apply nt_type; try reflexivity; [cbn; auto|]. apply (nt_type (bs "key") _ (DOpaque 4)); try reflexivity.
  apply nt_type; try reflexivity; [cbn; repeat constructor; eauto|]. apply nt_nil.
Qed.
Lemma sample_proper words : (forall n, In n [bs "point"; bs "key"; bs "colour"] -> ~ In n words) -> proper_types words sample_types.
Proof.
  intros Hw. split; [|split].
  - repeat constructor; not_in.
  - intros n n' s H H' _. destruct H as [H|[H|[H|[]]]]; destruct H' as [H'|[H'|[H'|[]]]];
      (apply pair_equal_spec in H; destruct H as [<- <-]; apply pair_equal_spec in H'; destruct H' as [<- E]; reflexivity || discriminate E).
  - intros n s H. destruct H as [H|[H|[H|[]]]]; injection H as <- <-.
    + split; [split; [discriminate|split; [plain|apply Hw; left; reflexivity]]|]. split; [|discriminate]. cbn. repeat split; try plain; auto.
    + split; [split; [discriminate|split; [plain|apply Hw; right; left; reflexivity]]|]. split; [|discriminate]. cbn. lia.
    + split; [split; [discriminate|split; [plain|apply Hw; right; right; left; reflexivity]]|]. split; [|discriminate]. cbn. split; [auto|]. repeat constructor; plain.
Qed.
Lemma sample_cdl : proper_types cdl_words sample_types.
Proof. apply sample_proper. intros n H. destruct H as [<-|[<-|[<-|[]]]]; not_in. Qed.
Lemma sample_go : proper_types go_words sample_types.
Proof. apply sample_proper. intros n H. destruct H as [<-|[<-|[<-|[]]]]; not_in. Qed.
Lemma thing_ok : no_member_dims thing /\ proper_shape (shape_of thing) /\ go_shape (shape_of thing).
Proof.
  split; [|split].
  - cbn. repeat split; repeat constructor; eauto.
  - cbn. repeat split; try plain; auto; repeat constructor; plain.
  - cbn. repeat split; discriminate.
Qed.

Example sample_text : text (CDL decimal) (without [bs "v"] sample_types) (shape_of thing) =
  bs "compound {" ++ [10; 9] ++ bs "point p;" ++ [10; 9] ++ bs "colour c;" ++ [10; 9] ++ bs "key k;" ++ [10; 9]
  ++ bs "int(2,3) n;" ++ [10; 9] ++ bs "point(*) s;" ++ [10] ++ bs "}".
Proof. vm_compute. reflexivity. Qed.
Example sample_variable : forall r, variableTypes sample (bs "v") r <->
  r = Ok (Some (text (CDL decimal) (without [bs "v"] sample_types) (shape_of thing),
                text (Golang decimal (bs "v")) (without [bs "v"] sample_types) (shape_of thing))).
Proof.
  destruct thing_ok as (H1 & H2 & H3). pose proof (types_table _ _ sample_named) as Ht. intros r. unfold variableTypes.
  change (findVariable sample (bs "v")) with (Some (an_object (bs "v") thing (Some [2]))). cbn [an_object r_info ri_ty textOf].
  rewrite (mbind_is _ _ _ (cdl_type_text _ _ Ht sample_cdl [bs "v"] thing H1 H2)).
  assert (Hg : forall n s, In (n, s) sample_types -> go_shape s)
    by (intros n s H; destruct H as [H|[H|[H|[]]]]; apply pair_equal_spec in H; destruct H as [_ <-]; cbn; auto).
  rewrite (mbind_is _ _ _ (go_type_text (bs "v") _ _ Ht sample_go Hg [bs "v"] thing H1 H2 H3)). reflexivity.
Qed.
Example sample_colour : forall r, getType sample (bs "colour") r <->
  r = Ok (Some (bs "ubyte enum {" ++ [10; 9] ++ bs "red = 0," ++ [10; 9] ++ bs "green = 10" ++ [10] ++ bs "}")).
Proof.
  intros r. unfold getType. change (assoc (bs "colour") (r_children (rh_obj sample))) with (Some (an_object (bs "colour") colour None)).
  cbn [ri_dims r_info an_object ri_group r_attrs ri_attrs ri_ty textOf].
  rewrite (mbind_is _ _ _ (cdl_type_text _ _ (types_table _ _ sample_named) sample_cdl [bs "colour"] colour
    ltac:(cbn; repeat constructor; eauto) ltac:(cbn; split; [auto|]; repeat constructor; plain))). vm_compute (text _ _ _). reflexivity.
Qed.

(** ** Where the texts are not such *)

(** An array of four bytes has in Go the text of opaque data of length 4.  If the group has a type
    of that, there is no Go text for a variable with such an array in it, and none for reading it. *)
Definition bytes4 : dty := DComp 4 [(bs "b", 0, [], DArray 4 [4] (DFixed 1 false false))].
Definition clash : rhandle :=
  a_group [(bs "v", an_object (bs "v") bytes4 (Some [2])); (bs "key", an_object (bs "key") (DOpaque 4) None)].
Theorem C75_byte_array_refuted :
  (forall r, textOf cdlStyle (rh_obj clash) [bs "v"] (Some bytes4) r <->
             r = Ok (bs "compound {" ++ [10; 9] ++ bs "ubyte(4) b;" ++ [10] ++ bs "}")) /\
  (forall r, variableTypes clash (bs "v") r <-> r = Err EInternal) /\
  (forall r, castText (rh_obj clash) bytes4 r <-> r = Err EInternal).
Proof.
  split; [|split]; intros r.
  - rewrite (textAll_ok cdlStyle (rh_obj clash) [bs "v"] (Some bytes4) r). split.
    + intros H. each_result H.
    + intros ->. vm_compute. auto.
  - rewrite (variableTypesAll_ok clash (bs "v") r). split.
    + intros H. each_result H.
    + intros ->. vm_compute. auto.
  - unfold castText. rewrite (textAll_ok _ (rh_obj clash) _ (Some bytes4) r). split.
    + intros H. each_result H.
    + intros ->. vm_compute. auto.
Qed.

(** Two types that are the same: each is said to be the other one, and a variable of the type has no
    name for it.  With three, which one of them is the name is the order's choice. *)
Definition opaque_type (n : bytes) : bytes * robj := (n, an_object n (DOpaque 4) None).
Definition twins : rhandle :=
  a_group [(bs "v", an_object (bs "v") (DOpaque 4) (Some [2])); opaque_type (bs "a"); opaque_type (bs "b")].
Definition triplets : rhandle :=
  a_group [(bs "v", an_object (bs "v") (DOpaque 4) (Some [2])); opaque_type (bs "a"); opaque_type (bs "b"); opaque_type (bs "c")].
Theorem C74_same_types_refuted :
  (forall r, getType twins (bs "a") r <-> r = Ok (Some (bs "b"))) /\
  (forall r, getType twins (bs "b") r <-> r = Ok (Some (bs "a"))) /\
  (forall r, textOf cdlStyle (rh_obj twins) [bs "v"] (Some (DOpaque 4)) r <-> r = Ok (bs "opaque(4)")).
Proof.
  assert (G : forall n m, textAll cdlStyle (rh_obj twins) [n] (Some (DOpaque 4)) = [Ok m; Ok m; Ok m; Ok m] ->
    forall r, mbind (textOf cdlStyle (rh_obj twins) [n] (Some (DOpaque 4))) (fun s => mret (Some s)) r <-> r = Ok (Some m)).
  { intros n m E r. rewrite (mbind_is _ _ m); [reflexivity|]. intros q. rewrite (textAll_ok _ _ _ _ q), E. split; [intros [<-|[<-|[<-|[<-|[]]]]]; reflexivity|intros ->; left; reflexivity]. }
  split; [|split].
  - apply G. vm_compute. reflexivity.
  - apply G. vm_compute. reflexivity.
  - intros r. rewrite (textAll_ok _ _ _ _ r). split; [intros H; each_result H|intros ->; vm_compute; left; reflexivity].
Qed.
Theorem C74_order_refuted :
  textOf cdlStyle (rh_obj triplets) [bs "v"] (Some (DOpaque 4)) (Ok (bs "a")) /\
  textOf cdlStyle (rh_obj triplets) [bs "v"] (Some (DOpaque 4)) (Ok (bs "b")).
Proof. split; apply textAll_ok; vm_compute; repeat (first [left; reflexivity|right]). Qed.

(** A type whose name is a word of CDL has the text of another. *)
Definition worded : rhandle :=
  a_group [(bs "v", an_object (bs "v") (DOpaque 4) (Some [2])); (bs "w", an_object (bs "w") i32 (Some [2]));
           (bs "int", an_object (bs "int") (DOpaque 4) None)].
Theorem C74_word_refuted :
  textOf cdlStyle (rh_obj worded) [] (Some (DOpaque 4)) (Ok (bs "int")) /\
  textOf cdlStyle (rh_obj worded) [] (Some i32) (Ok (bs "int")) /\ shape_of (DOpaque 4) <> shape_of i32.
Proof. split; [|split; [|discriminate]]; apply textAll_ok; vm_compute; auto. Qed.

(** The dimensions that a member of a compound of version 1 has of its own are not in the text. *)
Theorem C74_member_dims_refuted :
  let a := DComp 12 [(bs "n", 0, [3], i32)] in let b := DComp 12 [(bs "n", 0, [], i32)] in
  shape_of a <> shape_of b /\
  forall r, textOf cdlStyle (rh_obj (a_group [])) [] (Some a) r <-> textOf cdlStyle (rh_obj (a_group [])) [] (Some b) r.
Proof. split; [discriminate|]. intros r. rewrite !(textAll_ok _ _ _ _ r). vm_compute. split; intros H; exact H. Qed.

(** A group with an array as a type: a variable of that type has no text, nor has a type an integer
    of three bytes. *)
Definition array_type : rhandle :=
  a_group [(bs "v", an_object (bs "v") (DArray 16 [4] i32) (Some [2])); (bs "t", an_object (bs "t") (DArray 16 [4] i32) None)].
Theorem C74_array_type_refuted :
  (forall r, variableTypes array_type (bs "v") r <-> r = Err EInternal) /\
  (forall r, textOf cdlStyle (rh_obj array_type) [] (Some (DFixed 3 true false)) r <-> r = Panic).
Proof.
  split; intros r.
  - rewrite (variableTypesAll_ok array_type (bs "v") r). vm_compute. split; [intros [<-|[]]; reflexivity|intros ->; auto].
  - rewrite (textAll_ok _ _ _ _ r). vm_compute. split; [intros [<-|[]]; reflexivity|intros ->; auto].
Qed.

Print Assumptions C74_type_text_partial.
Print Assumptions C74_text_unique_partial.
Print Assumptions C74_named_type_partial.
Print Assumptions C74_attribute_partial.
Print Assumptions C75_type_text_partial.
Print Assumptions C75_text_unique_partial.
Print Assumptions C75_variable_partial.
Print Assumptions C75_byte_array_refuted.
Print Assumptions C74_order_refuted.
Print Assumptions C74_same_types_refuted.
Print Assumptions C74_word_refuted.
Print Assumptions C74_member_dims_refuted.
Print Assumptions C74_array_type_refuted.
