(** The types that the reader tells of written variables and attributes. *)
From Coq Require Import Lia ZifyBool ZifyNat Permutation.
From Verif Require Import Prelude GoVal BaseLemmas OrderedMapModel H5Base H5MetaRead H5Value H5TypeRead H5FileWrite H5PathModel H5FileRead
  H5WriterModel TypeTextSpec H5ShapeSpec WriterSpec TypeSpec FileSpec WrittenTypeSpec H5TypeProofs H5DataProofs H5VarProofs H5AttrProofs H5AttrSeqProofs H5TreeProofs
  H5GoodProofs H5ApiPath H5ApiProofs H5ApiValues H5TypeText TypeTextProofs H5TypeTextProofs P_H5TypeText.

Lemma describe_comp fs : describe (SComp fs) = DComp (size_of (SComp fs)) (describe_fields 0 fs).
Proof. reflexivity. Qed.
Lemma ksize_proper k : int_size (ksize k).
Proof. destruct k; cbn; unfold int_size; auto. Qed.

(** ** Texts where there are no named types: any names of members will do *)
Section NoNames.
  Variables (st : style) (L : language).
  Hypothesis A_fixed : forall n sg, int_size n -> s_fixed st n sg = Some (l_int L n sg).
  Hypothesis A_float : forall n, n = 4 \/ n = 8 -> s_float st n = Some (l_float L n).
  Hypothesis A_opaque : forall n, s_opaque st n = l_opaque L n.
  Hypothesis A_struct : forall l, s_comp st l = l_struct L l.
  Hypothesis A_enum : forall n sg vals, int_size n ->
    s_enum st (l_int L n sg) (map (fun v => (fst v, decimal (snd v))) vals) = l_enum L n sg vals.
  Hypothesis A_seq : forall t, s_vlen st t = l_seq L t.

  Lemma no_name X sig r : named st [] 0 X sig r <-> r = Ok sig.
  Proof. unfold named. rewrite (mbind_is (finds st [] 0 X sig) _ [] (fun q => mret_is [] q)). reflexivity. Qed.
  Lemma text_no_name s : TypeTextSpec.text L [] s = body L [] s.
  Proof. rewrite text_body. unfold name_of. destruct (nameable s); reflexivity. Qed.

  Lemma written_text X s : writable s -> forall r, typeString st [] 0 X (describe s) r <-> r = Ok (TypeTextSpec.text L [] (type_shape s)).
  Proof.
    induction s as [k| |n|k ns vs|fs IH|s IH] using sty_ind'; intros W r; rewrite text_no_name.
    - destruct k; cbn [describe type_shape body ksize ksigned]; rewrite ?ts_fixed, ?ts_float;
        (apply mopt_is; (apply A_fixed; unfold int_size; auto) || (apply A_float; auto)).
    - cbn [describe type_shape body]. rewrite ts_vlen. reflexivity.
    - cbn [describe type_shape body]. rewrite ts_opaque, A_opaque. apply no_name.
    - cbn [describe type_shape body]. rewrite ts_enum, (mbind_is _ _ _ (mopt_is _ _ (A_fixed _ (ksigned k) (ksize_proper k)))).
      rewrite combine_decimals by (apply Forall_forall; intros v Hv; apply in_map_iff in Hv; destruct Hv as (z & <- & _); eauto).
      rewrite A_enum by apply ksize_proper. rewrite no_name, map_map. cbn [integer_of]. rewrite map_id. reflexivity.
    - rewrite describe_comp, ts_comp. cbn [type_shape body].
      assert (G : forall off q, memberTexts (typeString st [] 0 X) (describe_fields off fs) q <->
                q = Ok (map (fun m => match m with (n, t) => (n, TypeTextSpec.text L [] t) end)
                            (map (fun m => match m with (n, t) => (n, type_shape t) end) fs))).
      { destruct W as (_ & _ & W). revert W. induction IH as [|[nm s] fs H _ IHl]; intros W off q; [reflexivity|].
        destruct W as (_ & W1 & _ & W2). cbn [describe_fields map memberTexts snd] in *.
        rewrite (mbind_is _ _ _ (H W1)), (mbind_is _ _ _ (IHl W2 _)). reflexivity. }
      rewrite (mbind_is _ _ _ (G 0)), A_struct. apply no_name.
    - cbn [describe type_shape body]. rewrite ts_vlen, (mbind_is _ _ _ (IH (proj1 W))), A_seq. apply no_name.
  Qed.
  Lemma string_text X n : forall r, typeString st [] 0 X (DString n) r <-> r = Ok (TypeTextSpec.text L [] SText).
  Proof. intros r. rewrite ts_string. reflexivity. Qed.
End NoNames.

(** What holds of a type read back, where [s] was written *)
Definition told_as (s : sty) (d : dty) : Prop :=
  (forall X r, typeString cdlStyle [] 0 X d r <-> r = Ok (TypeTextSpec.text (CDL decimal) [] (type_shape s))) /\
  (forall v X r, typeString (goStyle v) [] 0 X d r <-> r = Ok (TypeTextSpec.text (Golang decimal v) [] (type_shape s))).
Lemma told_describe s : writable s -> told_as s (describe s).
Proof.
  intros W. split.
  - intros X. apply written_text; try exact W; try reflexivity; [exact cdl_fixed|exact cdl_floats|exact cdl_structs|exact cdl_enums].
  - intros v X. apply written_text; try exact W; try reflexivity; [exact (go_fixed v)|exact (go_floats v)|exact (go_structs v)|exact (go_enums v)].
Qed.
Lemma told_string n : told_as SStr (DString n).
Proof. split; intros; apply string_text. Qed.
Lemma cdl_ne s : TypeTextSpec.text (CDL decimal) [] (type_shape s) <> [].
Proof. destruct s as [k| |n|k ns vs|fs|s]; try destruct k; rewrite text_no_name; try discriminate. cbn [type_shape body CDL l_seq]. apply app_ne. discriminate. Qed.
Lemma go_ne v s : TypeTextSpec.text (Golang decimal v) [] (type_shape s) <> [].
Proof. destruct s as [k| |n|k ns vs|fs|s]; try destruct k; rewrite text_no_name; discriminate. Qed.

Lemma var_message s dims v dt d : var_of_type s dims v ->
  buildDatatypeMessage false v (List.length dims) = Ok dt -> parseDatatype dt = Ok (d, []) -> told_as s d.
Proof.
  intros [(-> & -> & t & -> & Ht & Hl)|(W & V & O)] E1 E2.
  - destruct (scalar_string t Ht ltac:(lia)) as (A & B & _). cbn [List.length] in E1. rewrite A in E1. assert (dt = stringDt (zlen t + 1)) by congruence.
    subst dt. rewrite B in E2. assert (d = DString (zlen t + 1)) by congruence. subst d. apply told_string.
  - destruct (variable_codec s dims v W V O) as [A _]. rewrite A in E1. assert (dt = sdt s) by congruence. subst dt.
    rewrite (parse_message s (proj1 W)) in E2. assert (d = describe s) by congruence. subst d. apply told_describe, W.
Qed.

Lemma attr_message_type s dims v : attr_of_type s dims v ->
  attrDims v = dims /\ forall dt d, buildDatatypeMessage false v (List.length dims) = Ok dt -> parseDatatype dt = Ok (d, []) -> told_as s d.
Proof.
  intros [Hp [H|(W & V & O & M)]].
  - split; [destruct H as (-> & -> & t & -> & _); reflexivity|]. intros dt d. apply var_message; left; exact H.
  - destruct s as [k| |n|k ns vs|fs|s]; try contradiction.
    + split; [apply (attr_dims_value (SNum k) dims v eq_refl Hp V)|]. intros dt d. apply var_message; right.
      split; [split; [exact W|left; reflexivity]|split; assumption].
    + split; [apply (attr_dims_value SStr dims v eq_refl Hp V)|]. intros dt d. apply var_message; right.
      split; [split; [exact W|left; reflexivity]|split; assumption].
    + split; [apply (attr_dims_value (SEnum k ns vs) dims v eq_refl Hp V)|]. intros dt d. apply var_message; right.
      split; [split; [exact W|left; reflexivity]|split; assumption].
    + split; [apply (comps_dims fs dims Hp v V)|]. intros dt d E1 E2. destruct (attr_comp_codec fs dims v W V O M) as [A _].
      rewrite A in E1. assert (dt = sdt (SComp fs)) by congruence. subst dt.
      rewrite (parse_message _ W) in E2. assert (d = describe (SComp fs)) by congruence. subst d. apply told_describe, W.
    + split; [destruct (ragged_slice dims v M) as (t & l & ->); exact (ragged_dims s dims _ V M Hp)|]. intros dt d. apply var_message; right.
      split; [split; [exact W|right; eauto]|split; assumption].
Qed.

(** ** A written group has no named types *)
Lemma flat_none {A B} (F : A -> list B) l : (forall x, In x l -> F x = []) -> flat_map F l = [].
Proof. induction l as [|x l IH]; intros H; [reflexivity|]. cbn [flat_map]. rewrite (H x (or_introl eq_refl)), IH; [reflexivity|]. intros y Hy. apply H. right. exact Hy. Qed.
Lemma no_named f c t o : group_obj f c t o -> typeDefs o = [].
Proof.
  destruct t as [a vs gs]. rewrite group_obj_eq. intros (name & addr & al & vos & gos & -> & _ & Hv & Hg). unfold typeDefs. cbn [r_children].
  apply flat_none. intros [n o'] Hx. cbn [fst snd]. apply in_app_or in Hx. destruct Hx as [Hx|Hx].
  - assert (E : ri_dims (r_info o') <> None).
    { induction Hv as [|nv [m o] vs vos [_ (ad & dims & d & dn & size & al' & dal & E & _)] _ IH]; [contradiction|].
      destruct Hx as [Hx|Hx]; [|apply IH; exact Hx]. injection Hx as <- <-. cbn [snd] in E. rewrite E. discriminate. }
    destruct (ri_dims (r_info o')); [|congruence]. destruct (_ || _); reflexivity.
  - assert (E : ri_group (r_info o') = true).
    { revert gos Hg Hx. induction gs as [|[m g] gs IH]; intros [|[m' o] gos] H Hx; try contradiction.
      destruct H as (-> & H1 & H2). destruct Hx as [Hx|Hx]; [|apply (IH gos H2 Hx)]. injection Hx as <- <-. apply (children f c _ _ H1). }
    rewrite E. reflexivity.
Qed.
