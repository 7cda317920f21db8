(** Lemmas for C82. *)
From Coq Require Import Lia.
From Verif Require Import Prelude GoVal BaseLemmas OrderedMapModel OrderedMapProofs H5Base H5Value H5TypeRead H5FileRead H5TypeText
  H5AttrMapModel TypeTextSpec H5ShapeSpec AttrTypeSpec ForeignAttrSpec TypeTextProofs TypeTextGo H5TypeTextProofs.

(** ** What is in the map *)
Lemma filtered_in f l : forall m0 m, filtered f l m0 = Ok m -> forall k,
  assoc k m <> None <-> assoc k m0 <> None \/ (In k (map ra_name l) /\ mem k hiddenNames = false).
Proof.
  induction l as [|a l IH]; intros m0 m H k; cbn [filtered] in H.
  - injection H as <-. cbn [map In]. intuition.
  - destruct (mem (ra_name a) hiddenNames) eqn:E.
    + rewrite (IH _ _ H k). cbn [map In]. split; [intuition|]. intros [X|[[X|X] Y]]; [left; exact X| |right; split; assumption].
      subst k. congruence.
    + destruct (attrValue f a) as [v| |]; cbn [rbind] in H; try discriminate H. rewrite (IH _ _ H k). cbn [map In].
      destruct (beqb k (ra_name a)) eqn:B.
      * apply beqb_eq in B. subst k. rewrite assoc_set_same. split; [intros _; right; auto|intros _; left; discriminate].
      * assert (k <> ra_name a) by (intros ->; rewrite beqb_refl in B; discriminate B).
        rewrite assoc_set_other by assumption. split; [intuition|]. intros [X|[[X|X] Y]]; [left; exact X| |right; split; assumption].
        congruence.
Qed.
Lemma hidden_bookkeeping k : mem k hiddenNames = false <-> ~ In k bookkeeping.
Proof.
  rewrite <- (mem_In k bookkeeping). change hiddenNames with bookkeeping.
  destruct (mem k bookkeeping); intuition discriminate.
Qed.
Lemma map_has f l m : getAttributes f l = Ok m -> forall k,
  om_get m k <> None <-> In k (map ra_name l) /\ ~ In k bookkeeping.
Proof.
  unfold getAttributes. intros H k. destruct (filtered f l []) as [v| |] eqn:F; cbn [rbind] in H; try discriminate H.
  destruct (new_ordered_map (map fst v) v) as [om| |] eqn:N; cbn [rbind] in H; try discriminate H. injection H as <-.
  assert (om_vals om = v) as E.
  { unfold new_ordered_map in N. repeat match type of N with context [if ?b then _ else _] => destruct b; try discriminate N end. injection N as <-. reflexivity. }
  unfold om_get, om_hide. cbn [om_vals]. rewrite E, (filtered_in f l [] v F k), hidden_bookkeeping. cbn [assoc]. intuition.
Qed.

(** ** Texts are not empty *)
Lemma app_ne (a b : bytes) : a <> [] \/ b <> [] -> a ++ b <> [].
Proof. intros [H|H] E; apply app_eq_nil in E; destruct E; contradiction. Qed.
Lemma name_of_in F s n : name_of F s = Some n -> exists u, In (n, u) F.
Proof.
  unfold name_of. destruct (nameable s); [|discriminate]. destruct (find _ F) as [[m u]|] eqn:E; [|discriminate].
  intros [= <-]. exists u. apply find_some in E. apply E.
Qed.
Lemma cdl_text_ne num T s : (forall n u, In (n, u) T -> n <> []) -> proper_shape s -> text (CDL num) T s <> [].
Proof.
  intros HT Hs. destruct s; cbn [text]; (match goal with |- match name_of ?F ?x with _ => _ end <> [] => destruct (name_of F x) as [nm|] eqn:E end;
    [destruct (name_of_in _ _ _ E) as (u & Hu); exact (HT _ _ Hu)|]); cbn [CDL l_int l_float l_opaque l_struct l_enum l_seq l_array].
  - destruct Hs as [->|[->|[->| ->]]], sg; discriminate.
  - destruct Hs as [->| ->]; discriminate.
  - discriminate.
  - discriminate.
  - discriminate.
  - apply app_ne. right. apply app_ne. right. discriminate.
  - apply app_ne. right. discriminate.
  - apply app_ne. right. discriminate.
Qed.
Lemma go_text_ne num v T s : (forall n u, In (n, u) T -> n <> []) -> proper_shape s -> go_shape s -> text (Golang num v) T s <> [].
Proof.
  intros HT Hs Hg. destruct s; cbn [text]; (match goal with |- match name_of ?F ?x with _ => _ end <> [] => destruct (name_of F x) as [nm|] eqn:E end;
    [destruct (name_of_in _ _ _ E) as (u & Hu); exact (HT _ _ Hu)|]); cbn [Golang l_int l_float l_opaque l_struct l_enum l_seq l_array].
  - destruct Hs as [->|[->|[->| ->]]], sg; discriminate.
  - destruct Hs as [->| ->]; discriminate.
  - discriminate.
  - discriminate.
  - discriminate.
  - apply app_ne. right. discriminate.
  - discriminate.
  - destruct dims as [|d dims]; [destruct Hg as [Hg _]; congruence|]. discriminate.
Qed.
Lemma marks_dims mark dims : dimMarks mark dims = marks mark dims.
Proof.
  assert (R : forall l : list Z, List.concat (map (fun _ => mark) l) = List.concat (repeat mark (List.length l))).
  { induction l as [|x l IH]; [reflexivity|]. cbn [map List.concat List.length repeat]. rewrite IH. reflexivity. }
  unfold dimMarks, marks. rewrite R. reflexivity.
Qed.
Lemma without_none (T : list (bytes * shape)) : without [] T = T.
Proof. unfold without. induction T as [|x l IH]; [reflexivity|]. cbn [filter mem existsb negb]. f_equal. exact IH. Qed.
Lemma ne_some s : s <> [] -> orNone s = Some s.
Proof. destruct s; [congruence|reflexivity]. Qed.

Lemma uncaught_is {A} (m : M A) a : (forall r, m r <-> r = Ok a) -> forall r, uncaught m r <-> r = Ok a.
Proof.
  intros H r. unfold uncaught. split.
  - intros (q & Hq & ->). apply H in Hq. subst q. reflexivity.
  - intros ->. exists (Ok a). split; [apply H; reflexivity|reflexivity].
Qed.
Lemma uncaught_fails {A B} e (k : A -> M B) : forall r, uncaught (mbind (mfail e) k) r <-> r = Panic.
Proof.
  intros r. unfold uncaught, mbind, mfail. split.
  - intros (q & [(a & Ha & _)|[(e' & [= <-] & ->)|[Ha _]]] & ->); try discriminate; reflexivity.
  - intros ->. exists (Err e). split; [right; left; exists e; split; reflexivity|reflexivity].
Qed.

(** ** What the map tells *)
Section Told.
  Variables (root : robj) (h : rhandle) (T : list (bytes * shape)).
  Hypothesis HT : type_table (typeDefs (rh_obj h)) T.

  Lemma map_type_some m b key : om_get m key <> None ->
    find (fun a => beqb (ra_name a) key) (r_attrs root) = Some b ->
    proper_types cdl_words T -> no_member_dims (ra_ty b) -> proper_shape (shape_of (ra_ty b)) ->
    forall r, mapType root h m key r <-> r = Ok (Some (attribute_cdl decimal T (shape_of (ra_ty b)) (ra_dims b))).
  Proof.
    intros Hk Hb Hp Hd Hs. unfold mapType. destruct (om_get m key) as [v|]; [|congruence].
    assert (NE : attribute_cdl decimal T (shape_of (ra_ty b)) (ra_dims b) <> []).
    { apply app_ne. left. apply cdl_text_ne; [|exact Hs]. intros n u Hi. destruct Hp as (_ & _ & Hp). apply (Hp _ _ Hi). }
    apply uncaught_is. intros r. unfold globalAttrType. rewrite Hb. cbn [textOf].
    rewrite (mbind_is (mbind _ _) _ (attribute_cdl decimal T (shape_of (ra_ty b)) (ra_dims b))).
    - rewrite (ne_some _ NE). reflexivity.
    - intros q. rewrite (mbind_is _ _ _ (cdl_type_text _ _ HT Hp [] _ Hd Hs)). rewrite without_none, marks_dims. reflexivity.
  Qed.

  Lemma map_go_type_some m b key : om_get m key <> None ->
    find (fun a => beqb (ra_name a) key) (r_attrs root) = Some b ->
    proper_types go_words T -> (forall n s, In (n, s) T -> go_shape s) ->
    no_member_dims (ra_ty b) -> proper_shape (shape_of (ra_ty b)) -> go_shape (shape_of (ra_ty b)) ->
    forall r, mapGoType root h m key r <-> r = Ok (Some (attribute_in_go decimal key T (shape_of (ra_ty b)) (ra_dims b))).
  Proof.
    intros Hk Hb Hp Hgt Hd Hs Hg. unfold mapGoType. destruct (om_get m key) as [v|]; [|congruence].
    assert (NE : attribute_in_go decimal key T (shape_of (ra_ty b)) (ra_dims b) <> []).
    { apply app_ne. right. apply go_text_ne; [|exact Hs|exact Hg]. intros n u Hi. destruct Hp as (_ & _ & Hp). apply (Hp _ _ Hi). }
    apply uncaught_is. intros r. unfold globalAttrGoType. rewrite Hb. cbn [textOf].
    rewrite (mbind_is (mbind _ _) _ (attribute_in_go decimal key T (shape_of (ra_ty b)) (ra_dims b))).
    - rewrite (ne_some _ NE). reflexivity.
    - intros q. rewrite (mbind_is _ _ _ (go_type_text key _ _ HT Hp Hgt [] _ Hd Hs Hg)). rewrite without_none, marks_dims. reflexivity.
  Qed.
End Told.

Lemma map_type_unknown root h m key : om_get m key <> None ->
  find (fun a => beqb (ra_name a) key) (r_attrs root) = None ->
  (forall r, mapType root h m key r <-> r = Panic) /\ (forall r, mapGoType root h m key r <-> r = Panic).
Proof.
  intros Hk Hb. unfold mapType, mapGoType. destruct (om_get m key) as [v|]; [|congruence].
  unfold globalAttrType, globalAttrGoType. rewrite Hb. split; apply uncaught_fails.
Qed.
