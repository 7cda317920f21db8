(** Attributes of compounds: their strings and sequences go into the heap and are read from there. *)
From Verif Require Import Prelude GoVal OrderedMapModel ArraySpec H5Base H5MetaWrite H5MetaRead H5Value H5TypeRead
  H5FileWrite TypeSpec FileSpec BaseLemmas H5MetaProofs H5TypeProofs H5DataProofs H5StoreProofs H5VarProofs.
From Coq Require Import Lia ZifyBool ZifyNat.

(** ** The elements of an array *)
Lemma items_every (Q : hval -> Prop) n : forall v, Forall Q (items n v) -> every Q n v.
Proof.
  induction n as [|n IH]; intros v H; cbn [items every] in *; [inversion H; assumption|].
  destruct v; try exact I. rewrite Forall_flat_map in H. eapply Forall_impl; [|exact H]. exact IH.
Qed.

(** ** Strings *)
Lemma csElem_strs' s : forall h v, hinv h -> conf s v -> strs (csElem h v) s v.
Proof.
  induction s as [k| |n|k ns vs|fs IH|s IH] using sty_ind'; intros h v Hi H; try exact I.
  - destruct H as (t & -> & _). cbn [strs csElem]. apply add_string. exact Hi.
  - apply (proj1 (conf_comp _ _)) in H. destruct H as (l & -> & H). apply strs_comp.
    unfold csElem. rewrite cs_comp.
    revert l h Hi H. induction IH as [|[nm s] fs Hs _ IHf]; intros [|[nm' x] l] h Hi H;
      cbn [conf_fields] in H; try contradiction; try exact I.
    destruct H as (-> & Hx & H). cbn [snd] in Hs.
    change (csFields h ((nm, x) :: l)) with (csFields (csElem h x) l).
    destruct (csElem_good h x Hi) as [G1 G2]. split.
    + assert (G : forall l h, hinv h -> grow h (csFields h l)).
      { intros l' h' Hi'. apply (cs_good (HComp l') h' Hi'). }
      eapply strs_grow; [apply G; exact G1|]. apply Hs; assumption.
    + apply IHf; assumption.
Qed.
Lemma cs_comps fs ds : forall h v, hinv h -> array_of (SComp fs) ds v ->
  every (strs (collectStrings h v) (SComp fs)) (List.length ds) v.
Proof.
  induction ds as [|m ds IH]; intros h v Hi H; cbn [array_of] in H.
  - cbn [List.length every]. pose proof (csElem_strs' (SComp fs) h v Hi H) as E.
    apply (proj1 (conf_comp _ _)) in H. destruct H as (l & -> & _). exact E.
  - destruct H as (l & -> & _ & H). cbn [List.length every]. rewrite cs_slice.
    replace (shouldUseVLen (HSlice (nested (List.length ds) (go_type (SComp fs))) l)) with false.
    2:{ unfold shouldUseVLen, leaf_is_string. cbn [htype is_hslice leaf_ty]. rewrite leaf_nested, andb_true_r. reflexivity. }
    revert h Hi. induction H as [|x r Hx _ IHr]; intros h Hi; [constructor|].
    change (csList h (x :: r)) with (csList (collectStrings h x) r).
    destruct (cs_good x h Hi) as [G1 G2]. constructor; [|apply IHr; exact G1].
    eapply every_grow; [apply csList_good, G1|]. apply IH; assumption.
Qed.

(** ** Sequences *)
(** a member of a compound *)
Definition cvfMember (h : heapst) (x : hval) : res (heapst * list Z) :=
  match x with
  | HSlice _ l => let* (h, i) := serializeVlen false h l in Ok (h, [i])
  | _ => collectVlenFromValue false h x
  end.
Definition cvfMembers := fix go (h : heapst) (fs : list (bytes * hval)) : res (heapst * list Z) :=
  match fs with
  | [] => Ok (h, [])
  | (_, x) :: r =>
      let* (h, is) := cvfMember h x in
      let* (h, js) := go h r in
      Ok (h, is ++ js)
  end.
Lemma cvf_comp h l : collectVlenFromValue false h (HComp l) = cvfMembers h l.
Proof. reflexivity. Qed.
Definition member_sequences (x : hval) : Z := match x with HSlice _ _ => 1 | _ => attr_sequences x end.
Definition members_sequences := fix go (fs : list (bytes * hval)) : Z :=
  match fs with [] => 0 | (_, x) :: r => member_sequences x + go r end.
Lemma attr_sequences_comp l : attr_sequences (HComp l) = members_sequences l.
Proof. reflexivity. Qed.

Definition cvfRows := fix go (h : heapst) (l : list hval) : res (heapst * list Z) :=
  match l with
  | [] => Ok (h, [])
  | x :: r =>
      let* (h, is) := collectVlenFromValue false h x in
      let* (h, js) := go h r in
      Ok (h, is ++ js)
  end.
Definition rows_sequences := fix go (l : list hval) : Z := match l with [] => 0 | x :: r => attr_sequences x + go r end.
Lemma comp_klen fs v : conf (SComp fs) v -> klen v = Some (zlen fs).
Proof.
  intros H. apply (proj1 (conf_comp _ _)) in H. destruct H as (l & -> & H). cbn [klen]. f_equal.
  revert l H. induction fs as [|[nm s] fs IH]; intros [|[nm' x] l] H; cbn [conf_fields] in H; try contradiction; [reflexivity|].
  rewrite !zlen_cons. f_equal. apply IH. apply H.
Qed.
Lemma same_varying n l : Forall (fun x => klen x = Some n) l -> varying l = false.
Proof.
  intros H. destruct H as [|x r Hx Hr]; [reflexivity|]. unfold varying. rewrite Hx.
  induction Hr as [|y r Hy _ IH]; [reflexivity|]. cbn [existsb]. rewrite Hy, Z.eqb_refl. exact IH.
Qed.
Lemma comps_varying fs ds l : Forall (array_of (SComp fs) ds) l -> varying l = false.
Proof.
  intros H. destruct ds as [|n ds].
  - apply (same_varying (zlen fs)). eapply Forall_impl; [|exact H]. intros x Hx. exact (comp_klen fs x Hx).
  - apply (same_varying n). eapply Forall_impl; [|exact H]. intros x (m & -> & E & _). cbn [klen]. congruence.
Qed.
Lemma comps_even fs ds l : Forall (array_of (SComp fs) ds) l -> uneven l = false.
Proof.
  intros H. destruct ds as [|n ds].
  - assert (E : forall x, conf (SComp fs) x -> row_length x = 0).
    { intros x Hx. apply (proj1 (conf_comp _ _)) in Hx. destruct Hx as (q & -> & _). reflexivity. }
    destruct H as [|x r Hx Hr]; [reflexivity|]. cbn [uneven]. rewrite (E x Hx).
    induction Hr as [|y r Hy _ IH]; [reflexivity|]. cbn [existsb]. rewrite (E y Hy). exact IH.
  - destruct H as [|x r (m & -> & E & _) Hr]; [reflexivity|]. cbn [uneven row_length].
    induction Hr as [|y r (m' & -> & E' & _) _ IH]; [reflexivity|]. cbn [existsb row_length]. rewrite E, E', Z.eqb_refl. rewrite E in IH. exact IH.
Qed.
Lemma comps_dims fs ds : Forall (fun n => 0 < n) ds -> forall v, array_of (SComp fs) ds v -> attrDims v = ds /\ attrDimsIn v = ds.
Proof.
  induction ds as [|n ds IH]; intros Hp v H.
  - apply (proj1 (conf_comp _ _)) in H. destruct H as (l & -> & _). split; reflexivity.
  - cbn [array_of] in H. destruct H as (l & -> & Hl & H). inversion Hp as [|? ? P1 P2]; subst x l0.
    assert (E : attrDimsIn (HSlice (nested (List.length ds) (go_type (SComp fs))) l) = n :: ds).
    { destruct l as [|x r]; [change (zlen (@nil hval)) with 0 in Hl; lia|].
      cbn [attrDimsIn]. rewrite (comps_varying fs ds (x :: r) H). inversion H as [|? ? H1 H2]; subst x0 l.
      rewrite (proj2 (IH P2 x H1)). congruence. }
    split; exact E.
Qed.

Section Final.
  Variable heap : Z -> Z -> res (option bytes).
  Variable addr : Z.
  Variable hf : heapst.      (* the finished heap *)
  Hypothesis Hinv : hinv hf.
  Hypothesis Hcount : zlen (hs_objs hf) < 2 ^ 32.
  Hypothesis Hheap : forall i b, nth_error (hs_objs hf) i = Some b -> b <> [] ->
    heap addr (Z.of_nat i + 1) = Ok (Some b).
  Let e := {| he_addr := addr; he_idx := map_idx (hs_map hf) |}.

  Lemma member_stored s : writable s -> forall v h, hinv h -> conf s v ->
    exists h' ix, cvfMember h v = Ok (h', ix) /\ hinv h' /\ grow h h' /\ hs_map h' = hs_map h /\
      zlen (hs_objs h') = zlen (hs_objs h) + member_sequences v /\
      (grow h' hf -> strs hf s v -> forall jx, stored heap e s v (ix ++ jx) jx).
  Proof.
    induction s as [k| |n|k ns vs|fs IH|s IH] using sty_ind'; intros Hw v h Hi H.
    1,2,3,4: exists h, [].
    - pose proof H as (z & -> & _). split; [reflexivity|]. split; [exact Hi|]. split; [apply grow_refl|]. split; [reflexivity|].
      split; [cbn [member_sequences attr_sequences]; lia|]. intros _ S jx.
      exact (strs_stored heap addr hf Hinv Hcount Hheap (SNum k) eq_refl _ jx H S).
    - pose proof H as (z & -> & _). split; [reflexivity|]. split; [exact Hi|]. split; [apply grow_refl|]. split; [reflexivity|].
      split; [cbn [member_sequences attr_sequences]; lia|]. intros _ S jx.
      exact (strs_stored heap addr hf Hinv Hcount Hheap SStr eq_refl _ jx H S).
    - pose proof H as (z & -> & _). split; [reflexivity|]. split; [exact Hi|]. split; [apply grow_refl|]. split; [reflexivity|].
      split; [cbn [member_sequences attr_sequences]; lia|]. intros _ S jx. reflexivity.
    - pose proof H as (z & -> & _). split; [reflexivity|]. split; [exact Hi|]. split; [apply grow_refl|]. split; [reflexivity|].
      split; [cbn [member_sequences attr_sequences]; lia|]. intros _ S jx. reflexivity.
    - apply (proj1 (conf_comp _ _)) in H. destruct H as (l & -> & H). apply (proj1 (writable_comp _)) in Hw. destruct Hw as (_ & _ & Hw).
      assert (E : exists h' ix, cvfMembers h l = Ok (h', ix) /\ hinv h' /\ grow h h' /\ hs_map h' = hs_map h /\
        zlen (hs_objs h') = zlen (hs_objs h) + members_sequences l /\
        (grow h' hf -> strs_fields hf fs l -> forall jx, stored_fields heap e jx fs l (ix ++ jx))).
      { revert l h Hi H Hw. induction IH as [|[nm s] fs Hs _ IHf]; intros [|[nm' x] l] h Hi H Hw;
          cbn [conf_fields] in H; try contradiction.
        - exists h, []. split; [reflexivity|]. split; [exact Hi|]. split; [apply grow_refl|]. split; [reflexivity|].
          split; [cbn [members_sequences]; lia|]. intros _ _ jx. reflexivity.
        - destruct H as (-> & Hx & H). cbn [writable_fields] in Hw. destruct Hw as (_ & Hws & _ & Hw). cbn [snd] in Hs.
          destruct (Hs Hws x h Hi Hx) as (h1 & ix1 & A1 & A2 & A3 & A4 & A5 & A6).
          destruct (IHf l h1 A2 H Hw) as (h2 & ix2 & B1 & B2 & B3 & B4 & B5 & B6).
          exists h2, (ix1 ++ ix2). split.
          { cbn [cvfMembers]. rewrite A1. cbn [rbind]. rewrite B1. reflexivity. }
          split; [exact B2|]. split; [eapply grow_trans; eassumption|]. split; [congruence|].
          split; [cbn [members_sequences]; lia|]. intros G [S1 S2] jx. cbn [stored_fields]. exists (ix2 ++ jx). split.
          + rewrite <- app_assoc. apply A6; [eapply grow_trans; eassumption|exact S1].
          + apply B6; assumption. }
      destruct E as (h' & ix & E1 & E2 & E3 & E4 & E5 & E6). exists h', ix. cbn [cvfMember]. rewrite cvf_comp.
      split; [exact E1|]. split; [exact E2|]. split; [exact E3|]. split; [exact E4|].
      split; [cbn [member_sequences]; rewrite attr_sequences_comp; exact E5|].
      intros G S jx. apply stored_comp. apply E6; [exact G|]. apply strs_comp. exact S.
    - destruct Hw as [Hw Hc]. destruct (seqs_stored heap addr hf Hcount Hheap s [] Hw Hc v h Hi H) as (h' & ix & A1 & A2 & A3 & A4 & A5).
      apply (proj1 (conf_vlen _ _)) in H. destruct H as (l & -> & Hl & H). exists h', ix.
      split; [exact A1|]. split; [exact A2|]. split; [exact A3|]. split; [exact A4|]. split; [|intros G _ jx; exact (A5 G jx)].
      cbn [member_sequences]. cbn [List.length collectVlenElements] in A1. unfold serializeVlen in A1.
      rewrite (closed_sers s h l Hc H) in A1. cbn [rbind add_object] in A1.
      injection A1 as A1 _. subst h'.
      cbn [hs_objs]. rewrite zlen_app. reflexivity.
  Qed.

  Lemma comps_stored fs dims : writable (SComp fs) -> forall v h, hinv h -> array_of (SComp fs) dims v ->
    exists h' ix, collectVlenFromValue false h v = Ok (h', ix) /\ hinv h' /\ grow h h' /\ hs_map h' = hs_map h /\
      zlen (hs_objs h') = zlen (hs_objs h) + attr_sequences v /\
      (grow h' hf -> every (strs hf (SComp fs)) (List.length dims) v -> forall jx, stored_arr heap e (SComp fs) dims v (ix ++ jx) jx).
  Proof.
    intros Hw. induction dims as [|n ds IH]; intros v h Hi H; cbn [array_of] in H.
    - destruct (member_stored (SComp fs) Hw v h Hi H) as (h' & ix & A). apply (proj1 (conf_comp _ _)) in H.
      destruct H as (l & -> & _). exists h', ix. exact A.
    - destruct H as (l & -> & _ & H). cbn [List.length].
      change (collectVlenFromValue false h (HSlice (nested (List.length ds) (go_type (SComp fs))) l))
        with ((fix go (h : heapst) (l' : list hval) : res (heapst * list Z) :=
         match l' with
         | [] => Ok (h, [])
         | x :: r =>
             let* (h, is) :=
               (if varying l then let* (h, i) := serializeAny false h x in Ok (h, [i])
                else collectVlenFromValue false h x) in
             let* (h, js) := go h r in
             Ok (h, is ++ js)
         end) h l).
      change (attr_sequences (HSlice (nested (List.length ds) (go_type (SComp fs))) l)) with
        (if uneven l then zlen l else rows_sequences l).
      rewrite (comps_varying fs ds l H), (comps_even fs ds l H).
      change (exists h' ix, cvfRows h l = Ok (h', ix) /\ hinv h' /\ grow h h' /\ hs_map h' = hs_map h /\
        zlen (hs_objs h') = zlen (hs_objs h) + rows_sequences l /\
        (grow h' hf -> Forall (every (strs hf (SComp fs)) (List.length ds)) l ->
         forall jx, stored_arr heap e (SComp fs) (n :: ds) (HSlice (nested (List.length ds) (go_type (SComp fs))) l) (ix ++ jx) jx)).
      assert (E : exists h' ix, cvfRows h l = Ok (h', ix) /\ hinv h' /\ grow h h' /\ hs_map h' = hs_map h /\
        zlen (hs_objs h') = zlen (hs_objs h) + rows_sequences l /\
        (grow h' hf -> Forall (every (strs hf (SComp fs)) (List.length ds)) l ->
         forall jx, stored_list heap e (SComp fs) ds jx l (ix ++ jx))).
      { revert h Hi. induction H as [|x r Hx _ IHr]; intros h Hi.
        - exists h, []. split; [reflexivity|]. split; [exact Hi|]. split; [apply grow_refl|]. split; [reflexivity|].
          split; [cbn [rows_sequences]; lia|]. intros _ _ jx. reflexivity.
        - destruct (IH _ _ Hi Hx) as (h1 & ix1 & A1 & A2 & A3 & A4 & A5 & A6).
          destruct (IHr _ A2) as (h2 & ix2 & B1 & B2 & B3 & B4 & B5 & B6).
          exists h2, (ix1 ++ ix2). split.
          { cbn [cvfRows]. rewrite A1. cbn [rbind]. rewrite B1. reflexivity. }
          split; [exact B2|]. split; [eapply grow_trans; eassumption|]. split; [congruence|].
          split; [cbn [rows_sequences]; lia|]. intros G S jx. inversion S as [|y q S1 S2]; subst y q.
          cbn [stored_list]. exists (ix2 ++ jx). split.
          + rewrite <- app_assoc. apply A6; [eapply grow_trans; eassumption|exact S1].
          + apply B6; assumption. }
      destruct E as (h' & ix & E1 & E2 & E3 & E4 & E5 & E6). exists h', ix.
      split; [exact E1|]. split; [exact E2|]. split; [exact E3|]. split; [exact E4|]. split; [exact E5|].
      intros G S jx. apply stored_arr_slice. apply E6; assumption.
  Qed.
End Final.

(** ** What is written is read *)
Lemma attr_comp_codec fs dims v : writable (SComp fs) -> array_of (SComp fs) dims v -> shape_ok (SComp fs) dims v ->
  Forall (fun x => seqs_ok (SComp fs) x = true) (items (List.length dims) v) ->
  buildDatatypeMessage false v (List.length dims) = Ok (sdt (SComp fs)) /\
  forall h0 h1, hinv h0 -> hinv h1 -> grow (collectStrings h0 v) h1 ->
  exists h2 ix, collectVlenFromValue false h1 v = Ok (h2, ix) /\
    hinv h2 /\ grow h1 h2 /\ hs_map h2 = hs_map h1 /\ zlen (hs_objs h2) = zlen (hs_objs h1) + attr_sequences v /\
    forall hf heap addr, grow h2 hf -> hinv hf -> heap_gives heap addr hf ->
      stored_arr heap (env_of addr hf) (SComp fs) dims v ix [] /\ readable heap (env_of addr hf) (SComp fs) dims v ix.
Proof.
  intros Hw H [Hp Hf] Hq. split.
  { apply buildDt_first; try assumption; discriminate. }
  intros h0 h1 H0 H1 G.
  destruct (comps_stored (fun _ _ => Err EInternal) 0 {| hs_objs := []; hs_map := [] |} hinv_empty) with
    (fs := fs) (dims := dims) (v := v) (h := h1) as (h2 & ix & A1 & A2 & A3 & A4 & A5 & _); try assumption.
  { reflexivity. }
  { intros i b Hi. destruct i; discriminate. }
  exists h2, ix. split; [exact A1|]. split; [exact A2|]. split; [exact A3|]. split; [exact A4|]. split; [exact A5|].
  intros hf heap addr G2 Hi (Ha & Hc & Hh).
  destruct (comps_stored heap addr hf Hi Hc Hh fs dims Hw v h1 H1 H) as (h2' & ix' & B1 & _ & _ & _ & _ & B6).
  rewrite A1 in B1. assert (h2' = h2) by congruence. assert (ix' = ix) by congruence. subst h2' ix'.
  assert (Hst : every (strs hf (SComp fs)) (List.length dims) v).
  { eapply every_grow; [|apply (cs_comps fs dims h0 v H0 H)].
    eapply grow_trans; [exact G|]. eapply grow_trans; [exact A3|exact G2]. }
  specialize (B6 G2 Hst []). rewrite app_nil_r in B6.
  split; [exact B6|].
  destruct (array_write heap (env_of addr hf) (SComp fs) (fixedLenOf v)) with
    (R := fun v b => forall r, alloc heap (describe (SComp fs)) [] (b ++ r) = Ok (v, r)) (Q := fun x : hval => seqs_ok (SComp fs) x = true)
    (dims := dims) (v := v) (ix := ix) (ix' := @nil Z) as (b & A & B & C); try assumption.
  - discriminate.
  - intros x jx jx' Hx Hqx Hsx.
    destruct (elem_codec heap (env_of addr hf) Ha (SComp fs) Hw x jx jx' Hx Hqx Hsx) as (b & A & B & C).
    exists b. auto.
  - apply items_every. exact Hq.
  - exists b. split; [exact A|]. split; [exact B|].
    change (alloc heap (describe (SComp fs)) dims) with (allocDims (go_type (SComp fs)) (alloc heap (describe (SComp fs)) []) dims).
    apply allocDims_read. exact C.
Qed.
