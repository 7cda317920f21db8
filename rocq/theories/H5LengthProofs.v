(** The sizes that createDimensionScales collects are lengths of variables. *)
From Verif Require Import Prelude GoVal OrderedMapModel ArraySpec H5MetaWrite H5Value H5FileWrite TypeSpec FileSpec BaseLemmas
  H5TypeProofs H5TreeProofs H5PrepareProofs H5GoodProofs.
From Coq Require Import Lia ZifyBool ZifyNat.

Definition size_in (v : hvar) (d : bytes) (s : Z) : Prop :=
  exists i, nth_error (hv_dims v) i = Some d /\ s = nth i (getDims (hv_val v)) 0.

Lemma dims_of_names_size names : forall shape acc d s, In (d, s) (dims_of_names names shape acc) ->
  In (d, s) acc \/ exists i, nth_error names i = Some d /\ s = nth i shape 0.
Proof.
  induction names as [|n names IH]; intros shape acc d s H; cbn [dims_of_names] in H; [left; exact H|].
  destruct (IH _ _ _ _ H) as [E|(i & E1 & E2)].
  - destruct (beqb n [] || mem n (map fst acc)); [left; exact E|]. apply in_app_iff in E. destruct E as [E|[E|[]]]; [left; exact E|].
    right. exists 0%nat. injection E as <- <-. split; [reflexivity|]. destruct shape; reflexivity.
  - right. exists (Datatypes.S i). split; [exact E1|]. rewrite E2. destruct shape as [|x shape]; [destruct i; reflexivity|reflexivity].
Qed.
Lemma dims_of_vars_size vs : forall acc d s, In (d, s) (dims_of_vars vs acc) ->
  In (d, s) acc \/ exists v, In v vs /\ hv_scale (snd v) = false /\ size_in (snd v) d s.
Proof.
  unfold dims_of_vars. induction vs as [|v vs IH]; intros acc d s H; cbn [fold_left] in H; [left; exact H|].
  destruct (IH _ _ _ H) as [E|(w & E1 & E2)]; [|right; exists w; split; [right; exact E1|exact E2]].
  destruct (hv_scale (snd v)) eqn:Es; [left; exact E|]. apply dims_of_names_size in E. destruct E as [E|E]; [left; exact E|].
  right. exists v. split; [left; reflexivity|]. split; [exact Es|exact E].
Qed.
Lemma collectDims_size t : forall p acc d s, In (d, s) (collectDims t acc) ->
  In (d, s) acc \/ exists x, In x (all_vars p t) /\ hv_scale (snd x) = false /\ size_in (snd x) d s.
Proof.
  induction t as [a vs gs IH] using wtree_ind'. intros p acc d s H. rewrite collectDims_eq in H. rewrite all_vars_eq.
  assert (G : forall acc, In (d, s) (collectDimsIn gs acc) -> In (d, s) acc \/
    exists x, In x (all_vars_in p gs) /\ hv_scale (snd x) = false /\ size_in (snd x) d s).
  { clear - IH. induction IH as [|[n g] gs Hg _ IHg]; intros acc H; cbn [collectDimsIn all_vars_in] in *; [left; exact H|].
    destruct (IHg _ H) as [E|(x & E1 & E2)].
    - destruct (Hg (p ++ [n]) acc d s E) as [E'|(x & E1 & E2)]; [left; exact E'|]. right. exists x.
      rewrite in_app_iff. split; [left; exact E1|exact E2].
    - right. exists x. rewrite in_app_iff. split; [right; exact E1|exact E2]. }
  destruct (G _ H) as [E|(x & E1 & E2)].
  - apply dims_of_vars_size in E. destruct E as [E|(v & E1 & E2)]; [left; exact E|]. right. exists ((p, fst v), snd v).
    rewrite in_app_iff. split; [left; apply in_map_iff; exists v; auto|exact E2].
  - right. exists x. rewrite in_app_iff. split; [right; exact E1|exact E2].
Qed.

Lemma add_scales_other ds : forall i vs r n, add_scales i ds vs = Ok r -> ~ In n (map fst ds) -> assoc n r = assoc n vs.
Proof.
  induction ds as [|d ds IH]; intros i vs r n E Hn; cbn [add_scales] in E; [congruence|].
  destruct (scale_of i d vs) as [v| |]; try discriminate. cbn [rbind] in E. cbn [map In] in Hn.
  rewrite (IH _ _ _ n E) by tauto. apply assoc_set_other. intros ->. apply Hn. left. reflexivity.
Qed.
Lemma add_scales_size ds : forall i vs r n v, NoDup (map fst ds) -> add_scales i ds vs = Ok r ->
  assoc n vs = None -> assoc n r = Some v -> exists j s, v = bare j n s /\ 0 <= s <= 2 ^ 48 /\ In (n, s) ds.
Proof.
  induction ds as [|d ds IH]; intros i vs r n v Hd E Hn Hr; cbn [add_scales] in E; [congruence|].
  cbn [map] in Hd. inversion Hd as [|? ? D1 D2]; subst x l.
  destruct (scale_of i d vs) as [w| |] eqn:Ew; try discriminate. cbn [rbind] in E.
  destruct (beqb n (fst d)) eqn:Eb.
  - apply beqb_eq in Eb. subst n. rewrite (add_scales_other _ _ _ _ _ E D1), assoc_set_same in Hr.
    unfold scale_of in Ew. rewrite Hn in Ew. unfold synthetic, go_make in Ew.
    destruct ((snd d <? 0) || (2 ^ 48 <? snd d * 1)) eqn:Eg; [discriminate|]. cbn [rbind] in Ew.
    exists i, (snd d). split; [unfold bare; congruence|]. split; [lia|]. left. destruct d; reflexivity.
  - destruct (IH (i + 1) (assoc_set (fst d) w vs) r n v D2 E) as (j & s & A & B & C).
    + rewrite assoc_set_other; [exact Hn|]. intros ->. rewrite beqb_refl in Eb. discriminate.
    + exact Hr.
    + exists j, s. split; [exact A|]. split; [exact B|right; exact C].
Qed.
Lemma prepare_size t t1 d v : prepare t = Ok t1 -> assoc d (w_vars t) = None -> assoc d (w_vars t1) = Some v ->
  exists j s, v = bare j d s /\ 0 <= s <= 2 ^ 48 /\
    exists x, In x (all_vars [] t) /\ hv_scale (snd x) = false /\ size_in (snd x) d s.
Proof.
  unfold prepare. intros E Hn Hv. destruct (addNCProperties (w_attrs t)) as [a| |]; try discriminate. cbn [rbind] in E.
  destruct (add_scales 0 (collectDims (sort_tree t) []) (w_vars t)) as [vs| |] eqn:Es; try discriminate. cbn [rbind] in E.
  assert (E' : t1 = WNode (Some a) vs (w_groups t)) by congruence. subst t1. cbn [w_vars] in Hv.
  destruct (collectDims_spec (sort_tree t) [] [] (NoDup_nil _)) as [N _].
  destruct (add_scales_size _ _ _ _ _ _ N Es Hn Hv) as (j & s & A & B & C). exists j, s. split; [exact A|]. split; [exact B|].
  destruct (collectDims_size _ [] _ _ _ C) as [[]|(x & X1 & X2)]. exists x. split; [apply all_vars_sort; exact X1|exact X2].
Qed.

(** The shape told *)
Lemma getDims_told s dims : novlen s = true -> shape_told dims -> forall v, array_of s dims v -> getDims v = dims.
Proof.
  intros Hs. unfold shape_told. induction dims as [|n ds IH]; intros Hp v H; cbn [array_of] in H.
  - destruct s as [k| |n|k ns vs|fs|s]; try discriminate Hs; destruct H as (z & -> & _); reflexivity.
  - destruct H as (l & -> & Hl & H). destruct ds as [|m ds].
    + destruct l as [|x r]; [change (zlen (@nil hval)) with 0 in Hl; subst n; reflexivity|].
      inversion H as [|x' r' Hx Hr]; subst x' r'. cbn [getDims]. rewrite (IH (Forall_nil _) x Hx). congruence.
    + cbn [removelast] in Hp. inversion Hp as [|? ? P1 P2]; subst x l0. destruct l as [|x r].
      { change (zlen (@nil hval)) with 0 in Hl. lia. }
      inversion H as [|x' r' Hx Hr]; subst x' r'. cbn [getDims]. rewrite (IH P2 x Hx). congruence.
Qed.
Lemma getDims_seq s dims : (forall n, In n dims -> 0 < n) -> forall v, array_of (SVlen s) dims v -> exists tl, getDims v = dims ++ tl.
Proof.
  induction dims as [|n ds IH]; intros Hp v H; cbn [array_of] in H; [eexists; reflexivity|].
  destruct H as (l & -> & Hl & H). destruct l as [|x r].
  { specialize (Hp n (or_introl eq_refl)). change (zlen (@nil hval)) with 0 in Hl. lia. }
  inversion H as [|x' r' Hx Hr]; subst x' r'. destruct (IH (fun m Hm => Hp m (or_intror Hm)) x Hx) as (tl & E).
  exists tl. cbn [getDims]. rewrite E, Hl. reflexivity.
Qed.
Lemma getDims_fine dims v : var_value dims v -> shape_told dims -> exists tl, getDims v = dims ++ tl.
Proof.
  intros [H|(s & (_ & Hn) & _ & Hv & Hs)] Hp.
  - exists []. rewrite app_nil_r. destruct (num_or_text_cases dims v H) as [(s & Hs & _ & Ha & _)|(-> & t & -> & _)].
    + eapply getDims_told; [apply plain_novlen; exact Hs|exact Hp|exact Ha].
    + reflexivity.
  - destruct Hn as [Hn|(s' & ->)].
    + exists []. rewrite app_nil_r. destruct s as [k| |n|k ns vs|fs|s]; cbn [value_of] in Hv; try (eapply getDims_told; eassumption).
      destruct Hv as (w & -> & Hw). exact (getDims_told (SNum k) dims eq_refl Hp w Hw).
    + exact (getDims_seq s' dims (proj1 Hs) v Hv).
Qed.
